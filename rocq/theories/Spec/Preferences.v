(** Specification side: settings made by calls, colors as hue, saturation and value, ready-made styles *)
From Coq Require Import Ascii String.
From Coq Require Import List NArith ZArith QArith Qround Bool.
From Verif.Spec Require Import Terminal.
Import ListNotations.

(** [latest f h x]: what the last call of [h] that [f] speaks of has set, [None] if there is no such call *)
Definition latest {O A} (f : O -> option A) (h : list O) (x : option A) : Prop :=
  match x with
  | None => forall o, In o h -> f o = None
  | Some v => exists a o b, h = a ++ o :: b /\ f o = Some v /\ forall o', In o' b -> f o' = None
  end.

(** what the names of styles promise *)
Definition PRESENTED : list (string * attrs) :=
  let fg n := set_fg (ColIdx n) attrs0 in
  let both n m := set_bg (ColIdx m) (set_fg (ColIdx n) attrs0) in
  [ ("WARNING", fg 3%N); ("WARNING_LABEL", set_bold true (fg 3%N)); ("WARNING_ACCENT", fg 11%N);
    ("ERROR", fg 1%N); ("ERROR_LABEL", set_bold true (fg 1%N)); ("ERROR_ACCENT", fg 9%N);
    ("CRITICAL", both 15%N 9%N); ("CRITICAL_LABEL", set_bold true (both 15%N 9%N));
    ("CRITICAL_ACCENT", set_blink 1%N (set_bold true (both 15%N 9%N))) ]%string.

(** a color in terms of hue (degrees), saturation and value: of the six sectors of the color wheel
    the [k]-th, at [f] of its way; one channel is the largest, one the smallest, one in between *)
Local Open Scope Q_scope.
Definition from_hsv (h s v : Q) (r g b : Q) : Prop :=
  exists (k : Z) (f : Q), (0 <= k <= 5)%Z /\ 0 <= f < 1 /\ h == 60 * (inject_Z k + f) /\
    let low := v - v * s in
    let rising := low + v * s * f in
    let falling := low + v * s * (1 - f) in
    match k with
    | 0%Z => r == v /\ g == rising /\ b == low
    | 1%Z => r == falling /\ g == v /\ b == low
    | 2%Z => r == low /\ g == v /\ b == rising
    | 3%Z => r == low /\ g == falling /\ b == v
    | 4%Z => r == rising /\ g == low /\ b == v
    | _ => r == v /\ g == low /\ b == falling
    end.
(** the channel (0 to 255) closest to a number from 0 to 1 *)
Definition to_channel (x : Q) : Z := Qfloor (255 * x + (1 # 2)).
