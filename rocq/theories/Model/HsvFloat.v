(** pytermor/color.py:28-68 [hex_value_to_hsv_channels] and render.py:262-283 [autopick_fg] with the
    floats of Python (see TimeFloat.v): the quotients of two ints, and all results of float operations
    are rounded; [max], [min] and comparisons are exact, and so is [60 * x] but for its rounding. *)
From Coq Require Import List ZArith QArith Qminmax.
From Verif.Model Require Import Base Color Presets Render TimeFloat.
Local Open Scope Q_scope.

Definition hsv_doubles (hex : Z) : result (Q * Q * Q) :=
  let '(r, g, b) := hex_value_to_rgb_channels hex in
  let rn := round64 (r # 255) in let gn := round64 (g # 255) in let bn := round64 (b # 255) in
  let vmax := Qmax rn (Qmax gn bn) in
  let vmin := Qmin rn (Qmin gn bn) in
  let c := round64 (vmax - vmin) in
  let v := vmax in
  let hue (k : Q) (x y : Q) := round64 (60 * round64 (k + round64 (round64 (x - y) / c))) in
  bind (if Qeq_bool c 0 then Ok 0
        else if Qeq_bool v rn then Ok (hue 0 gn bn)
        else if Qeq_bool v gn then Ok (hue 2 bn rn)
        else if Qeq_bool v bn then Ok (hue 4 rn gn)
        else Err LogicError) (fun h =>
  let s := if Qeq_bool v 0 then 0 else round64 (c / v) in
  let h := if Qle_bool 0 h then h else round64 (h + 360) in
  Ok (h, s, v)).

(** [v >= .45]: the literal is rounded, too *)
Definition autopick_doubles (s : style) : result style :=
  match hex_value (st_bg s) with
  | None => Ok s
  | Some hex => bind (hsv_doubles hex) (fun '(_, _, v) =>
      Ok (with_colors s (if Qle_bool (round64 (45 # 100)) v then RGB_GREY_4 else RGB_GREY_80) (st_bg s)))
  end.
