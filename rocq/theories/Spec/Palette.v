(** Specification side: colors as numbers, distance, nearest registered color *)
From Coq Require Import List NArith ZArith Bool.
From Verif.Model Require Import Color.
Import ListNotations.
Local Open Scope Z_scope.

Definition red (h : Z) : Z := h / 65536 mod 256.
Definition green (h : Z) : Z := h / 256 mod 256.
Definition blue (h : Z) : Z := h mod 256.

Definition sq_distance (a b : Z) : Z :=
  (red a - red b) * (red a - red b) + (green a - green b) * (green a - green b)
  + (blue a - blue b) * (blue a - blue b).

(** what happens to the table of colors of one type *)
Inductive event := Register (c : pcolor) | Lookup (h : Z).

(** [KnownAt evs n h c]: the [n]-th event registers [c], whose value is [h], and no earlier
    event registers a color of that value *)
Definition KnownAt (evs : list event) (n : nat) (h : Z) (c : pcolor) : Prop :=
  nth_error evs n = Some (Register c) /\ hex_value c = Some h /\
  forall m c', (m < n)%nat -> nth_error evs m = Some (Register c') -> hex_value c' <> Some h.

(** The 256-color palette of xterm: a cube of 6 x 6 x 6 colors, then 24 greys *)
Definition level (k : Z) : Z := if k =? 0 then 0 else 55 + 40 * k.
Definition xterm (n : Z) : Z :=
  if n <? 232
  then level ((n - 16) / 36) * 65536 + level ((n - 16) / 6 mod 6) * 256 + level ((n - 16) mod 6)
  else (8 + 10 * (n - 232)) * 65536 + (8 + 10 * (n - 232)) * 256 + (8 + 10 * (n - 232)).

(** The 16 basic colors: bits for red, green, blue; dark ones have the level 128, grey and
    white are special *)
Definition bit (n k : Z) : Z := n / k mod 2.
Definition basic (n : Z) : Z :=
  if n =? 7 then 0xc0c0c0 else if n =? 8 then 0x808080
  else let v := if n <? 8 then 128 else 255 in
       v * (bit n 1 * 65536 + bit n 2 * 256 + bit n 4).

Definition color24 (h : Z) : Prop := 0 <= h < 16777216.

(** the state after a history *)
Fixpoint after (evs : list event) (a : approximator) : approximator :=
  match evs with
  | [] => a
  | Register c :: t => after t (add_to_map a c)
  | Lookup h :: t => after t (snd (find_closest a h))
  end.

Definition registered_in_range (evs : list event) : Prop :=
  forall c h, In (Register c) evs -> hex_value c = Some h -> color24 h.

Definition is_register (e : event) : bool := match e with Register _ => true | Lookup _ => false end.
Definition looked_up (hs : list Z) : list event := map Lookup hs.

(** nearer to [h], or as near and registered earlier *)
Definition closer (h : Z) (x y : nat * (Z * pcolor)) : Prop :=
  let dx := sq_distance h (fst (snd x)) in let dy := sq_distance h (fst (snd y)) in
  dx < dy \/ (dx = dy /\ (fst x < fst y)%nat).
