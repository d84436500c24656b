(** pytermor/color.py:28-68 [hex_value_to_hsv_channels] in exact rational numbers.  The comparisons
    [c == 0], [v == rn] etc. have the same outcome for floats, since [n / 255] is a strictly
    increasing function of the 256 possible channels; the rounding of the results is left out. *)
From Coq Require Import List ZArith QArith Qminmax.
From Verif.Model Require Import Base Color.
Local Open Scope Q_scope.

Definition hsv_channels (hex : Z) : result (Q * Q * Q) :=
  let '(r, g, b) := hex_value_to_rgb_channels hex in
  let rn := r # 255 in let gn := g # 255 in let bn := b # 255 in
  let vmax := Qmax rn (Qmax gn bn) in
  let vmin := Qmin rn (Qmin gn bn) in
  let c := vmax - vmin in
  let v := vmax in
  bind (if Qeq_bool c 0 then Ok 0
        else if Qeq_bool v rn then Ok (60 * (0 + (gn - bn) / c))
        else if Qeq_bool v gn then Ok (60 * (2 + (bn - rn) / c))
        else if Qeq_bool v bn then Ok (60 * (4 + (rn - gn) / c))
        else Err LogicError) (fun h =>
  let s := if Qeq_bool v 0 then 0 else c / v in
  let h := if Qle_bool 0 h then h else h + 360 in
  Ok (h, s, v)).
