(** pytermor/util/auto_float.py and prefixed_unit.py once more, for the floats of Python (see
    TimeFloat.v): products and quotients are rounded.  The two functions of the C library are
    parameters: [lg x] is [floor(log10(x))], [pw e] is [pow(10, e)] for a negative [e], a float.
    Formatting with decimals, comparisons, [floor] and [trunc] are exact. *)
From Coq Require Import List NArith ZArith QArith Qabs Qround Bool.
From Verif.Model Require Import Base Color TimeDelta TimeFloat FloatText.
Import ListNotations.
Local Open Scope Z_scope.

Section Library.
  Variable lg : Q -> Z.
  Variable pw : Z -> Q.

  (** auto_float.py:58-77 *)
  Definition head_doubles (v : Q) (req_len : Z) (rest : str -> Q -> Z -> Z -> result str) : result str :=
    if req_len <? -1 then Err ValueError
    else
      let sign := if Qlt_bool v 0 then [45%N] else [] in
      let n := if Qlt_bool v 0 then req_len - 1 else req_len in
      if n =? 0 then Ok (repeat 33%N (length sign))
      else
        let a := Qabs v in
        if Qlt_bool a 1 && (n =? 1) then Ok (sign ++ [48%N])
        else if Qeq_bool v 0 then Ok (sign ++ wide n [48%N])
        else rest sign a n (lg a).
  (** [format_auto_float(v, req_len, False)] *)
  Definition plain_doubles (v : Q) (req_len : Z) : result str :=
    head_doubles v req_len (fun sign a n e => if n - 1 <? e then Err ValueError else plain_float sign a n e).
  (** L124 [abs_value/pow(10, exponent)]: the power is an int, converted to float for the division,
      if the exponent is not negative *)
  Definition significand_doubles (a : Q) (e : Z) : result Q :=
    let p := if 0 <=? e then round64 (inject_Z (10 ^ e)) else pw e in
    if Qeq_bool p 0 then Err ZeroDivisionError else Ok (round64 (a / p)).
  (** [format_auto_float(v, req_len)] *)
  Definition exp_doubles (v : Q) (req_len : Z) : result str :=
    head_doubles v req_len (fun sign a n e =>
      if (e <? -2) || (n - 1 <? e) then
        let exponent_len := zlen (zdec e) + 1 in
        if n <? exponent_len then Ok (repeat 33%N (Z.to_nat (zlen sign + n)))
        else bind (significand_doubles a e) (fun m =>
             match plain_doubles m (n - exponent_len) with
             | Ok s => Ok (sign ++ s ++ [101%N] ++ zdec e)
             | Err ValueError => Ok (wide n (sign ++ [101%N] ++ zdec e))
             | Err x => Err x
             end)
      else plain_float sign a n e).
  Definition auto_doubles (v : Q) (req_len : Z) (allow_exponent : bool) : result str :=
    if allow_exponent then exp_doubles v req_len else plain_doubles v req_len.

  (** prefixed_unit.py:127-137 *)
  Definition with_prefix_doubles (f : unit_config) (v : Q) (i : Z) (unit : option str) : result str :=
    let unit_full := prefix_at f i ++ match str_on unit with Some u => u | None => pu_unit f end in
    let num := if pu_truncate f && (i =? pu_zero f)
               then if pu_max_value_len f <? 0 then Err ValueError
                    else Ok (firstn (Z.to_nat (pu_max_value_len f)) (zdec (Qtrunc v)))
               else auto_doubles v (pu_max_value_len f) false in
    bind num (fun num_str => Ok (strip num_str ++ pu_separator f ++ strip unit_full)).
  (** L139-144 *)
  Definition without_prefix_doubles (f : unit_config) (v : Q) : result str :=
    bind (auto_doubles v (pu_max_value_len f) false) (fun num_str =>
      match longest (prefix_lens f) with
      | None => Err ValueError
      | Some m => Ok (strip num_str ++ pu_separator f ++ strip (repeat 63%N (Z.to_nat m) ++ pu_unit f))
      end).
  (** L116-137; [mcoef] is a float *)
  Fixpoint loop_doubles (fuel : nat) (f : unit_config) (v : Q) (i : Z) (unit : option str) : option (result str) :=
    match fuel with
    | O => None
    | S fuel =>
        if (0 <=? i) && (i <? zlen (pu_prefixes f)) then
          if Qlt_bool 0 (Qabs v) && Qle_bool (Qabs v) (round64 (1 / pu_mcoef f)) then
            let v := round64 (v * pu_mcoef f) in
            if Qle_bool (Qabs v) 1 then loop_doubles fuel f v (i - 1) unit
            else Some (with_prefix_doubles f v (i - 1) unit)
          else if Qle_bool (pu_mcoef f) (Qabs v) then loop_doubles fuel f (round64 (v / pu_mcoef f)) (i + 1) unit
          else Some (with_prefix_doubles f v i unit)
        else Some (without_prefix_doubles f v)
    end.
  Definition format_doubles (f : unit_config) (v : Q) (unit : option str) : option (result str) :=
    loop_doubles (S (length (pu_prefixes f))) f v (pu_zero f) unit.
  Definition metric_doubles (v : Q) (unit : str) := format_doubles si_metric v (Some unit).
  Definition binary_doubles (v : Q) (unit : str) := format_doubles si_binary v (Some unit).
End Library.
