(** pytermor/util/auto_float.py and prefixed_unit.py for ints as arguments (see FloatDoubles.v for
    floats).  Python compares ints and floats exactly; arithmetic with a float and formatting with
    [f] convert an int to the nearest float, OverflowError if it is out of range; the quotient of two
    ints is rounded once.  [math.log10] of an int is that of its float; [lgb] stands for
    [floor(log10(z))] of ints no float is near to, which CPython computes in another way. *)
From Coq Require Import List NArith ZArith QArith Qabs Qround Bool.
From Verif.Model Require Import Base Color TimeDelta TimeFloat FloatText FloatDoubles.
Import ListNotations.
Local Open Scope Z_scope.

(** [float(z)]; ints below 2^53 are floats *)
Definition to_float (z : Z) : result Q :=
  if Z.abs z <? 9007199254740992 then Ok (inject_Z z) else in_range (round64 (inject_Z z)).

Section Library.
  Variable lg : Q -> Z.
  Variable pw : Z -> Q.
  Variable lgb : Z -> Z.

  (** auto_float.py:77 for [a > 0] *)
  Definition log_int (a : Z) : Z := match to_float a with Ok x => lg x | Err _ => lgb a end.
  (** L137-158 *)
  Definition plain_int (sign : str) (a n e : Z) : result str :=
    let integer_len := Z.max 1 (e + 1) in
    if integer_len =? n then
      bind (to_float a) (fun x =>
      let s := wide n (fixed 0 x) in
      Ok (sign ++ if integer_len <? zlen s then wide n (zdec a) else s))
    else
      let d := n - integer_len - 1 in
      if d <? 0 then Err ValueError
      else bind (to_float a) (fun x => Ok (sign ++ wide n (fixed d x))).
  (** L58-77 *)
  Definition head_int (z req_len : Z) (rest : str -> Z -> Z -> Z -> result str) : result str :=
    if req_len <? -1 then Err ValueError
    else
      let sign := if z <? 0 then [45%N] else [] in
      let n := if z <? 0 then req_len - 1 else req_len in
      if n =? 0 then Ok (repeat 33%N (length sign))
      else
        let a := Z.abs z in
        if (a <? 1) && (n =? 1) then Ok (sign ++ [48%N])
        else if z =? 0 then Ok (sign ++ wide n [48%N])
        else rest sign a n (log_int a).
  (** L116-117: the message contains [f'{value:.2f}'] *)
  Definition too_long (a : Z) : result str := bind (to_float a) (fun _ => Err ValueError).
  (** [format_auto_float(z, req_len, False)] *)
  Definition no_exp_int (z req_len : Z) : result str :=
    head_int z req_len (fun sign a n e => if n - 1 <? e then too_long a else plain_int sign a n e).
  (** L124 [abs_value/pow(10, exponent)]: two ints if the exponent is not negative *)
  Definition significand_int (a e : Z) : result Q :=
    if 0 <=? e then in_range (round64 (inject_Z a / inject_Z (10 ^ e)))
    else bind (to_float a) (fun x => significand_doubles pw x e).
  (** [format_auto_float(z, req_len)]; the significand is a float *)
  Definition exp_int (z req_len : Z) : result str :=
    head_int z req_len (fun sign a n e =>
      if (e <? -2) || (n - 1 <? e) then
        let exponent_len := zlen (zdec e) + 1 in
        if n <? exponent_len then Ok (repeat 33%N (Z.to_nat (zlen sign + n)))
        else bind (significand_int a e) (fun m =>
             match plain_doubles lg m (n - exponent_len) with
             | Ok s => Ok (sign ++ s ++ [101%N] ++ zdec e)
             | Err ValueError => Ok (wide n (sign ++ [101%N] ++ zdec e))
             | Err x => Err x
             end)
      else plain_int sign a n e).
  Definition auto_int (z req_len : Z) (allow_exponent : bool) : result str :=
    if allow_exponent then exp_int z req_len else no_exp_int z req_len.

  (** prefixed_unit.py:127-137 *)
  Definition with_prefix_int (f : unit_config) (z i : Z) (unit : option str) : result str :=
    let unit_full := prefix_at f i ++ match str_on unit with Some u => u | None => pu_unit f end in
    let num := if pu_truncate f && (i =? pu_zero f)
               then if pu_max_value_len f <? 0 then Err ValueError
                    else Ok (firstn (Z.to_nat (pu_max_value_len f)) (zdec z))
               else auto_int z (pu_max_value_len f) false in
    bind num (fun num_str => Ok (strip num_str ++ pu_separator f ++ strip unit_full)).
  (** L139-144 *)
  Definition without_prefix_int (f : unit_config) (z : Z) : result str :=
    bind (auto_int z (pu_max_value_len f) false) (fun num_str =>
      match longest (prefix_lens f) with
      | None => Err ValueError
      | Some m => Ok (strip num_str ++ pu_separator f ++ strip (repeat 63%N (Z.to_nat m) ++ pu_unit f))
      end).
  (** L114-137: the value is an int in the first round only, [mcoef] being a float *)
  Definition format_int (f : unit_config) (z : Z) (unit : option str) : option (result str) :=
    let fuel := length (pu_prefixes f) in
    let i := pu_zero f in
    if (0 <=? i) && (i <? zlen (pu_prefixes f)) then
      if Qlt_bool 0 (inject_Z (Z.abs z)) && Qle_bool (inject_Z (Z.abs z)) (round64 (1 / pu_mcoef f)) then
        match to_float z with
        | Err x => Some (Err x)
        | Ok v => let v := round64 (v * pu_mcoef f) in
                  if Qle_bool (Qabs v) 1 then loop_doubles lg pw fuel f v (i - 1) unit
                  else Some (with_prefix_doubles lg pw f v (i - 1) unit)
        end
      else if Qle_bool (pu_mcoef f) (inject_Z (Z.abs z)) then
        match to_float z with
        | Err x => Some (Err x)
        | Ok v => loop_doubles lg pw fuel f (round64 (v / pu_mcoef f)) (i + 1) unit
        end
      else Some (with_prefix_int f z i unit)
    else Some (without_prefix_int f z).
  Definition metric_int (z : Z) (unit : str) := format_int si_metric z (Some unit).
  Definition binary_int (z : Z) (unit : str) := format_int si_binary z (Some unit).
End Library.
