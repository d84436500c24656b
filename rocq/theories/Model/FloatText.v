(** pytermor/util/auto_float.py and prefixed_unit.py.

    Numbers are exact rationals (every finite float is one).  Formatting with a fixed number of
    decimals is exact in Python as well (correctly rounded, ties to even).  Simplified are
    [floor(log10(x))], whose float version may be one too large for numbers within a few units
    of the last binary place below a power of ten, the quotient [abs_value/pow(10, exponent)],
    and multiplication and division by [mcoef], which Python rounds to 53 bits. *)
From Coq Require Import List NArith ZArith QArith Qabs Qround Bool.
From Verif.Model Require Import Base Color TimeDelta.
Import ListNotations.
Local Open Scope Z_scope.

(** * Python's built-ins *)

(** rounding to the nearest integer, ties to even *)
Definition round_even (q : Q) : Z :=
  let f := Qfloor q in
  let r := (q - inject_Z f)%Q in
  if Qlt_bool r (1 # 2) then f else if Qlt_bool (1 # 2) r then f + 1 else if Z.even f then f else f + 1.

(** [f'{x:.{d}f}'] for [x >= 0], [d >= 0] *)
Definition fixed (d : Z) (x : Q) : str :=
  let r := round_even (x * inject_Z (10 ^ d)) in
  dec (Z.to_N (r / 10 ^ d)) ++ if d =? 0 then [] else 46%N :: rjust 48 (Z.to_nat d) (dec (Z.to_N (r mod 10 ^ d))).
(** the same with a minimal width *)
Definition wide (n : Z) (s : str) : str := rjust 32 (Z.to_nat n) s.

(** 10 to an integer power, [pow(10, e)] *)
Definition ten (e : Z) : Q := Qpower (10 # 1) e.

(** [floor(log10(x))] for [x > 0] *)
Definition ndigits (n : Z) : Z := zlen (dec (Z.to_N n)).
Definition log10_floor (x : Q) : Z :=
  if Qle_bool 1 x then ndigits (Qfloor x) - 1 else - ndigits (Qceiling (/ x) - 1).

(** * auto_float.py *)

(** L137-158: without exponent *)
Definition plain_float (sign : str) (a : Q) (n e : Z) : result str :=
  let integer_len := Z.max 1 (e + 1) in
  if integer_len =? n then
    let s := wide n (fixed 0 a) in
    Ok (sign ++ if integer_len <? zlen s then wide n (zdec (Qfloor a)) else s)
  else
    let d := n - integer_len - 1 in
    if d <? 0 then Err ValueError            (* invalid format specifier, [n] is negative *)
    else Ok (sign ++ wide n (fixed d a)).

(** L58-77: the common beginning *)
Definition float_head (v : Q) (req_len : Z) (rest : str -> Q -> Z -> Z -> result str) : result str :=
  if req_len <? -1 then Err ValueError
  else
    let sign := if Qlt_bool v 0 then [45%N] else [] in
    let n := if Qlt_bool v 0 then req_len - 1 else req_len in
    if n =? 0 then Ok (repeat 33%N (length sign))
    else
      let a := Qabs v in
      if Qlt_bool a 1 && (n =? 1) then Ok (sign ++ [48%N])
      else if Qeq_bool v 0 then Ok (sign ++ wide n [48%N])
      else rest sign a n (log10_floor a).

(** [format_auto_float(v, req_len, False)] *)
Definition auto_float_no_exp (v : Q) (req_len : Z) : result str :=
  float_head v req_len (fun sign a n e => if n - 1 <? e then Err ValueError else plain_float sign a n e).

(** [format_auto_float(v, req_len)] *)
Definition auto_float_exp (v : Q) (req_len : Z) : result str :=
  float_head v req_len (fun sign a n e =>
    if (e <? -2) || (n - 1 <? e) then
      let exponent_len := zlen (zdec e) + 1 in
      if n <? exponent_len then Ok (repeat 33%N (Z.to_nat (zlen sign + n)))
      else match auto_float_no_exp (a / ten e) (n - exponent_len) with
           | Ok s => Ok (sign ++ s ++ [101%N] ++ zdec e)
           | Err ValueError => Ok (wide n (sign ++ [101%N] ++ zdec e))
           | Err x => Err x
           end
    else plain_float sign a n e).

Definition auto_float (v : Q) (req_len : Z) (allow_exponent : bool) : result str :=
  if allow_exponent then auto_float_exp v req_len else auto_float_no_exp v req_len.

(** [math.floor] of NaN and of infinities; the checks before it are false for them, but for the
    sign and the length *)
Definition auto_float_special (x : pynum) (req_len : Z) (allow_exponent : bool) : result str :=
  match x with
  | Num v => auto_float v req_len allow_exponent
  | NaN => if req_len <? -1 then Err ValueError else if req_len =? 0 then Ok [] else Err ValueError
  | Inf neg => if req_len <? -1 then Err ValueError
               else if (if neg then req_len - 1 else req_len) =? 0 then Ok (repeat 33%N (if neg then 1 else 0)) else Err OverflowError
  end.

(** * prefixed_unit.py *)

(** [str.isspace] *)
Definition is_space (c : N) : bool :=
  ((9 <=? c) && (c <=? 13) || (28 <=? c) && (c <=? 32) || (c =? 133) || (c =? 160) || (c =? 5760)
   || (8192 <=? c) && (c <=? 8202) || (c =? 8232) || (c =? 8233) || (c =? 8239) || (c =? 8287) || (c =? 12288))%N.
Fixpoint strip_front (s : str) : str := match s with c :: t => if is_space c then strip_front t else s | [] => [] end.
(** [str.strip] *)
Definition strip (s : str) : str := rev (strip_front (rev (strip_front s))).

(** L86-94 [PrefixedUnitFormatter.__init__]; [unit or ''], [prefixes or []] etc. are done *)
Record unit_config := mkUnits {
  pu_max_value_len : Z;
  pu_truncate : bool;
  pu_unit : str;
  pu_separator : str;
  pu_mcoef : Q;
  pu_prefixes : list (option str);
  pu_zero : Z
}.

(** [max([len(p) for p in self._prefixes if p])]; [None]: ValueError *)
Definition prefix_lens (f : unit_config) : list Z :=
  flat_map (fun p => match p with Some (c :: t) => [zlen (c :: t)] | _ => [] end) (pu_prefixes f).
Definition longest (l : list Z) : option Z := match l with [] => None | x :: t => Some (fold_left Z.max t x) end.
(** L96-106 *)
Definition pu_max_len (f : unit_config) : result Z :=
  match longest (prefix_lens f) with
  | None => Err ValueError
  | Some m => Ok (pu_max_value_len f + zlen (pu_separator f) + zlen (pu_unit f) + m)
  end.

(** [self._prefixes[i]] for an index in range *)
Definition prefix_at (f : unit_config) (i : Z) : str :=
  match nth_error (pu_prefixes f) (Z.to_nat i) with Some (Some p) => p | _ => [] end.

(** L127-137: a value with the [i]-th prefix *)
Definition with_prefix (f : unit_config) (v : Q) (i : Z) (unit : option str) : result str :=
  let unit_full := prefix_at f i ++ match str_on unit with Some u => u | None => pu_unit f end in
  let num := if pu_truncate f && (i =? pu_zero f)
             then if pu_max_value_len f <? 0 then Err ValueError
                  else Ok (firstn (Z.to_nat (pu_max_value_len f)) (zdec (Qtrunc v)))
             else auto_float v (pu_max_value_len f) false in
  bind num (fun num_str => Ok (strip num_str ++ pu_separator f ++ strip unit_full)).
(** L139-144 *)
Definition without_prefix (f : unit_config) (v : Q) : result str :=
  bind (auto_float v (pu_max_value_len f) false) (fun num_str =>
    match longest (prefix_lens f) with
    | None => Err ValueError
    | Some m => Ok (strip num_str ++ pu_separator f ++ strip (repeat 63%N (Z.to_nat m) ++ pu_unit f))
    end).

(** L116-137: the loop; the fuel is the number of rounds ([None]: not finished) *)
Fixpoint prefix_loop (fuel : nat) (f : unit_config) (v : Q) (i : Z) (unit : option str) : option (result str) :=
  match fuel with
  | O => None
  | S fuel =>
      if (0 <=? i) && (i <? zlen (pu_prefixes f)) then
        if Qlt_bool 0 (Qabs v) && Qle_bool (Qabs v) (1 / pu_mcoef f) then
          let v := (v * pu_mcoef f)%Q in
          if Qle_bool (Qabs v) 1 then prefix_loop fuel f v (i - 1) unit
          else Some (with_prefix f v (i - 1) unit)
        else if Qle_bool (pu_mcoef f) (Qabs v) then prefix_loop fuel f (v / pu_mcoef f)%Q (i + 1) unit
        else Some (with_prefix f v i unit)
      else Some (without_prefix f v)
  end.
Definition prefix_format (f : unit_config) (v : Q) (unit : option str) : option (result str) :=
  prefix_loop (S (length (pu_prefixes f))) f v (pu_zero f) unit.

(** L151-156 *)
Definition prefixes_si : list (option str) :=
  map (fun c => Some [c]) [121; 122; 97; 102; 112; 110; 956; 109]%N ++ [None] ++ map (fun c => Some [c]) [107; 77; 71; 84; 80; 69; 90; 89]%N.
(** L162-170, L184-192 *)
Definition si_metric : unit_config := mkUnits 4 false [] [32%N] 1000 prefixes_si 8.
Definition si_binary : unit_config := mkUnits 5 true [98%N] [32%N] 1024 prefixes_si 8.
(** L19-64 *)
Definition format_si_metric (v : Q) (unit : str) := prefix_format si_metric v (Some unit).
Definition format_si_binary (v : Q) (unit : str) := prefix_format si_binary v (Some unit).
