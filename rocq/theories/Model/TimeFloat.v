(** pytermor/util/time_delta.py once more, with the ints and floats of Python: floats are the
    rationals a double holds, results of float operations are rounded to nearest, ties to even,
    the quotient of two ints as well (it is correctly rounded in CPython); comparisons between
    ints and floats, [floor] and [trunc] are exact. *)
From Coq Require Import List NArith ZArith QArith Qabs Qround Bool.
From Verif.Model Require Import Base Strip Color TimeDelta.
Import ListNotations.
Local Open Scope Z_scope.

(** ** rounding *)
Definition pow2 (e : Z) : Q := ((2 # 1) ^ e)%Q.
(** the exponent [e] with 2^e <= |x| < 2^(e+1), for [x] other than 0 *)
Definition exponent (x : Q) : Z :=
  let e := Z.log2 (Z.abs (Qnum x)) - Z.log2 (Zpos (Qden x)) in
  if Qle_bool (pow2 e) (Qabs x) then e else e - 1.
(** the distance of doubles around [x] *)
Definition ulp (x : Q) : Q := pow2 (Z.max (exponent x) (-1022) - 52).
(** to the nearest integer, ties to even *)
Definition nearest_int (y : Q) : Z :=
  let f := Qfloor y in
  match Qcompare (y - inject_Z f) (1 # 2) with
  | Lt => f
  | Gt => f + 1
  | Eq => if Z.even f then f else f + 1
  end.
Definition round64 (x : Q) : Q := if Qeq_bool x 0 then 0%Q else (inject_Z (nearest_int (x / ulp x)) * ulp x)%Q.
(** results out of range: OverflowError for int to float and for int / int; inf for float / float,
    which has no floor (OverflowError again) *)
Definition in_range (x : Q) : result Q := if Qle_bool (pow2 1024) (Qabs x) then Err OverflowError else Ok x.

Inductive number := PyInt (z : Z) | PyFloat (q : Q).
Definition val (n : number) : Q := match n with PyInt z => inject_Z z | PyFloat q => q end.
Definition py_abs (n : number) : number := match n with PyInt z => PyInt (Z.abs z) | PyFloat q => PyFloat (Qabs q) end.
(** [n / ratio] *)
Definition py_div (n : number) (ratio : Z) : result Q :=
  match n with
  | PyInt z => in_range (round64 (inject_Z z / inject_Z ratio))
  | PyFloat q => bind (in_range (round64 (inject_Z ratio))) (fun r => in_range (round64 (q / r)))
  end.
(** [floor(n - p)] *)
Definition py_sub_floor (n : number) (p : Z) : result Z :=
  match n with
  | PyInt z => Ok (z - p)
  | PyFloat q => bind (in_range (round64 (inject_Z p))) (fun p' => bind (in_range (round64 (q - p'))) (fun d => Ok (Qfloor d)))
  end.

Section Format.
  Variable f : td_config.
  Variable max_len : option Z.
  Variable negative : bool.

  (** L135-173: the loop *)
  Fixpoint float_loop (units : list time_unit) (n : number) (prev_frac : str) : result (option str) :=
    match units with
    | [] => Ok (Some [])
    | u :: rest =>
        let num := val n in
        if match int_on (u_overflow_after u) with Some n => Qlt_bool (inject_Z n) num | None => false end
        then overflow max_len
        else
          match u_name u with
          | [] => Err IndexError
          | c :: _ =>
              let name := u_name u in
              let suffixed :=
                name ++ match str_on (td_plural f) with
                        | Some p => if Qtrunc num =? 1 then [] else p
                        | None => []
                        end in
              let short := match str_on (u_custom_short u) with Some s => s | None => [c] end in
              let sep := match td_separator f with Some s => s | None => [] end in
              let sign := if negative then [45%N] else [] in
              if Qlt_bool (Qabs num) 1 then
                Ok (Some (if negative then [126; 48]%N ++ sep ++ suffixed
                          else if Qle_bool (Qabs num) abs_tol then [48%N] ++ sep ++ suffixed
                          else [60; 49]%N ++ sep ++ name))
              else if match u_collapsible_after u with Some n => Qlt_bool num (inject_Z n) | None => false end
              then Ok (Some (sign ++ zdec (Qfloor num) ++ short ++ sep ++ prev_frac))
              else match int_on (u_in_next u) with
                   | None => Ok (Some (sign ++ zdec (Qfloor num) ++ sep ++ suffixed))
                   | Some ratio =>
                       if Qlt_bool num (inject_Z ratio)
                       then Ok (Some (sign ++ zdec (Qfloor num) ++ sep ++ suffixed))
                       else
                         bind (py_div n ratio) (fun quotient =>
                         let next_num := Qfloor quotient in
                         bind (py_sub_floor n (next_num * ratio)) (fun frac =>
                         float_loop rest (PyInt next_num) (zdec frac ++ short)))
                   end
          end
    end.
End Format.

(** L118-175 [format_raw] *)
Definition float_raw (f : td_config) (max_len : option Z) (seconds : number) : result (option str) :=
  float_loop f max_len (td_allow_negative f && Qlt_bool (val seconds) 0) (td_units f) (py_abs seconds) [].

(** L177-197 [_compute_max_len]: [coef] is a float (1.00), so are the products *)
Fixpoint float_compute (f : td_config) (units : list time_unit) (coef : Q) (max_len : Z) : result Z :=
  match units with
  | [] => Ok max_len
  | u :: rest =>
      match (match int_on (u_in_next u) with Some n => Some n | None => int_on (u_overflow_after u) end) with
      | None => float_compute f rest coef max_len
      | Some test_val =>
          let secs := round64 (round64 (coef * inject_Z (test_val - 1)) * inject_Z (if td_allow_negative f then -1 else 1)) in
          match float_raw f None (PyFloat secs) with
          | Err RecursionError => float_compute f rest coef max_len
          | Err e => Err e
          | Ok None => Err TypeError
          | Ok (Some s) => float_compute f rest (round64 (coef * inject_Z test_val)) (Z.max max_len (zlen s))
          end
      end
  end.
Definition float_max_len (f : td_config) : result Z := float_compute f (td_units f) 1 0.

(** L97-116 [format] *)
Definition float_format (f : td_config) (max_len : Z) (seconds : number) (always_max_len : bool) : result str :=
  bind (float_raw f (Some max_len) seconds) (fun r =>
    let s := match r with Some s => s | None => py_take max_len (td_overflow_msg f) end in
    Ok (if always_max_len then rjust_sgr s max_len 32 else s)).
Fixpoint float_register (r : td_registry) (fs : list td_config) : result td_registry :=
  match fs with
  | [] => Ok r
  | f :: t => bind (float_max_len f) (fun n => float_register (zdict_set n f r) t)
  end.
(** L24-58 [format_time_delta] for ints and finite floats *)
Definition float_time_delta (seconds : number) (max_len : option Z) : result str :=
  bind (float_register [] [td3; td4; td6; td10]) (fun r =>
  match (match max_len with None => get_longest r | Some n => find_matching r n end) with
  | None => Err ValueError
  | Some (n, f) => float_format f n seconds false
  end).
