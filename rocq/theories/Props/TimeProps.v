(** C100: durations computed with the floats of Python *)
From Coq Require Import List NArith ZArith QArith Qabs Bool.
From Verif.Model Require Import Base TimeDelta TimeFloat.
From Verif.Spec Require Import Doubles Duration.
From Verif.Proof Require Import TimeFloatClaims.
Import ListNotations.
Local Open Scope Z_scope.

(** Below 2^1023 the texts are those computed without rounding, whatever the length: *)
Theorem C100_ints_partial : forall z max_len, Z.abs z < 2 ^ 1023 ->
  float_time_delta (PyInt z) max_len = format_time_delta (Num (inject_Z z)) max_len.
Proof. exact delta_exact_int. Qed.
Print Assumptions C100_ints_partial.
Theorem C100_floats_partial : forall q max_len, double q -> (Qabs q < inject_Z (2 ^ 1023))%Q ->
  float_time_delta (PyFloat q) max_len = format_time_delta (Num q) max_len.
Proof. exact delta_exact_float. Qed.
Print Assumptions C100_floats_partial.

(** The largest double, and ints beyond all doubles, are errors instead of texts. *)
Theorem C100_largest_refuted : exists q, double q /\
  forall max_len, 3 <= wanted max_len -> float_time_delta (PyFloat q) max_len = Err OverflowError.
Proof. exact (ex_intro _ _ (conj double_max largest_fails)). Qed.
Print Assumptions C100_largest_refuted.
Theorem C100_large_int_refuted : exists z,
  forall max_len, 3 <= wanted max_len -> float_time_delta (PyInt z) max_len = Err OverflowError.
Proof. exact (ex_intro _ _ large_int_fails). Qed.
Print Assumptions C100_large_int_refuted.

(** Any formatter: no difference below 2^53. *)
Theorem C100_any_formatter : forall f len wide,
  (forall u r, In u (td_units f) -> u_in_next u = Some r -> 0 <= r) ->
  (forall z, Z.abs z < 2 ^ 53 -> float_format f len (PyInt z) wide = td_format f len (Num (inject_Z z)) wide) /\
  (forall q, double q -> (Qabs q < inject_Z (2 ^ 53))%Q -> float_format f len (PyFloat q) wide = td_format f len (Num q) wide).
Proof. exact any_formatter. Qed.
Print Assumptions C100_any_formatter.
(** From there on a count may be one too large. *)
Theorem C100_beyond_refuted : exists f len z n, good_config f /\
  float_format f len (PyInt z) false = Ok (dec (n + 1) ++ [109%N]) /\
  td_format f len (Num (inject_Z z)) false = Ok (dec n ++ [109%N]).
Proof. exact (ex_intro _ _ (ex_intro _ _ (ex_intro _ _ (ex_intro _ (2 ^ 53 + 1)%N off_by_one)))). Qed.
Print Assumptions C100_beyond_refuted.

(** The rounding meant: to the nearest double, the even one of two. *)
Theorem C100_rounding : forall x y, (Qabs (round64 x) < inject_Z (2 ^ 1024))%Q -> (nearest x y <-> (y == round64 x)%Q).
Proof. exact round_nearest. Qed.
Print Assumptions C100_rounding.

(** 0.1 is not a tenth; 59.9 seconds less than a minute; 15350.5 seconds *)
Example C100_example :
  round64 (1 # 10) == (3602879701896397 # 36028797018963968) /\
  float_time_delta (PyFloat (round64 (599 # 10))) None = Ok [53; 57; 32; 115; 101; 99; 115]%N /\
  float_time_delta (PyFloat (30701 # 2)) None = Ok [52; 104; 32; 49; 53; 109; 105; 110]%N /\
  float_time_delta (PyFloat (inject_Z (2 ^ 1022))) (Some 3) = Ok [69; 82; 82]%N.
Proof. repeat split; vm_compute; reflexivity. Qed.
