(** Ints as numbers of a given length and with prefixed units: property C117 *)
From Coq Require Import Ascii String.
From Coq Require Import List NArith ZArith QArith Qabs Qpower Bool.
From Verif.Model Require Import Base Color TimeDelta TimeFloat Render FloatText FloatDoubles IntNumbers.
From Verif.Spec Require Import Numbers FloatText Doubles Logarithm IntNumbers.
From Verif.Proof Require Import IntNumberClaims.
Import ListNotations.
Local Open Scope Z_scope.

(** Without exponent an int is shown as the nearest float (for which see C104). *)
Theorem C117_plain : forall lg pw lgb z n, accurate lg -> has_float z -> n <= 12 ->
  exists x, nearest (inject_Z z) x /\ auto_int lg pw lgb z n false = auto_doubles lg pw x n false.
Proof. exact (fun lg pw lgb z n A => plain_as_float lg pw lgb A z n). Qed.
Print Assumptions C117_plain.

(** The same with units. *)
Theorem C117_metric : forall lg pw lgb z unit, has_float z ->
  exists x, nearest (inject_Z z) x /\ metric_int lg pw lgb z unit = metric_doubles lg pw x unit.
Proof. exact metric_as_float. Qed.
Print Assumptions C117_metric.

Theorem C117_binary : forall lg pw lgb z unit, has_float z ->
  exists x, nearest (inject_Z z) x /\ binary_int lg pw lgb z unit = binary_doubles lg pw x unit.
Proof. exact binary_as_float. Qed.
Print Assumptions C117_binary.

(** With exponent ints of any size are shown, rounded to the digits there is room for: the error is at
    most 0.501 of the last digit; no float needs to be near. *)
Theorem C117_exponent : forall lg pw lgb z n, accurate lg -> z <> 0 -> known_log lgb z -> 2 <= room_of (inject_Z z) n <= 12 ->
  exists e, magnitude_about (inject_Z (Z.abs z)) e /\
  let room := room_of (inject_Z z) n in
  (e < room -> auto_int lg pw lgb z n true = auto_int lg pw lgb z n false) /\
  (room <= e -> room < exponent_len e -> auto_int lg pw lgb z n true = Ok (repeat 33%N (Z.to_nat n))) /\
  (room <= e -> room = exponent_len e -> auto_int lg pw lgb z n true = Ok (minus_sign (inject_Z z) ++ [101%N] ++ zdec e)) /\
  (room <= e -> exponent_len e + 2 <= room ->
    exists t q, auto_int lg pw lgb z n true = Ok (minus_sign (inject_Z z) ++ t) /\ read_float t = Some q /\
      (Qabs (q - inject_Z (Z.abs z)) <= (501 # 1000) * p10 (e - (room - exponent_len e - 2)))%Q).
Proof. exact (fun lg pw lgb z n A => exponent_int lg pw lgb A z n). Qed.
Print Assumptions C117_exponent.

(** Beyond all floats units and the form without exponent fail with OverflowError *)
Theorem C117_beyond : forall lg pw lgb z, ~ has_float z ->
  (forall unit, metric_int lg pw lgb z unit = Some (Err OverflowError) /\ binary_int lg pw lgb z unit = Some (Err OverflowError)) /\
  forall n, known_log lgb z -> 1 <= room_of (inject_Z z) n <= 12 -> auto_int lg pw lgb z n false = Err OverflowError.
Proof. exact beyond_claim. Qed.
Print Assumptions C117_beyond.

(** and not with ValueError, as documented for numbers that are too long (it is raised by the message
    of the latter). *)
Theorem C117_error_refuted : exists z, auto_float (inject_Z z) 5 false = Err ValueError /\
  forall lg pw lgb, accurate lg -> magnitude_about (inject_Z z) (lgb z) -> auto_int lg pw lgb z 5 false = Err OverflowError.
Proof. exact error_refuted. Qed.
Print Assumptions C117_error_refuted.

Example C117_example : accurate log10_floor /\ has_float 12345678901234567891 /\ has_float (-7) /\ known_log exact_log (10 ^ 400) /\ ~ has_float (10 ^ 400) /\
  auto_int log10_floor p10 exact_log 12345678901234567891 8 true = Ok (txt "1.235e19") /\ auto_int log10_floor p10 exact_log (-123456) 6 true = Ok (txt "-1.2e5") /\
  auto_int log10_floor p10 exact_log (10 ^ 400) 8 true = Ok (txt "1.00e400") /\ auto_int log10_floor p10 exact_log (-7) 5 false = Ok (txt "-7.00") /\
  metric_int log10_floor p10 exact_log 12345678901234567891 (txt "m") = Some (Ok (txt "12.3 Em")) /\ binary_int log10_floor p10 exact_log 1023 [] = Some (Ok (txt "1023 b")) /\
  metric_int log10_floor p10 exact_log (10 ^ 400) [] = Some (Err OverflowError).
Proof. exact int_example. Qed.
