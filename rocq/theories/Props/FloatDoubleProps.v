(** Numbers of a given length and with prefixed units, computed with doubles: property C104 *)
From Coq Require Import Ascii String.
From Coq Require Import List NArith ZArith QArith Qabs Qpower Bool.
From Verif.Model Require Import Base Color TimeDelta TimeFloat Render FloatText FloatDoubles.
From Verif.Spec Require Import Numbers FloatText Doubles Logarithm.
From Verif.Proof Require Import FloatClaims UnitClaims FloatDoubleFacts FloatDoubleClaims UnitDoubleClaims UnitSmallClaims BinaryTinyClaims LogFacts DoubleRefuted.
Import ListNotations.
Local Open Scope Z_scope.

(** ** C104 *)

(** What is assumed of the logarithm holds for one that is correctly rounded, and there is one. *)
Theorem C104_log : (exists lg, correct_log lg) /\ forall lg, correct_log lg -> accurate lg.
Proof. exact (conj (ex_intro _ best_log best_correct) correct_accurate). Qed.
Print Assumptions C104_log.

(** Without exponent the text is the one the exact model (C75) has for the number, or, right
    below a power of ten, the one it has for that power. *)
Theorem C104_plain : forall lg pw v n, accurate lg -> double v -> n <= 12 ->
  auto_doubles lg pw v n false = auto_float v n false \/
  exists e p, just_below (Qabs v) (p10 e) /\ Qabs p = p10 e /\ (p < 0 <-> v < 0)%Q /\ auto_doubles lg pw v n false = auto_float p n false.
Proof. exact plain_claim. Qed.
Print Assumptions C104_plain.

(** With exponent, for numbers from 10^-307 on: the value of the text is the number rounded to
    the digits there is room for, the error is at most 0.501 of the last digit. *)
Theorem C104_exponent : forall lg pw v n e, accurate lg -> close_powers pw -> double v -> ~ (v == 0)%Q -> lg (Qabs v) = e -> -307 <= e ->
  room_of v n <= 12 -> ~ written_plain true (room_of v n) e -> 2 <= room_of v n ->
  (room_of v n < exponent_len e -> auto_doubles lg pw v n true = Ok (repeat 33%N (Z.to_nat n))) /\
  (room_of v n = exponent_len e -> auto_doubles lg pw v n true = Ok (minus_sign v ++ [101%N] ++ zdec e)) /\
  (exponent_len e + 2 <= room_of v n ->
    exists t q, auto_doubles lg pw v n true = Ok (minus_sign v ++ t) /\ read_float t = Some q /\
      (Qabs (q - Qabs v) <= (501 # 1000) * p10 (e - (room_of v n - exponent_len e - 2)))%Q).
Proof. exact (fun lg pw v n e A P => exponent_shown lg pw A P v n e). Qed.
Print Assumptions C104_exponent.
(** and if no exponent is needed the text is the one without *)
Theorem C104_no_exponent : forall lg pw v n, written_plain true (room_of v n) (lg (Qabs v)) -> auto_doubles lg pw v n true = auto_doubles lg pw v n false.
Proof. exact no_exponent. Qed.
Print Assumptions C104_no_exponent.

(** If there is room for one digit only, a zero may be shown for it: 99999.99999999999 in three
    characters is "0e5" (the exact model has "9e4"). *)
Theorem C104_zero_refuted : exists v, double v /\ (99999 < v)%Q /\ auto_float v 3 true = Ok (txt "9e4") /\
  forall lg pw, correct_log lg -> auto_doubles lg pw v 3 true = Ok (txt "0e5").
Proof. exact zero_claim. Qed.
Print Assumptions C104_zero_refuted.

(** C75 has a text for every number if exponents are allowed; with doubles there is an error for
    the smallest ones: 5e-324 in ten characters. *)
Theorem C104_total_refuted : exists v n s, double v /\ auto_float v n true = Ok s /\
  forall lg pw, accurate lg -> nearest (p10 (-324)) (pw (-324)) -> auto_doubles lg pw v n true = Err ZeroDivisionError.
Proof. exact tiny_claim. Qed.
Print Assumptions C104_total_refuted.

(** SI units: the prefix is right (but for numbers next to the next one), what is shown is within
    0.501% (5.01% for negative numbers), or there is an error: only for negative numbers right
    below a power of 1000. *)
Theorem C104_metric_partial : forall lg pw v unit, accurate lg -> tidy unit -> double v -> (1 <= Qabs v)%Q -> (Qabs v < (1 - (1 # 1000000000000)) * Qpower 1000 9)%Q ->
  exists k, 0 <= k <= 8 /\ ((1 - (1 # 1000000000000)) * Qpower 1000 k <= Qabs v)%Q /\ (Qabs v < (1 + (1 # 1000000000000)) * Qpower 1000 (k + 1))%Q /\
    ((exists t q, metric_doubles lg pw v unit = Some (Ok (minus_sign v ++ t ++ [32%N] ++ si_letter k ++ unit)) /\ read_float t = Some q /\
        (Qabs (q * Qpower 1000 k - Qabs v) <= (if Qlt_le_dec v 0 then 501 # 10000 else 501 # 100000) * Qabs v)%Q) \/
     (v < 0 /\ (1 - (1 # 500000000000)) * Qpower 1000 (k + 1) <= Qabs v)%Q /\ metric_doubles lg pw v unit = Some (Err ValueError)).
Proof. exact metric_near. Qed.
Print Assumptions C104_metric_partial.
(** The error occurs: -999.9999999999999, for which the exact model has "-999". *)
Theorem C104_metric_refuted : exists v, double v /\ (v < -999)%Q /\ (-1000 < v)%Q /\ format_si_metric v [] = Some (Ok (txt "-999 ")) /\
  forall lg pw, correct_log lg -> metric_doubles lg pw v [] = Some (Err ValueError).
Proof. exact metric_claim. Qed.
Print Assumptions C104_metric_refuted.

(** Numbers below 1, down to 10^-27: there is no error; within half a hundredth of the prefix's
    unit (half a tenth for negative numbers). *)
Theorem C104_metric_small : forall lg pw unit v, accurate lg -> tidy unit -> double v -> (Qabs v < 1)%Q -> ((1 + (1 # 1000000000000)) * Qpower 1000 (-9) < Qabs v)%Q ->
  exists k t q, -8 <= k <= 0 /\ (Qabs v <= (1 + (1 # 1000000000000)) * Qpower 1000 k)%Q /\ ((1 - (1 # 1000000000000)) * Qpower 1000 (k - 1) <= Qabs v)%Q /\
    metric_doubles lg pw v unit = Some (Ok (minus_sign v ++ t ++ [32%N] ++ si_letter k ++ unit)) /\ read_float t = Some q /\
    (Qabs (q * Qpower 1000 k - Qabs v) <= (if Qlt_le_dec v 0 then 501 # 10000 else 501 # 100000) * Qpower 1000 k)%Q.
Proof. exact (fun lg pw unit v A => metric_small lg pw A unit v). Qed.
Print Assumptions C104_metric_small.
Example C104_metric_small_example : accurate log10_floor /\ double (1 # 4096) /\ double (- (1 # 2)) /\
  metric_doubles log10_floor p10 (1 # 4096) (txt "m") = Some (Ok (txt "0.24 mm")) /\ metric_doubles log10_floor p10 (- (1 # 2)) (txt "m") = Some (Ok (txt "-0.5 m")).
Proof. exact small_example. Qed.
Print Assumptions C104_metric_small_example.

(** Binary units: whole numbers as in the exact model, larger ones within 0.0501% (0.501% for
    negative numbers); there is no error. *)
Theorem C104_binary_small : forall lg pw v unit, (1 <= Qabs v)%Q -> (Qabs v < 1024)%Q -> binary_doubles lg pw v unit = format_si_binary v unit.
Proof. exact binary_small. Qed.
Print Assumptions C104_binary_small.
Theorem C104_binary : forall lg pw v unit, accurate lg -> tidy unit -> double v -> (1024 <= Qabs v)%Q -> (Qabs v < (1 - (1 # 1000000000000)) * Qpower 1024 9)%Q ->
  exists k t q, 1 <= k <= 8 /\ ((1 - (1 # 1000000000000)) * Qpower 1024 k <= Qabs v)%Q /\ (Qabs v < (1 + (1 # 1000000000000)) * Qpower 1024 (k + 1))%Q /\
    binary_doubles lg pw v unit = Some (Ok (minus_sign v ++ t ++ [32%N] ++ si_letter k ++ if unit then [98%N] else unit)) /\ read_float t = Some q /\
    (Qabs (q * Qpower 1024 k - Qabs v) <= (if Qlt_le_dec v 0 then 501 # 100000 else 501 # 1000000) * Qabs v)%Q.
Proof. exact binary_near. Qed.
Print Assumptions C104_binary.

(** Fractions of the plain unit are cut off; from 1/1024 downwards there are prefixes again. *)
Theorem C104_binary_fraction : forall lg pw v unit, tidy unit -> (1 # 1024 < Qabs v)%Q -> (Qabs v < 1)%Q ->
  binary_doubles lg pw v unit = Some (Ok (48%N :: 32%N :: if unit then [98%N] else unit)).
Proof. exact binary_fraction. Qed.
Print Assumptions C104_binary_fraction.
Theorem C104_binary_tiny : forall lg pw unit v, accurate lg -> tidy unit -> double v -> (Qabs v <= 1 # 1024)%Q -> ((1 + (1 # 1000000000000)) * Qpower 1024 (-9) < Qabs v)%Q ->
  exists k t q, -8 <= k <= -1 /\ (Qabs v <= (1 + (1 # 1000000000000)) * Qpower 1024 k)%Q /\ ((1 - (1 # 1000000000000)) * Qpower 1024 (k - 1) <= Qabs v)%Q /\
    binary_doubles lg pw v unit = Some (Ok (minus_sign v ++ t ++ [32%N] ++ si_letter k ++ if unit then [98%N] else unit)) /\ read_float t = Some q /\
    (Qabs (q * Qpower 1024 k - Qabs v) <= (if Qlt_le_dec v 0 then 501 # 100000 else 501 # 1000000) * Qpower 1024 k)%Q.
Proof. exact (fun lg pw unit v A => binary_tiny lg pw A unit v). Qed.
Print Assumptions C104_binary_tiny.
Example C104_binary_tiny_example : accurate log10_floor /\ double (1 # 4096) /\ double (- (1 # 2)) /\
  binary_doubles log10_floor p10 (1 # 4096) (txt "m") = Some (Ok (txt "0.250 mm")) /\ binary_doubles log10_floor p10 (- (1 # 2)) (txt "m") = Some (Ok (txt "0 m")).
Proof. exact tiny_example. Qed.
Print Assumptions C104_binary_tiny_example.

(** The exact logarithm and powers are such a library. *)
Example C104_example : accurate log10_floor /\ close_powers p10 /\
  auto_doubles log10_floor p10 123456789 6 true = Ok (txt "1.23e8") /\ auto_doubles log10_floor p10 (-12.5) 6 true = Ok (txt "-12.50") /\
  auto_doubles log10_floor p10 (1 # 1024) 7 true = Ok (txt "9.77e-4") /\ ~ written_plain true 7 (-4) /\ exponent_len (-4) = 3 /\
  metric_doubles log10_floor p10 1536000 (txt "m") = Some (Ok (txt "1.54 Mm")) /\ binary_doubles log10_floor p10 (-1536000) [] = Some (Ok (txt "-1.46 Mb")) /\
  double 1536000 /\ double (-12.5) /\ double (1 # 1024).
Proof. exact double_example. Qed.
Print Assumptions C104_example.
