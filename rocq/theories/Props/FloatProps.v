(** Numbers of a given length and numbers with prefixed units: properties C75 and C76 *)
From Coq Require Import Ascii String.
From Coq Require Import List NArith ZArith QArith Qabs Qpower Bool.
From Verif.Model Require Import Base Color TimeDelta Render FloatText.
From Verif.Spec Require Import Numbers FloatText Conditions.
From Verif.Proof Require Import FloatFacts FloatClaims UnitFacts UnitClaims.
Import ListNotations.
Local Open Scope Z_scope.

(** ** C75 *)

(** The result has the required length, but one character more exactly if rounding the number
    to the decimals there is room for gives one more digit before the point. *)
Theorem C75_length_partial : forall v n allow s, 0 <= n -> auto_float v n allow = Ok s ->
  (zlen s = n \/ zlen s = n + 1) /\ (zlen s = n + 1 <-> carries v (room_of v n) allow).
Proof. exact auto_length. Qed.
Print Assumptions C75_length_partial.
(** "Output string length will be strictly equal to the requested one" is false: 9.999 in 4. *)
Theorem C75_length_refuted : exists v n s, auto_float v n true = Ok s /\ zlen s <> n.
Proof. exists (9999 # 1000), 4, (txt "10.00"). split; [vm_compute; reflexivity|discriminate]. Qed.
Print Assumptions C75_length_refuted.

(** If exponents are allowed every number is formatted as soon as there is room for the sign;
    otherwise there is an error exactly for numbers with too many digits. *)
Theorem C75_total : forall v n, 0 <= room_of v n -> exists s, auto_float v n true = Ok s.
Proof. exact auto_total. Qed.
Print Assumptions C75_total.
Theorem C75_too_big : forall v n, 1 <= room_of v n -> auto_float v n false = Err ValueError <-> (p10 (room_of v n) <= Qabs v)%Q.
Proof. exact auto_too_big. Qed.
Print Assumptions C75_too_big.

(** What is shown is the sign and a numeral; its value is the number rounded to the decimals
    there is room for (just the integer part, if there is no room for a point). *)
Theorem C75_value : forall v n e allow, ~ (v == 0)%Q -> 1 <= room_of v n -> magnitude (Qabs v) e ->
  written_plain allow (room_of v n) e \/ (room_of v n = 1 /\ e < 0) ->
  exists t q, auto_float v n allow = Ok (minus_sign v ++ t) /\ read_float t = Some q /\ shown_near q (Qabs v) (room_of v n) e.
Proof. exact auto_plain_read. Qed.
Print Assumptions C75_value.
(** With an exponent; "!" if there is no room for the exponent, only the exponent if there is
    no room for a digit. *)
Theorem C75_exponent : forall v n e, ~ (v == 0)%Q -> 1 <= room_of v n -> magnitude (Qabs v) e ->
  ~ written_plain true (room_of v n) e -> ~ (room_of v n = 1 /\ e < 0) ->
  (room_of v n < exponent_len e -> auto_float v n true = Ok (repeat 33%N (Z.to_nat n))) /\
  (room_of v n = exponent_len e -> auto_float v n true = Ok (minus_sign v ++ [101%N] ++ zdec e)) /\
  (exponent_len e < room_of v n ->
     exists t q, auto_float v n true = Ok (minus_sign v ++ t) /\ read_float t = Some q /\ shown_near_exp q (Qabs v) (room_of v n) e).
Proof. exact auto_exp. Qed.
Print Assumptions C75_exponent.
Theorem C75_zero : forall v n allow, (v == 0)%Q -> 0 <= n -> auto_float v n allow = Ok (if n =? 0 then [] else repeat 32%N (Z.to_nat (n - 1)) ++ [48%N]).
Proof. exact auto_zero. Qed.
Print Assumptions C75_zero.
(** The result as a whole is not always a numeral: there may be blanks after the sign. *)
Theorem C75_numeral_refuted : exists v n s, auto_float v n true = Ok s /\ s = txt "- 123" /\ read_float s = None.
Proof. exists (- 123)%Q, 5, (txt "- 123"). split; [vm_compute; reflexivity|]. split; [reflexivity|vm_compute; reflexivity]. Qed.
Print Assumptions C75_numeral_refuted.

Example C75_example :
  auto_float (123456 # 1) 5 true = Ok (txt "1.2e5") /\ auto_float (0.0012) 6 true = Ok (txt "1.2e-3") /\ auto_float (12346 # 100) 5 true = Ok (txt "123.5") /\
  auto_float (-0.5) 5 true = Ok (txt "-0.50") /\ magnitude (Qabs (123456 # 1)) 5 /\ ~ written_plain true 5 5 /\ read_float (txt "1.2e5") = Some (1.2 * p10 5)%Q /\
  carries (9999 # 1000) 4 true.
Proof. exact float_example. Qed.

(** ** C76 *)

(** For every family of prefixes the search ends, and the power of the multiplier is one that
    brings the number between 1/multiplier and the multiplier; for numbers from 1 on it is the
    largest one not above the number.  The text consists of sign, numeral, separator, prefix and
    unit; the numeral is the scaled number rounded as C75 says, or cut to an integer. *)
Theorem C76_value_partial : forall f unit v, (1 < pu_mcoef f)%Q -> 0 <= pu_zero f < zlen (pu_prefixes f) ->
  (forall i, tidy (prefix_at f i)) -> tidy (unit_of f unit) ->
  1 <= room_of v (pu_max_value_len f) -> (pu_mcoef f <= p10 (room_of v (pu_max_value_len f)))%Q ->
  (Qpower (pu_mcoef f) (- pu_zero f - 1) < Qabs v)%Q -> (Qabs v < Qpower (pu_mcoef f) (zlen (pu_prefixes f) - pu_zero f))%Q ->
  exists k, 0 <= pu_zero f + k < zlen (pu_prefixes f) /\ (1 / pu_mcoef f < scaled (pu_mcoef f) k v)%Q /\ (scaled (pu_mcoef f) k v < pu_mcoef f)%Q /\
    ((1 <= Qabs v)%Q -> (1 <= scaled (pu_mcoef f) k v)%Q) /\
    exists num, prefix_format f v unit = Some (Ok (num ++ pu_separator f ++ prefix_at f (pu_zero f + k) ++ unit_of f unit)) /\
      ((pu_truncate f = false \/ k <> 0) ->
         exists t q e, num = minus_sign v ++ t /\ read_float t = Some q /\ magnitude (scaled (pu_mcoef f) k v) e /\
           shown_near q (scaled (pu_mcoef f) k v) (room_of v (pu_max_value_len f)) e) /\
      (pu_truncate f = true -> k = 0 -> num = strip (firstn (Z.to_nat (pu_max_value_len f)) (zdec (Qtrunc v)))).
Proof. exact (fun f unit v Hm Hz HP HU => value_shown f unit Hm Hz HP HU v). Qed.
Print Assumptions C76_value_partial.

(** SI units: a number with absolute value from 1 to 10^27 is shown with the right prefix, and
    is within 0.5% of what is shown (5% if it is negative). *)
Theorem C76_metric : forall v unit, tidy unit -> (1 <= Qabs v)%Q -> (Qabs v < Qpower 1000 9)%Q ->
  exists k t q, 0 <= k <= 8 /\ format_si_metric v unit = Some (Ok (minus_sign v ++ t ++ [32%N] ++ si_letter k ++ unit)) /\ read_float t = Some q /\
    (Qpower 1000 k <= Qabs v)%Q /\ (Qabs v < Qpower 1000 (k + 1))%Q /\
    (Qabs (q * Qpower 1000 k - Qabs v) <= (if Qlt_le_dec v 0 then 1 # 20 else 1 # 200) * Qabs v)%Q.
Proof. exact metric_accurate. Qed.
Print Assumptions C76_metric.
(** "As much significant digits as possible" is false below 1: no digit at all is shown of
    0.0012 g, and 0.331 g is not "331 mg" as documented. *)
Theorem C76_digits_refuted :
  (exists v unit s, (0 < v)%Q /\ format_si_metric v unit = Some (Ok s) /\ s = txt "0.00 g") /\
  format_si_metric (331 # 1000) (txt "g") = Some (Ok (txt "0.33 g")).
Proof. split; [exists (12 # 10000), (txt "g"), (txt "0.00 g"); split; [reflexivity|split; [vm_compute; reflexivity|reflexivity]]|vm_compute; reflexivity]. Qed.
Print Assumptions C76_digits_refuted.
(** Smaller numbers: *)
Theorem C76_metric_small_partial : forall v unit, tidy unit -> (Qpower 1000 (-9) < Qabs v)%Q -> (Qabs v < Qpower 1000 9)%Q ->
  exists k t q e, -8 <= k <= 8 /\ format_si_metric v unit = Some (Ok (minus_sign v ++ t ++ [32%N] ++ si_letter k ++ unit)) /\ read_float t = Some q /\
    (1 / 1000 < scaled 1000 k v)%Q /\ (scaled 1000 k v < 1000)%Q /\ ((1 <= Qabs v)%Q -> (1 <= scaled 1000 k v)%Q) /\
    magnitude (scaled 1000 k v) e /\ shown_near q (scaled 1000 k v) (room_of v 4) e.
Proof. exact metric_shown. Qed.
Print Assumptions C76_metric_small_partial.
Theorem C76_zero : forall unit, tidy unit -> format_si_metric 0 unit = Some (Ok (48%N :: 32%N :: unit)).
Proof. exact metric_zero. Qed.
Print Assumptions C76_zero.

(** Binary units: the plain unit gets the whole number cut to an integer. *)
Theorem C76_binary : forall v unit, tidy unit -> (Qpower 1024 (-9) < Qabs v)%Q -> (Qabs v < Qpower 1024 9)%Q ->
  exists k num, -8 <= k <= 8 /\ format_si_binary v unit = Some (Ok (num ++ [32%N] ++ si_letter k ++ if unit then [98%N] else unit)) /\
    (1 / 1024 < scaled 1024 k v)%Q /\ (scaled 1024 k v < 1024)%Q /\ ((1 <= Qabs v)%Q -> (1 <= scaled 1024 k v)%Q) /\
    (k = 0 -> num = zdec (Qtrunc v)) /\
    (k <> 0 -> exists t q e, num = minus_sign v ++ t /\ read_float t = Some q /\ magnitude (scaled 1024 k v) e /\ shown_near q (scaled 1024 k v) (room_of v 5) e).
Proof. exact binary_shown. Qed.
Print Assumptions C76_binary.

(** Numbers beyond the prefixes: up to four digits are shown with a question mark (and without
    the unit), larger ones are an error. *)
Theorem C76_beyond : forall v unit, (Qpower 1000 9 <= Qabs v)%Q ->
  (p10 (27 + room_of v 4) <= Qabs v -> format_si_metric v unit = Some (Err ValueError))%Q /\
  ((Qabs v < p10 (27 + room_of v 4))%Q -> exists t q e, format_si_metric v unit = Some (Ok (minus_sign v ++ t ++ [32; 63]%N)) /\
     read_float t = Some q /\ magnitude (scaled 1000 9 v) e /\ shown_near q (scaled 1000 9 v) (room_of v 4) e).
Proof. exact metric_beyond. Qed.
Print Assumptions C76_beyond.

(** [max_len] may be exceeded by one, "100.0 k". *)
Theorem C76_max_len_partial : forall f v s n, 0 <= pu_max_value_len f -> prefix_format f v None = Some (Ok s) -> pu_max_len f = Ok n -> zlen s <= n + 1.
Proof. exact max_len_bound. Qed.
Print Assumptions C76_max_len_partial.
Theorem C76_max_len_refuted : exists v s n, prefix_format si_metric v None = Some (Ok s) /\ pu_max_len si_metric = Ok n /\ n < zlen s.
Proof. exists 99960%Q, (txt "100.0 k"), 6. split; [vm_compute; reflexivity|]. split; reflexivity. Qed.
Print Assumptions C76_max_len_refuted.

Example C76_example :
  format_si_metric 1010 (txt "m") = Some (Ok (txt "1.01 km")) /\ format_si_metric (-12.3) (txt "g") = Some (Ok (txt "- 12 g")) /\
  format_si_binary 1023.9 (txt "b") = Some (Ok (txt "1023 b")) /\ format_si_binary 1048576 [] = Some (Ok (txt "1.000 Mb")) /\
  format_si_metric (Qpower 10 31) (txt "m") = Some (Err ValueError) /\ format_si_metric (Qpower 10 28) (txt "m") = Some (Ok (txt "10.0 ?")) /\
  tidy (txt "m").
Proof. exact units_example. Qed.
