(** C107: floats with groups of digits *)
From Coq Require Import List NArith ZArith QArith.
From Verif.Model Require Import Base Filters ThousandFloat TimeFloat.
From Verif.Spec Require Import Filtered Doubles DecimalText.
From Verif.Proof Require Import ThousandFloatClaims ShortestClaims.
Import ListNotations.

(** ** C107 *)

(** The text of a number, given the shortest digits that are read as this number: an integer part in groups,
    the rest without separators; read as a double, it is the number again.  An exponent is written exactly
    for numbers below 0.0001 and from 10^16 on. *)
Theorem C107_shown : forall a ds p neg sep, Shortest a ds p ->
  exists i g r q, format_thousand_sep_float (Finite neg ds p) sep = (if neg then [45%N] else []) ++ g ++ r /\ Grouped sep (chars_of i) g /\ read_as q a /\
    ((ten (-4) <= a /\ a < ten 16 /\ Plain i r q) \/ ((a < ten (-4) \/ ten 16 <= a) /\ Scientific i r q))%Q.
Proof. exact float_shown. Qed.
Print Assumptions C107_shown.

(** Every positive double has such digits, and no more than 17. *)
Theorem C107_exists : forall a, double a -> (0 < a)%Q -> exists ds p, Shortest a ds p.
Proof. exact shortest_exists. Qed.
Print Assumptions C107_exists.
Theorem C107_digits : forall a ds p, Shortest a ds p -> (0 < a)%Q -> (length ds <= 17)%nat.
Proof. exact shortest_length. Qed.
Print Assumptions C107_digits.

(** Different numbers are shown differently, whatever the separator is. *)
Theorem C107_apart : forall neg ds p neg' ds' p' sep a b, Reads a ds p -> Reads b ds' p' ->
  format_thousand_sep_float (Finite neg ds p) sep = format_thousand_sep_float (Finite neg' ds' p') sep -> neg = neg' /\ (a == b)%Q.
Proof. exact text_apart. Qed.
Print Assumptions C107_apart.

(** Zeros, infinities and what is no number are shown as Python does. *)
Theorem C107_zero : forall neg sep, format_thousand_sep_float (Finite neg [0%N] 1) sep = (if neg then [45%N] else []) ++ [48; 46; 48]%N.
Proof. exact zero_text. Qed.
Print Assumptions C107_zero.
Theorem C107_special : forall neg sep, format_thousand_sep_float (Infinite neg) sep = (if neg then [45%N] else []) ++ [105; 110; 102]%N /\
  format_thousand_sep_float NotANumber sep = [110; 97; 110]%N.
Proof. exact special_text. Qed.
Print Assumptions C107_special.

(** -9,123,123,123.55 (the example in the code), 5 000 000.0, 1e+16 *)
Example C107_example :
  (let ds := [9; 1; 2; 3; 1; 2; 3; 1; 2; 3; 5; 5]%N in
   Reads (round64 (912312312355 # 100)) ds 10 /\
   format_thousand_sep_float (Finite true ds 10) [44%N] = [45; 57; 44; 49; 50; 51; 44; 49; 50; 51; 44; 49; 50; 51; 46; 53; 53]%N) /\
  Shortest (5000000 # 1) [5%N] 7 /\ format_thousand_sep_float (Finite false [5%N] 7) [32%N] = [53; 32; 48; 48; 48; 32; 48; 48; 48; 46; 48]%N /\
  Shortest (10000000000000000 # 1) [1%N] 17 /\ format_thousand_sep_float (Finite false [1%N] 17) [32%N] = [49; 101; 43; 49; 54]%N.
Proof.
  assert (D : forall ds, ds <> [] -> forallb (fun d => (d <=? 9)%N) ds = true -> digital ds).
  { intros ds H K. split; [exact H|]. apply Forall_forall. intros d I. rewrite forallb_forall in K. now apply N.leb_le, K. }
  split; [|split; [|split; [reflexivity|split; [|reflexivity]]]].
  - split; [|reflexivity]. apply reads_by_rounding; [now apply D|discriminate|vm_compute; reflexivity|vm_compute; reflexivity].
  - apply one_shortest, reads_by_rounding; [now apply D|discriminate|vm_compute; reflexivity|vm_compute; reflexivity].
  - apply one_shortest, reads_by_rounding; [now apply D|discriminate|vm_compute; reflexivity|vm_compute; reflexivity].
Qed.
