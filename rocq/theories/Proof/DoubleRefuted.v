(** Numbers for which the formatting with doubles goes wrong *)
From Coq Require Import Ascii String.
From Coq Require Import List Arith NArith ZArith QArith Qabs Qround Qpower Bool Lia Lqa.
From Verif.Model Require Import Base Color TimeDelta TimeFloat Render FloatText FloatDoubles.
From Verif.Spec Require Import Numbers FloatText Doubles Logarithm.
From Verif.Proof Require Import BaseFacts DurationFacts FloatFacts FloatClaims UnitFacts UnitClaims RoundFacts FloatDoubleFacts FloatDoubleClaims UnitDoubleClaims LogFacts.
Import ListNotations.
Local Open Scope Z_scope.

Lemma metric_fails lg pw unit : correct_log lg -> metric_doubles lg pw (-8796093022207999 # 8796093022208) unit = Some (Err ValueError).
Proof.
  intros C. unfold metric_doubles, format_doubles.
  etransitivity; [apply stop_doubles; [discriminate|discriminate|reflexivity|split; [discriminate|reflexivity]]|]. f_equal.
  unfold with_prefix_doubles. change (pu_truncate si_metric && (pu_zero si_metric =? pu_zero si_metric)) with false. cbv iota.
  unfold auto_doubles, plain_doubles, head_doubles. change (Qabs (-8796093022207999 # 8796093022208)) with (8796093022207999 # 8796093022208).
  rewrite (thousand_up lg C). reflexivity.
Qed.
Lemma zero_shown lg pw : correct_log lg -> auto_doubles lg pw (6871947673599999 # 68719476736) 3 true = Ok (txt "0e5").
Proof.
  intros C. unfold auto_doubles, exp_doubles, head_doubles. change (Qabs (6871947673599999 # 68719476736)) with (6871947673599999 # 68719476736).
  rewrite (hundred_thousand_up lg C). vm_compute. reflexivity.
Qed.
Lemma tiny_fails lg pw : accurate lg -> nearest (p10 (-324)) (pw (-324)) -> auto_doubles lg pw (pow2 (-1074)) 10 true = Err ZeroDivisionError.
Proof.
  intros A N. apply tiny_power in N. unfold auto_doubles, exp_doubles, head_doubles.
  rewrite (abs_lit (pow2 (-1074)) (pow2_pos (-1074))), (least_log lg A).
  destruct (v_flags (pow2 (-1074)) (pow2_pos (-1074))) as (F1 & F2 & _). rewrite F1, F2.
  change (10 =? 1) with false. rewrite andb_false_r. change (10 <? -1) with false. change (10 =? 0) with false. change ((-324 <? -2) || (10 - 1 <? -324)) with true.
  cbv iota zeta. change (10 <? zlen (zdec (-324)) + 1) with false. cbv iota. unfold significand_doubles. change (0 <=? -324) with false. cbv iota zeta.
  apply Qeq_bool_iff in N. rewrite N. reflexivity.
Qed.

Lemma plain_claim lg pw v n : accurate lg -> double v -> n <= 12 ->
  auto_doubles lg pw v n false = auto_float v n false \/
  exists e p, just_below (Qabs v) (p10 e) /\ Qabs p = p10 e /\ (p < 0 <-> v < 0)%Q /\ auto_doubles lg pw v n false = auto_float p n false.
Proof.
  intros A D N. destruct (plain_cases lg A v n D N) as [E|(e & J & _ & E)]; [now left|right]. exists e, (as_signed v (p10 e)). pose proof (p10_pos e) as P.
  destruct (as_signed_facts v (p10 e) P) as (S & _). split; [exact J|]. split; [exact S|]. split; [|exact E].
  unfold as_signed. destruct (Qlt_bool_spec v 0); split; intros; lra.
Qed.
Lemma no_exponent lg pw v n : written_plain true (room_of v n) (lg (Qabs v)) -> auto_doubles lg pw v n true = auto_doubles lg pw v n false.
Proof.
  intros [W1 W2]. specialize (W2 eq_refl). unfold auto_doubles, exp_doubles, plain_doubles, head_doubles. rewrite room_bool.
  destruct (Z.ltb_spec (lg (Qabs v)) (-2)); [lia|]. destruct (Z.ltb_spec (room_of v n - 1) (lg (Qabs v))); [lia|]. reflexivity.
Qed.
Lemma zero_claim : exists v, double v /\ (99999 < v)%Q /\ auto_float v 3 true = Ok (txt "9e4") /\
  forall lg pw, correct_log lg -> auto_doubles lg pw v 3 true = Ok (txt "0e5").
Proof.
  exists (6871947673599999 # 68719476736). split; [exists 6871947673599999, (-36); split; [reflexivity|split; [split; discriminate|reflexivity]]|].
  split; [reflexivity|]. split; [vm_compute; reflexivity|]. intros lg pw C. now apply zero_shown.
Qed.
Lemma tiny_claim : exists v n s, double v /\ auto_float v n true = Ok s /\
  forall lg pw, accurate lg -> nearest (p10 (-324)) (pw (-324)) -> auto_doubles lg pw v n true = Err ZeroDivisionError.
Proof.
  exists (pow2 (-1074)), 10, (txt "4.941e-324"). split; [exists 1, (-1074); split; [reflexivity|split; [split; discriminate|unfold pow2; ring]]|].
  split; [vm_compute; reflexivity|]. intros lg pw A N. now apply tiny_fails.
Qed.
Lemma metric_claim : exists v, double v /\ (v < -999)%Q /\ (-1000 < v)%Q /\ format_si_metric v [] = Some (Ok (txt "-999 ")) /\
  forall lg pw, correct_log lg -> metric_doubles lg pw v [] = Some (Err ValueError).
Proof.
  exists (-8796093022207999 # 8796093022208). split; [exists (-8796093022207999), (-43); split; [reflexivity|split; [split; discriminate|reflexivity]]|].
  split; [reflexivity|]. split; [reflexivity|]. split; [vm_compute; reflexivity|]. intros lg pw C. now apply metric_fails.
Qed.
Lemma double_example : accurate log10_floor /\ close_powers p10 /\
  auto_doubles log10_floor p10 123456789 6 true = Ok (txt "1.23e8") /\ auto_doubles log10_floor p10 (-12.5) 6 true = Ok (txt "-12.50") /\
  auto_doubles log10_floor p10 (1 # 1024) 7 true = Ok (txt "9.77e-4") /\ ~ written_plain true 7 (-4) /\ exponent_len (-4) = 3 /\
  metric_doubles log10_floor p10 1536000 (txt "m") = Some (Ok (txt "1.54 Mm")) /\ binary_doubles log10_floor p10 (-1536000) [] = Some (Ok (txt "-1.46 Mb")) /\
  double 1536000 /\ double (-12.5) /\ double (1 # 1024).
Proof.
  split; [exact exact_accurate|]. split; [exact exact_powers|]. split; [vm_compute; reflexivity|]. split; [vm_compute; reflexivity|]. split; [vm_compute; reflexivity|].
  split; [intros [_ K]; specialize (K eq_refl); lia|]. split; [reflexivity|]. split; [vm_compute; reflexivity|]. split; [vm_compute; reflexivity|].
  split; [exists 1536000, 0; split; [reflexivity|split; [split; discriminate|reflexivity]]|].
  split; [exists (-25), (-1)|exists 1, (-10)]; (split; [reflexivity|split; [split; discriminate|reflexivity]]).
Qed.
Lemma small_example : accurate log10_floor /\ double (1 # 4096) /\ double (- (1 # 2)) /\
  metric_doubles log10_floor p10 (1 # 4096) (txt "m") = Some (Ok (txt "0.24 mm")) /\ metric_doubles log10_floor p10 (- (1 # 2)) (txt "m") = Some (Ok (txt "-0.5 m")).
Proof.
  split; [exact exact_accurate|]. split; [exists 1, (-12); split; [reflexivity|split; [split; discriminate|reflexivity]]|].
  split; [exists (-1), (-1); split; [reflexivity|split; [split; discriminate|reflexivity]]|]. split; vm_compute; reflexivity.
Qed.
Lemma tiny_example : accurate log10_floor /\ double (1 # 4096) /\ double (- (1 # 2)) /\
  binary_doubles log10_floor p10 (1 # 4096) (txt "m") = Some (Ok (txt "0.250 mm")) /\ binary_doubles log10_floor p10 (- (1 # 2)) (txt "m") = Some (Ok (txt "0 m")).
Proof.
  split; [exact exact_accurate|]. split; [exists 1, (-12); split; [reflexivity|split; [split; discriminate|reflexivity]]|].
  split; [exists (-1), (-1); split; [reflexivity|split; [split; discriminate|reflexivity]]|]. split; vm_compute; reflexivity.
Qed.
