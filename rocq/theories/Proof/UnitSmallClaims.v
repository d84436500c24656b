(** Proofs about SI units of numbers below 1, with doubles *)
From Coq Require Import List Arith NArith ZArith QArith Qabs Qround Qpower Bool Lia Lqa.
From Verif.Model Require Import Base Color TimeDelta TimeFloat FloatText FloatDoubles.
From Verif.Spec Require Import Numbers FloatText Doubles Logarithm Conditions.
From Verif.Proof Require Import BaseFacts TokFacts BinClaims DurationFacts FloatFacts FloatClaims UnitFacts UnitClaims RoundFacts FloatDoubleFacts FloatDoubleClaims UnitDoubleClaims HsvFloatClaims.
Import ListNotations.
Local Open Scope Z_scope.

Notation eps := (1 # 4503599627370496)%Q.
Definition milli : Q := round64 (1 / 1000).
Lemma milli_bounds : ((1 - eps) * (1 # 1000) <= milli)%Q /\ (milli <= (1 + eps) * (1 # 1000))%Q.
Proof. vm_compute. split; discriminate. Qed.
(** [w] is [v * 1000^j], but for the rounding *)
Definition rise (v w : Q) (j : Z) : Prop := (Qabs (w - v * Qpower 1000 j) <= inject_Z j * eps * (Qabs v * Qpower 1000 j))%Q.
Lemma pow_pos j : (0 < Qpower 1000 j)%Q.
Proof. apply Qpower_0_lt. reflexivity. Qed.
Lemma pow_S j : (Qpower 1000 (j + 1) == Qpower 1000 j * 1000)%Q.
Proof. rewrite Qpower_plus by discriminate. reflexivity. Qed.
Lemma abs_pow v j : (Qabs (v * Qpower 1000 j) == Qabs v * Qpower 1000 j)%Q.
Proof. rewrite Qabs_Qmult. rewrite (Qabs_pos (Qpower 1000 j)); [reflexivity|]. apply Qlt_le_weak, pow_pos. Qed.
Lemma rise_bounds v w j : rise v w j -> 0 <= j <= 10 ->
  ((1 - 10 * eps) * (Qabs v * Qpower 1000 j) <= Qabs w)%Q /\ (Qabs w <= (1 + 10 * eps) * (Qabs v * Qpower 1000 j))%Q.
Proof.
  intros D J. unfold rise in D. pose proof (abs_pow v j) as A. pose proof (Qabs_nonneg (v * Qpower 1000 j)) as N. rewrite A in N.
  assert (B : (inject_Z j * eps * (Qabs v * Qpower 1000 j) <= 10 * eps * (Qabs v * Qpower 1000 j))%Q).
  { apply Qmult_le_compat_r; [|exact N]. assert (inject_Z j <= 10)%Q by (change 10%Q with (inject_Z 10); rewrite <- Zle_Qle; lia). lra. }
  pose proof (Qabs_triangle_reverse w (v * Qpower 1000 j)). pose proof (Qabs_triangle_reverse (v * Qpower 1000 j) w). rewrite (Qabs_Qminus (v * Qpower 1000 j) w) in *. rewrite A in *. split; lra.
Qed.
Lemma milli_1000 : (round64 (milli * 1000) == 1)%Q.
Proof. vm_compute. reflexivity. Qed.
Lemma neg_milli_1000 : (round64 (- milli * 1000) == -1)%Q.
Proof. vm_compute. reflexivity. Qed.
Lemma times_1000 w : (Qabs w <= milli)%Q -> (Qabs (round64 (w * 1000)) <= 1)%Q /\ double (round64 (w * 1000)).
Proof.
  intros H. pose proof milli_bounds as [_ M]. apply abs_le in H. split.
  - assert (A : (Qabs (w * 1000) <= 1000)%Q) by (apply abs_le; lra). assert (B : (Qabs (milli * 1000) <= 1000)%Q) by (vm_compute; discriminate). assert (C : (Qabs (- milli * 1000) <= 1000)%Q) by (vm_compute; discriminate).
    pose proof (round_mono _ _ A B ltac:(lra)) as U. pose proof (round_mono _ _ C A ltac:(lra)) as L. rewrite milli_1000 in U. rewrite neg_milli_1000 in L. apply abs_le. lra.
  - apply round_double. apply abs_le. lra.
Qed.
Lemma rise_step v w j : rise v w j -> 0 <= j <= 9 -> (pow2 (-1022) <= Qabs (w * 1000))%Q -> rise v (round64 (w * 1000)) (j + 1).
Proof.
  intros D J L. destruct (rise_bounds v w j D ltac:(lia)) as [_ B]. pose proof (round64_rel _ L) as R. unfold rise in *. rewrite inject_Z_plus. change (inject_Z 1) with 1%Q.
  pose proof (pow_S j) as P. set (p := Qpower 1000 (j + 1)) in *. set (p0 := Qpower 1000 j) in *.
  assert (A : (Qabs (w * 1000) == Qabs w * 1000)%Q) by (rewrite Qabs_Qmult; reflexivity). rewrite A in R.
  assert (T : (Qabs (w * 1000 - v * p) <= inject_Z j * eps * (Qabs v * p))%Q).
  { setoid_replace (w * 1000 - v * p)%Q with ((w - v * p0) * 1000)%Q by (rewrite P; ring). rewrite Qabs_Qmult. change (Qabs 1000) with 1000%Q. rewrite P. lra. }
  assert (E : (Qabs v * p == Qabs v * p0 * 1000)%Q) by (rewrite P; ring).
  pose proof (Qabs_triangle (round64 (w * 1000) - w * 1000) (w * 1000 - v * p)) as S.
  setoid_replace (round64 (w * 1000) - w * 1000 + (w * 1000 - v * p))%Q with (round64 (w * 1000) - v * p)%Q in S by ring.
  assert (N : (0 <= Qabs v * p)%Q) by (unfold p; rewrite <- abs_pow; apply Qabs_nonneg). rewrite E in *. lra.
Qed.

Section Library.
  Variable lg : Q -> Z.
  Variable pw : Z -> Q.
  Hypothesis ACC : accurate lg.
  Variable unit : str.

  Lemma small_loop v : ((1 + (1 # 1000000000000)) * Qpower 1000 (-9) < Qabs v)%Q -> forall fuel w j, double w -> (Qabs w <= 1)%Q -> rise v w j -> 0 <= j <= 8 -> 9 <= j + Z.of_nat fuel ->
    exists j' w', 0 <= j' <= 8 /\ double w' /\ (milli < Qabs w')%Q /\ (Qabs w' <= 1)%Q /\ rise v w' j' /\
      loop_doubles lg pw fuel si_metric w (8 - j) (Some unit) = Some (with_prefix_doubles lg pw si_metric w' (8 - j') (Some unit)).
  Proof.
    intros V. induction fuel as [|fuel IH]; intros w j D W R J F; [lia|].
    cbn [loop_doubles]. change (pu_mcoef si_metric) with 1000%Q. fold milli. change (zlen (pu_prefixes si_metric)) with 17.
    replace ((0 <=? 8 - j) && (8 - j <? 17)) with true by (symmetry; rewrite andb_true_iff, Z.leb_le, Z.ltb_lt; lia).
    destruct (rise_bounds v w j R ltac:(lia)) as [B1 B2].
    assert (PJ : (Qpower 1000 (-9) <= Qpower 1000 (-9) * Qpower 1000 j)%Q).
    { assert (1 <= Qpower 1000 j)%Q by (rewrite <- (Qpower_0_r 1000); apply Qpower_le_compat_l; [lia|discriminate]). pose proof (pow_pos (-9)). nra. }
    assert (VJ : (Qpower 1000 (-9) < Qabs v * Qpower 1000 j)%Q).
    { apply (Qle_lt_trans _ _ _ PJ). apply Qmult_lt_r; [apply pow_pos|]. pose proof (pow_pos (-9)). lra. }
    assert (WP : ((1 # 2) * Qpower 1000 (-9) < Qabs w)%Q) by (pose proof (pow_pos (-9)); lra).
    assert (W0 : (0 < Qabs w)%Q) by (pose proof (pow_pos (-9)); lra).
    destruct (Qle_bool_spec (Qabs w) milli) as [L|L].
    - replace (Qlt_bool 0 (Qabs w)) with true by (symmetry; destruct (Qlt_bool_spec 0 (Qabs w)); [reflexivity|lra]). cbn [andb].
      destruct (times_1000 w L) as [T1 T2]. destruct (Qle_bool_spec (Qabs (round64 (w * 1000))) 1) as [_|C]; [|lra].
      assert (R' : rise v (round64 (w * 1000)) (j + 1)).
      { apply rise_step; [exact R|lia|]. rewrite Qabs_Qmult. change (Qabs 1000) with 1000%Q.
        apply (Qle_trans _ ((1 # 2) * Qpower 1000 (-9))); [vm_compute; discriminate|lra]. }
      destruct (Z.eq_dec j 8) as [->|NJ].
      + exfalso. destruct (rise_bounds v _ _ R' ltac:(lia)) as [C1 _]. change (8 + 1) with 9 in C1.
        assert (Q9 : ((1 + (1 # 1000000000000)) < Qabs v * Qpower 1000 9)%Q).
        { apply (Qle_lt_trans _ ((1 + (1 # 1000000000000)) * Qpower 1000 (-9) * Qpower 1000 9)); [vm_compute; discriminate|]. apply Qmult_lt_r; [apply pow_pos|exact V]. }
        lra.
      + replace (8 - j - 1) with (8 - (j + 1)) by lia. apply IH; try assumption; lia.
    - rewrite andb_false_r. destruct (Qle_bool_spec 1000 (Qabs w)) as [C|_]; [lra|]. exists j, w. split; [lia|]. split; [exact D|]. split; [lra|]. split; [exact W|]. split; [exact R|reflexivity].
  Qed.

  Lemma rise_sign v w j : rise v w j -> 0 <= j <= 10 -> (0 < Qabs v)%Q -> minus_sign w = minus_sign v /\ forall n, room_of w n = room_of v n.
  Proof.
    intros D J V. pose proof (pow_pos j) as P.
    assert (S : (w < 0)%Q <-> (v < 0)%Q).
    { unfold rise in D. assert (N : (0 < Qabs v * Qpower 1000 j)%Q) by nra.
      assert (B : (inject_Z j * eps * (Qabs v * Qpower 1000 j) <= (1 # 2) * (Qabs v * Qpower 1000 j))%Q).
      { apply Qmult_le_compat_r; [|lra]. assert (inject_Z j <= 10)%Q by (change 10%Q with (inject_Z 10); rewrite <- Zle_Qle; lia). lra. }
      assert (C : (Qabs (w - v * Qpower 1000 j) <= (1 # 2) * (Qabs v * Qpower 1000 j))%Q) by lra. apply Qabs_Qle_condition in C.
      split; intros H.
      - destruct (Qlt_le_dec v 0) as [|G]; [assumption|]. rewrite Qabs_pos in * by exact G. nra.
      - destruct (Qlt_le_dec w 0) as [|G]; [assumption|]. rewrite Qabs_neg in * by lra. nra. }
    unfold minus_sign, room_of. destruct (Qlt_le_dec w 0), (Qlt_le_dec v 0); try tauto; exfalso; tauto || (assert (~ (w < 0)%Q) by lra; tauto) || (assert (~ (v < 0)%Q) by lra; tauto).
  Qed.
  Lemma shown_below (neg : bool) a q e : (a <= 1)%Q -> magnitude a e -> shown_near q a (if neg then 3 else 4) e -> (Qabs (q - a) <= (if neg then 1 # 20 else 1 # 200))%Q.
  Proof.
    intros A M [_ N2]. assert (E0 : e <= 0). { destruct (Z_le_dec e 0); [assumption|exfalso]. destruct M as [M _]. pose proof (p10_le 1 e ltac:(lia)) as P. change (p10 1) with 10%Q in P. lra. }
    unfold int_digits in *. rewrite Z.max_l in N2 by lia. destruct neg.
    - specialize (N2 ltac:(lia)). change (p10 (- (3 - 1 - 1))) with (1 # 10) in N2. lra.
    - specialize (N2 ltac:(lia)). change (p10 (- (4 - 1 - 1))) with (1 # 100) in N2. lra.
  Qed.
  Theorem metric_small v : tidy unit -> double v -> (Qabs v < 1)%Q -> ((1 + (1 # 1000000000000)) * Qpower 1000 (-9) < Qabs v)%Q ->
    exists k t q, -8 <= k <= 0 /\ (Qabs v <= (1 + (1 # 1000000000000)) * Qpower 1000 k)%Q /\ ((1 - (1 # 1000000000000)) * Qpower 1000 (k - 1) <= Qabs v)%Q /\
      metric_doubles lg pw v unit = Some (Ok (minus_sign v ++ t ++ [32%N] ++ si_letter k ++ unit)) /\ read_float t = Some q /\
      (Qabs (q * Qpower 1000 k - Qabs v) <= (if Qlt_le_dec v 0 then 501 # 10000 else 501 # 100000) * Qpower 1000 k)%Q.
  Proof.
    intros T D V1 V. assert (U : unit_of si_metric (Some unit) = unit) by (destruct unit; reflexivity).
    assert (R0 : rise v v 0).
    { unfold rise. setoid_replace (v - v * Qpower 1000 0)%Q with 0%Q by (cbn [Qpower]; ring). change (inject_Z 0) with 0%Q. change (Qabs 0) with 0%Q. lra. }
    assert (V0 : (0 < Qabs v)%Q) by (pose proof (pow_pos (-9)); lra).
    destruct (small_loop v V (S (length (pu_prefixes si_metric))) v 0 D ltac:(lra) R0 ltac:(lia) ltac:(cbn; lia)) as (j & w & J & DW & W1 & W2 & R & F).
    change (8 - 0) with 8 in F. assert (FM : metric_doubles lg pw v unit = Some (with_prefix_doubles lg pw si_metric w (8 - j) (Some unit))) by exact F. clear F.
    destruct (rise_bounds v w j R ltac:(lia)) as [B1 B2]. destruct (rise_sign v w j R ltac:(lia) V0) as [MS RO]. pose proof milli_bounds as [ML MU].
    pose proof (pow_pos (- j)) as P. assert (PJ : (Qpower 1000 j * Qpower 1000 (- j) == 1)%Q) by (rewrite <- Qpower_plus by discriminate; rewrite Z.add_opp_diag_r; reflexivity).
    assert (PM : (Qpower 1000 (- j - 1) == Qpower 1000 (- j) * (1 # 1000))%Q) by (change (- j - 1) with (- j + -1); rewrite Qpower_plus by discriminate; reflexivity).
    assert (VJ : (Qabs v * Qpower 1000 j * Qpower 1000 (- j) == Qabs v)%Q) by (rewrite <- Qmult_assoc, PJ; ring).
    set (a := (Qabs v * Qpower 1000 j)%Q) in *. set (p := Qpower 1000 (- j)) in *.
    assert (A1 : (a <= 1 + 11 * eps)%Q) by lra. assert (A2 : ((1 - 12 * eps) * (1 # 1000) <= a)%Q) by lra.
    assert (A1' := mul_P _ _ _ P A1). assert (A2' := mul_P _ _ _ P A2). rewrite VJ in A1', A2'.
    assert (SHOW : forall x, ~ (x == 0)%Q -> (0 < Qabs x)%Q -> (Qabs x <= 1)%Q -> minus_sign x = minus_sign w -> (forall n, room_of x n = room_of w n) ->
       (Qabs (Qabs x - Qabs w) <= 1 # 500000000000)%Q -> with_prefix_doubles lg pw si_metric w (8 - j) (Some unit) = with_prefix si_metric x (8 - j) (Some unit) ->
       exists t q, metric_doubles lg pw v unit = Some (Ok (minus_sign v ++ t ++ [32%N] ++ si_letter (- j) ++ unit)) /\ read_float t = Some q /\
          (Qabs (q * p - Qabs v) <= (if Qlt_le_dec v 0 then 501 # 10000 else 501 # 100000) * p)%Q).
    { intros x XN X0 X1 XS XR XC XE. pose proof (log_spec (Qabs x) X0) as M. set (e := log10_floor (Qabs x)) in *.
      assert (RV : room_of x 4 = room_of v 4) by (now rewrite XR, RO).
      assert (R3 : 3 <= room_of v 4) by (unfold room_of; destruct (Qlt_le_dec v 0); lia).
      assert (EL : e < 1). { apply p10_lt_inv. destruct M. change (p10 1) with 10%Q. lra. }
      destruct (with_prefix_shown si_metric x (8 - j) (Some unit) e XN M) as (t & q & q' & WP & RF & QE & SN).
      - change (pu_max_value_len si_metric) with 4. rewrite RV. lia.
      - change (pu_max_value_len si_metric) with 4. rewrite RV. lia.
      - now left.
      - apply si_tidy. reflexivity.
      - now rewrite U.
      - exists t, q'. split; [|split; [exact RF|]].
        { rewrite FM, XE, WP, U, XS, MS. replace (8 - j) with (8 + - j) by lia. rewrite (si_letter_at si_metric (- j) eq_refl) by lia. reflexivity. }
        change (pu_max_value_len si_metric) with 4 in SN. rewrite RV in SN.
        assert (A : (Qabs (q - Qabs x) <= (if Qlt_le_dec v 0 then 1 # 20 else 1 # 200))%Q).
        { unfold room_of in SN. destruct (Qlt_le_dec v 0); [apply (shown_below true (Qabs x) q e X1 M SN)|apply (shown_below false (Qabs x) q e X1 M SN)]. }
        rewrite QE. setoid_replace (q * p - Qabs v)%Q with ((q - a) * p)%Q by (rewrite <- VJ at 1; ring). rewrite Qabs_Qmult, (Qabs_pos p) by lra. apply mul_P; [exact P|].
        apply Qabs_Qle_condition in A, XC. apply Qabs_Qle_condition. destruct (Qlt_le_dec v 0); split; lra. }
    exists (- j). enough (exists t q, metric_doubles lg pw v unit = Some (Ok (minus_sign v ++ t ++ [32%N] ++ si_letter (- j) ++ unit)) /\ read_float t = Some q /\
          (Qabs (q * p - Qabs v) <= (if Qlt_le_dec v 0 then 501 # 10000 else 501 # 100000) * p)%Q) as (t & q & K1 & K2 & K3).
    { exists t, q. rewrite PM. fold p. split; [lia|]. split; [lra|]. split; [lra|]. split; [exact K1|]. split; [exact K2|exact K3]. }
    assert (WN : ~ (w == 0)%Q) by (intros E; rewrite (Qabs_wd _ _ E) in W1; change (Qabs 0) with 0%Q in W1; lra).
    destruct (prefix_cases lg pw ACC si_metric (Some unit) w (8 - j) DW ltac:(discriminate)) as [E|(e & G & _ & E)].
    - apply (SHOW w); try reflexivity; try assumption; [lra|]. setoid_replace (Qabs w - Qabs w)%Q with 0%Q by ring. discriminate.
    - pose proof (p10_pos e) as PE. destruct (as_signed_facts w (p10 e) PE) as (S1 & S2 & S3 & S4). pose proof G as [G1 G2].
      assert (E0 : e <= 0). { destruct (Z_le_dec e 0); [assumption|exfalso]. pose proof (p10_le 1 e ltac:(lia)) as X. change (p10 1) with 10%Q in X. lra. }
      pose proof (p10_le e 0 E0) as P1. change (p10 0) with 1%Q in P1.
      apply (SHOW (as_signed w (p10 e))); try assumption; rewrite ?S1; try assumption.
      apply Qabs_Qle_condition. split; lra.
  Qed.
End Library.
