(** Proofs about numbers with prefixed units, with doubles *)
From Coq Require Import List Arith NArith ZArith QArith Qabs Qround Qpower Bool Lia Lqa.
From Verif.Model Require Import Base Color TimeDelta TimeFloat FloatText FloatDoubles.
From Verif.Spec Require Import Numbers FloatText Doubles Logarithm Conditions.
From Verif.Proof Require Import BaseFacts TokFacts BinClaims DurationFacts FloatFacts FloatClaims UnitFacts UnitClaims RoundFacts FloatDoubleFacts FloatDoubleClaims.
Import ListNotations.
Local Open Scope Z_scope.

Section Library.
  Variable lg : Q -> Z.
  Variable pw : Z -> Q.
  Hypothesis ACC : accurate lg.
  Variable f : unit_config.
  Variable unit : option str.
  Notation m := (pu_mcoef f).
  Hypothesis M2 : (2 <= m)%Q.
  Notation len := (zlen (pu_prefixes f)).
  Notation eps := (1 # 4503599627370496)%Q.

  (** the number [w] is [v / m^k], but for the rounding *)
  Definition drift (v w : Q) (k : Z) : Prop := (Qabs (w * Qpower m k - v) <= inject_Z k * eps * Qabs v)%Q.

  Lemma m_pow k : (0 < Qpower m k)%Q.
  Proof. apply Qpower_0_lt. lra. Qed.
  Lemma m_pow_S k : (Qpower m (k + 1) == Qpower m k * m)%Q.
  Proof. rewrite Qpower_plus by lra. now rewrite Qpower_1_r. Qed.
  Lemma drift_bounds v w k : drift v w k -> 0 <= k <= 1000 ->
    ((1 - (1 # 1125899906842)) * Qabs v <= Qabs w * Qpower m k)%Q /\ (Qabs w * Qpower m k <= (1 + (1 # 1125899906842)) * Qabs v)%Q.
  Proof.
    intros D K. pose proof (m_pow k) as P. unfold drift in D. rewrite <- (Qabs_pos (Qpower m k)) by lra. rewrite <- Qabs_Qmult.
    assert (B : (inject_Z k * eps * Qabs v <= (1 # 1125899906842) * Qabs v)%Q).
    { apply Qmult_le_compat_r; [|apply Qabs_nonneg]. assert (inject_Z k <= 1000)%Q by (change 1000%Q with (inject_Z 1000); rewrite <- Zle_Qle; lia). lra. }
    set (x := (w * Qpower m k)%Q) in *. pose proof (Qabs_triangle_reverse x v). pose proof (Qabs_triangle_reverse v x). rewrite (Qabs_Qminus v x) in *.
    split; lra.
  Qed.

  Lemma round_down_small w : (1 <= Qabs w)%Q -> Qle_bool (Qabs w) (round64 (1 / m)) = false.
  Proof.
    intros H. assert (A : (1 / m <= 1 # 2)%Q) by (apply Qle_shift_div_r; lra). assert (A0 : (0 < 1 / m)%Q) by (apply Qlt_shift_div_l; lra).
    assert (L : (round64 (1 / m) < 1)%Q).
    { assert (NZ : ~ (1 / m == 0)%Q) by lra. destruct (round64_near _ NZ) as (n & E & _ & N & _). rewrite E.
      assert (U : (ulp (1 / m) <= 1 # 4)%Q).
      { unfold ulp. destruct (exponent_spec _ NZ) as [S _]. rewrite Qabs_pos in S by lra.
        assert (X : exponent (1 / m) < 0). { apply pow2_lt_inv. change (pow2 0) with 1%Q. lra. }
        apply (Qle_trans _ (pow2 (-2))); [apply pow2_le; lia|discriminate]. }
      apply Qabs_Qle_condition in N. lra. }
    destruct (Qle_bool_spec (Qabs w) (round64 (1 / m))); [lra|reflexivity].
  Qed.
  Lemma stop_doubles fuel w i : (1 <= Qabs w)%Q -> (Qabs w < m)%Q -> 0 <= i < len ->
    loop_doubles lg pw (S fuel) f w i unit = Some (with_prefix_doubles lg pw f w i unit).
  Proof.
    intros H1 H2 Hi. cbn [loop_doubles]. rewrite (round_down_small w H1), andb_false_r.
    replace ((0 <=? i) && (i <? len)) with true by (symmetry; rewrite andb_true_iff, Z.leb_le, Z.ltb_lt; lia).
    destruct (Qle_bool_spec m (Qabs w)); [lra|reflexivity].
  Qed.

  Lemma down_doubles w : double w -> (m <= Qabs w)%Q -> double (round64 (w / m)) /\ (1 <= Qabs (round64 (w / m)))%Q /\ (Qabs (round64 (w / m) - w / m) <= (1 # 2) * eps * Qabs (w / m))%Q.
  Proof.
    intros D H. assert (AD : (Qabs (w / m) == Qabs w / m)%Q).
    { unfold Qdiv. rewrite Qabs_Qmult. rewrite (Qabs_pos (/ m)); [reflexivity|]. apply Qlt_le_weak, Qinv_lt_0_compat. lra. }
    assert (GE : (1 <= Qabs (w / m))%Q) by (rewrite AD; apply Qle_shift_div_l; lra).
    assert (LE : (Qabs (w / m) <= Qabs w * (1 # 2))%Q) by (rewrite AD; apply Qle_shift_div_r; [lra|]; nra).
    pose proof (round64_rel (w / m)) as R. assert (X : (pow2 (-1022) <= Qabs (w / m))%Q).
    { pose proof (pow2_le (-1022) 0 ltac:(lia)) as B. change (pow2 0) with 1%Q in B. lra. }
    specialize (R X). pose proof (double_bound w D) as B.
    assert (BR : (Qabs (round64 (w / m)) < pow2 1024)%Q).
    { pose proof (Qabs_triangle_reverse (round64 (w / m)) (w / m)). lra. }
    split; [now apply round64_closest|]. split; [|lra].
    destruct (Qlt_le_dec 0 (w / m)) as [S|S].
    - rewrite Qabs_pos in GE by lra. pose proof (round64_ge (w / m) 1 ltac:(lia) GE BR) as K. change (inject_Z 1) with 1%Q in K. rewrite Qabs_pos by lra. exact K.
    - rewrite Qabs_neg in GE by lra. pose proof (round64_le (w / m) (-1) ltac:(lia)) as K. change (inject_Z (-1)) with (-1)%Q in K. specialize (K ltac:(lra) BR). rewrite Qabs_neg by lra. lra.
  Qed.

  Lemma drift_step v w k : drift v w k -> 0 <= k <= 1000 -> double w -> (m <= Qabs w)%Q -> drift v (round64 (w / m)) (k + 1).
  Proof.
    intros D K DW H. destruct (down_doubles w DW H) as (_ & _ & R). destruct (drift_bounds v w k D K) as [_ B]. unfold drift in *.
    pose proof (m_pow (k + 1)) as P1. rewrite inject_Z_plus. change (inject_Z 1) with 1%Q.
    set (w' := round64 (w / m)) in *. pose proof (Qabs_nonneg v) as V0.
    assert (E : (w / m * Qpower m (k + 1) == w * Qpower m k)%Q) by (rewrite m_pow_S; field; lra).
    assert (T1 : (Qabs (w' * Qpower m (k + 1) - w * Qpower m k) <= (1 # 2) * eps * (Qabs w * Qpower m k))%Q).
    { rewrite <- E. setoid_replace (w' * Qpower m (k + 1) - w / m * Qpower m (k + 1))%Q with ((w' - w / m) * Qpower m (k + 1))%Q by ring.
      rewrite Qabs_Qmult, (Qabs_pos (Qpower m (k + 1))) by lra. apply (Qmult_le_compat_r _ _ (Qpower m (k + 1))) in R; [|lra].
      eapply Qle_trans; [exact R|]. rewrite <- Qmult_assoc. rewrite <- (Qabs_pos (Qpower m (k + 1))) at 1 by lra. rewrite <- Qabs_Qmult, E, Qabs_Qmult.
      rewrite (Qabs_pos (Qpower m k)) by (apply Qlt_le_weak, m_pow). lra. }
    pose proof (Qabs_triangle (w' * Qpower m (k + 1) - w * Qpower m k) (w * Qpower m k - v)) as T.
    setoid_replace (w' * Qpower m (k + 1) - w * Qpower m k + (w * Qpower m k - v))%Q with (w' * Qpower m (k + 1) - v)%Q in T by ring. lra.
  Qed.

  Lemma up_doubles v fuel : forall w i k, double w -> (1 <= Qabs w)%Q -> drift v w k -> 0 <= k -> 0 <= i <= len -> len - i < Z.of_nat fuel -> k + (len - i) <= 1000 ->
    exists j w', 0 <= j /\ i + j <= len /\ double w' /\ (1 <= Qabs w')%Q /\ drift v w' (k + j) /\
      ((i + j < len /\ (Qabs w' < m)%Q /\ loop_doubles lg pw fuel f w i unit = Some (with_prefix_doubles lg pw f w' (i + j) unit)) \/ i + j = len).
  Proof.
    induction fuel as [|fuel IH]; intros w i k D W DR K I F B; [lia|]. destruct (Z.eq_dec i len) as [E|E].
    { exists 0, w. split; [lia|]. split; [lia|]. split; [exact D|]. split; [exact W|]. split; [now rewrite Z.add_0_r|]. right. lia. }
    destruct (Qlt_le_dec (Qabs w) m) as [S|S].
    { exists 0, w. split; [lia|]. split; [lia|]. split; [exact D|]. split; [exact W|]. split; [now rewrite Z.add_0_r|]. left. split; [lia|]. split; [exact S|].
      rewrite Z.add_0_r. apply stop_doubles; [exact W|exact S|lia]. }
    destruct (down_doubles w D S) as (D' & W' & _).
    destruct (IH (round64 (w / m)) (i + 1) (k + 1) D' W') as (j & w' & J & IL & DW & WW & DD & R).
    - apply drift_step; [exact DR|lia|exact D|exact S].
    - lia.
    - lia.
    - lia.
    - lia.
    - exists (j + 1), w'. split; [lia|]. split; [lia|]. split; [exact DW|]. split; [exact WW|]. split; [now replace (k + (j + 1)) with (k + 1 + j) by lia|].
      destruct R as [(R1 & R2 & R3)|R]; [left|right; lia]. split; [lia|]. split; [exact R2|].
      replace (i + (j + 1)) with (i + 1 + j) by lia. rewrite <- R3. cbn [loop_doubles]. rewrite (round_down_small w W), andb_false_r.
      replace ((0 <=? i) && (i <? len)) with true by (symmetry; rewrite andb_true_iff, Z.leb_le, Z.ltb_lt; lia).
      destruct (Qle_bool_spec m (Qabs w)) as [_|C]; [reflexivity|lra].
  Qed.

  (** with this library the text is the one of the exact model for a number very near *)
  Lemma prefix_cases w i : double w -> pu_max_value_len f <= 12 ->
    with_prefix_doubles lg pw f w i unit = with_prefix f w i unit \/
    exists e, just_below (Qabs w) (p10 e) /\ pu_truncate f && (i =? pu_zero f) = false /\ with_prefix_doubles lg pw f w i unit = with_prefix f (as_signed w (p10 e)) i unit.
  Proof.
    intros D N. unfold with_prefix_doubles, with_prefix. destruct (pu_truncate f && (i =? pu_zero f)); [now left|].
    unfold auto_doubles, auto_float. destruct (plain_cases lg ACC w _ D N) as [E|(e & J & _ & E)]; rewrite E; [now left|right]. exists e. split; [exact J|]. split; reflexivity.
  Qed.
  Lemma format_cases v : double v -> (1 <= Qabs v)%Q -> 0 <= pu_zero f <= len -> len <= 1000 -> 
    exists k w, 0 <= k /\ pu_zero f + k <= len /\ double w /\ (1 <= Qabs w)%Q /\ drift v w k /\
      ((pu_zero f + k < len /\ (Qabs w < m)%Q /\ format_doubles lg pw f v unit = Some (with_prefix_doubles lg pw f w (pu_zero f + k) unit)) \/ pu_zero f + k = len).
  Proof.
    intros D V Z L. assert (D0 : drift v v 0).
    { unfold drift. setoid_replace (v * Qpower m 0 - v)%Q with 0%Q by (cbn [Qpower]; ring). change (inject_Z 0) with 0%Q. change (Qabs 0) with 0%Q. lra. }
    destruct (up_doubles v (S (length (pu_prefixes f))) v (pu_zero f) 0 D V D0) as (k & w & R); [lia|lia|unfold zlen; lia|lia|]. exists k, w. exact R.
  Qed.
End Library.

Lemma drift_sign f v w k : (2 <= pu_mcoef f)%Q -> drift f v w k -> 0 <= k <= 1000 -> (1 <= Qabs v)%Q -> minus_sign w = minus_sign v /\ forall n, room_of w n = room_of v n.
Proof.
  intros M D K V. pose proof (m_pow f M k) as P.
  assert (S : (w < 0)%Q <-> (v < 0)%Q).
  { unfold drift in D. assert (B : (inject_Z k * (1 # 4503599627370496) * Qabs v <= (1 # 2) * Qabs v)%Q).
    { apply Qmult_le_compat_r; [|apply Qabs_nonneg]. assert (inject_Z k <= 1000)%Q by (change 1000%Q with (inject_Z 1000); rewrite <- Zle_Qle; lia). lra. }
    assert (C : (Qabs (w * Qpower (pu_mcoef f) k - v) <= (1 # 2) * Qabs v)%Q) by lra. apply Qabs_Qle_condition in C.
    split; intros H.
    - destruct (Qlt_le_dec v 0) as [|G]; [assumption|]. rewrite Qabs_pos in * by exact G. nra.
    - destruct (Qlt_le_dec w 0) as [|G]; [assumption|]. rewrite Qabs_neg in * by lra. nra. }
  unfold minus_sign, room_of. destruct (Qlt_le_dec w 0), (Qlt_le_dec v 0); try tauto; exfalso; tauto || (assert (~ (w < 0)%Q) by lra; tauto) || (assert (~ (v < 0)%Q) by lra; tauto).
Qed.

(** ** SI units *)
Lemma shown_relative (neg : bool) a q e : (1 <= a)%Q -> magnitude a e -> e < (if neg then 3 else 4) -> shown_near q a (if neg then 3 else 4) e ->
  (Qabs (q - a) <= (if neg then 1 # 20 else 1 # 200) * a)%Q.
Proof.
  intros A M E [N1 N2]. pose proof M as [M1 _].
  assert (E0 : 0 <= e). { destruct (Z_lt_dec e 0); [|lia]. exfalso. destruct M as [_ M]. pose proof (p10_le (e + 1) 0 ltac:(lia)) as P. change (p10 0) with 1%Q in P. lra. }
  unfold int_digits in *. rewrite Z.max_r in * by lia.
  assert (EC : e = 0 \/ e = 1 \/ e = 2 \/ e = 3) by (destruct neg; lia).
  destruct neg; destruct EC as [-> | [-> | [-> | ->]]].
  - specialize (N2 ltac:(lia)). change (p10 (- (3 - (0 + 1) - 1))) with (1 # 10) in N2. lra.
  - specialize (N2 ltac:(lia)). change (p10 (- (3 - (1 + 1) - 1))) with 1%Q in N2. change (p10 1) with 10%Q in M1. lra.
  - specialize (N1 ltac:(lia)). change (p10 2) with 100%Q in M1. lra.
  - lia.
  - specialize (N2 ltac:(lia)). change (p10 (- (4 - (0 + 1) - 1))) with (1 # 100) in N2. lra.
  - specialize (N2 ltac:(lia)). change (p10 (- (4 - (1 + 1) - 1))) with (1 # 10) in N2. change (p10 1) with 10%Q in M1. lra.
  - specialize (N2 ltac:(lia)). change (p10 (- (4 - (2 + 1) - 1))) with 1%Q in N2. change (p10 2) with 100%Q in M1. lra.
  - specialize (N1 ltac:(lia)). change (p10 3) with 1000%Q in M1. lra.
Qed.

Lemma as_signed_facts w p : (0 < p)%Q -> Qabs (as_signed w p) = p /\ minus_sign (as_signed w p) = minus_sign w /\ (forall n, room_of (as_signed w p) n = room_of w n) /\ ~ (as_signed w p == 0)%Q.
Proof.
  intros P. unfold as_signed. destruct (Qlt_bool_spec w 0) as [S|S].
  - split; [transitivity (Qabs p); [unfold Qabs, Qopp; destruct p as [x y]; cbn; now rewrite Z.abs_opp|now apply abs_lit]|].
    unfold minus_sign, room_of. destruct (Qlt_le_dec (- p) 0); [|lra]. destruct (Qlt_le_dec w 0); [|lra]. split; [reflexivity|]. split; [reflexivity|lra].
  - split; [now apply abs_lit|]. unfold minus_sign, room_of. destruct (Qlt_le_dec p 0); [lra|]. destruct (Qlt_le_dec w 0); [lra|]. split; [reflexivity|]. split; [reflexivity|lra].
Qed.

Lemma mul_P a b p : (0 < p)%Q -> (a <= b)%Q -> (a * p <= b * p)%Q.
Proof. intros P H. apply Qmult_le_compat_r; [exact H|lra]. Qed.
Lemma metric_near lg pw v unit : accurate lg -> tidy unit -> double v -> (1 <= Qabs v)%Q -> (Qabs v < (1 - (1 # 1000000000000)) * Qpower 1000 9)%Q ->
  exists k, 0 <= k <= 8 /\ ((1 - (1 # 1000000000000)) * Qpower 1000 k <= Qabs v)%Q /\ (Qabs v < (1 + (1 # 1000000000000)) * Qpower 1000 (k + 1))%Q /\
    ((exists t q, metric_doubles lg pw v unit = Some (Ok (minus_sign v ++ t ++ [32%N] ++ si_letter k ++ unit)) /\ read_float t = Some q /\
        (Qabs (q * Qpower 1000 k - Qabs v) <= (if Qlt_le_dec v 0 then 501 # 10000 else 501 # 100000) * Qabs v)%Q) \/
     (v < 0 /\ (1 - (1 # 500000000000)) * Qpower 1000 (k + 1) <= Qabs v)%Q /\ metric_doubles lg pw v unit = Some (Err ValueError)).
Proof.
  intros ACC T D V H. assert (U : unit_of si_metric (Some unit) = unit) by (destruct unit; reflexivity).
  assert (M2 : (2 <= pu_mcoef si_metric)%Q) by discriminate.
  destruct (format_cases lg pw si_metric (Some unit) M2 v D V) as (k & w & K & KL & DW & W & DR & R); [split; discriminate|discriminate|].
  change (zlen (pu_prefixes si_metric)) with 17 in *. change (pu_zero si_metric) with 8 in *.
  destruct (drift_bounds si_metric M2 v w k DR ltac:(lia)) as [B1 B2]. change (pu_mcoef si_metric) with 1000%Q in *.
  assert (P : (0 < Qpower 1000 k)%Q) by (apply Qpower_0_lt; reflexivity).
  assert (PS : (Qpower 1000 (k + 1) == Qpower 1000 k * 1000)%Q) by (rewrite Qpower_plus by discriminate; reflexivity).
  destruct R as [(KL' & W' & F)|R]; [|exfalso; assert (k = 9) as KE by lia; rewrite KE in *; apply (mul_P _ _ _ P) in W; lra].
  assert (W1 := mul_P _ _ _ P W). assert (W2 := mul_P _ _ _ P (Qlt_le_weak _ _ W')). assert (W3 : (Qabs w * Qpower 1000 k < 1000 * Qpower 1000 k)%Q) by (apply Qmult_lt_r; assumption).
  exists k. split; [lia|]. split; [lra|]. split; [rewrite PS; lra|].
  destruct (drift_sign si_metric v w k M2 DR ltac:(lia) V) as [MS RO].
  assert (WN : ~ (w == 0)%Q) by (intros E; rewrite (Qabs_wd _ _ E) in W; change (Qabs 0) with 0%Q in W; lra).
  assert (SHOW : forall x, Qabs x = Qabs x -> ~ (x == 0)%Q -> (1 <= Qabs x)%Q -> minus_sign x = minus_sign w -> (forall n, room_of x n = room_of w n) ->
     (Qabs (Qabs x - Qabs w) <= (1 # 500000000000) * Qabs w)%Q -> with_prefix_doubles lg pw si_metric w (8 + k) (Some unit) = with_prefix si_metric x (8 + k) (Some unit) ->
     (Qabs x < p10 (room_of v 4))%Q ->
     exists t q, metric_doubles lg pw v unit = Some (Ok (minus_sign v ++ t ++ [32%N] ++ si_letter k ++ unit)) /\ read_float t = Some q /\
        (Qabs (q * Qpower 1000 k - Qabs v) <= (if Qlt_le_dec v 0 then 501 # 10000 else 501 # 100000) * Qabs v)%Q).
  { intros x _ XN X1 XS XR XC XE XL. pose proof (log_spec (Qabs x) ltac:(lra)) as M. set (e := log10_floor (Qabs x)) in *.
    assert (RV : room_of x 4 = room_of v 4) by (now rewrite XR, RO).
    assert (EL : e < room_of v 4). { apply p10_lt_inv. destruct M. lra. }
    destruct (with_prefix_shown si_metric x (8 + k) (Some unit) e XN M) as (t & q & q' & WP & RF & QE & SN).
    - change (pu_max_value_len si_metric) with 4. rewrite RV. unfold room_of. destruct (Qlt_le_dec v 0); lia.
    - change (pu_max_value_len si_metric) with 4. rewrite RV. exact EL.
    - now left.
    - apply si_tidy. reflexivity.
    - now rewrite U.
    - exists t, q'. split; [|split; [exact RF|]].
      { etransitivity; [exact F|]. rewrite XE, WP, U, XS, MS, (si_letter_at si_metric k eq_refl) by lia. reflexivity. }
      change (pu_max_value_len si_metric) with 4 in SN. rewrite RV in SN.
      assert (A : (Qabs (q - Qabs x) <= (if Qlt_le_dec v 0 then 1 # 20 else 1 # 200) * Qabs x)%Q).
      { unfold room_of in SN, EL. destruct (Qlt_le_dec v 0); [apply (shown_relative true (Qabs x) q e X1 M EL SN)|apply (shown_relative false (Qabs x) q e X1 M EL SN)]. }
      apply Qabs_Qle_condition in XC. destruct XC as [XC1 XC2]. apply (mul_P _ _ _ P) in XC1, XC2.
      set (c' := if Qlt_le_dec v 0 then 501 # 10000 else _). rewrite QE.
      assert (A' : (Qabs (q * Qpower 1000 k - Qabs x * Qpower 1000 k) <= (if Qlt_le_dec v 0 then 1 # 20 else 1 # 200) * Qabs x * Qpower 1000 k)%Q).
      { setoid_replace (q * Qpower 1000 k - Qabs x * Qpower 1000 k)%Q with ((q - Qabs x) * Qpower 1000 k)%Q by ring. rewrite Qabs_Qmult, (Qabs_pos (Qpower 1000 k)) by lra. now apply mul_P. }
      apply Qabs_Qle_condition in A'. apply Qabs_Qle_condition. unfold c'. destruct (Qlt_le_dec v 0); split; lra. }
  destruct (prefix_cases lg pw ACC si_metric (Some unit) w (8 + k) DW ltac:(discriminate)) as [E|(e & J & _ & E)].
  - left. apply (SHOW w); try reflexivity; try assumption.
    + setoid_replace (Qabs w - Qabs w)%Q with 0%Q by ring. change (Qabs 0) with 0%Q. lra.
    + apply (Qlt_le_trans _ (p10 3)); [exact W'|]. apply p10_le. unfold room_of. destruct (Qlt_le_dec v 0); lia.
  - pose proof (p10_pos e) as PE. destruct (as_signed_facts w (p10 e) PE) as (S1 & S2 & S3 & S4). pose proof J as [J1 J2].
    assert (E3 : e <= 3). { destruct (Z_le_dec e 3); [assumption|exfalso]. pose proof (p10_le 4 e ltac:(lia)) as X. change (p10 4) with 10000%Q in X. lra. }
    destruct (Z_lt_dec e (room_of v 4)) as [L|L].
    + left. apply (SHOW (as_signed w (p10 e))); try reflexivity; try assumption; rewrite ?S1.
      * lra.
      * apply Qabs_Qle_condition. split; lra.
      * now apply p10_lt.
    + right. unfold room_of in L. destruct (Qlt_le_dec v 0) as [N|N]; [|lia]. assert (e = 3) as -> by lia. change (p10 3) with 1000%Q in *.
      split; [split; [exact N|rewrite PS; apply (mul_P _ _ _ P) in J1; lra]|]. etransitivity; [exact F|]. rewrite E. f_equal.
      assert (WS : (w < 0)%Q). { specialize (RO 4). unfold room_of in RO. destruct (Qlt_le_dec w 0), (Qlt_le_dec v 0); try assumption; try lia. lra. }
      unfold as_signed. replace (Qlt_bool w 0) with true by (destruct (Qlt_bool_spec w 0); [reflexivity|lra]). unfold with_prefix.
      change (pu_truncate si_metric) with false. cbn [andb]. reflexivity.
Qed.

(** ** binary units *)
Lemma shown_relative5 (neg : bool) a q e : (1 <= a)%Q -> magnitude a e -> e < 4 -> shown_near q a (if neg then 4 else 5) e ->
  (Qabs (q - a) <= (if neg then 1 # 200 else 1 # 2000) * a)%Q.
Proof.
  intros A M E [N1 N2]. pose proof M as [M1 _].
  assert (E0 : 0 <= e). { destruct (Z_lt_dec e 0); [|lia]. exfalso. destruct M as [_ M]. pose proof (p10_le (e + 1) 0 ltac:(lia)) as P. change (p10 0) with 1%Q in P. lra. }
  unfold int_digits in *. rewrite Z.max_r in * by lia.
  assert (EC : e = 0 \/ e = 1 \/ e = 2 \/ e = 3) by lia.
  destruct neg; destruct EC as [-> | [-> | [-> | ->]]].
  - specialize (N2 ltac:(lia)). change (p10 (- (4 - (0 + 1) - 1))) with (1 # 100) in N2. lra.
  - specialize (N2 ltac:(lia)). change (p10 (- (4 - (1 + 1) - 1))) with (1 # 10) in N2. change (p10 1) with 10%Q in M1. lra.
  - specialize (N2 ltac:(lia)). change (p10 (- (4 - (2 + 1) - 1))) with 1%Q in N2. change (p10 2) with 100%Q in M1. lra.
  - specialize (N1 ltac:(lia)). change (p10 3) with 1000%Q in M1. lra.
  - specialize (N2 ltac:(lia)). change (p10 (- (5 - (0 + 1) - 1))) with (1 # 1000) in N2. lra.
  - specialize (N2 ltac:(lia)). change (p10 (- (5 - (1 + 1) - 1))) with (1 # 100) in N2. change (p10 1) with 10%Q in M1. lra.
  - specialize (N2 ltac:(lia)). change (p10 (- (5 - (2 + 1) - 1))) with (1 # 10) in N2. change (p10 2) with 100%Q in M1. lra.
  - specialize (N2 ltac:(lia)). change (p10 (- (5 - (3 + 1) - 1))) with 1%Q in N2. change (p10 3) with 1000%Q in M1. lra.
Qed.
Lemma binary_small lg pw v unit : (1 <= Qabs v)%Q -> (Qabs v < 1024)%Q -> binary_doubles lg pw v unit = format_si_binary v unit.
Proof.
  intros V H. unfold binary_doubles, format_doubles, format_si_binary, prefix_format.
  assert (S : loop_doubles lg pw (S (length (pu_prefixes si_binary))) si_binary v (pu_zero si_binary) (Some unit) = Some (with_prefix_doubles lg pw si_binary v (pu_zero si_binary) (Some unit))).
  { apply stop_doubles; [discriminate|exact V|exact H|split; [discriminate|reflexivity]]. }
  etransitivity; [exact S|]. clear S.
  rewrite loop_stop; [reflexivity|reflexivity|split; [discriminate|reflexivity]|]. right. change (pu_mcoef si_binary) with 1024%Q.
  split; [apply (Qlt_le_trans _ 1); [reflexivity|exact V]|exact H].
Qed.
Lemma binary_near lg pw v unit : accurate lg -> tidy unit -> double v -> (1024 <= Qabs v)%Q -> (Qabs v < (1 - (1 # 1000000000000)) * Qpower 1024 9)%Q ->
  exists k t q, 1 <= k <= 8 /\ ((1 - (1 # 1000000000000)) * Qpower 1024 k <= Qabs v)%Q /\ (Qabs v < (1 + (1 # 1000000000000)) * Qpower 1024 (k + 1))%Q /\
    binary_doubles lg pw v unit = Some (Ok (minus_sign v ++ t ++ [32%N] ++ si_letter k ++ if unit then [98%N] else unit)) /\ read_float t = Some q /\
    (Qabs (q * Qpower 1024 k - Qabs v) <= (if Qlt_le_dec v 0 then 501 # 100000 else 501 # 1000000) * Qabs v)%Q.
Proof.
  intros ACC T D V H. assert (U : unit_of si_binary (Some unit) = if unit then [98%N] else unit) by (destruct unit; reflexivity).
  assert (UT : tidy (unit_of si_binary (Some unit))) by (rewrite U; destruct unit; [apply tidy_chars; repeat constructor; unfold white; cbn [In]; lia|exact T]).
  assert (M2 : (2 <= pu_mcoef si_binary)%Q) by discriminate. assert (V1 : (1 <= Qabs v)%Q) by lra.
  destruct (format_cases lg pw si_binary (Some unit) M2 v D V1) as (k & w & K & KL & DW & W & DR & R); [split; discriminate|discriminate|].
  change (zlen (pu_prefixes si_binary)) with 17 in *. change (pu_zero si_binary) with 8 in *.
  destruct (drift_bounds si_binary M2 v w k DR ltac:(lia)) as [B1 B2]. change (pu_mcoef si_binary) with 1024%Q in *.
  assert (P : (0 < Qpower 1024 k)%Q) by (apply Qpower_0_lt; reflexivity).
  assert (PS : (Qpower 1024 (k + 1) == Qpower 1024 k * 1024)%Q) by (rewrite Qpower_plus by discriminate; reflexivity).
  destruct R as [(KL' & W' & F)|R]; [|exfalso; assert (k = 9) as KE by lia; rewrite KE in *; apply (mul_P _ _ _ P) in W; lra].
  assert (K1 : k <> 0).
  { intros ->. unfold drift in DR. change (inject_Z 0) with 0%Q in DR. change (Qpower (pu_mcoef si_binary) 0) with 1%Q in DR.
    assert (Z0 : (Qabs (w * 1 - v) <= 0)%Q) by lra. apply Qabs_Qle_condition in Z0. assert (E : (v == w)%Q) by lra. rewrite (Qabs_wd _ _ E) in V. lra. }
  assert (W1 := mul_P _ _ _ P W). assert (W3 : (Qabs w * Qpower 1024 k < 1024 * Qpower 1024 k)%Q) by (apply Qmult_lt_r; assumption).
  destruct (drift_sign si_binary v w k M2 DR ltac:(lia) V1) as [MS RO].
  assert (WN : ~ (w == 0)%Q) by (intros E; rewrite (Qabs_wd _ _ E) in W; change (Qabs 0) with 0%Q in W; lra).
  assert (SHOW : forall x, ~ (x == 0)%Q -> (1 <= Qabs x)%Q -> minus_sign x = minus_sign w -> (forall n, room_of x n = room_of w n) ->
     (Qabs (Qabs x - Qabs w) <= (1 # 500000000000) * Qabs w)%Q -> with_prefix_doubles lg pw si_binary w (8 + k) (Some unit) = with_prefix si_binary x (8 + k) (Some unit) ->
     (Qabs x < p10 4)%Q ->
     exists t q, binary_doubles lg pw v unit = Some (Ok (minus_sign v ++ t ++ [32%N] ++ si_letter k ++ if unit then [98%N] else unit)) /\ read_float t = Some q /\
        (Qabs (q * Qpower 1024 k - Qabs v) <= (if Qlt_le_dec v 0 then 501 # 100000 else 501 # 1000000) * Qabs v)%Q).
  { intros x XN X1 XS XR XC XE XL. pose proof (log_spec (Qabs x) ltac:(lra)) as M. set (e := log10_floor (Qabs x)) in *.
    assert (RV : room_of x 5 = room_of v 5) by (now rewrite XR, RO).
    assert (EL : e < 4). { apply p10_lt_inv. destruct M. lra. }
    assert (RR : 4 <= room_of v 5) by (unfold room_of; destruct (Qlt_le_dec v 0); lia).
    destruct (with_prefix_shown si_binary x (8 + k) (Some unit) e XN M) as (t & q & q' & WP & RF & QE & SN).
    - change (pu_max_value_len si_binary) with 5. rewrite RV. lia.
    - change (pu_max_value_len si_binary) with 5. rewrite RV. lia.
    - right. change (pu_zero si_binary) with 8. lia.
    - apply si_tidy. reflexivity.
    - exact UT.
    - exists t, q'. split; [|split; [exact RF|]].
      { etransitivity; [exact F|]. rewrite XE, WP, U, XS, MS, (si_letter_at si_binary k eq_refl) by lia. reflexivity. }
      change (pu_max_value_len si_binary) with 5 in SN. rewrite RV in SN.
      assert (A : (Qabs (q - Qabs x) <= (if Qlt_le_dec v 0 then 1 # 200 else 1 # 2000) * Qabs x)%Q).
      { unfold room_of in SN. destruct (Qlt_le_dec v 0); [apply (shown_relative5 true (Qabs x) q e X1 M EL SN)|apply (shown_relative5 false (Qabs x) q e X1 M EL SN)]. }
      apply Qabs_Qle_condition in XC. destruct XC as [XC1 XC2]. apply (mul_P _ _ _ P) in XC1, XC2.
      set (c' := if Qlt_le_dec v 0 then 501 # 100000 else _). rewrite QE.
      assert (A' : (Qabs (q * Qpower 1024 k - Qabs x * Qpower 1024 k) <= (if Qlt_le_dec v 0 then 1 # 200 else 1 # 2000) * Qabs x * Qpower 1024 k)%Q).
      { setoid_replace (q * Qpower 1024 k - Qabs x * Qpower 1024 k)%Q with ((q - Qabs x) * Qpower 1024 k)%Q by ring. rewrite Qabs_Qmult, (Qabs_pos (Qpower 1024 k)) by lra. now apply mul_P. }
      apply Qabs_Qle_condition in A'. apply Qabs_Qle_condition. unfold c'. destruct (Qlt_le_dec v 0); split; lra. }
  exists k. enough (exists t q, binary_doubles lg pw v unit = Some (Ok (minus_sign v ++ t ++ [32%N] ++ si_letter k ++ if unit then [98%N] else unit)) /\ read_float t = Some q /\
        (Qabs (q * Qpower 1024 k - Qabs v) <= (if Qlt_le_dec v 0 then 501 # 100000 else 501 # 1000000) * Qabs v)%Q) as (t & q & R1 & R2 & R3).
  { exists t, q. split; [lia|]. split; [lra|]. split; [rewrite PS; lra|]. split; [exact R1|]. split; [exact R2|exact R3]. }
  destruct (prefix_cases lg pw ACC si_binary (Some unit) w (8 + k) DW ltac:(discriminate)) as [E|(e & J & _ & E)].
  - apply (SHOW w); try reflexivity; try assumption.
    + setoid_replace (Qabs w - Qabs w)%Q with 0%Q by ring. change (Qabs 0) with 0%Q. lra.
    + change (p10 4) with 10000%Q. lra.
  - pose proof (p10_pos e) as PE. destruct (as_signed_facts w (p10 e) PE) as (S1 & S2 & S3 & S4). pose proof J as [J1 J2].
    assert (E3 : e <= 3). { destruct (Z_le_dec e 3); [assumption|exfalso]. pose proof (p10_le 4 e ltac:(lia)) as X. change (p10 4) with 10000%Q in X. lra. }
    apply (SHOW (as_signed w (p10 e))); try assumption; rewrite ?S1.
    + lra.
    + apply Qabs_Qle_condition. split; lra.
    + apply p10_lt. lia.
Qed.
