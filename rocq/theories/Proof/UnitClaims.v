(** Proofs about the bundled families of prefixed units *)
From Coq Require Import Ascii String.
From Coq Require Import List Arith NArith ZArith QArith Qabs Qround Qpower Bool Lia Lqa.
From Verif.Model Require Import Base Color TimeDelta Render FloatText.
From Verif.Spec Require Import Numbers FloatText Conditions.
From Verif.Proof Require Import BaseFacts TokFacts BinClaims DurationFacts FloatFacts FloatClaims UnitFacts.
Import ListNotations.
Local Open Scope Z_scope.

Lemma si_tidy f : pu_prefixes f = prefixes_si -> tidy_config f.
Proof.
  intros E i. unfold prefix_at. rewrite E. destruct (nth_error prefixes_si (Z.to_nat i)) as [[p|]|] eqn:N; [|split; intros; [discriminate|destruct t; discriminate]..].
  apply nth_error_In in N. apply tidy_chars. apply Forall_forall. intros c HC.
  assert (K : Forall (fun p => match p with Some p => Forall (fun c => is_space c = false) p | None => True end) prefixes_si) by (repeat constructor).
  rewrite Forall_forall in K. specialize (K _ N). cbn in K. rewrite Forall_forall in K. specialize (K c HC).
  intros W. unfold white in W. cbn [In] in W. unfold is_space in K. rewrite !orb_false_iff, !andb_false_iff, !N.leb_gt, !N.eqb_neq in K. lia.
Qed.
Lemma si_letter_at f k : pu_prefixes f = prefixes_si -> -8 <= k <= 8 -> prefix_at f (8 + k) = si_letter k.
Proof.
  intros E H. unfold prefix_at. rewrite E.
  assert (C : In k [-8; -7; -6; -5; -4; -3; -2; -1; 0; 1; 2; 3; 4; 5; 6; 7; 8]) by (cbn [In]; lia).
  cbn [In] in C. repeat (destruct C as [<-|C]; [reflexivity|]). contradiction.
Qed.

Lemma metric_shown v unit : tidy unit -> (Qpower 1000 (-9) < Qabs v)%Q -> (Qabs v < Qpower 1000 9)%Q ->
  exists k t q e, -8 <= k <= 8 /\ format_si_metric v unit = Some (Ok (minus_sign v ++ t ++ [32%N] ++ si_letter k ++ unit)) /\ read_float t = Some q /\
    (1 / 1000 < scaled 1000 k v)%Q /\ (scaled 1000 k v < 1000)%Q /\ ((1 <= Qabs v)%Q -> (1 <= scaled 1000 k v)%Q) /\
    magnitude (scaled 1000 k v) e /\ shown_near q (scaled 1000 k v) (room_of v 4) e.
Proof.
  intros T L H. assert (U : unit_of si_metric (Some unit) = unit) by (destruct unit; reflexivity).
  assert (R : 3 <= room_of v 4) by (unfold room_of; destruct (Qlt_le_dec v 0); lia).
  destruct (value_shown si_metric (Some unit)) with (v := v) as (k & K & S1 & S2 & S3 & num & F & N & _).
  - reflexivity.
  - split; [discriminate|reflexivity].
  - apply si_tidy. reflexivity.
  - now rewrite U.
  - cbn [pu_max_value_len si_metric]; lia.
  - cbn [pu_max_value_len pu_mcoef si_metric]. pose proof (p10_le 3 _ R) as P. change (p10 3) with 1000%Q in P. exact P.
  - exact L.
  - exact H.
  - destruct (N (or_introl eq_refl)) as (t & q & e & -> & RF & M & SN).
    assert (K' : -8 <= k <= 8) by (change (pu_zero si_metric) with 8 in K; change (zlen (pu_prefixes si_metric)) with 17 in K; lia). exists k, t, q, e. split; [exact K'|].
    split; [etransitivity; [exact F|]; rewrite U, <- app_assoc; change (pu_zero si_metric) with 8; rewrite (si_letter_at si_metric k eq_refl K'); reflexivity|]. split; [exact RF|]. split; [exact S1|]. split; [exact S2|]. split; [exact S3|].
    split; [exact M|exact SN].
Qed.

(** relative accuracy *)
Lemma mag_between x e a b : magnitude x e -> (p10 a <= x)%Q -> (x < p10 b)%Q -> a <= e < b.
Proof.
  intros [M1 M2] A B. split.
  - assert (a < e + 1); [|lia]. apply p10_lt_inv. lra.
  - apply p10_lt_inv. lra.
Qed.
Lemma metric_accurate v unit : tidy unit -> (1 <= Qabs v)%Q -> (Qabs v < Qpower 1000 9)%Q ->
  exists k t q, 0 <= k <= 8 /\ format_si_metric v unit = Some (Ok (minus_sign v ++ t ++ [32%N] ++ si_letter k ++ unit)) /\ read_float t = Some q /\
    (Qpower 1000 k <= Qabs v)%Q /\ (Qabs v < Qpower 1000 (k + 1))%Q /\
    (Qabs (q * Qpower 1000 k - Qabs v) <= (if Qlt_le_dec v 0 then 1 # 20 else 1 # 200) * Qabs v)%Q.
Proof.
  intros T V H. assert (P9 : (Qpower 1000 (-9) < 1)%Q) by reflexivity.
  destruct (metric_shown v unit T ltac:(lra) H) as (k & t & q & e & K & F & RF & S1 & S2 & S3 & M & SN). specialize (S3 V).
  assert (P : (0 < Qpower 1000 k)%Q) by (apply Qpower_0_lt; reflexivity).
  assert (SV : (scaled 1000 k v * Qpower 1000 k == Qabs v)%Q) by (unfold scaled; field; lra).
  assert (PS : (Qpower 1000 (k + 1) == Qpower 1000 k * 1000)%Q) by (rewrite Qpower_plus by discriminate; reflexivity).
  assert (LO : (Qpower 1000 k <= Qabs v)%Q) by (rewrite <- SV; nra).
  assert (HI : (Qabs v < Qpower 1000 (k + 1))%Q) by (rewrite <- SV, PS; nra).
  assert (E : 0 <= e < 3) by (apply (mag_between _ e 0 3 M); [exact S3|exact S2]).
  assert (K0 : 0 <= k).
  { destruct (Z_lt_dec k 0); [|lia]. exfalso. assert (B : (Qpower 1000 (k + 1) <= 1)%Q); [|lra].
    replace (k + 1) with (- (- k - 1)) by lia. rewrite Qpower_opp.
    assert (B1 : (1 <= Qpower 1000 (- k - 1))%Q) by (apply Qpower_1_le; [discriminate|lia]).
    setoid_replace (/ Qpower 1000 (- k - 1))%Q with (1 / Qpower 1000 (- k - 1))%Q by (field; lra). apply Qle_shift_div_r; lra. }
  exists k, t, q. split; [lia|]. split; [exact F|]. split; [exact RF|]. split; [exact LO|]. split; [exact HI|].
  set (c := if Qlt_le_dec v 0 then 1 # 20 else 1 # 200).
  assert (A : (Qabs (q - scaled 1000 k v) <= c * scaled 1000 k v)%Q).
  { destruct M as [M1 M2]. destruct SN as [N1 N2]. unfold int_digits in *. rewrite Z.max_r in * by lia.
    assert (EC : e = 0 \/ e = 1 \/ e = 2) by lia. unfold c, room_of in *.
    destruct (Qlt_le_dec v 0); destruct EC as [-> | [-> | ->]].
    - specialize (N2 ltac:(lia)). change (p10 (- (4 - 1 - (0 + 1) - 1))) with (1 # 10) in N2. lra.
    - specialize (N2 ltac:(lia)). change (p10 (- (4 - 1 - (1 + 1) - 1))) with 1%Q in N2. change (p10 1) with 10%Q in M1. lra.
    - specialize (N1 ltac:(lia)). change (p10 2) with 100%Q in M1. lra.
    - specialize (N2 ltac:(lia)). change (p10 (- (4 - (0 + 1) - 1))) with (1 # 100) in N2. lra.
    - specialize (N2 ltac:(lia)). change (p10 (- (4 - (1 + 1) - 1))) with (1 # 10) in N2. change (p10 1) with 10%Q in M1. lra.
    - specialize (N2 ltac:(lia)). change (p10 (- (4 - (2 + 1) - 1))) with 1%Q in N2. change (p10 2) with 100%Q in M1. lra. }
  assert (AP : (Qabs (q * Qpower 1000 k - Qabs v) == Qabs (q - scaled 1000 k v) * Qpower 1000 k)%Q).
  { transitivity (Qabs ((q - scaled 1000 k v) * Qpower 1000 k)); [apply Qabs_wd; rewrite <- SV; ring|].
    rewrite Qabs_Qmult, (Qabs_pos (Qpower 1000 k)) by lra. reflexivity. }
  rewrite AP. apply (Qmult_le_compat_r _ _ (Qpower 1000 k)) in A; [|lra].
  eapply Qle_trans; [exact A|]. rewrite <- SV. rewrite Qmult_assoc. apply Qle_refl.
Qed.

(** * Binary *)
Lemma dec_len n d : 1 <= d -> 0 <= n < 10 ^ d -> zlen (dec (Z.to_N n)) <= d.
Proof.
  intros D H. fold (ndigits n). destruct (Z.eq_dec n 0) as [->|N]; [change (ndigits 0) with 1; lia|].
  assert (Q : (0 < inject_Z n)%Q) by (unfold Qlt; cbn; lia). pose proof (log_spec _ Q) as M.
  destruct (Z.le_gt_cases (ndigits n) d) as [L|L]; [exact L|]. exfalso.
  assert (E : log10_floor (inject_Z n) = ndigits n - 1).
  { unfold log10_floor. rewrite Qfloor_Z. destruct (Qle_bool_spec 1 (inject_Z n)) as [K|K]; [reflexivity|]. exfalso. apply K. unfold Qle; cbn; lia. }
  rewrite E in M. destruct M as [M _]. pose proof (p10_le d (ndigits n - 1) ltac:(lia)) as P. rewrite <- p10_inj in P by lia.
  assert (X : (inject_Z (10 ^ d) <= inject_Z n)%Q) by lra. rewrite <- Zle_Qle in X. lia.
Qed.
Lemma zdec_tidy z : tidy (zdec z).
Proof.
  apply tidy_chars. unfold zdec. pose proof (dec_digits (Z.to_N z)) as D1. pose proof (dec_digits (Z.to_N (- z))) as D2.
  assert (G : forall l, Forall is_digit l -> Forall (fun c => ~ white c) l) by (intros l; apply Forall_impl; intros c K; apply digit_white; now left).
  destruct (z <? 0); [constructor; [unfold white; cbn [In]; lia|]|]; apply G; assumption.
Qed.
Lemma binary_shown v unit : tidy unit -> (Qpower 1024 (-9) < Qabs v)%Q -> (Qabs v < Qpower 1024 9)%Q ->
  exists k num, -8 <= k <= 8 /\ format_si_binary v unit = Some (Ok (num ++ [32%N] ++ si_letter k ++ if unit then [98%N] else unit)) /\
    (1 / 1024 < scaled 1024 k v)%Q /\ (scaled 1024 k v < 1024)%Q /\ ((1 <= Qabs v)%Q -> (1 <= scaled 1024 k v)%Q) /\
    (k = 0 -> num = zdec (Qtrunc v)) /\
    (k <> 0 -> exists t q e, num = minus_sign v ++ t /\ read_float t = Some q /\ magnitude (scaled 1024 k v) e /\ shown_near q (scaled 1024 k v) (room_of v 5) e).
Proof.
  intros T L H. assert (U : unit_of si_binary (Some unit) = if unit then [98%N] else unit) by (destruct unit; reflexivity).
  assert (R : 4 <= room_of v 5) by (unfold room_of; destruct (Qlt_le_dec v 0); lia).
  destruct (value_shown si_binary (Some unit)) with (v := v) as (k & K & S1 & S2 & S3 & num & F & N & TR).
  - reflexivity.
  - split; [discriminate|reflexivity].
  - apply si_tidy. reflexivity.
  - rewrite U. destruct unit; [apply tidy_chars; repeat constructor; unfold white; cbn [In]; lia|exact T].
  - cbn [pu_max_value_len si_binary]; lia.
  - cbn [pu_max_value_len pu_mcoef si_binary]. pose proof (p10_le 4 _ R) as P. change (p10 4) with 10000%Q in P. lra.
  - exact L.
  - exact H.
  - assert (K' : -8 <= k <= 8) by (change (pu_zero si_binary) with 8 in K; change (zlen (pu_prefixes si_binary)) with 17 in K; lia). exists k, num. split; [exact K'|].
    split; [etransitivity; [exact F|]; rewrite U; change (pu_zero si_binary) with 8; rewrite (si_letter_at si_binary k eq_refl K'); reflexivity|].
    split; [exact S1|]. split; [exact S2|]. split; [exact S3|]. split; [|intros KN; apply N; now right].
    intros K0. rewrite (TR eq_refl K0). subst k. change (pu_max_value_len si_binary) with 5.
    assert (B : (Qabs v < 1024)%Q) by (unfold scaled in S2; change (Qpower 1024 0) with 1%Q in S2; setoid_replace (Qabs v / 1)%Q with (Qabs v) in S2 by field; exact S2).
    assert (FL : forall q, (0 <= q)%Q -> (q < 1024)%Q -> 0 <= Qfloor q < 10 ^ 4).
    { intros q Q1 Q2. split; [apply floor_le; exact Q1|]. assert (Qfloor q < 1024) by (apply floor_lt; exact Q2). lia. }
    assert (LN : zlen (zdec (Qtrunc v)) <= 5).
    { destruct (Qlt_le_dec v 0) as [C|C].
      - rewrite Qabs_neg in B by lra. assert (TF : Qtrunc v = - Qfloor (- v)) by (rewrite <- trunc_nonneg by lra; rewrite trunc_opp; lia).
        specialize (FL (- v)%Q ltac:(lra) B). unfold zdec. destruct (Z.ltb_spec (Qtrunc v) 0).
        + assert (ZC : forall l : str, zlen (45%N :: l) = 1 + zlen l) by (intros l; unfold zlen; cbn [length]; lia). rewrite ZC. pose proof (dec_len (- Qtrunc v) 4 ltac:(lia) ltac:(lia)). lia.
        + pose proof (dec_len (Qtrunc v) 4 ltac:(lia) ltac:(lia)). lia.
      - rewrite Qabs_pos in B by lra. rewrite trunc_nonneg by lra. specialize (FL v C B). unfold zdec. destruct (Z.ltb_spec (Qfloor v) 0); [lia|].
        pose proof (dec_len (Qfloor v) 4 ltac:(lia) ltac:(lia)). lia. }
    rewrite firstn_all2 by (unfold zlen in LN; lia). apply strip_tidy, zdec_tidy.
Qed.

(** * Zero, out of range *)
Lemma metric_zero unit : tidy unit -> format_si_metric 0 unit = Some (Ok (48%N :: 32%N :: unit)).
Proof.
  intros T. unfold format_si_metric, prefix_format.
  rewrite (loop_stop si_metric (Some unit)); [|reflexivity|split; [discriminate|reflexivity]|left; reflexivity]. change (pu_zero si_metric) with 8. unfold with_prefix.
  change (pu_truncate si_metric && (8 =? pu_zero si_metric)) with false. cbv iota. 
  assert (A : auto_float 0 (pu_max_value_len si_metric) false = Ok [32; 32; 32; 48]%N) by (vm_compute; reflexivity). rewrite A.
  cbn [bind]. change (prefix_at si_metric 8) with (@nil N). destruct unit as [|c u]; [reflexivity|].
  change (Some (Ok ([48%N] ++ [32%N] ++ strip (c :: u))) = Some (Ok (48%N :: 32%N :: c :: u))). rewrite strip_tidy by exact T. reflexivity.
Qed.
Lemma scaled_wd m k v w : (w == v / Qpower m k)%Q -> (1 < m)%Q -> (Qabs w == scaled m k v)%Q.
Proof. intros E H. exact (proj2 (proj2 (same_sign v w m k H E))). Qed.
Lemma metric_beyond v unit : (Qpower 1000 9 <= Qabs v)%Q ->
  (p10 (27 + room_of v 4) <= Qabs v -> format_si_metric v unit = Some (Err ValueError))%Q /\
  ((Qabs v < p10 (27 + room_of v 4))%Q -> exists t q e, format_si_metric v unit = Some (Ok (minus_sign v ++ t ++ [32; 63]%N)) /\
     read_float t = Some q /\ magnitude (scaled 1000 9 v) e /\ shown_near q (scaled 1000 9 v) (room_of v 4) e).
Proof.
  intros H. assert (V : ~ (v == 0)%Q).
  { apply (abs_wd_nz v (Qabs v)); [reflexivity|]. pose proof (Qpower_0_lt 1000 9 ltac:(reflexivity)). lra. }
  destruct (format_spec si_metric (Some unit) ltac:(reflexivity) v ltac:(split; [discriminate|reflexivity]) V) as (k & w & SH & GE & LE & GP & R).
  unfold shifted in SH. change (pu_mcoef si_metric) with 1000%Q in *. change (pu_zero si_metric) with 8 in *. change (zlen (pu_prefixes si_metric)) with 17 in *.
  pose proof (scaled_wd 1000 k v w SH ltac:(reflexivity)) as SA. destruct (same_sign v w 1000 k ltac:(reflexivity) SH) as (MS & RO & _).
  assert (SM : forall a b, a <= b -> (Qpower 1000 a <= Qpower 1000 b)%Q).
  { intros a b AB. replace b with (a + (b - a)) by lia. rewrite Qpower_plus by discriminate. assert (0 < Qpower 1000 a)%Q by (apply Qpower_0_lt; reflexivity).
    assert (1 <= Qpower 1000 (b - a))%Q by (apply Qpower_1_le; [discriminate|lia]). nra. }
  destruct R as [(R1 & _ & R3 & _)|([R1|R1] & R2)].
  - exfalso. rewrite SA in R3. assert (X : (scaled 1000 k v < 1000)%Q) by exact R3. assert (K : k + 1 <= 9) by lia. pose proof (SM _ _ K) as P.
    rewrite Qpower_plus in P by discriminate. change (Qpower 1000 1) with 1000%Q in P. pose proof (proj2 (scaled_ge 1000 k v 1000 ltac:(reflexivity))) as G. lra.
  - assert (K : k = 9) by lia. subst k. assert (RP : 3 <= room_of v 4) by (unfold room_of; destruct (Qlt_le_dec v 0); lia).
    assert (P9 : (p10 (27 + room_of v 4) == p10 (room_of v 4) * Qpower 1000 9)%Q) by (rewrite Z.add_comm, p10_plus; reflexivity).
    split; intros B.
    + rewrite P9 in B. apply (scaled_ge 1000 9 v _ ltac:(reflexivity)) in B. etransitivity; [exact R2|]. f_equal. apply without_prefix_fails; cbn [pu_max_value_len si_metric]; rewrite RO; [lia|]. rewrite SA. exact B.
    + assert (B' : (Qabs w < p10 (room_of v 4))%Q).
      { rewrite SA. destruct (Qlt_le_dec (scaled 1000 9 v) (p10 (room_of v 4))) as [X|X]; [exact X|]. apply (scaled_ge 1000 9 v _ ltac:(reflexivity)) in X. lra. }
      assert (NZ : ~ (w == 0)%Q) by (exact (abs_wd_nz w (Qabs w) (Qeq_refl _) GP)). pose proof (log_spec (Qabs w) GP) as M. set (e := log10_floor (Qabs w)) in *.
      destruct (without_prefix_shown si_metric w e 1 NZ M) as (t & q & q' & WT & RF & EQ & SN).
      * cbn [pu_max_value_len si_metric]. rewrite RO. lia.
      * cbn [pu_max_value_len si_metric]. rewrite RO. destruct M as [M1 _]. apply p10_lt_inv. lra.
      * reflexivity.
      * split; intros; [discriminate|]. cbn in H0. destruct t; discriminate.
      * cbn [pu_max_value_len si_metric] in SN. rewrite RO in SN. exists t, q', e. split; [etransitivity; [exact R2|]; rewrite WT, MS; reflexivity|]. split; [exact RF|].
        split; [apply (magnitude_wd (Qabs w)); [exact SA|exact M]|]. destruct SN as [N1 N2]. split; intros X; rewrite EQ, <- SA; auto.
  - exfalso. assert (K : k < 0) by lia. specialize (LE K). rewrite SA in LE. apply (scaled_le 1000 k v 1 ltac:(reflexivity)) in LE. pose proof (SM k 8 ltac:(lia)).
    assert (Qpower 1000 8 < Qpower 1000 9)%Q by reflexivity. lra.
Qed.

(** * Total length *)
Lemma loop_cases fuel : forall f v i unit r, prefix_loop fuel f v i unit = Some r -> exists w, (exists j, r = with_prefix f w j unit) \/ r = without_prefix f w.
Proof.
  induction fuel as [|fuel IH]; intros f v i unit r E; [discriminate|]. cbn [prefix_loop] in E.
  destruct ((0 <=? i) && _); [|injection E as <-; exists v; now right].
  destruct (_ && _).
  - destruct (Qle_bool _ 1); [now apply (IH _ _ _ _ _ E)|]. injection E as <-. eexists; left; eauto.
  - destruct (Qle_bool _ _); [now apply (IH _ _ _ _ _ E)|]. injection E as <-. eexists; left; eauto.
Qed.
Lemma fold_max l : forall a, (a <= fold_left Z.max l a) /\ (forall x, In x l -> x <= fold_left Z.max l a).
Proof.
  induction l as [|b l IH]; intros a; cbn [fold_left]; [split; [lia|easy]|]. destruct (IH (Z.max a b)) as [A B].
  split; [lia|]. intros x [<-|H]; [lia|now apply B].
Qed.
Lemma longest_le l m x : longest l = Some m -> In x l -> x <= m.
Proof. destruct l as [|a l]; [discriminate|]. cbn. intros E. injection E as <-. destruct (fold_max l a) as [A B]. intros [<-|H]; [exact A|now apply B]. Qed.
Lemma prefix_len f i m : longest (prefix_lens f) = Some m -> 0 <= zlen (prefix_at f i) <= m.
Proof.
  intros L. assert (M0 : 0 <= m).
  { destruct (prefix_lens f) as [|a l] eqn:E; [discriminate|]. assert (A : In a (prefix_lens f)) by (rewrite E; now left).
    assert (0 <= a); [|rewrite <- E in L; pose proof (longest_le _ _ _ L A); lia].
    unfold prefix_lens in A. apply in_flat_map in A. destruct A as (p & _ & A). destruct p as [[|c t]|]; try contradiction. destruct A as [<-|[]]. unfold zlen. lia. }
  split; [unfold zlen; lia|]. unfold prefix_at. destruct (nth_error (pu_prefixes f) (Z.to_nat i)) as [[p|]|] eqn:N; try (exact M0).
  destruct p as [|c p]; [exact M0|]. apply (longest_le _ _ _ L). unfold prefix_lens. apply in_flat_map. exists (Some (c :: p)). split; [apply (nth_error_In _ _ N)|now left].
Qed.
Lemma max_len_bound f v s n : 0 <= pu_max_value_len f -> prefix_format f v None = Some (Ok s) -> pu_max_len f = Ok n -> zlen s <= n + 1.
Proof.
  intros P E L. unfold pu_max_len in L. destruct (longest (prefix_lens f)) as [m|] eqn:LM; [|discriminate]. injection L as <-.
  assert (AL : forall w t, auto_float w (pu_max_value_len f) false = Ok t -> zlen t <= pu_max_value_len f + 1).
  { intros w t A. destruct (auto_length _ _ _ _ P A) as [[K|K] _]; lia. }
  apply loop_cases in E. destruct E as (w & [(j & E)|E]).
  - unfold with_prefix in E. change (str_on None) with (@None str) in E. cbv iota in E. set (u := prefix_at f j ++ pu_unit f) in *.
    assert (UL : zlen u <= m + zlen (pu_unit f)) by (unfold u; rewrite zlen_app; pose proof (prefix_len f j m LM); lia).
    pose proof (strip_len u) as SU.
    destruct (pu_truncate f && (j =? pu_zero f)).
    + destruct (Z.ltb_spec (pu_max_value_len f) 0); [lia|]. cbn [bind] in E. injection E as ->. rewrite !zlen_app.
      set (t := firstn (Z.to_nat (pu_max_value_len f)) (zdec (Qtrunc w))). pose proof (strip_len t). assert (zlen t <= pu_max_value_len f) by (unfold t, zlen; rewrite firstn_length; lia). lia.
    + destruct (auto_float w (pu_max_value_len f) false) as [t|x] eqn:A; [|discriminate]. cbn [bind] in E. injection E as ->. rewrite !zlen_app.
      specialize (AL _ _ A). pose proof (strip_len t). lia.
  - unfold without_prefix in E. destruct (auto_float w (pu_max_value_len f) false) as [t|x] eqn:A; [|discriminate]. cbn [bind] in E. rewrite LM in E. injection E as ->.
    rewrite !zlen_app. specialize (AL _ _ A). pose proof (strip_len t). set (u := repeat 63%N (Z.to_nat m) ++ pu_unit f). pose proof (strip_len u).
    assert (zlen u = m + zlen (pu_unit f)); [|lia]. unfold u. rewrite zlen_app. unfold zlen at 1. rewrite repeat_length. pose proof (prefix_len f 0 m LM). lia.
Qed.

(** * Examples *)
Lemma float_example :
  auto_float (123456 # 1) 5 true = Ok (txt "1.2e5") /\ auto_float (0.0012) 6 true = Ok (txt "1.2e-3") /\ auto_float (12346 # 100) 5 true = Ok (txt "123.5") /\
  auto_float (-0.5) 5 true = Ok (txt "-0.50") /\ magnitude (Qabs (123456 # 1)) 5 /\ ~ written_plain true 5 5 /\ read_float (txt "1.2e5") = Some (1.2 * p10 5)%Q /\
  carries (9999 # 1000) 4 true.
Proof.
  do 4 (split; [vm_compute; reflexivity|]). split; [split; [discriminate|reflexivity]|]. split; [intros [K _]; lia|]. split; [vm_compute; reflexivity|].
  exists 0. split; [split; [discriminate|reflexivity]|]. left. split; [split; [lia|intros _; lia]|]. split; [lia|]. split; [lia|]. discriminate.
Qed.
Lemma units_example :
  format_si_metric 1010 (txt "m") = Some (Ok (txt "1.01 km")) /\ format_si_metric (-12.3) (txt "g") = Some (Ok (txt "- 12 g")) /\
  format_si_binary 1023.9 (txt "b") = Some (Ok (txt "1023 b")) /\ format_si_binary 1048576 [] = Some (Ok (txt "1.000 Mb")) /\
  format_si_metric (Qpower 10 31) (txt "m") = Some (Err ValueError) /\ format_si_metric (Qpower 10 28) (txt "m") = Some (Ok (txt "10.0 ?")) /\
  tidy (txt "m").
Proof. do 6 (split; [vm_compute; reflexivity|]). apply tidy_chars. repeat constructor. unfold white. cbn. lia. Qed.
