(** Proofs about numbers with prefixed units *)
From Coq Require Import List Arith NArith ZArith QArith Qabs Qround Qpower Bool Lia Lqa.
From Verif.Model Require Import Base Color TimeDelta FloatText.
From Verif.Spec Require Import Numbers FloatText Conditions.
From Verif.Proof Require Import BaseFacts TokFacts BinClaims DurationFacts FloatFacts FloatClaims.
Import ListNotations.
Local Open Scope Z_scope.

Section Loop.
  Variable f : unit_config.
  Variable unit : option str.
  Let m := pu_mcoef f.
  Let len := zlen (pu_prefixes f).
  Hypothesis Hm : (1 < m)%Q.

  Lemma m_nz : ~ (m == 0)%Q. Proof. lra. Qed.
  Lemma inv_m : (1 / m < 1)%Q /\ (0 < 1 / m)%Q.
  Proof. split; [apply Qlt_shift_div_r; lra|apply Qlt_shift_div_l; lra]. Qed.
  Lemma abs_mul v : (Qabs (v * m) == Qabs v * m)%Q.
  Proof. rewrite Qabs_Qmult, (Qabs_pos m) by lra. reflexivity. Qed.
  Lemma abs_div v : (Qabs (v / m) == Qabs v / m)%Q.
  Proof.
    unfold Qdiv. rewrite Qabs_Qmult. rewrite (Qabs_pos (/ m)); [reflexivity|]. apply Qlt_le_weak, Qinv_lt_0_compat. lra.
  Qed.
  Lemma mpow_S k : (Qpower m (k + 1) == Qpower m k * m)%Q.
  Proof. rewrite Qpower_plus by exact m_nz. reflexivity. Qed.
  Lemma mpow_nz k : ~ (Qpower m k == 0)%Q.
  Proof. apply Qpower_not_0, m_nz. Qed.

  Lemma loop_stop fuel v i : 0 <= i < len -> ((v == 0)%Q \/ (1 / m < Qabs v)%Q /\ (Qabs v < m)%Q) ->
    prefix_loop (S fuel) f v i unit = Some (with_prefix f v i unit).
  Proof.
    intros Hi Hv. cbn [prefix_loop]. fold len. fold m. replace ((0 <=? i) && (i <? len)) with true by (symmetry; rewrite andb_true_iff, Z.leb_le, Z.ltb_lt; lia).
    destruct (Qlt_bool_spec 0 (Qabs v)) as [P|P]; destruct (Qle_bool_spec (Qabs v) (1 / m)) as [L|L]; cbn [andb];
      try (destruct Hv as [Hv|[H1 H2]]; [rewrite Hv in *; cbn in P; lra|lra]);
      (destruct (Qle_bool_spec m (Qabs v)) as [K|K]; [|reflexivity]); destruct Hv as [Hv|[H1 H2]]; try lra; rewrite Hv in K; change (Qabs 0) with 0%Q in K; lra.
  Qed.

  Lemma loop_up fuel : forall v i, (1 <= Qabs v)%Q -> 0 <= i <= len -> len - i < Z.of_nat fuel ->
    exists k v', 0 <= k /\ (v' == v / Qpower m k)%Q /\ (1 <= Qabs v')%Q /\
      ((i + k < len /\ (Qabs v' < m)%Q /\ prefix_loop fuel f v i unit = Some (with_prefix f v' (i + k) unit)) \/
       (i + k = len /\ prefix_loop fuel f v i unit = Some (without_prefix f v'))).
  Proof.
    induction fuel as [|fuel IH]; intros v i Hv Hi HF; [lia|].
    destruct (Z.eq_dec i len) as [->|NE].
    - exists 0, v. split; [lia|]. split; [cbn [Qpower]; field|]. split; [exact Hv|]. right. split; [lia|].
      cbn [prefix_loop]. fold len. replace ((0 <=? len) && (len <? len)) with false; [reflexivity|]. symmetry. apply andb_false_iff. right. apply Z.ltb_irrefl.
    - pose proof inv_m as [I1 I2]. destruct (Qlt_le_dec (Qabs v) m) as [HS|HS].
      + exists 0, v. split; [lia|]. split; [cbn [Qpower]; field|]. split; [exact Hv|]. left. split; [lia|]. split; [exact HS|]. rewrite Z.add_0_r. apply loop_stop; [lia|]. right. lra.
      + destruct (IH (v / m)%Q (i + 1)) as (k & v' & Hk & EV & GE & R).
        * rewrite abs_div. apply Qle_shift_div_l; lra.
        * lia.
        * lia.
        * exists (k + 1), v'. split; [lia|]. split; [rewrite EV, mpow_S; field; split; [exact m_nz|apply mpow_nz]|]. split; [exact GE|].
          replace (prefix_loop (S fuel) f v i unit) with (prefix_loop fuel f (v / m)%Q (i + 1) unit).
          -- replace (i + (k + 1)) with (i + 1 + k) by lia. exact R.
          -- cbn [prefix_loop]. fold len. fold m. replace ((0 <=? i) && (i <? len)) with true by (symmetry; rewrite andb_true_iff, Z.leb_le, Z.ltb_lt; lia).
             destruct (Qle_bool_spec (Qabs v) (1 / m)) as [L|L]; [lra|]. rewrite andb_false_r. destruct (Qle_bool_spec m (Qabs v)); [reflexivity|lra].
  Qed.

  Lemma loop_down fuel : forall v i, (0 < Qabs v)%Q -> (Qabs v <= 1)%Q -> -1 <= i < len -> i + 1 < Z.of_nat fuel ->
    exists k v', 0 <= k /\ (v' == v * Qpower m k)%Q /\ (Qabs v' <= 1)%Q /\ (0 < Qabs v')%Q /\
      ((0 <= i - k /\ (1 / m < Qabs v')%Q /\ prefix_loop fuel f v i unit = Some (with_prefix f v' (i - k) unit)) \/
       (i - k = -1 /\ prefix_loop fuel f v i unit = Some (without_prefix f v'))).
  Proof.
    induction fuel as [|fuel IH]; intros v i Hp Hv Hi HF; [lia|].
    destruct (Z.eq_dec i (-1)) as [->|NE].
    - exists 0, v. split; [lia|]. split; [cbn [Qpower]; field|]. split; [exact Hv|]. split; [exact Hp|]. right. split; [lia|]. cbn [prefix_loop]. reflexivity.
    - pose proof inv_m as [I1 I2]. destruct (Qlt_le_dec (1 / m) (Qabs v)) as [HS|HS].
      + exists 0, v. split; [lia|]. split; [cbn [Qpower]; field|]. split; [exact Hv|]. split; [exact Hp|]. left. split; [lia|]. split; [exact HS|]. rewrite Z.sub_0_r. apply loop_stop; [lia|]. right. lra.
      + assert (V1 : (Qabs (v * m) <= 1)%Q).
        { rewrite abs_mul. apply (Qmult_le_compat_r _ _ m) in HS; [|lra]. setoid_replace (1 / m * m)%Q with 1%Q in HS by (field; exact m_nz). exact HS. }
        destruct (IH (v * m)%Q (i - 1)) as (k & v' & Hk & EV & LE & GP & R).
        * rewrite abs_mul. nra.
        * exact V1.
        * lia.
        * lia.
        * exists (k + 1), v'. split; [lia|]. split; [rewrite EV, mpow_S; ring|]. split; [exact LE|]. split; [exact GP|].
          replace (prefix_loop (S fuel) f v i unit) with (prefix_loop fuel f (v * m)%Q (i - 1) unit).
          -- replace (i - (k + 1)) with (i - 1 - k) by lia. exact R.
          -- cbn [prefix_loop]. fold len. fold m. replace ((0 <=? i) && (i <? len)) with true by (symmetry; rewrite andb_true_iff, Z.leb_le, Z.ltb_lt; lia).
             destruct (Qlt_bool_spec 0 (Qabs v)); [|lra]. destruct (Qle_bool_spec (Qabs v) (1 / m)) as [L|L]; [|lra]. cbn [andb].
             destruct (Qle_bool_spec (Qabs (v * m)) 1); [reflexivity|contradiction].
  Qed.

  (** the prefix that is chosen *)
  Definition shifted (v : Q) (k : Z) (v' : Q) : Prop := (v' == v / Qpower m k)%Q.
  Lemma format_spec v : 0 <= pu_zero f < len -> ~ (v == 0)%Q ->
    exists k v', shifted v k v' /\ (0 < k -> (1 <= Qabs v')%Q) /\ (k < 0 -> (Qabs v' <= 1)%Q) /\ (0 < Qabs v')%Q /\
      ((0 <= pu_zero f + k < len /\ (1 / m < Qabs v')%Q /\ (Qabs v' < m)%Q /\ prefix_format f v unit = Some (with_prefix f v' (pu_zero f + k) unit)) \/
       ((pu_zero f + k = len \/ pu_zero f + k = -1) /\ prefix_format f v unit = Some (without_prefix f v'))).
  Proof.
    intros Hz Hv. pose proof inv_m as [I1 I2]. assert (P : (0 < Qabs v)%Q).
    { destruct (Qlt_le_dec 0 (Qabs v)) as [K|K]; [exact K|]. exfalso. apply Hv. pose proof (Qabs_nonneg v) as N.
      destruct (Qabs_Qle_condition v 0) as [C _]. specialize (C K). lra. }
    unfold prefix_format. set (fuel := S (length (pu_prefixes f))). assert (FL : Z.of_nat fuel = len + 1) by (unfold fuel, len, zlen; lia).
    destruct (Qlt_le_dec (Qabs v) 1) as [HS|HS].
    - destruct (loop_down fuel v (pu_zero f) P ltac:(lra) ltac:(lia) ltac:(lia)) as (k & v' & Hk & EV & LE & GP & R).
      exists (- k), v'. split; [unfold shifted; rewrite EV, Qpower_opp; field; apply mpow_nz|]. split; [lia|]. split; [intros _; exact LE|]. split; [exact GP|].
      replace (pu_zero f + - k) with (pu_zero f - k) by lia. destruct R as [(R1 & R2 & R3)|(R1 & R2)]; [left|right].
      + split; [lia|]. split; [exact R2|]. split; [lra|exact R3].
      + split; [lia|exact R2].
    - destruct (loop_up fuel v (pu_zero f) HS ltac:(lia) ltac:(lia)) as (k & v' & Hk & EV & LE & R).
      exists k, v'. split; [exact EV|]. split; [intros _; exact LE|]. split; [lia|]. split; [lra|].
      destruct R as [(R1 & R2 & R3)|(R1 & R2)]; [left|right].
      + split; [lia|]. split; [lra|]. split; [exact R2|exact R3].
      + split; [lia|exact R2].
  Qed.
End Loop.

(** * White space *)
Lemma is_space_white c : is_space c = true -> white c.
Proof.
  unfold is_space, white. cbn [In]. rewrite !orb_true_iff, !andb_true_iff, !N.leb_le, !N.eqb_eq. lia.
Qed.
Lemma strip_front_id s : (forall c t, s = c :: t -> ~ white c) -> strip_front s = s.
Proof. intros H. destruct s as [|c t]; [reflexivity|]. cbn. destruct (is_space c) eqn:E; [|reflexivity]. exfalso. exact (H c t eq_refl (is_space_white c E)). Qed.
Lemma strip_tidy s : tidy s -> strip s = s.
Proof.
  intros [H1 H2]. unfold strip. rewrite (strip_front_id s H1), strip_front_id; [apply rev_involutive|].
  intros c t E. apply (H2 c (rev t)). rewrite <- (rev_involutive s), E. reflexivity.
Qed.
Lemma tidy_app a b : tidy a -> tidy b -> tidy (a ++ b).
Proof.
  intros [A1 A2] [B1 B2]. split; intros c t E.
  - destruct a as [|x a]; [exact (B1 c t E)|]. cbn in E. injection E as -> _. exact (A1 c a eq_refl).
  - destruct b as [|y b] using rev_ind; [rewrite app_nil_r in E; exact (A2 c t E)|]. rewrite app_assoc in E. apply app_inj_tail in E. destruct E as [_ ->]. exact (B2 c b eq_refl).
Qed.
Lemma tidy_chars s : Forall (fun c => ~ white c) s -> tidy s.
Proof.
  intros F. rewrite Forall_forall in F. split; intros c t ->; apply F; [now left|apply in_or_app; right; now left].
Qed.
Lemma strip_blanks k s : strip (repeat 32%N k ++ s) = strip s.
Proof. unfold strip. f_equal. f_equal. f_equal. induction k as [|k IH]; [reflexivity|]. cbn. exact IH. Qed.
Lemma strip_front_len s : (length (strip_front s) <= length s)%nat.
Proof. induction s as [|c t IH]; cbn; [lia|]. destruct (is_space c); cbn; lia. Qed.
Lemma strip_len s : zlen (strip s) <= zlen s.
Proof.
  unfold strip, zlen. rewrite rev_length. pose proof (strip_front_len (rev (strip_front s))) as A. rewrite rev_length in A. pose proof (strip_front_len s). lia.
Qed.
Lemma digit_white c : is_digit c \/ c = 46%N -> ~ white c.
Proof. unfold is_digit, white. cbn [In]. intros H K. lia. Qed.
Lemma numeral_strip s q : numeral s q -> exists t, strip s = t /\ numeral t q /\ tidy t.
Proof.
  intros (k & t & q' & -> & F & C & R). assert (T : tidy t) by (apply tidy_chars; eapply Forall_impl; [|exact C]; intros c; apply digit_white).
  exists t. split; [rewrite strip_blanks; now apply strip_tidy|]. split; [|exact T]. exists 0%nat, t, q'. split; [reflexivity|now split].
Qed.
Lemma strip_signed v s q : numeral s q -> exists t, strip (minus_sign v ++ s) = minus_sign v ++ t /\ numeral t q.
Proof.
  intros NU. unfold minus_sign. destruct (Qlt_le_dec v 0).
  - exists s. split; [|exact NU]. destruct NU as (k & t & q' & -> & (c & u & -> & Hc) & C & R).
    apply strip_tidy. rewrite app_assoc. set (h := [45%N] ++ repeat 32%N k). split.
    + intros x y E. injection E as <- _. unfold white. cbn [In]. lia.
    + intros x y E. assert (T : tidy (c :: u)) by (apply tidy_chars; eapply Forall_impl; [|exact C]; intros z; apply digit_white). destruct T as [_ T2].
      destruct (@exists_last _ (c :: u) ltac:(easy)) as (w & z & EZ). rewrite EZ, app_assoc in E. apply app_inj_tail in E. destruct E as [_ <-]. exact (T2 z w EZ).
  - cbn [app]. destruct (numeral_strip s q NU) as (t & -> & N & _). exists t. now split.
Qed.

(** * The text for a value *)

Lemma with_prefix_shown f v i unit e : ~ (v == 0)%Q -> magnitude (Qabs v) e -> 1 <= room_of v (pu_max_value_len f) -> e < room_of v (pu_max_value_len f) ->
  pu_truncate f = false \/ i <> pu_zero f -> tidy (prefix_at f i) -> tidy (unit_of f unit) ->
  exists t q q', with_prefix f v i unit = Ok (minus_sign v ++ t ++ pu_separator f ++ prefix_at f i ++ unit_of f unit) /\
    read_float t = Some q' /\ (q' == q)%Q /\ shown_near q (Qabs v) (room_of v (pu_max_value_len f)) e.
Proof.
  intros Hv M Hn He Ht T1 T2. destruct (auto_plain v (pu_max_value_len f) e false Hv Hn M) as (t & q & R & NU & SN); [left; split; [exact He|easy]|].
  destruct (strip_signed v t q NU) as (t' & ST & NU'). destruct (numeral_read t' q NU') as (q' & RF & EQ).
  exists t', q, q'. split; [|split; [exact RF|split; [exact EQ|exact SN]]]. unfold with_prefix.
  replace (pu_truncate f && (i =? pu_zero f)) with false by (symmetry; apply andb_false_iff; destruct Ht as [->|Ht]; [now left|right; now apply Z.eqb_neq]).
  rewrite R. cbn [bind]. fold (unit_of f unit). rewrite ST, strip_tidy by (now apply tidy_app). now rewrite <- !app_assoc.
Qed.
Lemma without_prefix_shown f v e m : ~ (v == 0)%Q -> magnitude (Qabs v) e -> 1 <= room_of v (pu_max_value_len f) -> e < room_of v (pu_max_value_len f) ->
  longest (prefix_lens f) = Some m -> tidy (pu_unit f) ->
  exists t q q', without_prefix f v = Ok (minus_sign v ++ t ++ pu_separator f ++ repeat 63%N (Z.to_nat m) ++ pu_unit f) /\
    read_float t = Some q' /\ (q' == q)%Q /\ shown_near q (Qabs v) (room_of v (pu_max_value_len f)) e.
Proof.
  intros Hv M Hn He HL T2. destruct (auto_plain v (pu_max_value_len f) e false Hv Hn M) as (t & q & R & NU & SN); [left; split; [exact He|easy]|].
  destruct (strip_signed v t q NU) as (t' & ST & NU'). destruct (numeral_read t' q NU') as (q' & RF & EQ).
  exists t', q, q'. split; [|split; [exact RF|split; [exact EQ|exact SN]]]. unfold without_prefix. rewrite R, HL. cbn [bind].
  rewrite ST, strip_tidy; [now rewrite <- !app_assoc|]. apply tidy_app; [|exact T2]. apply tidy_chars. apply Forall_forall. intros c K. apply repeat_spec in K. subst. unfold white; cbn [In]; lia.
Qed.
Lemma without_prefix_fails f v : 1 <= room_of v (pu_max_value_len f) -> (p10 (room_of v (pu_max_value_len f)) <= Qabs v)%Q -> without_prefix f v = Err ValueError.
Proof. intros H K. unfold without_prefix. apply (auto_too_big v _ H) in K. now rewrite K. Qed.

(** * Prefix and number *)
Lemma trunc_nonneg q : (0 <= q)%Q -> Qtrunc q = Qfloor q.
Proof. intros H. unfold Qtrunc, Qfloor. destruct q as [a b]. cbn. unfold Qle in H; cbn in H. apply Z.quot_div_nonneg; lia. Qed.
Lemma trunc_opp q : Qtrunc (- q) = - Qtrunc q.
Proof. unfold Qtrunc. destruct q as [a b]. cbn. apply Z.quot_opp_l. lia. Qed.
Lemma trunc_wd v w : (v == w)%Q -> Qtrunc v = Qtrunc w.
Proof.
  intros E. destruct (Qlt_le_dec v 0) as [H|H].
  - assert (F : Qtrunc (- v) = Qtrunc (- w)); [|rewrite !trunc_opp in F; lia]. rewrite !trunc_nonneg by lra. now rewrite E.
  - rewrite !trunc_nonneg by lra. now rewrite E.
Qed.
Lemma abs_wd_nz v w : (Qabs v == w)%Q -> (0 < w)%Q -> ~ (v == 0)%Q.
Proof. intros H P K. rewrite K in H. change (Qabs 0) with 0%Q in H. lra. Qed.
Lemma same_sign v w m k : (1 < m)%Q -> (w == v / Qpower m k)%Q -> minus_sign w = minus_sign v /\ (forall n, room_of w n = room_of v n) /\ (Qabs w == scaled m k v)%Q.
Proof.
  intros Hm E. assert (P : (0 < Qpower m k)%Q) by (apply Qpower_0_lt; lra).
  assert (E2 : (w * Qpower m k == v)%Q) by (rewrite E; field; lra).
  split; [|split].
  - unfold minus_sign. destruct (Qlt_le_dec w 0), (Qlt_le_dec v 0); try reflexivity; nra.
  - intros n. unfold room_of. destruct (Qlt_le_dec w 0), (Qlt_le_dec v 0); try reflexivity; nra.
  - unfold scaled. rewrite E. unfold Qdiv. rewrite Qabs_Qmult. rewrite (Qabs_pos (/ Qpower m k)); [reflexivity|]. apply Qlt_le_weak, Qinv_lt_0_compat, P.
Qed.
Lemma scaled_ge m k v c : (1 < m)%Q -> (c <= scaled m k v)%Q <-> (c * Qpower m k <= Qabs v)%Q.
Proof.
  intros Hm. assert (P : (0 < Qpower m k)%Q) by (apply Qpower_0_lt; lra). unfold scaled. split; intros H.
  - apply (Qmult_le_r _ _ (Qpower m k) P) in H. setoid_replace (Qabs v / Qpower m k * Qpower m k)%Q with (Qabs v) in H by (field; lra). exact H.
  - apply Qle_shift_div_l; assumption.
Qed.
Lemma scaled_le m k v c : (1 < m)%Q -> (scaled m k v <= c)%Q <-> (Qabs v <= c * Qpower m k)%Q.
Proof.
  intros Hm. assert (P : (0 < Qpower m k)%Q) by (apply Qpower_0_lt; lra). unfold scaled. split; intros H.
  - apply (Qmult_le_r _ _ (Qpower m k) P) in H. setoid_replace (Qabs v / Qpower m k * Qpower m k)%Q with (Qabs v) in H by (field; lra). exact H.
  - apply Qle_shift_div_r; assumption.
Qed.

Definition tidy_config (f : unit_config) : Prop := forall i, tidy (prefix_at f i).

Section Config.
  Variables (f : unit_config) (unit : option str).
  Let m := pu_mcoef f.
  Let len := zlen (pu_prefixes f).
  Let room v := room_of v (pu_max_value_len f).
  Hypothesis Hm : (1 < m)%Q.
  Hypothesis Hz : 0 <= pu_zero f < len.

  (** the prefix *)
  Lemma choose v : (Qpower m (- pu_zero f - 1) < Qabs v)%Q -> (Qabs v < Qpower m (len - pu_zero f))%Q ->
    exists k w, 0 <= pu_zero f + k < len /\ (w == v / Qpower m k)%Q /\ (1 / m < scaled m k v)%Q /\ (scaled m k v < m)%Q /\ ((1 <= Qabs v)%Q -> (1 <= scaled m k v)%Q) /\
      prefix_format f v unit = Some (with_prefix f w (pu_zero f + k) unit).
  Proof.
    intros L H. assert (V : ~ (v == 0)%Q).
    { apply (abs_wd_nz v (Qabs v)); [reflexivity|]. pose proof (Qpower_0_lt m (- pu_zero f - 1) ltac:(lra)). lra. }
    destruct (format_spec f unit Hm v Hz V) as (k & w & SH & GE & LE & GP & R). fold m in SH. unfold shifted in SH. fold m in SH.
    destruct (same_sign v w m k Hm SH) as (_ & _ & SA). destruct R as [(R1 & R2 & R3 & R4)|([R1|R1] & R2)].
    - exists k, w. split; [exact R1|]. split; [exact SH|]. fold m in R2, R3. rewrite <- SA. split; [exact R2|]. split; [exact R3|]. split; [|exact R4].
      intros V1. destruct (Z.lt_trichotomy k 0) as [K|[K|K]]; [|subst k|now apply GE].
      + specialize (LE K). rewrite SA in *. apply (scaled_le m k v 1 Hm) in LE.
        exfalso. assert (P : (Qpower m k <= 1 / m)%Q).
        { replace k with (- (1 + (- k - 1))) by lia. rewrite Qpower_opp, Qpower_plus by lra. change (Qpower m 1) with m.
          assert (P1 : (1 <= Qpower m (- k - 1))%Q) by (apply Qpower_1_le; [lra|lia]).
          assert (MM : (m <= m * Qpower m (- k - 1))%Q) by nra. setoid_replace (/ (m * Qpower m (- k - 1)))%Q with (1 / (m * Qpower m (- k - 1)))%Q by (field; split; lra).
          apply Qle_shift_div_l; [lra|]. setoid_replace (1 / (m * Qpower m (- k - 1)) * m)%Q with (1 / Qpower m (- k - 1))%Q by (field; split; lra).
          apply Qle_shift_div_r; lra. }
        pose proof (proj1 (inv_m f Hm)) as I. fold m in I. lra.
      + rewrite SA. unfold scaled. change (Qpower m 0) with 1%Q. setoid_replace (Qabs v / 1)%Q with (Qabs v) by field. exact V1.
    - exfalso. assert (K : k = len - pu_zero f) by lia. assert (A : (1 <= Qabs w)%Q) by (apply GE; lia). rewrite SA in A. apply (scaled_ge m k v 1 Hm) in A. rewrite K in A. lra.
    - exfalso. assert (K : k = - pu_zero f - 1) by lia. assert (A : (Qabs w <= 1)%Q) by (apply LE; lia). rewrite SA in A. apply (scaled_le m k v 1 Hm) in A. rewrite K in A. lra.
  Qed.

  Hypothesis HP : tidy_config f.
  Hypothesis HU : tidy (unit_of f unit).

  Lemma magnitude_wd a b e : (a == b)%Q -> magnitude a e -> magnitude b e.
  Proof. intros E [A B]. unfold magnitude. rewrite <- E. now split. Qed.

  Lemma value_shown v : 1 <= room v -> (m <= p10 (room v))%Q ->
    (Qpower m (- pu_zero f - 1) < Qabs v)%Q -> (Qabs v < Qpower m (len - pu_zero f))%Q ->
    exists k, 0 <= pu_zero f + k < len /\ (1 / m < scaled m k v)%Q /\ (scaled m k v < m)%Q /\ ((1 <= Qabs v)%Q -> (1 <= scaled m k v)%Q) /\
      exists num, prefix_format f v unit = Some (Ok (num ++ pu_separator f ++ prefix_at f (pu_zero f + k) ++ unit_of f unit)) /\
        ((pu_truncate f = false \/ k <> 0) ->
           exists t q e, num = minus_sign v ++ t /\ read_float t = Some q /\ magnitude (scaled m k v) e /\ shown_near q (scaled m k v) (room v) e) /\
        (pu_truncate f = true -> k = 0 -> num = strip (firstn (Z.to_nat (pu_max_value_len f)) (zdec (Qtrunc v)))).
  Proof.
    intros Hn HR L H. destruct (choose v L H) as (k & w & K & EW & S1 & S2 & S3 & R). exists k. split; [exact K|]. split; [exact S1|]. split; [exact S2|]. split; [exact S3|].
    destruct (same_sign v w m k Hm EW) as (MS & RO & SA).
    assert (WP : (0 < Qabs w)%Q) by (rewrite SA; pose proof (proj2 (inv_m f Hm)) as I; fold m in I; lra).
    assert (NZ : ~ (w == 0)%Q) by (exact (abs_wd_nz w (Qabs w) (Qeq_refl _) WP)).
    pose proof (log_spec (Qabs w) WP) as M. set (e := log10_floor (Qabs w)) in *.
    assert (HE : e < room v).
    { destruct M as [M1 _]. destruct (Z_lt_dec e (room v)); [assumption|]. exfalso. pose proof (p10_le (room v) e ltac:(lia)). rewrite SA in M1. lra. }
    assert (TR : (pu_truncate f = false \/ k <> 0) \/ (pu_truncate f = true /\ k = 0)) by (destruct (pu_truncate f), (Z.eq_dec k 0); auto).
    destruct TR as [TR|[TR K0]].
    - destruct (with_prefix_shown f w (pu_zero f + k) unit e NZ M) as (t & q & q' & WT & RF & EQ & SN); try assumption.
      + rewrite RO. exact Hn.
      + rewrite RO. exact HE.
      + destruct TR as [TR|TR]; [now left|right; lia].
      + apply HP.
      + exists (minus_sign v ++ t). split; [rewrite R, WT, MS, <- !app_assoc; reflexivity|]. split; [|intros T0 K0; destruct TR; [congruence|contradiction]].
        intros _. exists t, q', e. split; [reflexivity|]. split; [exact RF|]. split; [exact (magnitude_wd _ _ e SA M)|].
        rewrite RO in SN. fold (room v) in SN. destruct SN as [N1 N2]. split; intros X.
        * rewrite EQ, <- SA. now apply N1.
        * rewrite EQ, <- SA. now apply N2.
    - subst k. assert (TW : Qtrunc w = Qtrunc v).
      { change (Qpower m 0) with 1%Q in EW. assert (EV : (w == v)%Q) by (rewrite EW; field).
        now apply trunc_wd. }
      exists (strip (firstn (Z.to_nat (pu_max_value_len f)) (zdec (Qtrunc v)))). split; [|split; [intros [X|X]; congruence|reflexivity]].
      rewrite R. unfold with_prefix. rewrite TR. replace (pu_zero f + 0 =? pu_zero f) with true by (symmetry; apply Z.eqb_eq; lia). cbn [andb].
      assert (0 <= pu_max_value_len f) by (unfold room, room_of in Hn; destruct (Qlt_le_dec v 0); lia).
      destruct (Z.ltb_spec (pu_max_value_len f) 0); [lia|]. cbn [bind]. fold (unit_of f unit). rewrite TW, (strip_tidy (_ ++ _)) by (apply tidy_app; [apply HP|exact HU]).
      reflexivity.
  Qed.
End Config.
