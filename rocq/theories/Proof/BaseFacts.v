(** Facts about the common vocabulary *)
From Coq Require Import List NArith ZArith Bool Lia.
From Verif.Model Require Import Base.
From Verif.Spec Require Import Numbers.
Import ListNotations.
Local Open Scope N_scope.

Global Arguments N.add : simpl never.
Global Arguments N.sub : simpl never.
Global Arguments N.mul : simpl never.
Global Arguments N.div : simpl never.
Global Arguments N.modulo : simpl never.
Global Arguments N.pow : simpl never.
Global Arguments N.of_nat : simpl never.
Global Arguments N.to_nat : simpl never.
Global Arguments Z.add : simpl never.
Global Arguments Z.sub : simpl never.
Global Arguments Z.mul : simpl never.
Global Arguments Z.of_nat : simpl never.
Global Arguments Z.to_nat : simpl never.
Global Arguments Z.div : simpl never.

Lemma eqb_list_refl a : eqb_list a a = true.
Proof. induction a as [|x a IH]; cbn; [reflexivity|]. now rewrite N.eqb_refl, IH. Qed.

Lemma eqb_list_spec a b : eqb_list a b = true <-> a = b.
Proof.
  revert b; induction a as [|x a IH]; intros [|y b]; cbn; split; intro H; try easy.
  - apply andb_true_iff in H as [H1 H2]. apply N.eqb_eq in H1. apply IH in H2. now subst.
  - injection H as -> ->. now rewrite N.eqb_refl, eqb_list_refl.
Qed.

(** * digits *)
Lemma num_value_snoc b l d : num_value b (l ++ [d]) = num_value b l * b + d.
Proof. unfold num_value. now rewrite fold_left_app. Qed.

Lemma size_nat_div b n : 2 <= b -> b <= n -> (N.size_nat (n / b) < N.size_nat n)%nat.
Proof.
  intros Hb Hn.
  assert (n <> 0) by lia.
  assert (Hd : n / b <= n / 2) by (apply N.div_le_compat_l; lia).
  assert (Hs : forall m, m <> 0 -> N.size_nat m = S (N.to_nat (N.log2 m))).
  { intros m Hm. destruct m; [easy|]. cbn [N.size_nat]. clear.
    induction p; cbn [Pos.size_nat]; [rewrite IHp | rewrite IHp | reflexivity].
    - change (N.pos p~1) with (2 * N.pos p + 1). rewrite N.log2_succ_double by reflexivity. lia.
    - change (N.pos p~0) with (2 * N.pos p). rewrite N.log2_double by reflexivity. lia. }
  assert (n / b <> 0).
  { apply N.neq_0_lt_0. apply N.div_str_pos. lia. }
  rewrite !Hs by assumption.
  assert (N.log2 (n / b) < N.log2 n).
  { apply N.lt_le_trans with (N.succ (N.log2 (n/2))).
    - apply N.lt_succ_r. now apply N.log2_le_mono.
    - rewrite <- N.log2_double.
      + apply N.log2_le_mono. apply N.mul_div_le. lia.
      + apply N.div_str_pos. lia. }
  lia.
Qed.

Lemma digits_fuel_enough b f1 f2 n :
  2 <= b -> (N.size_nat n < f1)%nat -> (N.size_nat n < f2)%nat -> digits_fuel b f1 n = digits_fuel b f2 n.
Proof.
  intros Hb. revert f2 n. induction f1 as [|f1 IH]; intros [|f2] n H1 H2; try lia.
  cbn. destruct (n <? b) eqn:E; [reflexivity|]. apply N.ltb_ge in E. f_equal.
  pose proof (size_nat_div b n Hb E). apply IH; lia.
Qed.

(** one-step equation *)
Lemma digits_eq b n : 2 <= b -> digits b n = if n <? b then [n] else digits b (n / b) ++ [n mod b].
Proof.
  intros Hb. unfold digits at 1. cbn [digits_fuel].
  destruct (n <? b) eqn:E; [reflexivity|]. f_equal.
  apply N.ltb_ge in E. pose proof (size_nat_div b n Hb E). unfold digits. apply digits_fuel_enough; lia.
Qed.

(** induction principle following the digits *)
Lemma digits_ind (P : N -> Prop) b :
  2 <= b -> (forall n, n < b -> P n) -> (forall n, b <= n -> P (n / b) -> P n) -> forall n, P n.
Proof.
  intros Hb H0 H1 n. induction n as [n IH] using (well_founded_induction N.lt_wf_0).
  destruct (N.lt_ge_cases n b) as [H|H]; [auto|]. apply H1; [assumption|].
  apply IH. apply N.div_lt; lia.
Qed.

Lemma digits_value b n : 2 <= b -> num_value b (digits b n) = n.
Proof.
  intros Hb. pattern n; revert n; apply (digits_ind _ b Hb); [intros n H|intros n H IH]; rewrite digits_eq by exact Hb.
  - apply N.ltb_lt in H as E. rewrite E. unfold num_value. cbn. reflexivity.
  - apply N.ltb_ge in H as E. rewrite E, num_value_snoc, IH.
    rewrite N.mul_comm. symmetry. apply N.div_mod. lia.
Qed.

Lemma digits_bound b n : 2 <= b -> Forall (fun d => d < b) (digits b n).
Proof.
  intros Hb. pattern n; revert n; apply (digits_ind _ b Hb); [intros n H|intros n H IH]; rewrite digits_eq by exact Hb.
  - apply N.ltb_lt in H as E. rewrite E. auto.
  - apply N.ltb_ge in H as E. rewrite E. apply Forall_app. split; [exact IH|].
    constructor; [|constructor]. apply N.mod_lt. lia.
Qed.

Lemma digits_nonempty b n : 2 <= b -> digits b n <> [].
Proof.
  intros Hb. rewrite digits_eq by exact Hb. destruct (n <? b); [easy|].
  destruct (digits b (n / b)); easy.
Qed.

Lemma digits_length b n k : 2 <= b -> (0 < k)%nat -> (length (digits b n) <= k)%nat <-> n < b ^ N.of_nat k.
Proof.
  intros Hb. revert k. pattern n; revert n; apply (digits_ind _ b Hb); [intros n H|intros n H IH]; intros k Hk; rewrite digits_eq by exact Hb.
  - apply N.ltb_lt in H as E. rewrite E. cbn [length]. split; [|lia]. intros _.
    apply N.lt_le_trans with (b ^ 1); [now rewrite N.pow_1_r|]. apply N.pow_le_mono_r; lia.
  - apply N.ltb_ge in H as E. rewrite E. rewrite app_length. cbn [length].
    destruct k as [|[|k]]; [lia| |].
    + change (N.of_nat 1) with 1. rewrite N.pow_1_r. pose proof (digits_nonempty b (n/b) Hb).
      destruct (digits b (n/b)); [easy|]. cbn [length]. split; lia.
    + replace (N.of_nat (S (S k))) with (N.succ (N.of_nat (S k))) by lia. rewrite N.pow_succ_r'.
      specialize (IH (S k) ltac:(lia)).
      split; intro HH.
      * destruct (N.lt_ge_cases n (b * b ^ N.of_nat (S k))) as [|G]; [assumption|].
        exfalso. assert (n / b < b ^ N.of_nat (S k)) by (apply IH; lia).
        assert (b ^ N.of_nat (S k) <= n / b) by (apply N.div_le_lower_bound; lia). lia.
      * assert (n / b < b ^ N.of_nat (S k)) by (apply N.div_lt_upper_bound; lia).
        apply IH in H0. lia.
Qed.

(** * dec *)
Lemma dec_digits n : Forall (fun c => 48 <= c /\ c <= 57) (dec n).
Proof.
  unfold dec. apply Forall_map. eapply Forall_impl; [|apply digits_bound; lia]. cbn. lia.
Qed.

Lemma dec_nonempty n : dec n <> [].
Proof.
  unfold dec. pose proof (digits_nonempty 10 n ltac:(lia)). destruct (digits 10 n); easy.
Qed.

Lemma dec_value_gen ds acc :
  fold_left (fun a c => a * 10 + (c - 48)) (map (fun d => 48 + d) ds) acc
  = fold_left (fun a d => a * 10 + d) ds acc.
Proof.
  revert acc. induction ds as [|d ds IH]; intros acc; [reflexivity|]. cbn [map fold_left].
  rewrite IH. f_equal. lia.
Qed.
Lemma dec_value n : fold_left (fun a c => a * 10 + (c - 48)) (dec n) 0 = n.
Proof. unfold dec. rewrite dec_value_gen. apply (digits_value 10 n). lia. Qed.

Lemma dec_inj a b : dec a = dec b -> a = b.
Proof. intros H. rewrite <- (dec_value a), <- (dec_value b). now rewrite H. Qed.

Lemma digit_value_dec d : d < 10 -> digit_value (48 + d) = Some d.
Proof.
  intros H. unfold digit_value.
  replace (48 <=? 48 + d) with true by (symmetry; apply N.leb_le; lia).
  replace (48 + d <=? 57) with true by (symmetry; apply N.leb_le; lia).
  cbn [andb]. f_equal. lia.
Qed.
Lemma digit_value_hex_lo d : d < 16 -> digit_value (hexdig_lo d) = Some d.
Proof.
  intros H. unfold hexdig_lo. destruct (d <? 10) eqn:E.
  - apply N.ltb_lt in E. now apply digit_value_dec.
  - apply N.ltb_ge in E. unfold digit_value.
    replace (87 + d <=? 57) with false by (symmetry; apply N.leb_gt; lia).
    replace (97 <=? 87 + d) with true by (symmetry; apply N.leb_le; lia).
    replace (87 + d <=? 102) with true by (symmetry; apply N.leb_le; lia).
    rewrite andb_false_r. cbn [andb]. f_equal. lia.
Qed.
Lemma digit_value_hex_up d : d < 16 -> digit_value (hexdig_up d) = Some d.
Proof.
  intros H. unfold hexdig_up. destruct (d <? 10) eqn:E.
  - apply N.ltb_lt in E. now apply digit_value_dec.
  - apply N.ltb_ge in E. unfold digit_value.
    replace (55 + d <=? 57) with false by (symmetry; apply N.leb_gt; lia).
    replace (97 <=? 55 + d) with false by (symmetry; apply N.leb_gt; lia).
    replace (65 <=? 55 + d) with true by (symmetry; apply N.leb_le; lia).
    replace (55 + d <=? 70) with true by (symmetry; apply N.leb_le; lia).
    rewrite andb_false_r. cbn [andb]. f_equal. lia.
Qed.

Lemma digit_values_map (f : N -> N) b ds :
  (forall d, d < b -> digit_value (f d) = Some d) -> Forall (fun d => d < b) ds ->
  digit_values (map f ds) = Some ds.
Proof.
  intros Hf H. induction H as [|d ds Hd H IH]; [reflexivity|]. cbn. now rewrite (Hf d Hd), IH.
Qed.

Lemma forallb_lt b ds : Forall (fun d => d < b) ds -> forallb (fun d => d <? b) ds = true.
Proof. intros H. apply forallb_forall. rewrite Forall_forall in H. intros d Hd. apply N.ltb_lt. auto. Qed.

(** zero padding does not change the value *)
Lemma num_value_zeros b k ds : num_value b (repeat 0 k ++ ds) = num_value b ds.
Proof.
  unfold num_value. rewrite fold_left_app. f_equal. induction k as [|k IH]; [reflexivity|]. cbn. exact IH.
Qed.

Lemma read_number_map b f k ds :
  2 <= b -> (forall d, d < b -> digit_value (f d) = Some d) -> f 0 = 48 ->
  Forall (fun d => d < b) ds -> ds <> [] ->
  read_number b (repeat 48 k ++ map f ds) = Some (num_value b ds).
Proof.
  intros Hb Hf H0 Hds Hne.
  replace (repeat 48 k ++ map f ds) with (map f (repeat 0 k ++ ds)).
  2:{ rewrite map_app. f_equal. rewrite <- H0. induction k; cbn; congruence. }
  assert (HF : Forall (fun d => d < b) (repeat 0 k ++ ds)).
  { apply Forall_app. split; [|assumption]. apply Forall_forall. intros x Hx. apply repeat_spec in Hx. lia. }
  unfold read_number. destruct (map f (repeat 0 k ++ ds)) eqn:E.
  - apply map_eq_nil in E. destruct k; cbn in E; congruence.
  - rewrite <- E. rewrite (digit_values_map f b) by assumption.
    rewrite forallb_lt by assumption. now rewrite num_value_zeros.
Qed.

Lemma read_dec n : read_number 10 (dec n) = Some n.
Proof.
  pose proof (read_number_map 10 (fun d => 48 + d) 0 (digits 10 n) ltac:(lia)
    ltac:(intros; now apply digit_value_dec) eq_refl (digits_bound 10 n ltac:(lia)) (digits_nonempty 10 n ltac:(lia))).
  cbn [repeat app] in H. unfold dec. rewrite H. f_equal. apply digits_value. lia.
Qed.
Lemma read_hex_lo w n : read_number 16 (fmt_hex_lo w n) = Some n.
Proof.
  unfold fmt_hex_lo, rjust. rewrite read_number_map with (f := hexdig_lo); try lia.
  - f_equal. apply digits_value. lia.
  - exact digit_value_hex_lo.
  - reflexivity.
  - apply digits_bound. lia.
  - apply digits_nonempty. lia.
Qed.
Lemma read_hex_up w n : read_number 16 (fmt_hex_up w n) = Some n.
Proof.
  unfold fmt_hex_up, rjust. rewrite read_number_map with (f := hexdig_up); try lia.
  - f_equal. apply digits_value. lia.
  - exact digit_value_hex_up.
  - reflexivity.
  - apply digits_bound. lia.
  - apply digits_nonempty. lia.
Qed.

Lemma rjust_length c w s : length (rjust c w s) = Nat.max w (length s).
Proof. unfold rjust. rewrite app_length, repeat_length. lia. Qed.

Lemma fmt_hex_lo_length w n : (0 < w)%nat -> n < 16 ^ N.of_nat w -> length (fmt_hex_lo w n) = w.
Proof.
  intros Hw H. unfold fmt_hex_lo. rewrite rjust_length, map_length.
  apply (digits_length 16 n w) in H; lia.
Qed.

(** lower case hexadecimal digits and decimal digits are plain displayable ASCII *)
Lemma fmt_hex_lo_chars w n : Forall (fun c => (48 <= c /\ c <= 57) \/ (97 <= c /\ c <= 102)) (fmt_hex_lo w n).
Proof.
  unfold fmt_hex_lo, rjust. apply Forall_app. split.
  - apply Forall_forall. intros x Hx. apply repeat_spec in Hx. lia.
  - apply Forall_map. eapply Forall_impl; [|apply (digits_bound 16); lia].
    cbn. intros d Hd. unfold hexdig_lo. destruct (d <? 10) eqn:E; [apply N.ltb_lt in E|apply N.ltb_ge in E]; lia.
Qed.
Lemma fmt_hex_up_chars w n : Forall (fun c => (48 <= c /\ c <= 57) \/ (65 <= c /\ c <= 70)) (fmt_hex_up w n).
Proof.
  unfold fmt_hex_up, rjust. apply Forall_app. split.
  - apply Forall_forall. intros x Hx. apply repeat_spec in Hx. lia.
  - apply Forall_map. eapply Forall_impl; [|apply (digits_bound 16); lia].
    cbn. intros d Hd. unfold hexdig_up. destruct (d <? 10) eqn:E; [apply N.ltb_lt in E|apply N.ltb_ge in E]; lia.
Qed.
