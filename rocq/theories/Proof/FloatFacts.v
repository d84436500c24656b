(** Proofs about texts of numbers *)
From Coq Require Import List Arith NArith ZArith QArith Qabs Qround Qpower Bool Lia Lqa.
From Verif.Model Require Import Base Color TimeDelta FloatText.
From Verif.Spec Require Import Numbers FloatText.
From Verif.Proof Require Import BaseFacts TokFacts BinClaims DurationFacts.
Import ListNotations.
Local Open Scope Z_scope.

(** * Powers of ten *)
Lemma ten_nz : ~ (10 # 1 == 0)%Q. Proof. discriminate. Qed.
Lemma p10_pos e : (0 < p10 e)%Q. Proof. apply Qpower_0_lt. reflexivity. Qed.
Lemma p10_plus a b : (p10 (a + b) == p10 a * p10 b)%Q. Proof. apply Qpower_plus. exact ten_nz. Qed.
Lemma p10_S a : (p10 (a + 1) == 10 * p10 a)%Q.
Proof. rewrite p10_plus. change (p10 1) with (10 # 1)%Q. apply Qmult_comm. Qed.
Lemma p10_opp a : (p10 a * p10 (- a) == 1)%Q.
Proof. rewrite <- p10_plus. replace (a + - a) with 0 by lia. reflexivity. Qed.
Lemma p10_inj n : 0 <= n -> (inject_Z (10 ^ n) == p10 n)%Q.
Proof. intros H. unfold p10. apply Zpower_Qpower. exact H. Qed.
Lemma p10_nz e : ~ (p10 e == 0)%Q.
Proof. pose proof (p10_pos e). lra. Qed.
Lemma p10_le_nat k a : (p10 a <= p10 (a + Z.of_nat k))%Q.
Proof.
  induction k as [|k IH]; [rewrite Z.add_0_r; lra|]. rewrite Nat2Z.inj_succ. replace (a + Z.succ (Z.of_nat k)) with (a + Z.of_nat k + 1) by lia.
  rewrite p10_S. pose proof (p10_pos (a + Z.of_nat k)). lra.
Qed.
Lemma p10_le a b : a <= b -> (p10 a <= p10 b)%Q.
Proof. intros H. replace b with (a + Z.of_nat (Z.to_nat (b - a))) by lia. apply p10_le_nat. Qed.
Lemma p10_lt a b : a < b -> (p10 a < p10 b)%Q.
Proof.
  intros H. assert (K : (p10 (a + 1) <= p10 b)%Q) by (apply p10_le; lia). rewrite p10_S in K. pose proof (p10_pos a). lra.
Qed.
Lemma p10_lt_inv a b : (p10 a < p10 b)%Q -> a < b.
Proof. intros H. destruct (Z.lt_ge_cases a b) as [L|L]; [exact L|]. pose proof (p10_le _ _ L). lra. Qed.
Lemma magnitude_unique x a b : magnitude x a -> magnitude x b -> a = b.
Proof.
  intros [A1 A2] [B1 B2]. assert (a < b + 1) by (apply p10_lt_inv; lra). assert (b < a + 1) by (apply p10_lt_inv; lra). lia.
Qed.

(** * Number of digits *)
Lemma ndigits_spec n : 0 < n -> 10 ^ (ndigits n - 1) <= n < 10 ^ ndigits n.
Proof.
  intros H. unfold ndigits, zlen, dec. rewrite map_length. set (m := Z.to_N n). assert (E : n = Z.of_N m) by (unfold m; rewrite Z2N.id; lia).
  assert (Hm : (0 < m)%N) by lia. clearbody m. subst n. clear H.
  pose proof (digits_nonempty 10 m ltac:(lia)) as NE. set (k := length (digits 10 m)).
  assert (K : (0 < k)%nat) by (unfold k; destruct (digits 10 m); [easy|cbn; lia]).
  split.
  - destruct (Nat.eq_dec k 1) as [->|K1]; [cbn; lia|].
    pose proof (digits_length 10 m (k - 1) ltac:(lia) ltac:(lia)) as [_ D]. fold k in D.
    assert (~ (m < 10 ^ N.of_nat (k - 1))%N) by (intros L; specialize (D L); lia).
    apply N.nlt_ge in H. apply N2Z.inj_le in H. rewrite N2Z.inj_pow, nat_N_Z in H. replace (Z.of_nat (k - 1)) with (Z.of_nat k - 1) in H by lia. exact H.
  - pose proof (digits_length 10 m k ltac:(lia) K) as [D _]. fold k in D. specialize (D (le_n _)).
    apply N2Z.inj_lt in D. rewrite N2Z.inj_pow, nat_N_Z in D. exact D.
Qed.
Lemma ndigits_pos n : 1 <= ndigits n.
Proof.
  unfold ndigits, zlen, dec. rewrite map_length. pose proof (digits_nonempty 10 (Z.to_N n) ltac:(lia)). destruct (digits 10 (Z.to_N n)); [easy|cbn [length]; lia].
Qed.
Lemma ndigits_unique n k : 0 < n -> 10 ^ (k - 1) <= n < 10 ^ k -> ndigits n = k.
Proof.
  intros H [A B]. pose proof (ndigits_spec n H) as [C D]. pose proof (ndigits_pos n).
  assert (K : 1 <= k). { destruct (Z.lt_ge_cases k 1); [|lia]. destruct (Z.eq_dec k 0) as [->|]; [cbn in B; lia|]. rewrite (Z.pow_neg_r 10 k) in B by lia. lia. }
  assert (k - 1 < ndigits n) by (apply (Z.pow_lt_mono_r_iff 10); lia).
  assert (ndigits n - 1 < k) by (apply (Z.pow_lt_mono_r_iff 10); lia). lia.
Qed.
Lemma ndigits_small n : 0 <= n < 10 -> ndigits n = 1.
Proof. intros H. destruct (Z.eq_dec n 0) as [->|]; [reflexivity|]. apply ndigits_unique; [lia|cbn; lia]. Qed.

(** * Logarithm *)
Lemma log_spec x : (0 < x)%Q -> magnitude x (log10_floor x).
Proof.
  intros H. unfold log10_floor, magnitude. destruct (Qle_bool_spec 1 x) as [L|L].
  - assert (F : 1 <= Qfloor x) by (apply floor_le; exact L). pose proof (ndigits_spec (Qfloor x) ltac:(lia)) as [A B].
    pose proof (ndigits_pos (Qfloor x)). set (k := ndigits (Qfloor x)) in *. replace (k - 1 + 1) with k by lia. split.
    + apply floor_le in A. rewrite <- p10_inj by lia. exact A.
    + apply floor_lt in B. rewrite <- p10_inj by lia. exact B.
  - apply Qnot_le_lt in L. assert (I : (1 < / x)%Q).
    { apply Qmult_lt_r with (z := x); [exact H|]. rewrite (Qmult_comm (/ x)), Qmult_inv_r by lra. lra. }
    set (c := Qceiling (/ x)). assert (C : (/ x <= inject_Z c)%Q) by apply Qle_ceiling. assert (C2 : (inject_Z (c - 1) < / x)%Q) by apply Qceiling_lt.
    assert (C1 : 1 < c). { rewrite Zlt_Qlt. change (inject_Z 1) with 1%Q. lra. }
    pose proof (ndigits_spec (c - 1) ltac:(lia)) as [A B]. pose proof (ndigits_pos (c - 1)). set (k := ndigits (c - 1)) in *.
    assert (P := p10_pos k). assert (P1 := p10_pos (k - 1)).
    assert (X : (x * / x == 1)%Q) by (apply Qmult_inv_r; lra).
    split.
    + assert (U : (/ x <= p10 k)%Q). { rewrite <- p10_inj by lia. apply Qle_trans with (inject_Z c); [exact C|]. rewrite <- Zle_Qle. lia. }
      assert (O : (p10 k * p10 (- k) == 1)%Q) by apply p10_opp. pose proof (p10_pos (- k)). nra.
    + assert (U : (p10 (k - 1) < / x)%Q). { rewrite <- p10_inj by lia. apply Qle_lt_trans with (inject_Z (c - 1)); [|exact C2]. rewrite <- Zle_Qle. lia. }
      assert (O : (p10 (k - 1) * p10 (- k + 1) == 1)%Q). { replace (- k + 1) with (- (k - 1)) by lia. apply p10_opp. } pose proof (p10_pos (- k + 1)). nra.
Qed.

(** * Rounding *)
Lemma inj_add a b : (inject_Z (a + b) == inject_Z a + inject_Z b)%Q. Proof. rewrite inject_Z_plus. reflexivity. Qed.
Lemma inj_sub a b : (inject_Z (a - b) == inject_Z a - inject_Z b)%Q.
Proof. unfold Z.sub. rewrite inject_Z_plus, inject_Z_opp. reflexivity. Qed.
Lemma inj_1 : (inject_Z 1 == 1)%Q. Proof. reflexivity. Qed.
Lemma inj_2 : (inject_Z 2 == 2)%Q. Proof. reflexivity. Qed.
Lemma round_near q : (Qabs (inject_Z (round_even q) - q) <= 1 # 2)%Q.
Proof.
  unfold round_even. pose proof (Qfloor_le q) as A. pose proof (Qlt_floor q) as B. rewrite inject_Z_plus in B. change (inject_Z 1) with 1%Q in B.
  apply Qabs_Qle_condition. destruct (Qlt_bool_spec (q - inject_Z (Qfloor q)) (1 # 2)); [split; lra|].
  destruct (Qlt_bool_spec (1 # 2) (q - inject_Z (Qfloor q))); [rewrite inject_Z_plus; change (inject_Z 1) with 1%Q; split; lra|].
  destruct (Z.even (Qfloor q)); [split; lra|]. rewrite inject_Z_plus. change (inject_Z 1) with 1%Q. split; lra.
Qed.
Lemma round_bounds q : (inject_Z (round_even q) - (1 # 2) <= q <= inject_Z (round_even q) + (1 # 2))%Q.
Proof. pose proof (round_near q) as H. apply Qabs_Qle_condition in H. split; lra. Qed.
Lemma round_ge q n : (inject_Z n <= q)%Q -> n <= round_even q.
Proof.
  intros H. apply floor_le in H. unfold round_even. destruct (Qlt_bool _ _); [lia|]. destruct (Qlt_bool _ _); [lia|]. destruct (Z.even _); lia.
Qed.
Lemma round_le q n : (q <= inject_Z n)%Q -> round_even q <= n.
Proof.
  intros H. destruct (Z.le_gt_cases (round_even q) n) as [L|L]; [exact L|exfalso].
  assert (F : Qfloor q <= n). { rewrite Zle_Qle. pose proof (Qfloor_le q). lra. }
  unfold round_even in L. destruct (Qlt_bool_spec (q - inject_Z (Qfloor q)) (1 # 2)); [lia|].
  assert (E : Qfloor q = n) by (destruct (Qlt_bool _ _); [lia|]; destruct (Z.even _); lia). rewrite E in *.
  lra.
Qed.
(** rounding reaches an even number from half a unit below on *)
Lemma round_reaches q n : Z.even n = true -> n <= round_even q <-> (inject_Z n - (1 # 2) <= q)%Q.
Proof.
  intros E. split.
  - intros H. pose proof (round_bounds q) as [A B]. rewrite Zle_Qle in H. lra.
  - intros H. destruct (Z.le_gt_cases n (Qfloor q)) as [L|L]; [apply round_ge; apply floor_le; exact L|].
    pose proof (Qlt_floor q) as B. assert (F : Qfloor q = n - 1).
    { assert (n - 2 < Qfloor q); [|lia]. destruct (Z.le_gt_cases (Qfloor q) (n - 2)) as [M|M]; [|exact M].
      exfalso. rewrite Zle_Qle in M. rewrite inj_add, inj_1 in B. rewrite inj_sub, inj_2 in M. lra. }
    unfold round_even. rewrite F. destruct (Qlt_bool_spec (q - inject_Z (n - 1)) (1 # 2)) as [K|K]; [rewrite inj_sub, inj_1 in K; lra|]. destruct (Qlt_bool _ _); [lia|].
    replace (Z.even (n - 1)) with false; [lia|]. rewrite Z.even_sub, E. reflexivity.
Qed.
Lemma round_nonneg q : (0 <= q)%Q -> 0 <= round_even q.
Proof. intros H. apply round_ge. exact H. Qed.

(** * Fixed number of decimals *)
Definition rounded (d : Z) (x : Q) : Z := round_even (x * inject_Z (10 ^ d)).
Lemma zlen_app {A} (a b : list A) : zlen (a ++ b) = zlen a + zlen b.
Proof. unfold zlen. rewrite app_length. lia. Qed.
Lemma zlen_rjust c n s : 0 <= n -> zlen (rjust c (Z.to_nat n) s) = Z.max n (zlen s).
Proof. intros H. unfold rjust, zlen. rewrite app_length, repeat_length. lia. Qed.
Lemma ndigits_le n d : 1 <= d -> 0 <= n < 10 ^ d -> ndigits n <= d.
Proof.
  intros D H. destruct (Z.eq_dec n 0) as [->|]; [change (ndigits 0) with 1; lia|]. pose proof (ndigits_spec n ltac:(lia)) as [A _].
  assert (ndigits n - 1 < d); [|lia]. apply (Z.pow_lt_mono_r_iff 10); lia.
Qed.
Lemma fixed_len d x : 0 <= d -> zlen (fixed d x) = ndigits (rounded d x / 10 ^ d) + if d =? 0 then 0 else d + 1.
Proof.
  intros D. unfold fixed. fold (rounded d x). rewrite zlen_app. unfold ndigits at 1. f_equal. destruct (Z.eqb_spec d 0) as [->|N]; [reflexivity|].
  change (46%N :: ?l) with ([46%N] ++ l). rewrite zlen_app, zlen_rjust by lia. change (zlen [46%N]) with 1.
  assert (0 < 10 ^ d) by (apply Z.pow_pos_nonneg; lia). pose proof (Z.mod_pos_bound (rounded d x) (10 ^ d) ltac:(lia)).
  pose proof (ndigits_le (rounded d x mod 10 ^ d) d ltac:(lia) ltac:(lia)). unfold ndigits in *. lia.
Qed.

(** ** what it says *)
Lemma digits_all_dec s : Forall (fun c => (48 <= c /\ c <= 57)%N) s -> digit_values s = Some (map (fun c => (c - 48)%N) s) /\
  forallb (fun d => (d <? 10)%N) (map (fun c => (c - 48)%N) s) = true.
Proof.
  induction 1 as [|c s Hc Hs [IH1 IH2]]; [split; reflexivity|]. cbn [digit_values map forallb]. rewrite IH1, IH2.
  unfold digit_value. replace (48 <=? c)%N with true by (symmetry; apply N.leb_le; lia). replace (c <=? 57)%N with true by (symmetry; apply N.leb_le; lia).
  cbn [andb]. split; [reflexivity|]. rewrite andb_true_r. apply N.ltb_lt. lia.
Qed.
Lemma num_value_zeros k ds : num_value 10 (repeat 0%N k ++ ds) = num_value 10 ds.
Proof. unfold num_value. rewrite fold_left_app. f_equal. induction k; [reflexivity|]. cbn [repeat fold_left]. exact IHk. Qed.
Lemma map_zeros k : map (fun c => (c - 48)%N) (repeat 48%N k) = repeat 0%N k.
Proof. induction k; [reflexivity|]. cbn [repeat map]. now rewrite IHk. Qed.
Lemma read_padded w n : read_number 10 (rjust 48 w (dec n)) = Some n.
Proof.
  unfold rjust. generalize (w - length (dec n))%nat as k. intros k.
  assert (D : Forall (fun c => (48 <= c /\ c <= 57)%N) (repeat 48%N k ++ dec n)).
  { apply Forall_app. split; [|apply dec_digits]. apply Forall_forall. intros c Hc. apply repeat_spec in Hc. subst. lia. }
  destruct (digits_all_dec _ D) as [A B]. unfold read_number. rewrite A, B.
  destruct (repeat 48%N k ++ dec n) eqn:E; [apply app_eq_nil in E; now pose proof (dec_nonempty n)|]. rewrite <- E. f_equal.
  rewrite map_app, map_zeros.
  rewrite num_value_zeros. pose proof (read_dec n) as R. unfold read_number in R.
  destruct (digits_all_dec _ (dec_digits n)) as [A' B']. rewrite A', B' in R. destruct (dec n); congruence.
Qed.
Definition is_digit (c : N) : Prop := (48 <= c /\ c <= 57)%N.
Lemma rjust_digits w n : Forall is_digit (rjust 48 w (dec n)).
Proof. apply Forall_app. split; [|apply dec_digits]. apply Forall_forall. intros c Hc. apply repeat_spec in Hc. subst. unfold is_digit. lia. Qed.
Lemma digit_not c s : Forall is_digit s -> ~ is_digit c -> ~ In c s.
Proof. intros H N K. rewrite Forall_forall in H. exact (N (H c K)). Qed.
Lemma read_fixed_fixed d x : 0 <= d -> (0 <= x)%Q -> exists q, read_fixed (fixed d x) = Some q /\ (q == inject_Z (rounded d x) * p10 (- d))%Q.
Proof.
  intros D X. unfold fixed. fold (rounded d x). set (r := rounded d x).
  assert (P : 0 < 10 ^ d) by (apply Z.pow_pos_nonneg; lia).
  assert (R : 0 <= r). { apply round_nonneg. apply Qmult_le_0_compat; [exact X|]. apply Qlt_le_weak. change 0%Q with (inject_Z 0). rewrite <- Zlt_Qlt. exact P. }
  assert (R1 : 0 <= r / 10 ^ d) by (apply Z.div_pos; lia). pose proof (Z.mod_pos_bound r (10 ^ d) P) as R2.
  unfold read_fixed. destruct (Z.eqb_spec d 0) as [->|N].
  - rewrite app_nil_r, split_on_none; [|apply digit_not; [apply dec_digits|unfold is_digit; lia]]. rewrite read_dec. cbn [option_map].
    eexists. split; [reflexivity|]. rewrite Z2N.id by exact R1. rewrite Z.div_1_r. change (p10 (- 0)) with 1%Q. lra.
  - assert (ND : ~ is_digit 46%N) by (unfold is_digit; lia).
    rewrite split_on_app by (apply digit_not; [apply dec_digits|exact ND]). rewrite split_on_none by (apply digit_not; [apply rjust_digits|exact ND]).
    rewrite read_dec, read_padded. eexists. split; [reflexivity|]. rewrite !Z2N.id by lia.
    replace (Z.of_nat (length (rjust 48 (Z.to_nat d) (dec (Z.to_N (r mod 10 ^ d)))))) with d.
    + rewrite (Z.div_mod r (10 ^ d)) at 3 by lia. rewrite inj_add, inject_Z_mult. rewrite p10_inj by lia. pose proof (p10_opp d) as O.
      transitivity (inject_Z (r / 10 ^ d) * (p10 d * p10 (- d)) + inject_Z (r mod 10 ^ d) * p10 (- d))%Q; [rewrite O; ring|ring].
    + pose proof (zlen_rjust 48 d (dec (Z.to_N (r mod 10 ^ d))) ltac:(lia)) as L. unfold zlen at 1 in L.
      pose proof (ndigits_le (r mod 10 ^ d) d ltac:(lia) ltac:(lia)) as K. unfold ndigits in K. lia.
Qed.
Lemma rounded_near d x : 0 <= d -> (Qabs (inject_Z (rounded d x) * p10 (- d) - x) <= (1 # 2) * p10 (- d))%Q.
Proof.
  intros D. pose proof (round_bounds (x * inject_Z (10 ^ d))) as [A B]. fold (rounded d x) in A, B. rewrite p10_inj in A, B by exact D.
  pose proof (p10_opp d) as O. pose proof (p10_pos (- d)) as X.
  assert (E : (x * p10 d * p10 (- d) == x)%Q) by (transitivity (x * (p10 d * p10 (- d)))%Q; [ring|rewrite O; ring]).
  apply (Qmult_le_compat_r _ _ (p10 (- d))) in A; [|lra]. apply (Qmult_le_compat_r _ _ (p10 (- d))) in B; [|lra].
  rewrite E in A, B. apply Qabs_Qle_condition. split; lra.
Qed.

(** * Digits before the point *)
Lemma pow_pos d : 0 <= d -> 0 < 10 ^ d. Proof. intros; apply Z.pow_pos_nonneg; lia. Qed.
Lemma rounded_lo d x e : 0 <= d -> 0 <= e -> (p10 e <= x)%Q -> 10 ^ (e + d) <= rounded d x.
Proof.
  intros D E H. apply round_ge. rewrite Z.pow_add_r by lia. rewrite inject_Z_mult. apply Qmult_le_compat_r.
  - rewrite p10_inj by lia. exact H.
  - apply Qlt_le_weak. change 0%Q with (inject_Z 0). rewrite <- Zlt_Qlt. now apply pow_pos.
Qed.
Lemma rounded_hi d x e : 0 <= d -> 0 <= e -> (x <= p10 e)%Q -> rounded d x <= 10 ^ (e + d).
Proof.
  intros D E H. apply round_le. rewrite Z.pow_add_r by lia. rewrite inject_Z_mult. apply Qmult_le_compat_r.
  - rewrite p10_inj by lia. exact H.
  - apply Qlt_le_weak. change 0%Q with (inject_Z 0). rewrite <- Zlt_Qlt. now apply pow_pos.
Qed.
Lemma even_pow k : 1 <= k -> Z.even (10 ^ k) = true.
Proof. intros H. rewrite Z.even_pow by lia. reflexivity. Qed.
Lemma rounded_up d x e : 0 <= d -> 0 <= e -> 10 ^ (e + 1 + d) <= rounded d x <-> (p10 (e + 1) - (1 # 2) * p10 (- d) <= x)%Q.
Proof.
  intros D E. unfold rounded. rewrite round_reaches by (apply even_pow; lia). rewrite Z.pow_add_r by lia. rewrite inject_Z_mult, !p10_inj by lia.
  pose proof (p10_opp d) as O. pose proof (p10_pos d) as P. pose proof (p10_pos (- d)) as X.
  assert (F : (x * p10 d * p10 (- d) == x)%Q) by (transitivity (x * (p10 d * p10 (- d)))%Q; [ring|rewrite O; ring]).
  assert (G : (p10 (e + 1) * p10 d * p10 (- d) == p10 (e + 1))%Q) by (transitivity (p10 (e + 1) * (p10 d * p10 (- d)))%Q; [ring|rewrite O; ring]).
  split; intros H.
  - apply (Qmult_le_compat_r _ _ (p10 (- d))) in H; [|lra]. rewrite F in H. lra.
  - apply (Qmult_le_compat_r _ _ (p10 d)) in H; [|lra]. lra.
Qed.
Lemma int_part d x e : 0 <= d -> 0 <= e -> magnitude x e ->
  (ndigits (rounded d x / 10 ^ d) = e + 1 \/ ndigits (rounded d x / 10 ^ d) = e + 2) /\
  (ndigits (rounded d x / 10 ^ d) = e + 2 <-> (p10 (e + 1) - (1 # 2) * p10 (- d) <= x)%Q).
Proof.
  intros D E [M1 M2]. pose proof (rounded_lo d x e D E M1) as L. pose proof (rounded_hi d x (e + 1) D ltac:(lia) (Qlt_le_weak _ _ M2)) as U.
  rewrite <- rounded_up by assumption. set (r := rounded d x) in *. rewrite Z.pow_add_r in L by lia. pose proof (pow_pos d D) as P. pose proof (pow_pos e E) as PE.
  destruct (Z.lt_ge_cases r (10 ^ (e + 1 + d))) as [C|C].
  - rewrite Z.pow_add_r in C by lia.
    assert (N : ndigits (r / 10 ^ d) = e + 1).
    { apply ndigits_unique.
      - apply Z.div_str_pos. nia.
      - replace (e + 1 - 1) with e by lia. split; [apply Z.div_le_lower_bound; lia|apply Z.div_lt_upper_bound; lia]. }
    rewrite N. split; [now left|]. rewrite Z.pow_add_r by lia. split; intros K; lia.
  - assert (Q1 : r = 10 ^ (e + 1 + d)) by lia. assert (N : ndigits (r / 10 ^ d) = e + 2).
    { rewrite Q1, Z.pow_add_r, Z.div_mul by lia. apply ndigits_unique; [apply pow_pos; lia|].
      replace (e + 2 - 1) with (e + 1) by lia. split; [lia|]. apply Z.pow_lt_mono_r; lia. }
    rewrite N. split; [now right|]. split; intros K; lia.
Qed.
Lemma int_part_small d x : 0 <= d -> (0 <= x)%Q -> (x <= 1)%Q -> ndigits (rounded d x / 10 ^ d) = 1.
Proof.
  intros D X1 X2. pose proof (rounded_hi d x 0 D ltac:(lia) X2) as U. pose proof (pow_pos d D) as P. rewrite Z.add_0_l in U.
  assert (L : 0 <= rounded d x). { apply round_nonneg. apply Qmult_le_0_compat; [exact X1|]. apply Qlt_le_weak. change 0%Q with (inject_Z 0). rewrite <- Zlt_Qlt. exact P. }
  apply ndigits_small. split; [apply Z.div_pos; lia|]. apply Z.div_lt_upper_bound; lia.
Qed.

(** * Numerals: blanks, then digits and perhaps a point *)
Definition numeral (s : str) (q : Q) : Prop :=
  exists k t q', s = repeat 32%N k ++ t /\ (exists c u, t = c :: u /\ is_digit c) /\ Forall (fun c => is_digit c \/ c = 46%N) t /\ read_fixed t = Some q' /\ (q' == q)%Q.
Lemma fixed_chars d x : Forall (fun c => is_digit c \/ c = 46%N) (fixed d x).
Proof.
  unfold fixed. apply Forall_app. split; [eapply Forall_impl; [|apply dec_digits]; intros c H; left; exact H|].
  destruct (d =? 0); [constructor|]. constructor; [now right|]. eapply Forall_impl; [|apply rjust_digits]. intros c H; left; exact H.
Qed.
Lemma dec_first n : exists c u, dec n = c :: u /\ is_digit c.
Proof. pose proof (dec_digits n) as D. pose proof (dec_nonempty n). destruct (dec n) as [|c u]; [easy|]. inversion D; subst. now exists c, u. Qed.
Lemma fixed_first d x : exists c u, fixed d x = c :: u /\ is_digit c.
Proof. unfold fixed. destruct (dec_first (Z.to_N (round_even (x * inject_Z (10 ^ d)) / 10 ^ d))) as (c & u & -> & H). cbn [app]. eauto. Qed.
Lemma numeral_fixed n d x : 0 <= d -> (0 <= x)%Q -> numeral (wide n (fixed d x)) (inject_Z (rounded d x) * p10 (- d)).
Proof.
  intros D X. destruct (read_fixed_fixed d x D X) as (q & R & E). unfold wide, rjust. eexists _, _, q. split; [reflexivity|].
  split; [apply fixed_first|]. split; [apply fixed_chars|]. now split.
Qed.
Lemma numeral_dec w n : 0 <= n -> numeral (wide w (zdec n)) (inject_Z n).
Proof.
  intros H. rewrite zdec_nonneg by exact H. unfold wide, rjust. eexists _, _, (inject_Z (Z.of_N (Z.to_N n))). split; [reflexivity|].
  split; [apply dec_first|]. split; [eapply Forall_impl; [|apply dec_digits]; intros c K; left; exact K|].
  split; [|rewrite Z2N.id by exact H; reflexivity]. unfold read_fixed. rewrite split_on_none, read_dec; [reflexivity|].
  apply digit_not; [apply dec_digits|unfold is_digit; lia].
Qed.
Lemma numeral_read s q : numeral s q -> exists q', read_float s = Some q' /\ (q' == q)%Q.
Proof.
  intros (k & t & q' & -> & (c & u & -> & Hc) & F & R & E). exists q'. split; [|exact E]. unfold read_float.
  rewrite skip_blanks_aligned by (exists c, u; split; [reflexivity|intros ->; unfold is_digit in Hc; lia]).
  assert (N101 : ~ In 101%N (c :: u)) by (intros K; rewrite Forall_forall in F; destruct (F _ K) as [[? ?]|?]; lia).
  assert (U : read_unsigned (c :: u) = Some q') by (unfold read_unsigned; now rewrite split_on_none).
  rewrite <- U. destruct Hc as [H1 H2].
  assert (c <> 45%N) by lia. clear - H. destruct c as [|p]; [reflexivity|].
  do 6 (try (destruct p as [p|p|]; try reflexivity)). now contradiction H.
Qed.
Lemma read_int_zdec e : read_int (zdec e) = Some e.
Proof.
  unfold zdec. destruct (Z.ltb_spec e 0).
  - unfold read_int. rewrite read_dec. cbn [option_map]. rewrite Z2N.id by lia. f_equal. lia.
  - destruct (dec_first (Z.to_N e)) as (c & u & E & Hc). unfold read_int. pose proof (read_dec (Z.to_N e)) as R.
    rewrite E in *. assert (K : c <> 45%N) by (unfold is_digit in Hc; lia).
    assert (G : option_map Z.of_N (read_number 10 (c :: u)) = Some e) by (rewrite R; cbn [option_map]; f_equal; lia).
    rewrite <- G at 1. clear - K. destruct c as [|p]; [reflexivity|]. do 6 (try (destruct p as [p|p|]; try reflexivity)). now contradiction K.
Qed.
Lemma numeral_exp s q e : numeral s q -> exists q', read_float (s ++ [101%N] ++ zdec e) = Some q' /\ (q' == q * p10 e)%Q.
Proof.
  intros (k & t & q' & -> & (c & u & -> & Hc) & F & R & E). exists (q' * p10 e)%Q. split; [|now rewrite E]. unfold read_float.
  rewrite <- app_assoc, skip_blanks_aligned by (exists c, (u ++ [101%N] ++ zdec e); split; [reflexivity|intros ->; unfold is_digit in Hc; lia]).
  assert (N101 : ~ In 101%N (c :: u)) by (intros K; rewrite Forall_forall in F; destruct (F _ K) as [[? ?]|?]; lia).
  assert (NZ : ~ In 101%N (zdec e)).
  { unfold zdec. pose proof (dec_digits (Z.to_N (- e))) as D1. pose proof (dec_digits (Z.to_N e)) as D2. rewrite Forall_forall in D1, D2.
    destruct (e <? 0); intros K; [destruct K as [K|K]; [discriminate|]; specialize (D1 _ K)|specialize (D2 _ K)]; cbn in *; lia. }
  assert (U : read_unsigned ((c :: u) ++ [101%N] ++ zdec e) = Some (q' * p10 e)%Q).
  { unfold read_unsigned. cbn [app]. change (c :: u ++ 101%N :: zdec e) with ((c :: u) ++ 101%N :: zdec e). rewrite split_on_app by exact N101.
    rewrite split_on_none by exact NZ. now rewrite R, read_int_zdec. }
  rewrite <- U. destruct Hc as [H1 H2]. cbn [app].
  assert (c <> 45%N) by lia. clear - H. destruct c as [|p]; [reflexivity|].
  do 6 (try (destruct p as [p|p|]; try reflexivity)). now contradiction H.
Qed.

(** * Without exponent *)
Lemma plain_spec sign a n e : 1 <= n -> e < n -> (0 < a)%Q -> magnitude a e ->
  exists s q, plain_float sign a n e = Ok (sign ++ s) /\ numeral s q /\
    (zlen s = n \/ zlen s = n + 1) /\ (zlen s = n + 1 <-> 0 <= e /\ rounds_up a e (n - e - 2)) /\
    (int_digits e = n -> (Qabs (q - a) < 1)%Q) /\
    (int_digits e <> n -> (Qabs (q - a) <= (1 # 2) * p10 (- (n - int_digits e - 1)))%Q).
Proof.
  intros Hn He Ha M. unfold plain_float. fold (int_digits e). destruct (Z.eqb_spec (int_digits e) n) as [I|I].
  - assert (NU : ~ (0 <= e /\ rounds_up a e (n - e - 2))) by (unfold rounds_up, int_digits in *; intros [K1 [K2 _]]; lia).
    pose proof (fixed_len 0 a ltac:(lia)) as L. rewrite Z.eqb_refl, Z.add_0_r in L.
    assert (W : zlen (wide n (fixed 0 a)) = Z.max n (zlen (fixed 0 a))) by (unfold wide; apply zlen_rjust; lia).
    destruct (Z.ltb_spec (int_digits e) (zlen (wide n (fixed 0 a)))) as [B|B].
    + assert (E0 : 0 <= e).
      { destruct (Z.lt_ge_cases e 0) as [C|C]; [|lia]. exfalso. rewrite int_part_small in L; [unfold int_digits in *; lia|lia|lra|].
        destruct M as [_ M2]. pose proof (p10_le (e + 1) 0 ltac:(lia)) as P. change (p10 0) with 1%Q in P. lra. }
      assert (F : 10 ^ e <= Qfloor a < 10 ^ (e + 1)).
      { destruct M as [M1 M2]. split; [apply floor_le; rewrite p10_inj by lia; exact M1|apply floor_lt; rewrite p10_inj by lia; exact M2]. }
      pose proof (pow_pos e E0) as PE.
      assert (LZ : zlen (wide n (zdec (Qfloor a))) = n).
      { unfold wide. rewrite zlen_rjust by lia. rewrite zdec_nonneg by lia. fold (ndigits (Qfloor a)).
        rewrite (ndigits_unique (Qfloor a) (e + 1)) by (replace (e + 1 - 1) with e by lia; lia). unfold int_digits in *. lia. }
      exists (wide n (zdec (Qfloor a))), (inject_Z (Qfloor a)). split; [reflexivity|]. split; [apply numeral_dec; lia|].
      split; [now left|]. split; [split; [lia|contradiction]|]. split; [|contradiction]. intros _.
      pose proof (Qfloor_le a) as A. pose proof (Qlt_floor a) as B2. rewrite inj_add, inj_1 in B2. apply Qabs_Qlt_condition. split; lra.
    + exists (wide n (fixed 0 a)), (inject_Z (rounded 0 a) * p10 (- 0))%Q. split; [reflexivity|].
      split; [apply numeral_fixed; [lia|lra]|]. split; [left; lia|]. split; [split; [lia|contradiction]|]. split; [|contradiction]. intros _.
      pose proof (rounded_near 0 a ltac:(lia)) as R. change (p10 (- 0)) with 1%Q in *. lra.
  - set (d := n - int_digits e - 1). assert (D : 0 <= d) by (unfold d, int_digits in *; lia).
    destruct (Z.ltb_spec d 0); [lia|]. exists (wide n (fixed d a)), (inject_Z (rounded d a) * p10 (- d))%Q. split; [reflexivity|].
    split; [apply numeral_fixed; [lia|lra]|].
    assert (W : zlen (wide n (fixed d a)) = Z.max n (zlen (fixed d a))) by (unfold wide; apply zlen_rjust; lia).
    pose proof (fixed_len d a D) as L. rewrite W, L. destruct (Z.lt_ge_cases e 0) as [C|C].
    + rewrite int_part_small; [|lia|lra|].
      * assert (X : Z.max n (1 + (if d =? 0 then 0 else d + 1)) = n) by (destruct (Z.eqb_spec d 0); unfold d, int_digits in *; lia).
        rewrite X. split; [now left|]. split; [split; [lia|lia]|]. split; [contradiction|]. intros _. now apply rounded_near.
      * destruct M as [_ M2]. pose proof (p10_le (e + 1) 0 ltac:(lia)) as P. change (p10 0) with 1%Q in P. lra.
    + pose proof (int_part d a e D C M) as [P1 P2]. assert (Ed : n - e - 2 = d) by (unfold d, int_digits in *; lia). rewrite Ed. unfold rounds_up.
      rewrite <- P2. assert (Y : n = e + 2 + d) by lia.
      split; [destruct (Z.eqb_spec d 0); lia|]. split; [destruct (Z.eqb_spec d 0); lia|]. split; [contradiction|]. intros _. now apply rounded_near.
Qed.
