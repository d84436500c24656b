(** Facts about rounded logarithms *)
From Coq Require Import List Arith NArith ZArith QArith Qabs Qround Qpower Bool Lia Lqa.
From Verif.Model Require Import Base Color TimeDelta TimeFloat FloatText FloatDoubles.
From Verif.Spec Require Import Numbers FloatText Doubles Logarithm.
From Verif.Proof Require Import BaseFacts FloatFacts FloatClaims UnitFacts UnitClaims RoundFacts FloatDoubleFacts.
Import ListNotations.
Local Open Scope Q_scope.

(** ** powers *)
Lemma ppow_S a (n : positive) : ~ a == 0 -> a ^ Zpos (Pos.succ n) == a ^ Zpos n * a.
Proof. intros H. rewrite Pos2Z.inj_succ. unfold Z.succ. rewrite Qpower_plus by exact H. now rewrite Qpower_1_r. Qed.
Lemma ppow_pos a (n : Z) : 0 < a -> 0 < a ^ n.
Proof. intros H. now apply Qpower_0_lt. Qed.
Lemma ppow_lt a b (n : positive) : 0 < a -> a < b -> a ^ Zpos n < b ^ Zpos n.
Proof.
  intros A B. induction n as [|n IH] using Pos.peano_ind; [now rewrite !Qpower_1_r|].
  rewrite !ppow_S by lra. pose proof (ppow_pos a (Zpos n) A). apply (Qlt_trans _ (b ^ Zpos n * a)); [now apply Qmult_lt_r|].
  rewrite !(Qmult_comm (b ^ Zpos n)). apply Qmult_lt_r; [lra|exact B].
Qed.
Lemma ppow_le a b (n : positive) : 0 < a -> a <= b -> a ^ Zpos n <= b ^ Zpos n.
Proof.
  intros A B. destruct (Qlt_le_dec a b) as [L|L]; [apply Qlt_le_weak; now apply ppow_lt|].
  assert (E : a == b) by lra. rewrite E. lra.
Qed.
Lemma ppow_lt_iff a b (n : positive) : 0 < a -> 0 < b -> (a ^ Zpos n < b ^ Zpos n <-> a < b).
Proof.
  intros A B. split; [|now apply ppow_lt]. intros H. destruct (Qlt_le_dec a b) as [L|L]; [exact L|]. pose proof (ppow_le b a n B L). lra.
Qed.
Lemma bernoulli d (n : positive) : - (1) <= d -> ~ 1 + d == 0 -> 1 + inject_Z (Zpos n) * d <= (1 + d) ^ Zpos n.
Proof.
  intros H NZ. induction n as [|n IH] using Pos.peano_ind; [rewrite Qpower_1_r; change (inject_Z 1) with 1; lra|].
  rewrite ppow_S by exact NZ. rewrite Pos2Z.inj_succ. unfold Z.succ. rewrite inject_Z_plus. change (inject_Z 1) with 1.
  assert (N : 0 <= inject_Z (Zpos n)) by (change 0 with (inject_Z 0); rewrite <- Zle_Qle; lia).
  assert (K : (1 + inject_Z (Zpos n) * d) * (1 + d) <= (1 + d) ^ Zpos n * (1 + d)) by (apply Qmult_le_compat_r; lra).
  assert (S : 0 <= inject_Z (Zpos n) * (d * d)) by (apply Qmult_le_0_compat; [exact N|nra]). lra.
Qed.
Lemma bernoulli_below d (n : positive) : 0 < d -> d < 1 -> (1 - d) ^ Zpos n * (1 + inject_Z (Zpos n) * d) <= 1.
Proof.
  intros A B. pose proof (bernoulli d n ltac:(lra) ltac:(lra)) as H. assert (P : 0 < (1 - d) ^ Zpos n) by (apply ppow_pos; lra).
  assert (E : (1 - d) ^ Zpos n * (1 + d) ^ Zpos n <= 1).
  { rewrite <- Qmult_power. assert (Q1 : (1 - d) * (1 + d) <= 1) by nra. assert (Q0 : 0 < (1 - d) * (1 + d)) by nra.
    pose proof (ppow_le _ _ n Q0 Q1) as K. rewrite Qpower_1 in K. exact K. }
  assert (K : (1 - d) ^ Zpos n * (1 + inject_Z (Zpos n) * d) <= (1 - d) ^ Zpos n * (1 + d) ^ Zpos n); [|lra].
  rewrite !(Qmult_comm ((1 - d) ^ Zpos n)). apply Qmult_le_compat_r; lra.
Qed.

(** ** logarithms above a fraction *)
Lemma p10_mul a (n : positive) : p10 (a * Zpos n) == p10 a ^ Zpos n.
Proof. unfold p10. now rewrite Qpower_mult. Qed.
Lemma log_above_frac x s p q : 0 < x -> s == p # q -> (log_above x s <-> p10 p < x ^ Zpos q).
Proof.
  intros X E. unfold log_above. destruct s as [n d]. cbn [Qnum Qden]. unfold Qeq in E. cbn [Qnum Qden] in E.
  rewrite <- (ppow_lt_iff (p10 n) (x ^ Zpos d) q) by (try apply p10_pos; now apply ppow_pos).
  rewrite <- (ppow_lt_iff (p10 p) (x ^ Zpos q) d) by (try apply p10_pos; now apply ppow_pos).
  rewrite <- !p10_mul, E, <- !Qpower_mult. rewrite (Z.mul_comm (Zpos d)). reflexivity.
Qed.
Lemma log_above_ext x s t : 0 < x -> s == t -> log_above x s -> log_above x t.
Proof. intros X E H. destruct t as [p q]. apply (log_above_frac x (p # q) p q X (Qeq_refl _)). now apply (log_above_frac x s p q X E). Qed.
Lemma log_above_le x s t : 0 < x -> t <= s -> log_above x s -> log_above x t.
Proof.
  intros X L H. destruct s as [n d], t as [p q]. unfold log_above, Qle in *. cbn [Qnum Qden] in *.
  apply (ppow_lt_iff (p10 p) (x ^ Zpos q) d); [apply p10_pos|now apply ppow_pos|].
  apply (ppow_lt_iff (p10 n) (x ^ Zpos d) q) in H; [|apply p10_pos|now apply ppow_pos].
  rewrite <- p10_mul in *. rewrite <- Qpower_mult in *. rewrite (Z.mul_comm (Zpos q)). apply (Qle_lt_trans _ (p10 (n * Zpos q))); [now apply p10_le|exact H].
Qed.
Lemma log_above_below x s (e : Z) : p10 e <= x -> s < inject_Z e -> log_above x s.
Proof.
  intros H L. destruct s as [n d]. unfold log_above, Qlt in *. cbn [Qnum Qden inject_Z] in *.
  apply (Qlt_le_trans _ (p10 (e * Zpos d))); [apply p10_lt; lia|]. rewrite p10_mul. apply ppow_le; [apply p10_pos|exact H].
Qed.
Lemma log_above_not x s (e : Z) : 0 < x -> x <= p10 e -> inject_Z e <= s -> ~ log_above x s.
Proof.
  intros X H L. destruct s as [n d]. unfold log_above, Qle in *. cbn [Qnum Qden inject_Z] in *. intros K.
  assert (p10 (e * Zpos d) <= p10 n) as Q1 by (apply p10_le; lia). rewrite p10_mul in Q1. pose proof (ppow_le x (p10 e) d X H). lra.
Qed.

(** ** range of the magnitude *)
Lemma double_least x : double x -> 0 < x -> pow2 (-1074) <= x.
Proof.
  intros (m & e & _ & E & X) P. fold (pow2 e) in X. pose proof (pow2_pos e) as PE. assert (M : (1 <= m)%Z).
  { destruct (Z_lt_dec 0 m) as [|N]; [lia|exfalso]. assert (inject_Z m <= 0) by (change 0 with (inject_Z 0); rewrite <- Zle_Qle; lia). nra. }
  assert (1 <= inject_Z m) by (change 1 with (inject_Z 1); rewrite <- Zle_Qle; exact M). pose proof (pow2_le (-1074) e ltac:(lia)). rewrite X. nra.
Qed.
Lemma double_magnitude x e : double x -> magnitude x e -> (-400 < e < 400)%Z.
Proof.
  intros D [A B]. pose proof (p10_pos e). pose proof (double_least x D ltac:(lra)) as L. pose proof (double_bound x D) as U. rewrite Qabs_pos in U by lra. split.
  - assert (p10 (-400) < p10 (e + 1)) as K; [|apply p10_lt_inv in K].
    { apply (Qlt_le_trans _ (pow2 (-1074))); [vm_compute; reflexivity|lra]. }
    assert (p10 (-399) < p10 (e + 1)) as K2; [|apply p10_lt_inv in K2; lia]. apply (Qlt_le_trans _ (pow2 (-1074))); [vm_compute; reflexivity|lra].
  - apply p10_lt_inv. apply (Qle_lt_trans _ x); [exact A|]. apply (Qlt_trans _ (pow2 1024)); [exact U|vm_compute; reflexivity].
Qed.

(** ** when the logarithm is rounded up *)
Lemma rounds_le x e e' : p10 e <= x -> (e' <= e)%Z -> log_rounds_from x e'.
Proof.
  intros H L r D R. apply (log_above_below x _ e H). assert (inject_Z e' <= inject_Z e) by now rewrite <- Zle_Qle.
  apply Qlt_shift_div_r; lra.
Qed.
Lemma rounds_not x e e' : double x -> magnitude x e -> (e + 2 <= e')%Z -> ~ log_rounds_from x e'.
Proof.
  intros D M L H. pose proof (double_magnitude x e D M) as R. destruct M as [A B]. pose proof (p10_pos e).
  apply (log_above_not x ((inject_Z (e + 1) + inject_Z e') / 2) (e + 1) ltac:(lra)); [lra| |].
  - assert (inject_Z (e + 1) <= inject_Z e') by (rewrite <- Zle_Qle; lia). apply Qle_shift_div_l; lra.
  - apply H; [apply double_Z; lia|]. rewrite <- Zlt_Qlt. lia.
Qed.
Lemma rounds_just_below x e : double x -> magnitude x e -> log_rounds_from x (e + 1) -> just_below x (p10 (e + 1)).
Proof.
  intros D M H. pose proof (double_magnitude x e D M) as R. destruct M as [A B]. pose proof (p10_pos e) as PE. pose proof (p10_pos (e + 1)) as P.
  split; [|exact B]. destruct (Qlt_le_dec x ((1 - (1 # 1099511627776)) * p10 (e + 1))) as [L|L]; [exfalso|exact L].
  set (N := 17592186044416%positive).
  assert (K : log_above x (((e + 1) * Zpos N - 1) # N)).
  { apply (log_above_ext x (((((e + 1) * 8796093022208 - 1) # 8796093022208) + inject_Z (e + 1)) / 2)); [lra| |].
    - assert (F : forall a d, a # d == inject_Z a / inject_Z (Zpos d)) by (intros; apply Qmake_Qdiv). rewrite !F. unfold N, Z.sub. rewrite !inject_Z_plus, !inject_Z_mult.
      change (inject_Z (Z.opp 1)) with (- (1)). change (inject_Z 17592186044416) with (2 * inject_Z 8796093022208). rewrite inject_Z_plus. field.
    - apply H.
      + exists ((e + 1) * 8796093022208 - 1)%Z, (-43)%Z. split; [lia|]. split; [lia|].
        change ((2 # 1) ^ (-43)) with (1 # 8796093022208). unfold Qeq, Qmult, inject_Z. cbn [Qnum Qden]. lia.
      + unfold Qlt. cbn [Qnum Qden inject_Z]. lia. }
  unfold log_above in K. cbn [Qnum Qden] in K.
  assert (U : x ^ Zpos N < ((1 - (1 # 1099511627776)) * p10 (e + 1)) ^ Zpos N) by (apply ppow_lt; [lra|exact L]).
  rewrite Qmult_power in U. pose proof (bernoulli_below (1 # 1099511627776) N ltac:(reflexivity) ltac:(reflexivity)) as BB.
  change (1 + inject_Z (Zpos N) * (1 # 1099511627776)) with (1 + (17592186044416 # 1099511627776)) in BB.
  rewrite <- p10_mul in U. pose proof (p10_pos ((e + 1) * Zpos N)) as PN.
  assert (S : p10 ((e + 1) * Zpos N) == 10 * p10 ((e + 1) * Zpos N - 1)).
  { rewrite <- p10_S. now replace ((e + 1) * Zpos N - 1 + 1)%Z with ((e + 1) * Zpos N)%Z by lia. }
  set (y := (1 - (1 # 1099511627776)) ^ Zpos N) in *. assert (Y : y <= 1 # 17) by lra.
  assert (Y0 : 0 < y) by (apply ppow_pos; reflexivity). clearbody y.
  assert (y * p10 ((e + 1) * Zpos N) <= (1 # 17) * p10 ((e + 1) * Zpos N)) by (apply Qmult_le_compat_r; lra). lra.
Qed.
Lemma correct_accurate lg : correct_log lg -> accurate lg.
Proof.
  intros C x e D M. pose proof M as [A B]. pose proof (p10_pos e) as P. assert (X : 0 < x) by lra.
  destruct (proj1 (C x (lg x) D X) eq_refl) as [H1 H2].
  assert (L : (e <= lg x)%Z). { destruct (Z_lt_dec (lg x) e) as [L|]; [exfalso|lia]. apply H2. apply (rounds_le x e); [exact A|lia]. }
  assert (U : (lg x < e + 2)%Z). { destruct (Z_le_dec (e + 2) (lg x)) as [U|]; [exfalso|lia]. exact (rounds_not x e (lg x) D M U H1). }
  destruct (Z.eq_dec (lg x) e) as [E|E]; [now left|right]. assert (E1 : lg x = (e + 1)%Z) by lia. split; [exact E1|]. rewrite E1 in H1. now apply rounds_just_below.
Qed.

(** ** the double below an integer *)
Lemma large_multiple r j : double r -> pow2 j <= Qabs r -> exists n, r == inject_Z n * pow2 (j - 52).
Proof.
  intros (m & e & M & E & X) H. fold (pow2 e) in X. destruct (Z_le_dec (j - 52) e) as [L|L].
  - destruct (pow2_multiple e (j - 52) L) as [k K]. exists (m * k)%Z. rewrite X, K, inject_Z_mult. ring.
  - exfalso. pose proof (pow2_pos e) as P. rewrite (Qabs_wd _ _ X), Qabs_Qmult, (Qabs_pos (pow2 e)) in H by lra.
    assert (A : Qabs (inject_Z m) < inject_Z (2 ^ 53)) by (change (Qabs (inject_Z m)) with (inject_Z (Z.abs m)); rewrite <- Zlt_Qlt; exact M).
    pose proof (pow2_le e (j - 53) ltac:(lia)) as P2. assert (J : pow2 j == inject_Z (2 ^ 53) * pow2 (j - 53)).
    { rewrite <- pow2_Z by lia. rewrite <- pow2_add. now replace (53 + (j - 53))%Z with j by lia. }
    assert (Qabs (inject_Z m) * pow2 e < inject_Z (2 ^ 53) * pow2 e) by (apply Qmult_lt_r; assumption).
    assert (inject_Z (2 ^ 53) * pow2 e <= inject_Z (2 ^ 53) * pow2 (j - 53)) by (rewrite !(Qmult_comm (inject_Z (2 ^ 53))); apply Qmult_le_compat_r; [exact P2|discriminate]). lra.
Qed.
Definition below_exp (e : Z) : Z := (if 2 <=? e then Z.log2 (e - 1) else if e =? 1 then -1 else if e =? 0 then -1022 else Z.log2 (- e))%Z.
Lemma multiple_below r e j : (j <= 52)%Z -> double r -> r < inject_Z e -> pow2 j <= Qabs r -> r <= inject_Z e - pow2 (j - 52).
Proof.
  intros J D L H. destruct (large_multiple r j D H) as [n N]. pose proof (pow2_pos (j - 52)) as P.
  destruct (pow2_multiple 0 (j - 52) ltac:(lia)) as [k K]. change (pow2 0) with 1 in K.
  assert (E : inject_Z e == inject_Z (e * k) * pow2 (j - 52)) by (rewrite inject_Z_mult, <- Qmult_assoc, <- K; ring).
  rewrite E, N in *. apply qmul_lt_inv in L; [|exact P]. rewrite <- Zlt_Qlt in L.
  assert (S : inject_Z n <= inject_Z (e * k - 1)) by (rewrite <- Zle_Qle; lia). apply (qmul_le _ _ (pow2 (j - 52))) in S; [|lra].
  rewrite inj_sub in S. change (inject_Z 1) with 1 in S. lra.
Qed.
Lemma below_spec e : (-1000 < e < 1000)%Z -> let g := pow2 (below_exp e - 52) in
  double (inject_Z e - g) /\ forall r, double r -> r < inject_Z e -> r <= inject_Z e - g.
Proof.
  intros R g. unfold g. clear g. unfold below_exp.
  assert (DB : forall j, (-1022 <= j <= 51)%Z -> (e = 0 \/ 0 <= 52 - j /\ Z.abs (e * 2 ^ (52 - j) - 1) < 2 ^ 53)%Z -> double (inject_Z e - pow2 (j - 52))).
  { intros j J H. destruct H as [-> | [H0 H]].
    - exists (-1)%Z, (j - 52)%Z. split; [cbn; lia|]. split; [lia|]. fold (pow2 (j - 52)). change (inject_Z 0) with 0. change (inject_Z (-1)) with (- (1)). ring.
    - exists (e * 2 ^ (52 - j) - 1)%Z, (j - 52)%Z. split; [exact H|]. split; [lia|]. fold (pow2 (j - 52)). rewrite inj_sub, inject_Z_mult.
      change (inject_Z 1) with 1. rewrite <- pow2_Z by exact H0. pose proof (pow2_opp (52 - j)) as O. replace (- (52 - j))%Z with (j - 52)%Z in O by lia.
      setoid_replace ((inject_Z e * pow2 (52 - j) - 1) * pow2 (j - 52)) with (inject_Z e * (pow2 (52 - j) * pow2 (j - 52)) - pow2 (j - 52)) by ring. rewrite O. ring. }
  destruct (Z.leb_spec 2 e) as [E|E]; [|destruct (Z.eqb_spec e 1) as [E1|E1]; [|destruct (Z.eqb_spec e 0) as [E0|E0]]].
  - pose proof (Z.log2_spec (e - 1) ltac:(lia)) as [L1 L2]. pose proof (Z.log2_nonneg (e - 1)) as J0. set (j := Z.log2 (e - 1)) in *.
    assert (J : (j < 10)%Z). { apply (Z.pow_lt_mono_r_iff 2); [lia|lia|]. change (2 ^ 10)%Z with 1024%Z. lia. }
    split.
    + apply DB; [lia|]. right. split; [lia|]. replace (2 ^ 53)%Z with (2 ^ (Z.succ j) * 2 ^ (52 - j))%Z by (rewrite <- Z.pow_add_r by lia; f_equal; lia).
      assert (0 < 2 ^ (52 - j))%Z by (apply Z.pow_pos_nonneg; lia). nia.
    + intros r D H. destruct (Qlt_le_dec r (pow2 j)) as [S|S].
      * rewrite pow2_Z in S by lia. pose proof (pow2_le (j - 52) 0 ltac:(lia)) as G. change (pow2 0) with 1 in G.
        assert (inject_Z (2 ^ j) <= inject_Z (e - 1)) as K by (rewrite <- Zle_Qle; exact L1). rewrite inj_sub in K. change (inject_Z 1) with 1 in K. lra.
      * pose proof (pow2_pos j). apply multiple_below; [lia|exact D|exact H|]. rewrite Qabs_pos by lra. exact S.
  - subst e. split; [apply DB; [lia|right; split; [lia|reflexivity]]|]. intros r D H. change (inject_Z 1) with 1 in *. destruct (Qlt_le_dec r (pow2 (-1))) as [S|S].
    * change (pow2 (-1)) with (1 # 2) in S. pose proof (pow2_le (-1 - 52) (-1) ltac:(lia)) as G. change (pow2 (-1)) with (1 # 2) in G. lra.
    * change 1 with (inject_Z 1). apply multiple_below; [lia|exact D|exact H|]. rewrite Qabs_pos; [exact S|]. change (pow2 (-1)) with (1 # 2) in S. lra.
  - subst e. split; [apply DB; [lia|now left]|]. intros r D H. change (inject_Z 0) with 0 in *. change (-1022 - 52)%Z with (-1074)%Z.
    assert (D' : double (- r)). { apply (double_ext (Qabs r)); [rewrite Qabs_neg by lra; reflexivity|now apply double_abs]. }
    pose proof (double_least (- r) D' ltac:(lra)). lra.
  - pose proof (Z.log2_spec (- e) ltac:(lia)) as [L1 L2]. pose proof (Z.log2_nonneg (- e)) as J0. set (j := Z.log2 (- e)) in *.
    assert (J : (j < 10)%Z). { apply (Z.pow_lt_mono_r_iff 2); [lia|lia|]. change (2 ^ 10)%Z with 1024%Z. lia. }
    split.
    + apply DB; [lia|]. right. split; [lia|]. replace (2 ^ 53)%Z with (2 ^ (Z.succ j) * 2 ^ (52 - j))%Z by (rewrite <- Z.pow_add_r by lia; f_equal; lia).
      assert (2 <= 2 ^ (52 - j))%Z by (change 2%Z with (2 ^ 1)%Z at 1; apply Z.pow_le_mono_r; lia). nia.
    + intros r D H. apply multiple_below; [lia|exact D|exact H|]. assert (inject_Z e < 0) by (change 0 with (inject_Z 0); rewrite <- Zlt_Qlt; lia).
      rewrite Qabs_neg by lra. rewrite pow2_Z by lia. assert (inject_Z (2 ^ j) <= inject_Z (- e)) as K by (rewrite <- Zle_Qle; exact L1). rewrite inject_Z_opp in K. lra.
Qed.

(** ** there is such a logarithm *)
Definition midpoint (e : Z) : Q := (inject_Z e - pow2 (below_exp e - 52) + inject_Z e) / 2.
Lemma rounds_iff x e : 0 < x -> (-1000 < e < 1000)%Z -> log_rounds_from x e <-> log_above x (midpoint e).
Proof.
  intros X R. destruct (below_spec e R) as [D B]. set (g := pow2 (below_exp e - 52)) in *. split.
  - intros H. assert (G : 0 < g) by apply pow2_pos. apply (H (inject_Z e - g)); [exact D|lra].
  - intros H r DR L. apply (log_above_le x (midpoint e)); [exact X| |exact H]. specialize (B r DR L). unfold midpoint. fold g.
    apply Qle_shift_div_l; [reflexivity|]. setoid_replace ((r + inject_Z e) / 2 * 2) with (r + inject_Z e) by field. lra.
Qed.
Definition best_log (x : Q) : Z :=
  let e := log10_floor x in if Qlt_le_dec (p10 (Qnum (midpoint (e + 1)))) (x ^ Zpos (Qden (midpoint (e + 1)))) then (e + 1)%Z else e.
Lemma best_correct : correct_log best_log.
Proof.
  intros x e' D X. pose proof (log_spec x X) as M. unfold best_log. set (e := log10_floor x) in *. pose proof (double_magnitude x e D M) as R.
  pose proof (rounds_iff x (e + 1) X ltac:(lia)) as I. unfold log_above in I.
  assert (LO : log_rounds_from x e' -> ~ log_rounds_from x (e' + 1) -> (e <= e' < e + 2)%Z).
  { intros H1 H2. split.
    - destruct (Z_lt_dec e' e) as [L|]; [exfalso|lia]. apply H2. apply (rounds_le x e); [apply M|lia].
    - destruct (Z_le_dec (e + 2) e') as [U|]; [exfalso|lia]. exact (rounds_not x e e' D M U H1). }
  destruct (Qlt_le_dec _ _) as [C|C].
  - pose proof (proj2 I C) as C2. clear C. rename C2 into C. split.
    + intros <-. split; [exact C|]. apply (rounds_not x e); [exact D|exact M|lia].
    + intros [H1 H2]. specialize (LO H1 H2). destruct (Z.eq_dec e' e) as [->|N]; [contradiction|lia].
  - assert (C' : ~ log_rounds_from x (e + 1)) by (intros K; exact (Qlt_not_le _ _ (proj1 I K) C)). split.
    + intros <-. split; [|exact C']. apply (rounds_le x e); [apply M|lia].
    + intros [H1 H2]. specialize (LO H1 H2). destruct (Z.eq_dec e' (e + 1)) as [->|N]; [contradiction|lia].
Qed.

(** ** numbers whose logarithm is rounded up *)
Lemma rounds_up_from x e j c (N : positive) : below_exp e = j -> (-1000 < e < 1000)%Z -> pow2 (j - 52) == 2 / inject_Z (Zpos N) ->
  0 < c -> c < 1 -> inject_Z (Zpos N) * c < 9 # 10 -> (1 - c) * p10 e <= x -> log_rounds_from x e.
Proof.
  intros J R G C0 C1 NC L. assert (P := p10_pos e). assert (X : 0 < x) by nra. apply (rounds_iff x e X R).
  apply (log_above_ext x ((e * Zpos N - 1) # N) _ X).
  { unfold midpoint. rewrite J, G. rewrite Qmake_Qdiv. unfold Z.sub. rewrite inject_Z_plus, inject_Z_mult. change (inject_Z (Z.opp 1)) with (- (1)). field.
    intros E. assert (0 < inject_Z (Zpos N)) by (change 0 with (inject_Z 0); rewrite <- Zlt_Qlt; lia). lra. }
  unfold log_above. cbn [Qnum Qden].
  assert (U : ((1 - c) * p10 e) ^ Zpos N <= x ^ Zpos N) by (apply ppow_le; [nra|exact L]). rewrite Qmult_power, <- p10_mul in U.
  pose proof (bernoulli (- c) N ltac:(lra) ltac:(lra)) as B. assert (E1 : 1 + - c == 1 - c) by ring. rewrite E1 in B. set (y := (1 - c) ^ Zpos N) in *.
  assert (S : p10 (e * Zpos N) == 10 * p10 (e * Zpos N - 1)).
  { rewrite <- p10_S. now replace (e * Zpos N - 1 + 1)%Z with (e * Zpos N)%Z by lia. }
  pose proof (p10_pos (e * Zpos N - 1)) as PN. assert (Y : 1 # 10 < y) by lra. clearbody y.
  apply (Qlt_le_trans _ (y * p10 (e * Zpos N))); [|exact U]. rewrite S. nra.
Qed.
Lemma thousand_up lg : correct_log lg -> lg (8796093022207999 # 8796093022208) = 3%Z.
Proof.
  intros C. assert (D : double (8796093022207999 # 8796093022208)) by (exists 8796093022207999%Z, (-43)%Z; split; [reflexivity|split; [split; discriminate|reflexivity]]).
  apply C; [exact D|reflexivity|]. split.
  - apply (rounds_up_from _ 3 1 (1 # 8796093022208000) 4503599627370496); reflexivity || (split; reflexivity) || discriminate.
  - apply (rounds_not _ 2); [exact D|split; [discriminate|reflexivity]|discriminate].
Qed.
Lemma hundred_thousand_up lg : correct_log lg -> lg (6871947673599999 # 68719476736) = 5%Z.
Proof.
  intros C. assert (D : double (6871947673599999 # 68719476736)) by (exists 6871947673599999%Z, (-36)%Z; split; [reflexivity|split; [split; discriminate|reflexivity]]).
  apply C; [exact D|reflexivity|]. split.
  - apply (rounds_up_from _ 5 2 (1 # 6871947673600000) 2251799813685248); reflexivity || (split; reflexivity) || discriminate.
  - apply (rounds_not _ 4); [exact D|split; [discriminate|reflexivity]|discriminate].
Qed.

(** ** the exact logarithm and the exact powers *)
Lemma exact_accurate : accurate log10_floor.
Proof. intros x e D M. left. apply log_is; [|exact M]. destruct M as [A _]. pose proof (p10_pos e). lra. Qed.
Lemma exact_powers : close_powers p10.
Proof. intros e _. setoid_replace (p10 e - p10 e) with 0 by ring. change (Qabs 0) with 0. pose proof (p10_pos e). lra. Qed.

(** ** the smallest numbers *)
Lemma tiny_power y : nearest (p10 (-324)) y -> y == 0.
Proof.
  intros (D & C & _). assert (D0 : double 0) by (exists 0%Z, 0%Z; split; [reflexivity|split; [split; discriminate|reflexivity]]). specialize (C 0 D0).
  assert (P : p10 (-324) + p10 (-324) < pow2 (-1074)) by (vm_compute; reflexivity). pose proof (p10_pos (-324)) as PP.
  destruct (Q_dec y 0) as [[L|L]|E]; [exfalso|exfalso|exact E].
  - rewrite (Qabs_pos (p10 (-324) - y)), (Qabs_pos (p10 (-324) - 0)) in C by lra. lra.
  - pose proof (double_least y D L) as U. rewrite (Qabs_neg (p10 (-324) - y)), (Qabs_pos (p10 (-324) - 0)) in C by lra. lra.
Qed.
Lemma least_log lg : accurate lg -> lg (pow2 (-1074)) = (-324)%Z.
Proof.
  intros A. destruct (A (pow2 (-1074)) (-324)%Z) as [E|[_ [J _]]].
  - exists 1%Z, (-1074)%Z. split; [reflexivity|]. split; [split; discriminate|]. unfold pow2. ring.
  - split; vm_compute; [discriminate|reflexivity].
  - exact E.
  - exfalso. revert J. apply Qlt_not_le. vm_compute. reflexivity.
Qed.
