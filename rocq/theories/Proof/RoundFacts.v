(** Rounding to doubles *)
From Coq Require Import List NArith ZArith QArith Qabs Qround Qpower Qfield Bool Lia Lqa Zpow_facts.
From Verif.Model Require Import Base Strip Color TimeDelta TimeFloat.
From Verif.Spec Require Import Doubles.
Import ListNotations.
Local Open Scope Q_scope.

(** ** powers of two *)
Lemma pow2_pos e : 0 < pow2 e.
Proof. now apply Qpower_0_lt. Qed.
Lemma pow2_add a b : pow2 (a + b) == pow2 a * pow2 b.
Proof. apply Qpower_plus. discriminate. Qed.
Lemma pow2_le a b : (a <= b)%Z -> pow2 a <= pow2 b.
Proof. intro. apply Qpower_le_compat_l; [easy|discriminate]. Qed.
Lemma pow2_lt_inv a b : pow2 a < pow2 b -> (a < b)%Z.
Proof. intro H. now apply (Qpower_lt_compat_l_inv (2#1)). Qed.
Lemma pow2_Z e : (0 <= e)%Z -> pow2 e == inject_Z (2 ^ e).
Proof. intro H. rewrite Zpower_Qpower by easy. reflexivity. Qed.
Lemma pow2_S e : pow2 (e + 1) == (2#1) * pow2 e.
Proof. rewrite pow2_add. change (pow2 1) with ((2#1)^1). rewrite Qpower_1_r. ring. Qed.
Lemma pow2_half e : pow2 e == (2#1) * pow2 (e - 1).
Proof. rewrite <- pow2_S. now replace (e - 1 + 1)%Z with e by lia. Qed.
Lemma pow2_opp e : pow2 e * pow2 (- e) == 1.
Proof. rewrite <- pow2_add. now replace (e + - e)%Z with 0%Z by lia. Qed.

Lemma qmul_le a b c : 0 <= c -> a <= b -> a * c <= b * c.
Proof. intros. now apply Qmult_le_compat_r. Qed.
Lemma qmul_lt a b c : 0 < c -> a < b -> a * c < b * c.
Proof. intros. now apply Qmult_lt_r. Qed.
Lemma qmul_lt_inv a b c : 0 < c -> a * c < b * c -> a < b.
Proof. intros P H. now apply (Qmult_lt_r a b c). Qed.

(** ** exponents *)
Lemma Qlebool_false x y : Qle_bool x y = false -> y < x.
Proof.
  intro H. destruct (Qlt_le_dec y x) as [L|L]; [easy|]. apply Qle_bool_iff in L. congruence.
Qed.
Lemma Qabs_frac x : Qabs x == inject_Z (Z.abs (Qnum x)) / inject_Z (Zpos (Qden x)).
Proof. destruct x as [n d]. cbn. unfold Qeq, Qdiv, Qmult, Qinv, inject_Z. cbn. lia. Qed.

Lemma exponent_spec x : ~ x == 0 -> pow2 (exponent x) <= Qabs x /\ Qabs x < pow2 (exponent x + 1).
Proof.
  intro NZ. unfold exponent.
  assert (Z.abs (Qnum x) <> 0)%Z as N0. { intro E. apply NZ. destruct x as [n d]. cbn in *. unfold Qeq. cbn. lia. }
  set (n := Z.abs (Qnum x)) in *. set (d := Zpos (Qden x)).
  assert (0 < n)%Z as NP by lia. assert (0 < d)%Z as DP by (unfold d; lia).
  pose proof (Z.log2_spec n NP) as [N1 N2]. pose proof (Z.log2_spec d DP) as [D1 D2].
  pose proof (Z.log2_nonneg n) as LN. pose proof (Z.log2_nonneg d) as LD.
  assert (Qabs x * inject_Z d == inject_Z n) as EX.
  { rewrite Qabs_frac. fold n d. field. intro E. unfold d in E. discriminate. }
  set (a := Z.log2 n) in *. set (b := Z.log2 d) in *.
  assert (0 < inject_Z d) as QD by (unfold d; reflexivity).
  assert (pow2 a <= inject_Z n) as A1 by (rewrite pow2_Z by easy; now rewrite <- Zle_Qle).
  assert (inject_Z n < pow2 (a + 1)) as A2.
  { rewrite pow2_Z by lia. rewrite <- Zlt_Qlt. now rewrite Z.add_1_r. }
  assert (pow2 b <= inject_Z d) as B1 by (rewrite pow2_Z by easy; now rewrite <- Zle_Qle).
  assert (inject_Z d < pow2 (b + 1)) as B2.
  { rewrite pow2_Z by lia. rewrite <- Zlt_Qlt. now rewrite Z.add_1_r. }
  assert (Qabs x < pow2 (a - b + 1)) as UP.
  { apply (qmul_lt_inv _ _ (inject_Z d) QD). rewrite EX. apply Qlt_le_trans with (1 := A2).
    replace (a + 1)%Z with (a - b + 1 + b)%Z by lia. rewrite pow2_add.
    rewrite !(Qmult_comm (pow2 (a - b + 1))). apply qmul_le; [apply Qlt_le_weak, pow2_pos|easy]. }
  assert (pow2 (a - b - 1) <= Qabs x) as LO.
  { apply Qlt_le_weak. apply (qmul_lt_inv _ _ (inject_Z d) QD). rewrite EX. apply Qlt_le_trans with (2 := A1).
    replace a with (a - b - 1 + (b + 1))%Z at 2 by lia. rewrite pow2_add.
    rewrite !(Qmult_comm (pow2 (a - b - 1))). apply qmul_lt; [apply pow2_pos|easy]. }
  destruct (Qle_bool (pow2 (a - b)) (Qabs x)) eqn:B.
  - apply Qle_bool_iff in B. now split.
  - apply Qlebool_false in B. split; [easy|]. now replace (a - b - 1 + 1)%Z with (a - b)%Z by lia.
Qed.

Lemma exponent_unique x e : ~ x == 0 -> pow2 e <= Qabs x -> Qabs x < pow2 (e + 1) -> exponent x = e.
Proof.
  intros NZ A B. destruct (exponent_spec x NZ) as [C D].
  assert (pow2 e < pow2 (exponent x + 1)) as L1 by (now apply Qle_lt_trans with (2 := D)).
  assert (pow2 (exponent x) < pow2 (e + 1)) as L2 by (now apply Qle_lt_trans with (2 := B)).
  apply pow2_lt_inv in L1, L2. lia.
Qed.

(** ** nearest integers *)
Lemma nearest_int_near y : Qabs (y - inject_Z (nearest_int y)) <= 1 # 2.
Proof.
  unfold nearest_int. pose proof (Qfloor_le y) as A. pose proof (Qlt_floor y) as B.
  set (f := Qfloor y) in *. rewrite inject_Z_plus in B. change (inject_Z 1) with 1 in B.
  apply Qabs_Qle_condition.
  destruct (Qcompare_spec (y - inject_Z f) (1#2)) as [E|E|E].
  - destruct (Z.even f); [|rewrite inject_Z_plus; change (inject_Z 1) with 1]; lra.
  - lra.
  - rewrite inject_Z_plus; change (inject_Z 1) with 1. lra.
Qed.
Lemma nearest_int_floor y : (Qfloor y <= nearest_int y <= Qfloor y + 1)%Z.
Proof.
  unfold nearest_int. destruct (Qcompare _ _); [destruct (Z.even _)| |]; lia.
Qed.
Lemma nearest_int_best y k : Qabs (y - inject_Z (nearest_int y)) <= Qabs (y - inject_Z k).
Proof.
  pose proof (nearest_int_near y) as N. set (n := nearest_int y) in *.
  destruct (Z.eq_dec n k) as [<-|NE]; [apply Qle_refl|].
  apply Qle_trans with (1 := N). apply Qabs_Qle_condition in N. destruct N as [N1 N2].
  assert (n + 1 <= k \/ k + 1 <= n)%Z as [H|H] by lia; rewrite Zle_Qle, inject_Z_plus in H; change (inject_Z 1) with 1 in H.
  - apply Qle_trans with (- (y - inject_Z k)); [lra|]. rewrite <- Qabs_opp. apply Qle_Qabs.
  - apply Qle_trans with (y - inject_Z k); [lra|]. apply Qle_Qabs.
Qed.
Lemma nearest_int_Z y k : y == inject_Z k -> nearest_int y = k.
Proof.
  intro E. pose proof (nearest_int_best y k) as B.
  assert (Qabs (y - inject_Z k) == 0) as Z0.
  { setoid_replace (y - inject_Z k) with 0 by (rewrite E; ring). reflexivity. }
  rewrite Z0 in B. apply Qabs_Qle_condition in B. destruct B as [B1 B2].
  assert (inject_Z (nearest_int y) == inject_Z k) as H by lra. exact (proj1 (inject_Z_injective _ _) H).
Qed.

Lemma nearest_int_ext a b : a == b -> nearest_int a = nearest_int b.
Proof.
  intro E. unfold nearest_int. rewrite (Qfloor_comp _ _ E).
  assert ((a - inject_Z (Qfloor b) ?= 1 # 2) = (b - inject_Z (Qfloor b) ?= 1 # 2)) as -> by (apply Qcompare_comp; [now rewrite E|reflexivity]).
  reflexivity.
Qed.

(** ** rounding *)
Definition scale_exp (x : Q) : Z := Z.max (exponent x) (-1022).
Lemma ulp_eq x : ulp x = pow2 (scale_exp x - 52).
Proof. reflexivity. Qed.
Lemma scale_bounds x : ~ x == 0 ->
  (scale_exp x = (-1022)%Z \/ pow2 (scale_exp x) <= Qabs x) /\ Qabs x < pow2 (scale_exp x + 1).
Proof.
  intro NZ. destruct (exponent_spec x NZ) as [A B]. unfold scale_exp. split.
  - destruct (Z.max_spec (exponent x) (-1022)) as [[_ ->]|[_ ->]]; [now left|now right].
  - apply Qlt_le_trans with (1 := B). apply pow2_le. lia.
Qed.

Lemma round64_near x : ~ x == 0 ->
  exists n, round64 x == inject_Z n * ulp x /\ (Qfloor (x / ulp x) <= n)%Z /\
    Qabs (x - inject_Z n * ulp x) <= (1 # 2) * ulp x /\
    (forall k, Qabs (x - inject_Z n * ulp x) <= Qabs (x - inject_Z k * ulp x)).
Proof.
  intro NZ. exists (nearest_int (x / ulp x)). unfold round64.
  destruct (Qeq_bool x 0) eqn:E; [now apply Qeq_bool_iff in E|].
  pose proof (pow2_pos (scale_exp x - 52)) as U. fold (ulp x) in U. rewrite <- ulp_eq in U.
  assert (~ ulp x == 0) as UN by lra.
  assert (forall z, Qabs (x - inject_Z z * ulp x) == Qabs (x / ulp x - inject_Z z) * ulp x) as AB.
  { intro z. apply Qeq_trans with (Qabs (x / ulp x - inject_Z z) * Qabs (ulp x)).
    - rewrite <- Qabs_Qmult. apply Qabs_wd. field. easy.
    - rewrite (Qabs_pos (ulp x)) by lra. reflexivity. }
  split; [reflexivity|]. split; [apply nearest_int_floor|]. split.
  - rewrite AB. apply qmul_le; [lra|]. apply nearest_int_near.
  - intro k. rewrite !AB. apply qmul_le; [lra|]. apply nearest_int_best.
Qed.

Lemma round64_0 x : x == 0 -> round64 x == 0.
Proof. intro E. unfold round64. apply Qeq_bool_iff in E. now rewrite E. Qed.

(** multiples of a smaller power are multiples of it *)
Lemma pow2_multiple a b : (b <= a)%Z -> exists k, pow2 a == inject_Z k * pow2 b.
Proof.
  intro H. exists (2 ^ (a - b))%Z. rewrite <- pow2_Z by lia. rewrite <- pow2_add. now replace (a - b + b)%Z with a by lia.
Qed.

Lemma double_multiple x : double x -> ~ x == 0 -> exists n, x == inject_Z n * ulp x.
Proof.
  intros (m & e & M & E & X) NZ. fold (pow2 e) in X.
  destruct (Z_le_gt_dec (scale_exp x - 52) e) as [L|G].
  - destruct (pow2_multiple _ _ L) as [k K]. exists (m * k)%Z. rewrite ulp_eq, inject_Z_mult, <- Qmult_assoc, <- K. exact X.
  - exfalso. destruct (scale_bounds x NZ) as [[S|S] _]; [lia|].
    assert (Qabs x < pow2 (scale_exp x)); [|lra].
    rewrite (Qabs_wd _ _ X), Qabs_Qmult, (Qabs_pos (pow2 e)) by (apply Qlt_le_weak, pow2_pos).
    apply Qlt_le_trans with (pow2 53 * pow2 e).
    + apply qmul_lt; [apply pow2_pos|]. rewrite pow2_Z by lia.
      change (Qabs (inject_Z m)) with (inject_Z (Z.abs m)). now rewrite <- Zlt_Qlt.
    + rewrite <- pow2_add. apply pow2_le. lia.
Qed.

Lemma round64_double x : double x -> round64 x == x.
Proof.
  intro D. destruct (Qeq_dec x 0) as [Z0|NZ]; [rewrite Z0 at 2; now apply round64_0|].
  destruct (double_multiple x D NZ) as [k K]. destruct (round64_near x NZ) as (n & R & _ & _ & B).
  rewrite R. specialize (B k). rewrite <- K in B.
  assert (Qabs (x - x) == 0) as O. { setoid_replace (x - x) with 0 by ring. reflexivity. }
  rewrite O in B. apply Qabs_Qle_condition in B. lra.
Qed.

Lemma double_Z z : (Z.abs z < 2 ^ 53)%Z -> double (inject_Z z).
Proof. intro H. exists z, 0%Z. split; [easy|]. split; [lia|]. rewrite Qpower_0_r. ring. Qed.
Lemma double_ext x y : x == y -> double x -> double y.
Proof. intros E (m & e & M & B & X). exists m, e. split; [easy|]. split; [easy|]. now rewrite <- E. Qed.
Lemma double_abs x : double x -> double (Qabs x).
Proof.
  intros (m & e & M & B & X). exists (Z.abs m), e. split; [lia|]. split; [easy|].
  rewrite (Qabs_wd _ _ X), Qabs_Qmult, (Qabs_pos (_ ^ e)) by (apply Qlt_le_weak, (pow2_pos e)). reflexivity.
Qed.

Lemma round64_ext x y : x == y -> round64 x == round64 y.
Proof.
  intro E. destruct (Qeq_dec x 0) as [Z0|NZ].
  - rewrite (round64_0 x Z0). symmetry. apply round64_0. now rewrite <- E.
  - assert (~ y == 0) as NY by (now rewrite <- E).
    assert (exponent x = exponent y) as EE.
    { apply exponent_unique; [easy| |]; rewrite (Qabs_wd _ _ E); now apply exponent_spec. }
    unfold round64, ulp. rewrite EE.
    destruct (Qeq_bool x 0) eqn:X; [now apply Qeq_bool_iff in X|].
    destruct (Qeq_bool y 0) eqn:Y; [now apply Qeq_bool_iff in Y|].
    assert (nearest_int (x / pow2 (Z.max (exponent y) (-1022) - 52)) =
            nearest_int (y / pow2 (Z.max (exponent y) (-1022) - 52))) as NN.
    { apply nearest_int_ext. now rewrite E. }
    now rewrite NN.
Qed.

(** ** ties *)
Lemma nearest_int_tie y k : k <> nearest_int y -> Qabs (y - inject_Z k) == Qabs (y - inject_Z (nearest_int y)) ->
  Z.even (nearest_int y) = true /\ (k = nearest_int y + 1 \/ k = nearest_int y - 1)%Z.
Proof.
  intros NE E. pose proof (nearest_int_near y) as N. set (n := nearest_int y) in *.
  rewrite <- E in N. assert (N' := N). rewrite E in N'. apply Qabs_Qle_condition in N as [N1 N2]. apply Qabs_Qle_condition in N' as [N3 N4].
  assert (n - 1 <= k <= n + 1)%Z as K.
  { split.
    - rewrite Zle_Qle. unfold Z.sub. rewrite inject_Z_plus. rewrite inject_Z_opp. change (inject_Z 1) with 1. lra.
    - rewrite Zle_Qle. rewrite inject_Z_plus. change (inject_Z 1) with 1. lra. }
  split; [|lia]. unfold n, nearest_int in *. pose proof (Qfloor_le y) as A. pose proof (Qlt_floor y) as B. set (f := Qfloor y) in *.
  rewrite inject_Z_plus in B. change (inject_Z 1) with 1 in B.
  destruct (Qcompare_spec (y - inject_Z f) (1#2)) as [T|T|T].
  - destruct (Z.even f) eqn:V; [exact V|]. rewrite Z.even_add, V. reflexivity.
  - exfalso. assert (k = f + 1 \/ k = f - 1)%Z as [-> | ->] by lia; unfold Z.sub in *; rewrite inject_Z_plus, ?inject_Z_opp in *; change (inject_Z 1) with 1 in *.
    + lra.
    + rewrite (Qabs_pos (y - inject_Z f)) in E by lra. rewrite Qabs_pos in E by lra. lra.
  - exfalso. assert (k = f + 2 \/ k = f)%Z as [-> | ->] by lia; rewrite !inject_Z_plus in *; change (inject_Z 1) with 1 in *; [change (inject_Z 2) with (2 # 1) in *|]; lra.
Qed.
Lemma round64_ties x z : double z -> Qabs (x - z) == Qabs (x - round64 x) -> ~ z == round64 x ->
  exists m e : Z, round64 x == inject_Z (2 * m) * pow2 e /\ (z == inject_Z (2 * m + 1) * pow2 e \/ z == inject_Z (2 * m - 1) * pow2 e).
Proof.
  intros D E NE. destruct (Qeq_dec x 0) as [Z0|NZ].
  { exfalso. apply NE. assert (R : round64 x == 0) by now apply round64_0. rewrite R in E |- *.
    setoid_replace (x - 0) with 0 in E by (rewrite Z0; ring). change (Qabs 0) with 0 in E.
    assert (L : Qabs (x - z) <= 0) by (rewrite E; apply Qle_refl). apply Qabs_Qle_condition in L as [L1 L2]. lra. }
  destruct (round64_near x NZ) as (n0 & _ & _ & _ & B0). clear n0 B0.
  pose proof (pow2_pos (scale_exp x - 52)) as U.
  assert (R : round64 x = inject_Z (nearest_int (x / ulp x)) * ulp x).
  { unfold round64. destruct (Qeq_bool x 0) eqn:X; [now apply Qeq_bool_iff in X|reflexivity]. }
  rewrite ulp_eq in R. set (u := pow2 (scale_exp x - 52)) in *. set (n := nearest_int (x / u)) in *. rewrite R in *.
  assert (UN : ~ u == 0) by lra.
  assert (AB : forall k, Qabs (x - inject_Z k * u) == Qabs (x / u - inject_Z k) * u).
  { intro k. apply Qeq_trans with (Qabs (x / u - inject_Z k) * Qabs u).
    - rewrite <- Qabs_Qmult. apply Qabs_wd. field. easy.
    - rewrite (Qabs_pos u) by lra. reflexivity. }
  assert (M : exists k, z == inject_Z k * u).
  { destruct D as (m & e & Hm & He & HZ). fold (pow2 e) in HZ. destruct (Z_le_gt_dec (scale_exp x - 52) e) as [L|G].
    - destruct (pow2_multiple _ _ L) as [k K]. exists (m * k)%Z. rewrite HZ, inject_Z_mult, K. unfold u. ring.
    - exfalso. destruct (scale_bounds x NZ) as [[LO|LO] _]; [lia|].
      assert (Qabs z < pow2 (scale_exp x)) as ZB.
      { rewrite (Qabs_wd _ _ HZ), Qabs_Qmult, (Qabs_pos (pow2 e)) by (apply Qlt_le_weak, pow2_pos).
        apply Qlt_le_trans with (pow2 53 * pow2 e).
        - apply qmul_lt; [apply pow2_pos|]. rewrite pow2_Z by lia. change (Qabs (inject_Z m)) with (inject_Z (Z.abs m)). now rewrite <- Zlt_Qlt.
        - rewrite <- pow2_add. apply pow2_le. lia. }
      apply Qabs_Qlt_condition in ZB as [Z1 Z2].
      assert (P52 : pow2 (scale_exp x) == inject_Z (2 ^ 52) * u).
      { unfold u. rewrite <- pow2_Z by lia. rewrite <- pow2_add. now replace (52 + (scale_exp x - 52))%Z with (scale_exp x) by lia. }
      assert (BB : forall k, Qabs (x - inject_Z n * u) <= Qabs (x - inject_Z k * u)).
      { intros k. rewrite !AB. apply qmul_le; [lra|]. apply nearest_int_best. }
      destruct (Qlt_le_dec x 0) as [X|X].
      + rewrite (Qabs_neg x) in LO by lra. specialize (BB (- 2 ^ 52)%Z). rewrite inject_Z_opp in BB.
        setoid_replace (- inject_Z (2 ^ 52) * u) with (- pow2 (scale_exp x)) in BB by (rewrite P52; ring).
        rewrite (Qabs_neg (x - - pow2 (scale_exp x))) in BB by lra. rewrite <- E, (Qabs_neg (x - z)) in BB by lra. lra.
      + rewrite (Qabs_pos x) in LO by lra. specialize (BB (2 ^ 52)%Z).
        rewrite <- P52 in BB. rewrite (Qabs_pos (x - pow2 (scale_exp x))) in BB by lra. rewrite <- E, (Qabs_pos (x - z)) in BB by lra. lra. }
  destruct M as [k K]. assert (KN : k <> n) by (intros ->; now apply NE).
  assert (TE : Qabs (x / u - inject_Z k) == Qabs (x / u - inject_Z n)).
  { apply (Qmult_inj_r _ _ u UN). rewrite <- !AB, <- E. apply Qabs_wd. now rewrite K. }
  destruct (nearest_int_tie (x / u) k KN TE) as [V C]. fold n in V, C. apply Z.even_spec in V as [m V].
  exists m, (scale_exp x - 52)%Z. fold u. rewrite <- V. split; [reflexivity|]. destruct C as [-> | ->]; [left|right]; exact K.
Qed.

(** Within the range of doubles the result is the nearest double *)
Lemma round64_closest x : Qabs (round64 x) < pow2 1024 -> double (round64 x) /\ forall z, double z -> Qabs (x - round64 x) <= Qabs (x - z).
Proof.
  intro R. destruct (Qeq_dec x 0) as [Z0|NZ].
  - assert (round64 x == 0) as E by now apply round64_0. split.
    + apply (double_ext 0); [now symmetry|]. now apply (double_Z 0).
    + intros z _. apply Qle_trans with 0; [|apply Qabs_nonneg].
      setoid_replace (x - round64 x) with 0 by (rewrite E, Z0; ring). apply Qle_refl.
  - destruct (round64_near x NZ) as (n & N & _ & H & B). destruct (scale_bounds x NZ) as [LO UP].
    set (E := scale_exp x) in *. assert (-1022 <= E)%Z as E0 by (unfold E, scale_exp; lia).
    pose proof (pow2_pos (E - 52)) as U. assert (ulp x = pow2 (E - 52)) as UE by reflexivity. rewrite UE in N, H, B. clear UE. clearbody E.
    rewrite N in R. rewrite Qabs_Qmult, (Qabs_pos (pow2 (E - 52))) in R by lra.
    change (Qabs (inject_Z n)) with (inject_Z (Z.abs n)) in R.
    assert (pow2 (E + 1) == inject_Z (2 ^ 53) * pow2 (E - 52)) as P53.
    { rewrite <- pow2_Z by lia. rewrite <- pow2_add. now replace (53 + (E - 52))%Z with (E + 1)%Z by lia. }
    assert (pow2 E == inject_Z (2 ^ 52) * pow2 (E - 52)) as P52.
    { rewrite <- pow2_Z by lia. rewrite <- pow2_add. now replace (52 + (E - 52))%Z with E by lia. }
    assert (Z.abs n <= 2 ^ 53)%Z as NB.
    { apply Znot_gt_le. intro G. assert (2 ^ 53 + 1 <= Z.abs n)%Z as G' by lia.
      rewrite Zle_Qle, inject_Z_plus in G'. change (inject_Z 1) with 1 in G'.
      apply (qmul_le _ _ (pow2 (E - 52))) in G'; [|lra].
      assert (inject_Z (Z.abs n) * pow2 (E - 52) <= Qabs x + (1#2) * pow2 (E - 52)) as T.
      { apply Qle_trans with (Qabs (inject_Z n * pow2 (E - 52))).
        - rewrite Qabs_Qmult, (Qabs_pos (pow2 (E - 52))) by lra. apply Qle_refl.
        - pose proof (Qabs_triangle_reverse (inject_Z n * pow2 (E - 52)) x) as T.
          rewrite Qabs_Qminus in T. lra. }
      assert ((inject_Z (2 ^ 53) + 1) * pow2 (E - 52) == inject_Z (2 ^ 53) * pow2 (E - 52) + pow2 (E - 52)) as DD by ring.
      lra. }
    split.
    + apply (double_ext (inject_Z n * pow2 (E - 52))); [now symmetry|].
      destruct (Z.eq_dec (Z.abs n) (2 ^ 53)) as [EQ|NE].
      * exists (Z.sgn n * 2 ^ 52)%Z, (E - 51)%Z. split; [lia|]. split.
        -- rewrite EQ, <- P53 in R. apply pow2_lt_inv in R. lia.
        -- fold (pow2 (E - 51)). replace (E - 51)%Z with (E - 52 + 1)%Z by lia. rewrite pow2_S.
           assert (n = Z.sgn n * 2 ^ 52 * 2)%Z as NN by lia.
           rewrite NN at 1. rewrite (inject_Z_mult _ 2). change (inject_Z 2) with (2#1). ring.
      * exists n, (E - 52)%Z. split; [lia|]. split; [|reflexivity].
        split; [lia|]. destruct (Z_le_gt_dec E 1023) as [L|G]; [lia|exfalso].
        destruct LO as [LO|LO]; [lia|].
        assert (2 ^ 52 <= Z.abs n)%Z as N52.
        { apply Znot_gt_le. intro G'. assert (Z.abs n + 1 <= 2 ^ 52)%Z as G2 by lia.
          rewrite Zle_Qle, inject_Z_plus in G2. change (inject_Z 1) with 1 in G2.
          apply (qmul_le _ _ (pow2 (E - 52))) in G2; [|lra].
          pose proof (Qabs_triangle_reverse x (inject_Z n * pow2 (E - 52))) as T.
          rewrite Qabs_Qmult, (Qabs_pos (pow2 (E - 52))) in T by lra.
          change (Qabs (inject_Z n)) with (inject_Z (Z.abs n)) in T.
          assert ((inject_Z (Z.abs n) + 1) * pow2 (E - 52) == inject_Z (Z.abs n) * pow2 (E - 52) + pow2 (E - 52)) as DD by ring.
          lra. }
        rewrite Zle_Qle in N52. apply (qmul_le _ _ (pow2 (E - 52))) in N52; [|lra].
        pose proof (pow2_le 1024 E ltac:(lia)). lra.
    + intros z (m & e & M & EB & Z). fold (pow2 e) in Z. rewrite N.
      destruct (Z_le_gt_dec (E - 52) e) as [L|G].
      * destruct (pow2_multiple _ _ L) as [k K]. apply Qle_trans with (1 := B (m * k)%Z).
        setoid_replace (inject_Z (m * k) * pow2 (E - 52)) with z; [apply Qle_refl|].
        rewrite Z, K, inject_Z_mult. ring.
      * destruct LO as [LO|LO]; [lia|].
        assert (Qabs z < pow2 E) as ZB.
        { rewrite (Qabs_wd _ _ Z), Qabs_Qmult, (Qabs_pos (pow2 e)) by (apply Qlt_le_weak, pow2_pos).
          apply Qlt_le_trans with (pow2 53 * pow2 e).
          - apply qmul_lt; [apply pow2_pos|]. rewrite pow2_Z by lia.
            change (Qabs (inject_Z m)) with (inject_Z (Z.abs m)). now rewrite <- Zlt_Qlt.
          - rewrite <- pow2_add. apply pow2_le. lia. }
        apply Qabs_Qlt_condition in ZB. destruct ZB as [Z1 Z2].
        destruct (Qlt_le_dec x 0) as [X|X].
        -- rewrite (Qabs_neg x) in LO by lra. apply Qle_trans with (1 := B (- 2 ^ 52)%Z).
           rewrite inject_Z_opp. setoid_replace (- inject_Z (2 ^ 52) * pow2 (E - 52)) with (- pow2 E) by (rewrite P52; ring).
           rewrite (Qabs_neg (x - - pow2 E)), (Qabs_neg (x - z)) by lra. lra.
        -- rewrite (Qabs_pos x) in LO by lra. apply Qle_trans with (1 := B (2 ^ 52)%Z).
           rewrite <- P52. rewrite (Qabs_pos (x - pow2 E)), (Qabs_pos (x - z)) by lra. lra.
Qed.
Lemma round64_nearest x : Qabs (round64 x) < pow2 1024 -> nearest x (round64 x).
Proof.
  intros R. destruct (round64_closest x R) as [D C]. split; [exact D|]. split; [exact C|]. intros z DZ E NE. exact (round64_ties x z DZ E NE).
Qed.
Lemma pow2_inj a b : pow2 a == pow2 b -> a = b.
Proof.
  intro E. destruct (Z_lt_ge_dec a b) as [L|L]; [exfalso|destruct (Z_lt_ge_dec b a) as [G|G]; [exfalso|lia]].
  - pose proof (pow2_le (a + 1) b ltac:(lia)) as H. rewrite pow2_S in H. pose proof (pow2_pos a). lra.
  - pose proof (pow2_le (b + 1) a ltac:(lia)) as H. rewrite pow2_S in H. pose proof (pow2_pos b). lra.
Qed.
(** there is only one *)
Lemma nearest_unique x y z : nearest x y -> nearest x z -> y == z.
Proof.
  intros (D1 & C1 & T1) (D2 & C2 & T2). destruct (Qeq_dec y z) as [E|NE]; [exact E|exfalso].
  assert (E : Qabs (x - y) == Qabs (x - z)) by (apply Qle_antisym; auto).
  destruct (T1 z D2 (Qeq_sym _ _ E)) as (m & e & Hy & Hz); [intro K; now apply NE, Qeq_sym|].
  destruct (T2 y D1 E NE) as (m' & e' & Hz' & Hy'). fold (pow2 e) in *. fold (pow2 e') in *.
  pose proof (pow2_pos e) as P. pose proof (pow2_pos e') as P'.
  unfold Z.sub in *. rewrite !inject_Z_plus, ?inject_Z_opp in *. change (inject_Z 1) with 1 in *.
  assert (EE : pow2 e == pow2 e') by (destruct Hz as [Hz|Hz], Hy' as [Hy'|Hy']; nra).
  apply pow2_inj in EE. subst e'. set (u := pow2 e) in *. clearbody u. assert (UN : ~ u == 0) by lra.
  assert (K : inject_Z (2 * m) == inject_Z (2 * m' + 1) \/ inject_Z (2 * m) == inject_Z (2 * m' + - (1))).
  { destruct Hy' as [Hy'|Hy']; [left|right]; apply (Qmult_inj_r _ _ u UN); rewrite inject_Z_plus, ?inject_Z_opp; change (inject_Z 1) with 1; rewrite <- Hy, <- Hy'; reflexivity. }
  destruct K as [K|K]; pose proof (proj1 (inject_Z_injective _ _) K) as KK; clear - KK; lia.
Qed.
Lemma nearest_ext x y z : y == z -> nearest x y -> nearest x z.
Proof.
  intros E (D & C & T). split; [now apply (double_ext y)|]. split; [intros a Da; rewrite <- E; auto|].
  intros a Da Ea Na. rewrite <- E in Ea, Na. destruct (T a Da Ea Na) as (m & e & H1 & H2). exists m, e. split; [now rewrite <- E|exact H2].
Qed.
