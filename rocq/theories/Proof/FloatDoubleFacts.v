(** Facts about numbers with decimals formatted with doubles *)
From Coq Require Import List Arith NArith ZArith QArith Qabs Qround Qpower Bool Lia Lqa.
From Verif.Model Require Import Base Color TimeDelta TimeFloat FloatText FloatDoubles.
From Verif.Spec Require Import Numbers FloatText Doubles Logarithm.
From Verif.Proof Require Import BaseFacts TokFacts BinClaims DurationFacts FloatFacts FloatClaims RoundFacts.
Import ListNotations.
Local Open Scope Z_scope.

(** ** relative error of rounding *)
Lemma round64_rel x : (pow2 (-1022) <= Qabs x)%Q -> (Qabs (round64 x - x) <= (1 # 9007199254740992) * Qabs x)%Q.
Proof.
  intros L. assert (NZ : ~ (x == 0)%Q).
  { intros E. rewrite (Qabs_wd _ _ E) in L. pose proof (pow2_pos (-1022)). change (Qabs 0) with 0%Q in L. lra. }
  destruct (round64_near x NZ) as (n & R & _ & N & _). destruct (exponent_spec x NZ) as [A B].
  assert (E : -1022 <= exponent x).
  { assert (pow2 (-1022) < pow2 (exponent x + 1))%Q as K by lra. apply pow2_lt_inv in K. lia. }
  assert (U : (ulp x == (1 # 4503599627370496) * pow2 (exponent x))%Q).
  { unfold ulp. rewrite Z.max_l by lia. change (exponent x - 52) with (exponent x + -52). rewrite pow2_add. change (pow2 (-52)) with (1 # 4503599627370496)%Q. ring. }
  rewrite Qabs_Qminus. rewrite (Qabs_wd (x - round64 x) (x - inject_Z n * ulp x)) by (rewrite R; reflexivity). rewrite U in N at 2. lra.
Qed.
Lemma round64_ge x n : (Z.abs n < 2 ^ 53) -> (inject_Z n <= x)%Q -> (Qabs (round64 x) < pow2 1024)%Q -> (inject_Z n <= round64 x)%Q.
Proof.
  intros H L R. destruct (round64_closest x R) as [_ C]. specialize (C (inject_Z n) (double_Z n H)).
  destruct (Qlt_le_dec (round64 x) (inject_Z n)) as [K|K]; [|exact K]. rewrite !Qabs_pos in C by lra. lra.
Qed.

Lemma round64_le x n : (Z.abs n < 2 ^ 53) -> (x <= inject_Z n)%Q -> (Qabs (round64 x) < pow2 1024)%Q -> (round64 x <= inject_Z n)%Q.
Proof.
  intros H L R. destruct (round64_closest x R) as [_ C]. specialize (C (inject_Z n) (double_Z n H)).
  destruct (Qlt_le_dec (inject_Z n) (round64 x)) as [K|K]; [|exact K]. rewrite !Qabs_neg in C by lra. lra.
Qed.
Lemma double_bound x : double x -> (Qabs x < pow2 1024)%Q.
Proof.
  intros (k & e & K & E & X). rewrite (Qabs_wd _ _ X), Qabs_Qmult. fold (pow2 e). pose proof (pow2_pos e) as P. rewrite (Qabs_pos (pow2 e)) by lra.
  pose proof (pow2_le e 971 ltac:(lia)) as L. change (pow2 1024) with (pow2 (53 + 971)). rewrite pow2_add. rewrite (pow2_Z 53) by lia.
  assert (A : (Qabs (inject_Z k) < inject_Z (2 ^ 53))%Q) by (change (Qabs (inject_Z k)) with (inject_Z (Z.abs k)); rewrite <- Zlt_Qlt; exact K).
  pose proof (Qabs_nonneg (inject_Z k)). pose proof (pow2_pos 971).
  apply (Qle_lt_trans _ (Qabs (inject_Z k) * pow2 971)); [rewrite Qmult_comm, (Qmult_comm _ (pow2 971)); apply Qmult_le_compat_r; lra|]. apply Qmult_lt_r; lra.
Qed.

(** ** numbers near a power of ten *)
Definition near_power (a : Q) (e : Z) : Prop := (Qabs (a - p10 e) <= (1 # 1099511627776) * p10 e)%Q.
Lemma just_below_near a e : just_below a (p10 e) -> near_power a e.
Proof. intros [A B]. unfold near_power. pose proof (p10_pos e). apply Qabs_Qle_condition. split; lra. Qed.
Lemma p10_near e : near_power (p10 e) e.
Proof. unfold near_power. pose proof (p10_pos e). apply Qabs_Qle_condition. split; lra. Qed.
Lemma near_pos a e : near_power a e -> (0 < a)%Q.
Proof. intros H. pose proof (p10_pos e). apply Qabs_Qle_condition in H. lra. Qed.

Lemma round_is q n : (inject_Z n - (1 # 2) < q)%Q -> (q < inject_Z n + (1 # 2))%Q -> round_even q = n.
Proof.
  intros A B. pose proof (round_bounds q) as [C D].
  assert (inject_Z (round_even q) < inject_Z (n + 1))%Q as L by (rewrite inject_Z_plus; change (inject_Z 1) with 1%Q; lra).
  assert (inject_Z (n - 1) < inject_Z (round_even q))%Q as M.
  { unfold Z.sub. rewrite inject_Z_plus. change (inject_Z (- (1))) with (- (1))%Q. lra. }
  rewrite <- Zlt_Qlt in L, M. lia.
Qed.
Lemma rounded_power d a e : near_power a e -> 0 <= d -> e + d <= 11 -> rounded d a = if e + d <? 0 then 0 else 10 ^ (e + d).
Proof.
  intros H D L. unfold rounded. pose proof (p10_pos e) as P. pose proof (p10_pos d) as PD. apply Qabs_Qle_condition in H.
  assert (X : (a * inject_Z (10 ^ d) == a * p10 d)%Q) by (rewrite p10_inj by exact D; reflexivity).
  assert (S : (Qabs (a * p10 d - p10 (e + d)) <= (1 # 1099511627776) * p10 (e + d))%Q).
  { rewrite p10_plus. setoid_replace (a * p10 d - p10 e * p10 d)%Q with ((a - p10 e) * p10 d)%Q by ring. rewrite Qabs_Qmult, (Qabs_pos (p10 d)) by lra.
    rewrite Qmult_assoc. apply Qmult_le_compat_r; [|lra]. apply Qabs_Qle_condition. exact H. }
  apply Qabs_Qle_condition in S. pose proof (p10_pos (e + d)) as PE.
  destruct (Z.ltb_spec (e + d) 0) as [N|N].
  - pose proof (p10_le (e + d) (-1) ltac:(lia)) as Q1. change (p10 (-1)) with (1 # 10)%Q in Q1. apply round_is; rewrite X; change (inject_Z 0) with 0%Q; lra.
  - pose proof (p10_le (e + d) 11 ltac:(lia)) as Q1. change (p10 11) with 100000000000%Q in Q1. rewrite <- p10_inj in S, Q1, PE by exact N.
    apply round_is; rewrite X; lra.
Qed.
Lemma fixed_power d a b e : near_power a e -> near_power b e -> 0 <= d -> e + d <= 11 -> fixed d a = fixed d b.
Proof. intros A B D L. unfold fixed. fold (rounded d a). fold (rounded d b). now rewrite (rounded_power d a e), (rounded_power d b e). Qed.

Lemma plain_near sign a e n : near_power a e -> n <= 12 -> ~ (e < 0 /\ n = 1) -> plain_float sign a n e = plain_float sign (p10 e) n e.
Proof.
  intros H N X. unfold plain_float. destruct (Z.eqb_spec (Z.max 1 (e + 1)) n) as [E|E].
  - assert (E0 : 0 <= e) by (destruct (Z_lt_dec e 0); [exfalso; apply X; lia|lia]). assert (n = e + 1) as -> by lia.
    rewrite (fixed_power 0 a (p10 e) e H (p10_near e) ltac:(lia) ltac:(lia)).
    replace (Z.max 1 (e + 1)) with (e + 1) by lia. unfold wide. rewrite zlen_rjust by lia.
    assert (L : zlen (fixed 0 (p10 e)) = e + 1).
    { rewrite fixed_len by lia. change (0 =? 0) with true. cbv iota. change (10 ^ 0) with 1. rewrite Z.div_1_r, (rounded_power 0 (p10 e) e (p10_near e)) by lia.
      destruct (Z.ltb_spec (e + 0) 0); [lia|]. rewrite Z.add_0_r in *. rewrite (ndigits_unique _ (e + 1)); [lia| |].
      - apply Z.pow_pos_nonneg; lia.
      - replace (e + 1 - 1) with e by lia. rewrite ?Z.add_0_r; split; [apply Z.le_refl|]. apply Z.pow_lt_mono_r; lia. }
    rewrite L. destruct (Z.ltb_spec (e + 1) (Z.max (e + 1) (e + 1))); [lia|reflexivity].
  - destruct (Z.ltb_spec (n - Z.max 1 (e + 1) - 1) 0) as [D|D]; [reflexivity|].
    rewrite (fixed_power _ a (p10 e) e H (p10_near e)) by lia. reflexivity.
Qed.
Lemma power_magnitude e : magnitude (p10 e) e.
Proof. split; [lra|]. apply p10_lt. lia. Qed.

Lemma eqb_nz x : ~ (x == 0)%Q -> Qeq_bool x 0 = false.
Proof. intros H. destruct (Qeq_bool x 0) eqn:E; [apply Qeq_bool_iff in E; contradiction|reflexivity]. Qed.

(** ** without exponent *)
Definition as_signed (v p : Q) : Q := if Qlt_bool v 0 then (- p)%Q else p.
Section Library.
  Variable lg : Q -> Z.
  Variable pw : Z -> Q.
  Hypothesis ACC : accurate lg.

  Lemma log_cases a : double a -> (0 < a)%Q -> lg a = log10_floor a \/ just_below a (p10 (lg a)).
  Proof.
    intros D H. destruct (ACC a _ D (log_spec a H)) as [E|[E J]]; [now left|]. right. now rewrite E.
  Qed.
  Lemma head_same v n rest : lg (Qabs v) = log10_floor (Qabs v) -> head_doubles lg v n rest = float_head v n rest.
  Proof. intros E. unfold head_doubles, float_head. now rewrite E. Qed.
  Lemma plain_cases v n : double v -> n <= 12 ->
    plain_doubles lg v n = auto_float_no_exp v n \/
    exists e, just_below (Qabs v) (p10 e) /\ lg (Qabs v) = e /\ plain_doubles lg v n = auto_float_no_exp (as_signed v (p10 e)) n.
  Proof.
    intros D N. destruct (Qeq_bool v 0) eqn:Z0.
    { left. unfold plain_doubles, auto_float_no_exp, head_doubles, float_head. rewrite Z0. reflexivity. }
    assert (A : (0 < Qabs v)%Q).
    { pose proof (Qabs_nonneg v). destruct (Qlt_le_dec 0 (Qabs v)) as [K|K]; [exact K|]. exfalso.
      assert (E : (v == 0)%Q) by (apply Qabs_Qle_condition in K; lra). apply Qeq_bool_iff in E. congruence. }
    destruct (log_cases (Qabs v) (double_abs v D) A) as [E|J]; [left; now apply head_same|].
    set (e := lg (Qabs v)) in *. pose proof (just_below_near _ _ J) as NP. pose proof (p10_pos e) as P.
    set (n' := if Qlt_bool v 0 then n - 1 else n).
    destruct (Qlt_bool (Qabs v) 1 && (n' =? 1)) eqn:S.
    { left. unfold plain_doubles, auto_float_no_exp, head_doubles, float_head. fold n'. rewrite S. reflexivity. }
    right. exists e. split; [exact J|]. split; [reflexivity|].
    assert (SG : Qlt_bool (as_signed v (p10 e)) 0 = Qlt_bool v 0).
    { unfold as_signed. destruct (Qlt_bool v 0); [destruct (Qlt_bool_spec (- p10 e) 0); [reflexivity|lra]|destruct (Qlt_bool_spec (p10 e) 0); [lra|reflexivity]]. }
    assert (AB : Qabs (as_signed v (p10 e)) = p10 e).
    { unfold as_signed. destruct (Qlt_bool v 0); [|now apply abs_lit]. transitivity (Qabs (p10 e)); [|now apply abs_lit].
      unfold Qabs, Qopp. destruct (p10 e) as [p q]. cbn. now rewrite Z.abs_opp. }
    assert (ZS : Qeq_bool (as_signed v (p10 e)) 0 = false).
    { unfold as_signed. destruct (Qlt_bool v 0); apply eqb_nz; lra. }
    assert (NX : ~ (Qlt_bool (Qabs v) 1 = true /\ n' = 1)).
    { intros [K1 K2]. rewrite K1, K2 in S. discriminate. }
    assert (S2 : Qlt_bool (p10 e) 1 && (n' =? 1) = false).
    { apply andb_false_iff. destruct (Z.eqb_spec n' 1) as [K|K]; [left|now right]. destruct (Qlt_bool_spec (p10 e) 1) as [C|C]; [|reflexivity].
      exfalso. apply NX. split; [|exact K]. destruct (Qlt_bool_spec (Qabs v) 1) as [|C2]; [reflexivity|]. destruct J. lra. }
    unfold plain_doubles, auto_float_no_exp, head_doubles, float_head. rewrite SG, AB, Z0, ZS. fold n'. rewrite S, S2. fold e.
    rewrite (log_is (p10 e) e P (power_magnitude e)).
    destruct (n <? -1); [reflexivity|]. destruct (n' =? 0); [reflexivity|]. destruct (Z.ltb_spec (n' - 1) e); [reflexivity|].
    apply plain_near; [exact NP|unfold n'; destruct (Qlt_bool v 0); lia|].
    intros [K1 K2]. apply NX. split; [|exact K2]. destruct (Qlt_bool_spec (Qabs v) 1) as [|C]; [reflexivity|]. exfalso. apply C.
    destruct J. pose proof (p10_le e 0 ltac:(lia)) as Q1. change (p10 0) with 1%Q in Q1. lra.
  Qed.
End Library.
