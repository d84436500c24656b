(** Proofs about numbers formatted with doubles *)
From Coq Require Import List Arith NArith ZArith QArith Qabs Qround Qpower Bool Lia Lqa.
From Verif.Model Require Import Base Color TimeDelta TimeFloat FloatText FloatDoubles.
From Verif.Spec Require Import Numbers FloatText Doubles Logarithm.
From Verif.Proof Require Import BaseFacts TokFacts BinClaims DurationFacts FloatFacts FloatClaims UnitFacts UnitClaims RoundFacts FloatDoubleFacts.
Import ListNotations.
Local Open Scope Z_scope.

Lemma sign_bool v : (if Qlt_bool v 0 then [45%N] else []) = minus_sign v.
Proof. unfold minus_sign. destruct (Qlt_bool_spec v 0), (Qlt_le_dec v 0); try reflexivity; lra. Qed.
Lemma room_bool v n : (if Qlt_bool v 0 then n - 1 else n) = room_of v n.
Proof. unfold room_of. destruct (Qlt_bool_spec v 0), (Qlt_le_dec v 0); try reflexivity; lra. Qed.
Lemma abs_nz v : ~ (v == 0)%Q -> (0 < Qabs v)%Q.
Proof.
  intros NZ. pose proof (Qabs_nonneg v). destruct (Qlt_le_dec 0 (Qabs v)) as [K|K]; [exact K|]. exfalso. apply NZ. apply Qabs_Qle_condition in K. lra.
Qed.

(** ** 10 itself *)
Lemma ten_shown a m : near_power a 1 -> 2 <= m <= 12 -> exists s q, plain_float [] a m 1 = Ok s /\ numeral s q /\ (q == 10)%Q.
Proof.
  intros H M. pose proof (near_pos a 1 H) as P. unfold plain_float. change (Z.max 1 (1 + 1)) with 2. destruct (Z.eqb_spec 2 m) as [<-|E].
  - exists (wide 2 (fixed 0 a)), (inject_Z (rounded 0 a) * p10 (- 0))%Q.
    assert (R : rounded 0 a = 10) by (rewrite (rounded_power 0 a 1 H) by lia; reflexivity).
    split; [|split; [apply numeral_fixed; [lia|lra]|rewrite R; reflexivity]]. unfold wide at 1. rewrite zlen_rjust, fixed_len, R by lia. reflexivity.
  - destruct (Z.ltb_spec (m - 2 - 1) 0); [lia|]. set (d := m - 2 - 1) in *.
    exists (wide m (fixed d a)), (inject_Z (rounded d a) * p10 (- d))%Q. split; [reflexivity|]. split; [apply numeral_fixed; [lia|lra]|].
    rewrite (rounded_power d a 1 H) by lia. destruct (Z.ltb_spec (1 + d) 0); [lia|]. rewrite p10_inj by lia.
    rewrite <- p10_plus. replace (1 + d + - d) with 1 by lia. reflexivity.
Qed.

Section Library.
  Variable lg : Q -> Z.
  Variable pw : Z -> Q.
  Hypothesis ACC : accurate lg.
  Hypothesis POW : close_powers pw.

  Lemma plain_positive x n : (0 < x)%Q -> 2 <= n -> plain_doubles lg x n = if n - 1 <? lg x then Err ValueError else plain_float [] x n (lg x).
  Proof.
    intros H N. unfold plain_doubles, head_doubles. destruct (v_flags x H) as (F1 & F2 & _). rewrite F1, F2, (abs_lit x H).
    destruct (Z.ltb_spec n (-1)); [lia|]. destruct (Z.eqb_spec n 0); [lia|]. destruct (Z.eqb_spec n 1); [lia|]. rewrite andb_false_r. reflexivity.
  Qed.

  (** ** the significand *)
  Lemma digits_shown x m : double x -> (1 - (1 # 1000000000) <= x)%Q -> (x <= 10 + (1 # 1000000000000))%Q -> 2 <= m <= 10 ->
    exists s q, plain_doubles lg x m = Ok s /\ numeral s q /\ (Qabs (q - x) <= (1 # 2) * p10 (- (m - 2)) + (10 # 1099511627776))%Q.
  Proof.
    intros D L H M. assert (P : (0 < x)%Q) by lra. rewrite (plain_positive x m P) by lia. pose proof (p10_pos (- (m - 2))) as PM.
    assert (SH : forall y e, magnitude y e -> (0 < y)%Q -> e <= 0 -> (Qabs (y - x) <= 10 # 1099511627776)%Q ->
      exists s q, plain_float [] y m e = Ok s /\ numeral s q /\ (Qabs (q - x) <= (1 # 2) * p10 (- (m - 2)) + (10 # 1099511627776))%Q).
    { intros y e MY PY E0 C. destruct (plain_spec [] y m e ltac:(lia) ltac:(lia) PY MY) as (s & q & R & NU & _ & _ & _ & T2).
      exists s, q. split; [exact R|]. split; [exact NU|]. specialize (T2 ltac:(unfold int_digits; lia)).
      replace (m - int_digits e - 1) with (m - 2) in T2 by (unfold int_digits; lia). apply Qabs_Qle_condition in T2, C. apply Qabs_Qle_condition. split; lra. }
    assert (TEN : near_power x 1 -> lg x = 1 ->
      exists s q, (if m - 1 <? lg x then Err ValueError else plain_float [] x m (lg x)) = Ok s /\ numeral s q /\ (Qabs (q - x) <= (1 # 2) * p10 (- (m - 2)) + (10 # 1099511627776))%Q).
    { intros NP ->. destruct (Z.ltb_spec (m - 1) 1); [lia|]. destruct (ten_shown x m NP ltac:(lia)) as (s & q & R & NU & E). exists s, q.
      split; [exact R|]. split; [exact NU|]. unfold near_power in NP. change (p10 1) with 10%Q in NP. apply Qabs_Qle_condition in NP. apply Qabs_Qle_condition. rewrite E. split; lra. }
    destruct (log_cases lg ACC x D P) as [E|J].
    - pose proof (log_spec x P) as MX. rewrite <- E in MX. clear E.
      destruct (Qlt_le_dec x 10) as [C|C].
      + assert (-1 <= lg x < 1) by (apply (mag_between x (lg x) (-1) 1 MX); [change (p10 (-1)) with (1 # 10)%Q; lra|exact C]).
        destruct (Z.ltb_spec (m - 1) (lg x)); [lia|]. apply SH; [exact MX|exact P|lia|].
        setoid_replace (x - x)%Q with 0%Q by ring. discriminate.
      + assert (1 <= lg x < 2) by (apply (mag_between x (lg x) 1 2 MX); [exact C|change (p10 2) with 100%Q; lra]).
        apply TEN; [|lia]. unfold near_power. change (p10 1) with 10%Q. apply Qabs_Qle_condition. split; lra.
    - pose proof (just_below_near _ _ J) as NP. set (e := lg x) in *. destruct J as [J1 J2].
      assert (E0 : 0 <= e). { assert (-1 < e); [|lia]. apply p10_lt_inv. change (p10 (-1)) with (1 # 10)%Q. lra. }
      assert (E1 : e < 2). { apply p10_lt_inv. change (p10 2) with 100%Q. lra. }
      destruct (Z.eq_dec e 1) as [C|C]; [rewrite C in NP; apply TEN; [exact NP|exact C]|].
      assert (e = 0) as EZ by lia. destruct (Z.ltb_spec (m - 1) e); [lia|]. rewrite (plain_near [] x e m NP) by lia.
      rewrite EZ in *. change (p10 0) with 1%Q in *. apply (SH 1%Q 0); [exact (power_magnitude 0)|reflexivity|lia|]. apply Qabs_Qle_condition. split; lra.
  Qed.

  Lemma log_range a e : double a -> (0 < a)%Q -> lg a = e -> (1 - (1 # 1099511627776) <= a / p10 e)%Q /\ (a / p10 e < 10)%Q.
  Proof.
    intros D P E. pose proof (p10_pos e) as PE.
    assert (B : ((1 - (1 # 1099511627776)) * p10 e <= a /\ a < 10 * p10 e)%Q).
    { destruct (log_cases lg ACC a D P) as [K|J].
      - pose proof (log_spec a P) as [M1 M2]. rewrite <- K, E in *. rewrite p10_S in M2. lra.
      - rewrite E in J. destruct J. lra. }
    split; [apply Qle_shift_div_l|apply Qlt_shift_div_r]; tauto.
  Qed.
  Lemma power_close e : -307 <= e -> (Qabs ((if 0 <=? e then round64 (inject_Z (10 ^ e)) else pw e) - p10 e) <= (1 # 1125899906842624) * p10 e)%Q.
  Proof.
    intros E. pose proof (p10_pos e) as P. destruct (Z.leb_spec 0 e) as [L|L]; [|apply POW; lia].
    assert (T : (Qabs (inject_Z (10 ^ e)) == p10 e)%Q) by (rewrite Qabs_pos by (rewrite p10_inj by lia; lra); now apply p10_inj).
    pose proof (round64_rel (inject_Z (10 ^ e))) as R. rewrite T in R.
    assert (X : (pow2 (-1022) <= p10 e)%Q).
    { pose proof (p10_le 0 e L) as A. change (p10 0) with 1%Q in A. pose proof (pow2_le (-1022) 0 ltac:(lia)) as B. change (pow2 0) with 1%Q in B. lra. }
    specialize (R X). set (r := round64 (inject_Z (10 ^ e))) in *. clearbody r. pose proof (p10_inj e L) as I. rewrite I in R.
    apply Qabs_Qle_condition in R. apply Qabs_Qle_condition. split; lra.
  Qed.
  Lemma significand_shown a e : double a -> (0 < a)%Q -> lg a = e -> -307 <= e ->
    exists x, significand_doubles pw a e = Ok x /\ double x /\ (Qabs (x - a / p10 e) <= 1 # 50000000000000)%Q.
  Proof.
    intros D P E E7. pose proof (power_close e E7) as C. pose proof (log_range a e D P E) as [R1 R2]. pose proof (p10_pos e) as PE.
    unfold significand_doubles. set (p := if 0 <=? e then _ else _) in *. clearbody p. apply Qabs_Qle_condition in C.
    rewrite eqb_nz by lra. exists (round64 (a / p)). split; [reflexivity|].
    set (y := (a / p10 e)%Q) in *. assert (A : (a == y * p10 e)%Q) by (unfold y; field; lra).
    assert (Q1 : ((1 - (1 # 562949953421312)) * y <= a / p)%Q).
    { apply Qle_shift_div_l; [lra|]. rewrite A. nra. }
    assert (Q2 : (a / p <= (1 + (1 # 562949953421312)) * y)%Q).
    { apply Qle_shift_div_r; [lra|]. rewrite A. nra. }
    assert (AP : (Qabs (a / p) == a / p)%Q) by (apply Qabs_pos; lra).
    pose proof (round64_rel (a / p)) as R. rewrite AP in R. assert (X : (pow2 (-1022) <= a / p)%Q).
    { pose proof (pow2_le (-1022) (-1) ltac:(lia)) as B. change (pow2 (-1)) with (1 # 2)%Q in B. lra. }
    specialize (R X). apply Qabs_Qle_condition in R. split.
    - apply round64_closest. apply Qabs_Qlt_condition. pose proof (pow2_le 10 1024 ltac:(lia)) as B. change (pow2 10) with 1024%Q in B. split; lra.
    - apply Qabs_Qle_condition. split; lra.
  Qed.

  Lemma exponent_shown v n e : double v -> ~ (v == 0)%Q -> lg (Qabs v) = e -> -307 <= e -> room_of v n <= 12 ->
    ~ written_plain true (room_of v n) e -> 2 <= room_of v n ->
    (room_of v n < exponent_len e -> auto_doubles lg pw v n true = Ok (repeat 33%N (Z.to_nat n))) /\
    (room_of v n = exponent_len e -> auto_doubles lg pw v n true = Ok (minus_sign v ++ [101%N] ++ zdec e)) /\
    (exponent_len e + 2 <= room_of v n ->
      exists t q, auto_doubles lg pw v n true = Ok (minus_sign v ++ t) /\ read_float t = Some q /\
        (Qabs (q - Qabs v) <= (501 # 1000) * p10 (e - (room_of v n - exponent_len e - 2)))%Q).
  Proof.
    intros D NZ E E7 R12 W R2. pose proof (abs_nz v NZ) as P. pose proof (exponent_len_pos e) as XL.
    destruct (significand_shown (Qabs v) e (double_abs v D) P E E7) as (x & SX & DX & CX).
    destruct (log_range (Qabs v) e (double_abs v D) P E) as [L1 L2]. apply Qabs_Qle_condition in CX.
    assert (H : auto_doubles lg pw v n true =
      if room_of v n <? exponent_len e then Ok (repeat 33%N (Z.to_nat n))
      else match plain_doubles lg x (room_of v n - exponent_len e) with
           | Ok s => Ok (minus_sign v ++ s ++ [101%N] ++ zdec e)
           | Err ValueError => Ok (wide (room_of v n) (minus_sign v ++ [101%N] ++ zdec e))
           | Err y => Err y
           end).
    { unfold auto_doubles, exp_doubles, head_doubles. rewrite sign_bool, room_bool, E, (eqb_nz v NZ).
      assert (n >= room_of v n) by (unfold room_of; destruct (Qlt_le_dec v 0); lia).
      destruct (Z.ltb_spec n (-1)); [lia|]. destruct (Z.eqb_spec (room_of v n) 0); [lia|]. destruct (Z.eqb_spec (room_of v n) 1); [lia|].
      rewrite andb_false_r. replace ((e <? -2) || (room_of v n - 1 <? e)) with true.
      2:{ symmetry. apply orb_true_iff. rewrite !Z.ltb_lt. unfold written_plain in W. destruct (Z_lt_dec e (-2)); [now left|]. right. destruct (Z_lt_dec (room_of v n - 1) e); [lia|]. exfalso. apply W. split; lia. }
      rewrite exponent_len_eq. destruct (Z.ltb_spec (room_of v n) (exponent_len e)).
      - f_equal. f_equal. f_equal. unfold minus_sign, room_of. destruct (Qlt_le_dec v 0); unfold zlen; cbn [length]; lia.
      - rewrite SX. reflexivity. }
    rewrite H. split; [|split].
    - intros K. destruct (Z.ltb_spec (room_of v n) (exponent_len e)); [reflexivity|lia].
    - intros K. rewrite K, Z.ltb_irrefl, Z.sub_diag.
      assert (Z0 : plain_doubles lg x 0 = Ok []).
      { unfold plain_doubles, head_doubles. destruct (Qlt_bool_spec x 0); [lra|reflexivity]. }
      rewrite Z0. reflexivity.
    - intros K. destruct (Z.ltb_spec (room_of v n) (exponent_len e)); [lia|]. set (m := room_of v n - exponent_len e) in *.
      destruct (digits_shown x m DX ltac:(lra) ltac:(lra) ltac:(unfold m; lia)) as (s & q & R & NU & C). rewrite R.
      destruct (numeral_exp s q e NU) as (q' & RD & QE). exists (s ++ [101%N] ++ zdec e), q'. split; [reflexivity|]. split; [exact RD|].
      pose proof (p10_pos e) as PE.
      assert (DQ : (Qabs (q' - Qabs v) == Qabs (q - Qabs v / p10 e) * p10 e)%Q).
      { transitivity (Qabs ((q - Qabs v / p10 e) * p10 e)); [apply Qabs_wd|rewrite Qabs_Qmult, (Qabs_pos (p10 e)) by lra; reflexivity].
        rewrite QE. transitivity (q * p10 e - Qabs v / p10 e * p10 e)%Q; [rewrite p10_opp_div; reflexivity|ring]. }
      rewrite DQ. replace (e - (m - 2)) with (- (m - 2) + e) by lia. rewrite p10_plus, Qmult_assoc. apply Qmult_le_compat_r; [|lra].
      pose proof (p10_le (-8) (- (m - 2)) ltac:(unfold m; lia)) as P8. change (p10 (-8)) with (1 # 100000000)%Q in P8.
      apply Qabs_Qle_condition in C. apply Qabs_Qle_condition. split; lra.
  Qed.
End Library.
