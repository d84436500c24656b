(** The shortest digits of a double: there are some, 17 are enough, and where exponents are used *)
From Coq Require Import List Arith NArith ZArith QArith Qabs Qround Qpower Qfield Bool Lia Lqa.
From Verif.Model Require Import Base Filters ThousandFloat TimeFloat.
From Verif.Spec Require Import Numbers Filtered Doubles DecimalText FloatText.
From Verif.Proof Require Import BaseFacts RoundFacts FloatFacts LogFacts ThousandFloatClaims.
Import ListNotations.
Local Open Scope Q_scope.

Lemma abs_cases x : (0 <= x /\ Qabs x == x) \/ (x < 0 /\ Qabs x == - x).
Proof. destruct (Qlt_le_dec x 0); [right|left]; (split; [assumption|]); [apply Qabs_neg; lra|now apply Qabs_pos]. Qed.
(** rounding respects the order with respect to doubles *)
Lemma near_ge q a d : nearest q a -> double d -> d <= q -> d <= a.
Proof.
  intros (_ & C & _) D L. apply C in D. destruct (Qlt_le_dec a d) as [K|K]; [exfalso|exact K].
  destruct (abs_cases (q - a)) as [[? E1]|[? E1]], (abs_cases (q - d)) as [[? E2]|[? E2]]; rewrite E1, E2 in D; lra.
Qed.
Lemma near_le q a d : nearest q a -> double d -> q <= d -> a <= d.
Proof.
  intros (_ & C & _) D L. apply C in D. destruct (Qlt_le_dec d a) as [K|K]; [exfalso|exact K].
  destruct (abs_cases (q - a)) as [[? E1]|[? E1]], (abs_cases (q - d)) as [[? E2]|[? E2]]; rewrite E1, E2 in D; lra.
Qed.
Lemma near_self a : double a -> nearest a a.
Proof.
  intros D. split; [exact D|]. assert (Z : Qabs (a - a) == 0) by (setoid_replace (a - a) with 0 by ring; reflexivity). split.
  - intros z _. rewrite Z. apply Qabs_nonneg.
  - intros z _ E N. rewrite Z in E. exfalso. apply N. destruct (abs_cases (a - z)) as [[? K]|[? K]]; rewrite K in E; lra.
Qed.
Lemma one_digit ds : digital ds -> (length ds <= 1)%nat -> exists d, ds = [d] /\ (d <= 9)%N.
Proof. intros [E D] L. destruct D as [|d ds H D]; [easy|]. destruct ds; [|cbn in L; lia]. now exists d. Qed.

(** ** large numbers *)
Lemma large_double : double (ten 16).
Proof. exists (152587890625 * 2 ^ 14)%Z, 2%Z. split; [reflexivity|]. split; [lia|]. reflexivity. Qed.
Lemma large_reads : Reads (ten 16) [1%N] 17.
Proof.
  split; [split; [discriminate|repeat constructor; lia]|]. split; [discriminate|]. split.
  - unfold denoted. reflexivity.
  - apply (nearest_left (ten 16)); [reflexivity|]. apply near_self, large_double.
Qed.
Lemma near_same q a b : a == b -> nearest q a -> nearest q b.
Proof. intros E H. exact (nearest_ext q a b E H). Qed.
Lemma reads_same a b ds p : a == b -> Reads a ds p -> Reads b ds p.
Proof. intros E (D & H & L & R). split; [exact D|]. split; [exact H|]. split; [exact L|]. exact (near_same _ _ _ E R). Qed.
Lemma large a ds p : Shortest a ds p -> ((16 < p)%Z <-> ten 16 <= a).
Proof.
  intros [(D & H & L & R) M]. destruct (denoted_range ds p D H) as [B1 B2]. split.
  - intros P. apply (near_ge _ _ _ R large_double). apply Qle_trans with (2 := B1). apply ten_le. lia.
  - intros A. destruct (Z_lt_ge_dec 16 p) as [P|P]; [exact P|exfalso].
    pose proof (ten_le p 16 ltac:(lia)) as T. assert (U : a <= ten 16) by (apply (near_le _ _ _ R large_double); lra).
    assert (E : ten 16 == a) by lra. pose proof (M _ _ (reads_same _ _ _ _ E large_reads)) as K. destruct (one_digit ds D K) as (d & -> & Hd).
    assert (Q : denoted [d] p <= 9 * ten 15).
    { unfold denoted. apply Qle_trans with (inject_Z 9 * ten (p - Z.of_nat (length [d]))).
      - apply Qmult_le_compat_r; [|apply Qlt_le_weak, ten_pos]. apply inject_le. unfold whole_number. cbn [fold_left]. lia.
      - setoid_replace (9 * ten 15) with (ten 15 * 9) by ring. rewrite Qmult_comm. apply Qmult_le_compat_r; [|discriminate]. apply ten_le. cbn [length]. lia. }
    assert (D2 : double (inject_Z 9007199254740991)) by (apply double_Z; reflexivity).
    assert (Q2 : denoted [d] p <= inject_Z 9007199254740991) by (apply Qle_trans with (1 := Q); vm_compute; discriminate).
    pose proof (near_le _ _ _ R D2 Q2) as F. assert (G : inject_Z 9007199254740991 < ten 16) by reflexivity. lra.
Qed.

(** ** small numbers *)
Definition tenth_mille : Q := 7378697629483821 # 73786976294838206464.
Lemma small_near : nearest (ten (-4)) tenth_mille.
Proof.
  assert (E : round64 (ten (-4)) == tenth_mille) by (vm_compute; reflexivity).
  apply (nearest_ext _ (round64 (ten (-4)))); [exact E|]. apply round64_nearest. rewrite E. reflexivity.
Qed.
Lemma small_reads : Reads tenth_mille [1%N] (-3).
Proof.
  split; [split; [discriminate|repeat constructor; lia]|]. split; [discriminate|]. split; [reflexivity|].
  apply (nearest_left (ten (-4))); [reflexivity|]. exact small_near.
Qed.
Lemma small a ds p : Shortest a ds p -> ((p <= -4)%Z <-> a < ten (-4)).
Proof.
  intros [(D & H & L & R) M]. destruct (denoted_range ds p D H) as [B1 B2]. pose proof (proj1 R) as DA.
  assert (T0 : ten (-4) < tenth_mille) by reflexivity. pose proof small_near as (DT & CT & _). split.
  - intros P. destruct (Qlt_le_dec a (ten (-4))) as [A|A]; [exact A|exfalso].
    assert (A2 : tenth_mille <= a).
    { specialize (CT a DA). destruct (abs_cases (ten (-4) - tenth_mille)) as [[? E1]|[? E1]], (abs_cases (ten (-4) - a)) as [[? E2]|[? E2]]; rewrite E1, E2 in CT; lra. }
    pose proof (ten_le p (-4) P) as T. assert (U : a <= tenth_mille) by (apply (near_le _ _ _ R DT); lra).
    assert (E : tenth_mille == a) by lra. pose proof (M _ _ (reads_same _ _ _ _ E small_reads)) as K. destruct (one_digit ds D K) as (d & -> & Hd).
    assert (Q : denoted [d] p <= 9 * ten (-5)).
    { unfold denoted. apply Qle_trans with (inject_Z 9 * ten (p - Z.of_nat (length [d]))).
      - apply Qmult_le_compat_r; [|apply Qlt_le_weak, ten_pos]. apply inject_le. unfold whole_number. cbn [fold_left]. lia.
      - setoid_replace (9 * ten (-5)) with (ten (-5) * 9) by ring. rewrite Qmult_comm. apply Qmult_le_compat_r; [|discriminate]. apply ten_le. cbn [length]. lia. }
    assert (D2 : double (100 # 1048576)) by (exists 100%Z, (-20)%Z; split; [reflexivity|]; split; [lia|reflexivity]).
    assert (Q2 : denoted [d] p <= 100 # 1048576) by (apply Qle_trans with (1 := Q); vm_compute; discriminate).
    pose proof (near_le _ _ _ R D2 Q2) as F. assert (G : 100 # 1048576 < ten (-4)) by reflexivity. lra.
  - intros A. destruct (Z_le_gt_dec p (-4)) as [P|P]; [exact P|exfalso].
    assert (Q : ten (-4) <= denoted ds p) by (apply Qle_trans with (2 := B1); apply ten_le; lia).
    destruct (Qeq_dec (denoted ds p) (ten (-4))) as [E|NE].
    + pose proof (nearest_unique _ _ _ (nearest_left _ _ _ E R) small_near). lra.
    + specialize (CT a DA). pose proof (proj1 (proj2 R) _ DT) as CR.
      destruct (abs_cases (ten (-4) - tenth_mille)) as [[? E1]|[? E1]], (abs_cases (ten (-4) - a)) as [[? E2]|[? E2]]; rewrite E1, E2 in CT; try lra.
      destruct (abs_cases (denoted ds p - a)) as [[? E3]|[? E3]], (abs_cases (denoted ds p - tenth_mille)) as [[? E4]|[? E4]]; rewrite E3, E4 in CR; lra.
Qed.
Theorem notation a ds p : Shortest a ds p -> (far p = true <-> a < ten (-4) \/ ten 16 <= a).
Proof.
  intros S. rewrite <- (small a ds p S), <- (large a ds p S). unfold far. rewrite orb_true_iff, Z.leb_le, Z.ltb_lt. reflexivity.
Qed.

(** ** seventeen digits *)
Lemma multiples_apart m n u : 0 < u -> ~ inject_Z m * u == inject_Z n * u -> u <= Qabs (inject_Z m * u - inject_Z n * u).
Proof.
  intros U N. setoid_replace (inject_Z m * u - inject_Z n * u) with (inject_Z (m - n) * u) by (unfold Z.sub; rewrite inject_Z_plus, inject_Z_opp; ring).
  rewrite Qabs_Qmult, (Qabs_pos u) by lra. change (Qabs (inject_Z (m - n))) with (inject_Z (Z.abs (m - n))).
  setoid_replace u with (1 * u) at 1 by ring. apply Qmult_le_compat_r; [|lra]. change 1 with (inject_Z 1). apply inject_le.
  assert (m <> n) by (intros ->; apply N; reflexivity). lia.
Qed.
Lemma scaled_lt m e k : (Z.abs m < 2 ^ 53)%Z -> (53 + e <= k)%Z -> Qabs (inject_Z m * pow2 e) < pow2 k.
Proof.
  intros M H. rewrite Qabs_Qmult, (Qabs_pos (pow2 e)) by (apply Qlt_le_weak, pow2_pos). change (Qabs (inject_Z m)) with (inject_Z (Z.abs m)).
  apply Qlt_le_trans with (pow2 53 * pow2 e); [apply qmul_lt; [apply pow2_pos|]; rewrite pow2_Z by lia; now apply inject_lt|]. rewrite <- pow2_add. now apply pow2_le.
Qed.
(** the distance of other doubles *)
Lemma doubles_apart a z : double a -> 0 < a -> double z -> ~ z == a ->
  let k := scale_exp a in pow2 (k - 53) <= Qabs (z - a) /\ (~ a == pow2 k -> pow2 (k - 52) <= Qabs (z - a)).
Proof.
  intros DA PA (m & e & M & E & X) N k. fold (pow2 e) in X. destruct (double_multiple a DA ltac:(lra)) as [n A]. rewrite ulp_eq in A. fold k in A.
  assert (H1 : pow2 (k - 53) <= pow2 (k - 52)) by (apply pow2_le; lia).
  destruct (Z_le_gt_dec (k - 52) e) as [L|G].
  - destruct (pow2_multiple e (k - 52) L) as [j J].
    assert (K : pow2 (k - 52) <= Qabs (z - a)).
    { rewrite X, A, J, Qmult_assoc, <- inject_Z_mult. apply multiples_apart; [apply pow2_pos|]. intros Q. apply N. rewrite X, A, J, Qmult_assoc, <- inject_Z_mult. exact Q. }
    split; [lra|auto].
  - destruct (scale_bounds a ltac:(lra)) as [[S|S] _]; fold k in S; [lia|]. rewrite Qabs_pos in S by lra.
    assert (K : Qabs z < pow2 k) by (rewrite X; apply scaled_lt; [exact M|lia]).
    assert (ZL : z < pow2 k) by (destruct (abs_cases z) as [[? Q]|[? Q]]; lra).
    assert (B : ~ a == pow2 k -> pow2 (k - 52) <= a - pow2 k).
    { intros NA. destruct (pow2_multiple k (k - 52) ltac:(lia)) as [j J]. 
      assert (F : pow2 (k - 52) <= Qabs (a - pow2 k)) by (rewrite A, J; apply multiples_apart; [apply pow2_pos|]; intros Q; apply NA; now rewrite A, J).
      rewrite Qabs_pos in F by lra. exact F. }
    assert (AB : Qabs (z - a) == a - z) by (destruct (abs_cases (z - a)) as [[? Q]|[? Q]]; lra).
    split; [|intros NA; specialize (B NA); rewrite AB; lra].
    destruct (Qeq_dec a (pow2 k)) as [EA|NA]; [|specialize (B NA); rewrite AB; lra].
    destruct (Z.eq_dec e (k - 53)) as [EE|EE].
    + subst e. destruct (pow2_multiple k (k - 53) ltac:(lia)) as [j J]. rewrite X, EA, J. apply multiples_apart; [apply pow2_pos|].
      intros Q. apply N. now rewrite X, EA, J.
    + assert (K2 : Qabs z < pow2 (k - 1)) by (rewrite X; apply scaled_lt; [exact M|lia]).
      assert (z < pow2 (k - 1)) by (destruct (abs_cases z) as [[? Q]|[? Q]]; lra).
      pose proof (pow2_half k). pose proof (pow2_le (k - 53) (k - 1) ltac:(lia)). rewrite AB. lra.
Qed.
Lemma close_nearest a q : double a -> 0 < a -> Qabs (q - a) <= (1 # 20000000000000000) * a -> nearest q a.
Proof.
  intros DA PA H. set (k := scale_exp a).
  assert (C : forall z, double z -> ~ z == a -> Qabs (q - a) < Qabs (q - z)).
  { intros z DZ N. destruct (doubles_apart a z DA PA DZ N) as [B1 B2]. fold k in B1, B2.
    assert (F : 2 * Qabs (q - a) < Qabs (z - a)).
    { destruct (Qeq_dec a (pow2 k)) as [E|NE].
      - apply Qlt_le_trans with (2 := B1). replace (k - 53)%Z with (-53 + k)%Z by lia. rewrite pow2_add, <- E.
        apply Qle_lt_trans with ((2 # 20000000000000000) * a); [lra|]. apply Qmult_lt_compat_r; [exact PA|]. reflexivity.
      - specialize (B2 NE). apply Qlt_le_trans with (2 := B2). destruct (scale_bounds a ltac:(lra)) as [_ S]. fold k in S. rewrite Qabs_pos in S by lra.
        rewrite pow2_S in S. replace (k - 52)%Z with (-52 + k)%Z by lia. rewrite pow2_add. pose proof (pow2_pos k) as P.
        apply Qle_lt_trans with ((4 # 20000000000000000) * pow2 k); [lra|]. apply Qmult_lt_compat_r; [exact P|]. reflexivity. }
    assert (T : Qabs (z - a) <= Qabs (q - z) + Qabs (q - a)).
    { setoid_replace (z - a) with (- (q - z) + (q - a)) by ring. eapply Qle_trans; [apply Qabs_triangle|]. rewrite Qabs_opp. lra. }
    lra. }
  split; [exact DA|]. split.
  - intros z DZ. destruct (Qeq_dec z a) as [E|N]; [rewrite E; lra|]. pose proof (C z DZ N). lra.
  - intros z DZ E N. pose proof (C z DZ N). lra.
Qed.
Lemma double_top a : double a -> a <= pow2 1024 - pow2 971.
Proof.
  intros (m & e & M & E & X). fold (pow2 e) in X. setoid_replace (pow2 1024 - pow2 971) with (inject_Z (2 ^ 53 - 1) * pow2 971).
  2:{ unfold Z.sub. rewrite inject_Z_plus. replace 1024%Z with (53 + 971)%Z by lia. rewrite pow2_add, pow2_Z by lia. change (inject_Z (- (1))) with (- 1). ring. }
  rewrite X. apply Qle_trans with (inject_Z (2 ^ 53 - 1) * pow2 e).
  - apply qmul_le; [apply Qlt_le_weak, pow2_pos|]. apply inject_le. lia.
  - rewrite !(Qmult_comm (inject_Z (2 ^ 53 - 1))). apply qmul_le; [vm_compute; discriminate|]. apply pow2_le. lia.
Qed.
Lemma digits_of_number m n : (10 ^ Z.of_nat n <= m < 10 ^ Z.of_nat (S n))%Z -> exists ds, digital ds /\ hd 0%N ds <> 0%N /\ length ds = S n /\ whole_number ds = m.
Proof.
  revert m. induction n as [|n IH]; intros m H.
  - exists [Z.to_N m]. change (10 ^ Z.of_nat 0)%Z with 1%Z in H. change (10 ^ Z.of_nat 1)%Z with 10%Z in H. split; [split; [discriminate|repeat constructor; lia]|].
    split; [cbn; lia|]. split; [reflexivity|]. unfold whole_number. cbn [fold_left]. lia.
  - rewrite (Nat2Z.inj_succ (S n)), (Nat2Z.inj_succ n), !Z.pow_succ_r in H by lia.
    pose proof (Z.div_mod m 10 ltac:(lia)) as DM. pose proof (Z.mod_pos_bound m 10 ltac:(lia)) as MB.
    destruct (IH (m / 10)%Z) as (ds & [D1 D2] & D3 & D4 & D5).
    { rewrite Nat2Z.inj_succ, Z.pow_succ_r by lia. lia. }
    exists (ds ++ [Z.to_N (m mod 10)]). split; [apply digital_app; [now split|repeat constructor; lia]|].
    split; [destruct ds; [easy|exact D3]|]. split; [rewrite app_length, D4; cbn; lia|]. rewrite value_app, D5. cbn [length]. unfold whole_number. cbn [fold_left]. lia.
Qed.
Theorem seventeen a : double a -> 0 < a -> exists ds p, (length ds <= 17)%nat /\ Reads a ds p.
Proof.
  intros DA PA. assert (exists e, ten e <= a /\ a < ten (e + 1)) as (e & B1 & B2) by (eexists; exact (log_spec a PA)).
  set (u := ten (e - 16)). assert (PU : 0 < u) by apply ten_pos. set (m := nearest_int (a / u)).
  assert (M : Qabs (a / u - inject_Z m) <= 1 # 2) by apply nearest_int_near.
  assert (E16 : ten e == inject_Z (10 ^ 16) * u) by (rewrite <- ten_Z by lia; unfold u; rewrite <- ten_add; replace (16 + (e - 16))%Z with e by lia; reflexivity).
  assert (E17 : ten (e + 1) == inject_Z (10 ^ 17) * u) by (rewrite <- ten_Z by lia; unfold u; rewrite <- ten_add; replace (17 + (e - 16))%Z with (e + 1)%Z by lia; reflexivity).
  assert (AU : a == a / u * u) by (field; lra).
  assert (L1 : inject_Z (10 ^ 16) <= a / u) by (apply Qle_shift_div_l; [exact PU|]; lra).
  assert (L2 : a / u < inject_Z (10 ^ 17)) by (apply Qlt_shift_div_r; [exact PU|]; lra).
  assert (R1 : (10 ^ 16 <= m)%Z).
  { assert (Q : inject_Z (10 ^ 16) - 1 < inject_Z m) by (destruct (abs_cases (a / u - inject_Z m)) as [[? K]|[? K]]; lra).
    change (inject_Z (10 ^ 16) - 1) with (inject_Z (10 ^ 16 - 1)) in Q. rewrite <- Zlt_Qlt in Q. lia. }
  assert (R2 : (m <= 10 ^ 17)%Z).
  { assert (Q : inject_Z m < inject_Z (10 ^ 17) + 1) by (destruct (abs_cases (a / u - inject_Z m)) as [[? K]|[? K]]; lra).
    change (inject_Z (10 ^ 17) + 1) with (inject_Z (10 ^ 17 + 1)) in Q. rewrite <- Zlt_Qlt in Q. lia. }
  assert (K : exists ds p, (length ds <= 17)%nat /\ digital ds /\ hd 0%N ds <> 0%N /\ denoted ds p == inject_Z m * u).
  { destruct (Z.eq_dec m (10 ^ 17)) as [EM|NM].
    - exists [1%N], (e + 2)%Z. split; [cbn; lia|]. split; [split; [discriminate|repeat constructor; lia]|]. split; [discriminate|].
      unfold denoted. cbn [length]. rewrite EM, <- E17. change (whole_number [1%N]) with 1%Z. change (inject_Z 1) with 1. replace (e + 2 - Z.of_nat 1)%Z with (e + 1)%Z by lia. ring.
    - destruct (digits_of_number m 16) as (ds & D1 & D2 & D3 & D4); [change (Z.of_nat 16) with 16%Z; change (Z.of_nat 17) with 17%Z; lia|].
      exists ds, (e + 1)%Z. split; [lia|]. split; [exact D1|]. split; [exact D2|]. unfold denoted. rewrite D4, D3. unfold u. now replace (e + 1 - Z.of_nat 17)%Z with (e - 16)%Z by lia. }
  destruct K as (ds & p & K1 & K2 & K3 & K4). exists ds, p. split; [exact K1|]. split; [exact K2|]. split; [exact K3|].
  assert (NE : Qabs (denoted ds p - a) <= (1 # 20000000000000000) * a).
  { rewrite K4. rewrite AU at 1. setoid_replace (inject_Z m * u - a / u * u) with (- ((a / u - inject_Z m) * u)) by ring. rewrite Qabs_opp, Qabs_Qmult, (Qabs_pos u) by lra.
    apply Qle_trans with ((1 # 2) * u); [apply Qmult_le_compat_r; lra|].
    assert (U : u <= (1 # 10000000000000000) * a).
    { rewrite E16 in B1. change (inject_Z (10 ^ 16)) with 10000000000000000 in B1. lra. }
    lra. }
  split; [|now apply close_nearest].
  assert (N2 : denoted ds p <= a + (1 # 20000000000000000) * a) by (destruct (abs_cases (denoted ds p - a)) as [[? Q]|[? Q]]; lra).
  pose proof (double_top a DA) as TP. change ((2 # 1) ^ 1024) with (pow2 1024). change ((2 # 1) ^ 970) with (pow2 970).
  pose proof (pow2_half 971) as H971. replace (971 - 1)%Z with 970%Z in H971 by lia.
  assert (S : (1 # 20000000000000000) * pow2 1024 < pow2 970) by (vm_compute; reflexivity).
  pose proof (pow2_pos 970). pose proof (pow2_pos 971).
  assert ((1 # 20000000000000000) * a <= (1 # 20000000000000000) * pow2 1024) by lra. lra.
Qed.

(** ** there are shortest ones *)
Fixpoint all_digits (n : nat) : list (list N) :=
  match n with
  | O => [[]]
  | S n => flat_map (fun ds => map (fun d => d :: ds) [0; 1; 2; 3; 4; 5; 6; 7; 8; 9]%N) (all_digits n)
  end.
Lemma all_digits_in ds : Forall (fun d => (d <= 9)%N) ds -> In ds (all_digits (length ds)).
Proof.
  induction 1 as [|d ds H _ IH]; [now left|]. cbn [length all_digits]. apply in_flat_map. exists ds. split; [exact IH|].
  apply in_map_iff. exists d. split; [reflexivity|]. assert (K : (d = 0 \/ d = 1 \/ d = 2 \/ d = 3 \/ d = 4 \/ d = 5 \/ d = 6 \/ d = 7 \/ d = 8 \/ d = 9)%N) by lia. cbn [In]. intuition auto.
Qed.
Lemma all_digits_length n ds : In ds (all_digits n) -> length ds = n.
Proof.
  revert ds. induction n as [|n IH]; intros ds H; cbn [all_digits] in H.
  - destruct H as [<-|[]]. reflexivity.
  - apply in_flat_map in H as (l & H & K). apply in_map_iff in K as (d & <- & _). cbn [length]. f_equal. now apply IH.
Qed.
Lemma rounded_in_range q : q < pow2 1024 - pow2 970 -> 0 < q -> Qabs (round64 q) < pow2 1024.
Proof.
  intros L P. destruct (round64_near q ltac:(lra)) as (n & R & _ & B & _). rewrite <- R in B.
  destruct (scale_bounds q ltac:(lra)) as [S _]. rewrite Qabs_pos in S by lra.
  assert (U : ulp q <= pow2 971).
  { rewrite ulp_eq. apply pow2_le. destruct S as [S|S]; [lia|]. assert (pow2 (scale_exp q) < pow2 1024) as K by (pose proof (pow2_pos 970); lra). apply pow2_lt_inv in K. lia. }
  pose proof (pow2_half 971) as H971. replace (971 - 1)%Z with 970%Z in H971 by lia.
  assert (K : pow2 970 <= pow2 1024) by (apply pow2_le; lia).
  destruct (abs_cases (q - round64 q)) as [[? Q]|[? Q]], (abs_cases (round64 q)) as [[? Q']|[? Q']]; lra.
Qed.
Lemma digit_dec (d : N) : {(d <= 9)%N} + {~ (d <= 9)%N}.
Proof. destruct (d <=? 9)%N eqn:E; [left; now apply N.leb_le|right; now apply N.leb_nle]. Qed.
Lemma reads_dec a ds p : {Reads a ds p} + {~ Reads a ds p}.
Proof.
  assert (DG : {digital ds} + {~ digital ds}).
  { unfold digital. destruct ds as [|d ds]; [right; intros [K _]; now apply K|]. destruct (Forall_dec (fun d => (d <= 9)%N) digit_dec (d :: ds)) as [K|K].
    - left. split; [discriminate|exact K].
    - right. intros [_ Q]. now apply K. }
  destruct DG as [D|D]; [|right; intros (K & _); now apply D].
  destruct (N.eq_dec (hd 0%N ds) 0) as [H|H]; [right; intros (_ & K & _); now apply K|].
  destruct (Qlt_le_dec (denoted ds p) (pow2 1024 - pow2 970)) as [L|L].
  2:{ right. intros (_ & _ & K & _). change ((2 # 1) ^ 1024) with (pow2 1024) in K. change ((2 # 1) ^ 970) with (pow2 970) in K. lra. }
  assert (P : 0 < denoted ds p) by (destruct (denoted_range ds p D H); pose proof (ten_pos (p - 1)); lra).
  pose proof (round64_nearest _ (rounded_in_range _ L P)) as N.
  destruct (Qeq_dec (round64 (denoted ds p)) a) as [E|E].
  - left. split; [exact D|]. split; [exact H|]. split; [exact L|]. exact (nearest_ext _ _ _ E N).
  - right. intros (_ & _ & _ & K). apply E. exact (nearest_unique _ _ _ N K).
Qed.
(** the position of the point is not far away *)
Lemma tiny_not q a : 0 < a -> double a -> 0 < q -> q < ten (-400) -> ~ nearest q a.
Proof.
  intros PA DA PQ LQ (_ & C & _). assert (D0 : double 0) by (exists 0%Z, 0%Z; split; [reflexivity|]; split; [lia|reflexivity]).
  specialize (C 0 D0). assert (AL : ten (-399) <= a).
  { assert (exists e, ten e <= a /\ a < ten (e + 1)) as (e & B1 & B2) by (eexists; exact (log_spec a PA)).
    pose proof (double_magnitude a e DA (conj B1 B2)) as B. apply Qle_trans with (2 := B1). apply ten_le. lia. }
  assert (T : ten (-399) == 10 * ten (-400)) by (replace (-399)%Z with (1 + -400)%Z by lia; rewrite ten_add; reflexivity).
  destruct (abs_cases (q - a)) as [[? E1]|[? E1]], (abs_cases (q - 0)) as [[? E2]|[? E2]]; rewrite E1, E2 in C; lra.
Qed.
Lemma reads_point a ds p : 0 < a -> double a -> Reads a ds p -> (-400 < p < 400)%Z.
Proof.
  intros PA DA (D & H & L & R). destruct (denoted_range ds p D H) as [B1 B2]. pose proof (ten_pos (p - 1)) as P. split.
  - destruct (Z_lt_ge_dec (-400) p) as [K|K]; [exact K|exfalso]. apply (tiny_not (denoted ds p) a PA DA); [lra| |exact R]. apply Qlt_le_trans with (1 := B2). apply ten_le. lia.
  - destruct (Z_lt_ge_dec p 400) as [K|K]; [exact K|exfalso]. pose proof (ten_le 399 (p - 1) ltac:(lia)) as T.
    assert (F : pow2 1024 < ten 399) by (vm_compute; reflexivity). change ((2 # 1) ^ 1024) with (pow2 1024) in L. change ((2 # 1) ^ 970) with (pow2 970) in L.
    pose proof (pow2_pos 970). lra.
Qed.
Definition points : list Z := map (fun i => Z.of_nat i - 400)%Z (seq 0 800).
Lemma points_in p : (-400 < p < 400)%Z -> In p points.
Proof. intros H. apply in_map_iff. exists (Z.to_nat (p + 400)). split; [lia|]. apply in_seq. lia. Qed.
Lemma length_dec a n : 0 < a -> double a -> {exists ds p, length ds = n /\ Reads a ds p} + {~ exists ds p, length ds = n /\ Reads a ds p}.
Proof.
  intros PA DA. destruct (Exists_dec (fun ds => Exists (fun p => Reads a ds p) points) (all_digits n)) as [H|H].
  - intros ds. apply Exists_dec. intros p. apply reads_dec.
  - left. apply Exists_exists in H as (ds & I & H). apply Exists_exists in H as (p & _ & H). exists ds, p. split; [now apply all_digits_length|exact H].
  - right. intros (ds & p & L & R). apply H. apply Exists_exists. exists ds. split; [subst n; apply all_digits_in; apply R|].
    apply Exists_exists. exists p. split; [|exact R]. apply points_in. exact (reads_point a ds p PA DA R).
Qed.
Theorem shortest_exists a : double a -> 0 < a -> exists ds p, Shortest a ds p.
Proof.
  intros DA PA. destruct (seventeen a DA PA) as (ds & p & _ & R). remember (length ds) as n eqn:E. revert ds p E R.
  induction n as [n IH] using (well_founded_induction lt_wf). intros ds p E R.
  assert (K : {exists m, (m < n)%nat /\ exists ds p, length ds = m /\ Reads a ds p} + {~ exists m, (m < n)%nat /\ exists ds p, length ds = m /\ Reads a ds p}).
  { clear IH E. induction n as [|n IHn]; [right; intros (m & L & _); lia|]. destruct (length_dec a n PA DA) as [H|H]; [left; exists n; split; [lia|exact H]|].
    destruct IHn as [IHn|IHn]; [left; destruct IHn as (m & L & Q); exists m; split; [lia|exact Q]|]. right. intros (m & L & Q).
    destruct (Nat.eq_dec m n) as [->|NE]; [now apply H|]. apply IHn. exists m. split; [lia|exact Q]. }
  destruct K as [(m & L & ds' & p' & E' & R')|K].
  - exact (IH m L ds' p' (eq_sym E') R').
  - exists ds, p. split; [exact R|]. intros ds' p' R'. destruct (Nat.le_gt_cases (length ds) (length ds')) as [L|L]; [exact L|exfalso]. apply K. exists (length ds'). split; [lia|]. now exists ds', p'.
Qed.
Theorem shortest_length a ds p : Shortest a ds p -> 0 < a -> (length ds <= 17)%nat.
Proof. intros [R M] PA. destruct (seventeen a (proj1 (proj2 (proj2 (proj2 R)))) PA) as (ds' & p' & L & R'). apply M in R'. lia. Qed.

(** ** what is shown *)
Lemma shortest_pos a ds p : Shortest a ds p -> 0 <= a.
Proof.
  intros [(D & H & _ & R) _]. assert (D0 : double 0) by (exists 0%Z, 0%Z; split; [reflexivity|]; split; [lia|reflexivity]).
  apply (near_ge _ _ _ R D0). destruct (denoted_range ds p D H). pose proof (ten_pos (p - 1)). lra.
Qed.
Theorem float_shown a ds p neg sep : Shortest a ds p ->
  exists i g r q, format_thousand_sep_float (Finite neg ds p) sep = (if neg then [45%N] else []) ++ g ++ r /\ Grouped sep (chars_of i) g /\ read_as q a /\
    ((ten (-4) <= a /\ a < ten 16 /\ Plain i r q) \/ ((a < ten (-4) \/ ten 16 <= a) /\ Scientific i r q)).
Proof.
  intros S. pose proof (notation a ds p S) as N. destruct S as [(D & H & R) _]. destruct (float_text neg ds p sep D H) as (i & g & r & E & _ & G & X).
  exists i, g, r, (denoted ds p). split; [exact E|]. split; [exact G|]. split; [exact R|]. destruct (far p).
  - right. split; [now apply N|exact X].
  - left. destruct (Qlt_le_dec a (ten (-4))) as [K|K]; [discriminate (proj2 N (or_introl K))|]. destruct (Qlt_le_dec a (ten 16)) as [K'|K']; [auto|discriminate (proj2 N (or_intror K'))].
Qed.
Lemma zero_text neg sep : format_thousand_sep_float (Finite neg [0%N] 1) sep = (if neg then [45%N] else []) ++ [48; 46; 48]%N.
Proof. destruct neg; reflexivity. Qed.
Lemma special_text neg sep : format_thousand_sep_float (Infinite neg) sep = (if neg then [45%N] else []) ++ [105; 110; 102]%N /\ format_thousand_sep_float NotANumber sep = [110; 97; 110]%N.
Proof. destruct neg; split; reflexivity. Qed.
Lemma reads_by_rounding a ds p : digital ds -> hd 0%N ds <> 0%N -> denoted ds p < pow2 1024 - pow2 970 -> round64 (denoted ds p) == a -> Reads a ds p.
Proof.
  intros D H L E. split; [exact D|]. split; [exact H|]. split; [exact L|]. apply (nearest_ext _ _ _ E), round64_nearest, rounded_in_range; [exact L|].
  destruct (denoted_range ds p D H). pose proof (ten_pos (p - 1)). lra.
Qed.
Lemma one_shortest a d p : Reads a [d] p -> Shortest a [d] p.
Proof. intros R. split; [exact R|]. intros ds' p' ([E _] & _). destruct ds'; [easy|cbn; lia]. Qed.
