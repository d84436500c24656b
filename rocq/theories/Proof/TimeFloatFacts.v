(** Durations computed with doubles *)
From Coq Require Import List NArith ZArith QArith Qabs Qround Qpower Qfield Bool Lia Lqa.
From Verif.Model Require Import Base Strip Color TimeDelta TimeFloat.
From Verif.Spec Require Import Doubles Duration.
From Verif.Proof Require Import RoundFacts DurationFacts LibClaims.
Import ListNotations.
Local Open Scope Q_scope.

Definition held (n : number) : Prop := match n with PyInt _ => True | PyFloat q => double q end.

Lemma in_range_ok x : Qabs x < pow2 1024 -> in_range x = Ok x.
Proof.
  intro H. unfold in_range. destruct (Qle_bool (pow2 1024) (Qabs x)) eqn:E; [|reflexivity].
  apply Qle_bool_iff in E. lra.
Qed.

(** doubles from 1 to 2^53 *)
Lemma scale_mid x : 1 <= x -> x < pow2 53 ->
  exists e, (0 <= e <= 52)%Z /\ ulp x = pow2 (e - 52) /\ pow2 e <= x /\ x < pow2 (e + 1).
Proof.
  intros A B. assert (~ x == 0) as NZ by lra. destruct (exponent_spec x NZ) as [C D].
  rewrite Qabs_pos in C, D by lra. exists (exponent x).
  assert (0 < exponent x + 1)%Z as EP. { apply pow2_lt_inv. apply Qle_lt_trans with (2 := D). exact A. }
  assert (exponent x < 53)%Z. { apply pow2_lt_inv. now apply Qle_lt_trans with (1 := C). }
  split; [lia|]. split; [|easy]. rewrite ulp_eq. unfold scale_exp. now rewrite Z.max_l by lia.
Qed.

(** the error is small *)
Lemma round64_close x : 1 <= x -> (3 # 4) * x <= round64 x <= (5 # 4) * x.
Proof.
  intro A. assert (~ x == 0) as NZ by lra. destruct (exponent_spec x NZ) as [C D]. rewrite Qabs_pos in C, D by lra.
  assert (0 < exponent x + 1)%Z as EP. { apply pow2_lt_inv. apply Qle_lt_trans with (2 := D). exact A. }
  destruct (round64_near x NZ) as (n & R & _ & H & _). rewrite R.
  assert (ulp x <= (1 # 2) * x) as U.
  { rewrite ulp_eq. unfold scale_exp. rewrite Z.max_l by lia.
    apply Qle_trans with (pow2 (exponent x - 1)); [apply pow2_le; lia|]. rewrite (pow2_half (exponent x)) in C. lra. }
  apply Qabs_Qle_condition in H. lra.
Qed.

Lemma floor_between y k : inject_Z k <= y -> y < inject_Z (k + 1) -> Qfloor y = k.
Proof.
  intros A B. pose proof (Qfloor_le y) as C. pose proof (Qlt_floor y) as D.
  assert (inject_Z k < inject_Z (Qfloor y + 1)) as L1 by lra.
  assert (inject_Z (Qfloor y) < inject_Z (k + 1)) as L2 by lra.
  rewrite <- Zlt_Qlt in L1, L2. lia.
Qed.

(** the quotient of a double by an integer not above it rounds to the right side of every integer *)
Lemma floor_quotient x r : double x -> (1 <= r)%Z -> inject_Z r <= x -> x < pow2 53 ->
  Qfloor (round64 (x / inject_Z r)) = Qfloor (x / inject_Z r).
Proof.
  intros D R1 RX XB.
  assert (1 <= inject_Z r) as R. { change 1 with (inject_Z 1). now rewrite <- Zle_Qle. }
  set (q := x / inject_Z r).
  assert (q * inject_Z r == x) as QX by (unfold q; field; lra).
  assert (1 <= q) as Q1. { apply Qnot_lt_le. intro L. apply (qmul_lt _ _ (inject_Z r)) in L; lra. }
  assert (q <= x) as QLE. { rewrite <- QX. setoid_replace q with (q * 1) at 1 by ring. rewrite !(Qmult_comm q). apply qmul_le; lra. }
  assert (q < pow2 53) as QB by lra.
  destruct (scale_mid q Q1 QB) as (e & E & U & EL & EU).
  destruct (scale_mid x ltac:(lra) XB) as (e' & E' & U' & EL' & EU').
  assert (~ q == 0) as NZ by lra. destruct (round64_near q NZ) as (n & N & F & H & _).
  set (k := Qfloor q). pose proof (Qfloor_le q) as K1. pose proof (Qlt_floor q) as K2. fold k in K1, K2.
  rewrite U in *. pose proof (pow2_pos (e - 52)) as UP.
  assert (1 == inject_Z (2 ^ (52 - e)) * pow2 (e - 52)) as ONE.
  { rewrite <- pow2_Z by lia. rewrite <- pow2_add. now replace (52 - e + (e - 52))%Z with 0%Z by lia. }
  assert (1 == inject_Z (2 ^ (52 - e')) * pow2 (e' - 52)) as ONE'.
  { rewrite <- pow2_Z by lia. rewrite <- pow2_add. now replace (52 - e' + (e' - 52))%Z with 0%Z by lia. }
  apply floor_between; rewrite N.
  - assert (k * 2 ^ (52 - e) <= n)%Z as KN.
    { apply Z.le_trans with (2 := F). rewrite <- (Qfloor_Z (k * 2 ^ (52 - e))). apply Qfloor_resp_le.
      rewrite inject_Z_mult. apply Qle_shift_div_l; [easy|].
      setoid_replace (inject_Z k * inject_Z (2 ^ (52 - e)) * pow2 (e - 52)) with (inject_Z k * 1) by (rewrite ONE at 1; ring).
      lra. }
    rewrite Zle_Qle in KN. apply (qmul_le _ _ (pow2 (e - 52))) in KN; [|lra]. rewrite inject_Z_mult in KN.
    setoid_replace (inject_Z k * inject_Z (2 ^ (52 - e)) * pow2 (e - 52)) with (inject_Z k * 1) in KN by (rewrite ONE at 1; ring).
    lra.
  - assert (~ x == 0) as NX by lra. destruct (double_multiple x D NX) as [m M]. rewrite U' in M.
    pose proof (pow2_pos (e' - 52)) as VP. set (v := pow2 (e' - 52)) in *.
    assert (x < inject_Z (k + 1) * inject_Z r) as G. { rewrite <- QX. apply qmul_lt; [lra|easy]. }
    assert (inject_Z (k + 1) * inject_Z r == inject_Z ((k + 1) * r * 2 ^ (52 - e')) * v) as KM.
    { rewrite !inject_Z_mult. setoid_replace (inject_Z (k + 1) * inject_Z r * inject_Z (2 ^ (52 - e')) * v)
        with (inject_Z (k + 1) * inject_Z r * (inject_Z (2 ^ (52 - e')) * v)) by ring. rewrite <- ONE'. ring. }
    assert (x + v <= inject_Z (k + 1) * inject_Z r) as G2.
    { rewrite M, KM in *. apply qmul_lt_inv in G; [|easy]. rewrite <- Zlt_Qlt in G.
      assert (m + 1 <= (k + 1) * r * 2 ^ (52 - e'))%Z as G' by lia. rewrite Zle_Qle, inject_Z_plus in G'.
      change (inject_Z 1) with 1 in G'. apply (qmul_le _ _ v) in G'; [|lra].
      setoid_replace (inject_Z m * v + v) with ((inject_Z m + 1) * v) by ring. exact G'. }
    assert (x < pow2 53 * v) as XV.
    { unfold v. rewrite <- pow2_add. now replace (53 + (e' - 52))%Z with (e' + 1)%Z by lia. }
    assert ((1 # 2) * pow2 (e - 52) * pow2 53 <= q) as UQ.
    { rewrite (pow2_half (e - 52)). setoid_replace ((1#2) * ((2#1) * pow2 (e - 52 - 1)) * pow2 53) with (pow2 (e - 52 - 1) * pow2 53) by ring.
      rewrite <- pow2_add. now replace (e - 52 - 1 + 53)%Z with e by lia. }
    apply Qabs_Qle_condition in H. destruct H as [H1 H2].
    (* q + u/2 < k + 1, multiplied by r *)
    assert ((q + (1#2) * pow2 (e - 52)) * inject_Z r < inject_Z (k + 1) * inject_Z r) as L.
    { setoid_replace ((q + (1#2) * pow2 (e - 52)) * inject_Z r) with (x + (1#2) * pow2 (e - 52) * inject_Z r) by (rewrite <- QX; ring).
      assert ((1#2) * pow2 (e - 52) * inject_Z r < v) as LV; [|lra].
      apply (qmul_lt_inv _ _ (pow2 53)); [apply pow2_pos|].
      apply Qle_lt_trans with (q * inject_Z r).
      - setoid_replace ((1#2) * pow2 (e - 52) * inject_Z r * pow2 53) with ((1#2) * pow2 (e - 52) * pow2 53 * inject_Z r) by ring.
        apply qmul_le; [lra|easy].
      - rewrite QX. rewrite (Qmult_comm v). exact XV. }
    apply qmul_lt_inv in L; lra.
Qed.

Lemma held_double n : held n -> 0 <= val n -> val n < pow2 53 -> double (val n).
Proof.
  destruct n as [z|q]; cbn [held val]; [|easy]. intros _ A B. apply double_Z.
  rewrite pow2_Z in B by lia. change 0 with (inject_Z 0) in A. rewrite <- Zle_Qle in A. rewrite <- Zlt_Qlt in B. lia.
Qed.

Lemma in_range_le x : 0 <= x -> x <= pow2 1023 -> in_range x = Ok x.
Proof.
  intros A B. apply in_range_ok. rewrite Qabs_pos by easy. apply Qle_lt_trans with (1 := B).
  now apply (Qpower_lt_compat_l (2#1) 1023 1024).
Qed.

Lemma pow2_53_1023 : (2 # 1) * pow2 53 <= pow2 1023.
Proof. rewrite <- pow2_S. now apply pow2_le. Qed.

Lemma div_exact n r : held n -> (1 <= r)%Z -> inject_Z r <= val n -> val n < pow2 53 ->
  exists y, py_div n r = Ok y /\ Qfloor y = Qfloor (val n / inject_Z r).
Proof.
  intros H R1 RN B. assert (1 <= inject_Z r) as R. { change 1 with (inject_Z 1). now rewrite <- Zle_Qle. }
  pose proof (held_double n H ltac:(lra) B) as D. pose proof pow2_53_1023 as PP.
  set (q := val n / inject_Z r).
  assert (q * inject_Z r == val n) as QX by (unfold q; field; lra).
  assert (1 <= q) as Q1. { apply Qnot_lt_le. intro L. apply (qmul_lt _ _ (inject_Z r)) in L; lra. }
  assert (q <= val n) as QLE. { rewrite <- QX. setoid_replace q with (q * 1) at 1 by ring. rewrite !(Qmult_comm q). apply qmul_le; lra. }
  pose proof (round64_close q Q1) as [C1 C2].
  destruct n as [z|x]; cbn [py_div val] in *.
  - exists (round64 q). split; [|now apply floor_quotient]. apply in_range_le; lra.
  - assert (round64 (inject_Z r) == inject_Z r) as RR.
    { apply round64_double, double_Z. rewrite pow2_Z in B by lia.
      assert (inject_Z r < inject_Z (2 ^ 53)) as RB by lra. rewrite <- Zlt_Qlt in RB. lia. }
    rewrite in_range_le by lra. cbn [bind].
    assert (x / round64 (inject_Z r) == q) as EQ by (unfold q; now rewrite RR).
    pose proof (round64_ext _ _ EQ) as ER.
    exists (round64 (x / round64 (inject_Z r))). split; [apply in_range_le; lra|].
    rewrite (Qfloor_comp _ _ ER). now apply floor_quotient.
Qed.

Lemma sub_exact n r : held n -> (1 <= r)%Z -> inject_Z r <= val n -> val n < pow2 53 ->
  let p := (Qfloor (val n / inject_Z r) * r)%Z in
  py_sub_floor n p = Ok (Qfloor (val n - inject_Z p)).
Proof.
  intros H R1 RN B p. assert (1 <= inject_Z r) as R. { change 1 with (inject_Z 1). now rewrite <- Zle_Qle. }
  pose proof pow2_53_1023 as PP.
  destruct n as [z|x]; cbn [py_sub_floor val held] in *.
  - f_equal. unfold Qminus. rewrite <- inject_Z_opp, <- inject_Z_plus. now rewrite Qfloor_Z.
  - assert (x / inject_Z r * inject_Z r == x) as QX by (field; lra).
    assert (1 <= x / inject_Z r) as Q1. { apply Qnot_lt_le. intro L. apply (qmul_lt _ _ (inject_Z r)) in L; lra. }
    assert (inject_Z p <= x) as PX.
    { unfold p. rewrite inject_Z_mult. rewrite <- QX at 2. apply qmul_le; [lra|]. apply Qfloor_le. }
    assert (1 <= Qfloor (x / inject_Z r))%Z as K1.
    { rewrite <- (Qfloor_Z 1). now apply Qfloor_resp_le. }
    assert (0 < p)%Z as P0 by (unfold p; lia).
    assert (0 < inject_Z p) as P0' by (change 0 with (inject_Z 0); now rewrite <- Zlt_Qlt).
    assert (round64 (inject_Z p) == inject_Z p) as RP.
    { apply round64_double, double_Z. rewrite pow2_Z in B by lia.
      assert (inject_Z p < inject_Z (2 ^ 53)) as RB by lra. rewrite <- Zlt_Qlt in RB. lia. }
    rewrite in_range_le by lra. cbn [bind].
    assert (double (x - inject_Z p)) as DD.
    { destruct (scale_mid x ltac:(lra) B) as (e & E & U & EL & EU).
      assert (~ x == 0) as NX by lra. destruct (double_multiple x H NX) as [m M]. rewrite U in M.
      pose proof (pow2_pos (e - 52)) as VP.
      assert (1 == inject_Z (2 ^ (52 - e)) * pow2 (e - 52)) as ONE.
      { rewrite <- pow2_Z by lia. rewrite <- pow2_add. now replace (52 - e + (e - 52))%Z with 0%Z by lia. }
      assert (x - inject_Z p == inject_Z (m - p * 2 ^ (52 - e)) * pow2 (e - 52)) as EQ.
      { unfold Z.sub. rewrite inject_Z_plus, inject_Z_opp, inject_Z_mult.
        setoid_replace ((inject_Z m + - (inject_Z p * inject_Z (2 ^ (52 + - e)))) * pow2 (e + - (52)))
          with (inject_Z m * pow2 (e + - (52)) - inject_Z p * (inject_Z (2 ^ (52 + - e)) * pow2 (e + - (52)))) by ring.
        change (52 + - e)%Z with (52 - e)%Z. change (e + - (52))%Z with (e - 52)%Z. rewrite <- ONE, <- M. ring. }
      exists (m - p * 2 ^ (52 - e))%Z, (e - 52)%Z. split; [|split; [lia|exact EQ]].
      set (j := (m - p * 2 ^ (52 - e))%Z) in *.
      assert (0 <= inject_Z j * pow2 (e - 52)) as J0 by lra.
      assert (inject_Z j * pow2 (e - 52) < inject_Z (2 ^ 53) * pow2 (e - 52)) as J1.
      { rewrite <- pow2_Z by lia. rewrite <- pow2_add. replace (53 + (e - 52))%Z with (e + 1)%Z by lia. lra. }
      apply qmul_lt_inv in J1; [|easy]. rewrite <- Zlt_Qlt in J1.
      assert (0 <= j)%Z; [|lia]. apply Znot_gt_le. intro G. assert (j < 0)%Z as G' by lia.
      rewrite Zlt_Qlt in G'. apply (qmul_lt _ _ (pow2 (e - 52))) in G'; [|easy]. change (inject_Z 0) with 0 in G'. lra. }
    assert (x - round64 (inject_Z p) == x - inject_Z p) as EQ by now rewrite RP.
    pose proof (round64_ext _ _ EQ) as ER. pose proof (round64_double _ DD) as RD.
    rewrite in_range_le by lra. cbn [bind]. f_equal. apply Qfloor_comp. now rewrite ER.
Qed.

(** ** the loops agree below 2^53 *)
Definition positive_ratios (units : list time_unit) : Prop :=
  Forall (fun u => forall r, u_in_next u = Some r -> (0 <= r)%Z) units.

Lemma int_on_some o r : int_on o = Some r -> o = Some r /\ r <> 0%Z.
Proof. destruct o as [x|]; cbn; [|easy]. destruct (Z.eqb_spec x 0); intros [= <-]. easy. Qed.

Lemma quotient_bounds x r : (1 <= r)%Z -> inject_Z r <= x -> 1 <= x / inject_Z r /\ x / inject_Z r <= x.
Proof.
  intros R1 RX. assert (1 <= inject_Z r) as R. { change 1 with (inject_Z 1). now rewrite <- Zle_Qle. }
  assert (x / inject_Z r * inject_Z r == x) as QX by (field; lra). set (q := x / inject_Z r) in *.
  assert (1 <= q) as Q1. { apply Qnot_lt_le. intro L. apply (qmul_lt _ _ (inject_Z r)) in L; lra. }
  split; [easy|]. rewrite <- QX. setoid_replace q with (q * 1) at 1 by ring. rewrite !(Qmult_comm q). apply qmul_le; lra.
Qed.

Lemma Qltbool_false x y : Qlt_bool x y = false -> y <= x.
Proof. unfold Qlt_bool. intro H. apply negb_false_iff, Qle_bool_iff in H. exact H. Qed.
Lemma Qltbool_true x y : Qlt_bool x y = true -> x < y.
Proof. unfold Qlt_bool. intro H. apply negb_true_iff in H. now apply Qlebool_false. Qed.

Lemma loop_exact f ml neg units : positive_ratios units -> forall n pf, held n -> 0 <= val n -> val n < pow2 53 ->
  float_loop f ml neg units n pf = format_loop f ml neg units (val n) pf.
Proof.
  induction 1 as [|u units U _ IH]; intros n pf H N0 NB; [reflexivity|].
  cbn [float_loop format_loop].
  destruct (match int_on (u_overflow_after u) with Some n0 => Qlt_bool (inject_Z n0) (val n) | None => false end); [reflexivity|].
  destruct (u_name u) as [|c w]; [reflexivity|].
  destruct (Qlt_bool (Qabs (val n)) 1) eqn:B1; [reflexivity|].
  destruct (match u_collapsible_after u with Some n0 => Qlt_bool (val n) (inject_Z n0) | None => false end); [reflexivity|].
  destruct (int_on (u_in_next u)) as [r|] eqn:IR; [|reflexivity].
  destruct (Qlt_bool (val n) (inject_Z r)) eqn:B2; [reflexivity|]. apply Qltbool_false in B2.
  apply int_on_some in IR. destruct IR as [IR NZ]. specialize (U r IR). assert (1 <= r)%Z as R1 by lia.
  destruct (div_exact n r H R1 B2 NB) as (y & -> & F). cbn [bind]. rewrite F. rewrite sub_exact by easy. cbn [bind].
  destruct (quotient_bounds _ _ R1 B2) as [Q1 Q2].
  rewrite IH; [reflexivity|exact I| |]; cbn [val].
  - change 0 with (inject_Z 0). rewrite <- Zle_Qle. rewrite <- (Qfloor_Z 0). apply Qfloor_resp_le. change (inject_Z 0) with 0. lra.
  - pose proof (Qfloor_le (val n / inject_Z r)). lra.
Qed.

Lemma held_abs n : held n -> held (py_abs n).
Proof. destruct n as [z|q]; cbn [held py_abs]; [easy|]. apply double_abs. Qed.
Lemma val_abs n : val (py_abs n) = Qabs (val n).
Proof. now destruct n. Qed.

Lemma raw_exact f ml n : positive_ratios (td_units f) -> held n -> Qabs (val n) < pow2 53 ->
  float_raw f ml n = format_raw f ml (Num (val n)).
Proof.
  intros P H B. unfold float_raw, format_raw. rewrite loop_exact; rewrite ?val_abs; try easy.
  - now apply held_abs.
  - apply Qabs_nonneg.
Qed.

Lemma format_exact f len n wide : positive_ratios (td_units f) -> held n -> Qabs (val n) < pow2 53 ->
  float_format f len n wide = td_format f len (Num (val n)) wide.
Proof. intros P H B. unfold float_format, td_format. now rewrite raw_exact. Qed.

(** ** large amounts *)
Lemma step_large f ml neg u rest n pf r c w k : held n ->
  int_on (u_overflow_after u) = None -> u_name u = c :: w -> int_on (u_in_next u) = Some r ->
  (2 <= r <= 2 ^ 20)%Z -> (forall x, u_collapsible_after u = Some x -> (x <= 2 ^ 20)%Z) ->
  (20 <= k)%Z -> pow2 k <= val n -> val n < pow2 1023 ->
  exists next pf', float_loop f ml neg (u :: rest) n pf = float_loop f ml neg rest (PyInt next) pf' /\
    (3 # 4) * (val n / inject_Z r) <= inject_Z next + 1 /\ inject_Z next < pow2 1023.
Proof.
  intros H OV NM IN [R1 R2] CO K L B.
  assert (2 <= inject_Z r) as R. { change 2 with (inject_Z 2). now rewrite <- Zle_Qle. }
  assert (inject_Z (2 ^ 20) <= val n) as L20.
  { rewrite <- pow2_Z by lia. apply Qle_trans with (2 := L). now apply pow2_le. }
  assert (inject_Z r <= val n) as RN. { apply Qle_trans with (2 := L20). now rewrite <- Zle_Qle. }
  destruct (quotient_bounds (val n) r ltac:(lia) RN) as [Q1 Q2].
  assert (val n / inject_Z r * inject_Z r == val n) as QX by (field; lra). set (q := val n / inject_Z r) in *.
  assert (q * 2 <= val n) as Q3. { rewrite <- QX. rewrite !(Qmult_comm q). apply qmul_le; lra. }
  assert (exists y, py_div n r = Ok y /\ (3#4) * q <= y /\ y <= (5#4) * q) as (y & DV & Y1 & Y2).
  { pose proof (round64_close q Q1) as [C1 C2]. destruct n as [z|x]; cbn [py_div val] in *.
    - exists (round64 q). split; [|easy]. apply in_range_le; lra.
    - assert (round64 (inject_Z r) == inject_Z r) as RR.
      { apply round64_double, double_Z. assert (2 ^ 20 < 2 ^ 53)%Z by now apply Z.pow_lt_mono_r. lia. }
      rewrite in_range_le by lra. cbn [bind].
      assert (x / round64 (inject_Z r) == q) as EQ by (unfold q; now rewrite RR).
      pose proof (round64_ext _ _ EQ) as ER. exists (round64 (x / round64 (inject_Z r))).
      split; [apply in_range_le; lra|]. rewrite ER. easy. }
  assert (1 < pow2 k) as K1. { apply (Qpower_1_lt (2#1)); [easy|lia]. }
  pose proof (Qfloor_le y) as F1. pose proof (Qlt_floor y) as F2. rewrite inject_Z_plus in F2. change (inject_Z 1) with 1 in F2.
  set (next := Qfloor y) in *.
  assert (exists d, py_sub_floor n (next * r) = Ok d) as [d SB].
  { destruct n as [z|x]; cbn [py_sub_floor val] in *; [eexists; reflexivity|].
    assert (0 <= next)%Z as N0. { unfold next. rewrite <- (Qfloor_Z 0). apply Qfloor_resp_le. change (inject_Z 0) with 0. lra. }
    assert (inject_Z (next * r) <= (5#4) * x) as P1.
    { rewrite inject_Z_mult. apply Qle_trans with ((5#4) * q * inject_Z r); [apply qmul_le; lra|].
      rewrite <- Qmult_assoc, QX. apply Qle_refl. }
    assert (0 <= next * r)%Z as P0 by lia.
    assert (0 <= round64 (inject_Z (next * r)) <= (25 # 16) * x) as [P2 P3].
    { destruct (Z.eq_dec (next * r) 0) as [E|NE].
      - rewrite E. rewrite round64_0 by reflexivity. lra.
      - assert (1 <= inject_Z (next * r)) as P4. { change 1 with (inject_Z 1). rewrite <- Zle_Qle. lia. }
        pose proof (round64_close _ P4). lra. }
    assert (pow2 1024 == 2 * pow2 1023) as PD by apply (pow2_S 1023).
    rewrite in_range_ok by (rewrite Qabs_pos by easy; lra). cbn [bind].
    set (p' := round64 (inject_Z (next * r))) in *.
    assert (Qabs (round64 (x - p')) < pow2 1024) as RS.
    { destruct (Qeq_dec (x - p') 0) as [E|NE].
      - rewrite (Qabs_wd _ _ (round64_0 _ E)). apply pow2_pos.
      - assert (Qabs (x - p') <= x) as A by (apply Qabs_Qle_condition; lra).
        destruct (round64_near _ NE) as (m & M & _ & HN & _). rewrite (Qabs_wd _ _ M).
        destruct (scale_bounds _ NE) as [SL _].
        assert ((1#2) * ulp (x - p') <= (1#2) * x) as UL.
        { rewrite ulp_eq. assert (pow2 (scale_exp (x - p') - 52) <= x); [|lra].
          destruct SL as [SL|SL].
          - rewrite SL. apply Qle_trans with (pow2 k); [apply pow2_le; lia|easy].
          - apply Qle_trans with (pow2 (scale_exp (x - p'))); [apply pow2_le; lia|lra]. }
        pose proof (Qabs_triangle_reverse (inject_Z m * ulp (x - p')) (x - p')) as T. rewrite (Qabs_Qminus (inject_Z m * ulp (x - p'))) in T. lra. }
    rewrite in_range_ok by easy. cbn [bind]. eexists; reflexivity. }
  exists next, (zdec d ++ match str_on (u_custom_short u) with Some s => s | None => [c] end). split; [|split; lra].
  cbn [float_loop]. rewrite OV, NM, IN.
  assert (Qlt_bool (Qabs (val n)) 1 = false) as ->.
  { destruct (Qlt_bool (Qabs (val n)) 1) eqn:E; [|reflexivity]. apply Qltbool_true in E. rewrite Qabs_pos in E by lra. lra. }
  assert (match u_collapsible_after u with Some x => Qlt_bool (val n) (inject_Z x) | None => false end = false) as ->.
  { destruct (u_collapsible_after u) as [x|]; [|reflexivity]. destruct (Qlt_bool (val n) (inject_Z x)) eqn:E; [|reflexivity].
    apply Qltbool_true in E. specialize (CO x eq_refl). rewrite Zle_Qle in CO. lra. }
  assert (Qlt_bool (val n) (inject_Z r) = false) as ->.
  { destruct (Qlt_bool (val n) (inject_Z r)) eqn:E; [|reflexivity]. apply Qltbool_true in E. lra. }
  rewrite DV. cbn [bind]. fold next. rewrite SB. reflexivity.
Qed.

Lemma step_pow f ml neg u rest n pf r c w k : held n ->
  int_on (u_overflow_after u) = None -> u_name u = c :: w -> int_on (u_in_next u) = Some r ->
  (2 <= r <= 64)%Z -> (forall x, u_collapsible_after u = Some x -> (x <= 2 ^ 20)%Z) ->
  (20 <= k)%Z -> pow2 k <= val n -> val n < pow2 1023 ->
  exists next pf', float_loop f ml neg (u :: rest) n pf = float_loop f ml neg rest (PyInt next) pf' /\
    held (PyInt next) /\ pow2 (k - 7) <= val (PyInt next) /\ val (PyInt next) < pow2 1023.
Proof.
  intros H OV NM IN [R1 R2] CO K L B.
  destruct (step_large f ml neg u rest n pf r c w k H OV NM IN ltac:(lia) CO K L B) as (next & pf' & E & N1 & N2).
  exists next, pf'. split; [exact E|]. split; [exact I|]. split; [|exact N2]. cbn [val].
  assert (2 <= inject_Z r) as R. { change 2 with (inject_Z 2). now rewrite <- Zle_Qle. }
  assert (inject_Z r <= 64#1) as R'. { change (64#1) with (inject_Z 64). now rewrite <- Zle_Qle. }
  assert (val n / inject_Z r * inject_Z r == val n) as QX by (field; lra). set (q := val n / inject_Z r) in *.
  assert (0 < pow2 k) as P by apply pow2_pos.
  assert (0 <= q) as Q0.
  { apply Qnot_lt_le. intro G. apply (qmul_lt _ _ (inject_Z r)) in G; [|lra]. lra. }
  assert (val n <= q * (64#1)) as Q64. { rewrite <- QX. rewrite !(Qmult_comm q). apply qmul_le; lra. }
  assert (pow2 k == (128#1) * pow2 (k - 7)) as PK.
  { replace k with (7 + (k - 7))%Z at 1 by lia. rewrite pow2_add. reflexivity. }
  assert ((8192#1) <= pow2 (k - 7)) as PB. { apply (pow2_le 13). lia. }
  lra.
Qed.

Lemma last_large f ml neg name over n pf : (0 < over <= 2 ^ 17)%Z -> pow2 18 <= val n ->
  float_loop f ml neg [last_unit name over] n pf = overflow ml.
Proof.
  intros [O1 O2] L. cbn [float_loop last_unit u_overflow_after int_on].
  destruct (Z.eqb_spec over 0) as [E|_]; [lia|].
  assert (Qlt_bool (inject_Z over) (val n) = true) as ->; [|reflexivity].
  unfold Qlt_bool. apply negb_true_iff. destruct (Qle_bool (val n) (inject_Z over)) eqn:E; [|reflexivity].
  apply Qle_bool_iff in E. rewrite Zle_Qle in O2. rewrite pow2_Z in L by lia.
  assert (inject_Z (2 ^ 17) < inject_Z (2 ^ 18)) by (now rewrite <- Zlt_Qlt). lra.
Qed.

Lemma presets_large f len n : In f [td3; td4; td6; td10] -> len <> 0%Z -> held n ->
  pow2 53 <= Qabs (val n) -> Qabs (val n) < pow2 1023 -> float_raw f (Some len) n = Ok None.
Proof.
  intros I LN H L B. unfold float_raw.
  assert (overflow (Some len) = Ok None) as OV. { unfold overflow. now destruct (Z.eqb_spec len 0). }
  rewrite <- val_abs in L, B. apply held_abs in H. set (m := py_abs n) in *. clearbody m.
  set (ng := (td_allow_negative f && Qlt_bool (val n) 0)%bool). clearbody ng. revert m H L B. generalize (@nil N).
  assert (forall u rest r c w, int_on (u_overflow_after u) = None -> u_name u = c :: w -> int_on (u_in_next u) = Some r ->
    (2 <= r <= 64)%Z -> (forall x, u_collapsible_after u = Some x -> (x <= 2 ^ 20)%Z) ->
    forall k, (20 <= k)%Z ->
    (forall pf n, held n -> pow2 (k - 7) <= val n -> val n < pow2 1023 -> float_loop f (Some len) ng rest n pf = Ok None) ->
    forall pf n, held n -> pow2 k <= val n -> val n < pow2 1023 -> float_loop f (Some len) ng (u :: rest) n pf = Ok None) as STEP.
  { intros u rest r c w A1 A2 A3 A4 A5 k K IH pf m H L B.
    destruct (step_pow f (Some len) ng u rest m pf r c w k H A1 A2 A3 A4 A5 K L B) as (next & pf' & E & H' & L' & B').
    rewrite E. now apply IH. }
  assert (forall name over, (0 < over <= 2 ^ 17)%Z -> forall k, (18 <= k)%Z -> forall pf n, held n -> pow2 k <= val n -> val n < pow2 1023 ->
    float_loop f (Some len) ng [last_unit name over] n pf = Ok None) as LAST.
  { intros name over O k K pf m H L B. rewrite last_large; [easy|easy|]. apply Qle_trans with (2 := L). now apply pow2_le. }
  assert (forall x y : Z, Some x = Some y -> (x <= 2 ^ 20)%Z -> (y <= 2 ^ 20)%Z) as SM by (intros x y [= ->]; easy).
  cbn [In] in I. destruct I as [<-|[<-|[<-|[<-|[]]]]];
    cbn [td_units td3 td4 td6 td10];
    repeat first [ eapply LAST; [split; vm_compute; congruence|vm_compute; congruence]
                 | eapply STEP; [reflexivity|reflexivity|reflexivity|split; vm_compute; congruence| |vm_compute; congruence|];
                   [intros x X; cbn in X; first [discriminate X | eapply SM; [exact X|vm_compute; congruence]]|] ].
Qed.
