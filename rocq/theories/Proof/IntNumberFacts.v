(** Ints and the doubles nearest to them *)
From Coq Require Import List Arith NArith ZArith QArith Qabs Qround Qpower Bool Lia Lqa.
From Verif.Model Require Import Base Color TimeDelta TimeFloat FloatText FloatDoubles IntNumbers.
From Verif.Spec Require Import Numbers FloatText Doubles Logarithm IntNumbers.
From Verif.Proof Require Import BaseFacts DurationFacts FloatFacts RoundFacts FloatDoubleFacts.
Import ListNotations.
Local Open Scope Z_scope.

Definition border : Z := 2 ^ 1024 - 2 ^ 970.
Lemma border_eq : (inject_Z border == pow2 1024 - pow2 970)%Q.
Proof. unfold border. unfold Z.sub. rewrite inject_Z_plus, inject_Z_opp, <- !pow2_Z by lia. reflexivity. Qed.

Lemma double_top y : double y -> (Qabs y <= pow2 1024 - pow2 971)%Q.
Proof.
  intros (m & e & M & E & Y). fold (pow2 e) in Y. rewrite (Qabs_wd _ _ Y), Qabs_Qmult, (Qabs_pos (pow2 e)) by (apply Qlt_le_weak, pow2_pos).
  change (Qabs (inject_Z m)) with (inject_Z (Z.abs m)). pose proof (pow2_le e 971 ltac:(lia)) as L. pose proof (pow2_pos e) as P. pose proof (pow2_pos 971) as P'.
  assert (K : (inject_Z (Z.abs m) <= inject_Z (2 ^ 53 - 1))%Q) by (rewrite <- Zle_Qle; lia).
  assert (T : (pow2 1024 - pow2 971 == inject_Z (2 ^ 53 - 1) * pow2 971)%Q).
  { change 1024 with (53 + 971). rewrite pow2_add. rewrite (pow2_Z 53) by lia. unfold Z.sub. rewrite inject_Z_plus. change (inject_Z (- (1))) with (- (1))%Q. ring. }
  rewrite T. apply Qle_trans with (inject_Z (2 ^ 53 - 1) * pow2 e)%Q; [apply qmul_le; [lra|exact K]|].
  rewrite !(Qmult_comm (inject_Z (2 ^ 53 - 1))). apply qmul_le; [|exact L]. discriminate.
Qed.

Lemma border_up z : Z.abs z = border -> (pow2 1024 <= Qabs (round64 (inject_Z z)))%Q.
Proof.
  intros H. assert (z = border \/ z = - border) as [-> | ->] by lia; apply Qle_bool_iff; vm_compute; reflexivity.
Qed.

Lemma round_range z : (Qabs (round64 (inject_Z z)) < pow2 1024)%Q <-> has_float z.
Proof.
  unfold has_float. fold border. destruct (Z.eq_dec z 0) as [-> | NZ].
  { split; intros _; [vm_compute; reflexivity|]. change (round64 (inject_Z 0)) with 0%Q. apply pow2_pos. }
  set (x := inject_Z z). assert (NX : ~ (x == 0)%Q) by (unfold x; intros K; apply NZ; unfold Qeq in K; cbn in K; lia).
  assert (AX : (Qabs x = inject_Z (Z.abs z))%Q) by reflexivity. pose proof border_eq as BE. pose proof (pow2_pos 970) as P970.
  destruct (round64_near x NX) as (n & RN & _ & H & B). destruct (scale_bounds x NX) as [LO UP]. rewrite (ulp_eq x) in *. set (E := scale_exp x) in *. pose proof (pow2_pos (E - 52)) as PU.
  split.
  - intros R. destruct (Z_lt_dec (Z.abs z) border) as [L|G]; [exact L|exfalso]. assert (GQ : (inject_Z border <= Qabs x)%Q) by (rewrite AX, <- Zle_Qle; lia).
    destruct (round64_closest x R) as [D _]. pose proof (double_top _ D) as T. rewrite RN in H, B, T, R || idtac.
    assert (TR : (Qabs x - Qabs (round64 x) <= Qabs (x - inject_Z n * pow2 (E - 52)))%Q) by (rewrite <- RN; apply Qabs_triangle_reverse).
    assert (D971 : (pow2 971 == (2 # 1) * pow2 970)%Q) by exact (pow2_S 970).
    destruct (Z_le_gt_dec 1024 E) as [E1|E1].
    + destruct LO as [LO|LO]; [lia|]. pose proof (pow2_le 1024 E E1) as PE.
      assert (P52 : (inject_Z (2 ^ 52) * pow2 (E - 52) == pow2 E)%Q) by (rewrite <- pow2_Z, <- pow2_add by lia; now replace (52 + (E - 52)) with E by lia).
      destruct (Qlt_le_dec x 0) as [S|S].
      * pose proof (B (- 2 ^ 52)) as B'. rewrite inject_Z_opp in B'.
        setoid_replace (x - - inject_Z (2 ^ 52) * pow2 (E - 52))%Q with (x + pow2 E)%Q in B' by (rewrite <- P52; ring).
        rewrite (Qabs_neg x) in * by lra. rewrite (Qabs_neg (x + pow2 E)) in B' by lra. lra.
      * pose proof (B (2 ^ 52)) as B'. rewrite P52 in B'. rewrite (Qabs_pos x) in * by lra. rewrite (Qabs_pos (x - pow2 E)) in B' by lra. lra.
    + pose proof (pow2_le (E - 52) 971 ltac:(lia)) as U1.
      assert (EQ : Z.abs z = border).
      { apply Z.le_antisymm; [|lia]. rewrite Zle_Qle, <- AX. lra. }
      pose proof (border_up z EQ) as BU. fold x in BU. lra.
  - intros L. assert (LQ : (Qabs x < inject_Z border)%Q) by (rewrite AX, <- Zlt_Qlt; exact L).
    assert (E1 : E <= 1023).
    { destruct LO as [LO|LO]; [lia|]. assert (pow2 E < pow2 1024)%Q as K by lra. apply pow2_lt_inv in K. lia. }
    pose proof (pow2_le (E - 52) 971 ltac:(lia)) as U1. assert (D971 : (pow2 971 == (2 # 1) * pow2 970)%Q) by exact (pow2_S 970).
    assert (TR : (Qabs (round64 x) - Qabs x <= Qabs (x - inject_Z n * pow2 (E - 52)))%Q).
    { rewrite <- RN. rewrite (Qabs_Qminus x). apply Qabs_triangle_reverse. }
    lra.
Qed.

Lemma to_float_small z : Z.abs z < 9007199254740992 -> to_float z = Ok (inject_Z z).
Proof. intros H. unfold to_float. destruct (Z.ltb_spec (Z.abs z) 9007199254740992); [reflexivity|lia]. Qed.
Lemma small_has_float z : Z.abs z < 9007199254740992 -> has_float z.
Proof. intros H. unfold has_float. fold border. apply Z.lt_trans with (1 := H). reflexivity. Qed.
Lemma to_float_large z : 9007199254740992 <= Z.abs z -> has_float z -> to_float z = Ok (round64 (inject_Z z)).
Proof.
  intros L H. unfold to_float. destruct (Z.ltb_spec (Z.abs z) 9007199254740992); [lia|]. unfold in_range. apply round_range in H.
  destruct (Qle_bool _ _) eqn:E; [apply Qle_bool_iff in E; lra|reflexivity].
Qed.
Lemma to_float_none z : ~ has_float z -> to_float z = Err OverflowError.
Proof.
  intros H. unfold to_float. destruct (Z.ltb_spec (Z.abs z) 9007199254740992) as [K|_]; [now apply small_has_float in K|]. unfold in_range.
  destruct (Qle_bool _ _) eqn:E; [reflexivity|]. apply Qlebool_false in E. now apply round_range in E.
Qed.

Lemma to_float_nearest z : has_float z -> exists x, to_float z = Ok x /\ nearest (inject_Z z) x.
Proof.
  intros H. destruct (Z_lt_le_dec (Z.abs z) 9007199254740992) as [L|L].
  - exists (inject_Z z). split; [now apply to_float_small|]. apply nearest_ext with (round64 (inject_Z z)); [apply round64_double, double_Z; exact L|].
    apply round64_nearest. now apply round_range.
  - exists (round64 (inject_Z z)). split; [now apply to_float_large|]. apply round64_nearest. now apply round_range.
Qed.
Lemma to_float_close z x : z <> 0 -> to_float z = Ok x -> double x /\ (Qabs (x - inject_Z z) <= (1 # 9007199254740992) * Qabs (inject_Z z))%Q.
Proof.
  intros NZ E. assert (H : has_float z).
  { unfold has_float. fold border. destruct (Z_lt_dec (Z.abs z) border) as [L|L]; [exact L|]. rewrite to_float_none in E by exact L. discriminate. }
  destruct (Z_lt_le_dec (Z.abs z) 9007199254740992) as [L|L].
  - rewrite to_float_small in E by exact L. injection E as <-. split; [now apply double_Z|]. setoid_replace (inject_Z z - inject_Z z)%Q with 0%Q by ring.
    change (Qabs 0) with 0%Q. pose proof (Qabs_nonneg (inject_Z z)). lra.
  - rewrite to_float_large in E by assumption. injection E as <-. split; [apply round64_closest; now apply round_range|]. apply round64_rel.
    change (Qabs (inject_Z z)) with (inject_Z (Z.abs z)). pose proof (pow2_le (-1022) 0 ltac:(lia)) as P. change (pow2 0) with 1%Q in P.
    assert (inject_Z 1 <= inject_Z (Z.abs z))%Q as Q1 by (rewrite <- Zle_Qle; lia). change (inject_Z 1) with 1%Q in Q1. lra.
Qed.
