(** Hue, saturation and value computed with doubles *)
From Coq Require Import List NArith ZArith QArith Qabs Qround Qminmax Lqa Lia Bool.
From Verif.Model Require Import Base Color Presets Render TimeFloat Hsv HsvFloat.
From Verif.Spec Require Import Numbers Palette Preferences Doubles.
From Verif.Proof Require Import ColorFacts HsvClaims RoundFacts FloatDoubleFacts.
Import ListNotations.
Local Open Scope Q_scope.

(** ** rounding numbers of moderate size *)
Definition u : Q := 1 # 9007199254740992.
Lemma abs_case x : (0 <= x /\ Qabs x == x) \/ (x < 0 /\ Qabs x == - x).
Proof. destruct (Qlt_le_dec x 0); [right|left]; split; try assumption; [apply Qabs_neg; lra|now apply Qabs_pos]. Qed.
Lemma abs_le x b : Qabs x <= b <-> - b <= x <= b.
Proof. apply Qabs_Qle_condition. Qed.
Lemma round_abs x b : Qabs x <= b -> 1 # 1000 <= b -> - (u * b) <= round64 x - x <= u * b.
Proof.
  intros H B. apply abs_le. destruct (Qlt_le_dec (Qabs x) (pow2 (-1022))) as [S|L].
  - destruct (Qeq_dec x 0) as [E|NE].
    + rewrite (round64_0 x E), (Qabs_wd (0 - x) 0) by lra. change (Qabs 0) with 0. unfold u. lra.
    + destruct (round64_near x NE) as (n & R & _ & N & _). rewrite Qabs_Qminus, (Qabs_wd (x - round64 x) (x - inject_Z n * ulp x)) by (now rewrite R).
      apply Qle_trans with (1 := N). unfold ulp. destruct (exponent_spec x NE) as [A _].
      assert (pow2 (exponent x) < pow2 (-1022)) as K by lra. apply pow2_lt_inv in K. rewrite Z.max_r by lia.
      change (-1022 - 52)%Z with (-1074)%Z. apply Qle_trans with (u * (1 # 1000)).
      * apply Qle_trans with ((1 # 2) * pow2 (-80)).
        -- rewrite (Qmult_comm (1 # 2)), (Qmult_comm (1 # 2) (pow2 (-80))). apply Qmult_le_compat_r; [apply pow2_le; lia|lra].
        -- vm_compute. discriminate.
      * unfold u. lra.
  - pose proof (round64_rel x L) as K. apply Qle_trans with (1 := K). unfold u. lra.
Qed.
Lemma moderate x : Qabs x <= 1000 -> Qabs (round64 x) < pow2 1024.
Proof.
  intros H. destruct (round_abs x 1000 H ltac:(lra)) as [A B]. apply abs_le in H. unfold u in *.
  apply Qle_lt_trans with 1001; [apply abs_le; lra|reflexivity].
Qed.
Lemma round_mono x y : Qabs x <= 1000 -> Qabs y <= 1000 -> x <= y -> round64 x <= round64 y.
Proof.
  intros Hx Hy L. destruct (round64_closest x (moderate x Hx)) as [Dx Cx]. destruct (round64_closest y (moderate y Hy)) as [Dy Cy].
  specialize (Cx _ Dy). specialize (Cy _ Dx). destruct (Qlt_le_dec (round64 y) (round64 x)) as [K|K]; [|exact K].
  destruct (abs_case (x - round64 x)) as [[? ?]|[? ?]], (abs_case (x - round64 y)) as [[? ?]|[? ?]],
    (abs_case (y - round64 x)) as [[? ?]|[? ?]], (abs_case (y - round64 y)) as [[? ?]|[? ?]]; try lra;
  assert (E : x == y) by lra; apply round64_ext in E; lra.
Qed.
Lemma round_double x : Qabs x <= 1000 -> double (round64 x).
Proof. intros H. exact (proj1 (round64_closest x (moderate x H))). Qed.
Lemma round_nonneg x : 0 <= x -> x <= 1000 -> 0 <= round64 x.
Proof. intros A B. apply (round64_ge x 0); [cbn; lia|exact A|]. apply moderate. apply abs_le. lra. Qed.

(** ** channels *)
Definition channel (x : Q) : Prop := exists n, (0 <= n <= 255)%Z /\ x == n # 255.
Lemma channel_unit x : channel x -> 0 <= x <= 1.
Proof. intros (n & H & E). rewrite E. now apply channel_range. Qed.
Lemma channel_step x y : channel x -> channel y -> x < y -> x + (1 # 255) <= y.
Proof.
  intros (a & A & Ea) (b & B & Eb) L. rewrite Ea, Eb in *. unfold Qlt in L. cbn [Qnum Qden] in L.
  assert (E : (a # 255) + (1 # 255) == (a + 1) # 255) by (unfold Qeq; cbn [Qnum Qden Qplus]; lia). rewrite E. unfold Qle. cbn [Qnum Qden]. lia.
Qed.
Lemma channel_abs x : channel x -> Qabs x <= 1.
Proof. intros H. apply abs_le. apply channel_unit in H. lra. Qed.
Lemma channel_round x : channel x -> x - u <= round64 x <= x + u.
Proof. intros H. pose proof (round_abs x 1 (channel_abs x H) ltac:(lra)). lra. Qed.
Lemma channel_mono x y : channel x -> channel y -> x <= y -> round64 x <= round64 y.
Proof. intros A B. apply round_mono; [apply channel_abs in A|apply channel_abs in B]; lra. Qed.
Lemma channel_eq x y : channel x -> channel y -> (round64 x == round64 y <-> x == y).
Proof.
  intros A B. split; [|apply round64_ext]. intros E. pose proof (channel_round x A). pose proof (channel_round y B). unfold u in *.
  destruct (Qlt_le_dec x y) as [L|L]; [pose proof (channel_step x y A B L); lra|]. destruct (Qlt_le_dec y x) as [K|K]; [pose proof (channel_step y x B A K); lra|]. lra.
Qed.
Lemma channel_nonneg x : channel x -> 0 <= round64 x.
Proof. intros H. apply channel_unit in H. apply round_nonneg; lra. Qed.
Lemma channel_le1 x : channel x -> round64 x <= 1.
Proof. intros H. apply (round64_le x 1); [cbn; lia|exact (proj2 (channel_unit x H))|]. apply moderate. apply channel_abs in H. lra. Qed.

(** ** largest and smallest *)
Lemma max_cases a b : channel a -> channel b -> channel (Qmax a b) /\ Qmax (round64 a) (round64 b) == round64 (Qmax a b).
Proof.
  intros A B. destruct (Q.max_spec a b) as [[L E]|[L E]].
  - split; [destruct B as (n & N & F); exists n; split; [exact N|now rewrite E]|]. rewrite (round64_ext _ _ E). apply Q.max_r. apply channel_mono; [assumption..|lra].
  - split; [destruct A as (n & N & F); exists n; split; [exact N|now rewrite E]|]. rewrite (round64_ext _ _ E). apply Q.max_l. now apply channel_mono.
Qed.
Lemma min_cases a b : channel a -> channel b -> channel (Qmin a b) /\ Qmin (round64 a) (round64 b) == round64 (Qmin a b).
Proof.
  intros A B. destruct (Q.min_spec a b) as [[L E]|[L E]].
  - split; [destruct A as (n & N & F); exists n; split; [exact N|now rewrite E]|]. rewrite (round64_ext _ _ E). apply Q.min_l. apply channel_mono; [assumption..|lra].
  - split; [destruct B as (n & N & F); exists n; split; [exact N|now rewrite E]|]. rewrite (round64_ext _ _ E). apply Q.min_r. now apply channel_mono.
Qed.

(** ** quotients *)
Lemma quotient_error n c n1 c1 a : 1 # 255 <= c -> - c <= n <= c -> 1 # 256 <= c1 -> 0 <= a ->
  - a <= n1 - n <= a -> - a <= c1 - c <= a -> - (512 * a) <= n1 / c1 - n / c <= 512 * a.
Proof.
  intros C N C1 A H1 H2. destruct (quotient n c ltac:(lra)) as (q & Eq & Hq). destruct (quotient n1 c1 ltac:(lra)) as (t & Et & Ht). rewrite Eq, Et.
  assert (Q1 : -1 <= q <= 1) by (split; nra).
  assert (K : (t - q) * c1 == (n1 - n) - q * (c1 - c)) by (rewrite Ht, Hq at 1; ring).
  assert (B : - (2 * a) <= (t - q) * c1 <= 2 * a) by (rewrite K; split; nra).
  split; nra.
Qed.

Section Hue.
  Variables M m : Q.
  Hypothesis HM : channel M.
  Hypothesis Hm : channel m.
  Hypothesis Lm : m < M.
  Let c1 := round64 (round64 M - round64 m).
  Lemma spread : (1 # 255) <= M - m <= 1 /\ - (4 * u) <= c1 - (M - m) <= 4 * u /\ (1 # 256) <= c1 /\ c1 <= round64 M.
  Proof.
    pose proof (channel_step m M Hm HM Lm). pose proof (channel_unit M HM). pose proof (channel_unit m Hm). pose proof (channel_round M HM). pose proof (channel_round m Hm).
    assert (A : Qabs (round64 M - round64 m) <= 2) by (apply abs_le; unfold u in *; lra). pose proof (round_abs _ 2 A ltac:(lra)) as R. fold c1 in R.
    split; [lra|]. split; [unfold u in *; lra|]. split; [unfold u in *; lra|].
    assert (D : double (round64 M)) by (apply round_double; apply channel_abs in HM; lra). rewrite <- (round64_double _ D). unfold c1. apply round_mono.
    - lra.
    - pose proof (channel_le1 M HM). pose proof (channel_nonneg M HM). apply abs_le. lra.
    - pose proof (channel_nonneg m Hm). lra.
  Qed.
  Lemma hue_error k x y : (k == 0 \/ k == 2 \/ k == 4) -> channel x -> channel y -> m <= x <= M -> m <= y <= M ->
    let hh := 60 * (k + (x - y) / (M - m)) in
    let h1 := round64 (60 * round64 (k + round64 (round64 (round64 x - round64 y) / c1))) in
    - (124000 * u) <= h1 - hh <= 124000 * u /\ -60 <= hh <= 300 /\ Qle_bool 0 h1 = Qle_bool 0 hh /\ (hh < 0 -> hh <= - (60 # 255)).
  Proof.
    intros Hk Hx Hy Bx By hh h1. destruct spread as (S1 & S2 & S3 & _).
    pose proof (channel_unit x Hx). pose proof (channel_unit y Hy). pose proof (channel_round x Hx). pose proof (channel_round y Hy).
    assert (A : Qabs (round64 x - round64 y) <= 2) by (apply abs_le; unfold u in *; lra). pose proof (round_abs _ 2 A ltac:(lra)) as R1.
    set (n1 := round64 (round64 x - round64 y)) in *.
    assert (E1 : - (4 * u) <= n1 - (x - y) <= 4 * u) by (unfold u in *; lra).
    pose proof (quotient_error (x - y) (M - m) n1 c1 (4 * u) ltac:(lra) ltac:(lra) S3 ltac:(unfold u; lra) E1 S2) as E2.
    destruct (quotient (x - y) (M - m) ltac:(lra)) as (q & Eq & Hq). assert (Q1 : -1 <= q <= 1) by (split; nra).
    rewrite Eq in E2. set (t := n1 / c1) in *.
    assert (A2 : Qabs t <= 2) by (apply abs_le; unfold u in *; lra). pose proof (round_abs _ 2 A2 ltac:(lra)) as R2. set (t2 := round64 t) in *.
    assert (K4 : 0 <= k <= 4) by (destruct Hk as [E|[E|E]]; rewrite E; lra).
    assert (A3 : Qabs (k + t2) <= 8) by (apply abs_le; unfold u in *; lra). pose proof (round_abs _ 8 A3 ltac:(lra)) as R3. set (t3 := round64 (k + t2)) in *.
    assert (A4 : Qabs (60 * t3) <= 480) by (apply abs_le; unfold u in *; lra). pose proof (round_abs _ 480 A4 ltac:(lra)) as R4. fold h1 in R4.
    assert (HH : hh == 60 * (k + q)) by (unfold hh; rewrite Eq; reflexivity).
    assert (Er : - (124000 * u) <= h1 - hh <= 124000 * u) by (rewrite HH; unfold u in *; lra).
    assert (Rg : -60 <= hh <= 300) by (rewrite HH; lra).
    assert (Ng : hh < 0 -> hh <= - (60 # 255)).
    { intros L. rewrite HH in L |- *. assert (k == 0) as K0 by (destruct Hk as [E|[E|E]]; rewrite E in L; try lra; exact E). rewrite K0 in *.
      assert (x < y) as LT by (destruct (Qlt_le_dec x y) as [?|K]; [assumption|exfalso; nra]). pose proof (channel_step x y Hx Hy LT). nra. }
    split; [exact Er|]. split; [exact Rg|]. split; [|exact Ng].
    destruct (Qlt_le_dec hh 0) as [L|L].
    - specialize (Ng L). transitivity false; [|symmetry]; (destruct (Qle_bool 0 _) eqn:K; [apply Qle_bool_iff in K; unfold u in *; lra|reflexivity]).
    - rewrite (proj2 (Qle_bool_iff 0 hh) L). apply Qle_bool_iff. destruct Hk as [E|E].
      + assert (y <= x) as GE by (rewrite HH, E in L; nra). pose proof (channel_mono y x Hy Hx GE).
        assert (0 <= n1) by (apply round_nonneg; [lra|unfold u in *; lra]).
        assert (0 <= t) by (unfold t; apply Qle_shift_div_l; lra).
        assert (0 <= t2) by (apply round_nonneg; [lra|unfold u in *; lra]).
        assert (0 <= t3) by (apply round_nonneg; [lra|unfold u in *; lra]).
        apply round_nonneg; [lra|unfold u in *; lra].
      + assert (2 <= k) by (destruct E as [E|E]; rewrite E; lra). rewrite HH in Er. unfold u in *. lra.
  Qed.
  Lemma hue_double k x y : (k == 0 \/ k == 2 \/ k == 4) -> channel x -> channel y -> m <= x <= M -> m <= y <= M ->
    double (round64 (60 * round64 (k + round64 (round64 (round64 x - round64 y) / c1)))).
  Proof.
    intros Hk Hx Hy Bx By. destruct (hue_error k x y Hk Hx Hy Bx By) as (E & R & _).
    destruct spread as (S1 & S2 & S3 & _).
    pose proof (channel_unit x Hx). pose proof (channel_unit y Hy). pose proof (channel_round x Hx). pose proof (channel_round y Hy).
    apply round_double. apply abs_le.
    assert (A : Qabs (round64 x - round64 y) <= 2) by (apply abs_le; unfold u in *; lra). pose proof (round_abs _ 2 A ltac:(lra)) as R1.
    set (n1 := round64 (round64 x - round64 y)) in *.
    assert (E1 : - (4 * u) <= n1 - (x - y) <= 4 * u) by (unfold u in *; lra).
    pose proof (quotient_error (x - y) (M - m) n1 c1 (4 * u) ltac:(lra) ltac:(lra) S3 ltac:(unfold u; lra) E1 S2) as E2.
    destruct (quotient (x - y) (M - m) ltac:(lra)) as (q & Eq & Hq). assert (Q1 : -1 <= q <= 1) by (split; nra).
    rewrite Eq in E2. set (t := n1 / c1) in *.
    assert (A2 : Qabs t <= 2) by (apply abs_le; unfold u in *; lra). pose proof (round_abs _ 2 A2 ltac:(lra)) as R2. set (t2 := round64 t) in *.
    assert (K4 : 0 <= k <= 4) by (destruct Hk as [K|[K|K]]; rewrite K; lra).
    assert (A3 : Qabs (k + t2) <= 8) by (apply abs_le; unfold u in *; lra). pose proof (round_abs _ 8 A3 ltac:(lra)) as R3. unfold u in *. lra.
  Qed.
  Lemma saturation : let s := (M - m) / M in let s1 := round64 (c1 / round64 M) in
    - (2600 * u) <= s1 - s <= 2600 * u /\ 0 <= s1 <= 1 /\ double s1.
  Proof.
    destruct spread as (S1 & S2 & S3 & S4). pose proof (channel_unit M HM). pose proof (channel_unit m Hm). pose proof (channel_round M HM).
    pose proof (quotient_error (M - m) M c1 (round64 M) (4 * u) ltac:(lra) ltac:(lra) ltac:(unfold u in *; lra) ltac:(unfold u; lra) S2 ltac:(unfold u in *; lra)) as E.
    assert (T : 0 <= c1 / round64 M <= 1) by (split; [apply Qle_shift_div_l; unfold u in *; lra|apply Qle_shift_div_r; unfold u in *; lra]).
    assert (A : Qabs (c1 / round64 M) <= 1) by (apply abs_le; lra). pose proof (round_abs _ 1 A ltac:(lra)) as R.
    cbv zeta. split; [unfold u in *; lra|]. split; [split|].
    - apply round_nonneg; lra.
    - apply (round64_le _ 1); [cbn; lia|apply T|apply moderate; lra].
    - apply round_double. lra.
  Qed.
End Hue.

(** ** all of it *)
Definition hsv_dbl (r g b : Q) : result (Q * Q * Q) :=
  let rn := round64 r in let gn := round64 g in let bn := round64 b in
  let vmax := Qmax rn (Qmax gn bn) in
  let vmin := Qmin rn (Qmin gn bn) in
  let c := round64 (vmax - vmin) in
  let v := vmax in
  let hue (k : Q) (x y : Q) := round64 (60 * round64 (k + round64 (round64 (x - y) / c))) in
  bind (if Qeq_bool c 0 then Ok 0
        else if Qeq_bool v rn then Ok (hue 0 gn bn)
        else if Qeq_bool v gn then Ok (hue 2 bn rn)
        else if Qeq_bool v bn then Ok (hue 4 rn gn)
        else Err LogicError) (fun h =>
  let s := if Qeq_bool v 0 then 0 else round64 (c / v) in
  let h := if Qle_bool 0 h then h else round64 (h + 360) in
  Ok (h, s, v)).
Definition close_hsv (x y : result (Q * Q * Q)) : Prop :=
  exists h s v h1 s1 v1, x = Ok (h, s, v) /\ y = Ok (h1, s1, v1) /\
    Qabs (h1 - h) <= 1 # 50000000000 /\ Qabs (s1 - s) <= 1 # 2000000000000 /\ Qabs (v1 - v) <= u /\
    0 <= h1 < 360 /\ 0 <= s1 <= 1 /\ 0 <= v1 <= 1 /\ double h1 /\ double s1 /\ double v1 /\ Doubles.nearest v v1.
Lemma eqb_same a b c d : (a == b <-> c == d) -> Qeq_bool a b = Qeq_bool c d.
Proof.
  intros H. destruct (Qeq_bool a b) eqn:A, (Qeq_bool c d) eqn:C; try reflexivity.
  - apply eqb_true in A. apply eqb_false in C. tauto.
  - apply eqb_true in C. apply eqb_false in A. tauto.
Qed.
Lemma hsv_close r g b : channel r -> channel g -> channel b -> close_hsv (hsv_of r g b) (hsv_dbl r g b).
Proof.
  intros Hr Hg Hb. destruct (hsv_good r g b (channel_unit r Hr) (channel_unit g Hg) (channel_unit b Hb)) as (h & s & v & E & _ & Rh & Rs & Rv).
  destruct (max_cases g b Hg Hb) as [C1 X1]. destruct (max_cases r _ Hr C1) as [C2 X2].
  destruct (min_cases g b Hg Hb) as [D1 Y1]. destruct (min_cases r _ Hr D1) as [D2 Y2].
  assert (XM : Qmax (round64 r) (Qmax (round64 g) (round64 b)) == round64 (Qmax r (Qmax g b))) by (rewrite X1; exact X2).
  assert (YM : Qmin (round64 r) (Qmin (round64 g) (round64 b)) == round64 (Qmin r (Qmin g b))) by (rewrite Y1; exact Y2).
  unfold hsv_of, hsv_dbl in *. set (V := Qmax (round64 r) (Qmax (round64 g) (round64 b))) in *. set (W := Qmin (round64 r) (Qmin (round64 g) (round64 b))) in *.
  assert (O : (r <= Qmax r (Qmax g b) /\ g <= Qmax r (Qmax g b) /\ b <= Qmax r (Qmax g b)) /\ (Qmin r (Qmin g b) <= r /\ Qmin r (Qmin g b) <= g /\ Qmin r (Qmin g b) <= b)).
  { pose proof (Q.le_max_l r (Qmax g b)). pose proof (Q.le_max_r r (Qmax g b)). pose proof (Q.le_max_l g b). pose proof (Q.le_max_r g b).
    pose proof (Q.le_min_l r (Qmin g b)). pose proof (Q.le_min_r r (Qmin g b)). pose proof (Q.le_min_l g b). pose proof (Q.le_min_r g b). repeat split; lra. }
  set (M := Qmax r (Qmax g b)) in *. set (m := Qmin r (Qmin g b)) in *. clearbody V W M m. cbv zeta in *.
  destruct O as ((A1 & A2 & A3) & B1 & B2 & B3).
  pose proof (channel_round M C2) as RM.
  assert (DV : double V) by (apply (double_ext (round64 M)); [now rewrite XM|apply round_double; apply channel_abs in C2; lra]).
  assert (NV : Doubles.nearest M V) by (apply (nearest_ext M (round64 M)); [now rewrite XM|apply round64_nearest, moderate; apply channel_abs in C2; lra]).
  assert (V01 : 0 <= V <= 1) by (rewrite XM; split; [now apply channel_nonneg|now apply channel_le1]).
  assert (VM : Qabs (V - M) <= u) by (apply abs_le; rewrite XM; lra).
  destruct (Qeq_bool (M - m) 0) eqn:C0.
  - (* grey *)
    apply eqb_true in C0. assert (VW : V - W == 0).
    { rewrite XM, YM. assert (EQ : M == m) by lra. apply round64_ext in EQ. rewrite EQ. ring. }
    rewrite (proj2 (eqb_true _ 0) (round64_0 _ VW)). cbn [bind] in *. change (Qle_bool 0 0) with true in *. cbn iota in *.
    injection E as <- <- <-. eexists _, _, _, _, _, _. split; [reflexivity|]. split; [reflexivity|].
    assert (S0 : (if Qeq_bool M 0 then 0 else (M - m) / M) == 0).
    { destruct (Qeq_bool M 0); [reflexivity|]. rewrite C0. unfold Qdiv. ring. }
    assert (S1 : (if Qeq_bool V 0 then 0 else round64 (round64 (V - W) / V)) == 0).
    { destruct (Qeq_bool V 0); [reflexivity|]. apply round64_0. rewrite (round64_0 _ VW). unfold Qdiv. ring. }
    assert (D0 : double 0) by (change 0 with (inject_Z 0); apply double_Z; cbn; lia).
    split; [discriminate|]. split; [rewrite (Qabs_wd _ 0) by (rewrite S0, S1; ring); discriminate|]. split; [exact VM|].
    split; [lra|]. split; [rewrite S1; lra|]. split; [exact V01|]. split; [exact D0|]. split; [apply (double_ext 0); [now rewrite S1|exact D0]|]. split; [exact DV|exact NV].
  - apply eqb_false in C0. assert (LT : m < M) by lra.
    assert (CE : V - W == round64 M - round64 m) by (rewrite XM, YM; reflexivity). apply round64_ext in CE.
    pose proof (channel_unit m D2) as Um. destruct (spread M m C2 D2 LT) as (S1 & S2 & S3 & S4).
    assert (CN : Qeq_bool (round64 (V - W)) 0 = false) by (destruct (Qeq_bool (round64 (V - W)) 0) eqn:K; [apply eqb_true in K; rewrite CE in K; lra|reflexivity]).
    rewrite CN.
    assert (M0 : Qeq_bool M 0 = false) by (destruct (Qeq_bool M 0) eqn:K; [apply eqb_true in K; lra|reflexivity]).
    assert (V0 : Qeq_bool V 0 = false) by (destruct (Qeq_bool V 0) eqn:K; [apply eqb_true in K; rewrite XM in K; unfold u in *; lra|reflexivity]).
    rewrite M0 in E. rewrite M0, V0.
    assert (EB : forall x, channel x -> Qeq_bool V (round64 x) = Qeq_bool M x) by (intros x Hx; apply eqb_same; rewrite XM; now apply channel_eq).
    rewrite (EB r Hr), (EB g Hg), (EB b Hb).
    destruct (saturation M m C2 D2 LT) as (T1 & T2 & T3). cbv zeta in T1, T2, T3.
    assert (SE : round64 (V - W) / V == round64 (round64 M - round64 m) / round64 M) by (rewrite CE, XM; reflexivity). apply round64_ext in SE.
    assert (Key : forall k x y, (k == 0 \/ k == 2 \/ k == 4) -> channel x -> channel y -> m <= x <= M -> m <= y <= M ->
      bind (Ok (60 * (k + (x - y) / (M - m)))) (fun h0 => Ok (if Qle_bool 0 h0 then h0 else h0 + 360, (M - m) / M, M)) = Ok (h, s, v) ->
      close_hsv (bind (Ok (60 * (k + (x - y) / (M - m)))) (fun h0 => Ok (if Qle_bool 0 h0 then h0 else h0 + 360, (M - m) / M, M)))
        (bind (Ok (round64 (60 * round64 (k + round64 (round64 (round64 x - round64 y) / round64 (V - W))))))
          (fun h0 => Ok (if Qle_bool 0 h0 then h0 else round64 (h0 + 360), round64 (round64 (V - W) / V), V)))).
    { intros k x y Hk Hx Hy Bx By EE. destruct (hue_error M m C2 D2 LT k x y Hk Hx Hy Bx By) as (H1 & H2 & H3 & H4). cbv zeta in H1, H2, H3, H4.
      pose proof (hue_double M m C2 D2 LT k x y Hk Hx Hy Bx By) as H5.
      assert (HE : round64 (60 * round64 (k + round64 (round64 (round64 x - round64 y) / round64 (V - W)))) == round64 (60 * round64 (k + round64 (round64 (round64 x - round64 y) / round64 (round64 M - round64 m))))).
      { apply round64_ext, Qmult_comp; [reflexivity|]. apply round64_ext, Qplus_comp; [reflexivity|]. apply round64_ext. rewrite CE. reflexivity. }
      set (h1 := round64 (60 * round64 (k + round64 (round64 (round64 x - round64 y) / round64 (V - W))))) in *.
      set (h2 := round64 (60 * round64 (k + round64 (round64 (round64 x - round64 y) / round64 (round64 M - round64 m))))) in *.
      set (hh := 60 * (k + (x - y) / (M - m))) in *. clearbody h1 h2 hh.
      cbn [bind] in *. assert (B : Qle_bool 0 h1 = Qle_bool 0 hh) by (rewrite <- H3; now rewrite HE). rewrite B.
      assert (DS : double (round64 (round64 (V - W) / V))) by (apply (double_ext (round64 (round64 (round64 M - round64 m) / round64 M))); [now rewrite SE|exact T3]).
      assert (Fin : forall a c, Qabs (c - a) <= 1 # 50000000000 -> 0 <= c < 360 -> double c ->
        close_hsv (Ok (a, (M - m) / M, M)) (Ok (c, round64 (round64 (V - W) / V), V))).
      { intros a c F1 F2 F3. eexists _, _, _, _, _, _. split; [reflexivity|]. split; [reflexivity|]. split; [exact F1|].
        split; [apply abs_le; rewrite SE; unfold u in *; lra|]. split; [exact VM|]. split; [exact F2|]. split; [rewrite SE; exact T2|]. split; [exact V01|].
        split; [exact F3|]. split; [exact DS|]. split; [exact DV|exact NV]. }
      assert (D1' : double h1) by (apply (double_ext h2); [now rewrite HE|exact H5]).
      destruct (Qle_bool 0 hh) eqn:LH.
      - apply Fin; [apply abs_le; rewrite HE; unfold u in *; lra| |exact D1']. apply Qle_bool_iff in B. split; [exact B|]. rewrite HE. unfold u in *. lra.
      - apply Qlebool_false in LH. specialize (H4 LH).
        assert (A : Qabs (h1 + 360) <= 400) by (apply abs_le; rewrite HE; unfold u in *; lra). pose proof (round_abs _ 400 A ltac:(lra)) as R.
        assert (R' : - (u * 400) <= round64 (h1 + 360) - (h2 + 360) <= u * 400) by (rewrite HE in R at 2 4; exact R).
        apply Fin; [apply abs_le; unfold u in *; lra|unfold u in *; lra|]. apply round_double. lra. }
    destruct (Qeq_bool M r) eqn:E1; [|destruct (Qeq_bool M g) eqn:E2; [|destruct (Qeq_bool M b) eqn:E3; [|discriminate E]]].
    + apply Key; auto with qarith; lra.
    + apply Key; auto with qarith; lra.
    + apply Key; auto with qarith; lra.
Qed.

Local Opaque round64.
Lemma hsv_doubles_eq hex : hsv_doubles hex = hsv_dbl (red hex # 255) (green hex # 255) (blue hex # 255).
Proof. unfold hsv_doubles. rewrite channels_spec. reflexivity. Qed.
Local Transparent round64.
Lemma hsv_channels_eq hex : hsv_channels hex = hsv_of (red hex # 255) (green hex # 255) (blue hex # 255).
Proof. unfold hsv_channels. rewrite channels_spec. reflexivity. Qed.
Lemma channels_of hex : channel (red hex # 255) /\ channel (green hex # 255) /\ channel (blue hex # 255).
Proof. destruct (red_range hex) as (R & G & B). split; [exists (red hex)|split; [exists (green hex)|exists (blue hex)]]; (split; [assumption|reflexivity]). Qed.
Theorem doubles_close hex : close_hsv (hsv_channels hex) (hsv_doubles hex).
Proof. rewrite hsv_doubles_eq, hsv_channels_eq. destruct (channels_of hex) as (R & G & B). now apply hsv_close. Qed.

(** ** back to channels *)
Definition mix (v s f : Q) : Q := v - v * s * f.
Lemma mix_close v s f v1 s1 f1 a b d : 0 <= v <= 1 -> 0 <= s <= 1 -> 0 <= f <= 1 -> 0 <= v1 <= 1 -> 0 <= s1 <= 1 -> 0 <= f1 <= 1 ->
  - a <= v1 - v <= a -> - b <= s1 - s <= b -> - d <= f1 - f <= d -> - (a + b + d) <= mix v1 s1 f1 - mix v s f <= a + b + d.
Proof.
  intros V S F V1 S1 F1 A B D.
  assert (E : mix v1 s1 f1 - mix v s f == (v1 - v) * (1 - s1 * f1) - v * ((s1 - s) * f1) - (v * s) * (f1 - f)) by (unfold mix; ring).
  assert (P : 0 <= s1 * f1 <= 1) by (split; nra). assert (Q : 0 <= v * s <= 1) by (split; nra).
  assert (X : - a <= (v1 - v) * (1 - s1 * f1) <= a) by (split; nra).
  assert (Y0 : - b <= (s1 - s) * f1 <= b) by (split; nra).
  assert (Y : - b <= v * ((s1 - s) * f1) <= b) by (split; nra).
  assert (Z : - d <= (v * s) * (f1 - f) <= d) by (split; nra).
  rewrite E. lra.
Qed.
(** the sector of an angle *)
Lemma sector h : 0 <= h < 360 -> exists k f, (0 <= k <= 5)%Z /\ 0 <= f < 1 /\ h == 60 * (inject_Z k + f).
Proof.
  intros H. exists (Qfloor (h / 60)), (h / 60 - inject_Z (Qfloor (h / 60))).
  assert (E : (h / 60) * 60 == h) by (field). assert (B : 0 <= h / 60 < 6) by (split; [apply Qle_shift_div_l|apply Qlt_shift_div_r]; lra).
  pose proof (Qfloor_le (h / 60)). pose proof (Qlt_floor (h / 60)) as L. rewrite inject_Z_plus in L.
  split; [split|split; [split; change (inject_Z 1) with 1 in L; lra|]].
  - rewrite <- (Qfloor_Z 0). apply Qfloor_resp_le. change (inject_Z 0) with 0. lra.
  - assert (inject_Z (Qfloor (h / 60)) < inject_Z 6) as K by (change (inject_Z 6) with 6; lra). rewrite <- Zlt_Qlt in K. lia.
  - rewrite <- E at 1. ring.
Qed.

(** how far each channel is from the largest *)
Definition wheel (k : Z) (f : Q) : Q * Q * Q :=
  match k with
  | 0%Z => (0, 1 - f, 1) | 1%Z => (f, 0, 1) | 2%Z => (1, 0, 1 - f) | 3%Z => (1, f, 0) | 4%Z => (1 - f, 1, 0) | _ => (0, 1, f)
  end.
Lemma six k : (0 <= k <= 5)%Z -> k = 0%Z \/ k = 1%Z \/ k = 2%Z \/ k = 3%Z \/ k = 4%Z \/ k = 5%Z.
Proof. lia. Qed.
Lemma wheel_unit k f : (0 <= k <= 5)%Z -> 0 <= f < 1 -> let '(x, y, z) := wheel k f in 0 <= x <= 1 /\ 0 <= y <= 1 /\ 0 <= z <= 1.
Proof. intros K F. destruct (six k K) as [->|[->|[->|[->|[->| ->]]]]]; cbn [wheel]; lra. Qed.
Lemma wheel_from h s v r g b : from_hsv h s v r g b <-> exists k f, (0 <= k <= 5)%Z /\ 0 <= f < 1 /\ h == 60 * (inject_Z k + f) /\
  let '(x, y, z) := wheel k f in r == mix v s x /\ g == mix v s y /\ b == mix v s z.
Proof.
  unfold from_hsv. split; intros (k & f & K & F & H & C); exists k, f; (split; [exact K|]; split; [exact F|]; split; [exact H|]);
  destruct (six k K) as [->|[->|[->|[->|[->| ->]]]]]; cbn [wheel] in *; cbv zeta in *; unfold mix in *; destruct C as (X & Y & Z); rewrite X, Y, Z; repeat split; ring.
Qed.
Lemma wheel_close k f k1 f1 d : (0 <= k <= 5)%Z -> (0 <= k1 <= 5)%Z -> 0 <= f < 1 -> 0 <= f1 < 1 -> d < 1 ->
  - d <= inject_Z k1 + f1 - (inject_Z k + f) <= d ->
  let '(x, y, z) := wheel k f in let '(x1, y1, z1) := wheel k1 f1 in - d <= x1 - x <= d /\ - d <= y1 - y <= d /\ - d <= z1 - z <= d.
Proof.
  intros K K1 F F1 D H. destruct (six k K) as [->|[->|[->|[->|[->| ->]]]]]; destruct (six k1 K1) as [->|[->|[->|[->|[->| ->]]]]]; cbn [wheel];
  change (inject_Z 0) with 0 in H; change (inject_Z 1) with 1 in H; change (inject_Z 2) with 2 in H; change (inject_Z 3) with 3 in H; change (inject_Z 4) with 4 in H; change (inject_Z 5) with 5 in H; lra.
Qed.
Lemma from_close h s v r g b h1 s1 v1 e a d : from_hsv h s v r g b -> 0 <= h1 < 360 -> 0 <= v <= 1 -> 0 <= s <= 1 -> 0 <= v1 <= 1 -> 0 <= s1 <= 1 ->
  d < 1 -> - e <= v1 - v <= e -> - a <= s1 - s <= a -> - (60 * d) <= h1 - h <= 60 * d ->
  exists r1 g1 b1, from_hsv h1 s1 v1 r1 g1 b1 /\ - (e + a + d) <= r1 - r <= e + a + d /\ - (e + a + d) <= g1 - g <= e + a + d /\ - (e + a + d) <= b1 - b <= e + a + d.
Proof.
  intros H H1 V S V1 S1 D A B C. apply wheel_from in H. destruct H as (k & f & K & F & Eh & W). destruct (sector h1 H1) as (k1 & f1 & K1 & F1 & Eh1).
  pose proof (wheel_close k f k1 f1 d K K1 F F1 D ltac:(lra)) as P. pose proof (wheel_unit k f K F) as U. pose proof (wheel_unit k1 f1 K1 F1) as U1.
  destruct (wheel k f) as [[x y] z] eqn:W0, (wheel k1 f1) as [[x1 y1] z1] eqn:W1. destruct W as (Wr & Wg & Wb), P as (Px & Py & Pz), U as (Ux & Uy & Uz), U1 as (U1x & U1y & U1z).
  exists (mix v1 s1 x1), (mix v1 s1 y1), (mix v1 s1 z1). split.
  - apply wheel_from. exists k1, f1. split; [exact K1|]. split; [exact F1|]. split; [exact Eh1|]. rewrite W1. repeat split; reflexivity.
  - rewrite Wr, Wg, Wb. repeat split; apply mix_close; assumption.
Qed.
Lemma to_channel_near x n : - (1 # 1000) <= x - (n # 255) <= 1 # 1000 -> to_channel x = n.
Proof.
  intros H. unfold to_channel. assert (E : 255 * (n # 255) == inject_Z n) by (unfold Qeq; cbn [Qnum Qden Qmult inject_Z]; lia).
  assert (L : inject_Z n <= 255 * x + (1 # 2)) by lra. assert (U : 255 * x + (1 # 2) < inject_Z (n + 1)) by (rewrite inject_Z_plus; change (inject_Z 1) with 1; lra).
  apply Qfloor_resp_le in L. rewrite Qfloor_Z in L. pose proof (Qfloor_le (255 * x + (1 # 2))) as G.
  assert (inject_Z (Qfloor (255 * x + (1 # 2))) < inject_Z (n + 1)) as K by lra. rewrite <- Zlt_Qlt in K. lia.
Qed.
Theorem doubles_inverse hex : exists h s v r g b, hsv_doubles hex = Ok (h, s, v) /\ from_hsv h s v r g b /\
  Qabs (r - (red hex # 255)) <= 1 # 1000000000000 /\ Qabs (g - (green hex # 255)) <= 1 # 1000000000000 /\ Qabs (b - (blue hex # 255)) <= 1 # 1000000000000.
Proof.
  destruct (doubles_close hex) as (h & s & v & h1 & s1 & v1 & E & E1 & Ch & Cs & Cv & Rh & Rs & Rv & _).
  destruct (hsv_inverse hex) as (h0 & s0 & v0 & E0 & FH & Rh0 & Rs0 & Rv0). rewrite E in E0. injection E0 as <- <- <-.
  apply abs_le in Ch, Cs, Cv.
  destruct (from_close h s v _ _ _ h1 s1 v1 u (1 # 2000000000000) (1 # 3000000000000) FH Rh Rv0 Rs0 Rv Rs ltac:(lra) Cv Cs ltac:(lra)) as (r & g & b & F & X & Y & Z).
  exists h1, s1, v1, r, g, b. split; [exact E1|]. split; [exact F|]. unfold u in *. repeat split; apply abs_le; lra.
Qed.
Lemma from_unique h s v r g b r1 g1 b1 : from_hsv h s v r g b -> from_hsv h s v r1 g1 b1 -> r == r1 /\ g == g1 /\ b == b1.
Proof.
  intros (k & f & K & F & H & C) (k1 & f1 & K1 & F1 & H1 & C1).
  assert (k = k1) as <-.
  { assert (inject_Z k < inject_Z (k1 + 1)) as A by (rewrite inject_Z_plus; change (inject_Z 1) with 1; lra). assert (inject_Z k1 < inject_Z (k + 1)) as B by (rewrite inject_Z_plus; change (inject_Z 1) with 1; lra).
    rewrite <- Zlt_Qlt in A, B. lia. }
  assert (Ef : f == f1) by lra.
  destruct (six k K) as [->|[->|[->|[->|[->| ->]]]]]; cbv zeta in *; destruct C as (X & Y & Z), C1 as (X1 & Y1 & Z1); rewrite X, Y, Z, X1, Y1, Z1, ?Ef; repeat split; reflexivity.
Qed.
Theorem doubles_back hex h s v r g b : hsv_doubles hex = Ok (h, s, v) -> from_hsv h s v r g b ->
  to_channel r = red hex /\ to_channel g = green hex /\ to_channel b = blue hex.
Proof.
  intros E F. destruct (doubles_inverse hex) as (h0 & s0 & v0 & r0 & g0 & b0 & E0 & F0 & R & G & B). rewrite E in E0. injection E0 as <- <- <-.
  destruct (from_unique _ _ _ _ _ _ _ _ _ F F0) as (X & Y & Z). apply abs_le in R, G, B. repeat split; apply to_channel_near; lra.
Qed.
(** the foreground picked for a background *)
Theorem autopick_same s : autopick_doubles s = Ok (autopick_fg s).
Proof.
  unfold autopick_doubles, autopick_fg. destruct (hex_value (st_bg s)) as [hex|]; [|reflexivity].
  destruct (doubles_close hex) as (h & sa & v & h1 & s1 & v1 & E & E1 & _ & _ & Cv & _). rewrite E1. cbn [bind].
  assert (V : v == hsv_value_255 hex # 255).
  { unfold hsv_channels in E. unfold hsv_value_255. rewrite channels_spec in *. cbv zeta in E.
    assert (K : forall (x : result Q) f a b, bind x (fun h0 : Q => Ok (f h0, a, b)) = Ok (h, sa, v) -> b = v) by (intros [y|y] f a b; cbn [bind]; congruence).
    apply K in E. rewrite <- E. clear.
    assert (M : forall a b, Qmax (a # 255) (b # 255) == Z.max a b # 255).
    { intros a b. destruct (Q.max_spec (a # 255) (b # 255)) as [[L ->]|[L ->]]; unfold Qlt, Qle in L; cbn [Qnum Qden] in L; [rewrite Z.max_r by lia|rewrite Z.max_l by lia]; reflexivity. }
    rewrite M, M. reflexivity. }
  do 2 f_equal. apply abs_le in Cv. pose proof (round_abs (45 # 100) 1 ltac:(discriminate) ltac:(lra)) as R. rewrite V in Cv.
  set (n := hsv_value_255 hex) in *. destruct (Z.leb_spec 115 n) as [L|L].
  - assert (115 # 255 <= n # 255) by (unfold Qle; cbn [Qnum Qden]; lia). rewrite (proj2 (Qle_bool_iff _ _)); [reflexivity|]. unfold u in *. lra.
  - assert (n # 255 <= 114 # 255) by (unfold Qle; cbn [Qnum Qden]; lia). destruct (Qle_bool _ v1) eqn:K; [|reflexivity]. apply Qle_bool_iff in K. unfold u in *. lra.
Qed.
Theorem hue_doubles_above : exists hex h s v, hsv_doubles hex = Ok (h, s, v) /\ 359 < h.
Proof.
  destruct (doubles_close 0xff0001) as (h & s & v & h1 & s1 & v1 & E & E1 & Ch & _). vm_compute in E. injection E as <- _ _.
  exists 0xff0001%Z, h1, s1, v1. split; [exact E1|]. apply abs_le in Ch. lra.
Qed.
Lemma hsv_example : match hsv_channels 0xff0001, hsv_doubles 0xff0001 with
    | Ok (h, s, v), Ok (h1, s1, v1) => ~ h1 == h /\ 35976 # 100 < h1 /\ s1 == 1 /\ v1 == 1 | _, _ => False end /\
  autopick_doubles (with_colors NOOP_STYLE NOOP_COLOR (ColorRGB (Some 0x000080%Z))) = Ok (with_colors NOOP_STYLE RGB_GREY_4 (ColorRGB (Some 0x000080%Z))).
Proof. vm_compute. repeat split; discriminate. Qed.
