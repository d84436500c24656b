(** Proofs about ints as numbers of a given length and with units *)
From Coq Require Import Ascii String.
From Coq Require Import List Arith NArith ZArith QArith Qabs Qround Qpower Bool Lia Lqa.
From Verif.Model Require Import Base Color TimeDelta TimeFloat Render FloatText FloatDoubles IntNumbers.
From Verif.Spec Require Import Numbers FloatText Doubles Logarithm IntNumbers.
From Verif.Proof Require Import BaseFacts TokFacts BinClaims DurationFacts FloatFacts FloatClaims UnitFacts UnitClaims RoundFacts FloatDoubleFacts FloatDoubleClaims LogFacts IntNumberFacts.
Import ListNotations.
Local Open Scope Z_scope.

Lemma lt_int z c : Qlt_bool (inject_Z z) (inject_Z c) = (z <? c).
Proof.
  destruct (Qlt_bool_spec (inject_Z z) (inject_Z c)) as [H|H], (Z.ltb_spec z c) as [K|K]; try reflexivity.
  - rewrite Zle_Qle in K. lra.
  - rewrite Zlt_Qlt in K. lra.
Qed.
Lemma lt0_int z : Qlt_bool (inject_Z z) 0 = (z <? 0).
Proof. exact (lt_int z 0). Qed.
Lemma lt1_int z : Qlt_bool (inject_Z z) 1 = (z <? 1).
Proof. exact (lt_int z 1). Qed.
Lemma eq0_int z : Qeq_bool (inject_Z z) 0 = (z =? 0).
Proof. unfold Qeq_bool, Zeq_bool, inject_Z. cbn [Qnum Qden]. rewrite Z.mul_1_r, Z.mul_0_l. unfold Z.eqb. destruct z; reflexivity. Qed.
Lemma room_int z n : (if z <? 0 then n - 1 else n) = room_of (inject_Z z) n.
Proof. rewrite <- lt0_int. apply room_bool. Qed.
Lemma sign_int z : (if z <? 0 then [45%N] else []) = minus_sign (inject_Z z).
Proof. rewrite <- lt0_int. apply sign_bool. Qed.

Lemma le_bool_false x y : (y < x)%Q -> Qle_bool x y = false.
Proof. intros H. destruct (Qle_bool x y) eqn:K; [apply Qle_bool_iff in K; lra|reflexivity]. Qed.

Section Library.
  Variable lg : Q -> Z.
  Variable pw : Z -> Q.
  Variable lgb : Z -> Z.

  (** ** ints below 2^53 *)
  Lemma plain_int_small sign a n e : Z.abs a < 9007199254740992 -> plain_int sign a n e = plain_float sign (inject_Z a) n e.
  Proof.
    intros H. unfold plain_int, plain_float. rewrite (to_float_small a H). cbn [bind]. rewrite Qfloor_Z.
    destruct (Z.max 1 (e + 1) =? n); [reflexivity|]. destruct (n - Z.max 1 (e + 1) - 1 <? 0); reflexivity.
  Qed.
  Lemma plain_small z n : Z.abs z < 9007199254740992 -> auto_int lg pw lgb z n false = auto_doubles lg pw (inject_Z z) n false.
  Proof.
    intros H. unfold auto_int, auto_doubles, no_exp_int, plain_doubles, head_int, head_doubles. rewrite lt0_int, eq0_int.
    change (Qabs (inject_Z z)) with (inject_Z (Z.abs z)). rewrite lt1_int. assert (HA : Z.abs (Z.abs z) < 9007199254740992) by lia.
    unfold log_int, too_long. rewrite (to_float_small _ HA). cbn [bind].
    destruct (n <? -1); [reflexivity|]. destruct ((if z <? 0 then n - 1 else n) =? 0); [reflexivity|].
    destruct ((Z.abs z <? 1) && ((if z <? 0 then n - 1 else n) =? 1)); [reflexivity|]. destruct (z =? 0); [reflexivity|].
    destruct ((if z <? 0 then n - 1 else n) - 1 <? lg (inject_Z (Z.abs z))); [reflexivity|]. now apply plain_int_small.
  Qed.

  Hypothesis ACC : accurate lg.

  Lemma log_large x : double x -> (p10 13 <= x)%Q -> 12 < lg x.
  Proof.
    intros D L. pose proof (p10_pos 13). assert (P : (0 < x)%Q) by lra. destruct (log_cases lg ACC x D P) as [E|[J1 J2]].
    - rewrite E. pose proof (log_spec x P) as [_ M2]. assert (13 < log10_floor x + 1) by (apply p10_lt_inv; lra). lia.
    - assert (13 < lg x) by (apply p10_lt_inv; lra). lia.
  Qed.
  (** the float of a large int *)
  Lemma float_large z x : 9007199254740992 <= Z.abs z -> to_float z = Ok x -> double x /\ (p10 13 <= Qabs x)%Q /\ Qlt_bool x 0 = (z <? 0) /\ Qeq_bool x 0 = false /\ Qlt_bool (Qabs x) 1 = false.
  Proof.
    intros L E. destruct (to_float_close z x ltac:(lia) E) as [D C]. split; [exact D|]. apply Qabs_Qle_condition in C.
    change (Qabs (inject_Z z)) with (inject_Z (Z.abs z)) in C. assert (LQ : (inject_Z 9007199254740992 <= inject_Z (Z.abs z))%Q) by (rewrite <- Zle_Qle; exact L).
    change (inject_Z 9007199254740992) with 9007199254740992%Q in LQ. change (p10 13) with 10000000000000%Q.
    destruct (Z.ltb_spec z 0) as [S|S].
    - assert (A : (inject_Z (Z.abs z) == - inject_Z z)%Q) by (rewrite Z.abs_neq, inject_Z_opp by lia; reflexivity). rewrite A in *.
      assert (X : (x <= -10000000000000)%Q) by lra. assert (AX : (Qabs x == - x)%Q) by (apply Qabs_neg; lra).
      split; [lra|]. split; [destruct (Qlt_bool_spec x 0); [reflexivity|lra]|]. split; [apply eqb_nz; lra|]. destruct (Qlt_bool_spec (Qabs x) 1); [lra|reflexivity].
    - rewrite Z.abs_eq in * by lia. assert (X : (10000000000000 <= x)%Q) by lra. assert (AX : (Qabs x == x)%Q) by (apply Qabs_pos; lra).
      split; [lra|]. split; [destruct (Qlt_bool_spec x 0); [lra|reflexivity]|]. split; [apply eqb_nz; lra|]. destruct (Qlt_bool_spec (Qabs x) 1); [lra|reflexivity].
  Qed.
  Lemma abs_float z : has_float z -> has_float (Z.abs z).
  Proof. unfold has_float. now rewrite Z.abs_involutive. Qed.

  Lemma plain_as_float z n : has_float z -> n <= 12 -> exists x, nearest (inject_Z z) x /\ auto_int lg pw lgb z n false = auto_doubles lg pw x n false.
  Proof.
    intros H N. destruct (to_float_nearest z H) as (x & E & NE). exists x. split; [exact NE|].
    destruct (Z_lt_le_dec (Z.abs z) 9007199254740992) as [L|L].
    - rewrite to_float_small in E by exact L. injection E as <-. now apply plain_small.
    - destruct (float_large z x L E) as (D & P & F1 & F2 & F3). unfold auto_int, auto_doubles, no_exp_int, plain_doubles, head_int, head_doubles.
      rewrite F1, F2, F3. destruct (Z.ltb_spec (Z.abs z) 1); [lia|]. destruct (Z.eqb_spec z 0); [lia|]. cbn [andb].
      destruct (n <? -1); [reflexivity|]. set (r := if z <? 0 then n - 1 else n). assert (r <= 12) by (unfold r; destruct (z <? 0); lia).
      destruct (r =? 0); [reflexivity|]. destruct (to_float_nearest _ (abs_float z H)) as (y & EY & _).
      destruct (float_large (Z.abs z) y ltac:(lia) EY) as (DY & PY & G1 & _ & _).
      unfold log_int, too_long. rewrite EY. cbn [bind]. pose proof (log_large _ (double_abs x D) P).
      assert (AY : Qabs y = y).
      { apply abs_lit. destruct (Z.ltb_spec (Z.abs z) 0); [lia|]. destruct (Qlt_bool_spec y 0); [discriminate|]. destruct (Qlt_le_dec 0 y); [assumption|].
        rewrite (Qabs_neg y) in PY by assumption. change (p10 13) with 10000000000000%Q in PY. lra. }
      pose proof (log_large _ (double_abs y DY) PY) as LY. rewrite AY in LY.
      destruct (Z.ltb_spec (r - 1) (lg y)); [|lia]. destruct (Z.ltb_spec (r - 1) (lg (Qabs x))); [reflexivity|lia].
  Qed.

  (** ** units *)
  Lemma units_as_float f c unit z : pu_zero f = 8 -> zlen (pu_prefixes f) = 17 -> pu_mcoef f = inject_Z c -> 1 < c <= 10000 ->
    (round64 (1 / pu_mcoef f) < 1)%Q -> has_float z ->
    exists x, nearest (inject_Z z) x /\ format_int lg pw lgb f z unit = format_doubles lg pw f x unit.
  Proof.
    intros Z8 P17 MC C R H. destruct (to_float_nearest z H) as (x & E & NE). exists x. split; [exact NE|].
    unfold format_int, format_doubles. cbn [loop_doubles]. rewrite Z8, P17. change ((0 <=? 8) && (8 <? 17)) with true. cbv iota.
    destruct (Z_lt_le_dec (Z.abs z) 9007199254740992) as [L|L].
    - rewrite to_float_small in E by exact L. injection E as <-. change (Qabs (inject_Z z)) with (inject_Z (Z.abs z)). rewrite (to_float_small z L).
      destruct (Qlt_bool 0 (inject_Z (Z.abs z)) && Qle_bool (inject_Z (Z.abs z)) (round64 (1 / pu_mcoef f))); [reflexivity|].
      destruct (Qle_bool (pu_mcoef f) (inject_Z (Z.abs z))); [reflexivity|]. f_equal. unfold with_prefix_int, with_prefix_doubles.
      rewrite (plain_small z _ L). replace (Qtrunc (inject_Z z)) with z by (unfold Qtrunc; cbn [Qnum Qden inject_Z]; now rewrite Z.quot_1_r). reflexivity.
    - destruct (float_large z x L E) as (D & P & _). change (p10 13) with 10000000000000%Q in P. rewrite E.
      assert (LQ : (inject_Z 9007199254740992 <= inject_Z (Z.abs z))%Q) by (rewrite <- Zle_Qle; exact L). change (inject_Z 9007199254740992) with 9007199254740992%Q in LQ.
      assert (CQ : (inject_Z c <= 10000)%Q) by (change 10000%Q with (inject_Z 10000); rewrite <- Zle_Qle; lia). rewrite <- MC in CQ.
      assert (B1 : Qle_bool (inject_Z (Z.abs z)) (round64 (1 / pu_mcoef f)) = false) by (apply le_bool_false; lra).
      assert (B2 : Qle_bool (Qabs x) (round64 (1 / pu_mcoef f)) = false) by (apply le_bool_false; lra).
      rewrite B1, B2, !andb_false_r.
      assert (B3 : Qle_bool (pu_mcoef f) (inject_Z (Z.abs z)) = true) by (apply Qle_bool_iff; lra).
      assert (B4 : Qle_bool (pu_mcoef f) (Qabs x) = true) by (apply Qle_bool_iff; lra).
      rewrite B3, B4. reflexivity.
  Qed.
  Lemma metric_as_float z unit : has_float z -> exists x, nearest (inject_Z z) x /\ metric_int lg pw lgb z unit = metric_doubles lg pw x unit.
  Proof. intros H. apply (units_as_float si_metric 1000); try reflexivity; [lia|exact H]. Qed.
  Lemma binary_as_float z unit : has_float z -> exists x, nearest (inject_Z z) x /\ binary_int lg pw lgb z unit = binary_doubles lg pw x unit.
  Proof. intros H. apply (units_as_float si_binary 1024); try reflexivity; [lia|exact H]. Qed.

  (** ** ints beyond all floats *)
  Lemma beyond_large z : ~ has_float z -> (p10 13 <= inject_Z (Z.abs z))%Q /\ 9007199254740992 <= Z.abs z.
  Proof.
    intros H. unfold has_float in H. fold border in H. assert (B : 9007199254740992 <= border /\ 10 ^ 13 <= border) by (split; apply Z.leb_le; vm_compute; reflexivity).
    split; [|lia]. rewrite <- p10_inj, <- Zle_Qle by lia. lia.
  Qed.
  Lemma beyond_units f unit z : pu_zero f = 8 -> zlen (pu_prefixes f) = 17 -> (pu_mcoef f <= 10000)%Q -> (round64 (1 / pu_mcoef f) < 1)%Q -> ~ has_float z ->
    format_int lg pw lgb f z unit = Some (Err OverflowError).
  Proof.
    intros Z8 P17 MC R H. destruct (beyond_large z H) as [L _]. change (p10 13) with 10000000000000%Q in L.
    unfold format_int. rewrite Z8, P17, (to_float_none z H). change ((0 <=? 8) && (8 <? 17)) with true. cbv iota.
    destruct (Qlt_bool 0 (inject_Z (Z.abs z)) && Qle_bool (inject_Z (Z.abs z)) (round64 (1 / pu_mcoef f))); [reflexivity|].
    replace (Qle_bool (pu_mcoef f) (inject_Z (Z.abs z))) with true by (symmetry; apply Qle_bool_iff; lra). reflexivity.
  Qed.
  Lemma metric_beyond z unit : ~ has_float z -> metric_int lg pw lgb z unit = Some (Err OverflowError).
  Proof. apply beyond_units; try reflexivity. discriminate. Qed.
  Lemma binary_beyond z unit : ~ has_float z -> binary_int lg pw lgb z unit = Some (Err OverflowError).
  Proof. apply beyond_units; try reflexivity. discriminate. Qed.

  (** ** exponents *)
  Lemma log_about z : z <> 0 -> known_log lgb z -> magnitude_about (inject_Z (Z.abs z)) (log_int lg lgb (Z.abs z)).
  Proof.
    intros NZ K. unfold log_int. destruct (to_float (Z.abs z)) as [x|er] eqn:E.
    - assert (NA : Z.abs z <> 0) by lia. destruct (to_float_close (Z.abs z) x NA E) as [D C]. change (Qabs (inject_Z (Z.abs z))) with (inject_Z (Z.abs (Z.abs z))) in C. rewrite Z.abs_involutive in C.
      set (a := inject_Z (Z.abs z)) in *. assert (A1 : (1 <= a)%Q) by (unfold a; change 1%Q with (inject_Z 1); rewrite <- Zle_Qle; lia).
      apply Qabs_Qle_condition in C. assert (P : (0 < x)%Q) by lra.
      destruct (log_range lg ACC x _ D P eq_refl) as [R1 R2]. set (e := lg x) in *. pose proof (p10_pos e) as PE.
      assert (X : (x == x / p10 e * p10 e)%Q) by (symmetry; apply p10_opp_div). unfold magnitude_about. rewrite p10_S.
      set (y := (x / p10 e)%Q) in *.
      apply (qmul_le _ _ (p10 e)) in R1; [|lra]. apply (qmul_lt _ _ (p10 e)) in R2; [|exact PE]. split; lra.
    - destruct K as [K|K]; [|exact K]. destruct (to_float_nearest _ (abs_float z K)) as (x & E' & _). congruence.
  Qed.

  Lemma log_nonneg z : z <> 0 -> known_log lgb z -> 0 <= log_int lg lgb (Z.abs z).
  Proof.
    intros NZ K. pose proof (log_about z NZ K) as [_ M2]. unfold log_int in *. destruct (Z_lt_le_dec (Z.abs z) 9007199254740992) as [L|L].
    - assert (LA : Z.abs (Z.abs z) < 9007199254740992) by lia. rewrite (to_float_small _ LA) in *.
      assert (A1 : (1 <= inject_Z (Z.abs z))%Q) by (change 1%Q with (inject_Z 1); rewrite <- Zle_Qle; lia). assert (P : (0 < inject_Z (Z.abs z))%Q) by lra.
      destruct (log_cases lg ACC _ (double_Z _ LA) P) as [E|[_ J]].
      + rewrite E. pose proof (log_spec _ P) as [_ M3]. assert (0 < log10_floor (inject_Z (Z.abs z)) + 1); [|lia]. apply p10_lt_inv. change (p10 0) with 1%Q. lra.
      + assert (0 < lg (inject_Z (Z.abs z))); [|lia]. apply p10_lt_inv. change (p10 0) with 1%Q. lra.
    - set (e := match to_float (Z.abs z) with Ok x => lg x | Err _ => lgb (Z.abs z) end) in *. assert (0 < e + 1); [|lia]. apply p10_lt_inv. change (p10 0) with 1%Q.
      rewrite Zle_Qle in L. change (inject_Z 9007199254740992) with 9007199254740992%Q in L. lra.
  Qed.

  Lemma significand_close a e : 0 <= e -> magnitude_about (inject_Z a) e ->
    exists x, significand_int pw a e = Ok x /\ double x /\ (Qabs (x - inject_Z a / p10 e) <= 1 # 50000000000000)%Q /\ (1 - (1 # 500000000000) <= x)%Q /\ (x <= 10 + (1 # 1000000000000))%Q.
  Proof.
    intros E0 [M1 M2]. pose proof (p10_pos e) as PE. unfold significand_int. destruct (Z.leb_spec 0 e); [|lia]. rewrite p10_S in M2.
    set (q := (inject_Z a / inject_Z (10 ^ e))%Q). assert (QE : (q == inject_Z a / p10 e)%Q) by (unfold q; now rewrite p10_inj).
    assert (R1 : (1 - (1 # 549755813888) <= q)%Q) by (rewrite QE; apply Qle_shift_div_l; lra).
    assert (R2 : (q < (1 + (1 # 17592186044416)) * 10)%Q) by (rewrite QE; apply Qlt_shift_div_r; lra).
    assert (AQ : (Qabs q == q)%Q) by (apply Qabs_pos; lra).
    pose proof (round64_rel q) as R. rewrite AQ in R. assert (X : (pow2 (-1022) <= q)%Q).
    { pose proof (pow2_le (-1022) (-1) ltac:(lia)) as B. change (pow2 (-1)) with (1 # 2)%Q in B. lra. }
    specialize (R X). apply Qabs_Qle_condition in R.
    assert (RG : (Qabs (round64 q) < pow2 1024)%Q).
    { apply Qabs_Qlt_condition. pose proof (pow2_le 10 1024 ltac:(lia)) as B. change (pow2 10) with 1024%Q in B. split; lra. }
    exists (round64 q). split.
    - unfold in_range. destruct (Qle_bool _ _) eqn:K; [apply Qle_bool_iff in K; lra|reflexivity].
    - split; [now apply round64_closest|]. split; [apply Qabs_Qle_condition; rewrite <- QE; split; lra|]. split; lra.
  Qed.

  Lemma exponent_int z n : z <> 0 -> known_log lgb z -> 2 <= room_of (inject_Z z) n <= 12 ->
    exists e, magnitude_about (inject_Z (Z.abs z)) e /\
    let room := room_of (inject_Z z) n in
    (e < room -> auto_int lg pw lgb z n true = auto_int lg pw lgb z n false) /\
    (room <= e -> room < exponent_len e -> auto_int lg pw lgb z n true = Ok (repeat 33%N (Z.to_nat n))) /\
    (room <= e -> room = exponent_len e -> auto_int lg pw lgb z n true = Ok (minus_sign (inject_Z z) ++ [101%N] ++ zdec e)) /\
    (room <= e -> exponent_len e + 2 <= room ->
      exists t q, auto_int lg pw lgb z n true = Ok (minus_sign (inject_Z z) ++ t) /\ read_float t = Some q /\
        (Qabs (q - inject_Z (Z.abs z)) <= (501 # 1000) * p10 (e - (room - exponent_len e - 2)))%Q).
  Proof.
    intros NZ K RM. pose proof (log_about z NZ K) as MA. set (e := log_int lg lgb (Z.abs z)) in *. exists e. split; [exact MA|].
    set (a := Z.abs z) in *. assert (A1 : (1 <= inject_Z a)%Q) by (change 1%Q with (inject_Z 1); rewrite <- Zle_Qle; unfold a; lia).
    pose proof (log_nonneg z NZ K) as E0. fold a e in E0.
    intros room. pose proof (exponent_len_pos e) as XL. destruct (significand_close a e E0 MA) as (x & SX & DX & CX & L1 & L2). apply Qabs_Qle_condition in CX.
    assert (NB : n >= room) by (unfold room, room_of; destruct (Qlt_le_dec (inject_Z z) 0); lia). fold room in RM.
    assert (H : auto_int lg pw lgb z n true =
      if room - 1 <? e then
        if room <? exponent_len e then Ok (repeat 33%N (Z.to_nat n))
        else match plain_doubles lg x (room - exponent_len e) with
             | Ok s => Ok (minus_sign (inject_Z z) ++ s ++ [101%N] ++ zdec e)
             | Err ValueError => Ok (wide room (minus_sign (inject_Z z) ++ [101%N] ++ zdec e))
             | Err y => Err y
             end
      else plain_int (minus_sign (inject_Z z)) a room e).
    { unfold auto_int, exp_int, head_int. rewrite sign_int, room_int. fold room a e.
      destruct (Z.ltb_spec n (-1)); [lia|]. destruct (Z.eqb_spec room 0); [lia|]. destruct (Z.eqb_spec room 1); [lia|]. destruct (Z.eqb_spec z 0); [lia|].
      rewrite andb_false_r. destruct (Z.ltb_spec e (-2)); [lia|]. cbn [orb]. destruct (room - 1 <? e); [|reflexivity].
      rewrite exponent_len_eq. destruct (Z.ltb_spec room (exponent_len e)).
      - f_equal. f_equal. f_equal. unfold room, minus_sign, room_of. destruct (Qlt_le_dec (inject_Z z) 0); unfold zlen; cbn [length]; lia.
      - rewrite SX. reflexivity. }
    rewrite H. split; [|split; [|split]].
    - intros L. destruct (Z.ltb_spec (room - 1) e); [lia|]. unfold auto_int, no_exp_int, head_int. rewrite sign_int, room_int. fold room a e.
      destruct (Z.ltb_spec n (-1)); [lia|]. destruct (Z.eqb_spec room 0); [lia|]. destruct (Z.eqb_spec room 1); [lia|]. destruct (Z.eqb_spec z 0); [lia|].
      rewrite andb_false_r. destruct (Z.ltb_spec (room - 1) e); [lia|reflexivity].
    - intros L K2. destruct (Z.ltb_spec (room - 1) e); [|lia]. destruct (Z.ltb_spec room (exponent_len e)); [reflexivity|lia].
    - intros L K2. destruct (Z.ltb_spec (room - 1) e); [|lia]. rewrite K2, Z.ltb_irrefl, Z.sub_diag.
      assert (Z0 : plain_doubles lg x 0 = Ok []).
      { unfold plain_doubles, head_doubles. destruct (Qlt_bool_spec x 0); [lra|reflexivity]. }
      rewrite Z0. reflexivity.
    - intros L K2. destruct (Z.ltb_spec (room - 1) e); [|lia]. destruct (Z.ltb_spec room (exponent_len e)); [lia|]. set (m := room - exponent_len e) in *.
      destruct (digits_shown lg ACC x m DX ltac:(lra) ltac:(lra) ltac:(unfold m; lia)) as (s & q & R & NU & C). rewrite R.
      destruct (numeral_exp s q e NU) as (q' & RD & QE). exists (s ++ [101%N] ++ zdec e), q'. split; [reflexivity|]. split; [exact RD|].
      pose proof (p10_pos e) as PE.
      assert (DQ : (Qabs (q' - inject_Z a) == Qabs (q - inject_Z a / p10 e) * p10 e)%Q).
      { transitivity (Qabs ((q - inject_Z a / p10 e) * p10 e)); [apply Qabs_wd|rewrite Qabs_Qmult, (Qabs_pos (p10 e)) by lra; reflexivity].
        rewrite QE. transitivity (q * p10 e - inject_Z a / p10 e * p10 e)%Q; [rewrite p10_opp_div; reflexivity|ring]. }
      rewrite DQ. replace (e - (m - 2)) with (- (m - 2) + e) by lia. rewrite p10_plus, Qmult_assoc. apply Qmult_le_compat_r; [|lra].
      pose proof (p10_le (-8) (- (m - 2)) ltac:(unfold m; lia)) as P8. change (p10 (-8)) with (1 # 100000000)%Q in P8.
      apply Qabs_Qle_condition in C. apply Qabs_Qle_condition. split; lra.
  Qed.

  (** the error for numbers that are too long *)
  Lemma beyond_plain z n : ~ has_float z -> magnitude_about (inject_Z (Z.abs z)) (lgb (Z.abs z)) -> 1 <= room_of (inject_Z z) n <= 12 ->
    auto_int lg pw lgb z n false = Err OverflowError.
  Proof.
    intros H [_ M2] RM. destruct (beyond_large z H) as [L L']. assert (HA : ~ has_float (Z.abs z)) by (unfold has_float in *; now rewrite Z.abs_involutive).
    unfold auto_int, no_exp_int, head_int, log_int, too_long. rewrite (to_float_none _ HA), room_int. cbn [bind].
    assert (G : 13 < lgb (Z.abs z) + 2).
    { apply p10_lt_inv. replace (lgb (Z.abs z) + 2) with (lgb (Z.abs z) + 1 + 1) by lia. rewrite (p10_S (lgb (Z.abs z) + 1)). pose proof (p10_pos (lgb (Z.abs z) + 1)). lra. }
    assert (NB : n >= room_of (inject_Z z) n) by (unfold room_of; destruct (Qlt_le_dec (inject_Z z) 0); lia).
    destruct (Z.ltb_spec n (-1)); [lia|]. destruct (Z.eqb_spec (room_of (inject_Z z) n) 0); [lia|]. destruct (Z.ltb_spec (Z.abs z) 1); [lia|]. destruct (Z.eqb_spec z 0); [lia|]. cbn [andb].
    destruct (Z.ltb_spec (room_of (inject_Z z) n - 1) (lgb (Z.abs z))); [reflexivity|lia].
  Qed.
End Library.

Lemma beyond_claim lg pw lgb z : ~ has_float z ->
  (forall unit, metric_int lg pw lgb z unit = Some (Err OverflowError) /\ binary_int lg pw lgb z unit = Some (Err OverflowError)) /\
  forall n, known_log lgb z -> 1 <= room_of (inject_Z z) n <= 12 -> auto_int lg pw lgb z n false = Err OverflowError.
Proof.
  intros H. split; [intros unit; split; [now apply metric_beyond|now apply binary_beyond]|]. intros n [K|K] R; [contradiction|now apply beyond_plain].
Qed.
Lemma error_refuted : exists z, auto_float (inject_Z z) 5 false = Err ValueError /\
  forall lg pw lgb, accurate lg -> magnitude_about (inject_Z z) (lgb z) -> auto_int lg pw lgb z 5 false = Err OverflowError.
Proof.
  exists (2 ^ 1024). split; [vm_compute; reflexivity|]. intros lg pw lgb A M. apply beyond_plain; [|exact M|vm_compute; split; discriminate].
  unfold has_float. intros K. apply Z.ltb_lt in K. vm_compute in K. discriminate.
Qed.
Definition exact_log (z : Z) : Z := log10_floor (inject_Z z).
Lemma int_example : accurate log10_floor /\ has_float 12345678901234567891 /\ has_float (-7) /\ known_log exact_log (10 ^ 400) /\ ~ has_float (10 ^ 400) /\
  auto_int log10_floor p10 exact_log 12345678901234567891 8 true = Ok (txt "1.235e19") /\ auto_int log10_floor p10 exact_log (-123456) 6 true = Ok (txt "-1.2e5") /\
  auto_int log10_floor p10 exact_log (10 ^ 400) 8 true = Ok (txt "1.00e400") /\ auto_int log10_floor p10 exact_log (-7) 5 false = Ok (txt "-7.00") /\
  metric_int log10_floor p10 exact_log 12345678901234567891 (txt "m") = Some (Ok (txt "12.3 Em")) /\ binary_int log10_floor p10 exact_log 1023 [] = Some (Ok (txt "1023 b")) /\
  metric_int log10_floor p10 exact_log (10 ^ 400) [] = Some (Err OverflowError).
Proof.
  split; [exact exact_accurate|]. split; [vm_compute; reflexivity|]. split; [vm_compute; reflexivity|]. split; [right; split; vm_compute; [discriminate|reflexivity]|].
  split; [intros K; apply Z.ltb_lt in K; vm_compute in K; discriminate|]. repeat (split; [vm_compute; reflexivity|]). vm_compute; reflexivity.
Qed.
