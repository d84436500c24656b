(** Hue, saturation and value of colors *)
From Coq Require Import List NArith ZArith QArith Qminmax Lqa Lia Bool.
From Verif.Model Require Import Base Color Presets Render Hsv.
From Verif.Spec Require Import Numbers Palette Preferences.
From Verif.Proof Require Import ColorFacts.
Import ListNotations.
Local Open Scope Q_scope.

Lemma eqb_true a b : Qeq_bool a b = true <-> a == b.
Proof. apply Qeq_bool_iff. Qed.
Lemma eqb_false a b : Qeq_bool a b = false -> ~ a == b.
Proof. intros H K. apply Qeq_bool_iff in K. congruence. Qed.
Lemma div_mul a c : 0 < c -> (a / c) * c == a.
Proof. intros H. field. lra. Qed.
(** the quotient of two differences *)
Lemma quotient a c : 0 < c -> exists t, a / c == t /\ a == t * c.
Proof. intros H. exists (a / c). split; [reflexivity|]. now rewrite div_mul. Qed.

(** the steps after the channels are known *)
Definition hsv_of (rn gn bn : Q) : result (Q * Q * Q) :=
  let vmax := Qmax rn (Qmax gn bn) in
  let vmin := Qmin rn (Qmin gn bn) in
  let c := vmax - vmin in
  let v := vmax in
  bind (if Qeq_bool c 0 then Ok 0
        else if Qeq_bool v rn then Ok (60 * (0 + (gn - bn) / c))
        else if Qeq_bool v gn then Ok (60 * (2 + (bn - rn) / c))
        else if Qeq_bool v bn then Ok (60 * (4 + (rn - gn) / c))
        else Err LogicError) (fun h =>
  let s := if Qeq_bool v 0 then 0 else c / v in
  let h := if Qle_bool 0 h then h else h + 360 in
  Ok (h, s, v)).
Definition good_hsv (rn gn bn : Q) (x : result (Q * Q * Q)) : Prop :=
  exists h s v, x = Ok (h, s, v) /\ from_hsv h s v rn gn bn /\ 0 <= h < 360 /\ 0 <= s <= 1 /\ 0 <= v <= 1.
Ltac maxes rn gn bn :=
  destruct (Q.max_spec gn bn) as [[?L ?E]|[?L ?E]]; destruct (Q.min_spec gn bn) as [[?L ?F]|[?L ?F]];
  destruct (Q.max_spec rn (Qmax gn bn)) as [[?L ?E]|[?L ?E]]; destruct (Q.min_spec rn (Qmin gn bn)) as [[?L ?F]|[?L ?F]].
Lemma hsv_good rn gn bn : 0 <= rn <= 1 -> 0 <= gn <= 1 -> 0 <= bn <= 1 -> good_hsv rn gn bn (hsv_of rn gn bn).
Proof.
  intros Hr Hg Hb. unfold hsv_of. set (M := Qmax rn (Qmax gn bn)). set (m := Qmin rn (Qmin gn bn)).
  assert (HM : (rn <= M /\ gn <= M /\ bn <= M) /\ (M == rn \/ M == gn \/ M == bn)).
  { unfold M. pose proof (Q.le_max_l rn (Qmax gn bn)). pose proof (Q.le_max_r rn (Qmax gn bn)). pose proof (Q.le_max_l gn bn). pose proof (Q.le_max_r gn bn).
    split; [repeat split; lra|]. destruct (Q.max_spec rn (Qmax gn bn)) as [[_ E]|[_ E]]; [|auto]. destruct (Q.max_spec gn bn) as [[_ E2]|[_ E2]]; rewrite E, E2; auto with qarith. }
  assert (Hm : (m <= rn /\ m <= gn /\ m <= bn) /\ (m == rn \/ m == gn \/ m == bn)).
  { unfold m. pose proof (Q.le_min_l rn (Qmin gn bn)). pose proof (Q.le_min_r rn (Qmin gn bn)). pose proof (Q.le_min_l gn bn). pose proof (Q.le_min_r gn bn).
    split; [repeat split; lra|]. destruct (Q.min_spec rn (Qmin gn bn)) as [[_ E]|[_ E]]; [auto|]. destruct (Q.min_spec gn bn) as [[_ E2]|[_ E2]]; rewrite E, E2; auto with qarith. }
  clearbody M m. cbv zeta. destruct HM as ((A1 & A2 & A3) & HM), Hm as ((B1 & B2 & B3) & Hm).
  assert (V : 0 <= M <= 1) by (destruct HM as [E|[E|E]]; rewrite E; assumption).
  destruct (Qeq_bool (M - m) 0) eqn:C0.
  - (* no chroma *)
    apply eqb_true in C0. cbn [bind]. change (Qle_bool 0 0) with true. cbn iota. eexists _, _, _. split; [reflexivity|].
    assert (S0 : (if Qeq_bool M 0 then 0 else (M - m) / M) == 0).
    { destruct (Qeq_bool M 0) eqn:M0; [reflexivity|]. rewrite C0. unfold Qdiv. ring. }
    split; [|split; [lra|split; [rewrite S0; lra|exact V]]]. exists 0%Z, 0. split; [lia|]. split; [lra|]. split; [reflexivity|].
    cbv zeta iota. rewrite S0. repeat split; lra.
  - apply eqb_false in C0. assert (C : 0 < M - m) by (assert (m <= M) by lra; lra). assert (MP : 0 < M) by lra.
    assert (M0 : Qeq_bool M 0 = false) by (destruct (Qeq_bool M 0) eqn:K; [apply eqb_true in K; lra|reflexivity]). rewrite M0.
    assert (SV : M * ((M - m) / M) == M - m) by (field; lra).
    assert (S1 : 0 <= (M - m) / M <= 1).
    { split; [apply Qle_shift_div_l; lra|apply Qle_shift_div_r; lra]. }
    (* the sector and the way in it *)
    assert (Key : forall hh (k : Z) (f : Q), (0 <= k <= 5)%Z -> 0 <= f < 1 ->
      (if Qle_bool 0 hh then hh else hh + 360) == 60 * (inject_Z k + f) ->
      match k with
      | 0%Z => rn == M /\ gn == m + (M - m) * f /\ bn == m
      | 1%Z => rn == m + (M - m) * (1 - f) /\ gn == M /\ bn == m
      | 2%Z => rn == m /\ gn == M /\ bn == m + (M - m) * f
      | 3%Z => rn == m /\ gn == m + (M - m) * (1 - f) /\ bn == M
      | 4%Z => rn == m + (M - m) * f /\ gn == m /\ bn == M
      | _ => rn == M /\ gn == m /\ bn == m + (M - m) * (1 - f)
      end -> good_hsv rn gn bn (bind (Ok hh) (fun h => Ok (if Qle_bool 0 h then h else h + 360, (M - m) / M, M)))).
    { intros hh k f Hk Hf Hh HC. cbn [bind]. eexists _, _, _. split; [reflexivity|].
      assert (K5 : 0 <= inject_Z k <= 5) by (split; [change 0 with (inject_Z 0)|change 5 with (inject_Z 5)]; rewrite <- Zle_Qle; lia).
      split; [|split; [rewrite Hh; lra|split; [exact S1|exact V]]]. exists k, f. split; [exact Hk|]. split; [exact Hf|]. split; [exact Hh|]. cbv zeta.
      assert (Z6 : k = 0%Z \/ k = 1%Z \/ k = 2%Z \/ k = 3%Z \/ k = 4%Z \/ k = 5%Z) by lia.
      destruct Z6 as [->|[->|[->|[->|[->| ->]]]]]; destruct HC as (X & Y & Z); rewrite !SV; repeat split; lra. }
    assert (Le : forall x y, x == y -> Qle_bool 0 x = Qle_bool 0 y) by (intros x y E; now rewrite E).
    destruct (Qeq_bool M rn) eqn:E1; [apply eqb_true in E1|apply eqb_false in E1; destruct (Qeq_bool M gn) eqn:E2; [apply eqb_true in E2|apply eqb_false in E2;
      assert (E3 : M == bn) by (destruct HM as [?|[?|?]]; [contradiction|contradiction|assumption]); rewrite (proj2 (eqb_true M bn) E3)]].
    + destruct (quotient (gn - bn) (M - m) C) as (t & Et & Ht). destruct (Qlt_le_dec t 0) as [T|T].
      * (* sector 5 *)
        apply (Key _ 5%Z (1 + t)); [lia|split; nra| |].
        -- assert (N : Qle_bool 0 (60 * (0 + (gn - bn) / (M - m))) = false) by (destruct (Qle_bool 0 _) eqn:K; [apply Qle_bool_iff in K; rewrite Et in K; lra|reflexivity]).
           rewrite N, Et. change (inject_Z 5) with 5. ring.
        -- assert (gn == m) by (destruct Hm as [E|[E|E]]; nra). repeat split; nra.
      * assert (P : Qle_bool 0 (60 * (0 + (gn - bn) / (M - m))) = true) by (apply Qle_bool_iff; rewrite Et; lra).
        assert (bm : bn == m) by (destruct Hm as [E|[E|E]]; nra).
        destruct (Qlt_le_dec t 1) as [T1|T1].
        -- apply (Key _ 0%Z t); [lia|lra| |repeat split; nra]. rewrite P, Et. change (inject_Z 0) with 0. ring.
        -- assert (E : t == 1) by nra. apply (Key _ 1%Z 0); [lia|lra| |repeat split; nra]. rewrite P, Et, E. reflexivity.
    + destruct (quotient (bn - rn) (M - m) C) as (t & Et & Ht).
      assert (T0 : -1 < t) by nra.
      assert (P : Qle_bool 0 (60 * (2 + (bn - rn) / (M - m))) = true) by (apply Qle_bool_iff; rewrite Et; lra).
      destruct (Qlt_le_dec t 0) as [T|T].
      * assert (bn == m) by (destruct Hm as [E|[E|E]]; nra).
        apply (Key _ 1%Z (1 + t)); [lia|lra| |repeat split; nra]. rewrite P, Et. change (inject_Z 1) with 1. ring.
      * assert (rn == m) by (destruct Hm as [E|[E|E]]; nra). destruct (Qlt_le_dec t 1) as [T1|T1].
        -- apply (Key _ 2%Z t); [lia|lra| |repeat split; nra]. rewrite P, Et. change (inject_Z 2) with 2. ring.
        -- assert (E : t == 1) by nra. apply (Key _ 3%Z 0); [lia|lra| |repeat split; nra]. rewrite P, Et, E. reflexivity.
    + destruct (quotient (rn - gn) (M - m) C) as (t & Et & Ht).
      assert (R1 : rn < M) by lra. assert (G1 : gn < M) by lra.
      assert (T0 : -1 < t) by nra. assert (T1 : t < 1) by nra.
      assert (P : Qle_bool 0 (60 * (4 + (rn - gn) / (M - m))) = true) by (apply Qle_bool_iff; rewrite Et; lra).
      destruct (Qlt_le_dec t 0) as [T|T].
      * assert (rn == m) by (destruct Hm as [E|[E|E]]; nra).
        apply (Key _ 3%Z (1 + t)); [lia|lra| |repeat split; nra]. rewrite P, Et. change (inject_Z 3) with 3. ring.
      * assert (gn == m) by (destruct Hm as [E|[E|E]]; nra).
        apply (Key _ 4%Z t); [lia|lra| |repeat split; nra]. rewrite P, Et. change (inject_Z 4) with 4. ring.
Qed.
Lemma channel_range n : (0 <= n <= 255)%Z -> 0 <= n # 255 <= 1.
Proof. unfold Qle. cbn [Qnum Qden]. lia. Qed.
Lemma red_range h : (0 <= red h <= 255)%Z /\ (0 <= green h <= 255)%Z /\ (0 <= blue h <= 255)%Z.
Proof.
  unfold red, green, blue. repeat split; try (apply Z.mod_pos_bound; lia);
  match goal with |- (?a mod 256 <= 255)%Z => assert (a mod 256 < 256)%Z by (apply Z.mod_pos_bound; lia); lia end.
Qed.
Theorem hsv_inverse hex : exists h s v, hsv_channels hex = Ok (h, s, v) /\
  from_hsv h s v (red hex # 255) (green hex # 255) (blue hex # 255) /\ 0 <= h < 360 /\ 0 <= s <= 1 /\ 0 <= v <= 1.
Proof.
  unfold hsv_channels. rewrite channels_spec. destruct (red_range hex) as (R & G & B).
  exact (hsv_good (red hex # 255) (green hex # 255) (blue hex # 255) (channel_range _ R) (channel_range _ G) (channel_range _ B)).
Qed.
(** the documentation: hue is within [0, 359] *)
Theorem hue_above_359 : exists hex h s v, hsv_channels hex = Ok (h, s, v) /\ 359 < h.
Proof. exists 0xff0001%Z. eexists _, _, _. split; [vm_compute; reflexivity|]. reflexivity. Qed.
(** which color is picked for text on a background *)
Theorem autopick_by_value s hex h sat v : hex_value (st_bg s) = Some hex -> hsv_channels hex = Ok (h, sat, v) ->
  st_bg (autopick_fg s) = st_bg s /\
  (45 # 100 <= v -> st_fg (autopick_fg s) = RGB_GREY_4) /\ (v < 45 # 100 -> st_fg (autopick_fg s) = RGB_GREY_80).
Proof.
  intros E H. unfold autopick_fg. rewrite E. split; [reflexivity|]. cbn [with_colors st_fg].
  assert (V : v == hsv_value_255 hex # 255).
  { unfold hsv_channels in H. unfold hsv_value_255. rewrite channels_spec in *. cbv zeta in H.
    assert (K : forall (x : result Q) f a b, bind x (fun h0 : Q => Ok (f h0, a, b)) = Ok (h, sat, v) -> b = v) by (intros [y|y] f a b; cbn [bind]; congruence).
    apply K in H. rewrite <- H. clear.
    assert (M : forall a b, Qmax (a # 255) (b # 255) == Z.max a b # 255).
    { intros a b. destruct (Q.max_spec (a # 255) (b # 255)) as [[L ->]|[L ->]]; unfold Qlt, Qle in L; cbn [Qnum Qden] in L; [rewrite Z.max_r by lia|rewrite Z.max_l by lia]; reflexivity. }
    rewrite M, M. reflexivity. }
  rewrite V. unfold Qle, Qlt. cbn [Qnum Qden]. split; intros L.
  - destruct (Z.leb_spec 115 (hsv_value_255 hex)); [reflexivity|lia].
  - destruct (Z.leb_spec 115 (hsv_value_255 hex)); [lia|reflexivity].
Qed.
