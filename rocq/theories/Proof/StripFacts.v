(** Stripping and justification of texts a terminal displays cleanly *)
From Coq Require Import List Arith NArith ZArith Bool Lia.
From Verif.Model Require Import Base Ansi Regex Strip.
From Verif.Spec Require Import Terminal.
From Verif.Proof Require Import BaseFacts RegexFacts TermFacts.
Import ListNotations.
Local Open Scope N_scope.

(** displayable characters and complete SGR sequences; the second text is what remains visible *)
Inductive Calm : str -> str -> Prop :=
| Calm_nil : Calm [] []
| Calm_sgr ps s v : Forall pchar ps -> Calm s v -> Calm (27 :: 91 :: ps ++ 109 :: s) v
| Calm_chr c s v : displayable c = true -> Calm s v -> Calm (c :: s) (c :: v).

Definition noleak (l : list cell) : bool := forallb (fun x => negb (is_leak x)) l.
Definition clean_from (a : attrs) (s : str) : Prop :=
  exists a' l, trun Ground a s = (Ground, a', l) /\ noleak l = true.

Lemma clean_clean_from s : clean s -> clean_from attrs0 s.
Proof.
  unfold clean, screen, clean_from. destruct (trun Ground attrs0 s) as [[st a'] l]. intros H.
  destruct st; [eauto| |]; rewrite forallb_app in H; apply andb_true_iff in H as [_ H]; discriminate.
Qed.

Lemma in_csi_split acc a s a' l : trun (InCsi acc) a s = (Ground, a', l) -> noleak l = true ->
  exists ps r a1, s = ps ++ 109 :: r /\ Forall pchar ps /\ trun Ground a1 r = (Ground, a', l).
Proof.
  revert acc a l. induction s as [|c s IH]; intros acc a l H Hl; [discriminate|].
  cbn [trun tstep] in H. destruct (between 48 c 57 || (c =? 59)) eqn:E.
  - destruct (trun (InCsi (acc ++ [c])) a s) as [[st2 a2] l2] eqn:T. cbn [app] in H. injection H as -> -> ->.
    destruct (IH _ _ _ T Hl) as (ps & r & a1 & -> & Hps & Hr). exists (c :: ps), r, a1. repeat split; auto.
    constructor; [|exact Hps]. unfold pchar. apply orb_true_iff in E as [E|E].
    + unfold between in E. apply andb_true_iff in E as [E1 E2]. apply N.leb_le in E1, E2. auto.
    + apply N.eqb_eq in E. auto.
  - destruct (c =? 109) eqn:E1.
    + apply N.eqb_eq in E1. subst c. destruct (trun Ground (sgr_apply (csi_params acc 0) a) s) as [[st2 a2] l2] eqn:T.
      cbn [app] in H. injection H as -> -> ->. exists [], s, (sgr_apply (csi_params acc 0) a). repeat split; auto.
    + destruct (trun Ground a s) as [[st2 a2] l2]. injection H as _ _ <-; discriminate.
Qed.

Lemma clean_from_calm a s : clean_from a s -> exists v, Calm s v.
Proof.
  remember (length s) as n eqn:En. assert (Hn : (length s <= n)%nat) by lia. clear En.
  revert a s Hn. induction n as [|n IH]; intros a s Hn (a' & l & H & Hl).
  - destruct s; [|cbn in Hn; lia]. exists []. constructor.
  - destruct s as [|c s]; [exists []; constructor|]. cbn [length] in Hn. cbn [trun tstep] in H.
    destruct (c =? 27) eqn:E.
    + apply N.eqb_eq in E. subst c. destruct s as [|d s]; [discriminate|]. cbn [trun tstep] in H. destruct (d =? 91) eqn:E.
      * apply N.eqb_eq in E. subst d. destruct (trun (InCsi []) a s) as [[st2 a2] l2] eqn:T. cbn [app] in H.
        injection H as -> -> ->. destruct (in_csi_split _ _ _ _ _ T Hl) as (ps & r & a1 & -> & Hps & Hr).
        destruct (IH a1 r) as [v Hv]; [cbn [length] in Hn; rewrite app_length in Hn; cbn [length] in Hn; lia|exists a', l; auto|].
        exists v. now constructor.
      * destruct (trun Ground a s) as [[st2 a2] l2]. injection H as _ _ <-; discriminate.
    + destruct (displayable c) eqn:D.
      * destruct (trun Ground a s) as [[st2 a2] l2] eqn:T. injection H as -> -> <-.
        destruct (IH a s) as [v Hv]; [lia|exists a', l2; auto|]. exists (c :: v). now constructor.
      * destruct (trun Ground a s) as [[st2 a2] l2]. injection H as _ _ <-; discriminate.
Qed.

Lemma Calm_app s1 v1 s2 v2 : Calm s1 v1 -> Calm s2 v2 -> Calm (s1 ++ s2) (v1 ++ v2).
Proof.
  induction 1 as [|ps s v Hps H IH|c s v Hc H IH]; intros H2; [exact H2| |].
  - cbn [app]. rewrite <- app_assoc. cbn [app]. constructor; auto.
  - cbn [app]. constructor; auto.
Qed.
Lemma Calm_plain s : Forall (fun c => displayable c = true) s -> Calm s s.
Proof. induction 1; constructor; auto. Qed.

Lemma Calm_run s v : Calm s v -> forall a, exists a' l, trun Ground a s = (Ground, a', l) /\ noleak l = true /\ map cell_char l = v.
Proof.
  induction 1 as [|ps s v Hps H IH|c s v Hc H IH]; intros a.
  - exists a, []. auto.
  - rewrite trun_csi. change (ps ++ 109 :: s) with (ps ++ [109] ++ s). rewrite trun_params by exact Hps. cbn [app trun tstep].
    change (between 48 109 57 || (109 =? 59)) with false. change (109 =? 109) with true. cbn iota.
    destruct (IH (sgr_apply (csi_params ps 0) a)) as (a' & l & -> & Hl & Hv). exists a', l. auto.
  - destruct (IH a) as (a' & l & E & Hl & Hv). exists a', (Glyph c a :: l). cbn [trun tstep].
    destruct (c =? 27) eqn:E27; [apply N.eqb_eq in E27; subst; discriminate|]. rewrite Hc, E. repeat split; [exact Hl|]. cbn [map cell_char app]. now rewrite Hv.
Qed.
Lemma Calm_visible s v : Calm s v -> visible s = v /\ clean s.
Proof.
  intros H. destruct (Calm_run s v H attrs0) as (a' & l & E & Hl & Hv). unfold visible, clean, screen. rewrite E. auto.
Qed.
Lemma Calm_strip s v : Calm s v -> strip_sgr s = v.
Proof.
  induction 1 as [|ps s v Hps H IH|c s v Hc H IH].
  - reflexivity.
  - destruct (sgr_match_assembled ps s Hps) as [g Hg]. unfold strip_sgr.
    replace (27 :: 91 :: ps ++ 109 :: s) with ((27 :: 91 :: ps ++ [109]) ++ s) by (cbn; now rewrite <- app_assoc).
    rewrite (re_scan_match _ _ _ g); [|easy|exact Hg]. exact IH.
  - rewrite strip_chr; [now rewrite IH|]. intros ->. discriminate.
Qed.

Lemma strip_visible s : clean s -> strip_sgr s = visible s.
Proof.
  intros H. apply clean_clean_from, clean_from_calm in H as [v Hv].
  rewrite (Calm_strip _ _ Hv). symmetry. now apply Calm_visible.
Qed.
Lemma Calm_disp s v : Calm s v -> Forall (fun c => displayable c = true) v.
Proof. induction 1; auto. Qed.
Lemma strip_twice s : clean s -> strip_sgr (strip_sgr s) = strip_sgr s.
Proof.
  intros H. apply clean_clean_from, clean_from_calm in H as [v Hv].
  rewrite (Calm_strip _ _ Hv). apply Calm_strip, Calm_plain. now apply Calm_disp in Hv.
Qed.

Lemma repeat_Forall {A} (P : A -> Prop) x n : P x -> Forall P (repeat x n).
Proof. intros H. induction n; cbn; auto. Qed.

Lemma justified s l r fill : clean s -> displayable fill = true ->
  visible (repeat fill l ++ s ++ repeat fill r) = repeat fill l ++ visible s ++ repeat fill r /\
  clean (repeat fill l ++ s ++ repeat fill r).
Proof.
  intros H Hf. apply clean_clean_from, clean_from_calm in H as [v Hv].
  rewrite (proj1 (Calm_visible _ _ Hv)). apply Calm_visible.
  apply Calm_app; [apply Calm_plain; now apply repeat_Forall|]. apply Calm_app; [exact Hv|].
  apply Calm_plain. now apply repeat_Forall.
Qed.

Definition pad (s : str) (width : Z) : nat := (Z.to_nat width - length (visible s))%nat.
Lemma pad_eq s width : clean s -> Z.to_nat (Z.max 0 (width - zlen (strip_sgr s))) = pad s width.
Proof. intros H. rewrite strip_visible by exact H. unfold zlen, pad. lia. Qed.

Lemma ljust_visible s width fill : clean s -> displayable fill = true ->
  visible (ljust_sgr s width fill) = visible s ++ repeat fill (pad s width) /\ clean (ljust_sgr s width fill).
Proof. intros H Hf. unfold ljust_sgr. rewrite pad_eq by exact H. exact (justified s 0 _ fill H Hf). Qed.
Lemma rjust_visible s width fill : clean s -> displayable fill = true ->
  visible (rjust_sgr s width fill) = repeat fill (pad s width) ++ visible s /\ clean (rjust_sgr s width fill).
Proof.
  intros H Hf. unfold rjust_sgr. rewrite pad_eq by exact H.
  pose proof (justified s (pad s width) 0 fill H Hf) as K. cbn [repeat] in K. now rewrite !app_nil_r in K.
Qed.
Lemma center_visible s width fill : clean s -> displayable fill = true ->
  exists l r, (l + r = pad s width)%nat /\ (r <= l <= r + 1)%nat /\
  visible (center_sgr s width fill) = repeat fill l ++ visible s ++ repeat fill r /\ clean (center_sgr s width fill).
Proof.
  intros H Hf. unfold center_sgr. pose proof (pad_eq s width H) as P. cbv zeta.
  set (k := Z.max 0 (width - zlen (strip_sgr s))) in *. destruct (Z.eqb_spec k 0) as [E|E].
  - exists 0%nat, 0%nat. rewrite <- P, E. repeat split; try lia; [|exact H]. cbn [repeat app]. now rewrite app_nil_r.
  - exists (Z.to_nat (k - k / 2)), (Z.to_nat (k / 2)). assert (0 <= k / 2)%Z by (apply Z.div_pos; lia).
    assert (2 * (k / 2) <= k < 2 * (k / 2) + 2)%Z by (pose proof (Z.div_mod k 2 ltac:(lia)); pose proof (Z.mod_pos_bound k 2 ltac:(lia)); lia).
    split; [lia|]. split; [lia|]. now apply justified.
Qed.
Lemma just_length s width : Nat.max (Z.to_nat width) (length (visible s)) = (length (visible s) + pad s width)%nat.
Proof. unfold pad. lia. Qed.

Lemma C41_tokenise p : p <> [] -> exists ps, assemble p = [27; 91] ++ ps ++ [109] /\ Forall pchar ps /\ csi_params ps 0 = p.
Proof. apply assemble_shape. Qed.
Lemma assemble_run st_a p rest :
  trun Ground st_a (assemble p ++ rest) = trun Ground (sgr_apply p st_a) rest.
Proof.
  rewrite trun_app. pose proof (paints_assemble st_a p) as H. unfold paints in H. rewrite H.
  destruct (trun Ground (sgr_apply p st_a) rest) as [[? ?] ?]. reflexivity.
Qed.
Lemma strip_clean_refuted : exists s, strip_sgr (strip_sgr s) <> strip_sgr s.
Proof. exists [27; 91; 27; 91; 109; 109]. vm_compute. discriminate. Qed.
Lemma assemble_inj p q : assemble p = assemble q -> p = q.
Proof.
  intros H. destruct p as [|x p], q as [|y q]; try reflexivity.
  - destruct (assemble_shape (y :: q)) as (ps & E & _); [easy|]. rewrite E in H. discriminate.
  - destruct (assemble_shape (x :: p)) as (ps & E & _); [easy|]. rewrite E in H. discriminate.
  - destruct (assemble_shape (x :: p)) as (ps & E & _ & V); [easy|].
    destruct (assemble_shape (y :: q)) as (ps' & E' & _ & V'); [easy|].
    rewrite E, E' in H. injection H as H. apply app_inv_tail in H. congruence.
Qed.
