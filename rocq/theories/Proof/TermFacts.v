(** How the specification terminal reads what [assemble] produces; SGR stripping *)
From Coq Require Import List Arith NArith ZArith Bool Lia.
From Verif.Model Require Import Base Ansi Regex Strip.
From Verif.Spec Require Import Terminal.
From Verif.Proof Require Import BaseFacts RegexFacts.
Import ListNotations.
Local Open Scope N_scope.

Lemma trun_app st a s t :
  trun st a (s ++ t) =
  let '(st1, a1, l1) := trun st a s in
  let '(st2, a2, l2) := trun st1 a1 t in (st2, a2, l1 ++ l2).
Proof.
  revert st a. induction s as [|c s IH]; intros st a; cbn.
  - destruct (trun st a t) as [[? ?] ?]. reflexivity.
  - destruct (tstep st a c) as [[st1 a1] l1]. rewrite IH.
    destruct (trun st1 a1 s) as [[st2 a2] l2]. destruct (trun st2 a2 t) as [[st3 a3] l3].
    now rewrite app_assoc.
Qed.

(** [s], read in ground state with attributes [a], displays [cells] and leaves attributes [a'] *)
Definition paints (a : attrs) (s : str) (a' : attrs) (cells : list cell) : Prop :=
  trun Ground a s = (Ground, a', cells).

Lemma paints_nil a : paints a [] a [].
Proof. reflexivity. Qed.
Lemma paints_app a s1 a1 c1 s2 a2 c2 :
  paints a s1 a1 c1 -> paints a1 s2 a2 c2 -> paints a (s1 ++ s2) a2 (c1 ++ c2).
Proof. unfold paints. intros H1 H2. now rewrite trun_app, H1, H2. Qed.
Lemma paints_chr a c : displayable c = true -> paints a [c] a [Glyph c a].
Proof.
  intros H. unfold paints. cbn.
  destruct (c =? 27) eqn:E; [apply N.eqb_eq in E; subst; discriminate|]. now rewrite H.
Qed.
Lemma paints_plain a s :
  Forall (fun c => displayable c = true) s -> paints a s a (map (fun c => Glyph c a) s).
Proof.
  induction 1 as [|c s Hc H IH]; [apply paints_nil|].
  change (c :: s) with ([c] ++ s). change (map _ ([c] ++ s)) with ([Glyph c a] ++ map (fun c => Glyph c a) s).
  eapply paints_app; [now apply paints_chr | exact IH].
Qed.

(** parameter characters *)
Definition pchar (c : N) : Prop := (48 <= c /\ c <= 57) \/ c = 59.
Lemma trun_params acc a s t :
  Forall pchar s -> trun (InCsi acc) a (s ++ t) = trun (InCsi (acc ++ s)) a t.
Proof.
  intros H. revert acc. induction H as [|c s Hc H IH]; intros acc; cbn [app].
  - now rewrite app_nil_r.
  - cbn [trun tstep].
    assert (E : between 48 c 57 || (c =? 59) = true).
    { unfold between. apply orb_true_iff. destruct Hc as [Hc| ->]; [left|right; reflexivity].
      apply andb_true_iff. split; now apply N.leb_le. }
    rewrite E. rewrite IH, <- app_assoc. cbn [app].
    destruct (trun _ a t) as [[? ?] ?]. reflexivity.
Qed.

Lemma csi_params_digits ds t cur :
  Forall (fun c => 48 <= c /\ c <= 57) ds ->
  csi_params (ds ++ t) cur = csi_params t (fold_left (fun a c => a * 10 + (c - 48)) ds cur).
Proof.
  intros H. revert cur. induction H as [|c ds Hc H IH]; intros cur; [reflexivity|].
  cbn. destruct (c =? 59) eqn:E; [apply N.eqb_eq in E; lia|]. apply IH.
Qed.

Lemma csi_params_join p : p <> [] -> csi_params (join [59] (map dec p)) 0 = p.
Proof.
  induction p as [|x p IH]; intros Hp; [easy|]. destruct p as [|y p].
  - cbn [map join]. rewrite <- (app_nil_r (dec x)), csi_params_digits by apply dec_digits.
    cbn [csi_params]. now rewrite dec_value.
  - change (map dec (x :: y :: p)) with (dec x :: map dec (y :: p)).
    cbn [join]. change (map dec (y :: p)) with (dec y :: map dec p) at 1.
    cbn [join map]. fold (map dec p).
    rewrite csi_params_digits by apply dec_digits. rewrite dec_value. cbn [app].
    cbn [csi_params]. rewrite N.eqb_refl. f_equal.
    apply (IH ltac:(easy)).
Qed.

Lemma join_pchar l : Forall (Forall pchar) l -> Forall pchar (join [59] l).
Proof.
  induction 1 as [|x l Hx H IH]; [constructor|]. destruct l as [|y l]; [exact Hx|].
  cbn [join]. apply Forall_app. split; [exact Hx|]. apply Forall_app. split; [|exact IH].
  constructor; [now right|constructor].
Qed.
Lemma assemble_params_pchar p : Forall pchar (join [59] (map dec p)).
Proof.
  apply join_pchar. apply Forall_map, Forall_forall. intros n _.
  eapply Forall_impl; [|apply dec_digits]. intros c Hc. now left.
Qed.

(** C41: the terminal applies exactly the parameters of the assembled sequence *)
Lemma assemble_shape p : p <> [] -> exists ps, assemble p = 27 :: 91 :: ps ++ [109] /\ Forall pchar ps /\
   (csi_params ps 0 = p).
Proof.
  intros Hp. destruct p as [|x p]; [easy|]. unfold assemble.
  destruct (eqb_list (x :: p) [0]) eqn:E.
  - apply eqb_list_spec in E. rewrite E. exists []. repeat split; constructor.
  - exists (join [59] (map dec (x :: p))). repeat split.
    + apply assemble_params_pchar.
    + now apply csi_params_join.
Qed.

Lemma trun_csi a s : trun Ground a (27 :: 91 :: s) = trun (InCsi []) a s.
Proof. cbn. destruct (trun (InCsi []) a s) as [[? ?] ?]. reflexivity. Qed.

Lemma paints_assemble a p : paints a (assemble p) (sgr_apply p a) [].
Proof.
  destruct p as [|x p]; [apply paints_nil|].
  destruct (assemble_shape (x :: p)) as (ps & -> & Hps & Hv); [easy|].
  unfold paints. rewrite trun_csi, trun_params by exact Hps. cbn. now rewrite Hv.
Qed.

Lemma paints_span a o s cells :
  paints (sgr_apply o a) s (sgr_apply o a) cells ->
  paints a (span_wrap o s) (sgr_apply (closing_seq o) (sgr_apply o a)) cells.
Proof.
  intros H. unfold span_wrap. rewrite <- (app_nil_l cells). eapply paints_app; [apply paints_assemble|].
  rewrite <- (app_nil_r cells). eapply paints_app; [exact H|apply paints_assemble].
Qed.

(** composition with reading on *)
Lemma paints_screen s a' cells : paints attrs0 s a' cells -> screen s = cells.
Proof. unfold paints, screen. now intros ->. Qed.

(** * stripping *)
Lemma strip_nil : strip_sgr [] = [].
Proof. reflexivity. Qed.

Lemma sgr_match_assembled ps t :
  Forall pchar ps -> exists g, re_match SGR_REGEXP ((27 :: 91 :: ps ++ [109]) ++ t) = Some (g, t).
Proof.
  intros H. unfold re_match, SGR_REGEXP. unfold rcats, fold_right.
  cbn [mt app RChr]. rewrite !in_cls_single. change (27 =? 27) with true. change (91 =? 91) with true.
  cbn iota. 
  assert (HP : Forall (fun x => in_cls [(48, 57); (59, 59)] x = true) ps).
  { eapply Forall_impl; [|exact H]. intros c Hc. unfold in_cls. cbn [existsb fst snd].
    destruct Hc as [Hc| ->]; [|reflexivity].
    replace (48 <=? c) with true by (symmetry; apply N.leb_le; lia).
    replace (c <=? 57) with true by (symmetry; apply N.leb_le; lia). reflexivity. }
  eexists. apply star_k_greedy. rewrite <- app_assoc. rewrite dropw_app_all by exact HP.
  cbn [app]. rewrite dropw_stop by reflexivity. rewrite in_cls_single. change (109 =? 109) with true.
  reflexivity.
Qed.

Lemma strip_assemble p t : strip_sgr (assemble p ++ t) = strip_sgr t.
Proof.
  destruct p as [|x p]; [reflexivity|].
  destruct (assemble_shape (x :: p)) as (ps & -> & Hps & _); [easy|].
  destruct (sgr_match_assembled ps t Hps) as [g Hg].
  unfold strip_sgr. rewrite (re_scan_match _ _ _ g); [reflexivity|easy|exact Hg].
Qed.

Lemma sgr_match_other c t : c <> 27 -> re_match SGR_REGEXP (c :: t) = None.
Proof.
  intros H. unfold re_match, SGR_REGEXP, rcats, fold_right. cbn [mt RChr]. rewrite in_cls_single.
  apply N.eqb_neq in H. now rewrite H.
Qed.

Lemma strip_chr c t : c <> 27 -> strip_sgr (c :: t) = c :: strip_sgr t.
Proof.
  intros H. unfold strip_sgr. rewrite re_scan_unmatched by now apply sgr_match_other. reflexivity.
Qed.

(** * Texts made of complete SGR sequences and displayable characters *)
Inductive Tame : str -> str -> Prop :=
| Tame_nil : Tame [] []
| Tame_sgr p s v : Tame s v -> Tame (assemble p ++ s) v
| Tame_chr c s v : displayable c = true -> Tame s v -> Tame (c :: s) (c :: v).

Lemma Tame_app s1 v1 s2 v2 : Tame s1 v1 -> Tame s2 v2 -> Tame (s1 ++ s2) (v1 ++ v2).
Proof.
  induction 1 as [|p s v H IH|c s v Hc H IH]; intros H2; cbn; [exact H2| |].
  - rewrite <- app_assoc. constructor. auto.
  - constructor; auto.
Qed.
Lemma Tame_plain s : Forall (fun c => displayable c = true) s -> Tame s s.
Proof. induction 1; constructor; auto. Qed.
Lemma Tame_assemble p : Tame (assemble p) [].
Proof. rewrite <- (app_nil_r (assemble p)). constructor. constructor. Qed.
Lemma Tame_span o s v : Tame s v -> Tame (span_wrap o s) v.
Proof.
  intros H. unfold span_wrap. apply (Tame_app _ [] _ v); [apply Tame_assemble|].
  rewrite <- (app_nil_r v). apply Tame_app; [exact H|apply Tame_assemble].
Qed.

Lemma Tame_paints s v : Tame s v -> forall a, exists a' cells,
  paints a s a' cells /\ map cell_char cells = v /\ Forall (fun x => is_leak x = false) cells.
Proof.
  induction 1 as [|p s v H IH|c s v Hc H IH]; intros a.
  - exists a, []. repeat split; constructor.
  - destruct (IH (sgr_apply p a)) as (a' & cells & Hp & Hv & Hl). exists a', cells.
    repeat split; auto. change cells with ([] ++ cells). eapply paints_app; [apply paints_assemble|exact Hp].
  - destruct (IH a) as (a' & cells & Hp & Hv & Hl). exists a', (Glyph c a :: cells). repeat split.
    + change (c :: s) with ([c] ++ s). change (Glyph c a :: cells) with ([Glyph c a] ++ cells).
      eapply paints_app; [now apply paints_chr|exact Hp].
    + cbn. now rewrite Hv.
    + constructor; auto.
Qed.

Lemma Tame_visible s v : Tame s v -> visible s = v.
Proof.
  intros H. destruct (Tame_paints s v H attrs0) as (a' & cells & Hp & Hv & _).
  unfold visible. now rewrite (paints_screen _ _ _ Hp).
Qed.
Lemma Tame_clean s v : Tame s v -> clean s.
Proof.
  intros H. destruct (Tame_paints s v H attrs0) as (a' & cells & Hp & _ & Hl).
  unfold clean. rewrite (paints_screen _ _ _ Hp). apply forallb_forall. rewrite Forall_forall in Hl.
  intros x Hx. now rewrite Hl.
Qed.
Lemma Tame_strip_app s v t : Tame s v -> strip_sgr (s ++ t) = v ++ strip_sgr t.
Proof.
  induction 1 as [|p s v H IH|c s v Hc H IH]; cbn [app]; [reflexivity| |].
  - now rewrite <- app_assoc, strip_assemble.
  - rewrite strip_chr; [now rewrite IH|]. intros ->. discriminate.
Qed.
Lemma Tame_strip s v : Tame s v -> strip_sgr s = v.
Proof. intros H. rewrite <- (app_nil_r s), (Tame_strip_app _ _ _ H). apply app_nil_r. Qed.
Lemma Tame_displayable s v : Tame s v -> Forall (fun c => displayable c = true) v.
Proof. induction 1; auto. Qed.
