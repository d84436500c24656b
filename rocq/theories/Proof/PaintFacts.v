(** Texts made of complete SGR sequences and characters other than ESC *)
From Coq Require Import List Arith NArith ZArith Bool Lia.
From Verif.Model Require Import Base Ansi Strip Settings Segment Template.
From Verif.Spec Require Import Numbers Terminal Sgr SgrParams Display.
From Verif.Proof Require Import BaseFacts RegexFacts TermFacts ClosingFacts TokFacts.
Import ListNotations.
Local Open Scope N_scope.

Inductive Painted : attrs -> str -> attrs -> list cell -> Prop :=
| Pt_nil a : Painted a [] a []
| Pt_sgr a p s a' cs : Painted (sgr_apply p a) s a' cs -> Painted a (assemble p ++ s) a' cs
| Pt_chr a c s a' cs : c <> 27 -> Painted a s a' cs -> Painted a (c :: s) a' (to_cell (c, a) :: cs).

Lemma to_cell_char c a : cell_char (to_cell (c, a)) = c.
Proof. unfold to_cell. cbn. destruct (displayable c); reflexivity. Qed.
Lemma map_to_cell_char l : map cell_char (map to_cell l) = map fst l.
Proof. induction l as [|[c a] l IH]; [reflexivity|]. cbn [map]. now rewrite to_cell_char, IH. Qed.

Lemma Painted_app a s1 a1 c1 s2 a2 c2 : Painted a s1 a1 c1 -> Painted a1 s2 a2 c2 -> Painted a (s1 ++ s2) a2 (c1 ++ c2).
Proof.
  induction 1 as [a|a p s a' cs H IH|a c s a' cs Hc H IH]; intros H2; cbn [app].
  - exact H2.
  - rewrite <- app_assoc. constructor. auto.
  - constructor; auto.
Qed.
Lemma Painted_assemble a p : Painted a (assemble p) (sgr_apply p a) [].
Proof. rewrite <- (app_nil_r (assemble p)). constructor. constructor. Qed.
Lemma Painted_plain a s : Forall (fun c => c <> 27) s -> Painted a s a (map to_cell (styled a s)).
Proof. induction 1 as [|c s Hc H IH]; cbn; constructor; auto. Qed.

Lemma Painted_paints a s a' cs : Painted a s a' cs -> paints a s a' cs.
Proof.
  induction 1 as [a|a p s a' cs H IH|a c s a' cs Hc H IH].
  - apply paints_nil.
  - change cs with ([] ++ cs). eapply paints_app; [apply paints_assemble|exact IH].
  - change (c :: s) with ([c] ++ s). change (to_cell (c, a) :: cs) with ([to_cell (c, a)] ++ cs).
    eapply paints_app; [|exact IH]. unfold paints. cbn. apply N.eqb_neq in Hc. rewrite Hc.
    unfold to_cell. cbn. destruct (displayable c); reflexivity.
Qed.
Lemma Painted_screen s a' cs : Painted attrs0 s a' cs -> screen s = cs.
Proof. intros H. apply Painted_paints in H. eapply paints_screen. exact H. Qed.
Lemma Painted_visible s a' cs : Painted attrs0 s a' cs -> visible s = map cell_char cs.
Proof. intros H. unfold visible. now rewrite (Painted_screen _ _ _ H). Qed.
Lemma Painted_final s a' cs : Painted attrs0 s a' cs -> final_attrs s = a'.
Proof. intros H. apply Painted_paints in H. unfold final_attrs. unfold paints in H. now rewrite H. Qed.
Lemma Painted_strip_app a s a' cs t : Painted a s a' cs -> strip_sgr (s ++ t) = map cell_char cs ++ strip_sgr t.
Proof.
  induction 1 as [a|a p s a' cs H IH|a c s a' cs Hc H IH]; cbn [app map]; [reflexivity| |].
  - now rewrite <- app_assoc, strip_assemble.
  - rewrite strip_chr by exact Hc. now rewrite IH, to_cell_char.
Qed.
Lemma Painted_strip a s a' cs : Painted a s a' cs -> strip_sgr s = map cell_char cs.
Proof. intros H. rewrite <- (app_nil_r s), (Painted_strip_app _ _ _ _ _ H). apply app_nil_r. Qed.

(** * openings made of supported codes *)
Definition good_open (o : sgr) : Prop := exists items, Supported o items.

Fixpoint items_of (fuel : nat) (p : list N) : option (list item) :=
  match fuel with
  | O => None
  | S f =>
      match p with
      | [] => Some []
      | c :: t =>
          if (c =? 38) || (c =? 48) then
            match t with
            | m :: n :: t2 =>
                if m =? 5 then option_map (cons (I_indexed (c =? 48) n)) (items_of f t2) else None
            | _ => None
            end
          else match code_group c with Some _ => option_map (cons (I_code c)) (items_of f t) | None => None end
      end
  end.
Lemma items_of_good f p items : items_of f p = Some items -> Supported p items.
Proof.
  revert p items. induction f as [|f IH]; intros p items H; [discriminate|]. cbn [items_of] in H.
  destruct p as [|c t]; [injection H as <-; split; [reflexivity|constructor]|].
  destruct ((c =? 38) || (c =? 48)) eqn:E.
  - destruct t as [|m [|n t2]]; try discriminate. destruct (m =? 5) eqn:M; [|discriminate].
    destruct (items_of f t2) as [l|] eqn:L; [|discriminate]. injection H as <-.
    apply IH in L as [-> HF]. split; [|now constructor]. cbn [flat_map item_params app].
    apply N.eqb_eq in M. subst. f_equal. apply orb_true_iff in E as [E|E]; apply N.eqb_eq in E; now subst.
  - destruct (code_group c) eqn:G; [|discriminate]. destruct (items_of f t) as [l|] eqn:L; [|discriminate].
    injection H as <-. apply IH in L as [-> HF]. split; [reflexivity|]. constructor; [|assumption]. cbn. congruence.
Qed.
Ltac solve_good := eexists; apply (items_of_good 20); reflexivity.

Lemma good_app a b : good_open a -> good_open b -> good_open (a ++ b).
Proof.
  intros [ia [-> Ha]] [ib [-> Hb]]. exists (ia ++ ib). split; [now rewrite flat_map_app|]. apply Forall_app. auto.
Qed.
Lemma good_nil : good_open [].
Proof. exists []. split; [reflexivity|constructor]. Qed.
Lemma good_closing o : good_open o -> sgr_apply (closing_seq o) (sgr_apply o attrs0) = attrs0.
Proof. intros [items H]. eapply closing_default; eassumption. Qed.
Lemma good_closing_default o : good_open o -> sgr_apply (closing_seq o) attrs0 = attrs0.
Proof.
  intros [items [-> H]]. rewrite closing_seq_items by exact H. apply same_all. intros g.
  apply closers_stable; [exact H|apply same_refl].
Qed.
(** supported codes can be applied one after the other *)
Lemma sgr_apply_app o p a : good_open o -> sgr_apply (o ++ p) a = sgr_apply p (sgr_apply o a).
Proof.
  intros [items [-> H]]. rewrite sgr_apply_items by exact H.
  rewrite <- (app_nil_r (flat_map item_params items)) at 1. rewrite sgr_apply_items by exact H. reflexivity.
Qed.

(** * what a segment shows *)
Definition seg_shows (g : segment) (cs : list cell) : Prop :=
  good_open (seg_open g) /\
  exists a', Painted (sgr_apply (seg_open g) attrs0) (seg_proc g) a' cs /\
             sgr_apply (closing_seq (seg_open g)) a' = attrs0.

Lemma seg_shows_plain o l raw proc :
  good_open o -> Forall (fun c => c <> 27) proc ->
  seg_shows (mkSeg o l raw proc) (map to_cell (styled (sgr_apply o attrs0) proc)).
Proof.
  intros Ho Hp. split; [exact Ho|]. exists (sgr_apply o attrs0). split; [now apply Painted_plain|]. now apply good_closing.
Qed.

(** the segment between its opening and closing sequence *)
Lemma seg_shows_wrapped g cs : seg_shows g cs ->
  Painted attrs0 (assemble (seg_open g) ++ seg_proc g ++ assemble (closing_seq (seg_open g))) attrs0 cs.
Proof.
  intros (_ & a' & H & E). constructor. rewrite <- (app_nil_r cs). eapply Painted_app; [exact H|].
  rewrite <- E. apply Painted_assemble.
Qed.
Lemma no_formatting_zeros o : no_formatting o = true -> good_open o -> o = [].
Proof.
  intros H [items [E HF]]. destruct items as [|i items]; [assumption|]. exfalso. subst o.
  inversion HF as [|x y Hi _]; subst. unfold no_formatting in H. rewrite forallb_forall in H.
  destruct i as [c|bg n|bg r g b]; cbn [flat_map item_params app] in H.
  - specialize (H c ltac:(now left)). apply N.eqb_eq in H. subst c. now apply Hi.
  - specialize (H (if bg then 48 else 38) ltac:(now left)). destruct bg; discriminate.
  - specialize (H (if bg then 48 else 38) ltac:(now left)). destruct bg; discriminate.
Qed.

(** rows written one after the other, each of them self-contained *)
Definition Rows (out : str) (rows : list (list (N * attrs))) : Prop :=
  exists parts, out = concat parts /\ Forall2 (fun o r => Painted attrs0 o attrs0 (map to_cell r)) parts rows.
Lemma Rows_nil : Rows [] [].
Proof. exists []. split; [reflexivity|constructor]. Qed.
Lemma Rows_app o1 r1 o2 r2 : Rows o1 r1 -> Rows o2 r2 -> Rows (o1 ++ o2) (r1 ++ r2).
Proof. intros (p1 & -> & H1) (p2 & -> & H2). exists (p1 ++ p2). split; [now rewrite concat_app|now apply Forall2_app]. Qed.
Lemma Rows_one o r : Painted attrs0 o attrs0 (map to_cell r) -> Rows o [r].
Proof. intros H. exists [o]. split; [cbn; now rewrite app_nil_r|]. constructor; [exact H|constructor]. Qed.
Lemma Rows_cons o r o2 r2 : Painted attrs0 o attrs0 (map to_cell r) -> Rows o2 r2 -> Rows (o ++ o2) (r :: r2).
Proof. intros H1 H2. apply (Rows_app o [r]); [now apply Rows_one|exact H2]. Qed.
Lemma Rows_painted o r : Rows o r -> Painted attrs0 o attrs0 (map to_cell (concat r)).
Proof.
  intros (p & -> & H). induction H as [|o x p r Ho H IH]; [constructor|]. cbn [concat]. rewrite map_app. eapply Painted_app; [exact Ho|exact IH].
Qed.
