(** Automatic closing sequences *)
From Coq Require Import List Arith NArith ZArith Bool Lia.
From Verif.Model Require Import Base Ansi.
From Verif.Spec Require Import Terminal Sgr.
From Verif.Proof Require Import BaseFacts.
Import ListNotations.
Local Open Scope N_scope.

Lemma closing_loop_enough f1 f2 p :
  (length p <= f1)%nat -> (length p <= f2)%nat -> closing_loop f1 p = closing_loop f2 p.
Proof.
  revert f2 p. induction f1 as [|f1 IH]; intros [|f2] p H1 H2; try (destruct p; [reflexivity|cbn in *; lia]).
  destruct p as [|x p]; [reflexivity|]. cbn [closing_loop].
  destruct (find_complex _ (x :: p)) as [[tot br]|] eqn:E.
  - f_equal. 
    assert (1 <= tot)%nat.
    { revert E. generalize (Nat.min (length (x :: p)) (complex_max_len + 1) - 1)%nat. intros n.
      assert (HG : forall n i, (1 <= i)%nat -> find_complex (seq i n) (x :: p) = Some (tot, br) -> (1 <= tot)%nat).
      { clear. intros n; induction n as [|n IH]; intros i Hi; cbn [seq find_complex]; [easy|].
        destruct (complex_lookup (firstn i (x :: p)) complex_def) as [[k b]|]; [intros [= <- <-]; lia|]. apply IH. lia. }
      apply (HG n 1%nat). lia. }
    clear E. cbn [length] in H1, H2. apply IH; rewrite skipn_length; cbn [length]; lia.
  - clear E. cbn [length] in H1, H2. destruct (assoc x breaker_map); [f_equal|]; apply IH; lia.
Qed.

Definition group_closer (g : group) : N :=
  match g with
  | G_fg => 39 | G_bg => 49 | G_weight => 22 | G_italic => 23 | G_under => 24 | G_blink => 25
  | G_inverse => 27 | G_hidden => 28 | G_cross => 29 | G_over => 55
  end.

(** the codes with a group, enumerated *)
Definition group_codes : list N :=
  [1; 2; 3; 4; 5; 6; 7; 8; 9; 21; 53] ++ nrange 30 38 ++ nrange 40 48 ++ nrange 90 98 ++ nrange 100 108.

Lemma nrange_in lo hi x : In x (nrange lo hi) <-> lo <= x /\ x < hi.
Proof.
  unfold nrange. rewrite in_map_iff. split.
  - intros (i & <- & Hi). apply in_seq in Hi. lia.
  - intros [H1 H2]. exists (N.to_nat (x - lo)). split; [lia|]. apply in_seq. lia.
Qed.

Lemma between_spec lo c hi : between lo c hi = true <-> lo <= c /\ c <= hi.
Proof. unfold between. rewrite andb_true_iff, !N.leb_le. tauto. Qed.

Lemma code_group_in c g : code_group c = Some g -> In c group_codes.
Proof.
  unfold code_group, group_codes. intros H.
  repeat (match type of H with (if ?b then _ else _) = _ => destruct b eqn:?E end); try discriminate;
  repeat match goal with E : (_ || _) = true |- _ => apply orb_true_iff in E as [E|E] end;
  repeat match goal with E : (_ =? _) = true |- _ => apply N.eqb_eq in E; subst; cbn; tauto end;
  repeat match goal with E : between _ _ _ = true |- _ => apply between_spec in E end;
  rewrite !in_app_iff, !nrange_in; lia.
Qed.

Lemma group_codes_ok :
  forallb (fun c => match code_group c with
                    | Some g => match assoc c breaker_map with
                                | Some br => br =? group_closer g
                                | None => false
                                end && negb (c =? 38) && negb (c =? 48)
                    | None => false
                    end) group_codes = true.
Proof. vm_compute. reflexivity. Qed.

Lemma code_group_breaker c g :
  code_group c = Some g -> assoc c breaker_map = Some (group_closer g) /\ c <> 38 /\ c <> 48.
Proof.
  intros H. pose proof group_codes_ok as K. rewrite forallb_forall in K.
  specialize (K c (code_group_in c g H)). rewrite H in K.
  destruct (assoc c breaker_map); [|discriminate].
  apply andb_true_iff in K as [K K3]. apply andb_true_iff in K as [K1 K2].
  apply N.eqb_eq in K1. apply negb_true_iff in K2, K3. apply N.eqb_neq in K2, K3. subst. auto.
Qed.

Lemma find_complex_other x p n i : x <> 38 -> x <> 48 -> (1 <= i)%nat -> find_complex (seq i n) (x :: p) = None.
Proof.
  intros H1 H2. revert i. induction n as [|n IH]; intros i Hi; [reflexivity|]. cbn [seq find_complex].
  assert (E : complex_lookup (firstn i (x :: p)) complex_def = None).
  { destruct i as [|i]; [lia|]. cbn [firstn]. unfold complex_def, complex_lookup, eqb_list.
    unfold c_COLOR_EXTENDED, c_BG_COLOR_EXTENDED.
    apply N.eqb_neq in H1, H2. rewrite H1, H2. reflexivity. }
  rewrite E. apply IH. lia.
Qed.

Lemma lens_ge L : (3 <= L -> exists m, Nat.min L (complex_max_len + 1) - 1 = S (S m))%nat.
Proof. intros H. change complex_max_len with 5%nat. exists (Nat.min L 6 - 3)%nat. lia. Qed.

Lemma closing_loop_item i g t f :
  item_group i = Some g -> (length (item_params i ++ t) <= f)%nat ->
  closing_loop f (item_params i ++ t) = group_closer g :: closing_loop (length t) t.
Proof.
  intros Hg Hf. destruct i as [c|bg n|bg r gg b]; cbn [item_group item_params app] in *.
  - destruct (code_group_breaker c g Hg) as (Hb & H38 & H48).
    destruct f as [|f]; [cbn in Hf; lia|]. cbn [closing_loop].
    rewrite find_complex_other by (auto; lia). rewrite Hb. f_equal. cbn in Hf.
    apply closing_loop_enough; lia.
  - injection Hg as <-. destruct f as [|f]; [cbn in Hf; lia|]. cbn [closing_loop].
    destruct (lens_ge (length ((if bg then 48 else 38) :: 5 :: n :: t))) as [m ->]; [cbn [length]; lia|]. cbn [seq find_complex firstn].
    destruct bg; cbn [complex_lookup complex_def eqb_list]; cbn.
    all: f_equal; cbn in Hf; apply closing_loop_enough; lia.
  - injection Hg as <-. destruct f as [|f]; [cbn in Hf; lia|]. cbn [closing_loop].
    destruct (lens_ge (length ((if bg then 48 else 38) :: 2 :: r :: gg :: b :: t))) as [m ->]; [cbn [length]; lia|]. cbn [seq find_complex firstn].
    destruct bg; cbn [complex_lookup complex_def eqb_list]; cbn.
    all: f_equal; cbn in Hf; apply closing_loop_enough; lia.
Qed.

Definition item_closer (i : item) : N := match item_group i with Some g => group_closer g | None => 0 end.

Lemma closing_seq_items items :
  Forall (fun i => item_group i <> None) items ->
  closing_seq (flat_map item_params items) = map item_closer items.
Proof.
  intros H. unfold closing_seq. induction H as [|i items Hi H IH]; [reflexivity|].
  cbn [flat_map map]. destruct (item_group i) as [g|] eqn:E; [|easy].
  rewrite (closing_loop_item i g) by (auto; lia). unfold item_closer at 1. rewrite E. f_equal. exact IH.
Qed.

(** * effect on the terminal *)
Definition item_apply (i : item) (a : attrs) : attrs :=
  match i with
  | I_code c => sgr_code c a
  | I_indexed bg n => if bg then set_bg (ColIdx n) a else set_fg (ColIdx n) a
  | I_rgb bg r g b => if bg then set_bg (ColRgb r g b) a else set_fg (ColRgb r g b) a
  end.

Lemma sgr_apply_code c t a : c <> 38 -> c <> 48 -> sgr_apply (c :: t) a = sgr_apply t (sgr_code c a).
Proof. intros H1 H2. cbn. apply N.eqb_neq in H1, H2. now rewrite H1, H2. Qed.

Lemma sgr_apply_item i t a :
  item_group i <> None -> sgr_apply (item_params i ++ t) a = sgr_apply t (item_apply i a).
Proof.
  destruct i as [c|[] n|[] r g b]; cbn [item_params app item_apply]; intros H; try reflexivity.
  cbn in H. destruct (code_group c) as [g|] eqn:E; [|easy].
  apply code_group_breaker in E as (_ & H1 & H2). now apply sgr_apply_code.
Qed.

Lemma sgr_apply_items items t a :
  Forall (fun i => item_group i <> None) items ->
  sgr_apply (flat_map item_params items ++ t) a = sgr_apply t (fold_left (fun a i => item_apply i a) items a).
Proof.
  intros H. revert a. induction H as [|i items Hi H IH]; intros a; [reflexivity|].
  cbn [flat_map fold_left]. rewrite <- app_assoc, sgr_apply_item by exact Hi. apply IH.
Qed.

Lemma same_refl g a : same g a a.
Proof. destruct g; cbn; auto. Qed.
Lemma same_trans g a b c : same g a b -> same g b c -> same g a c.
Proof. destruct g; cbn; try congruence. intros [-> ->] [-> ->]. auto. Qed.

Lemma sgr_code_other c g g' a : code_group c = Some g -> g <> g' -> same g' (sgr_code c a) a.
Proof.
  unfold code_group, sgr_code. intros H Hne.
  repeat (match type of H with (if ?b then _ else _) = _ => destruct b eqn:?E end); try discriminate;
  injection H as <-;
  repeat match goal with E : (_ || _) = true |- _ => apply orb_true_iff in E as [E|E] end;
  repeat match goal with E : (_ =? _) = true |- _ => apply N.eqb_eq in E; subst c end;
  try (destruct g'; cbn; solve [auto | easy]).
  all: repeat match goal with E : between _ _ _ = true |- _ => apply between_spec in E end.
  all: repeat match goal with |- context [if ?c =? ?k then _ else _] =>
         replace (c =? k) with false by (symmetry; apply N.eqb_neq; lia) end.
  all: repeat match goal with |- context [between ?l ?c ?h] =>
         first [ replace (between l c h) with true by (symmetry; apply between_spec; lia)
               | replace (between l c h) with false by (symmetry; apply not_true_iff_false; rewrite between_spec; lia) ] end.
  all: destruct g'; cbn; solve [auto | easy].
Qed.

Lemma item_apply_other i g g' a : item_group i = Some g -> g <> g' -> same g' (item_apply i a) a.
Proof.
  destruct i as [c|bg n|bg r gg b]; cbn [item_group item_apply]; intros H Hne.
  - eapply sgr_code_other; eauto.
  - injection H as <-. destruct bg, g'; cbn; solve [auto | easy].
  - injection H as <-. destruct bg, g'; cbn; solve [auto | easy].
Qed.

Lemma items_apply_untouched items g a :
  Forall (fun i => item_group i <> None) items -> ~ touches items g ->
  same g (fold_left (fun a i => item_apply i a) items a) a.
Proof.
  intros H. revert a. induction H as [|i items Hi H IH]; intros a Hn; [apply same_refl|]. cbn [fold_left].
  eapply same_trans; [apply IH|].
  - intros (j & Hj & E). apply Hn. exists j. split; [now right|exact E].
  - destruct (item_group i) as [g1|] eqn:E; [|easy]. eapply item_apply_other; [exact E|].
    intros ->. apply Hn. exists i. split; [now left|exact E].
Qed.

Lemma closer_code g a t : sgr_apply (group_closer g :: t) a = sgr_apply t (sgr_code (group_closer g) a).
Proof. apply sgr_apply_code; destruct g; easy. Qed.

Lemma closer_own g a : same g (sgr_code (group_closer g) a) attrs0.
Proof. destruct g; cbn; auto. Qed.
Lemma closer_keeps g g' a b : same g' a b -> (g <> g' -> True) -> g <> g' -> same g' (sgr_code (group_closer g) a) b.
Proof. intros H _ Hne. destruct g, g'; cbn in *; solve [auto | easy]. Qed.

Lemma closers_untouched items g a :
  Forall (fun i => item_group i <> None) items -> ~ touches items g ->
  same g (sgr_apply (map item_closer items) a) a.
Proof.
  intros H. revert a. induction H as [|i items Hi H IH]; intros a Hn; [apply same_refl|]. cbn [map].
  unfold item_closer at 1. destruct (item_group i) as [g1|] eqn:E; [|easy]. rewrite closer_code.
  eapply same_trans; [apply IH|].
  - intros (j & Hj & Ej). apply Hn. exists j. split; [now right|exact Ej].
  - apply closer_keeps; [apply same_refl|auto|]. intros ->. apply Hn. exists i. split; [now left|exact E].
Qed.

Lemma closers_stable items g a :
  Forall (fun i => item_group i <> None) items -> same g a attrs0 ->
  same g (sgr_apply (map item_closer items) a) attrs0.
Proof.
  intros H. revert a. induction H as [|i items Hi H IH]; intros a Hn; [exact Hn|]. cbn [map].
  unfold item_closer at 1. destruct (item_group i) as [g1|] eqn:E; [|easy]. rewrite closer_code.
  apply IH. destruct g1, g; cbn in *; solve [auto | easy].
Qed.

Lemma closers_touched items g a :
  Forall (fun i => item_group i <> None) items -> touches items g ->
  same g (sgr_apply (map item_closer items) a) attrs0.
Proof.
  intros H. revert a. induction H as [|i items Hi H IH]; intros a (j & Hj & E); [easy|].
  cbn [map]. destruct Hj as [->|Hj].
  - unfold item_closer at 1. rewrite E, closer_code. apply closers_stable; [exact H|]. apply closer_own.
  - unfold item_closer at 1. destruct (item_group i) as [g1|] eqn:E1; [|easy]. rewrite closer_code.
    apply IH. exists j. auto.
Qed.

Lemma touches_dec items g : touches items g \/ ~ touches items g.
Proof.
  induction items as [|i items IH].
  - right. intros (j & [] & _).
  - destruct IH as [(j & Hj & E)|IH]; [left; exists j; split; [now right|exact E]|].
    destruct (item_group i) as [g1|] eqn:E.
    + assert (D : {g1 = g} + {g1 <> g}) by decide equality. destruct D as [->|D].
      * left. exists i. split; [now left|exact E].
      * right. intros (j & [<-|Hj] & Ej); [congruence|]. apply IH. exists j. auto.
    + right. intros (j & [<-|Hj] & Ej); [congruence|]. apply IH. exists j. auto.
Qed.

(** C42 *)
Theorem closing_undoes p items a g :
  Supported p items ->
  (touches items g -> same g (sgr_apply (closing_seq p) (sgr_apply p a)) attrs0) /\
  (~ touches items g -> same g (sgr_apply (closing_seq p) (sgr_apply p a)) a).
Proof.
  intros [-> H]. rewrite closing_seq_items by exact H.
  rewrite <- (app_nil_r (flat_map item_params items)), sgr_apply_items by exact H. cbn [sgr_apply].
  split; intros Ht.
  - now apply closers_touched.
  - eapply same_trans; [now apply closers_untouched|]. now apply items_apply_untouched.
Qed.

Lemma same_all a b : (forall g, same g a b) -> a = b.
Proof.
  intros H. destruct a, b. pose proof (H G_fg). pose proof (H G_bg). pose proof (H G_weight).
  pose proof (H G_italic). pose proof (H G_under). pose proof (H G_blink). pose proof (H G_inverse).
  pose proof (H G_hidden). pose proof (H G_cross). pose proof (H G_over). cbn in *.
  destruct H2. congruence.
Qed.

Lemma closing_default p items :
  Supported p items -> sgr_apply (closing_seq p) (sgr_apply p attrs0) = attrs0.
Proof.
  intros H. apply same_all. intros g. destruct (closing_undoes p items attrs0 g H) as [H1 H2].
  destruct (touches_dec items g); auto.
Qed.
