(** What the help page tells, at every width *)
From Coq Require Import Ascii String.
From Coq Require Import List NArith ZArith Bool Lia.
From Verif.Model Require Import Base Settings Runner Options Render Process Args Wrap Help.
From Verif.Spec Require Import Terminal CommandLine HelpShown HelpExamples.
From Verif.Proof Require Import BaseFacts HelpFacts.
Import ListNotations.
Local Open Scope N_scope.

(** ** Entries *)
Definition entry_eqb (a b : list (list N) * bool) : bool :=
  Bool.eqb (snd a) (snd b) && Nat.eqb (List.length (fst a)) (List.length (fst b)) && forallb (fun x => eqb_list (fst x) (snd x)) (combine (fst a) (fst b)).
Lemma all2_eq : forall a b : list (list N), List.length a = List.length b -> forallb (fun x => eqb_list (fst x) (snd x)) (combine a b) = true -> a = b.
Proof.
  induction a as [|x a IH]; intros [|y b] L H; try discriminate; [reflexivity|]. cbn in H. apply andb_true_iff in H as [H1 H2]. apply eqb_list_spec in H1. f_equal; auto.
Qed.
Lemma entry_eqb_eq a b : entry_eqb a b = true -> a = b.
Proof.
  destruct a as [a x], b as [b y]. unfold entry_eqb. cbn [fst snd]. intros H. apply andb_true_iff in H as [H H3]. apply andb_true_iff in H as [H1 H2].
  apply eqb_prop in H1. apply Nat.eqb_eq in H2. subst y. f_equal. now apply all2_eq.
Qed.
Definition takes_value (a : arg_action) : bool := match a with A_int _ => true | _ => false end.
Definition declared_entries : list (list (list N) * bool) := map (fun x => (map txt (fst x), takes_value (snd x))) declared.
Definition entries_ok (_ : bool) (_ : Z) (p : list N) : bool :=
  let e := entries p in Nat.eqb (List.length e) (List.length declared_entries) && forallb (fun x => entry_eqb (fst x) (snd x)) (combine e declared_entries).
Definition opt_eqb (a : option (list N)) (b : list N) : bool := match a with Some x => eqb_list x b | None => false end.
Definition explainedb (p : list N) : bool :=
  let ls := lines (visible p) in forallb (fun x => opt_eqb (described ls (fst x)) (squash (snd x))) manual.
Definition goodb (tty : bool) (c : Z) : bool :=
  let range a b := ((a <=? c) && (c <=? b))%Z in
  if tty then range 54%Z 57%Z || range 66%Z 68%Z || range 80%Z 83%Z || (99 <=? c)%Z
  else range 53%Z 56%Z || range 59%Z 63%Z || range 74%Z 78%Z || (c =? 85)%Z || (89 <=? c)%Z.
Lemma goodb_iff tty c : goodb tty c = true <-> good_width tty c.
Proof. unfold goodb, good_width. destruct tty; rewrite ?orb_true_iff, ?andb_true_iff, ?Z.leb_le, ?Z.eqb_eq; tauto. Qed.
Definition explained_ok (tty : bool) (c : Z) (p : list N) : bool := Bool.eqb (explainedb p) (goodb tty c).
Lemma goodb_small tty c : (c <= 17)%Z -> goodb tty c = false.
Proof. intros H. destruct (goodb tty c) eqn:E; [|reflexivity]. apply goodb_iff in E. unfold good_width in E. destruct tty; lia. Qed.
Lemma goodb_large tty c : (148 <= c)%Z -> goodb tty c = true.
Proof. intros H. apply goodb_iff. unfold good_width. destruct tty; lia. Qed.
Definition near_ok (tty : bool) (c : Z) (p : list N) : bool :=
  (tty && (c <? 20)%Z) || let ls := lines (visible p) in
  forallb (fun x => match described ls (fst x) with Some y => eqb_list (no_colon y) (no_colon (squash (snd x))) | None => false end) manual.
Definition is_default (a : attrs) : bool :=
  match a with mkAttrs ColDefault ColDefault false false false 0 0 false false false false => true | _ => false end.
Definition tidy_ok (tty : bool) (c : Z) (p : list N) : bool :=
  Bool.eqb (forallb (fun x => negb (is_leak x)) (screen p) && is_default (final_attrs p)) (negb (tty && (c <? 20)%Z)).
Definition fits_ok (_ : bool) (c : Z) (p : list N) : bool :=
  forallb (fun l => (Z.of_nat (List.length l) <=? Z.max 62 (Z.min c 148 - 2))%Z) (first_part (lines (visible p))).
Definition long_ok (_ : bool) (_ : Z) (p : list N) : bool := existsb (fun l => Nat.eqb (List.length l) 305) (lines (visible p)).
(** examples: a line with the description, the next one with the command *)
Fixpoint told_here (a b : list N) (ls : list (list N)) : bool :=
  match ls with l :: ((m :: _) as r) => eqb_list l a && eqb_list m b || told_here a b r | _ => false end.
Definition examples_ok (_ : bool) (_ : Z) (p : list N) : bool :=
  let ls := lines (visible p) in forallb (fun x => told_here (description_line (fst x)) (command_text (snd x)) ls) example_list.

Definition page_ok (tty : bool) (c : Z) (p : list N) : bool :=
  entries_ok tty c p && explained_ok tty c p && near_ok tty c p && tidy_ok tty c p && fits_ok tty c p && long_ok tty c p
  && forallb (fun c => c <? 0xD800) p && examples_ok tty c p.
(** the same with everything computed once *)
Fixpoint fast_run (st : tstate) (a : attrs) (s : list N) : tstate * attrs * list cell :=
  match s with
  | [] => (st, a, [])
  | c :: t =>
      match st with
      | Ground =>
          if (32 <=? c) && (c <=? 126) then let '(st2, a2, l2) := fast_run Ground a t in (st2, a2, Glyph c a :: l2)
          else let '(st1, a1, l1) := tstep Ground a c in let '(st2, a2, l2) := fast_run st1 a1 t in (st2, a2, l1 ++ l2)
      | _ => let '(st1, a1, l1) := tstep st a c in let '(st2, a2, l2) := fast_run st1 a1 t in (st2, a2, l1 ++ l2)
      end
  end.
Lemma displayable_plain c : 32 <= c <= 126 -> displayable c = true.
Proof.
  intros H. unfold displayable, between. rewrite (proj2 (N.leb_le 32 c)), (proj2 (N.eqb_neq c 127)), (proj2 (N.leb_gt 128 c)), (proj2 (N.leb_gt 0xD800 c)), (proj2 (N.ltb_lt c 0x110000)) by lia.
  cbn. now rewrite !orb_true_r.
Qed.
Lemma fast_run_ok : forall s st a, trun st a s = fast_run st a s.
Proof.
  induction s as [|c t IH]; intros st a; [reflexivity|]. cbn [trun fast_run]. destruct st as [| |acc].
  - destruct ((32 <=? c) && (c <=? 126)) eqn:E.
    + apply andb_true_iff in E as [E1 E2]. apply N.leb_le in E1, E2. cbn [tstep]. rewrite (proj2 (N.eqb_neq c 27)), displayable_plain by lia. now rewrite IH.
    + destruct (tstep Ground a c) as [[st1 a1] l1]. now rewrite IH.
  - destruct (tstep AfterEsc a c) as [[st1 a1] l1]. now rewrite IH.
  - destruct (tstep (InCsi acc) a c) as [[st1 a1] l1]. now rewrite IH.
Qed.
Definition manual_texts : list (list N * list N) := map (fun x => (fst x, squash (snd x))) manual.
Definition manual_now : list (list N * list N * list N) := Eval vm_compute in map (fun x => (fst x, snd x, no_colon (snd x))) manual_texts.
Lemma manual_now_ok : manual_now = map (fun x => (fst x, squash (snd x), no_colon (squash (snd x)))) manual.
Proof. vm_compute. reflexivity. Qed.
Definition entries_now : list (list (list N) * bool) := Eval vm_compute in declared_entries.
Definition entries_count : nat := Eval vm_compute in List.length declared_entries.
Definition examples_now : list (list N * list N) := Eval vm_compute in map (fun x => (description_line (fst x), command_text (snd x))) example_list.
Lemma examples_now_ok : examples_now = map (fun x => (description_line (fst x), command_text (snd x))) example_list.
Proof. vm_compute. reflexivity. Qed.
Definition fast_ok (tty : bool) (c : Z) (p : list N) : bool :=
  (let e := entries p in Nat.eqb (List.length e) entries_count && forallb (fun x => entry_eqb (fst x) (snd x)) (combine e entries_now)) &&
  let '(st, a, l) := fast_run Ground attrs0 p in
  let cells := match st with Ground => l | _ => l ++ [Leak 27] end in
  let ls := lines (map cell_char cells) in
  let ds := map (fun x => (described ls (fst (fst x)), (snd (fst x), snd x))) manual_now in
  Bool.eqb (forallb (fun x => opt_eqb (fst x) (fst (snd x))) ds) (goodb tty c)
  && ((tty && (c <? 20)%Z) || forallb (fun x => match fst x with Some y => eqb_list (no_colon y) (snd (snd x)) | None => false end) ds)
  && Bool.eqb (forallb (fun x => negb (is_leak x)) cells && is_default a) (negb (tty && (c <? 20)%Z))
  && (let m := Z.to_nat (Z.max 62 (Z.min c 148 - 2)) in forallb (fun l => (List.length l <=? m)%nat) (first_part ls))
  && existsb (fun l => Nat.eqb (List.length l) 305) ls
  && forallb (fun c => (c <=? 126) || (c <? 0xD800)) p
  && forallb (fun x => told_here (fst x) (snd x) ls) examples_now.
Lemma forallb_map {A B} (f : A -> B) g l : forallb g (map f l) = forallb (fun x => g (f x)) l.
Proof. induction l as [|x l IH]; [reflexivity|]. cbn. now rewrite IH. Qed.
Lemma forallb_ext2 {A} (f g : A -> bool) l : (forall x, f x = g x) -> forallb f l = forallb g l.
Proof. intros H. induction l as [|x l IH]; [reflexivity|]. cbn. now rewrite H, IH. Qed.
Lemma fast_ok_page tty c p : fast_ok tty c p = true -> page_ok tty c p = true.
Proof.
  unfold fast_ok, page_ok, entries_ok, explained_ok, explainedb, near_ok, tidy_ok, fits_ok, long_ok, examples_ok, visible, screen, final_attrs.
  change entries_count with (List.length declared_entries). change entries_now with declared_entries.
  rewrite fast_run_ok. destruct (fast_run Ground attrs0 p) as [[st a] l]. set (cells := match st with Ground => l | _ => l ++ [Leak 27] end). clearbody cells.
  set (ls := lines (map cell_char cells)). clearbody ls. cbv zeta. rewrite manual_now_ok, examples_now_ok, !map_map, !forallb_map. cbn [fst snd].
  generalize example_list. intros ex H. apply andb_true_iff in H as [H1 H]. apply andb_true_iff in H1 as [H1 H0]. repeat (apply andb_true_iff in H as [H ?]).
  repeat (apply andb_true_iff; split); try assumption.
  - rewrite forallb_forall in *. intros x I. apply Z.leb_le. assert (K : (List.length x <=? Z.to_nat (Z.max 62 (Z.min c 148 - 2)))%nat = true) by auto. apply Nat.leb_le in K. lia.
  - rewrite forallb_forall in *. intros x I. assert (K : (x <=? 126) || (x <? 0xD800) = true) by auto. apply orb_true_iff in K as [K|K]; [|exact K]. apply N.leb_le in K. apply N.ltb_lt. lia.
Qed.
Lemma ltb_small z : (z <= 17)%Z -> (z <? 20)%Z = (17 <? 20)%Z.
Proof. intros H. rewrite (proj2 (Z.ltb_lt z 20)) by lia. reflexivity. Qed.
Lemma ltb_large z : (148 <= z)%Z -> (z <? 20)%Z = (148 <? 20)%Z.
Proof. intros H. rewrite (proj2 (Z.ltb_ge z 20)) by lia. reflexivity. Qed.
Lemma check_mono (f g : bool -> Z -> str -> bool) : (forall tty c p, f tty c p = true -> g tty c p = true) -> check_all f = true -> check_all g = true.
Proof.
  intros H K. unfold check_all in *. rewrite forallb_forall in *. intros t I. specialize (K t I). cbv beta in *. rewrite forallb_forall in *.
  intros n J. specialize (K n J). cbv beta zeta in *. apply H. exact K.
Qed.
Lemma pages_ok tty c : page_ok tty c (help_page c tty) = true.
Proof.
  apply (all_pages page_ok).
  - apply (check_mono fast_ok page_ok fast_ok_page). exact (eq_refl true <: check_all fast_ok = true).
  - intros t z p H. unfold page_ok, entries_ok, explained_ok, near_ok, tidy_ok, fits_ok, long_ok, examples_ok.
    rewrite (goodb_small t z), (goodb_small t 17), (ltb_small z H) by lia. now replace (Z.max 62 (Z.min z 148 - 2)) with (Z.max 62 (Z.min 17 148 - 2)) by lia.
  - intros t z p H. unfold page_ok, entries_ok, explained_ok, near_ok, tidy_ok, fits_ok, long_ok, examples_ok.
    rewrite (goodb_large t z), (goodb_large t 148), (ltb_large z H) by lia. now replace (Z.max 62 (Z.min z 148 - 2)) with (Z.max 62 (Z.min 148 148 - 2)) by lia.
Qed.
Lemma ok_parts tty c : let p := help_page c tty in
  entries_ok tty c p = true /\ explained_ok tty c p = true /\ near_ok tty c p = true /\ tidy_ok tty c p = true /\ fits_ok tty c p = true /\ long_ok tty c p = true /\ forallb (fun c => c <? 0xD800) p = true /\
  examples_ok tty c p = true.
Proof.
  intros p. pose proof (pages_ok tty c) as H. fold p in H. unfold page_ok in H. clearbody p. do 7 (apply andb_true_iff in H as [H ?]). repeat split; assumption.
Qed.

Lemma combine_eq : forall a b, List.length a = List.length b -> forallb (fun x => entry_eqb (fst x) (snd x)) (combine a b) = true -> a = b.
Proof.
  induction a as [|x a IH]; intros [|y b] L H; try discriminate; [reflexivity|]. cbn [combine forallb fst snd] in H. apply andb_true_iff in H as [H1 H2]. apply entry_eqb_eq in H1. f_equal; auto.
Qed.
Lemma entries_all tty c : entries (help_page c tty) = declared_entries.
Proof.
  destruct (ok_parts tty c) as [H _].
  unfold entries_ok in H. apply andb_true_iff in H as [H1 H2]. apply Nat.eqb_eq in H1. now apply combine_eq.
Qed.

(** ** Descriptions *)
Lemma explainedb_iff p : explainedb p = true <-> Explained p.
Proof.
  unfold explainedb, Explained. rewrite forallb_forall. split.
  - intros H name text I. specialize (H _ I). cbn [fst snd] in H. unfold opt_eqb in H. destruct (described _ name); [|discriminate]. apply eqb_list_spec in H. now subst.
  - intros H [name text] I. cbn [fst snd]. rewrite (H _ _ I). cbn. apply eqb_list_refl.
Qed.
Lemma explained_iff tty c : Explained (help_page c tty) <-> good_width tty c.
Proof.
  destruct (ok_parts tty c) as (_ & H & _).
  unfold explained_ok in H. apply eqb_prop in H. rewrite <- explainedb_iff, <- goodb_iff, H. tauto.
Qed.

(** up to colons, wherever escape sequences are whole *)
Lemma nearly_explained tty c : (tty = true -> (20 <= c)%Z) -> Nearly_explained (help_page c tty).
Proof.
  intros W. destruct (ok_parts tty c) as (_ & _ & H & _).
  unfold near_ok in H. apply orb_true_iff in H as [H|H].
  { apply andb_true_iff in H as [-> H]. apply Z.ltb_lt in H. specialize (W eq_refl). lia. }
  cbv zeta in H. rewrite forallb_forall in H. intros name text I. specialize (H _ I). cbn [fst snd] in H. destruct (described _ name) as [y|]; [|discriminate].
  exists y. split; [reflexivity|]. now apply eqb_list_spec.
Qed.

(** ** The terminal *)
Lemma is_default_eq a : is_default a = true -> a = attrs0.
Proof. destruct a as [f b [] [] [] [] [] [] [] [] []]; destruct f, b; try discriminate. reflexivity. Qed.
Lemma tidy_page tty c : (clean (help_page c tty) /\ final_attrs (help_page c tty) = attrs0) <-> (tty = true -> (20 <= c)%Z).
Proof.
  destruct (ok_parts tty c) as (_ & _ & _ & H & _).
  unfold tidy_ok in H. apply eqb_prop in H. unfold clean. split.
  - intros [H1 H2] ->. rewrite H1, H2 in H. change (is_default attrs0) with true in H. cbn [andb] in H. symmetry in H. apply negb_true_iff in H. now apply Z.ltb_ge in H.
  - intros W. assert (E : tty && (c <? 20)%Z = false) by (destruct tty; [cbn; apply Z.ltb_ge; auto|reflexivity]). rewrite E in H. cbn [negb] in H. apply andb_true_iff in H as [H1 H2]. split; [exact H1|now apply is_default_eq].
Qed.

(** ** Widths *)
Lemma fits_page tty c : Forall (fun l => (Z.of_nat (List.length l) <= Z.max 62 (c - 2))%Z) (first_part (lines (visible (help_page c tty)))).
Proof.
  destruct (ok_parts tty c) as (_ & _ & _ & _ & H & _).
  unfold fits_ok in H. rewrite forallb_forall in H. apply Forall_forall. intros l I. specialize (H l I). apply Z.leb_le in H. lia.
Qed.
Lemma long_page tty c : exists l, In l (lines (visible (help_page c tty))) /\ List.length l = 305%nat.
Proof.
  destruct (ok_parts tty c) as (_ & _ & _ & _ & _ & H & _).
  apply existsb_exists in H as (l & I & E). exists l. split; [exact I|]. apply Nat.eqb_eq. exact E.
Qed.

(** ** The options listed are those documented *)
Lemma listed_documented : forall e, In e declared_entries <-> exists x, In x documented /\ e = entry_for x.
Proof.
  assert (A : forallb (fun e => existsb (fun x => entry_eqb e (entry_for x)) documented) declared_entries = true) by (vm_compute; reflexivity).
  assert (B : forallb (fun x => existsb (fun e => entry_eqb e (entry_for x)) declared_entries) documented = true) by (vm_compute; reflexivity).
  rewrite forallb_forall in A, B. intros e. split.
  - intros I. specialize (A e I). apply existsb_exists in A as (x & J & E). exists x. split; [exact J|now apply entry_eqb_eq].
  - intros (x & J & ->). specialize (B x J). apply existsb_exists in B as (e & I & E). apply entry_eqb_eq in E. now subst.
Qed.
Lemma listed_once : NoDup (flat_map fst declared_entries).
Proof.
  assert (D : forall a b : list N, {a = b} + {a <> b}) by (apply list_eq_dec, N.eq_dec).
  assert (E : nodup (list_eq_dec N.eq_dec) (flat_map fst declared_entries) = flat_map fst declared_entries) by (vm_compute; reflexivity).
  rewrite <- E. apply NoDup_nodup.
Qed.
Lemma page_lists c tty : (forall e, In e (entries (help_page c tty)) <-> exists x, In x documented /\ e = entry_for x) /\ NoDup (flat_map fst (entries (help_page c tty))).
Proof. rewrite entries_all. split; [exact listed_documented|exact listed_once]. Qed.

(** ** Runs *)
Lemma started_help w tty argv : main w argv = None -> started w tty argv = mkApp (help_page (w_columns w) tty) None (Some 0%Z).
Proof. intros H. unfold started. now rewrite H. Qed.
Lemma fits_wide columns tty : (64 <= columns)%Z -> Forall (fun l => (Z.of_nat (List.length l) <= columns - 2)%Z) (first_part (lines (visible (help_page columns tty)))).
Proof. intros H. eapply Forall_impl; [|apply fits_page]. intros l L. cbv beta in L. lia. Qed.
Lemma too_long columns tty : (columns < 305)%Z -> exists l, In l (lines (visible (help_page columns tty))) /\ (columns < Z.of_nat (List.length l))%Z.
Proof. intros H. destruct (long_page tty columns) as (l & I & E). exists l. split; [exact I|]. rewrite E. lia. Qed.
Lemma low_page tty c : forallb (fun c => c <? 0xD800) (help_page c tty) = true.
Proof. destruct (ok_parts tty c) as (_ & _ & _ & _ & _ & _ & H & _). exact H. Qed.

(** ** Examples *)
Lemma told_here_ok a b : forall ls, told_here a b ls = true -> exists before after, ls = before ++ a :: b :: after.
Proof.
  induction ls as [|l r IH]; [discriminate|]. destruct r as [|m r]; [discriminate|]. intros H. cbn [told_here] in H.
  destruct (eqb_list l a && eqb_list m b) eqn:E.
  - apply andb_true_iff in E as [E1 E2]. apply eqb_list_spec in E1, E2. subst. exists [], r. reflexivity.
  - cbn [orb] in H. destruct (IH H) as (be & af & K). exists (l :: be), af. cbn. now rewrite K.
Qed.
Lemma examples_told tty c x : In x example_list -> Told (lines (visible (help_page c tty))) x.
Proof.
  intros I. destruct (ok_parts tty c) as (_ & _ & _ & _ & _ & _ & _ & H). unfold examples_ok in H. cbv zeta in H. rewrite forallb_forall in H. exact (told_here_ok _ _ _ (H x I)).
Qed.
