(** Lines, marks, histories of texts, laws of styles, names of colors *)
From Coq Require Import Ascii String.
From Coq Require Import List Arith NArith ZArith Bool Lia.
From Verif.Model Require Import Base Ansi Regex Strip Color Presets ColorNames Render.
From Verif.Spec Require Import Terminal Sgr Palette Display Styles.
From Verif.Proof Require Import BaseFacts RegexFacts TermFacts ClosingFacts TokFacts PaintFacts ConsoleFacts TraceFacts ColorFacts PresetFacts RenderFacts.
Import ListNotations.
Local Open Scope N_scope.

(** * lines *)
Lemma is_break_spec c : is_break c = true <-> In c line_ends.
Proof.
  unfold is_break, line_ends. rewrite !orb_true_iff, !andb_true_iff, !N.leb_le, !N.eqb_eq. cbn [In]. lia.
Qed.
Lemma unbroken_rev s : unbroken (rev s) <-> unbroken s.
Proof. unfold unbroken. rewrite !Forall_forall. setoid_rewrite <- in_rev. reflexivity. Qed.

Lemma splitlines_from_lines s : forall cur, unbroken cur -> Lines (rev cur ++ s) (splitlines_from cur s).
Proof.
  induction s as [s IH] using (@length_ind N). intros cur U. destruct s as [|c t]; cbn [splitlines_from].
  - rewrite app_nil_r. destruct cur as [|x cur]; [constructor|]. apply Ln_last; [|now apply unbroken_rev].
    intros E. apply (f_equal (@List.length N)) in E. rewrite rev_length in E. discriminate.
  - assert (One : forall c t, (List.length t < List.length (c :: t))%nat -> (forall cur, unbroken cur -> Lines (rev cur ++ t) (splitlines_from cur t)) ->
              In c line_ends -> ~ (c = 13 /\ exists r, t = 10 :: r) -> Lines (rev cur ++ c :: t) (rev (c :: cur) :: splitlines_from [] t)).
    { intros c' t' _ H I N. cbn [rev]. apply Ln_one; [now apply unbroken_rev|exact I|exact N|]. apply (H []). constructor. }
    destruct (c =? 13) eqn:E; [apply N.eqb_eq in E; subst c|destruct (is_break c) eqn:B].
    + destruct t as [|d t'].
      * apply (Ln_one (rev cur) 13 [] []); [now apply unbroken_rev|cbn; tauto| |constructor]. intros [_ [r R]]. discriminate.
      * destruct (d =? 10) eqn:D.
        -- apply N.eqb_eq in D. subst d. cbn [rev]. rewrite <- app_assoc. cbn [app]. apply Ln_crlf; [now apply unbroken_rev|].
           apply (IH t' ltac:(cbn; lia) []). constructor.
        -- apply One; [cbn; lia|intros; apply IH; [cbn; lia|assumption]|cbn; tauto|].
           intros [_ [r R]]. injection R as -> _. discriminate.
    + apply One; [cbn; lia|intros; apply IH; [cbn; lia|assumption]|now apply is_break_spec|]. intros [-> _]. discriminate.
    + specialize (IH t ltac:(cbn; lia) (c :: cur)). cbn [rev] in IH. rewrite <- app_assoc in IH. apply IH.
      constructor; [|exact U]. intros I. apply is_break_spec in I. congruence.
Qed.
Lemma splitlines_lines s : Lines s (splitlines s).
Proof. apply (splitlines_from_lines s []). constructor. Qed.

Lemma lines_concat s ls : Lines s ls -> concat ls = s.
Proof. induction 1; cbn [concat]; rewrite ?IHLines, ?app_nil_r, <- ?app_assoc; reflexivity. Qed.

Lemma sgr_render_lines cf st text s : styled_output cf -> reached st -> standard s -> Forall (fun c => c <> 27) text ->
  exists ls pieces st' a, Lines text ls /\ sgr_render cf st text s = (Ok (concat pieces), st') /\ looks (depth_of cf) s a /\
    Forall2 (fun line piece => screen piece = map to_cell (styled a line) /\ final_attrs piece = attrs0) ls pieces.
Proof.
  intros A R S H. destruct (opening_ok cf st s A R S) as (fg & bg & st' & a & E & R' & G & Ea & L). cbv zeta in *.
  exists (splitlines text), (map (span_wrap (sgr_add (sgr_add (concat (render_attributes cf s)) fg) bg)) (splitlines text)), st', a.
  split; [apply splitlines_lines|]. split; [|split; [exact L|]].
  - unfold sgr_render. rewrite E. cbn [bind]. now rewrite flat_map_concat_map.
  - rewrite <- (splitlines_concat text) in H. induction (splitlines text) as [|l ls IH]; [constructor|]. cbn [concat map] in *.
    apply Forall_app in H as [H1 H2]. constructor; [|auto].
    pose proof (Painted_span _ _ G H1) as P. rewrite Ea in P. split; [eapply Painted_screen; exact P|eapply Painted_final; exact P].
Qed.

(** * marks *)
Lemma replace_nil b a : replace_sgr b a [] = [].
Proof. reflexivity. Qed.
Lemma replace_chr b a c t : c <> 27 -> replace_sgr b a (c :: t) = c :: replace_sgr b a t.
Proof. intros H. unfold replace_sgr. rewrite re_scan_unmatched by now apply sgr_match_other. reflexivity. Qed.
Lemma replace_plain b a s t : Forall (fun c => c <> 27) s -> replace_sgr b a (s ++ t) = s ++ replace_sgr b a t.
Proof. induction 1 as [|c s Hc H IH]; [reflexivity|]. cbn [app]. rewrite replace_chr by exact Hc. now rewrite IH. Qed.
Lemma replace_assemble p t : p <> [0] -> replace_sgr [124; 0x1DD] [124] (assemble p ++ t) = mark p ++ replace_sgr [124; 0x1DD] [124] t.
Proof.
  intros H. destruct p as [|x p]; [reflexivity|].
  assert (E : assemble (x :: p) = 27 :: 91 :: join [59] (map dec (x :: p)) ++ [109]).
  { unfold assemble. destruct (eqb_list (x :: p) [0]) eqn:Q; [|reflexivity]. apply eqb_list_spec in Q. easy. }
  assert (F : Forall pchar (join [59] (map dec (x :: p)))).
  { clear. generalize (x :: p). intros l. induction l as [|y l IH]; [constructor|].
    assert (D : Forall pchar (dec y)) by (eapply Forall_impl; [|apply dec_digits]; intros c Hc; left; exact Hc).
    cbn [map join]. destruct (map dec l) eqn:M; [exact D|]. apply Forall_app. split; [exact D|]. constructor; [right; reflexivity|exact IH]. }
  rewrite E. destruct (sgr_match_group _ t F) as (g & M & G).
  unfold replace_sgr at 1. rewrite (re_scan_match _ _ _ g); [|easy|exact M]. cbn [flat_map]. rewrite G.
  unfold mark. rewrite <- !app_assoc. reflexivity.
Qed.
Lemma good_not_zero p : good_open p -> p <> [0] /\ closing_seq p <> [0].
Proof.
  intros (items & -> & F). rewrite closing_seq_items by exact F. destruct F as [|i items Hi F]; [easy|]. split.
  - intros E. destruct i; cbn in E; try discriminate. injection E as -> _. easy.
  - cbn [map]. unfold item_closer at 1. destruct (item_group i) as [g|]; [|easy]. destruct g; discriminate.
Qed.

Lemma debug_render_marks cf st text s : reached st -> standard s -> Forall (fun c => c <> 27) text ->
  exists ls p q st' a, Lines text ls /\ looks (depth_of cf) s a /\ sgr_apply p attrs0 = a /\ sgr_apply q a = attrs0 /\
    debug_render cf st text s = (Ok (concat (map (fun line => mark p ++ line ++ mark q) ls)), st').
Proof.
  intros R S H. assert (A : styled_output (debug_conf cf)) by (left; reflexivity).
  destruct (opening_ok (debug_conf cf) st s A R S) as (fg & bg & st' & a & E & R' & G & Ea & L). cbv zeta in *.
  set (o := sgr_add (sgr_add (concat (render_attributes (debug_conf cf) s)) fg) bg) in *.
  exists (splitlines text), o, (closing_seq o), st', a. split; [apply splitlines_lines|].
  split; [exact L|]. split; [exact Ea|]. split; [rewrite <- Ea; now apply good_closing|].
  unfold debug_render, sgr_render. rewrite E. cbn [bind]. fold o. f_equal. f_equal.
  destruct (good_not_zero o G) as [Z1 Z2]. rewrite <- (splitlines_concat text) in H.
  induction (splitlines text) as [|l ls IH]; [reflexivity|]. cbn [concat flat_map map] in *. apply Forall_app in H as [H1 H2].
  unfold span_wrap at 1. rewrite <- !app_assoc. rewrite replace_assemble by exact Z1. f_equal.
  rewrite replace_plain by exact H1. f_equal. rewrite replace_assemble by exact Z2. f_equal. now apply IH.
Qed.

(** * histories of texts *)
Lemma update_change {A} n (x : A) l : update n x l = change_at n (fun _ => x) l.
Proof. revert n. induction l as [|y l IH]; destruct n; cbn; auto. now rewrite IH. Qed.
Lemma change_ext {A} n (f g : A -> A) l : (forall x, nth_error l n = Some x -> f x = g x) -> change_at n f l = change_at n g l.
Proof. revert n. induction l as [|y l IH]; destruct n; cbn; intros H; auto; [now rewrite H|]. now rewrite (IH n) by auto. Qed.
Lemma map_change {A B} (h : A -> B) n f g l : (forall x, nth_error l n = Some x -> h (f x) = g (h x)) -> map h (change_at n f l) = change_at n g (map h l).
Proof. revert n. induction l as [|y l IH]; destruct n; cbn; intros H; auto; [now rewrite H|]. now rewrite (IH n) by auto. Qed.
Lemma in_change {A} n (f : A -> A) l x : In x (change_at n f l) -> In x l \/ exists y, In y l /\ nth_error l n = Some y /\ x = f y.
Proof.
  revert n. induction l as [|y l IH]; destruct n; cbn; auto.
  - intros [<-|H]; [right; exists y; auto|auto].
  - intros [<-|H]; [auto|]. destruct (IH _ H) as [K|(z & K1 & K2 & ->)]; [auto|]. right. exists z. auto.
Qed.

Definition run_at (rs : list trun_obj) (i : nat) : list trun_obj := match nth_error rs i with Some r => [r] | None => [] end.
Definition values (h : heap) : list (list trun_obj) := map (fun ids => flat_map (run_at (hp_runs h)) ids) (hp_texts h).
Definition valid (h : heap) : Prop := forall ids, In ids (hp_texts h) -> Forall (fun i => i < List.length (hp_runs h))%nat ids.

Lemma text_runs_value h t : text_runs h t = nth t (values h) [].
Proof.
  exact (eq_sym (map_nth (fun ids => flat_map (run_at (hp_runs h)) ids) (hp_texts h) [] t)).
Qed.

Lemma runs_grow rs new ids : Forall (fun i => i < List.length rs)%nat ids -> flat_map (run_at (rs ++ new)) ids = flat_map (run_at rs) ids.
Proof.
  induction 1 as [|i ids Hi H IH]; [reflexivity|]. cbn [flat_map]. rewrite IH. unfold run_at at 1 3. now rewrite nth_error_app1.
Qed.
Lemma values_grow h new : valid h -> map (fun ids => flat_map (run_at (hp_runs h ++ new)) ids) (hp_texts h) = values h.
Proof. intros V. apply map_ext_in. intros ids I. apply runs_grow. now apply V. Qed.
Lemma run_at_last rs r : run_at (rs ++ [r]) (List.length rs) = [r].
Proof. unfold run_at. rewrite nth_error_app2 by lia. now rewrite Nat.sub_diag. Qed.
Lemma nth_error_nth_some {A} (l : list A) n d x : nth_error l n = Some x -> nth n l d = x.
Proof. revert n. induction l; destruct n; cbn; intros H; try discriminate; [now injection H|auto]. Qed.
Lemma values_nth h u : flat_map (run_at (hp_runs h)) (runs_of h u) = nth u (values h) [].
Proof. rewrite <- text_runs_value. reflexivity. Qed.
Lemma runs_of_valid h u : valid h -> Forall (fun i => i < List.length (hp_runs h))%nat (runs_of h u).
Proof. intros V. unfold runs_of. destruct (nth_in_or_default u (hp_texts h) []) as [I| ->]; [now apply V|constructor]. Qed.
Lemma lt_mono n m ids : (n <= m)%nat -> Forall (fun i => i < n)%nat ids -> Forall (fun i => i < m)%nat ids.
Proof. intros L. apply Forall_impl. intros; lia. Qed.

Lemma new_run_str s : new_run (A_str s) SA_none = Ok (mkRun s None).
Proof. destruct s; reflexivity. Qed.

Lemma valid_put rs ts n f : (forall ids, In ids ts -> Forall (fun i => i < List.length rs)%nat ids) ->
  (forall ids, nth_error ts n = Some ids -> Forall (fun i => i < List.length rs)%nat (f ids)) -> valid (mkHeap rs (change_at n f ts)).
Proof. intros V F ids I. cbn [hp_texts hp_runs] in *. apply in_change in I as [I|(y & I & N & ->)]; auto. Qed.

Lemma step_values h o h' v : is_format o = false -> valid h -> text_step h o = Ok h' -> meant o v ->
  values h' = val_step (values h) v /\ valid h'.
Proof.
  intros NF V E M. destruct o as [a sa|t s|t u|t s|t u|t f]; [| | | | |discriminate]; cbn [text_step meant] in *.
  - destruct M as (r & R & ->). rewrite R in E. cbn [bind] in E. injection E as <-. cbn [val_step]. split.
    + unfold values. cbn [hp_runs hp_texts]. rewrite map_app. fold (values h). rewrite values_grow by exact V. cbn [map flat_map].
      rewrite run_at_last. reflexivity.
    + intros ids I. cbn [hp_texts hp_runs] in *. rewrite app_length. apply in_app_iff in I as [I|[<-|[]]].
      * eapply lt_mono; [|apply V, I]. lia.
      * repeat constructor. cbn. lia.
  - subst v. rewrite new_run_str in E. cbn [bind] in E. injection E as <-. cbn [val_step]. rewrite update_change. split.
    + unfold values at 1. cbn [hp_runs hp_texts]. rewrite <- (values_grow h [mkRun s None] V). apply map_change.
      intros x X. unfold runs_of. rewrite (nth_error_nth_some _ _ _ _ X), flat_map_app. cbn [flat_map]. now rewrite run_at_last.
    + apply valid_put.
      * intros ids I. rewrite app_length. eapply lt_mono; [|apply V, I]. lia.
      * intros ids _. rewrite app_length. apply Forall_app. split; [eapply lt_mono; [|apply runs_of_valid, V]; lia|repeat constructor; cbn; lia].
  - subst v. injection E as <-. cbn [val_step]. rewrite update_change. split.
    + unfold values at 1 2. cbn [hp_runs hp_texts]. apply map_change. intros x X.
      replace (runs_of h t) with x by (unfold runs_of; symmetry; now apply nth_error_nth_some). rewrite flat_map_app. now rewrite values_nth.
    + apply valid_put; [exact V|]. intros ids _. apply Forall_app. split; now apply runs_of_valid.
  - subst v. rewrite new_run_str in E. cbn [bind] in E. injection E as <-. cbn [val_step]. rewrite update_change. split.
    + unfold values at 1. cbn [hp_runs hp_texts]. rewrite <- (values_grow h [mkRun s None] V). apply map_change.
      intros x X. unfold runs_of. rewrite (nth_error_nth_some _ _ _ _ X). cbn [flat_map]. now rewrite run_at_last.
    + apply valid_put.
      * intros ids I. rewrite app_length. eapply lt_mono; [|apply V, I]. lia.
      * intros ids _. rewrite app_length. constructor; [cbn; lia|]. eapply lt_mono; [|apply runs_of_valid, V]; lia.
  - subst v. injection E as <-. cbn [val_step]. rewrite update_change. split.
    + unfold values at 1 2. cbn [hp_runs hp_texts]. apply map_change. intros x X.
      replace (runs_of h t) with x by (unfold runs_of; symmetry; now apply nth_error_nth_some). rewrite flat_map_app. now rewrite values_nth.
    + apply valid_put; [exact V|]. intros ids _. apply Forall_app. split; now apply runs_of_valid.
Qed.

Lemma steps_values os vs : forallb (fun o => negb (is_format o)) os = true -> Forall2 meant os vs -> forall h h', valid h ->
  text_steps h os = Ok h' -> values h' = fold_left val_step vs (values h).
Proof.
  intros NF M. induction M as [|o v os vs M1 M IH]; intros h h' V E; cbn [text_steps fold_left] in *.
  - now injection E as <-.
  - cbn [forallb] in NF. apply andb_prop in NF as [N1 N2]. apply negb_true_iff in N1.
    destruct (text_step h o) as [h1|x] eqn:S; [|discriminate]. cbn [bind] in E.
    destruct (step_values h o h1 v N1 V S M1) as [E1 V1]. rewrite (IH N2 h1 h' V1 E), E1. reflexivity.
Qed.

(** nothing shared: every run occurs once *)
Definition unshared (h : heap) : Prop := valid h /\ NoDup (concat (hp_texts h)).

Lemma concat_change {A} n (f : list A -> list A) l x : nth_error l n = Some x ->
  exists a b, concat l = a ++ x ++ b /\ concat (change_at n f l) = a ++ f x ++ b /\
    l = firstn n l ++ x :: skipn (S n) l /\ change_at n f l = firstn n l ++ f x :: skipn (S n) l.
Proof.
  revert n. induction l as [|y l IH]; intros [|n] H; cbn in *; try discriminate.
  - injection H as ->. exists [], (concat l). auto.
  - destruct (IH n H) as (a & b & E1 & E2 & E3 & E4). exists (y ++ a), b. rewrite E1, E2, <- !app_assoc. repeat split; congruence.
Qed.
Lemma change_none {A} n (f : A -> A) l : nth_error l n = None -> change_at n f l = l.
Proof. revert n. induction l as [|y l IH]; destruct n; cbn; intros H; auto; [discriminate|]. now rewrite IH. Qed.

Lemma nodup_insert {A} (x : A) a b : NoDup (a ++ b) -> ~ In x (a ++ b) -> NoDup (a ++ x :: b).
Proof. intros H N. apply NoDup_Add with (a := x) (l := a ++ b); [apply Add_app|auto]. Qed.

Lemma fresh_not_in h : valid h -> ~ In (List.length (hp_runs h)) (concat (hp_texts h)).
Proof.
  intros V I. apply in_concat in I as (ids & I1 & I2). specialize (V ids I1). rewrite Forall_forall in V. apply V in I2. lia.
Qed.

Lemma update_nth_same {A} i (x : A) l : (i < List.length l)%nat -> nth_error (update i x l) i = Some x.
Proof. revert i. induction l; destruct i; cbn; intros H; auto; try lia. apply IHl. lia. Qed.
Lemma update_nth_other {A} i j (x : A) l : i <> j -> nth_error (update i x l) j = nth_error l j.
Proof. revert i j. induction l; destruct i, j; cbn; intros H; auto; try easy. Qed.
Lemma update_len {A} i (x : A) l : List.length (update i x l) = List.length l.
Proof. revert i. induction l; destruct i; cbn; auto. Qed.

Lemma change_mid {A} (f : A -> A) a x b : change_at (List.length a) f (a ++ x :: b) = a ++ f x :: b.
Proof. induction a as [|y a IH]; cbn; [reflexivity|]. now rewrite IH. Qed.

Lemma step_unshared h o h' v : is_sharing o = false -> unshared h -> text_step h o = Ok h' -> meant o v ->
  values h' = val_step (values h) v /\ unshared h'.
Proof.
  intros NS [V D] E M. destruct (is_format o) eqn:F.
  - destruct o as [| | | | |t f]; try discriminate. cbn [text_step meant] in *. subst v. cbn [val_step].
    assert (RT : forall ids, nth_error (hp_texts h) t = Some ids -> runs_of h t = ids) by (intros; unfold runs_of; now apply nth_error_nth_some).
    destruct (nth_error (hp_texts h) t) as [ids|] eqn:N.
    + rewrite (RT ids eq_refl) in E. assert (VI : Forall (fun i => i < List.length (hp_runs h))%nat ids) by (apply V; eapply nth_error_In; exact N).
      destruct ids as [|i [|j ids]]; [| |discriminate].
      * injection E as <-. split; [|split; assumption]. unfold values. rewrite <- map_change with (f := fun x => x).
        -- f_equal. clear. revert t. induction (hp_texts h) as [|y l IH]; destruct t; cbn; auto. now rewrite <- IH.
        -- intros x X. rewrite N in X. injection X as <-. reflexivity.
      * inversion VI as [|? ? Li _]; subst. destruct (nth_error (hp_runs h) i) as [r|] eqn:Ri; [|apply nth_error_None in Ri; lia].
        injection E as <-. split; [|split].
        -- unfold values. cbn [hp_runs hp_texts].
           destruct (nth_error_split _ _ N) as (A & B & HT & LA). rewrite HT in D |- *. rewrite concat_app in D. cbn [concat app] in D.
           apply NoDup_remove_2 in D.
           assert (SAME : forall ids, ~ In i ids -> flat_map (run_at (update i (mkRun (str_format f (run_string r)) (run_style r)) (hp_runs h))) ids = flat_map (run_at (hp_runs h)) ids).
           { intros ids H. induction ids as [|j ids IH]; [reflexivity|]. cbn [flat_map]. rewrite IH by (intros K; apply H; now right).
             f_equal. unfold run_at. rewrite update_nth_other; [reflexivity|]. intros ->. apply H. now left. }
           rewrite !map_app. cbn [map]. subst t. rewrite <- (map_length (fun ids => flat_map (run_at (hp_runs h)) ids) A), change_mid. f_equal; [|f_equal].
           ++ apply map_ext_in. intros ids I. apply SAME. intros K. apply D, in_or_app. left. apply in_concat. eauto.
           ++ cbn [flat_map]. rewrite !app_nil_r. unfold run_at. now rewrite update_nth_same, Ri.
           ++ apply map_ext_in. intros ids I. apply SAME. intros K. apply D, in_or_app. right. apply in_concat. eauto.
        -- intros ids I. cbn [hp_runs hp_texts] in *. rewrite update_len. now apply V.
        -- exact D.
    + assert (R0 : runs_of h t = []) by (unfold runs_of; apply nth_overflow; now apply nth_error_None).
      rewrite R0 in E. injection E as <-. split; [|split; assumption]. symmetry. apply change_none. unfold values. rewrite nth_error_map, N. reflexivity.
  - destruct (step_values h o h' v F V E M) as [E1 V1]. split; [exact E1|]. split; [exact V1|].
    pose proof (fresh_not_in h V) as FR.
    destruct o as [a sa|t s|t u|t s|t u|t f]; try discriminate; cbn [text_step] in E.
    + destruct (new_run a sa); [|discriminate]. cbn [bind] in E. injection E as <-. cbn [hp_texts]. rewrite concat_app. cbn [concat app].
      apply nodup_insert; rewrite app_nil_r; assumption.
    + rewrite new_run_str in E. cbn [bind] in E. injection E as <-. cbn [hp_texts]. rewrite update_change.
      destruct (nth_error (hp_texts h) t) as [ids|] eqn:N; [|now rewrite change_none].
      replace (runs_of h t) with ids by (unfold runs_of; symmetry; now apply nth_error_nth_some).
      destruct (concat_change t (fun _ => ids ++ [List.length (hp_runs h)]) _ _ N) as (x & y & E1' & E2 & _). rewrite E2.
      rewrite E1' in D, FR. rewrite <- app_assoc. cbn [app]. rewrite app_assoc. rewrite app_assoc in D, FR. now apply nodup_insert.
    + rewrite new_run_str in E. cbn [bind] in E. injection E as <-. cbn [hp_texts]. rewrite update_change.
      destruct (nth_error (hp_texts h) t) as [ids|] eqn:N; [|now rewrite change_none].
      replace (runs_of h t) with ids by (unfold runs_of; symmetry; now apply nth_error_nth_some).
      destruct (concat_change t (fun _ => List.length (hp_runs h) :: ids) _ _ N) as (x & y & E1' & E2 & _). rewrite E2.
      rewrite E1' in D, FR. cbn [app]. now apply nodup_insert.
Qed.

Lemma steps_unshared os vs : forallb (fun o => negb (is_sharing o)) os = true -> Forall2 meant os vs -> forall h h', unshared h ->
  text_steps h os = Ok h' -> values h' = fold_left val_step vs (values h).
Proof.
  intros NF M. induction M as [|o v os vs M1 M IH]; intros h h' V E; cbn [text_steps fold_left] in *.
  - now injection E as <-.
  - cbn [forallb] in NF. apply andb_prop in NF as [N1 N2]. apply negb_true_iff in N1.
    destruct (text_step h o) as [h1|x] eqn:S; [|discriminate]. cbn [bind] in E.
    destruct (step_unshared h o h1 v N1 V S M1) as [E1 V1]. rewrite (IH N2 h1 h' V1 E), E1. reflexivity.
Qed.

Lemma heap0_unshared : unshared heap0.
Proof. split; [intros ids []|constructor]. Qed.

Lemma texts_are_values os vs h t :
  forallb (fun o => negb (is_format o)) os = true \/ forallb (fun o => negb (is_sharing o)) os = true ->
  Forall2 meant os vs -> text_steps heap0 os = Ok h -> text_runs h t = nth t (fold_left val_step vs []) [].
Proof.
  intros C M E. rewrite text_runs_value. f_equal. destruct C as [C|C].
  - apply (steps_values os vs C M heap0 h); [apply heap0_unshared|exact E].
  - apply (steps_unshared os vs C M heap0 h); [apply heap0_unshared|exact E].
Qed.
Lemma shared_refuted : exists os vs h, Forall2 meant os vs /\ text_steps heap0 os = Ok h /\
  text_raw h 1 <> flat_map run_string (nth 1 (fold_left val_step vs []) []).
Proof.
  exists [TO_new (A_str [97]) SA_none; TO_new (A_str [98]) SA_none; TO_append_text 1 0; TO_format 0 (mkFmt 32 AL_left 3 None)],
    [V_new (mkRun [97] None); V_new (mkRun [98] None); V_append_copy 1 0; V_format 0 (str_format (mkFmt 32 AL_left 3 None))].
  eexists. split; [|split; [reflexivity|vm_compute; discriminate]].
  repeat constructor; cbn; eauto.
Qed.
Lemma text_len_raw h t : text_len h t = List.length (text_raw h t).
Proof.
  unfold text_len, text_raw. induction (text_runs h t) as [|r rs IH]; [reflexivity|]. cbn. rewrite app_length. now rewrite IH.
Qed.
Lemma format_several h t f : (2 <= List.length (text_runs h t))%nat -> text_step h (TO_format t f) = Err RuntimeError.
Proof.
  unfold text_runs. cbn [text_step]. destruct (runs_of h t) as [|i [|j l]]; [cbn; lia| |reflexivity].
  cbn. destruct (nth_error (hp_runs h) i); cbn; lia.
Qed.

(** * styles *)
Lemma inherit_all s : style_init (mkArgs (Some s) CA_none CA_none None None None None None None None None None None) = Ok s.
Proof. destruct s. reflexivity. Qed.

Lemma given_clone g p : on (clone g p) = given g (on p).
Proof. destruct g as [[|]|], p as [[|]|]; reflexivity. Qed.

Lemma flip_twice s : flip (flip s) = s.
Proof. destruct s. reflexivity. Qed.
Lemma flip_looks d s a : looks d (flip s) (swapped a) <-> looks d s a.
Proof. unfold looks, flip, swapped. destruct s, a. cbn. tauto. Qed.

Lemma autopick_contrast s h : hex_value (st_bg s) = Some h ->
  st_bg (autopick_fg s) = st_bg s /\
  exists f, hex_value (st_fg (autopick_fg s)) = Some f /\
    (if (45 * 255 <=? 100 * brightness h)%Z then f = 0x0a0a0a%Z else f = 0xcccccc%Z) /\
    (90 <= Z.abs (brightness f - brightness h))%Z.
Proof.
  intros H. unfold autopick_fg. rewrite H. split; [reflexivity|]. unfold hsv_value_255. rewrite channels_spec. fold (brightness h).
  assert (R : (0 <= brightness h <= 255)%Z) by (destruct (channel_range h) as (A & B & C); unfold brightness; lia).
  destruct (Z.leb_spec 115 (brightness h)) as [L|L].
  - exists 0x0a0a0a%Z. split; [reflexivity|]. destruct (Z.leb_spec (45 * 255) (100 * brightness h)); [|lia]. split; [reflexivity|].
    change (brightness 0x0a0a0a) with 10%Z. lia.
  - exists 0xcccccc%Z. split; [reflexivity|]. destruct (Z.leb_spec (45 * 255) (100 * brightness h)); [lia|]. split; [reflexivity|].
    change (brightness 0xcccccc) with 204%Z. lia.
Qed.
Lemma autopick_none s : hex_value (st_bg s) = None -> autopick_fg s = s.
Proof. intros H. unfold autopick_fg. now rewrite H. Qed.

Lemma color_eqb_eq a b : color_eqb a b = true <-> a = b.
Proof.
  assert (O : forall x y, opt_eqb x y = true <-> x = y).
  { intros [x|] [y|]; cbn; rewrite ?Z.eqb_eq; split; intros; try congruence; discriminate. }
  destruct a, b; cbn; rewrite ?andb_true_iff, ?O; split; intros H; try discriminate; try (intuition congruence); inversion H; auto.
Qed.
Lemma style_eq_spec a b : style_eqb a b = true <-> st_fg a = st_fg b /\ st_bg a = st_bg b.
Proof. unfold style_eqb. now rewrite andb_true_iff, !color_eqb_eq. Qed.

(** * names *)
Lemma upper_twice s : upper (upper s) = upper s.
Proof.
  unfold upper. rewrite map_map. apply map_ext. intros c. destruct ((97 <=? c) && (c <=? 122)) eqn:E; [|now rewrite E].
  apply andb_prop in E as [A B]. apply N.leb_le in A, B. destruct (N.leb_spec 97 (c - 32)); [lia|]. reflexivity.
Qed.
Lemma resolve_case n m : upper n = upper m -> resolve_color_name n = resolve_color_name m.
Proof. intros H. unfold resolve_color_name. now rewrite H. Qed.

Fixpoint nodup_names (l : list str) : bool :=
  match l with [] => true | n :: t => negb (existsb (eqb_list n) t) && nodup_names t end.
Lemma names_ok : forallb (fun p => eqb_list (upper (txt (fst p))) (txt (fst p))) color_names = true
  /\ nodup_names (map (fun p => txt (fst p)) color_names) = true.
Proof. split; vm_compute; reflexivity. Qed.
Lemma get_first name n c l : nodup_names (map (fun p => txt (fst p)) l) = true -> In (n, c) l -> eqb_list name (txt n) = true ->
  color_get name l = Some c.
Proof.
  induction l as [|[n' c'] l IH]; intros D I E; [contradiction|]. cbn [map fst nodup_names] in D. apply andb_prop in D as [D1 D2].
  cbn [color_get]. destruct I as [[= -> ->]|I]; [now rewrite E|].
  destruct (eqb_list name (txt n')) eqn:E'; [|now apply IH].
  apply eqb_list_spec in E, E'. apply negb_true_iff in D1. exfalso.
  assert (K : existsb (eqb_list (txt n')) (map (fun p => txt (fst p)) l) = true).
  { apply existsb_exists. exists (txt n). split; [exact (in_map (fun p => txt (fst p)) l (n, c) I)|]. apply eqb_list_spec. congruence. }
  congruence.
Qed.
Lemma get_some name c l : color_get name l = Some c -> exists n, In (n, c) l /\ txt n = name.
Proof.
  induction l as [|[n' c'] l IH]; cbn [color_get]; [discriminate|]. destruct (eqb_list name (txt n')) eqn:E.
  - intros [= ->]. apply eqb_list_spec in E. exists n'. split; [now left|congruence].
  - intros H. destruct (IH H) as (n & I & Q). exists n. split; [now right|exact Q].
Qed.
Lemma resolve_spec name c : resolve_color_name name = Ok c <-> exists n, In (n, c) color_names /\ upper name = upper (txt n).
Proof.
  destruct names_ok as [U D]. rewrite forallb_forall in U. unfold resolve_color_name. split.
  - destruct (color_get (upper name) color_names) as [c'|] eqn:E; [|discriminate]. intros [= ->].
    apply get_some in E as (n & I & Q). exists n. split; [exact I|]. specialize (U _ I). apply eqb_list_spec in U. cbn [fst] in U. now rewrite U.
  - intros (n & I & Q). specialize (U _ I). apply eqb_list_spec in U. cbn [fst] in U. rewrite (get_first _ n c); [reflexivity|exact D|exact I|].
    apply eqb_list_spec. congruence.
Qed.
Lemma resolve_unknown name : (forall n c, In (n, c) color_names -> upper name <> upper (txt n)) -> resolve_color_name name = Err KeyError.
Proof.
  intros H. destruct (resolve_color_name name) as [c|x] eqn:E.
  - apply resolve_spec in E as (n & I & Q). now elim (H n c I).
  - unfold resolve_color_name in E. destruct (color_get _ _); congruence.
Qed.

Definition denotes_b (c : pcolor) : bool :=
  match c with
  | ColorRGB _ => true
  | ColorIndexed256 (Some _) (Some n) => (0 <=? n)%Z && (n <=? 255)%Z
  | ColorIndexed16 (Some _) (Some f) (Some b) => (b =? f + 10)%Z && ((30 <=? f)%Z && (f <=? 37)%Z || (90 <=? f)%Z && (f <=? 97)%Z)
  | _ => false
  end.
Lemma denotes_b_ok c : denotes_b c = true -> exists k, Denotes c k.
Proof.
  destruct c as [[h|] [f|] [b|]|[h|] [n|]|[h|]]; cbn; try discriminate; intros H.
  - apply andb_prop in H as [H1 H2]. apply Z.eqb_eq in H1. subst b. apply orb_true_iff in H2 as [H2|H2]; apply andb_prop in H2 as [A B]; apply Z.leb_le in A, B.
    + exists (K_16 (f - 30)). replace f with (30 + (f - 30))%Z at 1 by lia. replace (f + 10)%Z with (40 + (f - 30))%Z by lia. constructor. lia.
    + exists (K_16 (f - 82)). replace f with (90 + (f - 82 - 8))%Z at 1 by lia. replace (f + 10)%Z with (100 + (f - 82 - 8))%Z by lia. constructor. lia.
  - apply andb_prop in H as [A B]. apply Z.leb_le in A, B. exists (K_256 h n). constructor. lia.
  - eexists. constructor.
  - eexists. constructor.
Qed.
Lemma named_standard n c : In (n, c) color_names -> exists k, Denotes c k.
Proof.
  intros I. apply denotes_b_ok. assert (A : forallb (fun p => denotes_b (snd p)) color_names = true) by (vm_compute; reflexivity).
  rewrite forallb_forall in A. exact (A _ I).
Qed.
(** whatever the constructor returns for numbers, names and standard colors can be rendered *)
Lemma resolve_arg_standard a b c : arg_standard a -> resolve_color a b = Ok (Some c) -> exists k, Denotes c k.
Proof.
  destruct a as [|c'|h|s]; cbn; intros A E.
  - destruct b; [discriminate|]. injection E as <-. eexists. constructor.
  - injection E as <-. exact A.
  - injection E as <-. eexists. constructor.
  - destruct (resolve_color_name s) as [c'|] eqn:R; [|discriminate]. cbn in E. injection E as <-. apply resolve_spec in R as (n & I & _).
    eapply named_standard. exact I.
Qed.
Lemma init_standard g s : arg_standard (ag_fg g) -> arg_standard (ag_bg g) ->
  match ag_inherit g with None => True | Some p => standard p end -> style_init g = Ok s -> standard s.
Proof.
  intros F B P E. unfold style_init in E.
  assert (One : forall a o p c, arg_standard a -> resolve_color a true = Ok o ->
            match p with None => True | Some q => exists k, Denotes q k end ->
            (match clone o p with Some c => c | None => NOOP_COLOR end) = c -> exists k, Denotes c k).
  { intros a o p c A R Q <-. destruct o as [c'|]; cbn [clone].
    - eapply resolve_arg_standard; [exact A|]. exact R.
    - destruct p; [exact Q|]. eexists. constructor. }
  destruct (match ag_fg g with CA_none => Ok None | a => resolve_color a true end) as [fg|] eqn:EF; [|discriminate]. cbn [bind] in E.
  destruct (match ag_bg g with CA_none => Ok None | a => resolve_color a true end) as [bg|] eqn:EB; [|discriminate]. cbn [bind] in E.
  assert (EF' : resolve_color (ag_fg g) true = Ok fg) by (destruct (ag_fg g); exact EF).
  assert (EB' : resolve_color (ag_bg g) true = Ok bg) by (destruct (ag_bg g); exact EB).
  injection E as <-. split; cbn [st_fg st_bg].
  - apply (One (ag_fg g) fg (match ag_inherit g with None => None | Some s => Some (st_fg s) end) _ F EF'); [|reflexivity].
    destruct (ag_inherit g); [apply P|exact I].
  - apply (One (ag_bg g) bg (match ag_inherit g with None => None | Some s => Some (st_bg s) end) _ B EB'); [|reflexivity].
    destruct (ag_inherit g); [apply P|exact I].
Qed.
