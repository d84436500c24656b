(** The claims about texts and styles in the form of the properties *)
From Coq Require Import Ascii String.
From Coq Require Import List Arith NArith ZArith Bool Lia Permutation.
From Verif.Model Require Import Base Ansi Regex Strip Color Presets ColorNames Render.
From Verif.Spec Require Import Terminal Sgr Palette Display Tmux Html Styles.
From Verif.Proof Require Import BaseFacts TermFacts PaintFacts ConsoleFacts ColorFacts PresetFacts RenderFacts TmuxFacts RenderMore HtmlFacts.
Import ListNotations.
Local Open Scope N_scope.

Lemma chars_of_runs rs (ls : list attrs) : List.length rs = List.length ls ->
  map cell_char (map to_cell (concat (map (fun ra => styled (snd ra) (run_string (fst ra))) (combine rs ls)))) = flat_map run_string rs.
Proof.
  revert ls. induction rs as [|r rs IH]; intros [|a ls] L; try discriminate; [reflexivity|]. cbn [combine map concat flat_map fst snd].
  rewrite !map_app, IH by (cbn in L; lia). f_equal. unfold styled. rewrite !map_map. rewrite <- (map_id (run_string r)) at 2. apply map_ext.
  intros c. apply to_cell_char.
Qed.
Lemma Forall2_len {A B} (P : A -> B -> Prop) a b : Forall2 P a b -> List.length a = List.length b.
Proof. induction 1; cbn; congruence. Qed.

Lemma text_shown e st h t : styled_output (re_conf e) -> reached st -> Forall run_standard (text_runs h t) ->
  Forall (fun c => c <> 27) (text_raw h t) ->
  exists out st' ls, text_render e R_sgr st h t = (Ok out, st') /\ reached st' /\
    Forall2 (run_looks (depth_of (re_conf e))) (text_runs h t) ls /\
    screen out = map to_cell (concat (map (fun ra => styled (snd ra) (run_string (fst ra))) (combine (text_runs h t) ls))) /\
    final_attrs out = attrs0 /\ visible out = text_raw h t /\ strip_sgr out = text_raw h t.
Proof.
  intros A R S H. destruct (runs_painted e (text_runs h t) A S H st R) as (out & st' & ls & E & R' & F & P).
  exists out, st', ls. pose proof (Forall2_len _ _ _ F) as L.
  split; [exact E|]. split; [exact R'|]. split; [exact F|]. split; [eapply Painted_screen; exact P|]. split; [eapply Painted_final; exact P|].
  split; [rewrite (Painted_visible _ _ _ P)|rewrite (Painted_strip _ _ _ _ P)]; now apply chars_of_runs.
Qed.

Lemma text_independent e k st1 st2 h t : reached st1 -> reached st2 -> fst (text_render e k st1 h t) = fst (text_render e k st2 h t).
Proof. intros R1 R2. apply same_runs; assumption. Qed.

Lemma text_off e k st h t : (k = R_noop \/ ((k = R_sgr \/ k = R_tmux) /\ ~ styled_output (re_conf e))) ->
  text_render e k st h t = (Ok (text_raw h t), st).
Proof. apply runs_off. Qed.

(** a state and settings for examples *)
Definition st0 : rstate := mkRstate table16 table256.
Lemma st0_reached : reached st0.
Proof. exists [], []. reflexivity. Qed.
Definition env_of (force : option bool) : renv := mkRenv (mkRconf force false false false) (fun l => l).

Lemma html_ignores_force : exists k text s out, render (env_of None) k st0 text s = (Ok out, st0) /\ out <> text.
Proof. exists R_html, [97], NOOP_STYLE. eexists. split; [reflexivity|]. vm_compute. discriminate. Qed.
Lemma debug_ignores_force : exists text s out, render (env_of None) R_debug st0 text s = (Ok out, st0) /\ out <> text.
Proof.
  exists [97], (mkStyle NOOP_COLOR NOOP_COLOR None (Some true) None None None None None None None None). eexists.
  split; [vm_compute; reflexivity|]. discriminate.
Qed.

Definition dbl_style : style := mkStyle NOOP_COLOR NOOP_COLOR None None None None (Some true) None None None None None.
Definition ital_style : style := mkStyle NOOP_COLOR NOOP_COLOR None None None None None None (Some true) None None None.
Definition inv_style : style := mkStyle NOOP_COLOR NOOP_COLOR None None None None None (Some true) None None None None.
Lemma tmux_double_stays : exists out cells final, render (env_of (Some true)) R_tmux st0 [97] dbl_style = (Ok out, st0) /\
  tmux_shows out cells final /\ final <> xattrs0.
Proof. do 3 eexists. split; [vm_compute; reflexivity|]. split; [vm_compute; reflexivity|]. discriminate. Qed.
Lemma tmux_hash : exists out cells final, render (env_of (Some true)) R_tmux st0 (txt "#S") ital_style = (Ok out, st0) /\
  tmux_shows out cells final /\ cells = [XLost 83].
Proof. do 3 eexists. split; [vm_compute; reflexivity|]. split; [vm_compute; reflexivity|]. reflexivity. Qed.

Lemma html_markup : exists text out, render (env_of (Some true)) R_html st0 text ital_style = (Ok out, st0) /\
  forall l, ~ html_shows out (map (fun c => HGlyph c l) text).
Proof.
  exists (txt "a<b>c"). eexists. split; [reflexivity|]. intros l. vm_compute. discriminate.
Qed.
Lemma html_inversed : exists s out, on (st_inversed s) = true /\ render (env_of (Some true)) R_html st0 [97] s = (Ok out, st0) /\
  html_shows out [HGlyph 97 hlook0].
Proof. exists inv_style. eexists. split; [reflexivity|]. split; [reflexivity|]. vm_compute. reflexivity. Qed.

Lemma init_child g p s : ag_inherit g = Some p -> style_init g = Ok s -> child_of g p s.
Proof.
  intros I E. unfold style_init in E. rewrite I in E.
  destruct (match ag_fg g with CA_none => Ok None | a => resolve_color a true end) as [fg|] eqn:EF; [|discriminate]. cbn [bind] in E.
  destruct (match ag_bg g with CA_none => Ok None | a => resolve_color a true end) as [bg|] eqn:EB; [|discriminate]. cbn [bind] in E.
  injection E as <-. unfold child_of. cbn [st_fg st_bg st_blink st_bold st_crosslined st_dim st_double_underlined st_inversed st_italic st_overlined st_underlined st_class_name].
  rewrite !given_clone. split; [|split].
  - unfold color_from. destruct (ag_fg g) as [|c|z|n]; cbn in EF; try (injection EF as <-; reflexivity).
    destruct (resolve_color_name n); [|discriminate]. cbn in EF. injection EF as <-. reflexivity.
  - unfold color_from. destruct (ag_bg g) as [|c|z|n]; cbn in EB; try (injection EB as <-; reflexivity).
    destruct (resolve_color_name n); [|discriminate]. cbn in EB. injection EB as <-. reflexivity.
  - repeat split; intros; destruct (ag_class_name g); cbn; congruence.
Qed.
Lemma init_root g s : ag_inherit g = None -> style_init g = Ok s -> child_of g NOOP_STYLE s.
Proof.
  intros I E. apply (init_child (mkArgs (Some NOOP_STYLE) (ag_fg g) (ag_bg g) (ag_blink g) (ag_bold g) (ag_crosslined g) (ag_dim g)
    (ag_double_underlined g) (ag_inversed g) (ag_italic g) (ag_overlined g) (ag_underlined g) (ag_class_name g)) NOOP_STYLE s eq_refl).
  rewrite <- E. unfold style_init. rewrite I. cbn [ag_inherit ag_fg ag_bg ag_blink ag_bold ag_crosslined ag_dim ag_double_underlined ag_inversed ag_italic ag_overlined ag_underlined ag_class_name].
  destruct (match ag_fg g with CA_none => Ok None | a => resolve_color a true end) as [fg|]; [|reflexivity]. cbn [bind].
  destruct (match ag_bg g with CA_none => Ok None | a => resolve_color a true end) as [bg|]; [|reflexivity]. cbn [bind].
  destruct fg, bg; reflexivity.
Qed.
Lemma init_fails g x : style_init g = Err x -> x = KeyError /\
  exists n, (ag_fg g = CA_name n \/ ag_bg g = CA_name n) /\ resolve_color_name n = Err KeyError.
Proof.
  intros E. unfold style_init in E.
  assert (N1 : forall n y, resolve_color_name n = Err y -> y = KeyError).
  { intros n y H. unfold resolve_color_name in H. destruct (color_get _ _); congruence. }
  destruct (ag_fg g) as [|c|z|n] eqn:F; cbn [resolve_color] in E;
    try (destruct (resolve_color_name n) as [c0|y0] eqn:R0; cbn [bind] in E; [|injection E as <-; pose proof (N1 _ _ R0); subst; split; [reflexivity|]; exists n; auto]);
  cbn [bind] in E; (destruct (ag_bg g) as [|c'|z'|n'] eqn:B; cbn [resolve_color bind] in E; try discriminate);
    (destruct (resolve_color_name n') as [c1|y1] eqn:R1; cbn [bind] in E; [discriminate|]; injection E as <-; pose proof (N1 _ _ R1); subst; split; [reflexivity|]; exists n'; auto).
Qed.
Lemma bold_not_seen : exists a b, style_eqb a b = true /\ (forall d x, looks d a x -> ~ looks d b x).
Proof.
  exists NOOP_STYLE, (mkStyle NOOP_COLOR NOOP_COLOR None (Some true) None None None None None None None None). split; [reflexivity|].
  intros d x (_ & _ & H & _) (_ & _ & K & _). cbn in *. congruence.
Qed.

Lemma text_content a sa r : new_run a sa = Ok r -> a <> A_int 0 -> a <> A_none -> run_string r = py_str a.
Proof.
  intros E N1 N2. assert (S : run_string r = if any_truthy a then py_str a else []).
  { unfold new_run in E. destruct sa as [|s|n].
    - injection E as <-. reflexivity.
    - injection E as <-. reflexivity.
    - destruct (style_init _); [|discriminate]. cbn [bind] in E. injection E as <-. reflexivity. }
  rewrite S. destruct a as [s|z|]; [|cbn|easy].
  - destruct s; reflexivity.
  - destruct (Z.eqb_spec z 0) as [->|]; [easy|reflexivity].
Qed.
Lemma text_zero : exists r, new_run (A_int 0) SA_none = Ok r /\ run_string r <> py_str (A_int 0).
Proof. eexists. split; [reflexivity|]. discriminate. Qed.

Definition presets : list (str * pcolor) := map (fun p => (txt (fst p), snd p)) color_names.
Lemma names_resolve n c : resolve_color_name n = Ok c <-> names presets n c.
Proof.
  rewrite resolve_spec. unfold names, presets. split.
  - intros (m & I & E). exists (txt m). split; [|exact E]. exact (in_map (fun p => (txt (fst p), snd p)) _ _ I).
  - intros (m & I & E). apply in_map_iff in I as ([m' c'] & [= <- <-] & I). exists m'. auto.
Qed.
Lemma names_unknown n : (forall c, ~ names presets n c) -> resolve_color_name n = Err KeyError.
Proof.
  intros H. apply resolve_unknown. intros m c I E. apply (H c). exists (txt m). split; [|exact E]. exact (in_map (fun p => (txt (fst p), snd p)) _ _ I).
Qed.
Lemma names_standard n c : names presets n c -> exists k, Denotes c k.
Proof. intros H. apply names_resolve, resolve_spec in H as (m & I & _). eapply named_standard. exact I. Qed.
Lemma names_unique n c c' : names presets n c -> names presets n c' -> c = c'.
Proof. rewrite <- !names_resolve. congruence. Qed.

(** an example: a red bold word and a plain one on two lines *)
Definition ex_args : style_args := mkArgs None (CA_name (txt "red")) CA_none None (Some true) None None None None None None None None.
Definition ex_style : style := match style_init ex_args with Ok s => s | Err _ => NOOP_STYLE end.
Definition ex_heap : heap :=
  match text_steps heap0 [TO_new (A_str (txt "ab")) (SA_style ex_style); TO_append_str 0 ([10] ++ txt "c")] with Ok h => h | Err _ => heap0 end.
Lemma ex_standard : standard ex_style.
Proof. apply (init_standard ex_args); [exact I|exact I|exact I|reflexivity]. Qed.
Lemma ex_runs : text_runs ex_heap 0 = [mkRun (txt "ab") (Some ex_style); mkRun ([10] ++ txt "c") None].
Proof. reflexivity. Qed.
Lemma ex_shown : exists out, text_render (env_of (Some true)) R_sgr st0 ex_heap 0 = (Ok out, st0) /\
  screen out = map to_cell (styled (set_fg (ColIdx 1) (set_bold true attrs0)) (txt "ab")) ++ map to_cell (styled attrs0 ([10] ++ txt "c")).
Proof. eexists. split; vm_compute; reflexivity. Qed.
Lemma ex_html_ok : Forall run_html_ok (text_runs ex_heap 0).
Proof.
  rewrite ex_runs. constructor; [|constructor; [|constructor]].
  - split; [repeat (constructor; [split; discriminate|]); constructor|]. repeat split; vm_compute; discriminate.
  - split; [repeat (constructor; [split; discriminate|]); constructor|exact I].
Qed.
Lemma off_examples : ~ styled_output (re_conf (env_of None)) /\ ~ styled_output (re_conf (env_of (Some false))).
Proof. split; intros [H|[H K]]; discriminate. Qed.
