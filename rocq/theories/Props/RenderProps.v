(** C62-C70: styles, texts and renderers of the bundled library *)
From Coq Require Import Ascii String.
From Coq Require Import List NArith ZArith Bool Permutation.
From Verif.Model Require Import Base Ansi Strip Color Presets ColorNames Render.
From Verif.Spec Require Import Terminal Palette Display Tmux Html Styles.
From Verif.Proof Require Import RenderFacts TmuxFacts RenderMore HtmlFacts RenderClaims.
Import ListNotations.
Local Open Scope N_scope.

(** ** C62 *)

(** A text of any number of runs appears on the terminal with the characters of its runs, each
    with the colors (the nearest ones the terminal has) and attributes of its style, and leaves
    the terminal with default attributes.  Removing the sequences gives the text back. *)
Theorem C62_shown : forall e st h t, styled_output (re_conf e) -> reached st -> Forall run_standard (text_runs h t) ->
  Forall (fun c => c <> 27) (text_raw h t) ->
  exists out st' ls, text_render e R_sgr st h t = (Ok out, st') /\ reached st' /\
    Forall2 (run_looks (depth_of (re_conf e))) (text_runs h t) ls /\
    screen out = map to_cell (concat (map (fun ra => styled (snd ra) (run_string (fst ra))) (combine (text_runs h t) ls))) /\
    final_attrs out = attrs0 /\ visible out = text_raw h t /\ strip_sgr out = text_raw h t.
Proof. exact text_shown. Qed.
Print Assumptions C62_shown.

(** Every line is styled on its own: its part of the output shows it, and nothing is left behind
    at its end. *)
Theorem C62_lines : forall cf st text s, styled_output cf -> reached st -> standard s -> Forall (fun c => c <> 27) text ->
  exists ls pieces st' a, Lines text ls /\ sgr_render cf st text s = (Ok (concat pieces), st') /\ looks (depth_of cf) s a /\
    Forall2 (fun line piece => screen piece = map to_cell (styled a line) /\ final_attrs piece = attrs0) ls pieces.
Proof. exact sgr_render_lines. Qed.
Print Assumptions C62_lines.

(** What was rendered before makes no difference, whichever renderer. *)
Theorem C62_independent : forall e k st1 st2 h t, reached st1 -> reached st2 ->
  fst (text_render e k st1 h t) = fst (text_render e k st2 h t).
Proof. exact text_independent. Qed.
Print Assumptions C62_independent.

(** Styles made from numbers, names, and colors of the usual kinds, with or without a parent, meet
    the condition of the above. *)
Theorem C62_styles : forall g s, arg_standard (ag_fg g) -> arg_standard (ag_bg g) ->
  match ag_inherit g with None => True | Some p => standard p end -> style_init g = Ok s -> standard s.
Proof. exact init_standard. Qed.
Print Assumptions C62_styles.

Example C62_example : reached st0 /\ styled_output (re_conf (env_of (Some true))) /\ standard ex_style /\
  text_runs ex_heap 0 = [mkRun (txt "ab") (Some ex_style); mkRun ([10] ++ txt "c") None] /\
  exists out, text_render (env_of (Some true)) R_sgr st0 ex_heap 0 = (Ok out, st0) /\
  screen out = map to_cell (styled (set_fg (ColIdx 1) (set_bold true attrs0)) (txt "ab")) ++ map to_cell (styled attrs0 ([10] ++ txt "c")).
Proof. exact (conj st0_reached (conj (or_introl eq_refl) (conj ex_standard (conj ex_runs ex_shown)))). Qed.

(** ** C63 *)

(** With styles disabled, or left to the renderer when the output is not a terminal, terminal and
    tmux renderers give the text itself; the no-operation renderer always does. *)
Theorem C63_off_partial : forall e k st h t, (k = R_noop \/ ((k = R_sgr \/ k = R_tmux) /\ ~ styled_output (re_conf e))) ->
  text_render e k st h t = (Ok (text_raw h t), st).
Proof. exact text_off. Qed.
Print Assumptions C63_off_partial.

(** The documentation says so of all renderers; it is not so for HTML and debug output. *)
Theorem C63_html_refuted : exists k text s out, render (env_of None) k st0 text s = (Ok out, st0) /\ out <> text.
Proof. exact html_ignores_force. Qed.
Print Assumptions C63_html_refuted.
Theorem C63_debug_refuted : exists text s out, render (env_of None) R_debug st0 text s = (Ok out, st0) /\ out <> text.
Proof. exact debug_ignores_force. Qed.
Print Assumptions C63_debug_refuted.

Example C63_example : ~ styled_output (re_conf (env_of None)) /\ ~ styled_output (re_conf (env_of (Some false))).
Proof. exact off_examples. Qed.

(** ** C64 *)

(** As a status text of tmux it shows the same, if no run is doubly underlined and no character
    is a hash sign. *)
Theorem C64_tmux_partial : forall e rs, styled_output (re_conf e) ->
  Forall (fun r => run_standard r /\ match run_style r with None => True | Some s => on (st_double_underlined s) = false end) rs ->
  Forall (fun c => c <> 35) (flat_map run_string rs) -> forall st, reached st ->
  exists out st' looks_of, render_runs e R_tmux st rs = (Ok out, st') /\ reached st' /\
    Forall2 (fun r a => match run_style r with None => a = xattrs0 | Some s => xlooks (depth_of (re_conf e)) s a end) rs looks_of /\
    tmux_shows out (concat (map (fun ra => map (fun c => XGlyph c (snd ra)) (run_string (fst ra))) (combine rs looks_of))) xattrs0.
Proof. exact tmux_runs_painted. Qed.
Print Assumptions C64_tmux_partial.

(** Double underlines are never switched off, hash signs are taken for commands. *)
Theorem C64_double_refuted : exists out cells final, render (env_of (Some true)) R_tmux st0 [97] dbl_style = (Ok out, st0) /\
  tmux_shows out cells final /\ final <> xattrs0.
Proof. exact tmux_double_stays. Qed.
Print Assumptions C64_double_refuted.
Theorem C64_hash_refuted : exists out cells final, render (env_of (Some true)) R_tmux st0 (txt "#S") ital_style = (Ok out, st0) /\
  tmux_shows out cells final /\ cells = [XLost 83].
Proof. exact tmux_hash. Qed.
Print Assumptions C64_hash_refuted.

Example C64_example : exists out, text_render (env_of (Some true)) R_tmux st0 ex_heap 0 = (Ok out, st0) /\
  out = txt "#[bold]#[fg=red]ab#[nobold nodim]#[fg=default]" ++ [10] ++ txt "c".
Proof. eexists. vm_compute. split; reflexivity. Qed.

(** ** C65 *)

(** The debug renderer puts around every line of the text the parameters that switch its style on
    and off again, visibly, whatever the settings. *)
Theorem C65_marks : forall cf st text s, reached st -> standard s -> Forall (fun c => c <> 27) text ->
  exists ls p q st' a, Lines text ls /\ looks (depth_of cf) s a /\ sgr_apply p attrs0 = a /\ sgr_apply q a = attrs0 /\
    debug_render cf st text s = (Ok (concat (map (fun line => mark p ++ line ++ mark q) ls)), st').
Proof. exact debug_render_marks. Qed.
Print Assumptions C65_marks.

Example C65_example : fst (debug_render (re_conf (env_of None)) st0 (txt "ab") ex_style) =
  Ok ([124; 0x1DD] ++ txt "1;31|ab" ++ [124; 0x1DD] ++ txt "22;39|").
Proof. vm_compute. reflexivity. Qed.

(** ** C66 *)

(** As HTML the characters of every run appear with the colors and attributes of its style,
    in whatever order Python iterates its sets, and all elements are closed - for texts without
    the special characters of HTML and class names without quotes. *)
Theorem C66_html_partial : forall e st rs, (forall l, Permutation (re_order e l) l) -> Forall run_html_ok rs ->
  exists out ls, fst (render_runs e R_html st rs) = Ok out /\ Forall2 run_html rs ls /\
    html_shows out (flat_map (fun p => map (fun c => HGlyph c (snd p)) (run_string (fst p))) (combine rs ls)).
Proof. exact html_runs_painted. Qed.
Print Assumptions C66_html_partial.

(** Special characters are not escaped; a style without colors cannot be inversed. *)
Theorem C66_markup_refuted : exists text out, render (env_of (Some true)) R_html st0 text ital_style = (Ok out, st0) /\
  forall l, ~ html_shows out (map (fun c => HGlyph c l) text).
Proof. exact html_markup. Qed.
Print Assumptions C66_markup_refuted.
Theorem C66_inversed_refuted : exists s out, on (st_inversed s) = true /\ render (env_of (Some true)) R_html st0 [97] s = (Ok out, st0) /\
  html_shows out [HGlyph 97 hlook0].
Proof. exact html_inversed. Qed.
Print Assumptions C66_inversed_refuted.

Example C66_example : Forall run_html_ok (text_runs ex_heap 0).
Proof. exact ex_html_ok. Qed.

(** ** C67 *)

(** A program that builds texts by creating, appending and prepending, or by creating, extending
    with strings and formatting, gets the texts it describes. *)
Theorem C67_values_partial : forall os vs h t,
  forallb (fun o => negb (is_format o)) os = true \/ forallb (fun o => negb (is_sharing o)) os = true ->
  Forall2 meant os vs -> text_steps heap0 os = Ok h -> text_runs h t = nth t (fold_left val_step vs []) [].
Proof. exact texts_are_values. Qed.
Print Assumptions C67_values_partial.

(** If it does both, formatting a text may change another one. *)
Theorem C67_refuted : exists os vs h, Forall2 meant os vs /\ text_steps heap0 os = Ok h /\
  text_raw h 1 <> flat_map run_string (nth 1 (fold_left val_step vs []) []).
Proof. exact shared_refuted. Qed.
Print Assumptions C67_refuted.

(** The length of a text is the number of its characters. *)
Theorem C67_length : forall h t, text_len h t = List.length (text_raw h t).
Proof. exact text_len_raw. Qed.
Print Assumptions C67_length.
(** Texts of several runs cannot be formatted. *)
Theorem C67_format_several : forall h t f, (2 <= List.length (text_runs h t))%nat -> text_step h (TO_format t f) = Err RuntimeError.
Proof. exact format_several. Qed.
Print Assumptions C67_format_several.

Example C67_example : exists h, text_steps heap0 [TO_new (A_int 42) SA_none; TO_prepend_str 0 (txt "a"); TO_append_text 0 0] = Ok h /\
  text_raw h 0 = txt "a42a42".
Proof. eexists. vm_compute. split; reflexivity. Qed.

(** ** C68 *)

(** A style has its own settings where given and those of its parent elsewhere; without a parent
    the empty style takes its place. *)
Theorem C68_inherits : forall g p s, ag_inherit g = Some p -> style_init g = Ok s -> child_of g p s.
Proof. exact init_child. Qed.
Print Assumptions C68_inherits.
Theorem C68_root : forall g s, ag_inherit g = None -> style_init g = Ok s -> child_of g NOOP_STYLE s.
Proof. exact init_root. Qed.
Print Assumptions C68_root.
(** Making a style fails only for a name that does not exist. *)
Theorem C68_fails : forall g x, style_init g = Err x -> x = KeyError /\
  exists n, (ag_fg g = CA_name n \/ ag_bg g = CA_name n) /\ resolve_color_name n = Err KeyError.
Proof. exact init_fails. Qed.
Print Assumptions C68_fails.
(** Flipping exchanges the colors as they appear, twice is nothing. *)
Theorem C68_flip_looks : forall d s a, looks d (flip s) (swapped a) <-> looks d s a.
Proof. exact flip_looks. Qed.
Print Assumptions C68_flip_looks.
Theorem C68_flip_twice : forall s, flip (flip s) = s.
Proof. exact flip_twice. Qed.
Print Assumptions C68_flip_twice.
(** The foreground picked for a background differs from it in brightness by 90 of 255 at least. *)
Theorem C68_autopick : forall s h, hex_value (st_bg s) = Some h ->
  st_bg (autopick_fg s) = st_bg s /\
  exists f, hex_value (st_fg (autopick_fg s)) = Some f /\
    (if (45 * 255 <=? 100 * brightness h)%Z then f = 0x0a0a0a%Z else f = 0xcccccc%Z) /\
    (90 <= Z.abs (brightness f - brightness h))%Z.
Proof. exact autopick_contrast. Qed.
Print Assumptions C68_autopick.
Theorem C68_autopick_none : forall s, hex_value (st_bg s) = None -> autopick_fg s = s.
Proof. exact autopick_none. Qed.
Print Assumptions C68_autopick_none.
(** Equality sees the colors only: styles that look different on every terminal are equal. *)
Theorem C68_equal_partial : forall a b, style_eqb a b = true <-> st_fg a = st_fg b /\ st_bg a = st_bg b.
Proof. exact style_eq_spec. Qed.
Print Assumptions C68_equal_partial.
Theorem C68_equal_refuted : exists a b, style_eqb a b = true /\ (forall d x, looks d a x -> ~ looks d b x).
Proof. exact bold_not_seen. Qed.
Print Assumptions C68_equal_refuted.

Example C68_example : hex_value (st_bg (flip ex_style)) = Some 0x800000%Z /\
  hex_value (st_fg (autopick_fg (flip ex_style))) = Some 0x0a0a0a%Z.
Proof. vm_compute. split; reflexivity. Qed.

(** ** C69 *)
Theorem C69_content_partial : forall a sa r, new_run a sa = Ok r -> a <> A_int 0 -> a <> A_none -> run_string r = py_str a.
Proof. exact text_content. Qed.
Print Assumptions C69_content_partial.
Theorem C69_refuted : exists r, new_run (A_int 0) SA_none = Ok r /\ run_string r <> py_str (A_int 0).
Proof. exact text_zero. Qed.
Print Assumptions C69_refuted.

Example C69_example : exists r, new_run (A_int (-7)) SA_none = Ok r /\ run_string r = txt "-7".
Proof. eexists. vm_compute. split; reflexivity. Qed.

(** ** C70 *)

(** Names of colors are found whatever the case of their letters, and only they; each names one
    color, which can be rendered. *)
Theorem C70_found : forall n c, resolve_color_name n = Ok c <-> names presets n c.
Proof. exact names_resolve. Qed.
Print Assumptions C70_found.
Theorem C70_unknown : forall n, (forall c, ~ names presets n c) -> resolve_color_name n = Err KeyError.
Proof. exact names_unknown. Qed.
Print Assumptions C70_unknown.
Theorem C70_unique : forall n c c', names presets n c -> names presets n c' -> c = c'.
Proof. exact names_unique. Qed.
Print Assumptions C70_unique.
Theorem C70_usable : forall n c, names presets n c -> exists k, Denotes c k.
Proof. exact names_standard. Qed.
Print Assumptions C70_usable.

Example C70_example : resolve_color_name (txt "deep_Sky_blue_1") = Ok (ColorIndexed256 (Some 0x00afff%Z) (Some 39%Z)).
Proof. vm_compute. reflexivity. Qed.
