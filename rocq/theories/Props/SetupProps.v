(** C97-C99: preferences of renderers, ready-made styles, hue, saturation and value *)
From Coq Require Import Ascii String.
From Coq Require Import List NArith ZArith QArith Bool.
From Verif.Model Require Import Base Color Presets Render RenderSetup Hsv.
From Verif.Spec Require Import Terminal Palette Display Styles SgrNames Preferences Conditions.
From Verif.Proof Require Import RenderClaims SetupClaims HsvClaims.
Import ListNotations.

(** ** C97 *)
(** After any calls the default renderer is the one last asked for; None restores the terminal renderer *)
Theorem C97_default : forall h s x, setup_steps setup0 h = Ok s -> latest sets_default h x -> su_default s = match x with Some r => r | None => R_sgr end.
Proof. exact default_latest. Qed.
Print Assumptions C97_default.

(** A class has the preferences last set for it; without any, those of the terminal renderer *)
Theorem C97_prefs : forall h s r own base, setup_steps setup0 h = Ok s -> latest (sets_prefs r) h own -> latest (sets_prefs R_sgr) h base ->
  prefs_of s r = match own, base with Some p, _ => p | None, Some p => p | None, None => mkPrefs (Some false) false false end.
Proof. exact prefs_latest. Qed.
Print Assumptions C97_prefs.

(** Calls fail exactly if they set preferences of the renderers that have none *)
Theorem C97_fails : forall h, (exists s, setup_steps setup0 h = Ok s) <-> ~ exists p, In (SO_prefs R_noop p) h \/ In (SO_prefs R_html p) h.
Proof. exact setup_fails. Qed.
Print Assumptions C97_fails.

(** After any calls that end with the terminal renderer as default, [str(text)] appears as its styles say, with the
    colors allowed last *)
Theorem C97_shown : forall h0 s p tty order st h t, setup_steps setup0 h0 = Ok s ->
  (latest sets_default h0 None \/ latest sets_default h0 (Some R_sgr)) ->
  (latest (sets_prefs R_sgr) h0 (Some p) \/ latest (sets_prefs R_sgr) h0 None /\ p = mkPrefs (Some false) false false) ->
  (pf_force p = Some true \/ pf_force p = Some false /\ tty = true) ->
  reached st -> Forall run_standard (text_runs h t) -> Forall (fun c => c <> 27%N) (text_raw h t) ->
  let d := if pf_16 p then Only16 else if pf_256 p then Only256 else Full in
  exists out st' ls, default_render s tty order st h t = (Ok out, st') /\ reached st' /\ Forall2 (run_looks d) (text_runs h t) ls /\
    screen out = map to_cell (concat (map (fun ra => styled (snd ra) (run_string (fst ra))) (combine (text_runs h t) ls))) /\
    final_attrs out = attrs0 /\ visible out = text_raw h t.
Proof. exact session_shown. Qed.
Print Assumptions C97_shown.

(** Forced or forbidden styles do not depend on what stdout is *)
Theorem C97_forced : forall s r order st text sty b1 b2, pf_force (prefs_of s r) <> Some false ->
  render_in s b1 order r st text sty = render_in s b2 order r st text sty.
Proof. exact forced_anywhere. Qed.
Print Assumptions C97_forced.

(** With 16 colors, whether 256 are allowed is ignored completely *)
Theorem C97_sixteen : forall s s' r tty order st text sty, pf_16 (prefs_of s r) = true -> pf_16 (prefs_of s' r) = true -> pf_force (prefs_of s r) = pf_force (prefs_of s' r) ->
  render_in s tty order r st text sty = render_in s' tty order r st text sty.
Proof. exact sixteen_wins. Qed.
Print Assumptions C97_sixteen.

(** The documentation says that [set_up] affects all renderer types; classes with preferences of
    their own keep them, HTML has none *)
Theorem C97_all_types_refuted : exists h p s s', setup_steps setup0 h = Ok s /\ setup_steps setup0 (h ++ [SO_prefs R_sgr p]) = Ok s' /\
  prefs_of s' R_sgr = p /\ prefs_of s' R_tmux = prefs_of s R_tmux /\ prefs_of s R_tmux <> p.
Proof. exact affects_all_refuted. Qed.
Print Assumptions C97_all_types_refuted.
Theorem C97_html_unaffected : forall s s' tty tty' order st text sty, render_in s tty order R_html st text sty = render_in s' tty' order R_html st text sty.
Proof. exact html_unaffected. Qed.
Print Assumptions C97_html_unaffected.

Example C97_example : exists s, setup_steps setup0 sample_history = Ok s /\ latest sets_default sample_history (Some R_sgr) /\
  latest (sets_prefs R_sgr) sample_history (Some (mkPrefs (Some true) true false)) /\ prefs_of s R_tmux = forcing /\ prefs_of s R_debug = mkPrefs (Some true) true false.
Proof. exact sample_session. Qed.

(** ** C98 *)
(** The ready-made styles are found by name, in any case, and look as their names promise on every terminal *)
Theorem C98_presented : forall n a name, In (n, a) PRESENTED -> AnyCase name n -> exists s, resolve_style_name name = Ok s /\
  forall cf st text, styled_output cf -> reached st -> Forall (fun c => c <> 27%N) text ->
  exists out st', sgr_render cf st text s = (Ok out, st') /\ screen out = map to_cell (styled a text) /\ final_attrs out = attrs0.
Proof. exact styles_presented. Qed.
Print Assumptions C98_presented.
Theorem C98_unknown : forall name, (forall n a, In (n, a) PRESENTED -> ~ AnyCase name n) -> resolve_style_name name = Err KeyError.
Proof. exact styles_unknown. Qed.
Print Assumptions C98_unknown.

Example C98_example : AnyCase (txt "Warning_label") "WARNING_LABEL" /\ In ("WARNING_LABEL"%string, set_bold true (set_fg (ColIdx 3) attrs0)) PRESENTED.
Proof. exact sample_style. Qed.

(** ** C99 *)
(** Hue, saturation and value are in their ranges and give the color back, for every color *)
Theorem C99_inverse : forall hex, exists h s v, hsv_channels hex = Ok (h, s, v) /\
  from_hsv h s v (red hex # 255) (green hex # 255) (blue hex # 255) /\ (0 <= h < 360)%Q /\ (0 <= s <= 1)%Q /\ (0 <= v <= 1)%Q.
Proof. exact hsv_inverse. Qed.
Print Assumptions C99_inverse.

(** The documentation gives [0, 359] for the hue *)
Theorem C99_hue_refuted : exists hex h s v, hsv_channels hex = Ok (h, s, v) /\ (359 < h)%Q.
Proof. exact hue_above_359. Qed.
Print Assumptions C99_hue_refuted.

(** dark text is picked for backgrounds of value 0.45 and more, light text for others *)
Theorem C99_autopick : forall s hex h sat v, hex_value (st_bg s) = Some hex -> hsv_channels hex = Ok (h, sat, v) ->
  st_bg (autopick_fg s) = st_bg s /\
  ((45 # 100 <= v)%Q -> st_fg (autopick_fg s) = RGB_GREY_4) /\ ((v < 45 # 100)%Q -> st_fg (autopick_fg s) = RGB_GREY_80).
Proof. exact autopick_by_value. Qed.
Print Assumptions C99_autopick.

(** 80 ff 80 is green, half saturated *)
Example C99_example : match hsv_channels 0x80ff80 with Ok (h, s, v) => (h == 120)%Q /\ (s == 127 # 255)%Q /\ (v == 1)%Q | Err _ => False end.
Proof. vm_compute. auto. Qed.
