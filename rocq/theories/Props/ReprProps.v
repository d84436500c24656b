(** C103: what [repr] shows *)
From Coq Require Import Ascii String.
From Coq Require Import List NArith ZArith Bool.
From Verif.Model Require Import Base Ansi Color Presets Render RenderSetup SgrNames StyleMemory Repr.
From Verif.Spec Require Import Terminal Palette Display Styles ReprText.
From Verif.Proof Require Import RenderClaims ReprClaims.
Import ListNotations.
Local Open Scope N_scope.

(** What is shown: the codes of a sequence, the two sequences of a span, the codes and the value of
    a color, the colors and the attributes of a style. *)
Theorem C103_shown : (forall p, seq_shown p (repr_seq p)) /\ (forall s, span_shown (fst s) (snd s) (repr_span s)) /\
  (forall c, color_shown c (repr_color c)) /\ (forall s, style_shown s (repr_style s)).
Proof. exact (conj seq_text (conj span_text (conj color_text style_text))). Qed.
Print Assumptions C103_shown.
(** Two sequences, spans or colors are shown alike exactly if they are equal. *)
Theorem C103_sequences : forall p q, repr_seq p = repr_seq q <-> p = q.
Proof. exact sequences. Qed.
Print Assumptions C103_sequences.
Theorem C103_spans : forall s t, repr_span s = repr_span t <-> s = t.
Proof. exact spans_text. Qed.
Print Assumptions C103_spans.
Theorem C103_colors : forall a b, repr_color a = repr_color b <-> color_eqb a b = true.
Proof. exact colors. Qed.
Print Assumptions C103_colors.

(** Styles are shown alike exactly if their colors have the same values and the same attributes are on.  Then they
    look the same in HTML, apart from the class; but they may differ, and look different on a terminal. *)
Theorem C103_styles_partial : forall s t, repr_style s = repr_style t <-> same_values s t.
Proof. exact styles_text. Qed.
Print Assumptions C103_styles_partial.
Theorem C103_html : forall s t order text, repr_style s = repr_style t -> st_class_name s = st_class_name t ->
  html_render order text s = html_render order text t.
Proof. exact html_same. Qed.
Print Assumptions C103_html.
Theorem C103_styles_refuted : exists g g' s t out out', style_init g = Ok s /\ style_init g' = Ok t /\ repr_style s = repr_style t /\ style_eqb s t = false /\
  fst (sgr_render (mkRconf (Some true) false false true) st0 (txt "x") s) = Ok out /\ fst (sgr_render (mkRconf (Some true) false false true) st0 (txt "x") t) = Ok out' /\
  screen out = [Glyph 120 (set_fg (ColIdx 1) attrs0)] /\ screen out' = [Glyph 120 (set_fg (ColRgb 128 0 0) attrs0)].
Proof. exact repr_look. Qed.
Print Assumptions C103_styles_refuted.

(** No color is shown as the example of [find_closest] in the documentation. *)
Theorem C103_closest_refuted : (forall c, repr_color c <> txt "_ColorIndexed[code=253, 0xdadada]") /\
  exists c, fst (find_closest table256 0xd9dbdb) = Ok c /\ repr_color c = txt "ColorIndexed256[code=253, 0xdadada]".
Proof. exact closest_text. Qed.
Print Assumptions C103_closest_refuted.

(** All other examples of the documentation: *)
Example C103_example :
  show_span (span_of ascii_up [SA_name (txt "BG_GREEN")]) = Some (txt "Span[SGR[42], SGR[49]]") /\
  show_span (span_of ascii_up [SA_seq [42]; SA_seq [4]]) = Some (txt "Span[SGR[42;4], SGR[49;24]]") /\
  show_seq (sequence_sgr ascii_up [SA_name (txt "yellow"); SA_name (txt "bold")]) = Some (txt "SGR[33;1]") /\
  show_seq (sequence_sgr ascii_up [SA_int 91; SA_int 7]) = Some (txt "SGR[91;7]") /\
  show_seq (sequence_sgr ascii_up [SA_int 96; SA_int 4]) = Some (txt "SGR[96;4]") /\
  show_span (span_of ascii_up [SA_name (txt "red"); SA_name (txt "bold")]) = Some (txt "Span[SGR[31;1], SGR[39;22]]") /\
  show_span (span_of ascii_up [SA_int 32]) = Some (txt "Span[SGR[32], SGR[39]]") /\
  show_span (span_of ascii_up [SA_int 93; SA_int 4]) = Some (txt "Span[SGR[93;4], SGR[39;24]]") /\
  show_span (span_of ascii_up [SA_seq ([40] ++ [31])]) = Some (txt "Span[SGR[40;31], SGR[49;39]]") /\
  show_seq (sequence_sgr ascii_up []) = Some (txt "SGR[~]") /\
  show_style (style_init (mkArgs None (CA_name (txt "green")) CA_none None (Some true) None None None None None None None None)) = Some (txt "Style[fg=008000, no bg, bold]") /\
  show_style (style_init (mkArgs None CA_none (CA_int 0x0000ff) None None None None None None None None None None)) = Some (txt "Style[no fg, bg=0000ff]") /\
  show_style (style_init (mkArgs None (CA_name (txt "deep_sky_blue_1")) (CA_name (txt "grey_93")) None None None None None None None None None None)) = Some (txt "Style[fg=00afff, bg=eeeeee]").
Proof. exact documented. Qed.
