(** Specification side: what the names of SGR codes stand for (ECMA-48 and the usual names of the
    eight colors with their bright variants), and how names may be written. *)
From Coq Require Import Ascii String.
From Coq Require Import List NArith Bool.
From Verif.Spec Require Import Terminal.
Import ListNotations.
Local Open Scope N_scope.

Definition chars (x : string) : list N := map N_of_ascii (list_ascii_of_string x).

Definition hues : list string := ["BLACK"; "RED"; "GREEN"; "YELLOW"; "BLUE"; "MAGENTA"; "CYAN"; "WHITE"]%string.
(** attributes, with their codes and what they do *)
Definition attributes : list (string * N * (attrs -> attrs)) := [
  ("RESET", 0, fun _ => attrs0);
  ("BOLD", 1, set_bold true); ("DIM", 2, set_dim true); ("ITALIC", 3, set_italic true);
  ("UNDERLINED", 4, set_under 1); ("DOUBLE_UNDERLINED", 21, set_under 2);
  ("BLINK_SLOW", 5, set_blink 1); ("BLINK_FAST", 6, set_blink 2);
  ("INVERSED", 7, set_inverse true); ("HIDDEN", 8, set_hidden true); ("CROSSLINED", 9, set_cross true);
  ("OVERLINED", 53, set_over true);
  ("BOLD_DIM_OFF", 22, fun a => set_bold false (set_dim false a)); ("ITALIC_OFF", 23, set_italic false);
  ("UNDERLINED_OFF", 24, set_under 0); ("BLINK_OFF", 25, set_blink 0); ("INVERSED_OFF", 27, set_inverse false);
  ("HIDDEN_OFF", 28, set_hidden false); ("CROSSLINED_OFF", 29, set_cross false); ("OVERLINED_OFF", 55, set_over false);
  ("COLOR_OFF", 39, set_fg ColDefault); ("BG_COLOR_OFF", 49, set_bg ColDefault) ]%string.
(** the bright variant of black is called gray *)
Definition bright (n : string) : string := if String.eqb n "BLACK" then "GRAY" else String.append "HI_" n.

(** [Means n c f]: name, code, effect *)
Inductive Means : string -> N -> (attrs -> attrs) -> Prop :=
| Means_attribute n c f : In (n, c, f) attributes -> Means n c f
| Means_color n i : nth_error hues i = Some n -> Means n (30 + N.of_nat i) (set_fg (ColIdx (N.of_nat i)))
| Means_background n i : nth_error hues i = Some n -> Means (String.append "BG_" n) (40 + N.of_nat i) (set_bg (ColIdx (N.of_nat i)))
| Means_bright n i : nth_error hues i = Some n -> Means (bright n) (90 + N.of_nat i) (set_fg (ColIdx (8 + N.of_nat i)))
| Means_bright_background n i :
    nth_error hues i = Some n -> Means (String.append "BG_" (bright n)) (100 + N.of_nat i) (set_bg (ColIdx (8 + N.of_nat i))).
(** codes that are parts of sequences for colors by number or by red, green and blue *)
Definition extended : list (string * N) :=
  [("COLOR_EXTENDED", 38); ("BG_COLOR_EXTENDED", 48); ("EXTENDED_MODE_256", 5); ("EXTENDED_MODE_RGB", 2)]%string.
Definition Named (n : string) (c : N) : Prop := (exists f, Means n c f) \/ In (n, c) extended.

(** written in any case *)
Definition letter_like (x y : N) : Prop := x = y \/ between 97 x 122 = true /\ y = x - 32.
Definition AnyCase (s : list N) (n : string) : Prop := Forall2 letter_like s (chars n).
(** capital forms as they are for ASCII *)
Definition ascii_capitals (up : N -> list N) : Prop :=
  forall c, c < 128 -> up c = [if between 97 c 122 then c - 32 else c].
(** the capital form of a text *)
Definition capital (up : N -> list N) (s : list N) : list N := flat_map up s.
