(** Hue, saturation and value computed with doubles: property C105 *)
From Coq Require Import List NArith ZArith QArith Qabs.
From Verif.Model Require Import Base Color Presets Render TimeFloat Hsv HsvFloat.
From Verif.Spec Require Import Palette Preferences Doubles.
From Verif.Proof Require Import HsvFloatClaims.
Import ListNotations.
Local Open Scope Q_scope.

(** ** C105 *)
(** The results are doubles in their ranges, next to the exact ones of C99; the value is the double
    nearest to the exact one. *)
Theorem C105_close : forall hex, exists h s v h1 s1 v1, hsv_channels hex = Ok (h, s, v) /\ hsv_doubles hex = Ok (h1, s1, v1) /\
  Qabs (h1 - h) <= 1 # 50000000000 /\ Qabs (s1 - s) <= 1 # 2000000000000 /\ Qabs (v1 - v) <= 1 # 9007199254740992 /\
  0 <= h1 < 360 /\ 0 <= s1 <= 1 /\ 0 <= v1 <= 1 /\ double h1 /\ double s1 /\ double v1 /\ Doubles.nearest v v1.
Proof. exact doubles_close. Qed.
Print Assumptions C105_close.

(** They give the color back: exactly, if channels are rounded to whole numbers *)
Theorem C105_inverse : forall hex, exists h s v r g b, hsv_doubles hex = Ok (h, s, v) /\ from_hsv h s v r g b /\
  Qabs (r - (red hex # 255)) <= 1 # 1000000000000 /\ Qabs (g - (green hex # 255)) <= 1 # 1000000000000 /\ Qabs (b - (blue hex # 255)) <= 1 # 1000000000000.
Proof. exact doubles_inverse. Qed.
Print Assumptions C105_inverse.
Theorem C105_back : forall hex h s v r g b, hsv_doubles hex = Ok (h, s, v) -> from_hsv h s v r g b ->
  to_channel r = red hex /\ to_channel g = green hex /\ to_channel b = blue hex.
Proof. exact doubles_back. Qed.
Print Assumptions C105_back.

(** The documentation gives [0, 359] for the hue *)
Theorem C105_hue_refuted : exists hex h s v, hsv_doubles hex = Ok (h, s, v) /\ 359 < h.
Proof. exact hue_doubles_above. Qed.
Print Assumptions C105_hue_refuted.

(** Rounding does not change which color is picked for the text on a background *)
Theorem C105_autopick : forall s, autopick_doubles s = Ok (autopick_fg s).
Proof. exact autopick_same. Qed.
Print Assumptions C105_autopick.

(** ff 00 01: the hue is a double above 359.76, not the exact one; dark text is picked for 00 00 80 *)
Example C105_example : match hsv_channels 0xff0001, hsv_doubles 0xff0001 with
    | Ok (h, s, v), Ok (h1, s1, v1) => ~ h1 == h /\ 35976 # 100 < h1 /\ s1 == 1 /\ v1 == 1 | _, _ => False end /\
  autopick_doubles (with_colors NOOP_STYLE NOOP_COLOR (ColorRGB (Some 0x000080%Z))) = Ok (with_colors NOOP_STYLE RGB_GREY_4 (ColorRGB (Some 0x000080%Z))).
Proof. exact hsv_example. Qed.
Print Assumptions C105_example.
