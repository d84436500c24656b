(** Specification side: what [repr] shows *)
From Coq Require Import Ascii String.
From Coq Require Import List NArith ZArith.
From Verif.Model Require Import Base Color Render StyleMemory.
From Verif.Spec Require Import Numbers FloatText Styles SharedStyles.
Import ListNotations.
Local Open Scope N_scope.

(** what two styles must share to be shown alike *)
Definition turned_on (s : style) (a : attr) : bool := on (value_of s a).
Definition same_values (s t : style) : Prop :=
  hex_value (st_fg s) = hex_value (st_fg t) /\ hex_value (st_bg s) = hex_value (st_bg t) /\ forall a, turned_on s a = turned_on t a.

(** what the parts mean: codes of a sequence, the sequences of a span, an optional number, the
    value of a color (at least six hexadecimal digits, counting a sign) *)
Definition seq_shown (p : list N) (t : str) : Prop :=
  exists body, t = txt "SGR[" ++ body ++ txt "]" /\
    match p with [] => body = txt "~" | _ => Forall2 (fun n d => read_number 10 d = Some n) p (split_on 59 body) end.
Definition span_shown (opening closing : list N) (t : str) : Prop :=
  exists x y, t = txt "Span[" ++ x ++ txt ", " ++ y ++ txt "]" /\ seq_shown opening x /\ seq_shown closing y.
Definition code_shown (o : option Z) (t : str) : Prop := match o with None => t = txt "None" | Some n => read_int t = Some n end.
Definition hex_shown (n : Z) (d : str) : Prop :=
  (6 <= List.length d)%nat /\
  if (n <? 0)%Z then exists u, d = 45 :: u /\ read_number 16 u = Some (Z.to_N (- n)) else read_number 16 d = Some (Z.to_N n).
Definition value_shown (o : option Z) (prefix none t : str) : Prop :=
  match o with None => t = none | Some n => exists d, t = prefix ++ d /\ hex_shown n d end.
Definition color_shown (c : pcolor) (t : str) : Prop :=
  match c with
  | ColorIndexed16 h fg bg => exists x y v, t = txt "ColorIndexed16[fg=" ++ x ++ txt ", bg=" ++ y ++ txt ", " ++ v ++ txt "]" /\
      code_shown fg x /\ code_shown bg y /\ value_shown h (txt "0x") (txt "~") v
  | ColorIndexed256 h code => exists x v, t = txt "ColorIndexed256[code=" ++ x ++ txt ", " ++ v ++ txt "]" /\ code_shown code x /\ value_shown h (txt "0x") (txt "~") v
  | ColorRGB h => exists v, t = txt "ColorRGB[" ++ v ++ txt "]" /\ value_shown h (txt "0x") (txt "~") v
  end.
(** the colors and the attributes that are on, in alphabetical order *)
Definition attr_name (a : attr) : str :=
  match a with
  | AT_blink => txt "blink" | AT_bold => txt "bold" | AT_crosslined => txt "crosslined" | AT_dim => txt "dim"
  | AT_double_underlined => txt "double_underlined" | AT_inversed => txt "inversed" | AT_italic => txt "italic"
  | AT_overlined => txt "overlined" | AT_underlined => txt "underlined"
  end.
Definition attrs9 : list attr := [AT_blink; AT_bold; AT_crosslined; AT_dim; AT_double_underlined; AT_inversed; AT_italic; AT_overlined; AT_underlined].
Definition style_shown (s : style) (t : str) : Prop :=
  exists fg bg, t = txt "Style[" ++ join (txt ", ") (fg :: bg :: map attr_name (filter (turned_on s) attrs9)) ++ txt "]" /\
    value_shown (hex_value (st_fg s)) (txt "fg=") (txt "no fg") fg /\ value_shown (hex_value (st_bg s)) (txt "bg=") (txt "no bg") bg.
