(** [__repr__] in pytermor: what the objects look like in messages and in the interactive shell *)
From Coq Require Import Ascii String.
From Coq Require Import List NArith ZArith Bool.
From Verif.Model Require Import Base Ansi Color Render.
Import ListNotations.
Local Open Scope N_scope.

(** [repr(n)] and [str(n)] of an int *)
Definition repr_int (n : Z) : str := (if (n <? 0)%Z then [45] else []) ++ dec (Z.to_N (Z.abs n)).
(** [repr(None)], [str(None)] or that of an int *)
Definition repr_opt (o : option Z) : str := match o with None => txt "None" | Some n => repr_int n end.

(** ansi.py:72-76 with L244-246 [_short_class_name] *)
Definition repr_seq (p : sgr) : str :=
  let params := match p with [] => txt "~" | _ => join [59] (map dec p) end in
  txt "SGR" ++ txt "[" ++ params ++ txt "]".
(** ansi.py:369-370 *)
Definition repr_span (s : sgr * sgr) : str := txt "Span" ++ txt "[" ++ repr_seq (fst s) ++ txt ", " ++ repr_seq (snd s) ++ txt "]".

(** color.py:161-165, L193-196, L211-212; the defaults of [format_value] are at L107 *)
Definition repr_color (c : pcolor) : str :=
  let value := format_value c (txt "0x") (txt "~") in
  match c with
  | ColorIndexed16 _ fg bg => txt "ColorIndexed16" ++ txt "[" ++ txt "fg=" ++ repr_opt fg ++ txt ", " ++ txt "bg=" ++ repr_opt bg ++ txt ", " ++ value ++ txt "]"
  | ColorIndexed256 _ code => txt "ColorIndexed256" ++ txt "[" ++ txt "code=" ++ repr_opt code ++ txt ", " ++ value ++ txt "]"
  | ColorRGB _ => txt "ColorRGB" ++ txt "[" ++ value ++ txt "]"
  end.

(** render.py:315-326; [dir] lists the attributes in alphabetical order; those that can be True
    are the nine of L233-242; [_fg] and [_bg] are never None once [__init__] is through *)
Definition repr_style (s : style) : str :=
  let flag (o : option bool) (name : str) := match o with Some true => [name] | _ => [] end in
  let props := [format_value (st_fg s) (txt "fg=") (txt "no fg"); format_value (st_bg s) (txt "bg=") (txt "no bg")] ++
    flag (st_blink s) (txt "blink") ++ flag (st_bold s) (txt "bold") ++ flag (st_crosslined s) (txt "crosslined") ++ flag (st_dim s) (txt "dim") ++
    flag (st_double_underlined s) (txt "double_underlined") ++ flag (st_inversed s) (txt "inversed") ++ flag (st_italic s) (txt "italic") ++
    flag (st_overlined s) (txt "overlined") ++ flag (st_underlined s) (txt "underlined") in
  txt "Style" ++ txt "[" ++ join (txt ", ") props ++ txt "]".
