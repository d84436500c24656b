(** Specification side: options which belong to the other mode.  The help page and the README
    divide the options into generic ones, "text mode options" and "binary mode options"
    (README.md lines 72-94, kolombos/arghelp.py). *)
From Coq Require Import List NArith ZArith Bool.
From Verif.Model Require Import Base Settings Options.
Import ListNotations.

Definition text_option (o : opt) : bool :=
  match o with O_marker _ | O_no_separators | O_no_line_numbers => true | _ => false end.
Definition binary_option (o : opt) : bool :=
  match o with O_columns _ | O_decode | O_decimal_offsets | O_no_offsets => true | _ => false end.
Definition without (f : opt -> bool) (l : list opt) : list opt := filter (fun o => negb (f o)) l.

(** which mode a command line selects: given, otherwise binary for the demo (unless the debug
    level is at least 4, see C39), otherwise text *)
Definition wants_binary (o : opt) : bool := match o with O_binary => true | _ => false end.
Definition wants_text (o : opt) : bool := match o with O_text => true | _ => false end.
Definition wants_demo (o : opt) : bool := match o with O_demo => true | _ => false end.
Definition wants_debug (o : opt) : bool := match o with O_debug => true | _ => false end.
Definition selects_binary (l : list opt) : bool :=
  existsb wants_binary l
  || (negb (existsb wants_text l) && existsb wants_demo l && (length (filter wants_debug l) <? 4)%nat).

(** the width of the terminal counts for the number of columns only, if that is not given *)
Definition gives_columns (o : opt) : bool := match o with O_columns _ => true | _ => false end.
Definition width_matters (l : list opt) : bool :=
  selects_binary l && negb (existsb gives_columns l) && negb (existsb wants_demo l).
