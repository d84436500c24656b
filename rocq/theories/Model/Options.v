(** kolombos/arghelp.py:146-199: effect of recognised command line options on the settings.
    argparse's tokenisation (abbreviations, bundling, '=') and its value conversion are not
    modelled: an invocation is a list of recognised options with converted values. *)
From Coq Require Import List NArith ZArith Bool.
From Verif.Model Require Import Base Settings.
Import ListNotations.

Inductive opt :=
| O_file (name : str)                 (* L147 *)
| O_demo                              (* L148 *)
| O_text | O_binary | O_legend        (* L153-155 *)
| O_version                           (* L156 *)
| O_focus (c : char_class)            (* L166-171 *)
| O_ignore (c : char_class)           (* L172-177 *)
| O_buffer (n : Z)                    (* L180 *)
| O_max_lines (n : Z)                 (* L181 *)
| O_max_bytes (n : Z)                 (* L182 *)
| O_debug                             (* L183 action='count' *)
| O_color_markers                     (* L184 *)
| O_marker (n : Z)                    (* L187 *)
| O_no_separators                     (* L188 *)
| O_no_line_numbers                   (* L191 *)
| O_columns (n : Z)                   (* L194 *)
| O_decode                            (* L195 *)
| O_decimal_offsets                   (* L197 *)
| O_no_offsets.                       (* L198 *)

Definition char_class_eqb (a b : char_class) : bool :=
  match a, b with
  | CC_control, CC_control | CC_esc, CC_esc | CC_space, CC_space
  | CC_utf8, CC_utf8 | CC_binary, CC_binary | CC_printable, CC_printable => true
  | _, _ => false
  end.
Definition upd (f : char_class -> bool) (c : char_class) : char_class -> bool :=
  fun x => if char_class_eqb x c then true else f x.

(** The action of one option: [store_true], [store], [count] *)
Definition apply_opt (s : settings) (o : opt) : settings :=
  match s with
  | mkSettings bi te dm bu co de db dc fi fo ig le ma mb ml cm nl ns no ve dem =>
    match o with
    | O_file n => mkSettings bi te dm bu co de db dc (Some n) fo ig le ma mb ml cm nl ns no ve dem
    | O_demo => mkSettings bi te dm bu co de db dc fi fo ig le ma mb ml cm nl ns no ve true
    | O_text => mkSettings bi true dm bu co de db dc fi fo ig le ma mb ml cm nl ns no ve dem
    | O_binary => mkSettings true te dm bu co de db dc fi fo ig le ma mb ml cm nl ns no ve dem
    | O_legend => mkSettings bi te dm bu co de db dc fi fo ig true ma mb ml cm nl ns no ve dem
    | O_version => mkSettings bi te dm bu co de db dc fi fo ig le ma mb ml cm nl ns no true dem
    | O_focus c => mkSettings bi te dm bu co de db dc fi (upd fo c) ig le ma mb ml cm nl ns no ve dem
    | O_ignore c => mkSettings bi te dm bu co de db dc fi fo (upd ig c) le ma mb ml cm nl ns no ve dem
    | O_buffer n => mkSettings bi te dm (Some n) co de db dc fi fo ig le ma mb ml cm nl ns no ve dem
    | O_max_lines n => mkSettings bi te dm bu co de db dc fi fo ig le ma mb (Some n) cm nl ns no ve dem
    | O_max_bytes n => mkSettings bi te dm bu co de db dc fi fo ig le ma (Some n) ml cm nl ns no ve dem
    | O_debug => mkSettings bi te dm bu co de (S db) dc fi fo ig le ma mb ml cm nl ns no ve dem
    | O_color_markers => mkSettings bi te dm bu co de db dc fi fo ig le ma mb ml true nl ns no ve dem
    | O_marker n => mkSettings bi te dm bu co de db dc fi fo ig le n mb ml cm nl ns no ve dem
    | O_no_separators => mkSettings bi te dm bu co de db dc fi fo ig le ma mb ml cm nl true no ve dem
    | O_no_line_numbers => mkSettings bi te dm bu co de db dc fi fo ig le ma mb ml cm true ns no ve dem
    | O_columns n => mkSettings bi te dm bu (Some n) de db dc fi fo ig le ma mb ml cm nl ns no ve dem
    | O_decode => mkSettings bi te dm bu co de db (Some true) fi fo ig le ma mb ml cm nl ns no ve dem
    | O_decimal_offsets => mkSettings bi te dm bu co true db dc fi fo ig le ma mb ml cm nl ns no ve dem
    | O_no_offsets => mkSettings bi te dm bu co de db dc fi fo ig le ma mb ml cm nl ns true ve dem
    end
  end.

(** The mutually exclusive groups (L146, L151, L160-165, L196): two different options of one
    group are an error; repeating the same one is not. *)
Definition conflict (a b : opt) : bool :=
  match a, b with
  | O_file _, O_demo | O_demo, O_file _ => true
  | O_text, O_binary | O_binary, O_text | O_text, O_legend | O_legend, O_text
  | O_binary, O_legend | O_legend, O_binary => true
  | O_focus c, O_ignore d | O_ignore c, O_focus d => char_class_eqb c d
  | O_decimal_offsets, O_no_offsets | O_no_offsets, O_decimal_offsets => true
  | _, _ => false
  end.
Definition is_file (o : opt) : bool := match o with O_file _ => true | _ => false end.

(** argparse walks over the options; an option conflicting with one seen before, or a second
    positional argument, ends the program with a usage error (exit code 2), here [None].
    app.py:25-26: the namespace is a [Settings()], whose attributes exist already, so argparse
    does not install the defaults declared by the options. *)
Fixpoint parse_opts (seen : list opt) (s : settings) (l : list opt) : option settings :=
  match l with
  | [] => Some s
  | o :: t =>
      if existsb (conflict o) seen then None
      else if (is_file o && existsb is_file seen)%bool then None
      else parse_opts (o :: seen) (apply_opt s o) t
  end.
Definition parse_args (l : list opt) : option settings := parse_opts [] default_settings l.
