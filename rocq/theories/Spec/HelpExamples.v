(** Specification side: the examples at the end of the help page and what is said about them
    (kolombos/arghelp.py:124-140) *)
From Coq Require Import Ascii String.
From Coq Require Import List NArith ZArith Bool.
From Verif.Model Require Import Base Settings Render.
From Verif.Spec Require Import Terminal Lexical Display Output Compare HelpShown.
Import ListNotations.
Local Open Scope N_scope.

(** description and arguments *)
Definition first_command : list (list N) := [txt "--focus-esc"; txt "-m2"; txt "file.txt"].
Definition second_command : list (list N) := [txt "--binary"; txt "-USP"; txt "file.bin"].
Definition third_command : list (list N) := [txt "--binary"; txt "--focus-control"; txt "-B128"].
Definition fourth_command : list (list N) := [txt "-w32"; txt "--decimal-offsets"; txt "--demo"].
Definition fifth_command : list (list N) := [txt "--legend"].
Definition example_list : list (list N * list (list N)) := [
  (txt "Read file in text mode, highlight escape sequences, marker verbosity 2 (max)", first_command);
  (txt "Read file in binary mode, ignore whitespace, printables and UTF-8 sequences", second_command);
  (txt "Read stdin in binary mode, highlight control characters, process 128 first bytes and exit", third_command);
  (txt "Show demo in binary mode, 32 bytes per line, with decimal offsets", fourth_command);
  (txt "Display annotation symbol list and color map", fifth_command) ].
(** two lines of the page *)
Definition description_line (text : list N) : list N := [32; 32] ++ text.
Definition command_text (argv : list (list N)) : list N := repeat 32 6 ++ txt "kolombos" ++ flat_map (fun a => 32 :: a) argv.
Definition Told (ls : list (list N)) (x : list N * list (list N)) : Prop :=
  exists before after, ls = before ++ description_line (fst x) :: command_text (snd x) :: after.

(** * What is shown, piece by piece *)
Definition plain : settings := default_settings.
Definition as_binary (c : option Z) (decode : option bool) (decimal : bool) : settings :=
  mkSettings true false RM_text None c decimal 0 decode None (fun _ => false) (fun _ => false) false 0%Z None None false false false false false false.

(** ** text mode with all details: an escape sequence is a highlighted sign, followed by all of its
    bytes but the first, between two bars *)
Definition escape_with_bytes (t : token) : list tcell * list tcell :=
  let k := tok_kind t in
  let details := match k with K_csi p _ f => match csi_sort p f with C_sgr => detailed attrs0 | _ => detailed (base_style k) end | _ => detailed (base_style k) end in
  ([(0x28B8, separator_style); (marker plain k, set_inverse true (base_style k))] ++ styled details (tl (tok_bytes t)), [(0x2847, separator_style)]).
(** a control character is a sign followed by its hexadecimal value *)
Definition control_with_value (b : N) : list tcell := styled (detailed (base_style (K_run R_control))) (fmt_hex_lo 2 b).
Definition in_text (t : token) : list tcell * list tcell :=
  if is_escape_seq (tok_kind t) then escape_with_bytes t
  else match tok_kind t with
       | K_run R_control =>
           let sign := (marker plain (K_run R_control), base_style (K_run R_control)) in
           (flat_map (fun b => sign :: control_with_value b) (removelast (tok_bytes t)) ++ [sign], control_with_value (last (tok_bytes t) 0))
       | _ => tok_cells plain t
       end.

(** ** binary mode *)
Definition plain_bytes (decode : option bool) (t : token) : list bcell := binary_cells (as_binary None decode false) (tok_kind t) (tok_bytes t) (tok_codes t).
(** whitespace, printable characters and UTF-8 sequences are crosses *)
Definition without_texts (t : token) : list bcell :=
  match class_of (tok_kind t) with CC_space | CC_printable | CC_utf8 => ignored_bytes t | _ => plain_bytes None t end.
(** control characters have inverse colors *)
Definition inverse_controls (t : token) : list bcell :=
  match class_of (tok_kind t) with
  | CC_control => map (fun b => (b, marker (as_binary None None false) (tok_kind t), set_inverse true (base_style (tok_kind t)))) (tok_bytes t)
  | _ => plain_bytes None t
  end.
(** bytes per line if nothing is said about them: as many as fit into the width *)
Definition fitting_columns (width : Z) : nat := Z.to_nat ((width - 31) / 17 * 4).
