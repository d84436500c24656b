(** Specification side: which characters of the output are underlined.  README.md line 165: "As a
    rule of a thumb, the only underlined bytes in kolombo's output are the bytes that correspond
    to escape sequences' params, introducers or terminators (but not the 1b|ESC character itself,
    though)." *)
From Coq Require Import List NArith ZArith Bool.
From Verif.Model Require Import Base Settings.
From Verif.Spec Require Import Numbers Terminal Lexical Display Output.
Import ListNotations.
Local Open Scope N_scope.

Definition underlined (x : tcell) : bool := negb (a_under (snd x) =? 0).

(** ESC followed by something: an escape sequence *)
Definition sequence (t : token) : bool := match tok_bytes t with 27 :: _ :: _ => true | _ => false end.

(** * Binary mode *)
(** the rule for the bytes of a piece; ignored sequences are not shown *)
Definition rule_bytes (s : settings) (t : token) : list bool :=
  if sequence t && negb (s_ignore s CC_esc)
  then false :: repeat true (length (tok_bytes t) - 1)
  else repeat false (length (tok_bytes t)).
(** a row: offset and bar, three columns per byte, filling, a space and a bar, one column per
    byte, line feed *)
Definition rule_row (s : settings) (cols : nat) (row : list bool) : list bool :=
  repeat false (if with_offsets s then 9 else 0)
  ++ flat_map (fun u => [u; u; u]) row
  ++ repeat false (3 * (cols - length row) + 2)
  ++ row ++ [false].
Definition rule_rows (s : settings) (cols : nat) (toks : list token) : list (list bool) :=
  map (rule_row s cols) (groups cols (flat_map (rule_bytes s) toks))
  ++ (if with_offsets s then [repeat false 10] else []).
(** the rows shown while more input is expected *)
Definition rule_rows_so_far (s : settings) (cols : nat) (toks : list token) : list (list bool) :=
  let l := flat_map (rule_bytes s) toks in
  map (rule_row s cols) (groups cols (firstn (length l / cols * cols) l)).

(** * Text mode *)
(** the details of an escape sequence are underlined (not the dots between the codes of an SGR),
    the marker before them and the separators around are not; the same for the details of a
    control character *)
Fixpoint dotted_rule (names : list (list N)) : list bool :=
  match names with
  | [] => []
  | [n] => repeat true (length n)
  | n :: rest => repeat true (length n) ++ false :: dotted_rule rest
  end.
Definition sequence_details (s : settings) (t : token) : list bool :=
  match marker_level s with
  | L_none => []
  | L_brief => match tok_kind t with
               | K_csi p _ f => match csi_sort p f with C_sgr => dotted_rule (code_names (tok_codes t)) | _ => [] end
               | _ => []
               end
  | L_full => repeat true (length (tok_bytes t) - 1)
  end.
Definition control_details (s : settings) : list bool :=
  match marker_level s with L_none => [] | L_brief => [true] | L_full => [true; true] end.
(** a control character that has no marker of its own *)
Definition generic_control (t : token) : bool := match tok_kind t with K_run R_control => true | _ => false end.

Definition rule_piece (s : settings) (t : token) : list bool * list bool :=
  let sep := if separators s then [false] else [] in
  if sequence t && negb (s_ignore s CC_esc) then (sep ++ [false] ++ sequence_details s t, sep)
  else if generic_control t && negb (s_ignore s CC_control) then
    (concat (repeat (false :: control_details s) (length (tok_bytes t) - 1)) ++ [false], control_details s)
  else (map (fun _ => false) (fst (tok_cells s t)), []).
(** the README's rule: nothing is underlined but in escape sequences *)
Definition readme_piece (s : settings) (t : token) : list bool * list bool :=
  let sep := if separators s then [false] else [] in
  if sequence t && negb (s_ignore s CC_esc) then (sep ++ [false] ++ sequence_details s t, sep)
  else (map (fun _ => false) (fst (tok_cells s t)), []).
(** the details of a control character are not shown *)
Definition no_control_details (s : settings) (t : token) : bool :=
  negb (generic_control t) || s_ignore s CC_control || match marker_level s with L_none => true | _ => false end.

Fixpoint rule_pieces (rule : token -> list bool * list bool) (l : list token) : list bool :=
  match l with
  | [] => []
  | [t] => fst (rule t)
  | t :: r => fst (rule t) ++ snd (rule t) ++ rule_pieces rule r
  end.
(** line numbers and line feeds are not underlined *)
Fixpoint rule_lines (s : settings) (rule : token -> list bool * list bool) (n : N) (ls : list (list token)) : list (list bool) :=
  match ls with
  | [] => []
  | l :: r => (map (fun _ => false) (line_number_cells s n) ++ rule_pieces rule l ++ (if terminated l then [] else [false]))
              :: rule_lines s rule (n + 1) r
  end.

(** the characters on the screen, with underlining *)
Definition shown_under (out : list N) : list (N * bool) :=
  map (fun x => match x with Glyph c a => (c, underlined (c, a)) | Leak c => (c, false) end) (screen out).

(** * Sequences which switch off everything *)
(** README.md lines 153-154: the marker for "a reset SGR sequence (ESC[0m) which completely
    disables all previously set colors and effects".  The effect of the bytes of a piece when a
    terminal gets them as they are: *)
Definition switches_off (w : list N) : Prop := forall a, trun Ground a w = (Ground, attrs0, []).
(** no control sequence with intermediate bytes, such as 'ESC [ SP m' *)
Definition pure (k : kind) : Prop := forall p i f, k = K_csi p i f -> i = [].
