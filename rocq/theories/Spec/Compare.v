(** Specification side: comparing what is shown with different settings. *)
From Coq Require Import List NArith ZArith Bool.
From Verif.Model Require Import Base Settings.
From Verif.Spec Require Import Numbers Terminal Utf8 Lexical SgrParams Display Output.
Import ListNotations.
Local Open Scope N_scope.

(** the same settings with other classes ignored / focused *)
Definition with_ignore (s : settings) (f : char_class -> bool) : settings :=
  mkSettings (s_binary s) (s_text s) (s_default_read_mode s) (s_buffer s) (s_columns s) (s_decimal_offsets s)
    (s_debug s) (s_decode s) (s_filename s) (s_focus s) f (s_legend s) (s_marker s) (s_max_bytes s) (s_max_lines s)
    (s_color_markers s) (s_no_line_numbers s) (s_no_separators s) (s_no_offsets s) (s_version s) (s_demo s).
Definition with_focus (s : settings) (f : char_class -> bool) : settings :=
  mkSettings (s_binary s) (s_text s) (s_default_read_mode s) (s_buffer s) (s_columns s) (s_decimal_offsets s)
    (s_debug s) (s_decode s) (s_filename s) f (s_ignore s) (s_legend s) (s_marker s) (s_max_bytes s) (s_max_lines s)
    (s_color_markers s) (s_no_line_numbers s) (s_no_separators s) (s_no_offsets s) (s_version s) (s_demo s).

(** lines of text mode, given the line numbers and what is shown for a piece (and what follows it
    unless it is the last one of its line) *)
Fixpoint pieces_with (cell : token -> list tcell * list tcell) (l : list token) : list tcell :=
  match l with
  | [] => []
  | [t] => fst (cell t)
  | t :: r => fst (cell t) ++ snd (cell t) ++ pieces_with cell r
  end.
Fixpoint lines_with (number : N -> list tcell) (cell : token -> list tcell * list tcell) (n : N) (ls : list (list token)) : list (list tcell) :=
  match ls with
  | [] => []
  | l :: r => (number n ++ pieces_with cell l ++ (if terminated l then [] else [(10, attrs0)])) :: lines_with number cell (n + 1) r
  end.

(** an ignored piece: the sign for every byte; a line break remains one *)
Definition ignored_piece (t : token) : list tcell :=
  flat_map (fun _ => (ignored_sign, ignored_style) :: if is_line_break t then [(10, ignored_style)] else []) (tok_bytes t).
Definition ignored_bytes (t : token) : list bcell := map (fun b => (b, ignored_sign, ignored_style)) (tok_bytes t).
(** a piece when the classes [f] are ignored *)
Definition hidden (s : settings) (f : char_class -> bool) (t : token) : list tcell * list tcell :=
  if f (class_of (tok_kind t)) then (ignored_piece t, []) else tok_cells (with_ignore s (fun _ => false)) t.
Definition hidden_bytes (s : settings) (f : char_class -> bool) (t : token) : list bcell :=
  if f (class_of (tok_kind t)) then ignored_bytes t else binary_cells (with_ignore s (fun _ => false)) (tok_kind t) (tok_bytes t) (tok_codes t).

(** the same character, or the two markers of a space *)
Definition same_char (a b : N) : Prop := a = b \/ (a = 0x2423 /\ b = 0xB7) \/ (a = 0xB7 /\ b = 0x2423).

Definition similar (x y : tcell) : Prop := same_char (fst x) (fst y).
(** a piece when the classes [f] are focused: highlighted if it belongs to one of them and is not
    ignored *)
Definition highlighted (s : settings) (f : char_class -> bool) (t : token) : list tcell * list tcell :=
  if f (class_of (tok_kind t)) && negb (s_ignore s (class_of (tok_kind t)))
  then tok_cells (with_focus s (fun _ => true)) t else tok_cells (with_focus s (fun _ => false)) t.
Definition highlighted_bytes (s : settings) (f : char_class -> bool) (t : token) : list bcell :=
  let cells s := binary_cells s (tok_kind t) (tok_bytes t) (tok_codes t) in
  if f (class_of (tok_kind t)) && negb (s_ignore s (class_of (tok_kind t)))
  then cells (with_focus s (fun _ => true)) else cells (with_focus s (fun _ => false)).

(** characters that are visible and not blank *)
Definition visible_char (c : N) : Prop := scalar c /\ 33 <= c /\ c <> 127 /\ ~ (128 <= c /\ c <= 159).

(** [part] occurs in [l] *)
Definition occurs (part l : list N) : Prop := exists a b, l = a ++ part ++ b.

(** the lines with everything that belongs to their pieces *)
Definition whole_cells (s : settings) (t : token) : list tcell := fst (tok_cells s t) ++ snd (tok_cells s t).
Fixpoint complete_lines (s : settings) (n : N) (ls : list (list token)) : list (list tcell) :=
  match ls with
  | [] => []
  | l :: r => (line_number_cells s n ++ flat_map (whole_cells s) l ++ (if terminated l then [] else [(10, attrs0)])) :: complete_lines s (n + 1) r
  end.
(** decoration that follows the last piece *)
Definition trailing (s : settings) (toks : list token) : list tcell := match rev toks with t :: _ => snd (tok_cells s t) | [] => [] end.

(** plain bytes: each of them has a meaning on its own *)
Definition plain_byte (b : N) : Prop := b < 128 /\ b <> 27.
