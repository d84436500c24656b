(** Specification side: the whole screen for an input, as lines (text mode) or rows (binary
    mode) of characters with attributes. *)
From Coq Require Import List NArith ZArith Bool.
From Verif.Model Require Import Base Settings.
From Verif.Spec Require Import Numbers Terminal Lexical SgrParams Display.
Import ListNotations.
Local Open Scope N_scope.

(** a piece of the input: kind, bytes, codes of an SGR *)
Definition token := (kind * list N * list N)%type.
Definition tok_kind (t : token) : kind := fst (fst t).
Definition tok_bytes (t : token) : list N := snd (fst t).
Definition tok_codes (t : token) : list N := snd t.

(** The pieces of an input that is processed chunk by chunk.  Pieces never extend over the
    boundary of two chunks. *)
Definition Coded (t : kind * list N) (x : token) : Prop := t = fst x /\ TokCodes (tok_kind x) (tok_codes x).
Definition Tokens (chunks : list (list N)) (toks : list token) : Prop :=
  exists tss, Forall2 Lexes chunks tss /\ Forall2 Coded (concat tss) toks.

(** * Text mode *)
Definition is_line_break (t : token) : bool := match tok_kind t with K_newline => true | _ => false end.
(** the pieces of each line; a line ends with a line break or with the input *)
Fixpoint token_lines (ts : list token) : list (list token) :=
  match ts with
  | [] => []
  | t :: r => if is_line_break t then [t] :: token_lines r
              else match token_lines r with
                   | [] => [[t]]
                   | l :: ls => (t :: l) :: ls
                   end
  end.

Definition tok_cells (s : settings) (t : token) : list tcell * list tcell :=
  text_cells s (tok_kind t) (tok_bytes t) (tok_codes t).
(** what is shown of the pieces of a line: everything except the decoration following the
    last one *)
Fixpoint pieces_cells (s : settings) (l : list token) : list tcell :=
  match l with
  | [] => []
  | [t] => fst (tok_cells s t)
  | t :: r => fst (tok_cells s t) ++ snd (tok_cells s t) ++ pieces_cells s r
  end.
Definition terminated (l : list token) : bool := existsb is_line_break l.
Definition line_cells (s : settings) (l : list token) : list tcell :=
  pieces_cells s l ++ (if terminated l then [] else [(10, attrs0)]).

Definition green : attrs := set_fg (ColIdx 2) attrs0.
Definition cyan : attrs := set_fg (ColIdx 6) attrs0.
Definition debugging (s : settings) : bool := negb (Nat.eqb (s_debug s) 0).
Definition bar (s : settings) : tcell := (0x2502, set_fg (ColIdx (if debugging s then 8 else 6)) attrs0).
(** right-aligned in [w] columns *)
Definition aligned (w : nat) (l : list N) : list N := repeat 32 (w - length l) ++ l.

Definition line_number_cells (s : settings) (n : N) : list tcell :=
  if debugging s then styled green (aligned 8 (firstn 8 (dec n))) ++ [bar s]
  else if s_no_line_numbers s then []
  else styled green (aligned 2 (dec n)) ++ [bar s].

Fixpoint numbered (s : settings) (n : N) (ls : list (list token)) : list (list tcell) :=
  match ls with
  | [] => []
  | l :: r => (line_number_cells s n ++ line_cells s l) :: numbered s (n + 1) r
  end.
(** the lines shown *)
Definition text_rows (s : settings) (toks : list token) : list (list tcell) := numbered s 1 (token_lines toks).
(** the lines shown while more input is expected: those which are complete *)
Definition text_rows_so_far (s : settings) (toks : list token) : list (list tcell) :=
  numbered s 1 (filter terminated (token_lines toks)).

(** * Binary mode *)
Definition byte_cells (s : settings) (toks : list token) : list bcell :=
  flat_map (fun t => binary_cells s (tok_kind t) (tok_bytes t) (tok_codes t)) toks.

(** an offset: 8 columns, right-aligned; hexadecimal ones have an even number of digits, at
    least 4, and a dim prefix *)
Definition hex_width (off : N) : nat := Nat.max 4 ((length (dec off) + 1) / 2 * 2).
Definition offset_cells (s : settings) (a : attrs) (off : N) : list tcell :=
  if s_decimal_offsets s then styled a (aligned 8 (firstn 8 (dec off)))
  else let l := firstn 6 (fmt_hex_lo (hex_width off) off) in
       styled a (repeat 32 (6 - length l)) ++ styled (set_dim true a) [48; 120] ++ styled a l.

Definition with_offsets (s : settings) : bool := debugging s || negb (s_no_offsets s).

Definition hex_cells (x : bcell) : list tcell := let '(b, _, a) := x in styled a (32 :: fmt_hex_lo 2 b).
Definition char_cell (x : bcell) : tcell := let '(_, c, a) := x in (c, a).

(** a row of at most [cols] bytes *)
Definition row_cells (s : settings) (cols : nat) (off : N) (row : list bcell) : list tcell :=
  (if with_offsets s then offset_cells s green off ++ [bar s] else [])
  ++ flat_map hex_cells row
  ++ styled attrs0 (repeat 32 (3 * (cols - length row)))
  ++ [(32, attrs0); if with_offsets s then bar s else (32, attrs0)]
  ++ map char_cell row
  ++ [(10, attrs0)].

(** consecutive groups of [cols] elements *)
Fixpoint grouped {A} (fuel cols : nat) (l : list A) : list (list A) :=
  match fuel with
  | O => []
  | S f => match l with [] => [] | _ => firstn cols l :: grouped f cols (skipn cols l) end
  end.
Definition groups {A} (cols : nat) (l : list A) : list (list A) := grouped (length l) cols l.

Fixpoint rows_cells (s : settings) (cols : nat) (off : N) (rows : list (list bcell)) : list (list tcell) :=
  match rows with
  | [] => []
  | r :: rest => row_cells s cols off r :: rows_cells s cols (off + N.of_nat (length r)) rest
  end.
Definition total_cells (s : settings) (n : N) : list (list tcell) :=
  if with_offsets s then [offset_cells s cyan n ++ [bar s] ++ [(10, attrs0)]] else [].

(** the rows shown *)
Definition binary_rows (s : settings) (cols : nat) (l : list bcell) : list (list tcell) :=
  rows_cells s cols 0 (groups cols l) ++ total_cells s (N.of_nat (length l)).
(** the rows shown while more input is expected: those which are complete *)
Definition binary_rows_so_far (s : settings) (cols : nat) (l : list bcell) : list (list tcell) :=
  rows_cells s cols 0 (groups cols (firstn (length l / cols * cols) l)).

(** number of bytes per row: given, or a multiple of 4 computed from the terminal width; the
    latter assumes that every group of 4 bytes takes 17 columns, and 31 (22 with decimal
    offsets) columns are reserved *)
Definition columns (s : settings) (width : Z) : Z :=
  match s_columns s with
  | Some c => c
  | None => ((width - (if s_decimal_offsets s then 22 else 31)) / 17 * 4)%Z
  end.
(** binary mode with [c] bytes per row on a terminal [tc] columns wide *)
Definition binary_ok (s : settings) (tc : Z) (c : nat) : Prop := binary_mode s = true /\ columns s tc = Z.of_nat c /\ (0 < c)%nat.

(** * Output as seen on a terminal *)
(** a terminal with default attributes shows [cells] and has default attributes afterwards *)
Definition shows (out : list N) (cells : list tcell) : Prop :=
  screen out = map to_cell cells /\ final_attrs out = attrs0.
(** the same for the rows of the whole output; moreover every row on its own leaves the
    attributes at their default *)
Definition displays (out : list N) (rows : list (list tcell)) : Prop :=
  shows out (concat rows) /\ exists parts, out = concat parts /\ Forall2 shows parts rows.
