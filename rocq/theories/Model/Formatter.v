(** kolombos/byteio/formatter/ *)
From Coq Require Import List NArith ZArith Bool.
From Verif.Model Require Import Base Ansi Strip Settings Segment Console.
Import ListNotations.
Local Open Scope N_scope.

(** _abstract.py:27-28 *)
Definition seg_raw_to_hex (s : segment) : str := flat_map (fun b => 32 :: fmt_hex_lo 2 b) (seg_raw s).
(** _abstract.py:41-42 *)
Definition seg_processed_noop (s : segment) : str := seg_proc s.

(** Outcome of a loop that may not terminate: [NoFuel] means the given number of rounds did
    not suffice; what was written so far is kept. *)
Inductive outcome (A : Type) :=
| Fin (a : A)
| Fail (e : exn) (written : str)
| NoFuel (written : str).
Arguments Fin {A} a.
Arguments Fail {A} e written.
Arguments NoFuel {A} written.

(** binary.py:92-111 [_compute_cols_num]; BYTE_CHUNK_LEN = 4, len(PADDING_HEX_CHUNK) = 2 *)
Definition compute_cols_num (term_columns : Z) (offset_len : Z) : Z :=
  let width := get_terminal_width term_columns in
  let available_total := (width - offset_len - 1)%Z in
  let chunk_len := (3 * 4 + (4 - 1) + 2)%Z in
  let chunk_fit := (available_total / chunk_len)%Z in
  (chunk_fit * 4)%Z.

(** binary.py:35-38: NOOP_SPAN has an empty opening sequence *)
Definition current_cols (s : settings) (term_columns : Z) (offset : N) : Z :=
  match s_columns s with
  | Some c => c
  | None => compute_cols_num term_columns (zlen (format_prefix_with_offset s offset []))
  end.

(** binary.py:89-90 [_justify_raw]: string repetition by a negative number is '' *)
Definition justify_raw (n : Z) : str := flat_map (fun _ => [32; 32; 32]) (seq 0 (Z.to_nat n)).

(** binary.py:64-80: text of one row *)
Definition binary_row (s : settings) (cols : Z) (data_len : Z) (els : list elem) (offset : N) : str :=
  let separator := if effective_print_offsets s then get_separator s else [32] in
  write_with_offset s
    (format_elems seg_raw_to_hex els ++ justify_raw (cols - data_len) ++ [32] ++ separator
     ++ format_elems seg_processed_noop els)
    offset.

(** binary.py:44-82: the loop; state: buffer, offset; result: written text *)
Fixpoint binary_loop (fuel : nat) (s : settings) (cols req : Z) (closed : bool)
         (sb : sbuf) (offset : N) (written : str) : outcome (str * sbuf * N) :=
  match fuel with
  | O => NoFuel written
  | S f =>
      match detach_bytes sb req closed with
      | (Ok els, sb') =>
          let dl := sb_last sb' in
          binary_loop f s cols req closed sb' (offset + Z.to_N dl)
                      (written ++ binary_row s cols dl els offset)
      | (Err WaitRequest, sb') => Fin (written, sb', offset)
      | (Err EOFError, sb') => Fin (written, sb', offset)
      | (Err e, _) => Fail e written
      end
  end.

(** binary.py:34-87 [BinaryFormatter.format] *)
Definition binary_format (fuel : nat) (s : settings) (term_columns : Z) (closed : bool)
           (sb : sbuf) (offset : N) : outcome (str * sbuf * N) :=
  let cols := current_cols s term_columns offset in
  let req := if closed then Z.min (chain_len (sb_chain sb)) cols else cols in
  match binary_loop fuel s cols req closed sb offset [] with
  | Fin (w, sb', off') =>
      if (closed && effective_print_offsets s)%bool
      then Fin (w ++ write (format_total_size s off'), sb', off')
      else Fin (w, sb', off')
  | o => o
  end.

(** [s.endswith('\n')] *)
Definition ends_with_newline (s : str) : bool :=
  match rev s with 10 :: _ => true | _ => false end.

(** text.py:45-48: text of one line *)
Definition text_line (s : settings) (els : list elem) (line_num : N) : str :=
  let final := format_elems seg_processed_noop els in
  write_with_line_num s final line_num
  ++ (if ends_with_newline (strip_sgr final) then [] else [] ++ [10]).

(** text.py:24-54 [TextFormatter.format]; the byte offset it maintains is only used in debug traces *)
Fixpoint text_loop (fuel : nat) (s : settings) (closed : bool)
         (sb : sbuf) (line_num : N) (written : str) : outcome (str * sbuf * N) :=
  match fuel with
  | O => NoFuel written
  | S f =>
      match detach_line sb closed with
      | (Ok els, sb') =>
          text_loop f s closed sb' (line_num + 1) (written ++ text_line s els line_num)
      | (Err WaitRequest, sb') => Fin (written, sb', line_num)
      | (Err EOFError, sb') => Fin (written, sb', line_num)
      | (Err e, _) => Fail e written
      end
  end.
Definition text_format (fuel : nat) (s : settings) (closed : bool) (sb : sbuf) (line_num : N)
  : outcome (str * sbuf * N) := text_loop fuel s closed sb line_num [].
