(** kolombos/console.py (regular output), kolombos/common.py *)
From Coq Require Import List NArith ZArith Bool.
From Verif.Model Require Import Base Ansi Settings.
Import ListNotations.
Local Open Scope N_scope.

(** console.py:106-107 *)
Definition MAIN_PREFIX_LEN : nat := 8.
Definition SEPARATOR_CHAR : N := 0x2502.

(** console.py:157-159, 300-302 *)
Definition get_separator (s : settings) : str :=
  if (0 <? s_debug s)%nat then span_wrap [c_GRAY] [SEPARATOR_CHAR]
  else span_wrap [c_CYAN] [SEPARATOR_CHAR].

(** [re.sub('0x', lambda m: Spans.DIM(m.group()), s)] *)
Fixpoint dim_0x (s : str) : str :=
  match s with
  | 48 :: ((120 :: t) as _) => span_wrap [c_DIM] [48; 120] ++ dim_0x t
  | c :: t => c :: dim_0x t
  | [] => []
  end.

(** console.py:253-257 [format_prefix]: [f] is the opening sequence of the span;
    [f'{label!s:>8.8s}'] truncates to 8 characters, then pads on the left *)
Definition format_prefix (s : settings) (label : str) (f : sgr) : str :=
  dim_0x (span_wrap f (rjust 32 MAIN_PREFIX_LEN (firstn MAIN_PREFIX_LEN label)) ++ get_separator s).

(** console.py:261-264; [ceil(len/2)*2] *)
Definition offset_str (s : settings) (offset : N) : str :=
  if s_decimal_offsets s then dec offset
  else
    let n := length (dec offset) in
    [48; 120] ++ fmt_hex_lo (Nat.max 4 ((n + 1) / 2 * 2)) offset.

(** console.py:259-265 *)
Definition format_prefix_with_offset (s : settings) (offset : N) (f : sgr) : str :=
  format_prefix s (offset_str s offset) f.

(** console.py:267-269 *)
Definition format_total_size (s : settings) (offset : N) : str :=
  format_prefix_with_offset s offset [c_CYAN].

(** console.py:33-36 [write]: text sent to stdout (buffer is flushed at every write) *)
Definition write (text : str) : str := text ++ [10].

(** console.py:38-49 [write_with_line_num] with end='' ; [f'{line_num:2d}'] *)
Definition write_with_line_num (s : settings) (text : str) (line_num : N) : str :=
  let prefix :=
    if (0 <? s_debug s)%nat then format_prefix s (dec line_num) [c_GREEN]
    else if s_no_line_numbers s then []
    else span_wrap [c_GREEN] (rjust 32 2 (dec line_num)) ++ get_separator s in
  prefix ++ text.

(** console.py:51-60 [write_with_offset] with end='\n' *)
Definition write_with_offset (s : settings) (text : str) (offset : N) : str :=
  (if effective_print_offsets s then format_prefix_with_offset s offset [c_GREEN] else [])
  ++ text ++ [10].

(** common.py:12-18 [get_terminal_width()]; the argument is what
    [shutil.get_terminal_size().columns] reports *)
Definition get_terminal_width (columns : Z) : Z := (columns - 2)%Z.
