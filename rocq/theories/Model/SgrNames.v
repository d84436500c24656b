(** pytermor/ansi.py: names of SGR codes, the constructors that take them, and the registries [Seqs]
    and [Spans]; pytermor/common.py:15-31 [Registry.resolve]. *)
From Coq Require Import Ascii String.
From Coq Require Import List NArith ZArith Bool.
From Verif.Model Require Import Base Ansi Render.
Import ListNotations.
Local Open Scope N_scope.

(** ansi.py:404-502 [IntCodes]: the attributes of the class with a name in capital letters; those
    inherited from [Registry] and [object] have small letters in their names and are never found
    by a name in capital letters *)
Inductive code_value := V_int (n : N) | V_list (l : list N).
Definition int_codes : list (string * code_value) := [
  ("RESET", V_int 0); ("BOLD", V_int 1); ("DIM", V_int 2); ("ITALIC", V_int 3); ("UNDERLINED", V_int 4);
  ("BLINK_SLOW", V_int 5); ("BLINK_FAST", V_int 6); ("INVERSED", V_int 7); ("HIDDEN", V_int 8);
  ("CROSSLINED", V_int 9); ("DOUBLE_UNDERLINED", V_int 21); ("OVERLINED", V_int 53); ("BOLD_DIM_OFF", V_int 22);
  ("ITALIC_OFF", V_int 23); ("UNDERLINED_OFF", V_int 24); ("BLINK_OFF", V_int 25); ("INVERSED_OFF", V_int 27);
  ("HIDDEN_OFF", V_int 28); ("CROSSLINED_OFF", V_int 29); ("COLOR_OFF", V_int 39); ("BG_COLOR_OFF", V_int 49);
  ("OVERLINED_OFF", V_int 55); ("BLACK", V_int 30); ("RED", V_int 31); ("GREEN", V_int 32); ("YELLOW", V_int 33);
  ("BLUE", V_int 34); ("MAGENTA", V_int 35); ("CYAN", V_int 36); ("WHITE", V_int 37); ("COLOR_EXTENDED", V_int 38);
  ("BG_BLACK", V_int 40); ("BG_RED", V_int 41); ("BG_GREEN", V_int 42); ("BG_YELLOW", V_int 43);
  ("BG_BLUE", V_int 44); ("BG_MAGENTA", V_int 45); ("BG_CYAN", V_int 46); ("BG_WHITE", V_int 47);
  ("BG_COLOR_EXTENDED", V_int 48); ("GRAY", V_int 90); ("HI_RED", V_int 91); ("HI_GREEN", V_int 92);
  ("HI_YELLOW", V_int 93); ("HI_BLUE", V_int 94); ("HI_MAGENTA", V_int 95); ("HI_CYAN", V_int 96);
  ("HI_WHITE", V_int 97); ("BG_GRAY", V_int 100); ("BG_HI_RED", V_int 101); ("BG_HI_GREEN", V_int 102);
  ("BG_HI_YELLOW", V_int 103); ("BG_HI_BLUE", V_int 104); ("BG_HI_MAGENTA", V_int 105); ("BG_HI_CYAN", V_int 106);
  ("BG_HI_WHITE", V_int 107); ("LIST_COLORS", V_list LIST_COLORS); ("LIST_BG_COLORS", V_list LIST_BG_COLORS);
  ("LIST_HI_COLORS", V_list LIST_HI_COLORS); ("LIST_BG_HI_COLORS", V_list LIST_BG_HI_COLORS);
  ("LIST_ALL_COLORS", V_list LIST_ALL_COLORS); ("EXTENDED_MODE_256", V_int 5); ("EXTENDED_MODE_RGB", V_int 2) ]%string.

(** [getattr(cls, name, None)] *)
Fixpoint named {A} (name : str) (l : list (string * A)) : option A :=
  match l with
  | [] => None
  | (n, v) :: t => if eqb_list name (txt n) then Some v else named name t
  end.
(** pytermor/common.py:19-31.  [up]: the capital form of a character ([str.upper] looks at one character at
    a time; there are characters that turn into several ones) *)
Definition resolve {A} (up : N -> str) (l : list (string * A)) (name : str) : result A :=
  match named (flat_map up name) l with Some v => Ok v | None => Err KeyError end.

(** ansi.py:116-151 [SequenceSGR.__init__]; [SA_other]: an object that is neither a string, nor an
    int, nor a sequence.  L42: [max(0, int(p))]. *)
Inductive sgr_arg := SA_name (s : str) | SA_int (n : Z) | SA_seq (p : sgr) | SA_other.
Definition arg_params (up : N -> str) (a : sgr_arg) : result sgr :=
  match a with
  | SA_name s => bind (resolve up int_codes s) (fun v => match v with V_int n => Ok [n] | V_list _ => Err ValueError end)
  | SA_int n => Ok [Z.to_N n]
  | SA_seq p => Ok p
  | SA_other => Err TypeError
  end.
Fixpoint sequence_sgr (up : N -> str) (l : list sgr_arg) : result sgr :=
  match l with
  | [] => Ok []
  | a :: r => bind (arg_params up a) (fun p => bind (sequence_sgr up r) (fun q => Ok (p ++ q)))
  end.

(** ansi.py:251-286 [Span.__init__]: opening and closing sequence *)
Definition span_of (up : N -> str) (l : list sgr_arg) : result (sgr * sgr) :=
  bind (sequence_sgr up l) (fun o => Ok (o, match l with [] => [] | _ => closing_seq o end)).
(** ansi.py:311-327 [wrap] *)
Definition wrap_with (x : sgr * sgr) (text : str) : str := assemble (fst x) ++ text ++ assemble (snd x).

(** ansi.py:505-585 [Seqs] *)
Definition seqs : list (string * sgr) := [
  ("RESET", [0]); ("BOLD", [1]); ("DIM", [2]); ("ITALIC", [3]); ("UNDERLINED", [4]); ("BLINK_SLOW", [5]);
  ("BLINK_FAST", [6]); ("BLINK_DEFAULT", [5]); ("INVERSED", [7]); ("HIDDEN", [8]); ("CROSSLINED", [9]);
  ("DOUBLE_UNDERLINED", [21]); ("OVERLINED", [53]); ("BOLD_DIM_OFF", [22]); ("ITALIC_OFF", [23]);
  ("UNDERLINED_OFF", [24]); ("BLINK_OFF", [25]); ("INVERSED_OFF", [27]); ("HIDDEN_OFF", [28]);
  ("CROSSLINED_OFF", [29]); ("OVERLINED_OFF", [55]); ("BLACK", [30]); ("RED", [31]); ("GREEN", [32]);
  ("YELLOW", [33]); ("BLUE", [34]); ("MAGENTA", [35]); ("CYAN", [36]); ("WHITE", [37]); ("COLOR_OFF", [39]);
  ("BG_BLACK", [40]); ("BG_RED", [41]); ("BG_GREEN", [42]); ("BG_YELLOW", [43]); ("BG_BLUE", [44]);
  ("BG_MAGENTA", [45]); ("BG_CYAN", [46]); ("BG_WHITE", [47]); ("BG_COLOR_OFF", [49]); ("GRAY", [90]);
  ("HI_RED", [91]); ("HI_GREEN", [92]); ("HI_YELLOW", [93]); ("HI_BLUE", [94]); ("HI_MAGENTA", [95]);
  ("HI_CYAN", [96]); ("HI_WHITE", [97]); ("BG_GRAY", [100]); ("BG_HI_RED", [101]); ("BG_HI_GREEN", [102]);
  ("BG_HI_YELLOW", [103]); ("BG_HI_BLUE", [104]); ("BG_HI_MAGENTA", [105]); ("BG_HI_CYAN", [106]);
  ("BG_HI_WHITE", [107]) ]%string.
(** ansi.py:677-733 [Spans], by opening sequence *)
Definition span_openings : list (string * sgr) := [
  ("BOLD", [1]); ("DIM", [2]); ("ITALIC", [3]); ("UNDERLINED", [4]); ("BLINK_SLOW", [5]); ("BLINK_FAST", [6]);
  ("INVERSED", [7]); ("HIDDEN", [8]); ("CROSSLINED", [9]); ("DOUBLE_UNDERLINED", [21]); ("OVERLINED", [53]);
  ("BLACK", [30]); ("RED", [31]); ("GREEN", [32]); ("YELLOW", [33]); ("BLUE", [34]); ("MAGENTA", [35]);
  ("CYAN", [36]); ("WHITE", [37]); ("GRAY", [90]); ("HI_RED", [91]); ("HI_GREEN", [92]); ("HI_YELLOW", [93]);
  ("HI_BLUE", [94]); ("HI_MAGENTA", [95]); ("HI_CYAN", [96]); ("HI_WHITE", [97]); ("BG_BLACK", [40]);
  ("BG_RED", [41]); ("BG_GREEN", [42]); ("BG_YELLOW", [43]); ("BG_BLUE", [44]); ("BG_MAGENTA", [45]);
  ("BG_CYAN", [46]); ("BG_WHITE", [47]); ("BG_GRAY", [100]); ("BG_HI_RED", [101]); ("BG_HI_GREEN", [102]);
  ("BG_HI_YELLOW", [103]); ("BG_HI_BLUE", [104]); ("BG_HI_MAGENTA", [105]); ("BG_HI_CYAN", [106]);
  ("BG_HI_WHITE", [107]) ]%string.
Definition spans : list (string * (sgr * sgr)) := map (fun x => (fst x, (snd x, closing_seq (snd x)))) span_openings.
