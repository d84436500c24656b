(** kolombos/console.py:116-155, kolombos/common.py:9, kolombos/runner/demo.py:27: messages of
    the program about itself *)
From Coq Require Import Ascii String.
From Coq Require Import List NArith ZArith Bool.
From Verif.Model Require Import Base Ansi Settings Runner Render.
Import ListNotations.
Local Open Scope N_scope.

Inductive stream := Stdout | Stderr.
(** what is printed, in order *)
Definition prints := list (stream * str).
Definition on_stream (x : stream) (l : prints) : str :=
  flat_map (fun w => match fst w, x with Stdout, Stdout | Stderr, Stderr => snd w | _, _ => [] end) l.

(** console.py:103-105: [Span(Seqs.YELLOW)], [Spans.RED], [Span(Seqs.HI_RED)] *)
Definition FMT_WARNING := span_wrap [c_YELLOW].
Definition FMT_ERROR_TRACE := span_wrap [c_RED].
Definition FMT_ERROR := span_wrap [c_HI_RED].
Definition BOLD := span_wrap [c_BOLD].

(** L145-155; the line feed is [end] *)
Definition console_info (s : str) : prints := [(Stdout, s ++ [10])].
Definition console_warn (s : str) : prints := [(Stderr, FMT_WARNING (BOLD (txt "WARN: ") ++ s) ++ [10])].
Definition console_error (s : str) : prints := [(Stderr, FMT_ERROR (BOLD (txt "ERROR: ") ++ s) ++ [10])].

(** kolombos/common.py:9 *)
Definition USAGE_MSG : str := txt "Run the app with '" ++ BOLD (txt "--help") ++ txt "' argument to see the usage".

(** an exception as far as reporting it is concerned: name of its class, whether it is an
    ArgumentError, str(e), and the strings returned by [traceback.format_exception] *)
Record raised := mkRaised { x_class : str; x_argument : bool; x_message : str; x_trace : list str }.

(** [rstrip('\n')] *)
Fixpoint strip_lf_front (s : str) : str := match s with c :: t => if c =? 10 then strip_lf_front t else s | [] => [] end.
Definition rstrip_lf (s : str) : str := rev (strip_lf_front (rev s)).

(** console.py:121-139 [on_exception], after flushing the buffers (all of them are flushed on every write);
    [None]: IndexError of [tb_lines.pop(-1)] (the list is never empty in Python) *)
Definition on_exception (debug : nat) (e : raised) : option prints :=
  if x_argument e then
    Some (console_error (x_class e ++ txt ": " ++ x_message e) ++ console_info USAGE_MSG)
  else if (0 <? debug)%nat then
    match rev (map rstrip_lf (x_trace e)) with
    | [] => None
    | error :: lines => Some ([(Stdout, FMT_ERROR_TRACE (join [10] (rev lines)) ++ [10])] ++ console_error error)
    end
  else
    Some (console_error (x_class e ++ txt ": " ++ x_message e) ++ console_info debug_hint).

(** demo.py:27 *)
Definition demo_epilogue : str :=
  [10] ++ txt "Run the app with '" ++ BOLD (txt "--legend") ++ txt "' option to learn how to read the output" ++ [10].
