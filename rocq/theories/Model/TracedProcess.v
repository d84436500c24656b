(** The whole program at any debug level: Process.v with the list of settings (SettingsDump.v),
    the traces (Trace.v) and the traceback put in. *)
From Coq Require Import List NArith ZArith Bool.
From Verif.Model Require Import Base Ansi Settings Reader Runner Options Messages Legend Process Trace SettingsDump.
Import ListNotations.
Local Open Scope Z_scope.

(** runner/byteio.py:16-40 in a world; see [byteio_main] *)
Definition tbyteio_main (w : world) (demo : bool) (s : settings) : list tev * reader_end :=
  let '(src, evs) := input_of w demo s in
  if (chunk_size s <? -1) && (match src with SrcMissing => false | _ => true end)
  then let '(_, s1) := get_read_mode s in
       ((if (3 <=? s_debug s1)%nat then [] else [dbg s1 RUNNER 1 (separator_line s1 (w_columns w) CROSS_OPEN)])
        ++ open_trace s1 src, RError ValueError)
  else let '(t, _, en) := tbyteio_run s (w_columns w) src evs in (tp_ev t, en).

(** app.py:15-31, console.py:116-139; [traceback] is the text for an exception, all but the last
    line of it *)
Definition error_report (debug : nat) (traceback : exn -> str) (e : exn) : list tev :=
  (if (0 <? debug)%nat then [TDbg 1 (FMT_ERROR_TRACE (traceback e) ++ [10%N])] else [TOut (debug_hint ++ [10%N])])
  ++ [TOut [10%N]].
Definition traced_finish (debug : nat) (traceback : exn -> str) (epilogue : str) (x : list tev * reader_end) : list tev :=
  let '(l, en) := x in
  l ++ match en with
       | REnd => [TOut (epilogue ++ [10%N])]
       | RError e => error_report debug traceback e
       | RHang => []
       end.

(** app.py:15-27 after parsing the options: everything that goes to stdout.  [printable]: see
    [py_repr] *)
Definition traced_with (printable : N -> bool) (traceback : exn -> str) (w : world) (s : settings) : list tev :=
  let '(dump, s1) := debug_settings printable s (w_columns w) in
  dump ++
  match create_runner s1 with
  | ByteIoRunner => traced_finish (s_debug s1) traceback [] (tbyteio_main w false s1)
  | DemoRunner => let s2 := demo_settings s1 in traced_finish (s_debug s2) traceback demo_epilogue (tbyteio_main w true s2)
  | LegendRunner =>
      match legend_run legend_bytes with
      | Ok out => [TOut (out ++ [10%N])]
      | Err e => error_report (s_debug s1) traceback e
      end
  | VersionRunner => [TOut (version_run ++ [10%N])]
  end.
