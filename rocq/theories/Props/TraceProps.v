(** C58-C61: debug traces *)
From Coq Require Import Ascii String.
From Coq Require Import List NArith ZArith Bool.
From Verif.Model Require Import Base Settings Segment Template Parser Reader Runner Options Trace.
From Verif.Spec Require Import Terminal Lexical Display Output Input Names Weave.
From Verif.Proof Require Import TraceClaims TraceWhole ExampleFacts TraceExamples.
Import ListNotations.
Local Open Scope N_scope.

(** ** C58 *)
(** Whatever the debug level, the run reads, calls and ends as described by the model without
    traces, and stdout is its regular output with traces put between complete lines; without
    [--debug] there are none *)
Theorem C58_woven : forall s tc src evs, let '(t, acts, en) := tbyteio_run s tc src evs in
  exists p traces, byteio_run s tc src evs = (p, acts, en) /\ Woven (pr_out p) traces (shown (s_debug s) (tp_ev t)) /\
  (s_debug s = 0%nat -> traces = []).
Proof. exact debug_woven. Qed.
Print Assumptions C58_woven.

Example C58_example : let '(t, _, en) := tbyteio_run (debugged 1 default_settings) 80 SrcStdin ex_evs in
  en = REnd /\ (length (regular (tp_ev t)) < length (shown 1 (tp_ev t)))%nat /\ shown 0 (tp_ev t) = regular (tp_ev t).
Proof. exact C58_case. Qed.

(** ** C59 *)
(** Every trace is one line of displayable text that leaves the terminal as it was, provided the
    name of the file is displayable and has no line break *)
Theorem C59_harmless_partial : forall s tc src evs, (src = SrcStdin \/ forall n, s_filename s = Some n -> one_line n) ->
  let '(t, acts, en) := tbyteio_run s tc src evs in
  exists p traces, byteio_run s tc src evs = (p, acts, en) /\ Woven (pr_out p) traces (shown (s_debug s) (tp_ev t)) /\ Forall harmless_line traces.
Proof. exact debug_harmless. Qed.
Print Assumptions C59_harmless_partial.

(** The name is shown as it is: without the hypothesis control characters reach the terminal
    although nothing else is printed *)
Theorem C59_harmless_refuted : exists s tc src evs,
  let '(t, _, _) := tbyteio_run s tc src evs in
  regular (tp_ev t) = [] /\ ~ clean (shown (s_debug s) (tp_ev t)).
Proof. exact debug_harmless_refuted. Qed.
Print Assumptions C59_harmless_refuted.

Example C59_example : let s := debugged 4 (apply_opt default_settings (O_file [97; 46; 98])) in
  (forall n, s_filename s = Some n -> one_line n) /\
  let '(t, _, en) := tbyteio_run s 80 (SrcFile true) ex_evs in en = REnd /\ (50 < length (lines_of (visible (shown 4 (tp_ev t)))))%nat.
Proof. exact C59_case. Qed.

(** ** C60 *)
(** The parser announces the pieces of its input in order, each at the offset of its first
    byte, with its kind and length; all of them unless processing fails *)
Theorem C60_announced : forall s e p sb ss off ts, is_bytes (pb_raw p) -> Lexes (pb_raw p) ts -> (0 <= off)%Z ->
  exists first msgs last n, parse_trace s e p sb ss off = first :: msgs ++ last /\
    Forall2 (announces s) (firstn n (located (Z.to_N off) ts)) msgs /\
    (forall p' sb' ss', parse e p sb ss = Ok (p', sb', ss') -> (length ts <= n)%nat).
Proof. exact debug_tokens. Qed.
Print Assumptions C60_announced.

Example C60_example : let raw := concat ex_chunks in
  is_bytes raw /\ (exists ts, Lexes raw ts /\ length ts = 6%nat) /\
  exists r, parse (update_settings default_settings) (mkPbuf raw false) sbuf_init sgr_state_init = Ok r.
Proof. exact C60_case. Qed.

(** Over a whole run the pieces of what the parser is called with are announced in order, each at
    its offset in the input; all of them if the run ends regularly *)
Theorem C60_run : forall s tc src evs tss, Forall is_bytes (provided evs) ->
  let '(t, acts, en) := tbyteio_run s tc src evs in
  Forall2 (fun c ts => Lexes (call_data c) ts) (calls acts) tss ->
  exists msgs n, Subseq msgs (tp_ev t) /\ Forall2 (announces s) (firstn n (located 0 (concat tss))) msgs /\
    (en = REnd -> length msgs = length (concat tss)).
Proof. exact announced_run. Qed.
Print Assumptions C60_run.

Example C60_run_example : let '(t, acts, en) := tbyteio_run (debugged 2 default_settings) 80 SrcStdin ex_evs in
  en = REnd /\ Forall2 (fun c ts => Lexes (call_data c) ts) (calls acts) ex_tokens /\ out_lines (tp_ev t) = 2%nat.
Proof. exact C60_run_case. Qed.

(** ** C61 *)
(** In binary mode every row is directly preceded by a trace with the same offset and bytes *)
Theorem C61_rows : forall s tc src evs, fst (get_read_mode s) = RM_binary -> s_debug s <> 0%nat ->
  let '(t, _, _) := tbyteio_run s tc src evs in Mirrored s (columns s tc) (tp_ev t).
Proof. exact debug_rows. Qed.
Print Assumptions C61_rows.

(** In text mode the offsets of the traces are wrong behind control characters shown with
    details: the second line of 05 0A 41 starts at offset 2 and is traced at offset 6 only *)
Theorem C61_text_offset_refuted : exists s tc evs m,
  evs = [RData [5; 10; 65]] /\
  let '(t, _, en) := tbyteio_run s tc SrcStdin evs in
  en = REnd /\ In (TDbg 1 m) (tp_ev t) /\ visible m = offset_text s 6 ++ [0x2502; 65; 10] /\
  (forall l x, In (TDbg l x) (tp_ev t) -> visible x <> offset_text s 2 ++ [0x2502; 65; 10]).
Proof. exact debug_text_offset_refuted. Qed.
Print Assumptions C61_text_offset_refuted.

Example C61_example : let s := debugged 1 (bin_columns 4) in
  fst (get_read_mode s) = RM_binary /\ s_debug s <> 0%nat /\
  let '(t, _, en) := tbyteio_run s 80 SrcStdin ex_evs in en = REnd /\ (4 = length (filter (fun e => match e with TOut _ => true | _ => false end) (tp_ev t)))%nat.
Proof. exact C61_case. Qed.

(** In text mode every line is directly preceded by three traces with its offset, its bytes and a
    sign for each; the offset is the number of bytes recorded for the pieces before the line *)
Theorem C61_lines : forall s tc src evs tss, binary_mode s = false -> Forall is_bytes (provided evs) ->
  let '(t, acts, en) := tbyteio_run s tc src evs in
  Forall2 (fun c ts => Lexes (call_data c) ts) (calls acts) tss ->
  exists rec rest, Traced s [] (tp_ev t) rec /\ rec ++ rest = flat_map (fun t => recorded s (fst t) (snd t)) (concat tss).
Proof. exact debug_lines. Qed.
Print Assumptions C61_lines.

(** The offset is the one in the input as long as every piece keeps its bytes *)
Theorem C61_lines_true_partial : forall s tc src evs tss, binary_mode s = false -> Forall is_bytes (provided evs) ->
  let '(t, acts, en) := tbyteio_run s tc src evs in
  Forall2 (fun c ts => Lexes (call_data c) ts) (calls acts) tss ->
  Forall (fun t => keeps_bytes s (fst t) = true) (concat tss) ->
  exists rec rest, Traced s [] (tp_ev t) rec /\ concat (provided evs) = rec ++ rest.
Proof. exact debug_lines_true. Qed.
Print Assumptions C61_lines_true_partial.

Example C61_lines_example : let s := debugged 1 default_settings in
  binary_mode s = false /\ Forall is_bytes (provided ex_evs3) /\ Forall (fun t => keeps_bytes s (fst t) = true) (concat ex_tokens3) /\
  let '(t, acts, en) := tbyteio_run s 80 SrcStdin ex_evs3 in
  en = REnd /\ Forall2 (fun c ts => Lexes (call_data c) ts) (calls acts) ex_tokens3 /\ out_lines (tp_ev t) = 2%nat.
Proof. exact C61_true_case. Qed.
