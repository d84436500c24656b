(** C115: little is kept between two reads *)
From Coq Require Import List Arith NArith ZArith Bool.
From Verif.Model Require Import Base Ansi Settings Segment Template Parser Console Formatter Reader Runner Options.
From Verif.Spec Require Import Numbers Terminal Utf8 Lexical SgrParams Display Output Input Kept.
From Verif.Proof Require Import ExampleFacts KeptFacts.
Import ListNotations.
Local Open Scope N_scope.

(** The state in which a read is awaited is the one which an interrupt during that read leaves. *)

(** Binary mode: the parser's buffer is empty and the segments hold exactly the bytes of the incomplete
    row, each with one character, in a chain whose length is bounded by the number of columns. *)
Theorem C115_binary : forall s tc n src evs chunks toks,
  opens src -> binary_ok s tc n -> Processed s evs chunks -> Tokens chunks toks ->
  ending_of evs = At_interrupt -> ~ Stops (s_max_bytes s) (s_max_lines s) (concat (provided evs)) ->
  exists p acts, byteio_run s tc src evs = (p, acts, REnd) /\ pb_raw (pr_pb p) = [] /\
    held_bytes (sb_chain (pr_sb p)) = incomplete_row n (concat chunks) /\
    length (held_text (sb_chain (pr_sb p))) = length (incomplete_row n (concat chunks)) /\
    (length (incomplete_row n (concat chunks)) < n)%nat /\
    (length (sb_chain (pr_sb p)) <= 4 * length (incomplete_row n (concat chunks)))%nat /\ (length (sb_active (pr_sb p)) <= 1)%nat.
Proof. exact binary_kept. Qed.
Print Assumptions C115_binary.

(** Text mode: what is kept depends on the incomplete line only. *)
Theorem C115_text : forall s tc src evs chunks toks,
  opens src -> binary_mode s = false -> Processed s evs chunks -> Tokens chunks toks ->
  ending_of evs = At_interrupt -> ~ Stops (s_max_bytes s) (s_max_lines s) (concat (provided evs)) ->
  exists p acts, byteio_run s tc src evs = (p, acts, REnd) /\ pb_raw (pr_pb p) = [] /\
    (length (held_bytes (sb_chain (pr_sb p))) <= 31 * length (unfinished (concat chunks)))%nat /\
    (length (sb_chain (pr_sb p)) <= 8 * length (unfinished (concat chunks)))%nat /\ (length (sb_active (pr_sb p)) <= 1)%nat.
Proof. exact text_kept. Qed.
Print Assumptions C115_text.

(** 10 bytes in two chunks, four of them after the line feed; a control character which takes 31 bytes *)
Example C115_example :
  (forall m, Processed (text_marked m) kept_evs ex_chunks) /\ Processed (bin_columns 4) kept_evs ex_chunks /\ ending_of kept_evs = At_interrupt /\
  (forall d m, ~ Stops (s_max_bytes (text_marked m)) (s_max_lines (text_marked m)) d /\ ~ Stops (s_max_bytes (bin_columns m)) (s_max_lines (bin_columns m)) d) /\
  (exists toks, Tokens ex_chunks toks) /\
  unfinished (concat ex_chunks) = [9; 195; 169; 1] /\ incomplete_row 4 (concat ex_chunks) = [169; 1] /\
  held_bytes (sb_chain (pr_sb (fst (fst (byteio_run (bin_columns 4) 80 SrcStdin kept_evs))))) = [169; 1] /\
  held_bytes (sb_chain (pr_sb (fst (fst (byteio_run (text_marked 2) 80 SrcStdin kept_evs))))) = [9; 195; 169; 0] /\
  length (held_bytes (sb_chain (pr_sb (fst (fst (byteio_run (text_marked 2) 80 SrcStdin [RData [31]; RInterrupt])))))) = 31%nat.
Proof. exact kept_example. Qed.
