(** C113: text mode with full details shows everything *)
From Coq Require Import List Arith NArith ZArith Bool Lia.
From Verif.Model Require Import Base Ansi Settings Segment Template Parser Console Formatter Reader Runner Options.
From Verif.Spec Require Import Numbers Terminal Utf8 Lexical SgrParams Display Output Input ReadBack.
From Verif.Proof Require Import ExampleFacts ReadBackFacts.
Import ListNotations.
Local Open Scope N_scope.

(** With -m 2 the processed bytes can be read off the screen, by a procedure that does not know the
    settings (line numbers, separators, highlighting, --color-markers and debugging do not matter),
    if there are no stray bytes above 127, nothing is ignored, and the last piece is no run of control
    characters. *)
Theorem C113_recovered_partial : forall s tc src evs chunks toks,
  opens src -> binary_mode s = false -> marker_level s = L_full -> none_ignored s toks ->
  Processed s evs chunks -> Finishes s evs -> Tokens chunks toks -> no_stray toks -> last_told toks ->
  exists p acts, byteio_run s tc src evs = (p, acts, REnd) /\ read_back W_none (screen (pr_out p)) = concat chunks.
Proof. exact recovered. Qed.
Print Assumptions C113_recovered_partial.

(** So different inputs never look alike, not even under different settings. *)
Theorem C113_distinct_partial : forall s1 tc1 src1 evs1 chunks1 toks1 s2 tc2 src2 evs2 chunks2 toks2,
  opens src1 -> binary_mode s1 = false -> marker_level s1 = L_full -> none_ignored s1 toks1 ->
  Processed s1 evs1 chunks1 -> Finishes s1 evs1 -> Tokens chunks1 toks1 -> no_stray toks1 -> last_told toks1 ->
  opens src2 -> binary_mode s2 = false -> marker_level s2 = L_full -> none_ignored s2 toks2 ->
  Processed s2 evs2 chunks2 -> Finishes s2 evs2 -> Tokens chunks2 toks2 -> no_stray toks2 -> last_told toks2 ->
  screen (pr_out (fst (fst (byteio_run s1 tc1 src1 evs1)))) = screen (pr_out (fst (fst (byteio_run s2 tc2 src2 evs2)))) ->
  concat chunks1 = concat chunks2.
Proof. exact alike. Qed.
Print Assumptions C113_distinct_partial.

(** Bytes above 127 that are no UTF-8 have all the same sign. *)
Theorem C113_stray_refuted : exists s a b, binary_mode s = false /\ marker_level s = L_full /\ a <> b /\
  read_back W_none (shown_text s [[a; 10]]) <> [a; 10] /\ shown_text s [[a; 10]] = shown_text s [[b; 10]].
Proof. exact stray_alike. Qed.
Print Assumptions C113_stray_refuted.

(** The code of a control character is missing at the end of an unterminated line. *)
Theorem C113_tail_refuted : exists s a b, binary_mode s = false /\ marker_level s = L_full /\ a < 32 /\ b < 32 /\ a <> b /\
  shown_text s [[a]] = shown_text s [[b]].
Proof. exact tail_alike. Qed.
Print Assumptions C113_tail_refuted.

(** With brief details (-m 1) sequences other than SGR look alike. *)
Theorem C113_brief_refuted : exists s a b, binary_mode s = false /\ marker_level s = L_brief /\ a <> b /\
  shown_text s [a] = shown_text s [b].
Proof. exact brief_alike. Qed.
Print Assumptions C113_brief_refuted.

Example C113_example : opens SrcStdin /\ binary_mode (text_marked 2) = false /\ marker_level (text_marked 2) = L_full /\
  none_ignored (text_marked 2) ex_lines_toks /\ Processed (text_marked 2) (map RData ex_lines) ex_lines /\ Finishes (text_marked 2) (map RData ex_lines) /\
  Tokens ex_lines ex_lines_toks /\ no_stray ex_lines_toks /\ last_told ex_lines_toks /\
  read_back W_none (shown_text (text_marked 2) ex_lines) = [65; 27; 91; 49; 109; 10; 9; 195; 169; 1; 10] /\
  read_back W_none (shown_text (text_marked 2) [[195; 169; 27; 36; 66; 27; 99]; [0; 127; 32; 32; 31; 7; 10; 27]]) = [195; 169; 27; 36; 66; 27; 99; 0; 127; 32; 32; 31; 7; 10; 27].
Proof.
  split; [now left|]. split; [reflexivity|]. split; [reflexivity|]. split; [repeat constructor|].
  split; [split; [repeat constructor|]; exists (concat ex_lines); split; [now apply Lim_none; left|reflexivity]|]. split; [now left|].
  split; [exact ex_lines_tokens|]. split; [repeat constructor; discriminate|]. split; [discriminate|]. split; vm_compute; reflexivity.
Qed.
