(** C109, C110: what the README says about underlining and about the marker of resetting sequences *)
From Coq Require Import List Arith NArith ZArith Bool Lia.
From Verif.Model Require Import Base Ansi Settings Segment Template Parser Console Formatter Reader Runner Options.
From Verif.Spec Require Import Numbers Terminal Utf8 Lexical SgrParams Display Output Input Underline.
From Verif.Proof Require Import ExampleFacts UnderlineFacts.
Import ListNotations.
Local Open Scope N_scope.

(** ** C109 *)

(** In binary mode, with any settings (--color-markers included), of a completely processed input
    exactly the bytes of escape sequences, except ESC itself, are underlined, both in hexadecimal
    (with the space before them) and as characters. *)
Theorem C109_binary : forall s tc c src evs chunks toks,
  opens src -> binary_ok s tc c -> Processed s evs chunks -> Finishes s evs -> Tokens chunks toks ->
  exists p acts rows, byteio_run s tc src evs = (p, acts, REnd) /\ displays (pr_out p) rows /\ map (map underlined) rows = rule_rows s c toks.
Proof. exact binary_finished. Qed.
Print Assumptions C109_binary.

(** The same whatever happens (end, limit, interruption, failure), for what is shown. *)
Theorem C109_binary_any : forall s tc c src evs chunks,
  opens src -> binary_ok s tc c -> Processed s evs chunks ->
  exists p acts en cs toks rows rest, byteio_run s tc src evs = (p, acts, en) /\ Tokens cs toks /\
    concat chunks = concat cs ++ rest /\ displays (pr_out p) rows /\
    (map (map underlined) rows = rule_rows_so_far s c toks \/ map (map underlined) rows = rule_rows s c toks).
Proof. exact binary_run. Qed.
Print Assumptions C109_binary_any.

(** In text mode the rule holds as long as no details of control characters are shown. *)
Theorem C109_text_partial : forall s tc src evs chunks toks,
  opens src -> binary_mode s = false -> Processed s evs chunks -> Finishes s evs -> Tokens chunks toks ->
  forallb (no_control_details s) toks = true ->
  exists p acts rows, byteio_run s tc src evs = (p, acts, REnd) /\ displays (pr_out p) rows /\
    map (map underlined) rows = rule_lines s (readme_piece s) 1 (token_lines toks).
Proof. exact text_readme. Qed.
Print Assumptions C109_text_partial.

(** What is underlined in any case: the details of escape sequences and of control characters. *)
Theorem C109_text : forall s tc src evs chunks toks,
  opens src -> binary_mode s = false -> Processed s evs chunks -> Finishes s evs -> Tokens chunks toks ->
  exists p acts rows, byteio_run s tc src evs = (p, acts, REnd) /\ displays (pr_out p) rows /\
    map (map underlined) rows = rule_lines s (rule_piece s) 1 (token_lines toks).
Proof. exact text_finished. Qed.
Print Assumptions C109_text.

(** With -m 2 the digits shown for the control character 01 are underlined. *)
Theorem C109_refuted : exists s tc evs p acts,
  binary_mode s = false /\ provided evs = [[1; 65]] /\ ending_of evs = At_eof /\ byteio_run s tc SrcStdin evs = (p, acts, REnd) /\
  shown_under (pr_out p) = [(32, false); (49, false); (0x2502, false); (0x2C6F, false); (48, true); (49, true); (65, false); (10, false)].
Proof. exact control_underlined. Qed.
Print Assumptions C109_refuted.

Example C109_example : Tokens ex_chunks ex_toks /\ Processed (bin_columns 4) ex_evs ex_chunks /\ Finishes (bin_columns 4) ex_evs /\ binary_ok (bin_columns 4) 80 4 /\
  flat_map (rule_bytes (bin_columns 4)) ex_toks = [false; false; true; true; true; false; false; false; false; false] /\
  forallb (no_control_details default_settings) ex_toks = true /\
  existsb (fun x => snd x) (shown_under (pr_out (fst (fst (byteio_run (bin_columns 4) 80 SrcStdin ex_evs))))) = true.
Proof.
  split; [exact ex_tokens|]. split; [apply ex_processed; now left|]. split; [now left|]. split; [repeat split; lia|].
  split; [reflexivity|]. split; [reflexivity|]. vm_compute. reflexivity.
Qed.

(** ** C110 *)

(** In binary mode, if ESC is shown by the marker for resetting sequences and the sequence has no
    intermediate bytes, then the sequence, sent to a terminal, switches off everything. *)
Theorem C110_sound_partial : forall s tc c src evs chunks toks,
  opens src -> binary_ok s tc c -> Processed s evs chunks -> Finishes s evs -> Tokens chunks toks ->
  exists p acts, byteio_run s tc src evs = (p, acts, REnd) /\ displays (pr_out p) (binary_rows s c (byte_cells s toks)) /\
    Forall (fun t => forall a, In (27, 0x3B8, a) (binary_cells s (tok_kind t) (tok_bytes t) (tok_codes t)) ->
                     pure (tok_kind t) -> switches_off (tok_bytes t)) toks.
Proof. exact reset_run. Qed.
Print Assumptions C110_sound_partial.

(** In text mode the escape sequences with this marker are exactly ESC[m and ESC[0m, possibly with
    intermediate bytes. *)
Theorem C110_text : forall s tc src evs chunks toks,
  opens src -> binary_mode s = false -> Processed s evs chunks -> Finishes s evs -> Tokens chunks toks ->
  exists p acts, byteio_run s tc src evs = (p, acts, REnd) /\ displays (pr_out p) (text_rows s toks) /\
    Forall (fun t => sequence t = true -> s_ignore s CC_esc = false ->
                     (nth_error (fst (tok_cells s t)) (if separators s then 1 else 0) = Some (0x3B8, plain_style s (tok_kind t)) <->
                      exists i, tok_kind t = K_csi [] i 109 \/ tok_kind t = K_csi [48] i 109)) toks.
Proof. exact reset_text_run. Qed.
Print Assumptions C110_text.

(** ESC [ SP m, which is no SGR, has the marker. *)
Theorem C110_sound_refuted : exists s tc evs p acts w,
  binary_ok s tc 4 /\ provided evs = [w] /\ ending_of evs = At_eof /\ byteio_run s tc SrcStdin evs = (p, acts, REnd) /\
  Lexes w [(K_csi [] [32] 109, w)] /\ In 0x3B8 (visible (pr_out p)) /\ ~ switches_off w.
Proof. exact reset_unsound. Qed.
Print Assumptions C110_sound_refuted.

(** ESC[00m, which switches off everything, does not have it. *)
Theorem C110_complete_refuted : exists s tc evs p acts w,
  binary_ok s tc 5 /\ provided evs = [w] /\ ending_of evs = At_eof /\ byteio_run s tc SrcStdin evs = (p, acts, REnd) /\
  Lexes w [(K_csi [48; 48] [] 109, w)] /\ switches_off w /\ In 0x1DD (visible (pr_out p)) /\ ~ In 0x3B8 (visible (pr_out p)).
Proof. exact reset_incomplete. Qed.
Print Assumptions C110_complete_refuted.

(** ESC[0m *)
Example C110_example :
  let s := bin_columns 4 in let k := K_csi [48] [] 109 in
  existsb (fun x => (fst (fst x) =? 27) && (snd (fst x) =? 0x3B8)) (binary_cells s k [27; 91; 48; 109] []) = true /\
  switches_off [27; 91; 48; 109] /\ ~ switches_off [27; 91; 49; 109] /\
  In 0x3B8 (visible (pr_out (fst (fst (byteio_run s 80 SrcStdin [RData [27; 91; 48; 109]]))))).
Proof.
  split; [reflexivity|]. split; [intros a; reflexivity|]. split.
  - intros H. specialize (H attrs0). vm_compute in H. discriminate H.
  - vm_compute. repeat (first [now left|right]).
Qed.
