(** C05-C07, C12, C21-C29: what a run of the program shows *)
From Coq Require Import List Arith NArith ZArith Bool Lia.
From Verif.Model Require Import Base Ansi Settings Segment Template Parser Console Formatter Reader Runner Options.
From Verif.Spec Require Import Numbers Terminal Utf8 Lexical SgrParams Display Output Input Dump Fragments Compare.
From Verif.Proof Require Import RunClaims BinClaims ShowClaims LookClaims MoreClaims ExampleFacts RunExtra OffsetShown.
Import ListNotations.
Local Open Scope N_scope.

(** ** C05 *)

(** Visible characters encoded in UTF-8, in chunks which do not cut characters, are shown as they
    are, on one line. *)
Theorem C05_text_as_is : forall s tc src evs cpss,
  opens src -> binary_mode s = false -> s_ignore s CC_utf8 = false -> s_ignore s CC_printable = false ->
  Forall (Forall visible_char) cpss -> concat cpss <> [] -> Processed s evs (map utf8_text cpss) -> Finishes s evs ->
  exists p acts, byteio_run s tc src evs = (p, acts, REnd) /\
    visible (pr_out p) = map fst (line_number_cells s 1) ++ concat cpss ++ [10].
Proof. exact text_exact. Qed.
Print Assumptions C05_text_as_is.

Example C05_example :
  let cpss := [[72; 0xE9]; [0x20AC; 0x1F600]] in
  Forall (Forall visible_char) cpss /\ Processed default_settings (map (fun c => RData (utf8_text c)) cpss) (map utf8_text cpss) /\
  visible (pr_out (fst (fst (byteio_run default_settings 80 SrcStdin (map (fun c => RData (utf8_text c)) cpss))))) = [32; 49; 0x2502; 72; 0xE9; 0x20AC; 0x1F600; 10].
Proof.
  cbv zeta. split; [repeat constructor; unfold scalar; lia|]. split; [|vm_compute; reflexivity].
  split; [repeat constructor|]. exists (concat (map utf8_text [[72; 0xE9]; [0x20AC; 0x1F600]])). split; [apply Lim_none; now left|reflexivity].
Qed.

(** ** C06 *)

(** Fragmentation does not matter as long as multi-byte pieces (UTF-8 sequences, escape sequences,
    runs of binary data) are not cut. *)
Theorem C06_fragments_text_partial : forall s tc src1 src2 evs1 evs2 cs1 cs2 ts toks,
  opens src1 -> opens src2 -> binary_mode s = false ->
  Processed s evs1 cs1 -> Processed s evs2 cs2 -> Finishes s evs1 -> Finishes s evs2 ->
  Lexes (concat cs1) ts -> Cuts ts cs1 -> Cuts ts cs2 -> Tokens cs1 toks ->
  exists p1 p2 a1 a2, byteio_run s tc src1 evs1 = (p1, a1, REnd) /\ byteio_run s tc src2 evs2 = (p2, a2, REnd) /\
    screen (pr_out p1) = screen (pr_out p2).
Proof. exact cuts_text. Qed.
Print Assumptions C06_fragments_text_partial.

Theorem C06_fragments_binary_partial : forall s tc c src1 src2 evs1 evs2 cs1 cs2 ts toks,
  opens src1 -> opens src2 -> binary_ok s tc c ->
  Processed s evs1 cs1 -> Processed s evs2 cs2 -> Finishes s evs1 -> Finishes s evs2 ->
  Lexes (concat cs1) ts -> Cuts ts cs1 -> Cuts ts cs2 -> Tokens cs1 toks ->
  exists p1 p2 a1 a2, byteio_run s tc src1 evs1 = (p1, a1, REnd) /\ byteio_run s tc src2 evs2 = (p2, a2, REnd) /\
    screen (pr_out p1) = screen (pr_out p2).
Proof. exact cuts_binary. Qed.
Print Assumptions C06_fragments_binary_partial.

(** It never matters for input without ESC and bytes from 128, whatever the limits. *)
Theorem C06_plain_text : forall s tc src1 src2 evs1 evs2 cs1 cs2,
  opens src1 -> opens src2 -> binary_mode s = false ->
  Processed s evs1 cs1 -> Processed s evs2 cs2 -> Finishes s evs1 -> Finishes s evs2 ->
  concat (provided evs1) = concat (provided evs2) -> Forall plain_byte (concat (provided evs1)) ->
  exists p1 p2 a1 a2, byteio_run s tc src1 evs1 = (p1, a1, REnd) /\ byteio_run s tc src2 evs2 = (p2, a2, REnd) /\
    screen (pr_out p1) = screen (pr_out p2).
Proof. exact plain_text. Qed.
Print Assumptions C06_plain_text.

Theorem C06_plain_binary : forall s tc c src1 src2 evs1 evs2 cs1 cs2,
  opens src1 -> opens src2 -> binary_ok s tc c ->
  Processed s evs1 cs1 -> Processed s evs2 cs2 -> Finishes s evs1 -> Finishes s evs2 ->
  concat (provided evs1) = concat (provided evs2) -> Forall plain_byte (concat (provided evs1)) ->
  exists p1 p2 a1 a2, byteio_run s tc src1 evs1 = (p1, a1, REnd) /\ byteio_run s tc src2 evs2 = (p2, a2, REnd) /\
    screen (pr_out p1) = screen (pr_out p2).
Proof. exact plain_binary. Qed.
Print Assumptions C06_plain_binary.

(** In binary mode the offsets and the hexadecimal columns never depend on it, whatever the
    input: only the characters and colors of bytes may. *)
Theorem C06_dump : forall s tc c src1 src2 evs1 evs2 cs1 cs2 toks1 toks2,
  opens src1 -> opens src2 -> binary_ok s tc c ->
  Processed s evs1 cs1 -> Processed s evs2 cs2 -> Finishes s evs1 -> Finishes s evs2 -> Tokens cs1 toks1 -> Tokens cs2 toks2 ->
  concat cs1 = concat cs2 ->
  exists p1 p2 a1 a2, byteio_run s tc src1 evs1 = (p1, a1, REnd) /\ byteio_run s tc src2 evs2 = (p2, a2, REnd) /\
    map (firstn (offset_width s + 3 * c)) (text_lines (visible (pr_out p1))) = map (firstn (offset_width s + 3 * c)) (text_lines (visible (pr_out p2))).
Proof. exact dump_same. Qed.
Print Assumptions C06_dump.

Example C06_dump_example : let s := bin_columns 4 in let one := [RData [195; 169; 27; 91; 109]] in let two := [RData [195]; RData [169; 27]; RData [91; 109]] in
  binary_ok s 80 4 /\ Processed s one (provided one) /\ Processed s two (provided two) /\ concat (provided one) = concat (provided two) /\
  visible (pr_out (fst (fst (byteio_run s 80 SrcStdin one)))) <> visible (pr_out (fst (fst (byteio_run s 80 SrcStdin two)))) /\
  map (firstn (offset_width s + 3 * 4)) (text_lines (visible (pr_out (fst (fst (byteio_run s 80 SrcStdin one)))))) =
  map (firstn (offset_width s + 3 * 4)) (text_lines (visible (pr_out (fst (fst (byteio_run s 80 SrcStdin two)))))).
Proof. exact C06_dump_case. Qed.

(** In general it does: a character cut in two is shown as binary data. *)
Theorem C06_refuted : exists s tc evs1 evs2 p1 a1 p2 a2,
  binary_mode s = false /\ provided evs1 = [[195; 169]] /\ provided evs2 = [[195]; [169]] /\
  byteio_run s tc SrcStdin evs1 = (p1, a1, REnd) /\ byteio_run s tc SrcStdin evs2 = (p2, a2, REnd) /\
  visible (pr_out p1) <> visible (pr_out p2).
Proof. exact fragment_witness. Qed.
Print Assumptions C06_refuted.

Example C06_example :
  let one := [RData [65; 65; 9; 9; 10; 66]] in let two := [RData [65]; RData [65; 9]; RData [9; 10]; RData [66]] in
  concat (provided one) = concat (provided two) /\ Forall plain_byte (concat (provided one)) /\
  Processed default_settings one (provided one) /\ Processed default_settings two (provided two).
Proof.
  cbv zeta. split; [reflexivity|]. split; [repeat constructor; easy|].
  split; (split; [repeat constructor|]; eexists; split; [apply Lim_none; now left|reflexivity]).
Qed.

(** ** C07 *)

(** A run that is not interrupted succeeds iff the parameters of all SGR sequences can be read;
    otherwise it ends with a ValueError. *)
Theorem C07_success_partial : forall s tc src evs chunks,
  opens src -> (binary_mode s = true -> (0 <= columns s tc)%Z) -> Processed s evs chunks -> Finishes s evs ->
  ((exists p acts, byteio_run s tc src evs = (p, acts, REnd)) <->
     Forall (fun c => forall ts, Lexes c ts -> Forall (fun t => readable (fst t)) ts) chunks) /\
  ((exists p acts, byteio_run s tc src evs = (p, acts, REnd)) \/ (exists p acts, byteio_run s tc src evs = (p, acts, RError ValueError))).
Proof. exact run_ok. Qed.
Print Assumptions C07_success_partial.

(** No run raises anything else, except for the error of a read that fails. *)
Theorem C07_exceptions : forall s tc src evs chunks p acts en,
  opens src -> (binary_mode s = true -> (0 <= columns s tc)%Z) -> Processed s evs chunks -> byteio_run s tc src evs = (p, acts, en) ->
  en = REnd \/ en = RError ValueError \/ (en = RError OSError /\ ending_of evs = At_failure).
Proof. exact run_ends. Qed.
Print Assumptions C07_exceptions.

(** ESC[>4m (used to set up the keyboard) makes the program fail, in both modes. *)
Theorem C07_refuted :
  (exists s tc evs, binary_mode s = false /\ provided evs = [[65; 10; 27; 91; 62; 52; 109]] /\ ending_of evs = At_eof /\
     exists p acts, byteio_run s tc SrcStdin evs = (p, acts, RError ValueError) /\ pr_out p = []) /\
  (exists s tc evs, binary_mode s = true /\ provided evs = [[27; 91; 62; 52; 109]] /\ ending_of evs = At_eof /\
     exists p acts, byteio_run s tc SrcStdin evs = (p, acts, RError ValueError)).
Proof. exact (conj sgr_private_witness sgr_private_binary_witness). Qed.
Print Assumptions C07_refuted.

(** So does a parameter of more than 4300 digits, when the sequence is read in one piece. *)
Theorem C07_long_refuted : forall s tc src evs ds,
  opens src -> (binary_mode s = true -> (0 <= columns s tc)%Z) -> Processed s evs [27 :: 91 :: ds ++ [109]] -> Finishes s evs ->
  Forall ascii_digit ds ->
  (N.of_nat (length ds) <= 4300 -> exists p acts, byteio_run s tc src evs = (p, acts, REnd)) /\
  (4300 < N.of_nat (length ds) -> exists p acts, byteio_run s tc src evs = (p, acts, RError ValueError)).
Proof. exact long_sgr_run. Qed.
Print Assumptions C07_long_refuted.

Example C07_long_example : let ds n := repeat 48 (N.to_nat n) in
  forall n, n = 4300 \/ n = 4301 ->
  Processed default_settings [RData (27 :: 91 :: ds n ++ [109])] [27 :: 91 :: ds n ++ [109]] /\
  Finishes default_settings [RData (27 :: 91 :: ds n ++ [109])] /\ Forall ascii_digit (ds n) /\ N.of_nat (length (ds n)) = n.
Proof.
  cbv zeta. intros n _. destruct (long_sgr_processed (repeat 48 (N.to_nat n)) (zeros_digits _)) as [H1 H2].
  split; [exact H1|]. split; [exact H2|]. split; [apply zeros_digits|]. rewrite repeat_length. apply N2Nat.id.
Qed.

Example C07_example : opens SrcStdin /\ Processed (text_marked 1) ex_evs ex_chunks /\ Finishes (text_marked 1) ex_evs /\
  exists p acts, byteio_run (text_marked 1) 80 SrcStdin ex_evs = (p, acts, REnd).
Proof.
  split; [now left|]. split; [apply ex_processed; now left|]. split; [now left|]. do 2 eexists. vm_compute. reflexivity.
Qed.

(** ** C12 *)

(** In text mode everything that belongs to a piece is shown, unless the input ends with a piece
    that is followed by a decoration. *)
Theorem C12_text_complete_partial : forall s tc src evs chunks toks,
  opens src -> binary_mode s = false -> Processed s evs chunks -> Finishes s evs -> Tokens chunks toks -> trailing s toks = [] ->
  exists p acts, byteio_run s tc src evs = (p, acts, REnd) /\ displays (pr_out p) (complete_lines s 1 (token_lines toks)).
Proof. exact text_complete. Qed.
Print Assumptions C12_text_complete_partial.

(** In any case exactly that decoration is missing. *)
Theorem C12_text_shown : forall s tc src evs chunks toks,
  opens src -> binary_mode s = false -> Processed s evs chunks -> Finishes s evs -> Tokens chunks toks ->
  exists p acts, byteio_run s tc src evs = (p, acts, REnd) /\ displays (pr_out p) (numbered s 1 (token_lines toks)).
Proof. exact text_eof. Qed.
Print Assumptions C12_text_shown.

Theorem C12_binary_complete : forall s tc c src evs chunks toks,
  opens src -> binary_ok s tc c -> Processed s evs chunks -> Finishes s evs -> Tokens chunks toks ->
  exists p acts, byteio_run s tc src evs = (p, acts, REnd) /\ displays (pr_out p) (binary_rows s c (byte_cells s toks)).
Proof. exact bin_eof. Qed.
Print Assumptions C12_binary_complete.

(** The caret letter of a control character at the end of the input is not shown. *)
Theorem C12_refuted : exists s tc evs p acts,
  binary_mode s = false /\ provided evs = [[1]] /\ ending_of evs = At_eof /\ byteio_run s tc SrcStdin evs = (p, acts, REnd) /\
  visible (pr_out p) = [32; 49; 0x2502; 0x2C6F; 10] /\ trailing s [(K_run R_control, [1], [])] <> [].
Proof. exact lost_details_witness. Qed.
Print Assumptions C12_refuted.

Example C12_example : Tokens ex_chunks ex_toks /\ Processed default_settings ex_evs ex_chunks /\ Finishes default_settings ex_evs /\
  trailing default_settings ex_toks = [] /\ trailing (text_marked 1) ex_toks <> [] /\ binary_ok (bin_columns 4) 80 4.
Proof.
  split; [exact ex_tokens|]. split; [apply ex_processed; now left|]. split; [now left|]. split; [reflexivity|]. split; [vm_compute; discriminate|].
  repeat split; lia.
Qed.

(** ** C21 *)

(** Whatever happens (end, limit, interruption, failure), the output consists of parts, one for
    each row, each of which leaves the attributes at their default and shows exactly the cells of
    its row when started with default attributes. *)
Theorem C21_rows_text : forall s tc src evs chunks,
  opens src -> binary_mode s = false -> Processed s evs chunks ->
  exists p acts en cs toks rows rest, byteio_run s tc src evs = (p, acts, en) /\ Tokens cs toks /\
    (rows = text_rows_so_far s toks \/ rows = text_rows s toks) /\ concat chunks = concat cs ++ rest /\ displays (pr_out p) rows.
Proof. exact text_any. Qed.
Print Assumptions C21_rows_text.

Theorem C21_rows_binary : forall s tc c src evs chunks,
  opens src -> binary_ok s tc c -> Processed s evs chunks ->
  exists p acts en cs toks rows rest, byteio_run s tc src evs = (p, acts, en) /\ Tokens cs toks /\
    (rows = binary_rows_so_far s c (byte_cells s toks) \/ rows = binary_rows s c (byte_cells s toks)) /\
    concat chunks = concat cs ++ rest /\ displays (pr_out p) rows.
Proof. exact bin_any. Qed.
Print Assumptions C21_rows_binary.

Example C21_example :
  let p := fst (fst (byteio_run (bin_columns 2) 80 SrcStdin [RData [27; 91; 49; 109; 65]; RInterrupt])) in
  length (text_lines (visible (pr_out p))) = 2%nat /\ final_attrs (pr_out p) = attrs0 /\
  existsb (fun x => match x with Glyph 477 a => negb (match a_fg a with ColDefault => true | _ => false end) | _ => false end) (screen (pr_out p)) = true.
Proof. vm_compute. repeat split. Qed.

(** ** C22 *)
Theorem C22_dump : forall s tc c src evs chunks toks,
  opens src -> binary_ok s tc c -> Processed s evs chunks -> Finishes s evs -> Tokens chunks toks ->
  exists p acts, byteio_run s tc src evs = (p, acts, REnd) /\ displays (pr_out p) (binary_rows s c (byte_cells s toks)) /\
    read_dump s c (visible (pr_out p)) = concat chunks.
Proof. exact dump_run. Qed.
Print Assumptions C22_dump.

Example C22_example : Tokens ex_chunks ex_toks /\ Processed (bin_columns 4) ex_evs ex_chunks /\ Finishes (bin_columns 4) ex_evs /\ binary_ok (bin_columns 4) 80 4 /\
  read_dump (bin_columns 4) 4 (visible (pr_out (fst (fst (byteio_run (bin_columns 4) 80 SrcStdin ex_evs))))) = [65; 27; 91; 49; 109; 10; 9; 195; 169; 1].
Proof.
  split; [exact ex_tokens|]. split; [apply ex_processed; now left|]. split; [now left|]. split; [repeat split; lia|]. vm_compute. reflexivity.
Qed.

(** ** C23 *)

(** Offsets are true below 1,000,000 (100,000,000 if they are decimal). *)
Theorem C23_offsets_partial : forall s tc c src evs chunks toks,
  opens src -> binary_ok s tc c -> Processed s evs chunks -> Finishes s evs -> Tokens chunks toks -> with_offsets s = true ->
  exists p acts, byteio_run s tc src evs = (p, acts, REnd) /\
    forall i line, nth_error (data_lines s (visible (pr_out p))) i = Some line -> N.of_nat (i * c) < offset_bound s ->
      read_offset s line = Some (N.of_nat (i * c)).
Proof. exact offset_run. Qed.
Print Assumptions C23_offsets_partial.

(** Exactly: what is shown of any offset, and that it is the true one only below the bound *)
Theorem C23_shown : forall s tc c src evs chunks toks,
  opens src -> binary_ok s tc c -> Processed s evs chunks -> Finishes s evs -> Tokens chunks toks -> with_offsets s = true ->
  exists p acts, byteio_run s tc src evs = (p, acts, REnd) /\
    forall i line, nth_error (data_lines s (visible (pr_out p))) i = Some line ->
      exists v, Shown_offset s (N.of_nat (i * c)) v /\ read_offset s line = Some v.
Proof. exact shown_offset_run. Qed.
Print Assumptions C23_shown.
Theorem C23_exact : forall s tc c src evs chunks toks,
  opens src -> binary_ok s tc c -> Processed s evs chunks -> Finishes s evs -> Tokens chunks toks -> with_offsets s = true ->
  exists p acts, byteio_run s tc src evs = (p, acts, REnd) /\
    forall i line, nth_error (data_lines s (visible (pr_out p))) i = Some line ->
      (read_offset s line = Some (N.of_nat (i * c)) <-> N.of_nat (i * c) < offset_bound s).
Proof. exact shown_offset_exact. Qed.
Print Assumptions C23_exact.

Example C23_shown_example : Shown_offset (bin_columns 4) 0x12345678 0x1234 /\ Shown_offset (bin_columns 4) 0x123456 0x1234 /\ Shown_offset (bin_columns 4) 0xABCDE 0xABCDE
  /\ Shown_offset (bin_columns 4) 0x3456 0x3456.
Proof.
  split; [exists 2|split; [exists 1|split; exists 0]];
  vm_compute; repeat split; try (now left); right; easy.
Qed.

Theorem C23_refuted : exists s tc c evs, binary_ok s tc c /\ with_offsets s = true /\ ending_of evs = At_eof /\
  exists p acts line, byteio_run s tc SrcStdin evs = (p, acts, REnd) /\ nth_error (data_lines s (visible (pr_out p))) 1 = Some line /\
    N.of_nat (1 * c) = 1000000 /\ read_offset s line = Some 3906.
Proof. exact offset_wrong. Qed.
Print Assumptions C23_refuted.

Example C23_example : with_offsets (bin_columns 4) = true /\
  map (read_offset (bin_columns 4)) (text_lines (visible (pr_out (fst (fst (byteio_run (bin_columns 4) 80 SrcStdin ex_evs)))))) = [Some 0; Some 4; Some 8; Some 10].
Proof. split; vm_compute; reflexivity. Qed.

(** ** C24 *)
Theorem C24_total_partial : forall s tc c src evs chunks toks,
  opens src -> binary_ok s tc c -> Processed s evs chunks -> Finishes s evs -> Tokens chunks toks -> with_offsets s = true ->
  N.of_nat (length (concat chunks)) < offset_bound s ->
  exists p acts, byteio_run s tc src evs = (p, acts, REnd) /\
    read_offset s (last (text_lines (visible (pr_out p))) []) = Some (N.of_nat (length (concat chunks))).
Proof. exact total_run. Qed.
Print Assumptions C24_total_partial.

Theorem C24_shown : forall s tc c src evs chunks toks,
  opens src -> binary_ok s tc c -> Processed s evs chunks -> Finishes s evs -> Tokens chunks toks -> with_offsets s = true ->
  exists p acts v, byteio_run s tc src evs = (p, acts, REnd) /\
    Shown_offset s (N.of_nat (length (concat chunks))) v /\
    read_offset s (last (text_lines (visible (pr_out p))) []) = Some v.
Proof. exact shown_total_run. Qed.
Print Assumptions C24_shown.
Theorem C24_exact : forall s tc c src evs chunks toks,
  opens src -> binary_ok s tc c -> Processed s evs chunks -> Finishes s evs -> Tokens chunks toks -> with_offsets s = true ->
  exists p acts, byteio_run s tc src evs = (p, acts, REnd) /\
    (read_offset s (last (text_lines (visible (pr_out p))) []) = Some (N.of_nat (length (concat chunks))) <-> N.of_nat (length (concat chunks)) < offset_bound s).
Proof. exact shown_total_exact. Qed.
Print Assumptions C24_exact.

Theorem C24_refuted : exists s tc evs, binary_ok s tc 16 /\ with_offsets s = true /\ ending_of evs = At_eof /\
  N.of_nat (length (concat (provided evs))) = 1000000 /\
  exists p acts, byteio_run s tc SrcStdin evs = (p, acts, REnd) /\ read_offset s (last (text_lines (visible (pr_out p))) []) = Some 3906.
Proof. exact total_wrong. Qed.
Print Assumptions C24_refuted.

(** ** C25 *)

(** Whatever happens, no line is longer than the terminal is wide. *)
Theorem C25_width : forall s tc c src evs chunks p acts en,
  opens src -> s_columns s = None -> binary_ok s tc c -> Processed s evs chunks -> byteio_run s tc src evs = (p, acts, en) ->
  Forall (fun l => (Z.of_nat (length l) <= tc)%Z) (text_lines (visible (pr_out p))).
Proof. exact width_run. Qed.
Print Assumptions C25_width.

Example C25_example : let s := apply_opt default_settings O_binary in s_columns s = None /\ binary_ok s 80 8 /\ Processed s ex_evs ex_chunks.
Proof. cbv zeta. split; [reflexivity|]. split; [repeat split; lia|]. apply ex_processed; now left. Qed.

(** ** C26 *)

(** With no columns only the total is shown, as 0. *)
Theorem C26_zero_columns : forall s tc src evs chunks toks,
  opens src -> binary_mode s = true -> columns s tc = 0%Z -> Processed s evs chunks -> Finishes s evs -> Tokens chunks toks ->
  exists p acts, byteio_run s tc src evs = (p, acts, REnd) /\ displays (pr_out p) (total_cells s 0).
Proof. exact zero_eof. Qed.
Print Assumptions C26_zero_columns.

(** With a negative number of columns the program hangs: the loop does not end whatever number of
    steps is allowed. *)
Theorem C26_negative_columns : forall s tc src c rest toks,
  opens src -> binary_mode s = true -> (columns s tc < 0)%Z -> no_limit (s_max_bytes s) -> no_limit (s_max_lines s) ->
  c <> [] -> is_bytes c -> Tokens [c] toks ->
  (exists p acts, byteio_run s tc src (RData c :: rest) = (p, acts, RHang)) /\
  exists sb, parse (update_settings s) (append_raw pbuf_init c false) sbuf_init sgr_state_init = Ok sb /\
    forall fuel, exists out, binary_format fuel s tc false (snd (fst sb)) 0 = NoFuel out.
Proof. exact negative_run. Qed.
Print Assumptions C26_negative_columns.

(** Both happen with automatic columns: on a terminal 40 (20) columns wide. *)
Theorem C26_refuted :
  (exists tc evs p acts, let s := apply_opt default_settings O_binary in
     binary_mode s = true /\ s_columns s = None /\ provided evs = [[65; 66]] /\ ending_of evs = At_eof /\ tc = 40%Z /\
     byteio_run s tc SrcStdin evs = (p, acts, REnd) /\ read_offset s (last (text_lines (visible (pr_out p))) []) = Some 0 /\
     data_lines s (visible (pr_out p)) = []) /\
  (exists tc evs p acts, let s := apply_opt default_settings O_binary in
     binary_mode s = true /\ s_columns s = None /\ provided evs = [[65]] /\ tc = 20%Z /\ byteio_run s tc SrcStdin evs = (p, acts, RHang)).
Proof. exact (conj no_rows_witness hang_witness). Qed.
Print Assumptions C26_refuted.

(** ** C27 *)
Theorem C27_lines : forall s tc src evs chunks toks,
  opens src -> binary_mode s = false -> Processed s evs chunks -> Finishes s evs -> Tokens chunks toks ->
  exists p acts, byteio_run s tc src evs = (p, acts, REnd) /\ length (text_lines (visible (pr_out p))) = line_count (concat chunks) /\
    forall i line, nth_error (text_lines (visible (pr_out p))) i = Some line ->
      exists l, nth_error (token_lines toks) i = Some l /\
        line ++ [10] = map fst (line_number_cells s (1 + N.of_nat i)) ++ map fst (line_cells s l) /\
        nth_error (byte_lines (concat chunks)) i = Some (concat (map tok_bytes l)) /\
        ((debugging s = true \/ s_no_line_numbers s = false) -> (debugging s = true -> 1 + N.of_nat i < 100000000) ->
         read_line_number line = Some (1 + N.of_nat i)).
Proof. exact lines_run. Qed.
Print Assumptions C27_lines.

Example C27_example : Tokens ex_chunks ex_toks /\ Processed default_settings ex_evs ex_chunks /\
  line_count (concat ex_chunks) = 2%nat /\
  text_lines (visible (pr_out (fst (fst (byteio_run default_settings 80 SrcStdin ex_evs))))) = [[32; 49; 0x2502; 65; 477; 0x21B5]; [32; 50; 0x2502; 0x21E5; 9; 233; 0x2C6F]].
Proof. split; [exact ex_tokens|]. split; [apply ex_processed; now left|]. split; vm_compute; reflexivity. Qed.

(** ** C28 *)

(** Whatever happens, the output consists of parts each of which ends with its only line feed. *)
Theorem C28_text_terminated : forall s tc src evs chunks p acts en,
  opens src -> binary_mode s = false -> Processed s evs chunks -> byteio_run s tc src evs = (p, acts, en) ->
  exists parts, pr_out p = concat parts /\
    Forall (fun part => exists v, visible part = v ++ [10] /\ ~ In 10 v /\ final_attrs part = attrs0) parts.
Proof. exact text_parts. Qed.
Print Assumptions C28_text_terminated.

Theorem C28_binary_terminated : forall s tc c src evs chunks p acts en,
  opens src -> binary_ok s tc c -> Processed s evs chunks -> byteio_run s tc src evs = (p, acts, en) ->
  exists parts, pr_out p = concat parts /\
    Forall (fun part => exists v, visible part = v ++ [10] /\ ~ In 10 v /\ final_attrs part = attrs0) parts.
Proof. exact bin_parts. Qed.
Print Assumptions C28_binary_terminated.

Example C28_example : Processed default_settings [RData [65; 10; 66]] [[65; 10; 66]] /\
  visible (pr_out (fst (fst (byteio_run default_settings 80 SrcStdin [RData [65; 10; 66]])))) = [32; 49; 0x2502; 65; 0x21B5; 10; 32; 50; 0x2502; 66; 10].
Proof.
  split; [|vm_compute; reflexivity]. split; [repeat constructor|]. eexists. split; [apply Lim_none; now left|reflexivity].
Qed.

(** ** C29 *)

(** If the input does not end after the chunks (reading is interrupted or fails) all complete
    lines/rows have been shown; at the end nothing is withheld (C12). *)
Theorem C29_prompt_text : forall s tc src evs chunks toks,
  opens src -> binary_mode s = false -> Processed s evs chunks -> ~ Stops (s_max_bytes s) (s_max_lines s) (concat (provided evs)) -> Tokens chunks toks ->
  (ending_of evs = At_interrupt -> exists p acts, byteio_run s tc src evs = (p, acts, REnd) /\ displays (pr_out p) (text_rows_so_far s toks)) /\
  (ending_of evs = At_failure -> exists p acts, byteio_run s tc src evs = (p, acts, RError OSError) /\ displays (pr_out p) (text_rows_so_far s toks)).
Proof. exact text_stop. Qed.
Print Assumptions C29_prompt_text.

Theorem C29_prompt_binary : forall s tc c src evs chunks toks,
  opens src -> binary_ok s tc c -> Processed s evs chunks -> ~ Stops (s_max_bytes s) (s_max_lines s) (concat (provided evs)) -> Tokens chunks toks ->
  (ending_of evs = At_interrupt -> exists p acts, byteio_run s tc src evs = (p, acts, REnd) /\ displays (pr_out p) (binary_rows_so_far s c (byte_cells s toks))) /\
  (ending_of evs = At_failure -> exists p acts, byteio_run s tc src evs = (p, acts, RError OSError) /\ displays (pr_out p) (binary_rows_so_far s c (byte_cells s toks))).
Proof. exact bin_stop. Qed.
Print Assumptions C29_prompt_binary.

Example C29_example :
  let evs := [RData [65; 10; 66; 67; 68]; RInterrupt] in
  ending_of evs = At_interrupt /\
  text_lines (visible (pr_out (fst (fst (byteio_run default_settings 80 SrcStdin evs))))) = [[32; 49; 0x2502; 65; 0x21B5]] /\
  read_dump (apply_opt (bin_columns 2) O_no_offsets) 2 (visible (pr_out (fst (fst (byteio_run (apply_opt (bin_columns 2) O_no_offsets) 80 SrcStdin evs))))) = [65; 10; 66; 67].
Proof. vm_compute. repeat split. Qed.
