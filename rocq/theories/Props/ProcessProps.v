(** The program in its surroundings: property C77 *)
From Coq Require Import Ascii String.
From Coq Require Import List NArith ZArith Bool.
From Verif.Model Require Import Base Settings Reader Runner Options Messages Process Render.
From Verif.Spec Require Import Terminal Lexical Display Output Input Dump Invocation Process.
From Verif.Proof Require Import ProcessFacts ProcessClaims.
Import ListNotations.
Local Open Scope Z_scope.

(** ** C77 *)

(** Text mode: the file named last (the standard input if there is none) is read completely, in
    blocks of the buffer size; its tokens are displayed, an empty line follows, the program
    ends with code 0. *)
Theorem C77_text : forall w opts s s1 content n chunks toks,
  parse_args opts = Some s -> reads_input opts -> app_input_settings s = Some s1 -> binary_mode s1 = false ->
  Named w (last_value file_of opts None) content -> is_bytes content -> buffer_size s1 n -> -1 <= n ->
  ToProcess s1 n content chunks -> Tokens chunks toks ->
  exists out, kolombos w opts = mkApp (out ++ [10%N]) None (Some 0) /\ displays out (numbered s1 1 (token_lines toks)).
Proof. exact main_text. Qed.
Print Assumptions C77_text.

(** Binary mode: reading the dump back gives the content within the limits. *)
Theorem C77_binary : forall w opts s s1 content n chunks toks c d,
  parse_args opts = Some s -> reads_input opts -> app_input_settings s = Some s1 -> binary_ok s1 (w_columns w) c ->
  Named w (last_value file_of opts None) content -> is_bytes content -> buffer_size s1 n -> -1 <= n ->
  Limited (s_max_bytes s1) (s_max_lines s1) content d -> ToProcess s1 n content chunks -> Tokens chunks toks ->
  exists out, kolombos w opts = mkApp (out ++ [10%N]) None (Some 0) /\ displays out (binary_rows s1 c (byte_cells s1 toks)) /\ read_dump s1 c (visible out) = d.
Proof. exact main_binary. Qed.
Print Assumptions C77_binary.

(** The demonstration does the same with the file that comes with the program, and says how to
    go on. *)
Theorem C77_demo_text : forall w opts s s1 n chunks toks,
  parse_args opts = Some s -> In O_demo opts -> ~ In O_legend opts -> ~ In O_version opts -> app_input_settings s = Some s1 -> binary_mode s1 = false ->
  is_bytes (w_demo w) -> buffer_size s1 n -> -1 <= n -> ToProcess s1 n (w_demo w) chunks -> Tokens chunks toks ->
  exists out, kolombos w opts = mkApp (out ++ demo_epilogue ++ [10%N]) None (Some 0) /\ displays out (numbered s1 1 (token_lines toks)).
Proof. exact main_demo_text. Qed.
Print Assumptions C77_demo_text.
Theorem C77_demo_binary : forall w opts s s1 n chunks toks c d,
  parse_args opts = Some s -> In O_demo opts -> ~ In O_legend opts -> ~ In O_version opts -> app_input_settings s = Some s1 -> binary_ok s1 (w_columns w) c ->
  is_bytes (w_demo w) -> buffer_size s1 n -> -1 <= n -> Limited (s_max_bytes s1) (s_max_lines s1) (w_demo w) d -> ToProcess s1 n (w_demo w) chunks -> Tokens chunks toks ->
  exists out, kolombos w opts = mkApp (out ++ demo_epilogue ++ [10%N]) None (Some 0) /\ displays out (binary_rows s1 c (byte_cells s1 toks)) /\ read_dump s1 c (visible out) = d.
Proof. exact main_demo_binary. Qed.
Print Assumptions C77_demo_binary.

(** Blocks exist for every content, and they contain the data within the limits. *)
Theorem C77_blocks : forall s size content d, size <> 0 -> -1 <= size -> Limited (s_max_bytes s) (s_max_lines s) content d ->
  exists chunks, ToProcess s size content chunks /\ concat chunks = d.
Proof. exact to_process. Qed.
Print Assumptions C77_blocks.

(** No other file matters, and it does not matter whether the input is a file or the standard
    input. *)
Theorem C77_same : forall w1 w2 opts content, w_columns w1 = w_columns w2 -> reads_input opts ->
  Named w1 (last_value file_of opts None) content -> Named w2 (last_value file_of opts None) content -> kolombos w1 opts = kolombos w2 opts.
Proof. exact main_same. Qed.
Print Assumptions C77_same.

(** Interruption by the user: the blocks that were complete are displayed as far as rows are
    complete, the rest of what was typed is dropped; the program ends with code 0. *)
Theorem C77_interrupted_text : forall w opts s s1 n cs toks,
  parse_args opts = Some s -> reads_input opts -> app_input_settings s = Some s1 ->
  names_stdin (last_value file_of opts None) -> w_interrupted w = true -> is_bytes (w_typed w) -> buffer_size s1 n -> 0 < n ->
  complete_blocks (Z.to_nat n) (w_typed w) cs -> no_limit (s_max_bytes s1) -> no_limit (s_max_lines s1) -> Tokens cs toks -> binary_mode s1 = false ->
  exists out, kolombos w opts = mkApp (out ++ [10%N]) None (Some 0) /\ displays out (text_rows_so_far s1 toks).
Proof. exact interrupted_text. Qed.
Print Assumptions C77_interrupted_text.
Theorem C77_interrupted_binary : forall w opts s s1 n cs toks,
  parse_args opts = Some s -> reads_input opts -> app_input_settings s = Some s1 ->
  names_stdin (last_value file_of opts None) -> w_interrupted w = true -> is_bytes (w_typed w) -> buffer_size s1 n -> 0 < n ->
  complete_blocks (Z.to_nat n) (w_typed w) cs -> no_limit (s_max_bytes s1) -> no_limit (s_max_lines s1) -> Tokens cs toks ->
  forall c, binary_ok s1 (w_columns w) c ->
  exists out, kolombos w opts = mkApp (out ++ [10%N]) None (Some 0) /\ displays out (binary_rows_so_far s1 c (byte_cells s1 toks)).
Proof. exact interrupted_binary. Qed.
Print Assumptions C77_interrupted_binary.

(** Failures: a file that cannot be opened, *)
Theorem C77_missing : forall w opts s s1 name,
  parse_args opts = Some s -> reads_input opts -> app_input_settings s = Some s1 -> last_value file_of opts None = Some name -> ~ names_stdin (Some name) ->
  no_file w name -> failed s1 OSError (kolombos w opts).
Proof. exact main_missing. Qed.
Print Assumptions C77_missing.
(** a file that cannot be positioned (the standard input need not be positioned), *)
Theorem C77_pipe : forall w opts s s1 name,
  parse_args opts = Some s -> reads_input opts -> app_input_settings s = Some s1 -> last_value file_of opts None = Some name -> ~ names_stdin (Some name) ->
  forall content n, file_at w name (Pipe content) -> content <> [] -> buffer_size s1 n -> -1 <= n -> failed s1 OSError (kolombos w opts).
Proof. exact main_pipe. Qed.
Print Assumptions C77_pipe.
(** a buffer size below -1, *)
Theorem C77_negative : forall w opts s s1 content n, parse_args opts = Some s -> reads_input opts -> app_input_settings s = Some s1 ->
  Named w (last_value file_of opts None) content -> buffer_size s1 n -> n < -1 -> failed s1 ValueError (kolombos w opts).
Proof. exact main_negative. Qed.
Print Assumptions C77_negative.
(** and, with another code, options that do not go together. *)
Theorem C77_usage : forall w opts, Rejected opts <-> ap_code (kolombos w opts) = Some 2.
Proof. exact main_usage. Qed.
Print Assumptions C77_usage.

(** "Every input that can be read is displayed" is false. *)
Theorem C77_readable_refuted : exists w name content, file_at w name (Pipe content) /\ content <> [] /\ ap_err (kolombos w [O_file name]) = Some OSError.
Proof.
  exists (mkWorld [(txt "fifo", Pipe [65%N])] [] [] false 80), (txt "fifo"), [65%N]. split; [exists [], []; split; [reflexivity|intros []]|]. split; [discriminate|]. vm_compute. reflexivity.
Qed.
Print Assumptions C77_readable_refuted.

Definition example_world := mkWorld [(txt "a", Regular (map N_of_ascii (list_ascii_of_string "abcde"))); (txt "b", Regular [66%N])] [68%N] [67%N] false 80.
Example C77_example :
  let out opts := ap_out (kolombos example_world opts) in
  Named example_world (last_value file_of [O_buffer 2; O_file (txt "a")] None) (txt "abcde") /\
  ToProcess default_settings 2 (txt "abcde") [txt "ab"; txt "cd"; txt "e"] /\
  text_lines (visible (out [O_buffer 2; O_file (txt "a"); O_no_line_numbers])) = [txt "abcde"; []] /\
  text_lines (visible (out [O_buffer 0; O_file (txt "b"); O_no_line_numbers])) = [txt "B"; []] /\
  text_lines (visible (out [O_file []; O_no_line_numbers])) = [txt "C"; []] /\
  text_lines (visible (out [O_file (txt "-"); O_no_line_numbers])) = [txt "C"; []] /\
  ap_err (kolombos example_world [O_file (txt "c")]) = Some OSError /\
  ap_err (kolombos example_world [O_buffer (-2)]) = Some ValueError.
Proof.
  split; [apply (Nm_file _ _ (txt "a")); [reflexivity|intros [K|[K|K]]; discriminate|exists [], [(txt "b", Regular [66%N])]; split; [reflexivity|intros []]]|].
  split. { exists [txt "ab"; txt "cd"; txt "e"], (txt "abcde"). split; [left; split; [reflexivity|]|split; [constructor; now left|reflexivity]].
           apply (Bl_more 2 (txt "ab") (txt "cde")); [reflexivity|discriminate|]. apply (Bl_more 2 (txt "cd") (txt "e")); [reflexivity|discriminate|]. apply Bl_last; [discriminate|cbn; auto]. }
  vm_compute. repeat split.
Qed.
