(** The examples of the help page and what is said about them: property C118 *)
From Coq Require Import Ascii String.
From Coq Require Import List NArith ZArith Bool Lia.
From Verif.Model Require Import Base Settings Reader Runner Options Render Messages Legend Process Args Help.
From Verif.Spec Require Import Utf8 Conditions Terminal Lexical Display Output Compare Dump Process CommandLine HelpShown HelpExamples.
From Verif.Proof Require Import HelpClaims HelpExamples.
Import ListNotations.
Local Open Scope N_scope.

(** ** C118: the page tells the examples, at every width *)
Theorem C118_listed : forall columns tty x, In x example_list -> Told (lines (visible (help_page columns tty))) x.
Proof. exact (fun columns tty x => examples_told tty columns x). Qed.
Print Assumptions C118_listed.
(** "Read file in text mode, highlight escape sequences, marker verbosity 2 (max)" *)
Theorem C118_first : forall w content chunks toks,
  Named w (Some (txt "file.txt")) content -> is_bytes content -> Blocks 4096 content chunks -> Tokens chunks toks ->
  exists out, main w first_command = Some (mkApp (out ++ [10]) None (Some 0%Z)) /\
    displays out (lines_with (line_number_cells plain) in_text 1 (token_lines toks)).
Proof. exact first_main. Qed.
Print Assumptions C118_first.
(** "Read file in binary mode, ignore whitespace, printables and UTF-8 sequences" *)
Theorem C118_second : forall w content chunks toks,
  Named w (Some (txt "file.bin")) content -> is_bytes content -> Blocks 4096 content chunks -> Tokens chunks toks -> (48 <= w_columns w)%Z ->
  let c := fitting_columns (w_columns w) in
  exists out, main w second_command = Some (mkApp (out ++ [10]) None (Some 0%Z)) /\
    displays out (binary_rows (as_binary None None false) c (flat_map without_texts toks)) /\
    read_dump (as_binary None None false) c (visible out) = content.
Proof. exact second_main. Qed.
Print Assumptions C118_second.
(** "Read stdin in binary mode, highlight control characters, process 128 first bytes and exit": true
    if the input ends or 4096 bytes arrive *)
Theorem C118_third_partial : forall w toks,
  w_interrupted w = false \/ (4096 <= List.length (w_typed w))%nat -> is_bytes (w_typed w) -> Tokens [firstn 128 (w_typed w)] toks -> (48 <= w_columns w)%Z ->
  let c := fitting_columns (w_columns w) in
  exists out, main w third_command = Some (mkApp (out ++ [10]) None (Some 0%Z)) /\
    displays out (binary_rows (as_binary None None false) c (flat_map inverse_controls toks)) /\
    read_dump (as_binary None None false) c (visible out) = firstn 128 (w_typed w).
Proof. exact third_main. Qed.
Print Assumptions C118_third_partial.
(** if fewer have arrived when the user gives up, nothing has been shown, even of 128 bytes or more *)
Theorem C118_third_refuted : forall w, w_interrupted w = true -> (List.length (w_typed w) < 4096)%nat -> (48 <= w_columns w)%Z ->
  main w third_command = Some (mkApp [10] None (Some 0%Z)).
Proof. exact third_waits. Qed.
Print Assumptions C118_third_refuted.
(** "Show demo in binary mode, 32 bytes per line, with decimal offsets" *)
Theorem C118_fourth : forall w chunks toks, is_bytes (w_demo w) -> Blocks 4096 (w_demo w) chunks -> Tokens chunks toks ->
  let s := as_binary (Some 32%Z) (Some true) true in
  exists out, main w fourth_command = Some (mkApp (out ++ demo_epilogue ++ [10]) None (Some 0%Z)) /\
    displays out (binary_rows s 32 (flat_map (plain_bytes (Some true)) toks)) /\
    read_dump s 32 (visible out) = w_demo w.
Proof. exact fourth_main. Qed.
Print Assumptions C118_fourth.
(** "Display annotation symbol list and color map" *)
Theorem C118_fifth : exists ls l, legend_bytes = utf8_text (as_lines ls ++ l) /\ Forall no_boundary ls /\ no_boundary l /\ starts_hash l = true /\
  forall w, main w fifth_command = Some (mkApp (as_lines (filter (fun l => negb (starts_hash l)) ls) ++ [10]) None (Some 0%Z)).
Proof. exact fifth_main. Qed.
Print Assumptions C118_fifth.
(** README.md:126 says that details of level 1 are the default; it is level 0 *)
Theorem C118_level : forall w opts, kolombos w (O_marker 0 :: opts) = kolombos w opts.
Proof. exact level_zero. Qed.
Print Assumptions C118_level.
Theorem C118_level_refuted : exists w, main w [txt "a"] <> main w [txt "-m1"; txt "a"].
Proof. exact (ex_intro _ soh_world (proj1 levels)). Qed.
Print Assumptions C118_level_refuted.
(** one of the examples; a world in which the third one shows nothing and one
    in which it shows something *)
Example C118_example :
  In (txt "Display annotation symbol list and color map", [txt "--legend"]) example_list /\
  (let w := mkWorld [] [] (repeat 1 200) true 80 in w_interrupted w = true /\ (128 <= List.length (w_typed w) < 4096)%nat /\ (48 <= w_columns w)%Z) /\
  (let w := mkWorld [] [] (repeat 1 200) false 80 in exists out, main w third_command = Some (mkApp out None (Some 0%Z)) /\ List.length (lines (visible out)) = 19%nat) /\
  Named (mkWorld [(txt "file.txt", Regular [27; 91; 49; 109; 65])] [] [] false 80) (Some (txt "file.txt")) [27; 91; 49; 109; 65].
Proof.
  split; [repeat (first [left; reflexivity|right])|]. split; [cbn; lia|]. split; [eexists; split; [vm_compute; reflexivity|vm_compute; reflexivity]|].
  apply (Nm_file _ _ (txt "file.txt")); [reflexivity|intros [X|[X|X]]; discriminate|]. exists [], []. split; [reflexivity|intros []].
Qed.
