(** The table of character classes in the README: property C119 *)
From Coq Require Import Ascii String.
From Coq Require Import List NArith ZArith Bool Lia.
From Verif.Model Require Import Base Settings Reader Runner Options Render Process Args.
From Verif.Spec Require Import Terminal Lexical Display Output Compare Process HelpShown HelpExamples ReadmeTable.
From Verif.Proof Require Import ReadmeTable.
Import ListNotations.
Local Open Scope N_scope.

(** ** C119: every piece of the input belongs to one row and is as described there; "null byte" and
    "delete" are taken from the examples of control characters *)
Theorem C119_classes_partial : forall chunks toks t, Tokens chunks toks -> In t toks ->
  exists r, In r readme_table /\ row_class r = class_of (tok_kind t) /\ described_by r (tok_bytes t).
Proof. exact class_described. Qed.
Print Assumptions C119_classes_partial.
Theorem C119_one_row : forall r1 r2, In r1 readme_table -> In r2 readme_table -> row_class r1 = row_class r2 -> r1 = r2.
Proof. exact rows_apart. Qed.
Print Assumptions C119_one_row.
(** their codes are missing in the ranges *)
Theorem C119_ranges_refuted : forall b, b = 0 \/ b = 127 -> exists r toks, In r readme_table /\ row_class r = CC_control /\ ~ in_ranges (row_ranges r) b /\
  Tokens [[b]] toks /\ map (fun t => class_of (tok_kind t)) toks = [CC_control].
Proof. exact null_and_delete. Qed.
Print Assumptions C119_ranges_refuted.
(** the flags in a row hide and highlight this class and nothing else *)
Theorem C119_ignore : forall r, In r readme_table -> forall w content chunks toks,
  Named w None content -> is_bytes content -> Blocks 4096 content chunks -> Tokens chunks toks -> (48 <= w_columns w)%Z ->
  exists out, main w [txt "-b"; row_ignore r] = Some (mkApp (out ++ [10]) None (Some 0%Z)) /\
    displays out (binary_rows (as_binary None None false) (fitting_columns (w_columns w)) (flat_map (bytes_hidden (row_class r)) toks)).
Proof. exact ignore_flag. Qed.
Print Assumptions C119_ignore.
Theorem C119_focus : forall r, In r readme_table -> forall w content chunks toks,
  Named w None content -> is_bytes content -> Blocks 4096 content chunks -> Tokens chunks toks -> (48 <= w_columns w)%Z ->
  exists out, main w [txt "-b"; row_focus r] = Some (mkApp (out ++ [10]) None (Some 0%Z)) /\
    displays out (binary_rows (as_binary None None false) (fitting_columns (w_columns w)) (flat_map (bytes_highlighted (row_class r)) toks)).
Proof. exact focus_flag. Qed.
Print Assumptions C119_focus.
(** the same in text mode *)
Theorem C119_text_ignore : forall r, In r readme_table -> forall w content chunks toks,
  Named w None content -> is_bytes content -> Blocks 4096 content chunks -> Tokens chunks toks ->
  exists out, main w [row_ignore r] = Some (mkApp (out ++ [10]) None (Some 0%Z)) /\
    displays out (lines_with (line_number_cells plain) (hidden plain (is_class (row_class r))) 1 (token_lines toks)).
Proof. exact ignore_text. Qed.
Print Assumptions C119_text_ignore.
Theorem C119_text_focus : forall r, In r readme_table -> forall w content chunks toks,
  Named w None content -> is_bytes content -> Blocks 4096 content chunks -> Tokens chunks toks ->
  exists out, main w [row_focus r] = Some (mkApp (out ++ [10]) None (Some 0%Z)) /\
    displays out (lines_with (line_number_cells plain) (highlighted plain (is_class (row_class r))) 1 (token_lines toks)).
Proof. exact focus_text. Qed.
Print Assumptions C119_text_focus.
(** without ESC and bytes above 127: exactly the bytes in the ranges are hidden,
    or highlighted *)
Theorem C119_bytes : forall r w, In r readme_table -> w_interrupted w = false -> Forall plain_byte (w_typed w) -> (48 <= w_columns w)%Z ->
  exists out, main w [txt "-b"; row_ignore r] = Some (mkApp (out ++ [10]) None (Some 0%Z)) /\
    displays out (binary_rows (as_binary None None false) (fitting_columns (w_columns w)) (map (byte_hidden r) (w_typed w))).
Proof. exact hidden_each. Qed.
Print Assumptions C119_bytes.
Theorem C119_bytes_focus : forall r w, In r readme_table -> w_interrupted w = false -> Forall plain_byte (w_typed w) -> (48 <= w_columns w)%Z ->
  exists out, main w [txt "-b"; row_focus r] = Some (mkApp (out ++ [10]) None (Some 0%Z)) /\
    displays out (binary_rows (as_binary None None false) (fitting_columns (w_columns w)) (map (byte_highlighted r) (w_typed w))).
Proof. exact highlighted_each. Qed.
Print Assumptions C119_bytes_focus.
Example C119_example :
  let w := mkWorld [] [] [65; 32; 1; 127; 0; 66; 10] false 80 in
  let r := nth 1 readme_table (mkRow CC_space [] [] []) in
  In r readme_table /\ w_interrupted w = false /\ Forall plain_byte (w_typed w) /\
  map (fun x => snd (fst x)) (map (byte_hidden r) (w_typed w)) = [65; 0x2423; 0xD7; 0xD7; 0xD7; 66; 0x21B5] /\
  exists out, main w [txt "-b"; txt "-C"] = Some (mkApp out None (Some 0%Z)).
Proof.
  cbv zeta. split; [right; left; reflexivity|]. split; [reflexivity|]. split; [repeat (constructor; [split; [reflexivity|discriminate]|]); constructor|].
  split; [vm_compute; reflexivity|]. eexists. vm_compute. reflexivity.
Qed.
