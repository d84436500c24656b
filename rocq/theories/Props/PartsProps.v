(** C114: parts of the input are shown independently of each other *)
From Coq Require Import List Arith NArith ZArith Bool Lia.
From Verif.Model Require Import Base Ansi Settings Segment Template Parser Console Formatter Reader Runner Options.
From Verif.Spec Require Import Numbers Terminal Utf8 Lexical SgrParams Display Output Input Parts.
From Verif.Proof Require Import ExampleFacts PartsFacts PartsExamples.
Import ListNotations.
Local Open Scope N_scope.

(** Text mode: if the first part ends with a line feed, the whole is shown as the lines of the first
    part followed by those of the second, numbered throughout; also if the border is within a chunk. *)
Theorem C114_text : forall s tc src1 evs1 a ta src2 evs2 b tb src evs c,
  binary_mode s = false -> Joined a b c -> ends_line (concat a) ->
  opens src1 -> Processed s evs1 a -> Finishes s evs1 -> Tokens a ta ->
  opens src2 -> Processed s evs2 b -> Finishes s evs2 -> Tokens b tb ->
  opens src -> Processed s evs c -> Finishes s evs ->
  exists p1 x1 p2 x2 p x la lb,
    byteio_run s tc src1 evs1 = (p1, x1, REnd) /\ displays (pr_out p1) (with_numbers s 1 la) /\
    byteio_run s tc src2 evs2 = (p2, x2, REnd) /\ displays (pr_out p2) (with_numbers s 1 lb) /\
    byteio_run s tc src evs = (p, x, REnd) /\ displays (pr_out p) (with_numbers s 1 (la ++ lb)).
Proof. exact text_parts. Qed.
Print Assumptions C114_text.

(** Binary mode: the same for rows, if the first part fills its rows and ends with a chunk or with a
    line feed. *)
Theorem C114_binary : forall s tc n src1 evs1 a ta src2 evs2 b tb src evs c k,
  binary_ok s tc n -> Joined a b c -> length (concat a) = (k * n)%nat ->
  opens src1 -> Processed s evs1 a -> Finishes s evs1 -> Tokens a ta ->
  opens src2 -> Processed s evs2 b -> Finishes s evs2 -> Tokens b tb ->
  opens src -> Processed s evs c -> Finishes s evs ->
  exists p1 x1 p2 x2 p x ra rb,
    byteio_run s tc src1 evs1 = (p1, x1, REnd) /\ displays (pr_out p1) (with_offsets_from s n ra) /\
    byteio_run s tc src2 evs2 = (p2, x2, REnd) /\ displays (pr_out p2) (with_offsets_from s n rb) /\
    byteio_run s tc src evs = (p, x, REnd) /\ displays (pr_out p) (with_offsets_from s n (ra ++ rb)).
Proof. exact binary_parts. Qed.
Print Assumptions C114_binary.

(** If two inputs of one chunk differ in one line only, so do the outputs. *)
Theorem C114_line : forall s tc src evs src' evs' a x y b toks toks',
  binary_mode s = false -> a = [] \/ ends_line a -> ~ In 10 x -> ~ In 10 y ->
  opens src -> Processed s evs [a ++ x ++ 10 :: b] -> Finishes s evs -> Tokens [a ++ x ++ 10 :: b] toks ->
  opens src' -> Processed s evs' [a ++ y ++ 10 :: b] -> Finishes s evs' -> Tokens [a ++ y ++ 10 :: b] toks' ->
  exists p acts p' acts' la lx ly lb,
    byteio_run s tc src evs = (p, acts, REnd) /\ displays (pr_out p) (with_numbers s 1 (la ++ lx :: lb)) /\
    byteio_run s tc src' evs' = (p', acts', REnd) /\ displays (pr_out p') (with_numbers s 1 (la ++ ly :: lb)).
Proof. exact one_line. Qed.
Print Assumptions C114_line.

(** Without a line feed at the border the first part looks different in front of the second one. *)
Theorem C114_border_matters : exists s a b, binary_ok s 80 1 /\ length a = 1%nat /\ with_offsets s = false /\
  shown s [a ++ b] <> shown s [a] ++ shown s [b].
Proof. exact border_matters. Qed.
Print Assumptions C114_border_matters.

Example C114_example :
  Joined [[65; 27; 91; 49; 109; 10]] [[9]; [195; 169; 1]] ex_chunks /\ ends_line (concat [[65; 27; 91; 49; 109; 10]]) /\
  Tokens [[65; 27; 91; 49; 109; 10]] [(K_run R_printable, [65], []); (K_csi [49] [] 109, [27; 91; 49; 109], [1]); (K_newline, [10], [])] /\
  Tokens [[9]; [195; 169; 1]] [(K_run R_tab, [9], []); (K_utf8 0xE9, [195; 169], []); (K_run R_control, [1], [])] /\
  Processed (text_marked 1) ex_evs ex_chunks /\ Finishes (text_marked 1) ex_evs /\ binary_ok (bin_columns 3) 80 3 /\
  length (concat [[65; 27; 91; 49; 109; 10]]) = (2 * 3)%nat /\
  (let nn := apply_opt (text_marked 1) O_no_line_numbers in
   shown nn ex_chunks = shown nn [[65; 27; 91; 49; 109; 10]] ++ shown nn [[9]; [195; 169; 1]] /\ shown nn [[9]; [195; 169; 1]] <> []).
Proof. exact parts_example. Qed.
