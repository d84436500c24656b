(** Examples for C114 *)
From Coq Require Import List Arith NArith ZArith Bool Lia.
From Verif.Model Require Import Base Ansi Settings Segment Template Parser Console Formatter Reader Runner Options.
From Verif.Spec Require Import Numbers Terminal Utf8 Lexical SgrParams Display Output Input Parts.
From Verif.Proof Require Import LexFacts RunMain LexExtra ExampleFacts PartsFacts.
Import ListNotations.
Local Open Scope N_scope.

Definition shown (s : settings) (chunks : list (list N)) : list cell := screen (pr_out (fst (fst (byteio_run s 80 SrcStdin (map RData chunks))))).

Lemma border_matters : exists s a b, binary_ok s 80 1 /\ length a = 1%nat /\ with_offsets s = false /\
  shown s [a ++ b] <> shown s [a] ++ shown s [b].
Proof. exists (apply_opt (bin_columns 1) O_no_offsets), [27], [91; 49; 109]. split; [repeat split; lia|]. split; [reflexivity|]. split; [reflexivity|]. vm_compute. discriminate. Qed.

Lemma parts_example :
  Joined [[65; 27; 91; 49; 109; 10]] [[9]; [195; 169; 1]] ex_chunks /\ ends_line (concat [[65; 27; 91; 49; 109; 10]]) /\
  Tokens [[65; 27; 91; 49; 109; 10]] [(K_run R_printable, [65], []); (K_csi [49] [] 109, [27; 91; 49; 109], [1]); (K_newline, [10], [])] /\
  Tokens [[9]; [195; 169; 1]] [(K_run R_tab, [9], []); (K_utf8 0xE9, [195; 169], []); (K_run R_control, [1], [])] /\
  Processed (text_marked 1) ex_evs ex_chunks /\ Finishes (text_marked 1) ex_evs /\ binary_ok (bin_columns 3) 80 3 /\
  length (concat [[65; 27; 91; 49; 109; 10]]) = (2 * 3)%nat /\
  (let nn := apply_opt (text_marked 1) O_no_line_numbers in
   shown nn ex_chunks = shown nn [[65; 27; 91; 49; 109; 10]] ++ shown nn [[9]; [195; 169; 1]] /\ shown nn [[9]; [195; 169; 1]] <> []).
Proof.
  split; [apply (J_inside [] [65; 27; 91; 49; 109; 10] [9] [[195; 169; 1]]); now exists [65; 27; 91; 49; 109]|].
  split; [now exists [65; 27; 91; 49; 109]|]. split.
  { exists [[(K_run R_printable, [65]); (K_csi [49] [] 109, [27; 91; 49; 109]); (K_newline, [10])]]. split.
    - constructor; [|constructor]. lex1 (K_run R_printable) [65] [27; 91; 49; 109; 10]; [tok_run|].
      lex1 (K_csi [49] [] 109) (27 :: 91 :: [49] ++ [] ++ [109]) [10].
      { constructor. repeat split; repeat constructor; unfold rng; lia. }
      lex1 K_newline [10] (@nil N); [constructor|constructor].
    - cbn [concat app]. apply Forall2_cons; [now split|]. apply Forall2_cons; [split; [reflexivity|]|apply Forall2_cons; [now split|constructor]].
      cbn. apply PC_last; [intros [K|[]]; discriminate|]. change [49] with ([49] ++ []). change [1] with [num_value 10 (map (fun c => c - 48) [49])].
      apply Part_number; [discriminate|constructor; [split; lia|constructor]|cbn; lia|now left]. }
  split.
  { exists [[(K_run R_tab, [9])]; [(K_utf8 0xE9, [195; 169]); (K_run R_control, [1])]]. split.
    - constructor; [lex1 (K_run R_tab) [9] (@nil N); [tok_run|constructor]|]. constructor; [|constructor].
      lex1 (K_utf8 0xE9) (utf8_encode 0xE9) [1]; [constructor; [unfold scalar; lia|lia]|]. lex1 (K_run R_control) [1] (@nil N); [tok_run|constructor].
    - repeat (apply Forall2_cons; [now split|]). constructor. }
  split; [apply ex_processed; now left|]. split; [now left|]. split; [repeat split; lia|]. split; [reflexivity|]. split; [vm_compute; reflexivity|vm_compute; discriminate].
Qed.
