(** A concrete input used to show that the hypotheses of the claims can be met *)
From Coq Require Import List Arith NArith ZArith Bool Lia.
From Verif.Model Require Import Base Ansi Settings Reader Options.
From Verif.Spec Require Import Numbers Terminal Utf8 Lexical SgrParams Display Output Input.
From Verif.Proof Require Import LexExtra.
Import ListNotations.
Local Open Scope N_scope.

(** "A", SGR 1, line feed, tab | e acute, 0x01 *)
Definition ex_chunks : list (list N) := [[65; 27; 91; 49; 109; 10; 9]; [195; 169; 1]].
Definition ex_evs : list read_ev := map RData ex_chunks.
Definition ex_toks : list token :=
  [(K_run R_printable, [65], []); (K_csi [49] [] 109, [27; 91; 49; 109], [1]); (K_newline, [10], []);
   (K_run R_tab, [9], []); (K_utf8 0xE9, [195; 169], []); (K_run R_control, [1], [])].

Lemma ex_tokens : Tokens ex_chunks ex_toks.
Proof.
  exists [[(K_run R_printable, [65]); (K_csi [49] [] 109, [27; 91; 49; 109]); (K_newline, [10]); (K_run R_tab, [9])];
          [(K_utf8 0xE9, [195; 169]); (K_run R_control, [1])]].
  split.
  - constructor; [|constructor; [|constructor]].
    + lex1 (K_run R_printable) [65] [27; 91; 49; 109; 10; 9]; [tok_run|].
      lex1 (K_csi [49] [] 109) (27 :: 91 :: [49] ++ [] ++ [109]) [10; 9].
      { constructor. repeat split; repeat constructor; unfold rng; lia. }
      lex1 K_newline [10] [9]; [constructor|]. lex1 (K_run R_tab) [9] (@nil N); [tok_run|constructor].
    + lex1 (K_utf8 0xE9) (utf8_encode 0xE9) [1]; [constructor; [unfold scalar; lia|lia]|].
      lex1 (K_run R_control) [1] (@nil N); [tok_run|constructor].
  - cbn [concat app]. apply Forall2_cons; [now split|]. apply Forall2_cons; [split; [reflexivity|]|repeat (apply Forall2_cons; [now split|]); constructor].
    cbn. apply PC_last; [intros [K|[]]; discriminate|]. change [49] with ([49] ++ []). change [1] with [num_value 10 (map (fun c => c - 48) [49])].
    apply Part_number; [discriminate|constructor; [split; lia|constructor]|cbn; lia|now left].
Qed.

Lemma ex_processed s : no_limit (s_max_bytes s) -> no_limit (s_max_lines s) -> Processed s ex_evs ex_chunks.
Proof.
  intros H1 H2. split; [repeat constructor|]. exists (concat ex_chunks). split; [now apply Lim_none|reflexivity].
Qed.

Definition text_marked (m : Z) : settings := apply_opt default_settings (O_marker m).
Definition bin_columns (c : Z) : settings := apply_opt (apply_opt default_settings O_binary) (O_columns c).
