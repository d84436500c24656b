(** Concrete cases for the claims about traces *)
From Coq Require Import List Arith NArith ZArith Bool Lia.
From Verif.Model Require Import Base Settings Segment Template Parser Reader Runner Options Trace.
From Verif.Spec Require Import Terminal Lexical Display Output Input Names Weave.
From Verif.Proof Require Import TraceFacts TraceClaims LexExtra ExampleFacts.
Import ListNotations.
Local Open Scope N_scope.

Definition debugged (n : nat) (s : settings) : settings := fold_right (fun _ x => apply_opt x O_debug) s (repeat tt n).
Fixpoint lines_from (cur l : list N) : list (list N) :=
  match l with [] => [] | c :: r => if c =? 10 then cur :: lines_from [] r else lines_from (cur ++ [c]) r end.
Definition lines_of (l : list N) : list (list N) := lines_from [] l.

Lemma C58_case : let '(t, _, en) := tbyteio_run (debugged 1 default_settings) 80 SrcStdin ex_evs in
  en = REnd /\ (length (regular (tp_ev t)) < length (shown 1 (tp_ev t)))%nat /\ shown 0 (tp_ev t) = regular (tp_ev t).
Proof.
  apply (run_case (fun l en => en = REnd /\ (length (regular l) < length (shown 1 l))%nat /\ shown 0 l = regular l)). set (y := tbyteio_run _ _ _ _). vm_compute in y. subst y. cbn [fst snd tp_ev].
  split; [reflexivity|]. split; [apply Nat.ltb_lt; vm_compute; reflexivity|vm_compute; reflexivity].
Qed.
Lemma C59_case : let s := debugged 4 (apply_opt default_settings (O_file [97; 46; 98])) in
  (forall n, s_filename s = Some n -> one_line n) /\
  let '(t, _, en) := tbyteio_run s 80 (SrcFile true) ex_evs in en = REnd /\ (50 < length (lines_of (visible (shown 4 (tp_ev t)))))%nat.
Proof.
  split; [intros n H; injection H as <-; apply inline_all; reflexivity|].
  apply (run_case (fun l en => en = REnd /\ (50 < length (lines_of (visible (shown 4 l))))%nat)). set (y := tbyteio_run _ _ _ _). vm_compute in y. subst y. cbn [fst snd tp_ev].
  split; [reflexivity|]. apply Nat.ltb_lt. vm_compute. reflexivity.
Qed.
Lemma C60_case : let raw := concat ex_chunks in
  is_bytes raw /\ (exists ts, Lexes raw ts /\ length ts = 6%nat) /\
  exists r, parse (update_settings default_settings) (mkPbuf raw false) sbuf_init sgr_state_init = Ok r.
Proof.
  cbv zeta. split; [repeat constructor; lia|]. split; [|eexists; vm_compute; reflexivity].
  exists [(K_run R_printable, [65]); (K_csi [49] [] 109, [27; 91; 49; 109]); (K_newline, [10]); (K_run R_tab, [9]); (K_utf8 0xE9, [195; 169]); (K_run R_control, [1])].
  split; [|reflexivity]. cbn [concat ex_chunks app].
  lex1 (K_run R_printable) [65] [27; 91; 49; 109; 10; 9; 195; 169; 1]; [tok_run|].
  lex1 (K_csi [49] [] 109) (27 :: 91 :: [49] ++ [] ++ [109]) [10; 9; 195; 169; 1].
  { constructor. repeat split; repeat constructor; unfold rng; lia. }
  lex1 K_newline [10] [9; 195; 169; 1]; [constructor|]. lex1 (K_run R_tab) [9] [195; 169; 1]; [tok_run|].
  lex1 (K_utf8 0xE9) (Utf8.utf8_encode 0xE9) [1]; [constructor; [unfold Utf8.scalar; lia|lia]|].
  lex1 (K_run R_control) [1] (@nil N); [tok_run|constructor].
Qed.
Lemma C61_case : let s := debugged 1 (bin_columns 4) in
  fst (get_read_mode s) = RM_binary /\ s_debug s <> 0%nat /\
  let '(t, _, en) := tbyteio_run s 80 SrcStdin ex_evs in en = REnd /\ (4 = length (filter (fun e => match e with TOut _ => true | _ => false end) (tp_ev t)))%nat.
Proof.
  cbv zeta. split; [reflexivity|]. split; [discriminate|].
  apply (run_case (fun l en => en = REnd /\ (4 = length (filter (fun e => match e with TOut _ => true | _ => false end) l))%nat)). set (y := tbyteio_run _ _ _ _). vm_compute in y. subst y. cbn [fst snd tp_ev].
  split; reflexivity.
Qed.

(** the calls, and the lines of the regular output *)
Definition out_lines (l : list tev) : nat := length (filter (fun e => match e with TOut _ => true | _ => false end) l).
Lemma run_case2 (P : list tev -> list action -> reader_end -> Prop) (x : tproc * list action * reader_end) :
  P (tp_ev (fst (fst x))) (snd (fst x)) (snd x) -> let '(t, acts, en) := x in P (tp_ev t) acts en.
Proof. now destruct x as [[t a] en]. Qed.
Definition ex_tokens : list (list (kind * list N)) :=
  [[(K_run R_printable, [65]); (K_csi [49] [] 109, [27; 91; 49; 109]); (K_newline, [10]); (K_run R_tab, [9])];
   [(K_utf8 0xE9, [195; 169]); (K_run R_control, [1])]; []].
Lemma C60_run_case : let '(t, acts, en) := tbyteio_run (debugged 2 default_settings) 80 SrcStdin ex_evs in
  en = REnd /\ Forall2 (fun c ts => Lexes (call_data c) ts) (calls acts) ex_tokens /\ out_lines (tp_ev t) = 2%nat.
Proof.
  apply (run_case2 (fun l acts en => en = REnd /\ Forall2 (fun c ts => Lexes (call_data c) ts) (calls acts) ex_tokens /\ out_lines l = 2%nat)).
  set (y := tbyteio_run _ _ _ _). vm_compute in y. subst y. cbn [fst snd tp_ev calls]. split; [reflexivity|]. split; [|reflexivity].
  constructor; [|constructor; [|constructor; [|constructor]]]; unfold call_data; cbn [fst].
  - lex1 (K_run R_printable) [65] [27; 91; 49; 109; 10; 9]; [tok_run|].
    lex1 (K_csi [49] [] 109) (27 :: 91 :: [49] ++ [] ++ [109]) [10; 9].
    { constructor. repeat split; repeat constructor; unfold rng; lia. }
    lex1 K_newline [10] [9]; [constructor|]. lex1 (K_run R_tab) [9] (@nil N); [tok_run|constructor].
  - lex1 (K_utf8 0xE9) (Utf8.utf8_encode 0xE9) [1]; [constructor; [unfold Utf8.scalar; lia|lia]|].
    lex1 (K_run R_control) [1] (@nil N); [tok_run|constructor].
  - constructor.
Qed.
Definition ex_evs3 : list read_ev := [RData [65; 10; 9]; RData [195; 169; 1]].
Definition ex_tokens3 : list (list (kind * list N)) :=
  [[(K_run R_printable, [65]); (K_newline, [10]); (K_run R_tab, [9])]; [(K_utf8 0xE9, [195; 169]); (K_run R_control, [1])]; []].
Lemma C61_true_case : let s := debugged 1 default_settings in
  binary_mode s = false /\ Forall is_bytes (provided ex_evs3) /\ Forall (fun t => keeps_bytes s (fst t) = true) (concat ex_tokens3) /\
  let '(t, acts, en) := tbyteio_run s 80 SrcStdin ex_evs3 in
  en = REnd /\ Forall2 (fun c ts => Lexes (call_data c) ts) (calls acts) ex_tokens3 /\ out_lines (tp_ev t) = 2%nat.
Proof.
  cbv zeta. split; [reflexivity|]. split; [repeat constructor; lia|]. split; [repeat constructor|].
  apply (run_case2 (fun l acts en => en = REnd /\ Forall2 (fun c ts => Lexes (call_data c) ts) (calls acts) ex_tokens3 /\ out_lines l = 2%nat)).
  set (y := tbyteio_run _ _ _ _). vm_compute in y. subst y. cbn [fst snd tp_ev calls]. split; [reflexivity|]. split; [|reflexivity].
  constructor; [|constructor; [|constructor; [|constructor]]]; unfold call_data; cbn [fst].
  - lex1 (K_run R_printable) [65] [10; 9]; [tok_run|].
    lex1 K_newline [10] [9]; [constructor|]. lex1 (K_run R_tab) [9] (@nil N); [tok_run|constructor].
  - lex1 (K_utf8 0xE9) (Utf8.utf8_encode 0xE9) [1]; [constructor; [unfold Utf8.scalar; lia|lia]|].
    lex1 (K_run R_control) [1] (@nil N); [tok_run|constructor].
  - constructor.
Qed.
