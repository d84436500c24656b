(** Concrete cases for what traces tell *)
From Coq Require Import Ascii String.
From Coq Require Import List Arith NArith ZArith Bool Lia.
From Verif.Model Require Import Base Settings Segment Template Parser Reader Runner Options Trace.
From Verif.Spec Require Import Terminal Lexical Display Output Input Names Weave TraceText.
From Verif.Proof Require Import TraceFacts TraceClaims ExampleFacts TraceExamples.
Import ListNotations.
Local Open Scope N_scope.

Definition ending (t : string) : list N := (lit t ++ [10])%list.
Lemma C108_reader_case : let s := debugged 3 (apply_opt (bin_columns 4) (O_max_bytes 9)) in
  opens (SrcFile true) /\ Forall is_bytes (provided ex_evs) /\
  let '(t, acts, en) := tbyteio_run s 80 (SrcFile true) ex_evs in
  en = REnd /\
  told_at (lit "Read chunk #") (tp_ev t) = [(lit "  0x0000", 1%nat, ending "0: len 7 [41 1b 5b.. 09]"); (lit "  0x0007", 1%nat, ending "1: len 3 [c3 a9 01]")] /\
  told_at (lit "Current position: ") (tp_ev t) = [(lit "  0x0000", 3%nat, ending "7"); (lit "  0x0007", 3%nat, ending "10")] /\
  told_at (lit "Encountered EOF") (tp_ev t) = [(lit "  0x0007", 1%nat, [10])] /\
  told_at (lit "Cropping input -> ") (tp_ev t) = [(lit "  0x0007", 3%nat, ending "len 2 [c3 a9]")].
Proof.
  cbv zeta. split; [right; reflexivity|]. split; [repeat constructor; lia|].
  apply (run_case2 (fun l acts en => en = REnd /\ told_at (lit "Read chunk #") l = _ /\ told_at (lit "Current position: ") l = _ /\ told_at (lit "Encountered EOF") l = _ /\ told_at (lit "Cropping input -> ") l = _)).
  set (y := tbyteio_run _ _ _ _). vm_compute in y. subst y. cbn [fst snd tp_ev]. repeat split; vm_compute; reflexivity.
Qed.
Lemma C108_parser_case : Forall is_bytes (provided ex_evs) /\
  let '(t, acts, en) := tbyteio_run (debugged 3 default_settings) 80 SrcStdin ex_evs in
  en = REnd /\ length (calls acts) = 3%nat /\
  firstn 5 (told parser_names (tp_ev t)) =
   [(lit " parsbuf", 3%nat, ending "Appending 7 bytes"); (lit " parsbuf", 2%nat, ending "Buffer state: len 7 [41 1b 5b.. 09]");
    (lit "  parser", 1%nat, ending "Parsing segment: len 7 [41 1b 5b.. 09]"); (lit " parsbuf", 3%nat, ending "Purging"); (lit " parsbuf", 2%nat, ending "Buffer state: len 0 []")].
Proof.
  split; [repeat constructor; lia|].
  apply (run_case2 (fun l acts en => en = REnd /\ length (calls acts) = 3%nat /\ firstn 5 (told parser_names l) = _)).
  set (y := tbyteio_run _ _ _ _). vm_compute in y. subst y. cbn [fst snd tp_ev]. repeat split; vm_compute; reflexivity.
Qed.
Lemma C108_books_case : let s := debugged 1 (bin_columns 4) in
  binary_mode s = true /\ (0 < columns s 80)%Z /\ Forall is_bytes (provided ex_evs) /\
  let '(t, acts, en) := tbyteio_run s 80 SrcStdin ex_evs in
  en = REnd /\ (exists cs c, calls acts = cs ++ [c] /\ call_last c = true) /\
  filter (fun x => negb (eqb_list (fst (fst x)) (lit " parsbuf")) && negb (eqb_list (firstn 3 (snd x)) (lit "Res"))) (firstn 13 (told books_names (tp_ev t))) =
   [(lit "  binfmt", 1%nat, ending "Requested 4 byte(s)"); (lit "chainbuf", 2%nat, ending "Buffer state: len 7+135"); (lit "chainbuf", 2%nat, ending "Detached 4 data byte(s)");
    (lit "chainbuf", 2%nat, ending "Buffer state: len 3+50"); (lit "  binfmt", 1%nat, ending "Requested 4 byte(s)"); (lit "chainbuf", 2%nat, ending "Buffer state: len 3+50")].
Proof.
  cbv zeta. split; [reflexivity|]. split; [reflexivity|]. split; [repeat constructor; lia|].
  apply (run_case2 (fun l acts en => en = REnd /\ (exists cs c, calls acts = cs ++ [c] /\ call_last c = true) /\ filter _ (firstn 13 (told books_names l)) = _)).
  set (y := tbyteio_run _ _ _ _). vm_compute in y. subst y. cbn [fst snd tp_ev]. split; [reflexivity|]. split; [|vm_compute; reflexivity].
  cbn [calls]. eexists [_; _], _. split; reflexivity.
Qed.
