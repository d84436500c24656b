(** C108: the amounts and contents told by debug traces *)
From Coq Require Import Ascii String.
From Coq Require Import List NArith ZArith Bool.
From Verif.Model Require Import Base Settings Segment Template Parser Reader Runner Options Trace.
From Verif.Spec Require Import Terminal Lexical Display Output Input Names Weave TraceText.
From Verif.Proof Require Import TraceAmounts TraceBooks ExampleFacts TraceExamples TraceTextExamples.
Import ListNotations.
Local Open Scope N_scope.

(** ** C108 *)
(** The reader tells every chunk that it reads, in order, with its number, the offset of its first byte,
    its length and its bytes, then the position in the file after it; the end of the input at the
    offset where the last call starts; and that input was cropped, with what is left of the chunk, just when
    less than what was read is processed *)
Theorem C108_reader : forall s tc src evs, opens src -> Forall is_bytes (provided evs) ->
  let '(t, acts, en) := tbyteio_run s tc src evs in
  let chunks := firstn (reads acts) (numbered 0 0 (provided evs)) in
  told_at (lit "Read chunk #") (tp_ev t) = map (chunk_report s) chunks /\
  told_at (lit "Current position: ") (tp_ev t) = map (position_report s src) chunks /\
  told_at (lit "Encountered EOF") (tp_ev t) = map (eof_report s) (filter call_last (calls acts)) /\
  (told_at (lit "Cropping input -> ") (tp_ev t) = [] /\ data_of acts = concat (firstn (reads acts) (provided evs))
   \/ exists l c, In c (calls acts) /\ told_at (lit "Cropping input -> ") (tp_ev t) = l ++ [crop_report s c] /\
        (length (data_of acts) < length (concat (firstn (reads acts) (provided evs))))%nat).
Proof. exact reading_run. Qed.
Print Assumptions C108_reader.

Example C108_reader_example : let s := debugged 3 (apply_opt (bin_columns 4) (O_max_bytes 9)) in
  opens (SrcFile true) /\ Forall is_bytes (provided ex_evs) /\
  let '(t, acts, en) := tbyteio_run s 80 (SrcFile true) ex_evs in
  en = REnd /\
  told_at (lit "Read chunk #") (tp_ev t) = [(lit "  0x0000", 1%nat, ending "0: len 7 [41 1b 5b.. 09]"); (lit "  0x0007", 1%nat, ending "1: len 3 [c3 a9 01]")] /\
  told_at (lit "Current position: ") (tp_ev t) = [(lit "  0x0000", 3%nat, ending "7"); (lit "  0x0007", 3%nat, ending "10")] /\
  told_at (lit "Encountered EOF") (tp_ev t) = [(lit "  0x0007", 1%nat, [10])] /\
  told_at (lit "Cropping input -> ") (tp_ev t) = [(lit "  0x0007", 3%nat, ending "len 2 [c3 a9]")].
Proof. exact C108_reader_case. Qed.

(** The parser and its buffer tell, for every call, how much was appended, what the buffer contains then,
    that it is closed if the call is the last one, what is parsed, and that nothing is left; only the last
    two messages may be missing, and only if the run fails *)
Theorem C108_parser : forall s tc src evs, Forall is_bytes (provided evs) ->
  let '(t, acts, en) := tbyteio_run s tc src evs in
  let all := flat_map (call_report (s_debug s)) (calls acts) in
  exists n, (n <= 2)%nat /\ told parser_names (tp_ev t) = firstn (length all - n) all /\ (en = REnd -> n = 0%nat).
Proof. exact parser_run. Qed.
Print Assumptions C108_parser.

Example C108_parser_example : Forall is_bytes (provided ex_evs) /\
  let '(t, acts, en) := tbyteio_run (debugged 3 default_settings) 80 SrcStdin ex_evs in
  en = REnd /\ length (calls acts) = 3%nat /\
  firstn 5 (told parser_names (tp_ev t)) =
   [(lit " parsbuf", 3%nat, ending "Appending 7 bytes"); (lit " parsbuf", 2%nat, ending "Buffer state: len 7 [41 1b 5b.. 09]");
    (lit "  parser", 1%nat, ending "Parsing segment: len 7 [41 1b 5b.. 09]"); (lit " parsbuf", 3%nat, ending "Purging"); (lit " parsbuf", 2%nat, ending "Buffer state: len 0 []")].
Proof. exact C108_parser_case. Qed.

(** In binary mode the amounts agree over the whole run: whenever the state of the buffer of segments
    is told, its length is that of everything appended so far minus everything detached so far; as
    much is detached as was requested or all there is; when the last call has ended nothing is left *)
Theorem C108_books : forall s tc src evs, binary_mode s = true -> (0 < columns s tc)%Z -> Forall is_bytes (provided evs) ->
  let '(t, acts, en) := tbyteio_run s tc src evs in
  exists q r, Books 0 0 (told books_names (tp_ev t)) q r /\
    (forall cs c, en = REnd -> calls acts = cs ++ [c] -> call_last c = true -> q = 0%Z).
Proof. exact books_run. Qed.
Print Assumptions C108_books.

Example C108_books_example : let s := debugged 1 (bin_columns 4) in
  binary_mode s = true /\ (0 < columns s 80)%Z /\ Forall is_bytes (provided ex_evs) /\
  let '(t, acts, en) := tbyteio_run s 80 SrcStdin ex_evs in
  en = REnd /\ (exists cs c, calls acts = cs ++ [c] /\ call_last c = true) /\
  filter (fun x => negb (eqb_list (fst (fst x)) (lit " parsbuf")) && negb (eqb_list (firstn 3 (snd x)) (lit "Res"))) (firstn 13 (told books_names (tp_ev t))) =
   [(lit "  binfmt", 1%nat, ending "Requested 4 byte(s)"); (lit "chainbuf", 2%nat, ending "Buffer state: len 7+135"); (lit "chainbuf", 2%nat, ending "Detached 4 data byte(s)");
    (lit "chainbuf", 2%nat, ending "Buffer state: len 3+50"); (lit "  binfmt", 1%nat, ending "Requested 4 byte(s)"); (lit "chainbuf", 2%nat, ending "Buffer state: len 3+50")].
Proof. exact C108_books_case. Qed.
