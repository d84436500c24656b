(** C112: the segment buffer is a plain queue of segments *)
From Coq Require Import List Arith NArith ZArith Bool.
From Verif.Model Require Import Base Ansi Settings Segment Template.
From Verif.Spec Require Import History PlainQueue.
From Verif.Proof Require Import PlainQueueFacts.
Import ListNotations.
Local Open Scope N_scope.

(** ** C112 *)

(** For any history of calls, with any segments (those which cannot be cut included), taking bytes
    and lines in any order: up to the first attempt to cut a segment which cannot be cut, the
    buffer answers as the queue does, and it holds what the queue holds. *)
Theorem C112_refines : forall ops, Forall positive ops ->
  let '(l, q) := ask_all ops [] in let '(rs, b) := history ops sbuf_init in
  say l rs /\ (failed l = false -> queue (sb_chain b) = q /\ chain_len (sb_chain b) = Z.of_nat (held q)).
Proof. exact refines. Qed.
Print Assumptions C112_refines.

(** What the unit tests (tests/segment/test_buffer.py) check by examples, for all segments and
    with the references compared as they should be: the elements taken from a buffer to which one
    segment was attached. *)
Theorem C112_whole : forall g, no_formatting (seg_open g) = false -> seg_raw g <> [] ->
  detach (attach sbuf_init [g]) (zlen (seg_raw g)) =
    (Ok [EStart (seg_open g); ESeg g; EOnce (closing_seq (seg_open g))], mkSbuf [] [] (zlen (seg_raw g))).
Proof. exact fresh_whole. Qed.
Print Assumptions C112_whole.

Theorem C112_cut : forall g n, no_formatting (seg_open g) = false -> length (seg_raw g) = length (seg_proc g) -> (0 < n < length (seg_raw g))%nat ->
  exists b, detach (attach sbuf_init [g]) (Z.of_nat n) =
    (Ok [EStart (seg_open g); ESeg (mkSeg (seg_open g) (seg_label g) (firstn n (seg_raw g)) (firstn n (seg_proc g))); EOnce (closing_seq (seg_open g))], b) /\
    queue (sb_chain b) = [mkSeg (seg_open g) (seg_label g) (skipn n (seg_raw g)) (skipn n (seg_proc g))].
Proof. exact fresh_cut. Qed.
Print Assumptions C112_cut.

Theorem C112_plain : forall g, no_formatting (seg_open g) = true -> seg_raw g <> [] ->
  detach (attach sbuf_init [g]) (zlen (seg_raw g)) = (Ok [ESeg g], mkSbuf [] [] (zlen (seg_raw g))).
Proof. exact fresh_plain. Qed.
Print Assumptions C112_plain.

(** A history with one-to-one segments and another one, cut, waited for, and failing in the end *)
Definition ex_a : segment := mkSeg [31] [80] [49; 50; 51] [97; 97; 97].
Definition ex_b : segment := mkSeg [] [83] [10] [8629; 10].
Definition ex_c : segment := mkSeg [41] [80] [52; 53] [98].
Definition ex_ops : list op :=
  [O_bytes 2 false; O_attach [ex_a; ex_b]; O_bytes 2 false; O_line false; O_line false; O_attach [ex_a; ex_c]; O_bytes 4 false; O_bytes 2 true].
Example C112_example :
  Forall positive ex_ops /\
  fst (ask_all ex_ops []) = [A_wait; A_given []; A_given [mkSeg [31] [80] [49; 50] [97; 97]]; A_given [mkSeg [31] [80] [51] [97]; ex_b]; A_end;
                             A_given []; A_fail] /\
  fst (ask_all (firstn 6 ex_ops ++ [O_bytes 3 false; O_bytes 2 false]) []) =
    [A_wait; A_given []; A_given [mkSeg [31] [80] [49; 50] [97; 97]]; A_given [mkSeg [31] [80] [51] [97]; ex_b]; A_end;
     A_given []; A_given [ex_a]; A_given [ex_c]] /\
  nth 2 (fst (history ex_ops sbuf_init)) (Ok []) = Ok [EStart [31]; ESeg (mkSeg [31] [80] [49; 50] [97; 97]); EOnce [39]].
Proof. split; [repeat constructor|]. repeat split; vm_compute; reflexivity. Qed.

(** The unit tests themselves, with the templates they make (settings by default, text mode) *)
Definition test_env : tenv := update_settings default_settings.
Definition test_template (o : sgr) (label : str) : template := mkTemplate T_plain CC_printable (plain o) (plain label).
Definition substituted (o : sgr) (label : str) (raw : bytes) : list segment :=
  match substitute test_env (test_template o label) sgr_state_init raw with Ok l => l | Err _ => [] end.
Example C112_tests :
  let b123 := [49; 50; 51] in
  (* test_attach_segment *)
  (let b := attach sbuf_init [mkSeg [32] [64] b123 b123] in
   chain_len (sb_chain b) = 3%Z /\ sb_chain b = [EStart [32]; ESeg (mkSeg [32] [64] b123 b123); EStop [32]; EOnce [39]]) /\
  (* test_attach_segment_without_formatting *)
  (let b := attach sbuf_init (substituted [] [69] b123) in
   chain_len (sb_chain b) = 3%Z /\ sb_chain b = [ESeg (mkSeg [] [80] b123 [69; 69; 69])]) /\
  (* test_detach_whole_segment *)
  (let '(r, b) := detach (attach sbuf_init (substituted [46] [64] [50; 49; 51])) 3 in
   chain_len (sb_chain b) = 0%Z /\ r = Ok [EStart [46]; ESeg (mkSeg [46] [80] [50; 49; 51] [64; 64; 64]); EOnce [49]]) /\
  (* test_detach_partial_segment *)
  (let '(r, b) := detach (attach sbuf_init (substituted [1] [35] [49; 50; 51; 52])) 2 in
   chain_len (sb_chain b) = 2%Z /\ r = Ok [EStart [1]; ESeg (mkSeg [1] [80] [49; 50] [35; 35]); EOnce [22]]) /\
  (* test_detach_zero_bytes *)
  (let '(r, b) := detach (attach sbuf_init (substituted [1] [35] b123)) 0 in chain_len (sb_chain b) = 3%Z /\ r = Ok []) /\
  (* test_detach_empty *)
  (let '(r, b) := detach sbuf_init 0 in chain_len (sb_chain b) = 0%Z /\ r = Ok []) /\
  (* test_detach_segment_without_formatting *)
  (let '(r, b) := detach (attach sbuf_init (substituted [] [46] b123)) 3 in
   chain_len (sb_chain b) = 0%Z /\ r = Ok [ESeg (mkSeg [] [80] b123 [46; 46; 46])]) /\
  (* test_detach_two_segments *)
  (let '(r, b) := detach (attach (attach sbuf_init (substituted [31] [65] b123)) (substituted [41] [66] [52; 53; 54])) 6 in
   chain_len (sb_chain b) = 0%Z /\
   r = Ok [EStart [31]; ESeg (mkSeg [31] [80] b123 [65; 65; 65]); EOnce [39];
           EStart [41]; ESeg (mkSeg [41] [80] [52; 53; 54] [66; 66; 66]); EOnce [49]]).
Proof. vm_compute. repeat split. Qed.
