(** C31-C36, C52: reading the input *)
From Coq Require Import List Arith NArith ZArith Bool Lia.
From Verif.Model Require Import Base Ansi Settings Segment Parser Formatter Reader Runner Options.
From Verif.Spec Require Import Numbers Terminal Utf8 Lexical SgrParams Display Output Input Dump.
From Verif.Proof Require Import MoreClaims ExampleFacts ReaderExtra.
Import ListNotations.
Local Open Scope Z_scope.

(** a receiver that collects what it is given *)
Definition collect (st : list N) (raw : bytes) (off : Z) (fin : bool) : list N * cb_res := (st ++ raw, CbOk).

(** ** C31, C32 *)

(** Whatever receives the data: exactly the data within the limits is delivered, however it is
    fragmented and however reading ends; the last call, and no other, is marked as last if the
    input ends or a limit is reached, none if reading is interrupted or fails before. *)
Theorem C31_delivered : forall (St : Type) (cb : St -> bytes -> Z -> bool -> St * cb_res) mb ml src evs d st st' acts en,
  returns cb -> opens src -> Limited mb ml (concat (provided evs)) d -> read cb mb ml src evs st = (st', acts, en) ->
  data_of acts = d /\
  ((ending_of evs = At_eof \/ Stops mb ml (concat (provided evs))) ->
     en = REnd /\ exists l c, calls acts = l ++ [c] /\ call_last c = true /\ Forall (fun x => call_last x = false) l) /\
  (~ Stops mb ml (concat (provided evs)) -> ending_of evs = At_interrupt -> en = REnd /\ Forall (fun x => call_last x = false) (calls acts)) /\
  (~ Stops mb ml (concat (provided evs)) -> ending_of evs = At_failure -> en = RError OSError /\ Forall (fun x => call_last x = false) (calls acts)).
Proof. exact (@reader_total). Qed.
Print Assumptions C31_delivered.

(** Whatever the receiver does (it may raise, be interrupted, hang): the offset of each call is the
    number of bytes delivered before, only the last call can be marked as last, and what is
    delivered is a prefix of the input. *)
Theorem C32_offsets : forall (St : Type) (cb : St -> bytes -> Z -> bool -> St * cb_res) mb ml src evs st st' acts en,
  read cb mb ml src evs st = (st', acts, en) -> forall i c, nth_error (calls acts) i = Some c ->
    call_offset c = Z.of_nat (length (flat_map call_data (firstn i (calls acts)))) /\ (call_last c = true -> S i = length (calls acts)).
Proof. exact (@reader_offsets). Qed.
Print Assumptions C32_offsets.

Theorem C32_prefix : forall (St : Type) (cb : St -> bytes -> Z -> bool -> St * cb_res) mb ml src evs st st' acts en,
  read cb mb ml src evs st = (st', acts, en) -> Contiguous 0 (calls acts) /\ exists rest, concat (provided evs) = data_of acts ++ rest.
Proof. exact (@reader_contiguous). Qed.
Print Assumptions C32_prefix.

Example C31_example : let evs := [RData [65; 10]%N; RData [66; 67; 10; 68]%N; RInterrupt] in
  returns collect /\ Limited (Some 4) (Some 3) (concat (provided evs)) [65; 10; 66; 67]%N /\
  Stops (Some 4) (Some 3) (concat (provided evs)) /\
  read collect (Some 4) (Some 3) SrcStdin evs [] =
    ([65; 10; 66; 67]%N, [AOpen; ARead; ACall [65; 10]%N 0 false; ARead; ACall [66; 67]%N 2 true; AClose], REnd).
Proof.
  cbv zeta. assert (HL : Limited (Some 4) (Some 3) (concat (provided [RData [65; 10]%N; RData [66; 67; 10; 68]%N; RInterrupt])) [65; 10; 66; 67]%N).
  { apply (Lim_both _ _ 4 3); (split; [reflexivity|lia]). }
  split; [intros st raw off fin; reflexivity|]. split; [exact HL|]. split; [|reflexivity].
  apply (Stop_bytes _ _ _ 4 [65; 10; 66; 67]%N); [split; [reflexivity|lia]|exact HL|reflexivity].
Qed.

(** ** C33 *)

(** If reading is interrupted after any number of events, the output is a prefix of what it would
    have been, however the input had continued; the run ends normally, or the way it would have
    ended anyway. *)
Theorem C33_interrupted : forall s tc src head rest evs p1 a1 e1 p2 a2 e2,
  byteio_run s tc src (head ++ RInterrupt :: rest) = (p1, a1, e1) -> byteio_run s tc src (head ++ evs) = (p2, a2, e2) ->
  (exists w, pr_out p2 = pr_out p1 ++ w) /\ (e1 = REnd \/ (p1, a1, e1) = (p2, a2, e2)).
Proof. exact run_interrupt. Qed.
Print Assumptions C33_interrupted.

Example C33_example : exists p1 a1 p2 a2,
  byteio_run default_settings 80 SrcStdin [RData [65; 10; 66]%N; RInterrupt] = (p1, a1, REnd) /\ pr_out p1 <> [] /\
  byteio_run default_settings 80 SrcStdin [RData [65; 10; 66]%N; RData [67; 10]%N] = (p2, a2, REnd) /\ pr_out p1 <> pr_out p2.
Proof. do 4 eexists. split; [vm_compute; reflexivity|]. split; [vm_compute; discriminate|]. split; [vm_compute; reflexivity|vm_compute; discriminate]. Qed.

(** ** C34 *)

(** Whatever the receiver does: input that can be opened is opened once, and closed once, at the
    very end, unless the receiver does not return. *)
Theorem C34_closed : forall (St : Type) (cb : St -> bytes -> Z -> bool -> St * cb_res) mb ml src evs st st' acts en,
  read cb mb ml src evs st = (st', acts, en) ->
  (src = SrcMissing /\ acts = [] /\ en = RError OSError) \/
  (src <> SrcMissing /\ exists l, acts = AOpen :: l /\ closes l en).
Proof. exact (@reader_closes). Qed.
Print Assumptions C34_closed.

Example C34_example :
  read (fun st raw off fin => (st, if off =? 0 then CbOk else CbErr ValueError)) None None (SrcFile true) [RData [65%N]; RData [66%N]; RData [67%N]] tt =
    (tt, [AOpen; ARead; ACall [65%N] 0 false; ARead; ACall [66%N] 1 false; AClose], RError ValueError).
Proof. reflexivity. Qed.

(** ** C35 *)

(** Standard input and seekable files are treated alike; a file that is not seekable is never
    displayed unless it is empty. *)
Theorem C35_seekable_partial : forall s tc evs, byteio_run s tc SrcStdin evs = byteio_run s tc (SrcFile true) evs.
Proof. exact seekable_same. Qed.
Print Assumptions C35_seekable_partial.

Theorem C35_unseekable_fails : forall s tc evs, provided evs <> [] ->
  exists p acts, byteio_run s tc (SrcFile false) evs = (p, acts, RError OSError) /\ pr_out p = [].
Proof. exact unseekable_fails. Qed.
Print Assumptions C35_unseekable_fails.

Theorem C35_refuted : exists s tc evs p acts p' acts',
  byteio_run s tc (SrcFile true) evs = (p, acts, REnd) /\ visible (pr_out p) <> [] /\
  byteio_run s tc (SrcFile false) evs = (p', acts', RError OSError) /\ pr_out p' = [].
Proof. exact unseekable_witness. Qed.
Print Assumptions C35_refuted.

(** ** C36 *)

(** min(N, number of lines) lines are shown unless the N-th line is blank, in which case N-1 are. *)
Theorem C36_lines_partial : forall s tc src evs chunks toks n,
  opens src -> binary_mode s = false -> no_limit (s_max_bytes s) -> limit_is (s_max_lines s) n ->
  Processed s evs chunks -> Finishes s evs -> Tokens chunks toks ->
  exists p acts, byteio_run s tc src evs = (p, acts, REnd) /\
    length (text_lines (visible (pr_out p))) =
      if blank_at (n - 1) (concat (provided evs)) then (n - 1)%nat else Nat.min n (line_count (concat (provided evs))).
Proof. exact max_lines_count. Qed.
Print Assumptions C36_lines_partial.

Theorem C36_refuted : exists s tc evs p acts, binary_mode s = false /\ s_max_lines s = Some 1 /\ provided evs = [[10; 65]%N] /\
  byteio_run s tc SrcStdin evs = (p, acts, REnd) /\ text_lines (visible (pr_out p)) = [].
Proof. exact max_lines_witness. Qed.
Print Assumptions C36_refuted.

Example C36_example : let s := apply_opt default_settings (O_max_lines 2) in
  Processed s [RData [65; 10; 66; 10; 67]%N] [[65; 10; 66]%N] /\ Finishes s [RData [65; 10; 66; 10; 67]%N] /\ limit_is (s_max_lines s) 2 /\
  text_lines (visible (pr_out (fst (fst (byteio_run s 80 SrcStdin [RData [65; 10; 66; 10; 67]%N]))))) = [[32; 49; 0x2502; 65; 0x21B5]%N; [32; 50; 0x2502; 66]%N].
Proof.
  cbv zeta. split; [|split; [now left|split; [split; [reflexivity|lia]|vm_compute; reflexivity]]].
  split; [constructor; [|constructor]; repeat constructor|]. exists [65; 10; 66]%N. split; [|reflexivity].
  apply (Lim_lines _ _ 2); [now left|split; [reflexivity|lia]].
Qed.

(** ** C52 *)

(** Once a limit is reached it does not matter how the input continues; the run ends even if the
    input does not. *)
Theorem C52_stops : forall s tc src datas evs1 evs2,
  Forall (fun c => c <> []) datas -> Stops (s_max_bytes s) (s_max_lines s) (concat datas) ->
  (exists d, Limited (s_max_bytes s) (s_max_lines s) (concat datas) d) ->
  byteio_run s tc src (map RData datas ++ evs1) = byteio_run s tc src (map RData datas ++ evs2).
Proof. exact run_stops. Qed.
Print Assumptions C52_stops.

Example C52_example : let s := apply_opt default_settings (O_max_bytes 3) in
  Stops (s_max_bytes s) (s_max_lines s) (concat [[65; 66]; [67]]%N) /\ Limited (s_max_bytes s) (s_max_lines s) (concat [[65; 66]; [67]]%N) [65; 66; 67]%N.
Proof.
  cbv zeta. assert (HL : Limited (Some 3) None (concat [[65; 66]; [67]]%N) [65; 66; 67]%N) by (apply (Lim_bytes _ _ 3); [split; [reflexivity|lia]|now left]).
  split; [|exact HL]. apply (Stop_bytes _ _ _ 3 [65; 66; 67]%N); [split; [reflexivity|lia]|exact HL|reflexivity].
Qed.
