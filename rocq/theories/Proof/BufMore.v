(** More about histories of the segment buffer: requests for nothing, whole segments, formatting *)
From Coq Require Import List Arith NArith ZArith Bool Lia.
From Verif.Model Require Import Base Ansi Segment.
From Verif.Spec Require Import History.
From Verif.Proof Require Import BaseFacts BufFacts BufHistory.
Import ListNotations.
Local Open Scope Z_scope.

Lemma history_rep_any ops : one_to_one ops \/ lines_only ops -> exists segs, Rep (snd (history ops sbuf_init)) segs.
Proof. intros [H|H]; [destruct (history_rep ops H) as (s & HR & _); eauto|now apply history_rep_lines]. Qed.

Lemma take_none ops force : one_to_one ops \/ lines_only ops ->
  let b := snd (history ops sbuf_init) in
  match detach_bytes b 0 force with
  | (Ok els, b') => bytes_in els = [] /\ els <> [] /\ bytes_in (sb_chain b') = bytes_in (sb_chain b)
  | (Err x, b') => x = EOFError /\ bytes_in (sb_chain b') = bytes_in (sb_chain b)
  end.
Proof.
  intros H. destruct (history_rep_any ops H) as (segs & HR). set (b := snd (history ops sbuf_init)) in *. cbv zeta.
  unfold detach_bytes. assert (E : (0 <=? chain_len (sb_chain b)) = true) by (rewrite (Rep_len _ _ HR); apply Z.leb_le; unfold zlen; lia).
  rewrite E. cbn [orb]. destruct (detach_zero b segs HR) as (out & b' & D1 & D3 & D2 & _). rewrite D1.
  destruct out as [|x out].
  - split; [reflexivity|]. rewrite !bytes_in_segs, (Rep_segs _ _ HR), (Rep_segs _ _ D3). reflexivity.
  - rewrite bytes_in_segs, D2. split; [reflexivity|]. split; [discriminate|]. rewrite !bytes_in_segs, (Rep_segs _ _ HR), (Rep_segs _ _ D3). reflexivity.
Qed.

Lemma whole_spec ops b segs : Rep b segs -> lines_only ops ->
  let '(rs, b1) := history ops b in Forall okres rs /\ exists segs', Rep b1 segs' /\ segments_out rs ++ segs' = segs ++ segments_in ops.
Proof.
  intros HR HL. revert b segs HR. induction HL as [|o ops Ho HL IH]; intros b segs HR; cbn [history].
  - split; [constructor|]. exists segs. split; [exact HR|]. cbn. now rewrite app_nil_r.
  - assert (S : let '(r, b1) := do_op o b in okres r /\ exists s1, Rep b1 s1 /\
               match r with Ok l => queue l | Err _ => [] end ++ s1 = segs ++ match o with O_attach l => l | _ => [] end).
    { destruct o as [l|n f|f]; [| destruct Ho|]; cbn [do_op].
      - split; [exact I|]. exists (segs ++ l). split; [now apply Rep_attach|reflexivity].
      - rewrite app_nil_r. pose proof (detach_line_spec b segs f (fun _ => []) HR) as D.
        destruct (split_line segs) as [[a rest] nl]. destruct (zlen (raw_of a) =? 0); [rewrite D; split; [now right|exists segs; auto]|].
        destruct (nl || f)%bool; [|rewrite D; split; [now left|exists segs; auto]].
        destruct D as (p & r & out & b' & _ & H1 & H2 & -> & H4 & H5 & _). split; [exact I|]. exists r. split; [exact H4|].
        change (queue out) with (segs_of out). rewrite H5. exact H1. }
    destruct (do_op o b) as [r b1]. destruct S as (S1 & s1 & S2 & S3). specialize (IH b1 s1 S2).
    destruct (history ops b1) as [rs b2]. destruct IH as (I1 & s2 & I2 & I3). split; [now constructor|]. exists s2. split; [exact I2|].
    cbn [segments_out segments_in flat_map]. fold (segments_out rs) (segments_in ops). rewrite <- app_assoc, I3, app_assoc, S3, <- app_assoc. reflexivity.
Qed.
Lemma history_whole ops : lines_only ops ->
  let '(rs, b) := history ops sbuf_init in
  segments_out rs ++ queue (sb_chain b) = segments_in ops /\
  Forall (fun r => match r with Ok _ => True | Err e => e = WaitRequest \/ e = EOFError end) rs.
Proof.
  intros H. pose proof (whole_spec ops sbuf_init [] Rep_init H) as K. destruct (history ops sbuf_init) as [rs b].
  destruct K as (K1 & s & K2 & K3). split; [|exact K1]. change (queue (sb_chain b)) with (segs_of (sb_chain b)). now rewrite (Rep_segs _ _ K2).
Qed.

Lemma taken_format ops fn : one_to_one ops ->
  let b := snd (history ops sbuf_init) in
  (forall n force els b', 0 < n -> detach_bytes b n force = (Ok els, b') -> format_elems fn els = flat_map (in_format fn) (queue els)) /\
  (forall force els b', detach_line b force = (Ok els, b') -> format_elems fn els = flat_map (in_format fn) (queue els)).
Proof.
  intros H. destruct (history_rep ops H) as (segs & HR & HC). set (b := snd (history ops sbuf_init)) in *. cbv zeta. split.
  - intros n force els b' Hn E. pose proof (detach_bytes_spec b segs n force fn HR Hn HC) as D.
    destruct (_ || force)%bool; [|congruence]. destruct segs as [|g t]; [congruence|].
    destruct D as (p & r & out & b2 & _ & _ & _ & _ & D & _ & D1 & D2 & _). rewrite D in E. injection E as <- <-.
    change (queue out) with (segs_of out). now rewrite D1, D2.
  - intros force els b' E. pose proof (detach_line_spec b segs force fn HR) as D.
    destruct (split_line segs) as [[a rest] nl]. destruct (_ =? 0); [congruence|]. destruct (_ || _)%bool; [|congruence].
    destruct D as (p & r & out & b2 & _ & _ & _ & D & _ & D1 & D2 & _). rewrite D in E. injection E as <- <-.
    change (queue out) with (segs_of out). now rewrite D1, D2.
Qed.
Lemma taken_format_lines ops fn : lines_only ops ->
  let b := snd (history ops sbuf_init) in
  forall force els b', detach_line b force = (Ok els, b') -> format_elems fn els = flat_map (in_format fn) (queue els).
Proof.
  intros H. destruct (history_rep_lines ops H) as (segs & HR). set (b := snd (history ops sbuf_init)) in *. cbv zeta.
  intros force els b' E. pose proof (detach_line_spec b segs force fn HR) as D.
  destruct (split_line segs) as [[a rest] nl]. destruct (_ =? 0); [congruence|]. destruct (_ || _)%bool; [|congruence].
  destruct D as (p & r & out & b2 & _ & _ & _ & D & _ & D1 & D2 & _). rewrite D in E. injection E as <- <-.
  change (queue out) with (segs_of out). now rewrite D1, D2.
Qed.
