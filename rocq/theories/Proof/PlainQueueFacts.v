(** The segment buffer behaves as a plain queue of segments *)
From Coq Require Import List Arith NArith ZArith Bool Lia.
From Verif.Model Require Import Base Ansi Settings Segment Template.
From Verif.Spec Require Import History PlainQueue.
From Verif.Proof Require Import BaseFacts BufFacts BufHistory.
Import ListNotations.
Local Open Scope Z_scope.

Lemma in_format_wrap : in_format = wrap.
Proof. reflexivity. Qed.
Lemma py_take_nat {A} n (l : list A) : 0 <= n -> py_take n l = firstn (Z.to_nat n) l.
Proof. intros H. unfold py_take. destruct (Z.ltb_spec n 0); [lia|reflexivity]. Qed.
Lemma py_drop_nat {A} n (l : list A) : 0 <= n -> py_drop n l = skipn (Z.to_nat n) l.
Proof. intros H. unfold py_drop. destruct (Z.ltb_spec n 0); [lia|reflexivity]. Qed.

Lemma take_cut q : forall n, 0 <= n ->
  match first_bytes (Z.to_nat n) q with
  | Some (p, r) => cut n q = Ok (p, r)
  | None => cut n q = Err BufferError
  end.
Proof.
  induction q as [|g t IH]; intros n Hn.
  - destruct (Z.to_nat n); reflexivity.
  - cbn [cut]. destruct (Z.eqb_spec n 0) as [->|NZ]; [reflexivity|].
    destruct (Z.to_nat n) as [|m] eqn:E; [lia|]. cbn [first_bytes]. rewrite <- E. unfold data_len, zlen.
    destruct (Nat.leb_spec (length (seg_raw g)) (Z.to_nat n)); destruct (Z.leb_spec (Z.of_nat (length (seg_raw g))) n); try lia.
    + specialize (IH (n - Z.of_nat (length (seg_raw g))) ltac:(lia)).
      replace (Z.to_nat (n - Z.of_nat (length (seg_raw g)))) with (Z.to_nat n - length (seg_raw g))%nat in IH by lia.
      destruct (first_bytes _ t) as [[p r]|]; rewrite IH; reflexivity.
    + unfold seg_split, is_consistent. destruct (length (seg_raw g) =? length (seg_proc g))%nat; cbn [negb bind]; [|reflexivity].
      now rewrite !py_take_nat, !py_drop_nat by lia.
Qed.

Lemma held_len q : Z.of_nat (held q) = zlen (raw_of q).
Proof. reflexivity. Qed.
Lemma up_to_split q : up_to_break q = (let '(a, b, nl) := split_line q in (length (raw_of a), nl)).
Proof.
  induction q as [|g t IH]; [reflexivity|]. cbn [up_to_break split_line]. change (existsb (N.eqb 10) (seg_proc g)) with (seg_is_newline g).
  destruct (seg_is_newline g); [cbn; now rewrite app_nil_r|]. rewrite IH. destruct (split_line t) as [[a b] nl]. cbn. now rewrite app_length.
Qed.

Lemma taken_says b q n : Rep b q -> 0 < n ->
  let '(a, q1) := taken (Z.to_nat n) q in
  exists r b', detach b n = (r, b') /\ says a r /\ (a <> A_fail -> Rep b' q1) /\ (q <> [] -> r <> Ok []).
Proof.
  intros HR Hn. unfold taken. pose proof (take_cut q n ltac:(lia)) as T.
  pose proof (fun fn => detach_spec b q n fn HR ltac:(lia)) as D.
  destruct (first_bytes (Z.to_nat n) q) as [[p r]|]; rewrite T in D.
  - destruct (D (fun _ => [])) as (out & b' & E & R & S & _ & _ & NE). exists (Ok out), b'. split; [exact E|]. split; [|split].
    + split; [exact S|]. intros fn. destruct (D fn) as (out' & b2 & E' & _ & _ & F & _). rewrite E in E'. injection E' as <- <-. exact F.
    + intros _. exact R.
    + intros K J. injection J as ->. now apply NE.
  - destruct (D (fun _ => [])) as (b' & E). exists (Err BufferError), b'. split; [exact E|]. repeat split; easy.
Qed.

Lemma ask_says o b q : Rep b q -> positive o ->
  let '(a, q1) := ask o q in
  exists r b', do_op o b = (r, b') /\ says a r /\ (a <> A_fail -> Rep b' q1).
Proof.
  intros HR HP. destruct o as [l|n f|f]; cbn [ask do_op].
  - exists (Ok []), (attach b l). repeat split. intros _. now apply Rep_attach.
  - cbn [positive] in HP. unfold detach_bytes. rewrite (Rep_len _ _ HR), <- held_len.
    assert (E : (n <=? Z.of_nat (held q)) = (Z.to_nat n <=? held q)%nat).
    { destruct (Z.leb_spec n (Z.of_nat (held q))); destruct (Nat.leb_spec (Z.to_nat n) (held q)); lia || reflexivity. }
    rewrite E. destruct (_ || f)%bool; [|exists (Err WaitRequest), b; repeat split; auto].
    pose proof (taken_says b q n HR HP) as T. destruct q as [|g t].
    + destruct HR as [[Ha Hc]|(g & t & K & _)]; [|discriminate]. unfold detach. rewrite Hc. cbn [flat_map].
      exists (Err EOFError), b. repeat split. intros _. left. auto.
    + destruct (taken (Z.to_nat n) (g :: t)) as [a q1]. destruct T as (r & b' & T1 & T2 & T3 & T4). exists r, b'. rewrite T1.
      split; [|auto]. destruct r as [[|e els]|x]; try reflexivity. now destruct T4.
  - unfold detach_line. rewrite line_scan_segs, (Rep_segs _ _ HR), up_to_split. destruct (split_line q) as [[a rest] nl].
    unfold zlen. destruct (length (raw_of a)) as [|m] eqn:E.
    + exists (Err EOFError), b. repeat split; auto.
    + destruct (Z.eqb_spec (Z.of_nat (S m)) 0); [lia|]. destruct (nl || f)%bool.
      * pose proof (taken_says b q (Z.of_nat (S m)) HR ltac:(lia)) as T. rewrite Nat2Z.id in T. destruct (taken (S m) q) as [x q1].
        destruct T as (r & b' & T1 & T2 & T3 & _). exists r, b'. auto.
      * exists (Err WaitRequest), b. repeat split; auto.
Qed.

Lemma all_says ops : forall b q, Rep b q -> Forall positive ops ->
  let '(l, q1) := ask_all ops q in let '(rs, b1) := history ops b in
  say l rs /\ (failed l = false -> Rep b1 q1).
Proof.
  induction ops as [|o ops IH]; intros b q HR HP; [cbn; auto|]. apply Forall_cons_iff in HP as [Ho HP]. cbn [ask_all history].
  pose proof (ask_says o b q HR Ho) as A. destruct (ask o q) as [a q1]. destruct A as (r & b' & E & S & R). rewrite E.
  destruct a as [p| | |].
  1-3: specialize (IH b' q1 (R ltac:(easy)) HP); destruct (ask_all ops q1) as [l q2]; destruct (history ops b') as [rs b2];
    destruct IH as [I1 I2]; split; [split; [exact S|exact I1]|exact I2].
  destruct (history ops b') as [rs b2]. split; [exact S|]. discriminate.
Qed.

Lemma refines ops : Forall positive ops ->
  let '(l, q) := ask_all ops [] in let '(rs, b) := history ops sbuf_init in
  say l rs /\ (failed l = false -> queue (sb_chain b) = q /\ chain_len (sb_chain b) = Z.of_nat (held q)).
Proof.
  intros H. pose proof (all_says ops sbuf_init [] Rep_init H) as A. destruct (ask_all ops []) as [l q]. destruct (history ops sbuf_init) as [rs b].
  destruct A as [A1 A2]. split; [exact A1|]. intros F. specialize (A2 F). split; [exact (Rep_segs _ _ A2)|exact (Rep_len _ _ A2)].
Qed.

(** * A fresh buffer *)
Lemma fresh_whole g : no_formatting (seg_open g) = false -> seg_raw g <> [] ->
  detach (attach sbuf_init [g]) (zlen (seg_raw g)) = (Ok [EStart (seg_open g); ESeg g; EOnce (closing_seq (seg_open g))], mkSbuf [] [] (zlen (seg_raw g))).
Proof.
  intros NF NE. assert (Z0 : zlen (seg_raw g) <> 0) by (intros E; now apply zlen_nil in E).
  unfold detach, attach. cbn [sb_chain sbuf_init app flat_map sb_active sb_last]. rewrite app_nil_r. unfold attach_elems. rewrite NF.
  cbn [detach_loop]. destruct (Z.eqb_spec (zlen (seg_raw g)) 0); [contradiction|]. unfold data_len. rewrite Z.leb_refl.
  cbn [app list_remove]. rewrite eqb_list_refl. cbn. f_equal. f_equal. unfold data_len. lia.
Qed.
Lemma fresh_cut g n : no_formatting (seg_open g) = false -> length (seg_raw g) = length (seg_proc g) -> (0 < n < length (seg_raw g))%nat ->
  exists b, detach (attach sbuf_init [g]) (Z.of_nat n) =
    (Ok [EStart (seg_open g); ESeg (mkSeg (seg_open g) (seg_label g) (firstn n (seg_raw g)) (firstn n (seg_proc g))); EOnce (closing_seq (seg_open g))], b) /\
    queue (sb_chain b) = [mkSeg (seg_open g) (seg_label g) (skipn n (seg_raw g)) (skipn n (seg_proc g))].
Proof.
  intros NF C H. unfold detach, attach. cbn [sb_chain sbuf_init app flat_map sb_active sb_last]. rewrite app_nil_r. unfold attach_elems. rewrite NF.
  cbn [detach_loop]. destruct (Z.eqb_spec (Z.of_nat n) 0); [lia|]. unfold data_len, zlen.
  destruct (Z.leb_spec (Z.of_nat (length (seg_raw g))) (Z.of_nat n)); [lia|]. unfold seg_split, is_consistent. rewrite C, Nat.eqb_refl. cbn [negb].
  rewrite !py_take_nat, !py_drop_nat, Nat2Z.id by lia. cbn. eexists. split; reflexivity.
Qed.
Lemma fresh_plain g : no_formatting (seg_open g) = true -> seg_raw g <> [] ->
  detach (attach sbuf_init [g]) (zlen (seg_raw g)) = (Ok [ESeg g], mkSbuf [] [] (zlen (seg_raw g))).
Proof.
  intros NF NE. assert (Z0 : zlen (seg_raw g) <> 0) by (intros E; now apply zlen_nil in E).
  unfold detach, attach. cbn [sb_chain sbuf_init app flat_map sb_active sb_last]. rewrite app_nil_r. unfold attach_elems. rewrite NF.
  cbn [detach_loop]. destruct (Z.eqb_spec (zlen (seg_raw g)) 0); [contradiction|]. unfold data_len. rewrite Z.leb_refl.
  cbn. f_equal. f_equal. unfold data_len. lia.
Qed.
