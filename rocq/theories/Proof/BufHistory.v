(** Taking bytes and lines off the segment buffer; histories *)
From Coq Require Import List Arith NArith ZArith Bool Lia.
From Verif.Model Require Import Base Ansi Settings Segment.
From Verif.Spec Require Import History.
From Verif.Proof Require Import BaseFacts BufFacts.
Import ListNotations.
Local Open Scope Z_scope.

Lemma bytes_in_segs l : bytes_in l = raw_of (segs_of l).
Proof. induction l as [|e l IH]; [reflexivity|]. destruct e; cbn [bytes_in segs_of flat_map app]; try exact IH. cbn [raw_of flat_map]. f_equal. exact IH. Qed.
Lemma raw_of_app a b : raw_of (a ++ b) = raw_of a ++ raw_of b.
Proof. apply flat_map_app. Qed.
Lemma zlen_app {A} (a b : list A) : zlen (a ++ b) = zlen a + zlen b.
Proof. unfold zlen. rewrite app_length. lia. Qed.
Lemma zlen_nonneg {A} (a : list A) : 0 <= zlen a.
Proof. unfold zlen. lia. Qed.
Lemma zlen_nil {A} (a : list A) : zlen a = 0 -> a = [].
Proof. destruct a; [auto|]. unfold zlen. cbn [length]. lia. Qed.

(** * lines *)
(** up to and including the first segment with a line break *)
Fixpoint split_line (segs : list segment) : list segment * list segment * bool :=
  match segs with
  | [] => ([], [], false)
  | g :: t => if seg_is_newline g then ([g], t, true)
              else let '(a, b, nl) := split_line t in (g :: a, b, nl)
  end.
Lemma split_line_app segs a b nl : split_line segs = (a, b, nl) -> segs = a ++ b.
Proof.
  revert a b nl. induction segs as [|g t IH]; intros a b nl H; cbn [split_line] in H.
  - injection H as <- <- <-. reflexivity.
  - destruct (seg_is_newline g); [injection H as <- <- <-; reflexivity|].
    destruct (split_line t) as [[a' b'] nl']. injection H as <- <- <-. cbn. now rewrite <- (IH _ _ _ eq_refl).
Qed.
Lemma split_line_true segs a b : split_line segs = (a, b, true) ->
  exists pre g, a = pre ++ [g] /\ seg_is_newline g = true /\ Forall (fun x => seg_is_newline x = false) pre.
Proof.
  revert a b. induction segs as [|g t IH]; intros a b H; cbn [split_line] in H; [discriminate|].
  destruct (seg_is_newline g) eqn:E; [injection H as <- <-; exists [], g; auto|].
  destruct (split_line t) as [[a' b'] nl'] eqn:S. injection H as <- <- ->.
  destruct (IH _ _ eq_refl) as (pre & g' & -> & H1 & H2). exists (g :: pre), g'. auto.
Qed.
Lemma split_line_false segs a b : split_line segs = (a, b, false) -> a = segs /\ b = [] /\ Forall (fun x => seg_is_newline x = false) segs.
Proof.
  revert a b. induction segs as [|g t IH]; intros a b H; cbn [split_line] in H; [injection H as <- <-; auto|].
  destruct (seg_is_newline g) eqn:E; [discriminate|].
  destruct (split_line t) as [[a' b'] nl'] eqn:S. injection H as <- <- ->. destruct (IH _ _ eq_refl) as (-> & -> & H1). auto.
Qed.
Lemma split_line_here pre g post : seg_is_newline g = true -> Forall (fun x => seg_is_newline x = false) pre ->
  split_line (pre ++ g :: post) = (pre ++ [g], post, true).
Proof.
  intros Hg H. induction H as [|x pre Hx H IH]; cbn [app split_line]; [now rewrite Hg|]. now rewrite Hx, IH.
Qed.

Lemma line_scan_segs chain : line_scan chain = (let '(a, b, nl) := split_line (segs_of chain) in (zlen (raw_of a), nl)).
Proof.
  induction chain as [|e chain IH]; [reflexivity|]. cbn [line_scan].
  destruct e as [g|o|o|o]; cbn [el_newline el_len segs_of flat_map app]; fold (segs_of chain).
  2-4: rewrite IH; destruct (split_line (segs_of chain)) as [[a b] nl]; cbn; f_equal; lia.
  cbn [split_line]. destruct (seg_is_newline g).
  - unfold data_len. cbn [raw_of flat_map]. now rewrite app_nil_r.
  - rewrite IH. destruct (split_line (segs_of chain)) as [[a b] nl]. cbn [raw_of flat_map]. rewrite zlen_app. reflexivity.
Qed.

(** cutting after a prefix never splits a segment *)
Lemma cut_prefix a b : exists p r, cut (zlen (raw_of a)) (a ++ b) = Ok (p, r) /\ p ++ r = a ++ b /\ raw_of p = raw_of a.
Proof.
  induction a as [|g a IH].
  - change (zlen (raw_of [])) with 0. exists [], b. cbn [app]. destruct b; cbn [cut]; repeat split.
  - cbn [app cut]. destruct (Z.eqb_spec (zlen (raw_of (g :: a))) 0) as [E|E].
    + apply zlen_nil in E. exists [], (g :: a ++ b). rewrite E. repeat split.
    + cbn [raw_of flat_map] in *. fold (raw_of a) in *. rewrite zlen_app in *. unfold data_len.
      pose proof (zlen_nonneg (raw_of a)). destruct (Z.leb_spec (zlen (seg_raw g)) (zlen (seg_raw g) + zlen (raw_of a))); [|lia].
      replace (zlen (seg_raw g) + zlen (raw_of a) - zlen (seg_raw g)) with (zlen (raw_of a)) by lia.
      destruct IH as (p & r & -> & H1 & H2). cbn [bind]. exists (g :: p), r. cbn [app]. rewrite H1. repeat split.
      cbn [raw_of flat_map]. f_equal. exact H2.
Qed.
(** exactly there if the prefix ends with bytes *)
Lemma cut_prefix_exact a g b : seg_raw g <> [] -> cut (zlen (raw_of (a ++ [g]))) ((a ++ [g]) ++ b) = Ok (a ++ [g], b).
Proof.
  intros Hg. assert (Hz : zlen (seg_raw g) > 0) by (unfold zlen; destruct (seg_raw g); [easy|cbn [length]; lia]).
  induction a as [|x a IH]; cbn [app cut]; cbn [raw_of flat_map]; rewrite ?app_nil_r.
  - destruct (Z.eqb_spec (zlen (seg_raw g)) 0); [lia|]. unfold data_len. rewrite Z.leb_refl, Z.sub_diag.
    destruct b; reflexivity.
  - fold (raw_of (a ++ [g])). rewrite zlen_app. unfold data_len.
    assert (zlen (raw_of (a ++ [g])) > 0) by (rewrite raw_of_app, zlen_app; cbn [raw_of flat_map]; rewrite app_nil_r; pose proof (zlen_nonneg (raw_of a)); lia).
    pose proof (zlen_nonneg (seg_raw x)). destruct (Z.eqb_spec (zlen (seg_raw x) + zlen (raw_of (a ++ [g]))) 0); [lia|].
    destruct (Z.leb_spec (zlen (seg_raw x)) (zlen (seg_raw x) + zlen (raw_of (a ++ [g])))); [|lia].
    replace (zlen (seg_raw x) + zlen (raw_of (a ++ [g])) - zlen (seg_raw x)) with (zlen (raw_of (a ++ [g]))) by lia.
    rewrite IH. reflexivity.
Qed.

Lemma detach_line_spec b segs force fn : Rep b segs ->
  let '(a, rest, nl) := split_line segs in
  if zlen (raw_of a) =? 0 then detach_line b force = (Err EOFError, b)
  else if (nl || force)%bool then
    exists p r out b', cut (zlen (raw_of a)) (a ++ rest) = Ok (p, r) /\ p ++ r = segs /\ raw_of p = raw_of a /\
      detach_line b force = (Ok out, b') /\ Rep b' r /\ segs_of out = p /\ format_elems fn out = flat_map (wrap fn) p /\
      sb_last b' = zlen (raw_of p)
  else detach_line b force = (Err WaitRequest, b).
Proof.
  intros HR. unfold detach_line. rewrite line_scan_segs, (Rep_segs _ _ HR).
  destruct (split_line segs) as [[a rest] nl] eqn:S. apply split_line_app in S. cbv zeta beta iota.
  destruct (Z.eqb_spec (zlen (raw_of a)) 0) as [E|E]; [reflexivity|].
  destruct (nl || force)%bool; [|reflexivity].
  destruct (cut_prefix a rest) as (p & r & HC & H1 & H2).
  pose proof (detach_spec b segs (zlen (raw_of a)) fn HR E) as D. rewrite S, HC in D.
  destruct D as (out & b' & D1 & D2 & D3 & D4 & D5 & D6).
  exists p, r, out, b'. rewrite S. repeat split; auto. apply D5. intros K. rewrite K in *.
  destruct a; [|discriminate]. now apply E.
Qed.

Lemma detach_bytes_spec b segs n force fn : Rep b segs -> 0 < n -> Forall consistent segs ->
  if ((n <=? zlen (raw_of segs)) || force)%bool then
    match segs with
    | [] => detach_bytes b n force = (Err EOFError, b)
    | _ => exists p r out b', cut n segs = Ok (p, r) /\ raw_of p ++ raw_of r = raw_of segs /\ Forall consistent r /\
             zlen (raw_of p) = Z.min n (zlen (raw_of segs)) /\
             detach_bytes b n force = (Ok out, b') /\ Rep b' r /\ segs_of out = p /\
             format_elems fn out = flat_map (wrap fn) p /\ sb_last b' = zlen (raw_of p)
    end
  else detach_bytes b n force = (Err WaitRequest, b).
Proof.
  intros HR Hn HC. unfold detach_bytes. rewrite (Rep_len _ _ HR).
  destruct ((n <=? zlen (raw_of segs)) || force)%bool; [|reflexivity].
  pose proof (detach_spec b segs n fn HR ltac:(lia)) as D. destruct (cut_consistent n segs HC) as (p & r & E & H1 & H2 & H3 & H4).
  rewrite E in D. destruct D as (out & b' & D1 & D2 & D3 & D4 & D5 & D6). destruct segs as [|g t].
  - cbn [cut] in E. injection E as <- <-. unfold detach in *. destruct HR as [[Ha Hc]|(g & t & K & _)]; [|discriminate].
    rewrite Hc in *. reflexivity.
  - exists p, r, out, b'. rewrite D1. destruct out as [|e out]; [now specialize (D6 ltac:(easy))|]. repeat split; auto; try lia. apply D5. easy.
Qed.

(** * histories *)
Lemma cut_zero segs : cut 0 segs = Ok ([], segs).
Proof. destruct segs; reflexivity. Qed.

Lemma detach_any b segs n : Rep b segs -> exists r b', detach b n = (r, b') /\
  match cut n segs with
  | Ok (p, q) => exists out, r = Ok out /\ segs_of out = p /\ Rep b' q
  | Err x => r = Err x
  end.
Proof.
  intros HR. destruct (Z.eq_dec n 0) as [->|Hn].
  - destruct (detach_zero b segs HR) as (out & b' & D1 & D2 & D3 & _). exists (Ok out), b'. rewrite cut_zero. split; [exact D1|].
    exists out. auto.
  - pose proof (detach_spec b segs n (fun _ => []) HR Hn) as D. destruct (cut n segs) as [[p q]|x].
    + destruct D as (out & b' & D1 & D2 & D3 & _). exists (Ok out), b'. eauto.
    + destruct D as (b' & D). exists (Err x), b'. auto.
Qed.

Definition okres (r : result (list elem)) : Prop := match r with Ok _ => True | Err e => e = WaitRequest \/ e = EOFError end.
Definition usable (cons : bool) (segs : list segment) : Prop := cons = true -> Forall consistent segs.

Lemma step_spec cons o b segs : Rep b segs -> usable cons segs ->
  match o with O_attach l => usable cons l | O_bytes _ _ => cons = true | O_line _ => True end ->
  let '(r, b1) := do_op o b in okres r /\ exists segs', Rep b1 segs' /\ usable cons segs' /\
    match r with Ok l => bytes_in l | Err _ => [] end ++ raw_of segs' = raw_of segs ++ match o with O_attach l => raw_of l | _ => [] end.
Proof.
  intros HR HU Ho. destruct o as [l|n f|f]; cbn [do_op].
  - split; [exact I|]. exists (segs ++ l). split; [now apply Rep_attach|]. split; [intros E; apply Forall_app; auto|].
    cbn [bytes_in flat_map app]. apply raw_of_app.
  - rewrite app_nil_r. unfold detach_bytes. destruct (_ || f)%bool; [|split; [now left|exists segs; auto]].
    destruct (detach_any b segs n HR) as (r & b' & -> & D). destruct (cut_consistent n segs (HU Ho)) as (p & q & E & H1 & H2 & H3 & _).
    rewrite E in D. destruct D as (out & -> & D1 & D2).
    destruct out as [|e out]; cbn [okres].
    + split; [now right|]. exists q. split; [exact D2|]. split; [intros _; exact H3|]. cbn in D1. subst p. exact H1.
    + split; [exact I|]. exists q. split; [exact D2|]. split; [intros _; exact H3|]. rewrite bytes_in_segs, D1. exact H1.
  - rewrite app_nil_r. pose proof (detach_line_spec b segs f (fun _ => []) HR) as D.
    destruct (split_line segs) as [[a rest] nl] eqn:S. apply split_line_app in S.
    destruct (zlen (raw_of a) =? 0); [rewrite D; split; [now right|exists segs; auto]|].
    destruct (nl || f)%bool; [|rewrite D; split; [now left|exists segs; auto]].
    destruct D as (p & r & out & b' & _ & H1 & H2 & -> & H4 & H5 & _). split; [exact I|]. exists r. split; [exact H4|]. split.
    + intros E. specialize (HU E). rewrite <- H1 in HU. now apply Forall_app in HU.
    + rewrite bytes_in_segs, H5, <- raw_of_app, H1. reflexivity.
Qed.

Lemma history_spec cons ops b segs : Rep b segs -> usable cons segs ->
  Forall (fun o => match o with O_attach l => usable cons l | O_bytes _ _ => cons = true | O_line _ => True end) ops ->
  let '(rs, b1) := history ops b in Forall okres rs /\ exists segs', Rep b1 segs' /\ usable cons segs' /\
    handed_out rs ++ raw_of segs' = raw_of segs ++ attached ops.
Proof.
  intros HR HU HF. revert b segs HR HU. induction HF as [|o ops Ho HF IH]; intros b segs HR HU; cbn [history].
  - split; [constructor|]. exists segs. repeat split; auto. cbn. now rewrite app_nil_r.
  - pose proof (step_spec cons o b segs HR HU Ho) as S. destruct (do_op o b) as [r b1]. destruct S as (S1 & segs1 & S2 & S3 & S4).
    specialize (IH b1 segs1 S2 S3). destruct (history ops b1) as [rs b2]. destruct IH as (I1 & segs2 & I2 & I3 & I4).
    split; [now constructor|]. exists segs2. repeat split; auto. cbn [handed_out attached flat_map]. fold (handed_out rs) (attached ops).
    rewrite <- app_assoc, I4, app_assoc, S4, <- app_assoc. reflexivity.
Qed.

Lemma history_fifo ops : one_to_one ops \/ lines_only ops ->
  let '(rs, b) := history ops sbuf_init in
  handed_out rs ++ bytes_in (sb_chain b) = attached ops /\
  chain_len (sb_chain b) = zlen (attached ops) - zlen (handed_out rs) /\
  Forall (fun r => match r with Ok _ => True | Err e => e = WaitRequest \/ e = EOFError end) rs.
Proof.
  intros H.
  assert (K : exists cons, Forall (fun o => match o with O_attach l => usable cons l | O_bytes _ _ => cons = true | O_line _ => True end) ops).
  { destruct H as [H|H]; [exists true|exists false]; (eapply Forall_impl; [|exact H]); intros [l|n f|f]; cbn beta iota; try easy; try (intros Hl _; exact Hl).
    }
  destruct K as (cons & K). pose proof (history_spec cons ops sbuf_init [] Rep_init ltac:(constructor) K) as HS.
  destruct (history ops sbuf_init) as [rs b]. destruct HS as (H1 & segs & H2 & H3 & H4). cbn [raw_of flat_map app] in H4.
  rewrite bytes_in_segs, (Rep_segs _ _ H2). fold (raw_of segs) in H4. split; [exact H4|]. split; [|exact H1].
  rewrite (Rep_len _ _ H2), <- H4, zlen_app. lia.
Qed.

(** reachable buffers *)
Lemma history_rep ops : one_to_one ops -> exists segs, Rep (snd (history ops sbuf_init)) segs /\ Forall consistent segs.
Proof.
  intros H.
  assert (K : Forall (fun o => match o with O_attach l => usable true l | O_bytes _ _ => true = true | O_line _ => True end) ops).
  { eapply Forall_impl; [|exact H]. intros [l|n f|f]; cbn beta iota; try easy. }
  pose proof (history_spec true ops sbuf_init [] Rep_init ltac:(constructor) K) as HS.
  destruct (history ops sbuf_init) as [rs b]. destruct HS as (H1 & segs & H2 & H3 & H4). exists segs. split; [exact H2|]. now apply H3.
Qed.
Lemma history_rep_lines ops : lines_only ops -> exists segs, Rep (snd (history ops sbuf_init)) segs.
Proof.
  intros H.
  assert (K : Forall (fun o => match o with O_attach l => usable false l | O_bytes _ _ => false = true | O_line _ => True end) ops).
  { eapply Forall_impl; [|exact H]. intros [l|n f|f]; cbn beta iota; easy. }
  pose proof (history_spec false ops sbuf_init [] Rep_init ltac:(constructor) K) as HS.
  destruct (history ops sbuf_init) as [rs b]. destruct HS as (H1 & segs & H2 & H3 & H4). eauto.
Qed.

Lemma take_bytes ops n force : one_to_one ops -> 0 < n ->
  let b := snd (history ops sbuf_init) in
  let held := bytes_in (sb_chain b) in
  match detach_bytes b n force with
  | (Ok els, b') => bytes_in els = firstn (Z.to_nat n) held /\ bytes_in (sb_chain b') = skipn (Z.to_nat n) held /\
                    sb_last b' = zlen (bytes_in els) /\ (n <= zlen held \/ force = true) /\ queue (sb_chain b) <> []
  | (Err WaitRequest, b') => b' = b /\ zlen held < n /\ force = false
  | (Err EOFError, b') => b' = b /\ queue (sb_chain b) = [] /\ force = true
  | (Err _, _) => False
  end.
Proof.
  intros H Hn. destruct (history_rep ops H) as (segs & HR & HC). set (b := snd (history ops sbuf_init)) in *. cbv zeta.
  pose proof (detach_bytes_spec b segs n force (fun _ => []) HR Hn HC) as D. rewrite bytes_in_segs, (Rep_segs _ _ HR).
  change (queue (sb_chain b)) with (segs_of (sb_chain b)). rewrite (Rep_segs _ _ HR).
  destruct ((n <=? zlen (raw_of segs)) || force)%bool eqn:E.
  - destruct segs as [|g t].
    + rewrite D. repeat split. apply orb_true_iff in E as [E|E]; [|exact E]. apply Z.leb_le in E. unfold zlen in E. cbn in E. lia.
    + destruct D as (p & r & out & b' & D0 & D1 & D2 & D3 & D4 & D5 & D6 & D7 & D8). rewrite D4.
      rewrite !bytes_in_segs, D6, (Rep_segs _ _ D5). set (h := raw_of (g :: t)) in *.
      assert (L : length (raw_of p) = Nat.min (Z.to_nat n) (length h)) by (unfold zlen in D3; lia).
      assert (F : firstn (Z.to_nat n) h = raw_of p /\ skipn (Z.to_nat n) h = raw_of r).
      { rewrite <- D1 in *. rewrite app_length in L. rewrite firstn_app, skipn_app. split.
        - destruct (Nat.le_gt_cases (Z.to_nat n) (length (raw_of p))).
          + replace (Z.to_nat n - length (raw_of p))%nat with 0%nat by lia. cbn [firstn]. rewrite app_nil_r. apply firstn_all2. lia.
          + assert (length (raw_of r) = 0)%nat by lia. destruct (raw_of r); [|cbn [length] in *; lia]. rewrite firstn_nil, app_nil_r. apply firstn_all2. lia.
        - destruct (Nat.le_gt_cases (Z.to_nat n) (length (raw_of p))).
          + rewrite skipn_all2 by lia. replace (Z.to_nat n - length (raw_of p))%nat with 0%nat by lia. reflexivity.
          + assert (length (raw_of r) = 0)%nat by lia. destruct (raw_of r); [|cbn [length] in *; lia]. rewrite skipn_nil, app_nil_r. apply skipn_all2. lia. }
      destruct F as [-> ->]. repeat split; auto; [|easy]. apply orb_true_iff in E as [E|E]; [left; now apply Z.leb_le|now right].
  - rewrite D. apply orb_false_iff in E as [E1 E2]. apply Z.leb_gt in E1. auto.
Qed.

Lemma is_newline_breaks g : seg_is_newline g = true <-> breaks g.
Proof.
  unfold seg_is_newline, breaks. rewrite existsb_exists. split.
  - intros (x & Hx & E). apply N.eqb_eq in E. now subst.
  - intros H. exists 10%N. split; [exact H|reflexivity].
Qed.
Lemma not_newline_breaks g : seg_is_newline g = false <-> ~ breaks g.
Proof. rewrite <- is_newline_breaks. destruct (seg_is_newline g); split; intros; auto; try congruence. Qed.

Lemma take_line ops force : one_to_one ops \/ lines_only ops ->
  let b := snd (history ops sbuf_init) in
  let q := queue (sb_chain b) in
  Forall (fun g => breaks g -> seg_raw g <> []) q ->
  match detach_line b force with
  | (Ok els, b') =>
      queue els ++ queue (sb_chain b') = q /\ bytes_in els <> [] /\ sb_last b' = zlen (bytes_in els) /\
      ((exists pre g, queue els = pre ++ [g] /\ breaks g /\ Forall (fun x => ~ breaks x) pre)
       \/ (force = true /\ Forall (fun x => ~ breaks x) q /\ bytes_in (sb_chain b') = []))
  | (Err WaitRequest, b') => b' = b /\ force = false /\ Forall (fun x => ~ breaks x) q /\ bytes_in (sb_chain b) <> []
  | (Err EOFError, b') => b' = b /\ bytes_in (sb_chain b) = []
  | (Err _, _) => False
  end.
Proof.
  intros H. assert (HR : exists segs, Rep (snd (history ops sbuf_init)) segs).
  { destruct H as [H|H]; [destruct (history_rep ops H) as (s & HR & _); eauto|now apply history_rep_lines]. }
  destruct HR as (segs & HR). set (b := snd (history ops sbuf_init)) in *. cbv zeta.
  change (queue (sb_chain b)) with (segs_of (sb_chain b)). rewrite bytes_in_segs, (Rep_segs _ _ HR). intros HN.
  pose proof (detach_line_spec b segs force (fun _ => []) HR) as D.
  destruct (split_line segs) as [[a rest] nl] eqn:S.
  destruct (Z.eqb_spec (zlen (raw_of a)) 0) as [E|E].
  - rewrite D. split; [reflexivity|]. apply zlen_nil in E. destruct nl.
    + apply split_line_app in S as S'. destruct (split_line_true _ _ _ S) as (pre & g & -> & Hg & Hpre). exfalso.
      rewrite raw_of_app in E. apply app_eq_nil in E as [_ E]. cbn [raw_of flat_map] in E. rewrite app_nil_r in E.
      rewrite S' in HN. rewrite Forall_forall in HN. apply (HN g); [|now apply is_newline_breaks|exact E].
      apply in_or_app. left. apply in_or_app. right. now left.
    + apply split_line_false in S as (-> & _ & _). exact E.
  - destruct (nl || force)%bool eqn:NF.
    + destruct D as (p & r & out & b' & D0 & D1 & D2 & D3 & D4 & D5 & D6 & D7). rewrite D3.
      change (queue out) with (segs_of out). change (queue (sb_chain b')) with (segs_of (sb_chain b')).
      rewrite !bytes_in_segs, D5, (Rep_segs _ _ D4). split; [exact D1|]. split; [rewrite D2; intros K; now rewrite K in E|]. split; [exact D7|].
      apply split_line_app in S as S'. destruct nl.
      * left. destruct (split_line_true _ _ _ S) as (pre & g & -> & Hg & Hpre). exists pre, g.
        assert (Hr : seg_raw g <> []).
        { rewrite S' in HN. rewrite Forall_forall in HN. apply HN; [|now apply is_newline_breaks]. apply in_or_app. left. apply in_or_app. right. now left. }
        rewrite (cut_prefix_exact pre g rest Hr) in D0. injection D0 as <- <-. split; [reflexivity|]. split; [now apply is_newline_breaks|].
        eapply Forall_impl; [|exact Hpre]. intros x. apply not_newline_breaks.
      * right. apply split_line_false in S as (-> & -> & HF). split; [exact NF|]. split; [eapply Forall_impl; [|exact HF]; intros x; apply not_newline_breaks|].
        rewrite <- D1, raw_of_app in D2. apply (f_equal (@length N)) in D2. rewrite app_length in D2. destruct (raw_of r); [reflexivity|cbn [length] in D2; lia].
    + rewrite D. apply orb_false_iff in NF as [-> ->]. apply split_line_false in S as (-> & -> & HF). repeat split.
      * eapply Forall_impl; [|exact HF]; intros x; apply not_newline_breaks.
      * intros K. rewrite K in E. now apply E.
Qed.

(** * splitting *)
Lemma split_spec g n :
  (seg_split g n = Err BufferError <-> length (seg_raw g) <> length (seg_proc g)) /\
  forall l r, seg_split g n = Ok (l, r) ->
    seg_raw l ++ seg_raw r = seg_raw g /\ seg_proc l ++ seg_proc r = seg_proc g /\
    length (seg_raw l) = length (seg_proc l) /\ length (seg_raw r) = length (seg_proc r) /\
    seg_open l = seg_open g /\ seg_open r = seg_open g /\ seg_label l = seg_label g /\ seg_label r = seg_label g /\
    (0 <= n -> zlen (seg_raw l) = Z.min n (zlen (seg_raw g))).
Proof.
  unfold seg_split. destruct (is_consistent g) eqn:E; cbn [negb].
  - apply Nat.eqb_eq in E. split; [split; [discriminate|congruence]|]. intros l r K. injection K as <- <-. cbn.
    repeat split; try apply py_split; try (now apply py_take_length); try (now apply py_drop_length).
    intros Hn. unfold py_take, zlen. destruct (Z.ltb_spec n 0); [lia|]. rewrite firstn_length. lia.
  - apply Nat.eqb_neq in E. split; [split; auto|discriminate].
Qed.
