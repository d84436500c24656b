(** The segment buffer holds a queue of segments *)
From Coq Require Import List Arith NArith ZArith Bool Lia.
From Verif.Model Require Import Base Ansi Settings Segment.
From Verif.Proof Require Import BaseFacts.
Import ListNotations.
Local Open Scope Z_scope.

(** [Rep b segs]: the buffer holds the segments [segs]; the first of them may be the rest of a
    segment whose beginning has been handed out already *)
Definition RepS (chain : list elem) (active : list sgr) (segs : list segment) : Prop :=
  (active = [] /\ chain = flat_map attach_elems segs) \/
  (exists g t, segs = g :: t /\ no_formatting (seg_open g) = false /\ active = [seg_open g] /\
     chain = ESeg g :: EStop (seg_open g) :: EOnce (closing_seq (seg_open g)) :: flat_map attach_elems t).
Definition Rep (b : sbuf) (segs : list segment) : Prop := RepS (sb_chain b) (sb_active b) segs.

Definition segs_of (l : list elem) : list segment := flat_map (fun e => match e with ESeg g => [g] | _ => [] end) l.
Definition raw_of (segs : list segment) : bytes := flat_map seg_raw segs.
Definition wrap (fn : segment -> str) (g : segment) : str :=
  if no_formatting (seg_open g) then fn g else assemble (seg_open g) ++ fn g ++ assemble (closing_seq (seg_open g)).

Lemma segs_of_app a b : segs_of (a ++ b) = segs_of a ++ segs_of b.
Proof. apply flat_map_app. Qed.
Lemma segs_of_once {A} (f : A -> sgr) l : segs_of (map (fun x => EOnce (f x)) l) = [].
Proof. induction l; auto. Qed.
Lemma chain_len_segs l : chain_len l = zlen (raw_of (segs_of l)).
Proof.
  induction l as [|e l IH]; [reflexivity|]. cbn [chain_len fold_right]. fold (chain_len l). rewrite IH.
  destruct e; cbn [segs_of flat_map app el_len]; try reflexivity.
  cbn [raw_of flat_map]. unfold data_len, zlen. rewrite app_length. fold (raw_of (segs_of l)). unfold segs_of, raw_of. lia.
Qed.
Lemma segs_of_attach segs : segs_of (flat_map attach_elems segs) = segs.
Proof.
  induction segs as [|g segs IH]; [reflexivity|]. cbn [flat_map]. rewrite segs_of_app, IH. unfold attach_elems.
  destruct (no_formatting (seg_open g)); reflexivity.
Qed.
Lemma Rep_segs b segs : Rep b segs -> segs_of (sb_chain b) = segs.
Proof.
  intros [[_ ->]|(g & t & -> & _ & _ & ->)]; [apply segs_of_attach|].
  cbn [segs_of flat_map app]. f_equal. apply segs_of_attach.
Qed.
Lemma Rep_len b segs : Rep b segs -> chain_len (sb_chain b) = zlen (raw_of segs).
Proof. intros H. rewrite chain_len_segs. now rewrite (Rep_segs _ _ H). Qed.

Lemma Rep_init : Rep sbuf_init [].
Proof. left. auto. Qed.
Lemma Rep_attach b segs more : Rep b segs -> Rep (attach b more) (segs ++ more).
Proof.
  intros [[Ha Hc]|(g & t & -> & Hn & Ha & Hc)].
  - left. cbn. rewrite Ha, Hc, flat_map_app. auto.
  - right. exists g, (t ++ more). cbn. rewrite Ha, Hc, flat_map_app. auto.
Qed.

(** taking [n] bytes off a list of segments *)
Fixpoint cut (n : Z) (segs : list segment) : result (list segment * list segment) :=
  match segs with
  | [] => Ok ([], [])
  | g :: t =>
      if n =? 0 then Ok ([], segs)
      else if data_len g <=? n then bind (cut (n - data_len g) t) (fun '(p, r) => Ok (g :: p, r))
      else bind (seg_split g n) (fun '(l, r) => Ok ([l], r :: t))
  end.

Definition loop_ok (d : dstate) (fn : segment -> str) (p r : list segment) : Prop :=
  d_err d = None /\ RepS (d_chain d) (d_active d) r /\ segs_of (d_out d) = p /\
  format_elems fn (d_out d ++ map (fun o => EOnce (closing_seq o)) (d_active d)) = flat_map (wrap fn) p.

Lemma format_app fn a b : format_elems fn (a ++ b) = format_elems fn a ++ format_elems fn b.
Proof. apply flat_map_app. Qed.

Lemma seg_split_open g n l r : seg_split g n = Ok (l, r) -> seg_open l = seg_open g /\ seg_open r = seg_open g.
Proof. unfold seg_split. destruct (is_consistent g); [|discriminate]. cbn. intros H. injection H as <- <-. auto. Qed.

Lemma attach_nf g : no_formatting (seg_open g) = true -> attach_elems g = [ESeg g].
Proof. intros H. unfold attach_elems. now rewrite H. Qed.
Lemma attach_f g : no_formatting (seg_open g) = false ->
  attach_elems g = [EStart (seg_open g); ESeg g; EStop (seg_open g); EOnce (closing_seq (seg_open g))].
Proof. intros H. unfold attach_elems. now rewrite H. Qed.
Lemma loop_start fn segs : forall n,
  match cut n segs with
  | Ok (p, r) => loop_ok (detach_loop (flat_map attach_elems segs) n []) fn p r
  | Err x => d_err (detach_loop (flat_map attach_elems segs) n []) = Some x
  end.
Proof.
  induction segs as [|g t IH]; intros n.
  - cbn. repeat split. now left.
  - cbn [cut flat_map]. destruct (no_formatting (seg_open g)) eqn:NF; [rewrite (attach_nf g NF)|rewrite (attach_f g NF)]; cbn [app detach_loop].
    + destruct (n =? 0) eqn:E0.
      * repeat split. left. split; [reflexivity|]. cbn [d_chain flat_map]. now rewrite ?(attach_nf g), ?(attach_f g) by exact NF.
      * destruct (data_len g <=? n) eqn:EL.
        -- specialize (IH (n - data_len g)). destruct (cut (n - data_len g) t) as [[p r]|x]; cbn [bind].
           ++ destruct IH as (H1 & H2 & H3 & H4). unfold loop_ok, d_emit. cbn [d_err d_chain d_active d_out app].
              repeat split; auto.
              ** cbn [segs_of flat_map app]. fold (segs_of (d_out (detach_loop (flat_map attach_elems t) (n - data_len g) []))). now rewrite H3.
              ** cbn [format_elems flat_map format_elem]. fold (format_elems fn (d_out (detach_loop (flat_map attach_elems t) (n - data_len g) []) ++ map (fun o => EOnce (closing_seq o)) (d_active (detach_loop (flat_map attach_elems t) (n - data_len g) [])))).
                 rewrite H4. unfold wrap at 2. now rewrite NF.
           ++ exact IH.
        -- destruct (seg_split g n) as [[l r]|x] eqn:SP; cbn [bind]; [|reflexivity].
           apply seg_split_open in SP as [SL SR]. unfold loop_ok. cbn [d_err d_chain d_active d_out segs_of flat_map app map format_elems format_elem]. rewrite ?app_nil_r. repeat split.
           ++ left. split; [reflexivity|]. cbn [flat_map]. rewrite (attach_nf r) by now rewrite SR. reflexivity.
           ++ unfold wrap. now rewrite SL, NF.
    + destruct (n =? 0) eqn:E0.
      * repeat split. left. split; [reflexivity|]. cbn [d_chain flat_map]. now rewrite ?(attach_nf g), ?(attach_f g) by exact NF.
      * destruct (data_len g <=? n) eqn:EL.
        -- unfold d_emit at 2. cbn [list_remove]. rewrite eqb_list_refl. cbn [d_out].
           specialize (IH (n - data_len g)). destruct (cut (n - data_len g) t) as [[p r]|x]; cbn [bind].
           ++ destruct IH as (H1 & H2 & H3 & H4). unfold loop_ok, d_emit. cbn [d_err d_chain d_active d_out app].
              repeat split; auto.
              ** cbn [segs_of flat_map app]. fold (segs_of (d_out (detach_loop (flat_map attach_elems t) (n - data_len g) []))). now rewrite H3.
              ** cbn [format_elems flat_map format_elem]. fold (format_elems fn (d_out (detach_loop (flat_map attach_elems t) (n - data_len g) []) ++ map (fun o => EOnce (closing_seq o)) (d_active (detach_loop (flat_map attach_elems t) (n - data_len g) [])))).
                 rewrite H4. unfold wrap at 2. rewrite NF, <- !app_assoc. reflexivity.
           ++ exact IH.
        -- destruct (seg_split g n) as [[l r]|x] eqn:SP; cbn [bind]; [|reflexivity].
           apply seg_split_open in SP as [SL SR]. unfold loop_ok. cbn [d_err d_chain d_active d_out segs_of flat_map app map format_elems format_elem]. rewrite ?app_nil_r. repeat split.
           ++ right. exists r, t. rewrite SR. auto.
           ++ unfold wrap. rewrite SL, NF. unfold d_emit. cbn [d_out d_active map app format_elems flat_map format_elem]. rewrite !app_nil_r. reflexivity.
Qed.

(** detaching, for a positive (or negative) number of bytes *)
Lemma detach_spec b segs n fn : Rep b segs -> n <> 0 ->
  match cut n segs with
  | Ok (p, r) => exists out b', detach b n = (Ok out, b') /\ Rep b' r /\ segs_of out = p /\
                   format_elems fn out = flat_map (wrap fn) p /\ (segs <> [] -> sb_last b' = zlen (raw_of p)) /\ (segs <> [] -> out <> [])
  | Err x => exists b', detach b n = (Err x, b')
  end.
Proof.
  intros [[Ha Hc]|(g & t & -> & NF & Ha & Hc)] Hn.
  - pose proof (loop_start fn segs n) as L. unfold detach. destruct segs as [|g t].
    { cbn [cut]. rewrite Hc. cbn [flat_map]. exists [], b. repeat split; try easy. left. auto. }
    assert (NE : exists e c, sb_chain b = e :: c).
    { rewrite Hc. cbn [flat_map]. unfold attach_elems. destruct (no_formatting (seg_open g)); cbn; eauto. }
    destruct NE as (e0 & c0 & NE). rewrite NE, <- NE, Hc, Ha.
    set (d := detach_loop (flat_map attach_elems (g :: t)) n []) in *.
    destruct (cut n (g :: t)) as [[p r]|x] eqn:EC.
    + destruct L as (H1 & H2 & H3 & H4). rewrite H1. eexists. eexists. split; [reflexivity|].
      assert (S : segs_of (map EOnce [] ++ d_out d ++ map (fun r0 => EOnce (closing_seq r0)) (d_active d)) = p).
      { cbn [map app]. rewrite segs_of_app, segs_of_once, app_nil_r. exact H3. }
      repeat split; auto.
      * intros _. cbn [sb_last]. now rewrite chain_len_segs, S.
      * intros _ K. rewrite K in S. cbn in S. clear H3 H4. subst p. cbn [cut] in EC. apply Z.eqb_neq in Hn. rewrite Hn in EC.
        destruct (data_len g <=? n).
        -- destruct (cut _ t) as [[? ?]|]; cbn [bind] in EC; discriminate EC.
        -- destruct (seg_split g n) as [[? ?]|]; cbn [bind] in EC; discriminate EC.
    + rewrite L. eexists; reflexivity.
  - unfold detach. rewrite Hc, Ha. cbn [cut]. apply Z.eqb_neq in Hn. rewrite Hn. cbn [detach_loop]. rewrite Hn.
    destruct (data_len g <=? n) eqn:EL.
    + unfold d_emit at 1. cbn [list_remove]. rewrite eqb_list_refl.
      pose proof (loop_start fn t (n - data_len g)) as L.
      set (d := detach_loop (flat_map attach_elems t) (n - data_len g) []) in *. unfold d_emit. cbn [d_err d_out d_chain d_active].
      destruct (cut (n - data_len g) t) as [[p r]|x]; cbn [bind].
      * destruct L as (H1 & H2 & H3 & H4). rewrite H1. eexists. eexists. split; [reflexivity|]. cbn [map app].
        set (tail := d_out d ++ map (fun r0 => EOnce (closing_seq r0)) (d_active d)) in *.
        assert (S : segs_of tail = p) by (unfold tail; now rewrite segs_of_app, segs_of_once, app_nil_r).
        assert (S' : segs_of (EOnce (seg_open g) :: ESeg g :: EOnce (closing_seq (seg_open g)) :: tail) = g :: p) by (cbn; fold (segs_of tail); now rewrite S).
        repeat split; auto; try discriminate.
        -- cbn [format_elems flat_map format_elem]. fold (format_elems fn tail). rewrite H4. unfold wrap at 2. rewrite NF, <- !app_assoc. reflexivity.
        -- intros _. cbn [sb_last]. now rewrite chain_len_segs, S'.
      * rewrite L. eexists; reflexivity.
    + destruct (seg_split g n) as [[l r]|x] eqn:SP; cbn [bind]; [|eexists; reflexivity].
      apply seg_split_open in SP as [SL SR]. cbn [d_err d_out d_chain d_active map app]. eexists. eexists. split; [reflexivity|].
      repeat split; try discriminate.
      * right. exists r, t. rewrite SR. cbn. auto.
      * unfold wrap. cbn. rewrite SL, NF, !app_nil_r. reflexivity.
      * intros _. cbn [sb_last]. now rewrite chain_len_segs.
Qed.

(** asking for no bytes hands out none and changes nothing *)
Lemma detach_zero b segs : Rep b segs -> exists out b', detach b 0 = (Ok out, b') /\ Rep b' segs /\ segs_of out = [] /\
   (sb_active b = [] -> out = []) /\ (segs <> [] -> sb_last b' = 0).
Proof.
  intros [[Ha Hc]|(g & t & -> & NF & Ha & Hc)].
  - unfold detach. destruct segs as [|g t].
    { rewrite Hc. cbn [flat_map]. exists [], b. repeat split; try easy. left. auto. }
    pose proof (loop_start (fun _ => []) (g :: t) 0) as L. cbn [cut] in L. change (0 =? 0) with true in L. cbn iota in L.
    assert (E : detach_loop (flat_map attach_elems (g :: t)) 0 [] = mkD [] (flat_map attach_elems (g :: t)) [] None).
    { cbn [flat_map]. unfold attach_elems at 1 3. destruct (no_formatting (seg_open g)); reflexivity. }
    assert (NE : exists e c, sb_chain b = e :: c).
    { rewrite Hc. cbn [flat_map]. unfold attach_elems. destruct (no_formatting (seg_open g)); cbn; eauto. }
    destruct NE as (e0 & c0 & NE). rewrite NE, <- NE, Hc, Ha, E. cbn. eexists. eexists. split; [reflexivity|].
    repeat split; auto. left. auto.
  - unfold detach. rewrite Hc, Ha. cbn. eexists. eexists. split; [reflexivity|]. repeat split; auto.
    + right. exists g, t. auto.
    + discriminate.
Qed.

(** * consistent segments: cutting is cutting the byte string *)
Definition consistent (g : segment) : Prop := length (seg_raw g) = length (seg_proc g).
Lemma is_consistent_spec g : is_consistent g = true <-> consistent g.
Proof. apply Nat.eqb_eq. Qed.

Lemma py_split {A} n (l : list A) : py_take n l ++ py_drop n l = l.
Proof. unfold py_take, py_drop. destruct (n <? 0); apply firstn_skipn. Qed.
Lemma py_take_length {A B} n (l : list A) (l' : list B) : length l = length l' -> length (py_take n l) = length (py_take n l').
Proof. intros H. unfold py_take. destruct (n <? 0); rewrite !firstn_length, H; reflexivity. Qed.
Lemma py_drop_length {A B} n (l : list A) (l' : list B) : length l = length l' -> length (py_drop n l) = length (py_drop n l').
Proof. intros H. unfold py_drop. destruct (n <? 0); rewrite !skipn_length, H; reflexivity. Qed.

Lemma cut_consistent n segs : Forall consistent segs ->
  exists p r, cut n segs = Ok (p, r) /\ raw_of p ++ raw_of r = raw_of segs /\ Forall consistent p /\ Forall consistent r /\
    (0 <= n -> zlen (raw_of p) = Z.min n (zlen (raw_of segs))).
Proof.
  intros H. revert n. induction H as [|g t Hg H IH]; intros n.
  - exists [], []. repeat split; auto. unfold zlen. cbn. lia.
  - cbn [cut]. destruct (Z.eqb_spec n 0) as [E0|E0].
    + exists [], (g :: t). repeat split; auto. unfold zlen. cbn [raw_of flat_map length]. lia.
    + destruct (Z.leb_spec (data_len g) n) as [EL|EL].
      * destruct (IH (n - data_len g)) as (p & r & -> & H1 & H2 & H3 & H4). cbn [bind]. exists (g :: p), r.
        repeat split; auto.
        -- cbn [raw_of flat_map]. rewrite <- app_assoc. f_equal. exact H1.
        -- intros Hn. cbn [raw_of flat_map]. unfold zlen in *. rewrite !app_length. unfold data_len, zlen in *. fold (raw_of p) (raw_of t). specialize (H4 ltac:(lia)). lia.
      * unfold seg_split. apply is_consistent_spec in Hg as Hg'. rewrite Hg'. cbn [negb bind].
        eexists. eexists. split; [reflexivity|]. cbn [raw_of flat_map seg_raw]. repeat split.
        -- rewrite app_nil_r, app_assoc, py_split. reflexivity.
        -- constructor; [|constructor]. unfold consistent. cbn. now apply py_take_length.
        -- constructor; [|exact H]. unfold consistent. cbn. now apply py_drop_length.
        -- intros Hn. rewrite app_nil_r. unfold py_take, data_len, zlen in *. destruct (Z.ltb_spec n 0); [lia|].
           rewrite firstn_length, app_length. lia.
Qed.
