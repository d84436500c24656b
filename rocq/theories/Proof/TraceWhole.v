(** Traces of whole runs: what the parser announces, and the offsets in text mode *)
From Coq Require Import Ascii String.
From Coq Require Import List Arith NArith ZArith Bool Lia.
From Verif.Model Require Import Base Ansi Regex Strip Settings Segment Template Parser Console Formatter Reader Runner Trace Options.
From Verif.Spec Require Import Numbers Terminal Sgr Lexical SgrParams Display Output Input History Names Weave.
From Verif.Proof Require Import BaseFacts RegexFacts TermFacts ClosingFacts LexFacts TokFacts PaintFacts ConsoleFacts TextFormat BufFacts BufHistory LexClaims ParseClaims ReaderFacts ReaderExtra TraceFacts TraceRun TraceClaims.
Import ListNotations.
Local Open Scope N_scope.

Notation call := (list N * Z * bool)%type.

(** ** walking along a run *)
Section Walk.
  Variables (s : settings) (e : tenv) (tc : Z) (src : source).
  Variables (I W : tproc -> list call -> Prop).
  Hypothesis IW : forall t cs, I t cs -> W t cs.
  Hypothesis Ilog : forall t cs l, I t cs -> quiet l -> I (tlog t l) cs.
  Hypothesis Icall : forall t cs raw off fin, I t cs ->
    let '(t', r) := tprocess_chunk s e tc t raw off fin in
    match r with CbOk => I t' (cs ++ [(raw, off, fin)]) | CbInt => False | _ => W t' (cs ++ [(raw, off, fin)]) end.

  Definition good3 (cs : list call) (x : tproc * list action * reader_end) : Prop :=
    let '(t, a, en) := x in W t (cs ++ calls a) /\ (en = REnd -> I t (cs ++ calls a)).
  Lemma good3_pre l cs x : good3 (cs ++ calls l) x -> good3 cs (pre l x).
  Proof. destruct x as [[t a] en]. unfold good3, pre. rewrite calls_app, app_assoc. auto. Qed.
  Lemma good3_end t cs a en : calls a = [] -> I t cs -> good3 cs (t, a, en).
  Proof. intros E H. unfold good3. rewrite E, app_nil_r. auto. Qed.
  Lemma finish_walk raw off t cs : I t cs -> good3 cs (tread_finish s (tprocess_chunk s e tc) raw off t).
  Proof.
    intros H. unfold tread_finish, read_finish.
    assert (H1 : I (tlog t [dbg_at s READER 1 (lit "Encountered EOF") (Z.to_N off)]) cs) by (apply Ilog; [exact H|quiet]).
    pose proof (Icall _ _ raw off true H1) as K. destruct (tprocess_chunk s e tc _ raw off true) as [t' r].
    destruct r; cbn [good3 calls]; try contradiction; (split; [auto|]); try discriminate. auto.
  Qed.
  Lemma loop_walk evs : forall off lines chunks pos t cs, I t cs ->
    good3 cs (tread_loop s (tprocess_chunk s e tc) src evs off lines chunks pos t).
  Proof.
    induction evs as [|ev evs IH]; intros off lines chunks pos t cs H; cbn [tread_loop].
    - apply good3_pre. cbn [calls]. rewrite app_nil_r. now apply finish_walk.
    - destruct ev as [raw| |]; [|now apply good3_end|now apply good3_end].
      destruct raw as [|b raw]; [apply good3_pre; cbn [calls]; rewrite app_nil_r; now apply finish_walk|]. set (r0 := b :: raw). clearbody r0.
      set (t1 := tlog t _). assert (I1 : I t1 cs) by (apply Ilog; [exact H|quiet]). clearbody t1.
      destruct (tell_fails src); [now apply good3_end|].
      set (t2 := tlog t1 _). assert (I2 : I t2 cs) by (apply Ilog; [exact I1|quiet]). clearbody t2. cbv zeta.
      destruct (apply_max_lines (s_max_lines s) r0 lines) as [raw1 lines1].
      set (t3 := tlog t2 _). assert (I3 : I t3 cs).
      { unfold t3. destruct (limit_on (s_max_lines s)) as [m|]; [destruct (lines_reached m r0 lines)|]; (apply Ilog; [exact I2|quiet]). }
      clearbody t3.
      match goal with |- context [if ?c then _ else _] => destruct c end.
      + apply good3_pre. cbn [calls]. rewrite app_nil_r. apply finish_walk. apply Ilog; [exact I3|quiet].
      + pose proof (Icall t3 cs raw1 off false I3) as K. destruct (tprocess_chunk s e tc t3 raw1 off false) as [st1 r].
        destruct r; try contradiction; try (cbn [good3 calls]; split; [auto|discriminate]).
        match goal with |- context [if ?c then _ else _] => destruct c end; apply good3_pre; cbn [calls]; [now apply finish_walk|now apply IH].
  Qed.
  Lemma read_walk evs t : I t [] -> good3 [] (tread s (tprocess_chunk s e tc) src evs t).
  Proof.
    intros H. unfold tread. assert (K : good3 [] (pre [AOpen] (tread_loop s (tprocess_chunk s e tc) src evs 0 0 0 0 (tlog t (open_trace s src))))).
    { apply good3_pre. cbn [calls]. apply loop_walk. apply Ilog; [exact H|]. unfold open_trace. quiet. }
    destruct src; try exact K; now apply good3_end.
  Qed.
End Walk.

(** ** subsequences *)
Lemma Subseq_nil {A} (l : list A) : Subseq [] l.
Proof. induction l; [apply Sq_nil|apply Sq_skip; assumption]. Qed.
Lemma Subseq_refl {A} (l : list A) : Subseq l l.
Proof. induction l; [apply Sq_nil|apply Sq_take; assumption]. Qed.
Lemma Subseq_app {A} (a b c d : list A) : Subseq a c -> Subseq b d -> Subseq (a ++ b) (c ++ d).
Proof. induction 1; intros K; cbn [app]; [exact K|apply Sq_skip; auto|apply Sq_take; auto]. Qed.
Lemma Subseq_more {A} (a c d : list A) : Subseq a c -> Subseq a (c ++ d).
Proof. intros H. rewrite <- (app_nil_r a). apply Subseq_app; [exact H|apply Subseq_nil]. Qed.

(** ** events of one call *)
Lemma tformat_events s rm tc t : exists l, tp_ev (fst (tformat s rm tc t)) = tp_ev t ++ l.
Proof.
  unfold tformat. cbv zeta. destruct rm.
  - destruct (tbinary_format _ s tc _ _ _) as [[sb off] l|x l|l]; (exists l; reflexivity).
  - destruct (ttext_format _ s _ _ _ _) as [[[sb ln] off] l|x l|l]; (exists l; reflexivity).
Qed.
Lemma tformat_pb s rm tc t : pr_pb (tp_proc (fst (tformat s rm tc t))) = pr_pb (tp_proc t).
Proof.
  unfold tformat. cbv zeta. destruct rm.
  - destruct (tbinary_format _ s tc _ _ _) as [[sb off] l|x l|l]; reflexivity.
  - destruct (ttext_format _ s _ _ _ _) as [[[sb ln] off] l|x l|l]; reflexivity.
Qed.
Lemma tformat_no_int s rm tc t : snd (tformat s rm tc t) <> CbInt.
Proof.
  unfold tformat. cbv zeta. destruct rm.
  - destruct (tbinary_format _ s tc _ _ _) as [[sb off] l|x l|l]; discriminate.
  - destruct (ttext_format _ s _ _ _ _) as [[[sb ln] off] l|x l|l]; discriminate.
Qed.
Lemma parse_crops e p sb ss p' sb' ss' : parse e p sb ss = Ok (p', sb', ss') -> pb_raw p' = [].
Proof.
  unfold parse. destruct (run_scan _ _ _) as [[[u segs] s']|]; [|discriminate]. cbn [bind]. destruct u; [|discriminate].
  unfold crop_raw. cbn. intros H. injection H as <- _ _. reflexivity.
Qed.

(** ** what the parser announces *)
Definition lexed (c : call) (ts : list (kind * list N)) : Prop := is_bytes (call_data c) /\ Lexes (call_data c) ts /\ (0 <= call_offset c)%Z.
Fixpoint places (cs : list call) (tss : list (list (kind * list N))) : list (N * (kind * list N)) :=
  match cs, tss with
  | c :: cs, ts :: tss => located (Z.to_N (call_offset c)) ts ++ places cs tss
  | _, _ => []
  end.
Lemma places_snoc cs tss c ts : length cs = length tss -> places (cs ++ [c]) (tss ++ [ts]) = places cs tss ++ located (Z.to_N (call_offset c)) ts.
Proof.
  revert tss. induction cs as [|d cs IH]; intros [|x tss] H; try discriminate; cbn [app places]; [now rewrite app_nil_r|].
  injection H as H. now rewrite IH, app_assoc.
Qed.

Lemma located_length off ts : length (located off ts) = length ts.
Proof. revert off. induction ts as [|x ts IH]; intros off; cbn [located length]; [reflexivity|]. now rewrite IH. Qed.
Lemma Forall2_len {A B} (R : A -> B -> Prop) l m : Forall2 R l m -> length l = length m.
Proof. induction 1; cbn [length]; congruence. Qed.
Lemma Forall2_one {A B} (R : A -> B -> Prop) c l : Forall2 R [c] l -> exists x, l = [x] /\ R c x.
Proof. intros H. inversion H as [|? x ? ? K L]; subst. inversion L; subst. eauto. Qed.

Section Announced.
  Variables (s : settings) (e : tenv) (tc : Z).
  Definition AI (t : tproc) (cs : list call) : Prop :=
    pb_raw (pr_pb (tp_proc t)) = [] /\
    forall tss, Forall2 lexed cs tss -> exists msgs, Subseq msgs (tp_ev t) /\ Forall2 (announces s) (places cs tss) msgs.
  Definition AW (t : tproc) (cs : list call) : Prop :=
    forall tss, Forall2 lexed cs tss -> exists msgs n, Subseq msgs (tp_ev t) /\ Forall2 (announces s) (firstn n (places cs tss)) msgs.
  Lemma AIW t cs : AI t cs -> AW t cs.
  Proof.
    intros [_ H] tss L. destruct (H tss L) as (msgs & S & A). exists msgs, (length (places cs tss)). rewrite firstn_all. auto.
  Qed.
  Lemma AIlog t cs l : AI t cs -> quiet l -> AI (tlog t l) cs.
  Proof.
    intros [P H] _. split; [exact P|]. intros tss L. destruct (H tss L) as (msgs & S & A). exists msgs. split; [|exact A].
    cbn [tlog tp_ev]. now apply Subseq_more.
  Qed.
  Lemma AIcall t cs raw off fin : AI t cs ->
    let '(t', r) := tprocess_chunk s e tc t raw off fin in
    match r with CbOk => AI t' (cs ++ [(raw, off, fin)]) | CbInt => False | _ => AW t' (cs ++ [(raw, off, fin)]) end.
  Proof.
    intros [P H]. unfold tprocess_chunk. cbv zeta.
    set (pb := append_raw (pr_pb (tp_proc t)) raw fin).
    assert (PR : pb_raw pb = raw) by (unfold pb, append_raw; cbn; now rewrite P).
    set (t2 := tlog (tlog t _) _).
    assert (K : forall tss, Forall2 lexed (cs ++ [(raw, off, fin)]) tss -> exists msgs n, Subseq msgs (tp_ev t2) /\
      Forall2 (announces s) (firstn n (places (cs ++ [(raw, off, fin)]) tss)) msgs /\
      (forall x, parse e pb (pr_sb (tp_proc t)) (pr_ss (tp_proc t)) = Ok x -> (length (places (cs ++ [(raw, off, fin)]) tss) <= n)%nat)).
    { intros tss L. apply Forall2_app_inv_l in L as (l1 & l2 & L1 & L2 & ->). destruct (Forall2_one _ _ _ L2) as (ts & -> & B & X & O).
      rewrite places_snoc by (exact (Forall2_len _ _ _ L1)). destruct (H l1 L1) as (m1 & S1 & A1).
      unfold call_data, call_offset in *. cbn [fst snd] in *. rewrite <- PR in B, X.
      destruct (debug_tokens s e pb (pr_sb (tp_proc t)) (pr_ss (tp_proc t)) off ts B X O) as (first & m2 & last & n & E & A2 & N).
      exists (m1 ++ m2), (length (places cs l1) + n)%nat. split; [|split].
      - unfold t2. cbn [tlog tp_ev]. rewrite E, <- app_assoc. apply Subseq_app; [exact S1|].
        change m2 with ([] ++ m2). apply Subseq_app; [apply Subseq_nil|]. apply Sq_skip. rewrite <- (app_nil_r m2) at 1. apply Subseq_app; [apply Subseq_refl|apply Subseq_nil].
      - rewrite firstn_app_2. now apply Forall2_app.
      - intros [[p' sb'] ss'] Q. rewrite app_length. specialize (N p' sb' ss' Q).
        rewrite located_length. lia. }
    assert (P2 : tp_proc t2 = tp_proc t) by reflexivity.
    destruct (parse e pb (pr_sb (tp_proc t)) (pr_ss (tp_proc t))) as [[[pb' sb'] ss']|x] eqn:Q.
    - match goal with |- context [tformat s ?rm ?tc ?u] => destruct (tformat_events s rm tc u) as (l & E); pose proof (tformat_pb s rm tc u) as Pb; pose proof (tformat_no_int s rm tc u) as NI;
        destruct (tformat s rm tc u) as [t3 r] end. cbn [fst snd tp_ev tp_proc pr_pb] in *.
      assert (K3 : forall tss, Forall2 lexed (cs ++ [(raw, off, fin)]) tss -> exists msgs, Subseq msgs (tp_ev t3) /\ Forall2 (announces s) (places (cs ++ [(raw, off, fin)]) tss) msgs).
      { intros tss L. destruct (K tss L) as (msgs & n & S & A & N). exists msgs. split; [rewrite E; now apply Subseq_more|].
        now rewrite firstn_all2 in A by (eapply N; reflexivity). }
      assert (A3 : AI t3 (cs ++ [(raw, off, fin)])).
      { split; [|exact K3]. rewrite Pb. eapply parse_crops. exact Q. }
      destruct r; [|exact (AIW _ _ A3)|congruence|exact (AIW _ _ A3)]. apply AIlog; [exact A3|quiet].
    - intros tss L. destruct (K tss L) as (msgs & n & S & A & _). exists msgs, n. auto.
  Qed.
End Announced.

Lemma located_app a b off : located off (a ++ b) = located off a ++ located (off + N.of_nat (length (flat_map snd a))) b.
Proof.
  revert off. induction a as [|x a IH]; intros off; cbn [app located flat_map length]; [now rewrite N.add_0_r|].
  rewrite IH, app_length. f_equal. f_equal. f_equal. lia.
Qed.
Lemma lexes_flat d ts : Lexes d ts -> flat_map snd ts = d.
Proof. induction 1 as [|k w rest ts T H IH]; [reflexivity|]. cbn [flat_map snd]. now rewrite IH. Qed.
Lemma places_contiguous cs tss off : (0 <= off)%Z -> Contiguous off cs -> Forall2 (fun c ts => Lexes (call_data c) ts) cs tss ->
  places cs tss = located (Z.to_N off) (concat tss).
Proof.
  intros P C F. revert off P C. induction F as [|c ts cs tss H F IH]; intros off P C; [reflexivity|]. cbn [places concat].
  inversion C; subst; cbn [call_offset call_data fst snd] in *.
  - inversion F; subst. cbn [concat places]. now rewrite !app_nil_r.
  - rewrite located_app, (lexes_flat _ _ H). f_equal. unfold zlen in *. rewrite (IH (off + Z.of_nat (length raw))%Z); [f_equal; lia|lia|assumption].
Qed.
Lemma contiguous_offsets off cs : (0 <= off)%Z -> Contiguous off cs -> Forall (fun c => (0 <= call_offset c)%Z) cs.
Proof. intros P C. revert P. induction C; intros P; constructor; auto. apply IHC. unfold zlen. lia. Qed.

(** reading is the same with and without traces *)
Lemma traced_acts s tc src evs : let '(t, acts, en) := tbyteio_run s tc src evs in exists p, byteio_run s tc src evs = (p, acts, en).
Proof.
  pose proof (debug_woven s tc src evs) as H. destruct (tbyteio_run s tc src evs) as [[t acts] en]. destruct H as (p & traces & E & _). eauto.
Qed.
Lemma run_calls s tc src evs p acts en : byteio_run s tc src evs = (p, acts, en) ->
  Contiguous 0 (calls acts) /\ exists rest, concat (provided evs) = data_of acts ++ rest.
Proof.
  unfold byteio_run. destruct (get_read_mode s) as [m s1]. intros H. eapply reader_contiguous. exact H.
Qed.
Lemma calls_lexed s tc src evs p acts en tss : byteio_run s tc src evs = (p, acts, en) -> Forall is_bytes (provided evs) ->
  Forall2 (fun c ts => Lexes (call_data c) ts) (calls acts) tss -> Forall2 lexed (calls acts) tss.
Proof.
  intros H B F. destruct (run_calls _ _ _ _ _ _ _ H) as [C (rest & D)].
  assert (B2 : Forall (fun c => is_bytes (call_data c)) (calls acts)).
  { assert (K : is_bytes (data_of acts)).
    { assert (K : is_bytes (concat (provided evs))) by (unfold is_bytes in *; apply Forall_concat; exact B). rewrite D in K. apply Forall_app in K. apply K. }
    unfold data_of in K. unfold is_bytes in *. clear - K. induction (calls acts) as [|c cs IH]; constructor; cbn [flat_map] in K; apply Forall_app in K as [K1 K2]; auto. }
  pose proof (contiguous_offsets 0 _ ltac:(lia) C) as O. clear - F B2 O. induction F as [|c ts cs tss X F IH]; constructor; inversion B2; inversion O; subst; [split; auto|auto].
Qed.

Lemma announces_decimal s1 s : s_decimal_offsets s1 = s_decimal_offsets s -> forall x m, announces s1 x m -> announces s x m.
Proof.
  intros S1 [off [k w]] m H. unfold announces in *. assert (OT : offset_text s1 off = offset_text s off) by (unfold offset_text, offset_cells; now rewrite S1).
  rewrite OT in H. exact H.
Qed.
Lemma read_mode_decimal s : s_decimal_offsets (snd (get_read_mode s)) = s_decimal_offsets s.
Proof. unfold get_read_mode. destruct (s_binary s); [reflexivity|]. destruct (s_text s); reflexivity. Qed.
Lemma Forall2_imp {A B} (R S : A -> B -> Prop) l m : (forall a b, R a b -> S a b) -> Forall2 R l m -> Forall2 S l m.
Proof. intros H. induction 1; constructor; auto. Qed.

Theorem announced_run s tc src evs tss : Forall is_bytes (provided evs) ->
  let '(t, acts, en) := tbyteio_run s tc src evs in
  Forall2 (fun c ts => Lexes (call_data c) ts) (calls acts) tss ->
  exists msgs n, Subseq msgs (tp_ev t) /\ Forall2 (announces s) (firstn n (located 0 (concat tss))) msgs /\
    (en = REnd -> length msgs = length (concat tss)).
Proof.
  intros B. pose proof (traced_acts s tc src evs) as T. destruct (tbyteio_run s tc src evs) as [[t acts] en] eqn:E. destruct T as (p & T).
  intros F. pose proof (calls_lexed s tc src evs p acts en tss T B F) as L. destruct (run_calls _ _ _ _ _ _ _ T) as [C _].
  pose proof (places_contiguous (calls acts) tss 0 ltac:(lia) C F) as P. change (Z.to_N 0) with 0 in P.
  unfold tbyteio_run in E. pose proof (read_mode_decimal s) as D. destruct (get_read_mode s) as [rm s1]. cbn [snd] in D. cbv zeta in E.
  match type of E with tread _ _ _ _ ?t0 = _ => assert (I0 : AI s1 t0 []) end.
  { split; [reflexivity|]. intros x X. inversion X; subst. exists []. split; [apply Subseq_nil|constructor]. }
  pose proof (read_walk s1 (update_settings s) tc src (AI s1) (AW s1) (AIW s1) (AIlog s1) (AIcall s1 (update_settings s) tc) evs _ I0) as W.
  rewrite E in W. cbn [good3 app] in W. destruct W as [W1 W2].
  destruct (match en with REnd => true | _ => false end) eqn:Q.
  - assert (en = REnd) by (destruct en; congruence). destruct (W2 H) as [_ K]. destruct (K tss L) as (msgs & S & A). rewrite P in A.
    exists msgs, (length (located 0 (concat tss))). rewrite firstn_all. split; [exact S|]. split; [eapply Forall2_imp; [|exact A]; now apply announces_decimal|].
    intros _. rewrite <- (Forall2_len _ _ _ A). apply located_length.
  - destruct (W1 tss L) as (msgs & n & S & A). rewrite P in A. exists msgs, n. split; [exact S|]. split; [eapply Forall2_imp; [|exact A]; now apply announces_decimal|].
    intros ->. discriminate.
Qed.

(** ** offsets of the lines of text mode *)
Lemma Traced_app s a b c l m : Traced s a l b -> Traced s b m c -> Traced s a (l ++ m) c.
Proof. induction 1; intros K; cbn [app]; [exact K|apply Td_trace; auto|eapply Td_line; eauto]. Qed.
Lemma Traced_quiet s rec l : quiet l -> Traced s rec l rec.
Proof. induction 1 as [|[t|k t] l He H IH]; [constructor|contradiction|]. now constructor. Qed.
Lemma bytes_of_segs els : bytes_of els = raw_of (segs_of els).
Proof.
  unfold bytes_of, raw_of, segs_of. induction els as [|e els IH]; [reflexivity|]. cbn [flat_map]. rewrite flat_map_app, <- IH.
  destruct e; cbn [flat_map app]; rewrite ?app_nil_r; reflexivity.
Qed.
Lemma dbg_at_visible s d l m off : good_open (sgr_add (db_color d) [c_BG_BLACK]) -> a_bold (sgr_apply (sgr_add (db_color d) [c_BG_BLACK]) attrs0) = false ->
  a_dim (sgr_apply (sgr_add (db_color d) [c_BG_BLACK]) attrs0) = false -> Forall inline m ->
  exists t, dbg_at s d l m off = TDbg l t /\ visible t = offset_text s off ++ [0x2502] ++ m ++ [10].
Proof.
  intros G B D M. unfold dbg_at. eexists. split; [reflexivity|]. rewrite prefix_visible with (v := m ++ [10]); auto.
  match goal with |- exists a' cs, Painted attrs0 ?x a' cs /\ map cell_char cs = ?v => cut (Chars x v); [intros CH; exact (CH attrs0)|] end.
  apply Chars_app; [now apply Chars_plain|apply Chars_newline].
Qed.

Lemma text_triple s els rec ln : bytes_of els <> [] ->
  Traced s rec [dbg_at s TXTFMT 3 (format_encoded seg_raw_to_safe els) (N.of_nat (length rec));
                dbg_at s TXTFMT 2 (format_hidden seg_raw_to_hex els) (N.of_nat (length rec));
                dbg_at s TXTFMT 1 (format_hidden seg_raw_to_safe els) (N.of_nat (length rec));
                TOut (text_line s els ln)] (rec ++ bytes_of els).
Proof.
  intros NE. assert (SI : forall g, Forall inline (seg_raw_to_safe g)).
  { intros g. unfold seg_raw_to_safe. apply Forall_forall. intros x Hx. apply in_map_iff in Hx as (y & <- & _). rewrite safe_of_spec. apply safe_sign_inline. }
  destruct (dbg_at_visible s TXTFMT 3 (format_encoded seg_raw_to_safe els) (N.of_nat (length rec))) as (t3 & -> & V3); [solve_good|reflexivity|reflexivity|apply encoded_inline, SI|].
  destruct (dbg_at_visible s TXTFMT 2 (format_hidden seg_raw_to_hex els) (N.of_nat (length rec))) as (t2 & -> & V2); [solve_good|reflexivity|reflexivity|apply hidden_inline, raw_hex_inline|].
  destruct (dbg_at_visible s TXTFMT 1 (format_hidden seg_raw_to_safe els) (N.of_nat (length rec))) as (t1 & -> & V1); [solve_good|reflexivity|reflexivity|apply hidden_inline, SI|].
  rewrite hex_hidden in V2. rewrite safe_hidden in V1. apply (Td_line s rec (bytes_of els)); [eexists; exact V3|exact V2|exact V1|exact NE|constructor].
Qed.

Definition text_end (s : settings) (rec : list N) (segs : list segment) (o : toutcome (sbuf * N * N)) : Prop :=
  exists new segs', Traced s rec (t_events o) (rec ++ new) /\ raw_of segs = new ++ raw_of segs' /\
    match o with TFin (sb, _, off) _ => Rep sb segs' /\ off = N.of_nat (length (rec ++ new)) | _ => True end.
Lemma ttext_loop_traced s closed fuel : forall sb ln segs rec, Rep sb segs ->
  text_end s rec segs (ttext_loop fuel s closed sb ln (N.of_nat (length rec))).
Proof.
  induction fuel as [|f IH]; intros sb ln segs rec R; cbn [ttext_loop].
  - exists [], segs. rewrite app_nil_r. repeat split. constructor.
  - assert (Q : quiet (dbg s TXTFMT 1 (lit "Requested line") :: detach_line_trace s sb closed)) by (constructor; [exact I|apply detach_line_trace_quiet]).
    set (asked := _ :: _) in *. clearbody asked.
    assert (Stay : forall x, text_end s rec segs (TFail x asked)).
    { intros x. exists [], segs. rewrite app_nil_r. repeat split. now apply Traced_quiet. }
    assert (Wait : text_end s rec segs (TFin (sb, ln, N.of_nat (length rec)) asked)).
    { exists [], segs. rewrite app_nil_r. repeat split; auto. now apply Traced_quiet. }
    pose proof (detach_line_spec sb segs closed (fun _ => []) R) as D. destruct (split_line segs) as [[a rest] nl] eqn:SL.
    destruct (Z.eqb_spec (zlen (raw_of a)) 0) as [Z0|Z0]; [rewrite D; exact Wait|].
    destruct (nl || closed)%bool; [|rewrite D; exact Wait].
    destruct D as (p & r & out & b' & _ & PR & RA & -> & R' & SO & _ & L).
    assert (BO : bytes_of out = raw_of p) by (rewrite bytes_of_segs; now f_equal).
    assert (NE : bytes_of out <> []) by (rewrite BO, RA; intros K; rewrite K in Z0; now apply Z0).
    replace (N.of_nat (length rec) + Z.to_N (sb_last b')) with (N.of_nat (length (rec ++ bytes_of out))).
    2: { rewrite L, BO, app_length. unfold zlen. lia. }
    destruct (IH b' (ln + 1) r (rec ++ bytes_of out) R') as (new & segs' & T & RW & O).
    exists (bytes_of out ++ new), segs'. rewrite t_events_pre, app_assoc. split; [|split].
    + eapply Traced_app; [|exact T]. eapply Traced_app; [apply Traced_quiet, Q|]. now apply text_triple.
    + rewrite <- PR, raw_of_app, RW, BO, app_assoc. reflexivity.
    + destruct (ttext_loop f s closed b' (ln + 1) _) as [[[sb1 ln1] off1] l|x l|l]; cbn [tpre]; auto.
Qed.
Lemma ttext_format_traced s closed fuel sb ln segs rec : Rep sb segs ->
  text_end s rec segs (ttext_format fuel s closed sb ln (N.of_nat (length rec))).
Proof.
  intros R. unfold ttext_format. pose proof (ttext_loop_traced s closed fuel sb ln segs rec R) as (new & segs' & T & RW & O).
  destruct (ttext_loop fuel s closed sb ln _) as [[[sb1 ln1] off1] l|x l|l]; exists new, segs'; auto. cbn [t_events] in *.
  repeat split; auto; try apply O. eapply Traced_app; [exact T|]. apply Traced_quiet. destruct closed; quiet.
Qed.

Lemma attach_inj sb segs a b : Rep sb segs -> attach sb a = attach sb b -> a = b.
Proof.
  intros R E. pose proof (Rep_segs _ _ (Rep_attach _ _ a R)) as A. pose proof (Rep_segs _ _ (Rep_attach _ _ b R)) as B.
  rewrite E, B in A. now apply app_inv_head in A.
Qed.
Lemma parse_attaches e p sb ss p' sb' ss' : parse e p sb ss = Ok (p', sb', ss') -> exists segs, sb' = attach sb segs.
Proof.
  unfold parse. destruct (run_scan _ _ _) as [[[u segs] s']|]; [|discriminate]. cbn [bind]. destruct u; [|discriminate].
  intros H. injection H as _ <- _. eauto.
Qed.

Section Lines.
  Variables (s s1 : settings) (tc : Z).
  Hypothesis B : binary_mode s = false.
  Definition kept (tss : list (list (kind * list N))) : list N := flat_map (fun t => recorded s (fst t) (snd t)) (concat tss).
  Definition TI (t : tproc) (cs : list call) : Prop :=
    pb_raw (pr_pb (tp_proc t)) = [] /\
    exists rec segs, Traced s1 [] (tp_ev t) rec /\ tp_off t = N.of_nat (length rec) /\ Rep (pr_sb (tp_proc t)) segs /\
      forall tss, Forall2 lexed cs tss -> rec ++ raw_of segs = kept tss.
  Definition TW (t : tproc) (cs : list call) : Prop :=
    exists rec, Traced s1 [] (tp_ev t) rec /\ forall tss, Forall2 lexed cs tss -> exists rest, rec ++ rest = kept tss.
  Lemma TIW t cs : TI t cs -> TW t cs.
  Proof. intros (_ & rec & segs & T & _ & _ & K). exists rec. split; [exact T|]. intros tss L. eexists. eauto. Qed.
  Lemma TIlog t cs l : TI t cs -> quiet l -> TI (tlog t l) cs.
  Proof.
    intros (P & rec & segs & T & O & R & K) Q. split; [exact P|]. exists rec, segs. repeat split; auto.
    cbn [tlog tp_ev]. eapply Traced_app; [exact T|now apply Traced_quiet].
  Qed.
  Lemma kept_snoc tss ts : kept (tss ++ [ts]) = kept tss ++ flat_map (fun t => recorded s (fst t) (snd t)) ts.
  Proof. unfold kept. rewrite concat_app, flat_map_app. cbn [concat]. now rewrite app_nil_r. Qed.

  Lemma text_read : te_read (update_settings s) = RM_text.
  Proof. unfold update_settings, binary_mode, get_read_mode in *. destruct (s_binary s); [discriminate B|]. destruct (s_text s); [reflexivity|]. destruct (s_default_read_mode s); [discriminate B|reflexivity]. Qed.

  Lemma TIcall t cs raw off fin : TI t cs ->
    let '(t', r) := tprocess_chunk s1 (update_settings s) tc t raw off fin in
    match r with CbOk => TI t' (cs ++ [(raw, off, fin)]) | CbInt => False | _ => TW t' (cs ++ [(raw, off, fin)]) end.
  Proof.
    intros (P & rec & segs & T & O & R & K). unfold tprocess_chunk. cbv zeta.
    set (pb := append_raw (pr_pb (tp_proc t)) raw fin).
    assert (PR : pb_raw pb = raw) by (unfold pb, append_raw; cbn; now rewrite P).
    set (t2 := tlog (tlog t _) _).
    assert (T2 : Traced s1 [] (tp_ev t2) rec).
    { unfold t2. cbn [tlog tp_ev]. eapply Traced_app; [eapply Traced_app; [exact T|]|]; apply Traced_quiet; [apply append_trace_quiet|apply parse_trace_quiet]. }
    assert (O2 : tp_off t2 = N.of_nat (length rec)) by exact O. clearbody t2.
    destruct (parse (update_settings s) pb (pr_sb (tp_proc t)) (pr_ss (tp_proc t))) as [[[pb' sb'] ss']|x] eqn:Q.
    - destruct (parse_attaches _ _ _ _ _ _ _ Q) as (more & A).
      assert (R2 : Rep sb' (segs ++ more)) by (rewrite A; now apply Rep_attach).
      assert (K2 : forall tss, Forall2 lexed (cs ++ [(raw, off, fin)]) tss -> rec ++ raw_of (segs ++ more) = kept tss).
      { intros tss L. apply Forall2_app_inv_l in L as (l1 & l2 & L1 & L2 & ->). destruct (Forall2_one _ _ _ L2) as (ts & -> & Y & X & _).
        unfold call_data in *. cbn [fst] in *. rewrite <- PR in Y, X.
        destruct (parse_text_bytes s pb (pr_sb (tp_proc t)) (pr_ss (tp_proc t)) ts pb' sb' ss' Y X Q B) as (segss & A2 & F).
        rewrite A in A2. apply (attach_inj _ segs) in A2; [|exact R]. rewrite kept_snoc, raw_of_app, app_assoc, (K l1 L1). f_equal. rewrite A2. clear - F. unfold raw_of.
        induction F as [|t gs ts segss H F IH]; [reflexivity|]. cbn [concat flat_map]. now rewrite flat_map_app, H, IH. }
      rewrite text_read. unfold tformat. cbn [tp_proc tp_ev tp_off pr_pb pr_sb pr_ss pr_offset pr_line pr_out]. rewrite O2.
      pose proof (ttext_format_traced s1 (pb_closed pb') (loop_fuel sb') sb' (pr_line (tp_proc t)) _ rec R2) as (new & segs' & T3 & RW & E).
      assert (W : forall u l, tp_ev u = tp_ev t2 ++ l -> Traced s1 rec l (rec ++ new) -> TW u (cs ++ [(raw, off, fin)])).
      { intros u l E1 E2. exists (rec ++ new). split; [rewrite E1; eapply Traced_app; eassumption|].
        intros tss L. exists (raw_of segs'). rewrite <- (K2 tss L), RW, app_assoc. reflexivity. }
      destruct (ttext_format (loop_fuel sb') s1 (pb_closed pb') sb' (pr_line (tp_proc t)) _) as [[[sb1 ln1] off1] l|x l|l]; cbn [t_events] in T3.
      + destruct E as [E1 E2]. apply TIlog; [|quiet]. split; [cbn [tp_proc pr_pb]; eapply parse_crops; exact Q|].
        exists (rec ++ new), segs'. cbn [tp_ev tp_off tp_proc pr_sb]. repeat split; auto; [eapply Traced_app; eassumption|].
        intros tss L. rewrite <- (K2 tss L), RW, app_assoc. reflexivity.
      + eapply W; [reflexivity|exact T3].
      + eapply W; [reflexivity|exact T3].
    - exists rec. split; [exact T2|]. intros tss L. apply Forall2_app_inv_l in L as (l1 & l2 & L1 & L2 & ->). destruct (Forall2_one _ _ _ L2) as (ts & -> & _).
      eexists. rewrite kept_snoc, <- (K l1 L1), <- app_assoc. reflexivity.
  Qed.
End Lines.

Lemma traced_decimal s1 s a l b : s_decimal_offsets s1 = s_decimal_offsets s -> Traced s1 a l b -> Traced s a l b.
Proof.
  intros S1. assert (OT : forall off, offset_text s1 off = offset_text s off) by (intros off; unfold offset_text, offset_cells; now rewrite S1).
  induction 1; [constructor|constructor; assumption|]. eapply Td_line; rewrite <- ?OT; eassumption.
Qed.
Theorem debug_lines s tc src evs tss : binary_mode s = false -> Forall is_bytes (provided evs) ->
  let '(t, acts, en) := tbyteio_run s tc src evs in
  Forall2 (fun c ts => Lexes (call_data c) ts) (calls acts) tss ->
  exists rec rest, Traced s [] (tp_ev t) rec /\ rec ++ rest = flat_map (fun t => recorded s (fst t) (snd t)) (concat tss).
Proof.
  intros M B. pose proof (traced_acts s tc src evs) as T. destruct (tbyteio_run s tc src evs) as [[t acts] en] eqn:E. destruct T as (p & T).
  intros F. pose proof (calls_lexed s tc src evs p acts en tss T B F) as L.
  unfold tbyteio_run in E. pose proof (read_mode_decimal s) as D. destruct (get_read_mode s) as [rm s1]. cbn [snd] in D. cbv zeta in E.
  match type of E with tread _ _ _ _ ?t0 = _ => assert (I0 : TI s s1 t0 []) end.
  { split; [reflexivity|]. exists [], []. repeat split; [|exact Rep_init|].
    - cbn [tp_ev]. apply Traced_quiet. destruct (3 <=? s_debug s1)%nat; quiet.
    - intros x X. inversion X; subst. reflexivity. }
  pose proof (read_walk s1 (update_settings s) tc src (TI s s1) (TW s s1) (TIW s s1) (TIlog s s1) (TIcall s s1 tc M) evs _ I0) as W.
  rewrite E in W. cbn [good3 app] in W. destruct W as [(rec & W1 & W2) _]. destruct (W2 tss L) as (rest & W3).
  exists rec, rest. split; [eapply traced_decimal; eassumption|exact W3].
Qed.
(** the true offsets where every piece keeps its bytes *)
Theorem debug_lines_true s tc src evs tss : binary_mode s = false -> Forall is_bytes (provided evs) ->
  let '(t, acts, en) := tbyteio_run s tc src evs in
  Forall2 (fun c ts => Lexes (call_data c) ts) (calls acts) tss ->
  Forall (fun t => keeps_bytes s (fst t) = true) (concat tss) ->
  exists rec rest, Traced s [] (tp_ev t) rec /\ concat (provided evs) = rec ++ rest.
Proof.
  intros M B. pose proof (debug_lines s tc src evs tss M B) as H. pose proof (traced_acts s tc src evs) as T.
  destruct (tbyteio_run s tc src evs) as [[t acts] en]. destruct T as (p & T). intros F K. destruct (H F) as (rec & rest & T1 & T2).
  destruct (run_calls _ _ _ _ _ _ _ T) as [_ (more & Dt)]. exists rec, (rest ++ more). split; [exact T1|].
  rewrite Dt, app_assoc, T2. f_equal. unfold data_of. clear - F K. induction F as [|c ts cs tss H F IH]; [reflexivity|]. cbn [flat_map concat] in *.
  apply Forall_app in K as [K1 K2]. rewrite flat_map_app, (IH K2). f_equal. rewrite <- (lexes_flat _ _ H). clear - K1.
  induction K1 as [|x ts K _ IH]; [reflexivity|]. cbn [flat_map]. unfold recorded at 1. now rewrite K, IH.
Qed.
