(** Debug messages: what the parser is given, and the books of the buffer *)
From Coq Require Import Ascii String.
From Coq Require Import List Arith NArith ZArith Bool Lia.
From Verif.Model Require Import Base Ansi Regex Strip Settings Segment Template Parser Console Formatter Reader Runner Trace Options.
From Verif.Spec Require Import Numbers Terminal Sgr Lexical SgrParams Display Output Input Names Weave TraceText.
From Verif.Proof Require Import BaseFacts RegexFacts TermFacts ClosingFacts TokFacts PaintFacts ConsoleFacts BufFacts BufHistory LexFacts LexClaims ParseClaims ReaderFacts ReaderExtra TraceFacts TraceRun TraceClaims TraceWhole TraceTextFacts TraceAmounts.
Import ListNotations.
Local Open Scope N_scope.

Lemma Tidy_lit (p : string) : forallb inlineb (lit p) = true -> Tidy attrs0 (lit p) (lit p).
Proof. intros H. now apply Tidy_plain, inline_all. Qed.
Lemma bold_len v : Tidy attrs0 (bold_num (zlen v)) (dec (N.of_nat (@length N v))).
Proof. unfold zlen. rewrite <- nat_N_Z, <- zdec_of. apply bold_num_visible. Qed.
Lemma told_lit names s d k p t v : keyed d -> forallb inlineb (lit p) = true -> Tidy attrs0 t v ->
  told names [dbg s d k (lit p ++ t)] = if existsb (eqb_list (column d)) names then [(column d, k, (lit p ++ v) ++ [10])] else [].
Proof. intros D L T. apply told_dbg; [exact D|]. apply Tidy_app; [now apply Tidy_lit|exact T]. Qed.

Section Parser.
  Variables (s : settings) (e : tenv) (tc : Z).
  Lemma append_told p raw fin : pb_raw p = [] -> is_bytes raw ->
    told parser_names (append_trace s p raw fin) =
    [(lit " parsbuf", 3%nat, (lit "Appending " ++ dec (N.of_nat (length raw)) ++ lit " bytes") ++ [10]);
     (lit " parsbuf", 2%nat, (lit "Buffer state: " ++ described (s_debug s) raw) ++ [10])]
    ++ (if fin then [(lit " parsbuf", 1%nat, lit "Closing buffer for input" ++ [10])] else []).
  Proof.
    intros P B. unfold append_trace. rewrite P. cbn [app]. rewrite told_one, (told_one _ _ (if fin then _ else _)).
    erewrite told_lit; [|cbn; tauto|reflexivity|apply Tidy_app; [apply bold_len|apply Tidy_lit; reflexivity]].
    erewrite told_lit; [|cbn; tauto|reflexivity|apply printd_described, B].
    destruct fin; [|reflexivity]. rewrite (told_dbg _ s PARSBUF 1 (lit "Closing buffer for input") (lit "Closing buffer for input")); [reflexivity|cbn; tauto|apply Tidy_lit; reflexivity].
  Qed.
  Lemma parse_told p sb ss off : is_bytes (pb_raw p) -> 
    told parser_names (parse_trace s e p sb ss off) =
    [(lit "  parser", 1%nat, (lit "Parsing segment: " ++ described (s_debug s) (pb_raw p)) ++ [10])]
    ++ match parse e p sb ss with
       | Ok _ => [(lit " parsbuf", 3%nat, lit "Purging" ++ [10]); (lit " parsbuf", 2%nat, (lit "Buffer state: " ++ described (s_debug s) []) ++ [10])]
       | Err _ => []
       end.
  Proof.
    intros B. unfold parse_trace. rewrite told_one, told_app, told_scan by reflexivity.
    erewrite told_lit; [|cbn; tauto|reflexivity|apply printd_described, B]. cbn [app]. f_equal.
    destruct (parse e p sb ss); [|reflexivity]. unfold crop_trace. rewrite told_one.
    rewrite (told_dbg _ s PARSBUF 3 (lit "Purging") (lit "Purging")); [|cbn; tauto|apply Tidy_lit; reflexivity].
    erewrite told_lit; [|cbn; tauto|reflexivity|apply printd_described; constructor]. reflexivity.
  Qed.

  Definition all_bytes (cs : list call) : Prop := Forall (fun c => is_bytes (call_data c)) cs.
  Definition PI (t : tproc) (cs : list call) : Prop :=
    pb_raw (pr_pb (tp_proc t)) = [] /\ (all_bytes cs -> told parser_names (tp_ev t) = flat_map (call_report (s_debug s)) cs).
  Definition PW (t : tproc) (cs : list call) : Prop :=
    all_bytes cs -> exists n, (n <= 2)%nat /\ told parser_names (tp_ev t) = firstn (length (flat_map (call_report (s_debug s)) cs) - n) (flat_map (call_report (s_debug s)) cs).
  Lemma PIW t cs : PI t cs -> PW t cs.
  Proof. intros [_ H] B. exists 0%nat. split; [lia|]. rewrite Nat.sub_0_r, firstn_all. auto. Qed.
  Lemma PIlog t cs l : PI t cs -> Forall (reader_msg s) l -> PI (tlog t l) cs.
  Proof.
    intros [P H] R. split; [exact P|]. intros B. cbn [tlog tp_ev]. rewrite told_app, (told_reader parser_names s l); [|reflexivity|reflexivity|exact R]. rewrite app_nil_r. auto.
  Qed.
  Lemma PIcall t cs raw off fin : PI t cs ->
    let '(t', r) := tprocess_chunk s e tc t raw off fin in
    match r with CbOk => PI t' (cs ++ [(raw, off, fin)]) | CbInt => False | _ => PW t' (cs ++ [(raw, off, fin)]) end.
  Proof.
    intros [P H]. unfold tprocess_chunk. cbv zeta. set (pb := append_raw (pr_pb (tp_proc t)) raw fin).
    assert (PR : pb_raw pb = raw) by (unfold pb, append_raw; cbn; now rewrite P).
    set (l1 := append_trace s (pr_pb (tp_proc t)) raw fin). set (l2 := parse_trace s e pb (pr_sb (tp_proc t)) (pr_ss (tp_proc t)) off).
    pose proof (append_told (pr_pb (tp_proc t)) raw fin P) as E1. fold l1 in E1.
    pose proof (parse_told pb (pr_sb (tp_proc t)) (pr_ss (tp_proc t)) off) as E2. fold l2 in E2. rewrite PR in E2. clearbody l1. clearbody l2. clearbody pb.
    destruct (parse e pb (pr_sb (tp_proc t)) (pr_ss (tp_proc t))) as [[[pb' sb'] ss']|x] eqn:Q.
    - match goal with |- context [tformat s ?rm tc ?u] => destruct (tformat_fmt s rm tc u) as (l3 & E & F); pose proof (tformat_pb s rm tc u) as Pb; pose proof (tformat_no_int s rm tc u) as NI;
        destruct (tformat s rm tc u) as [t3 r] end. cbn [fst snd tp_ev tp_proc pr_pb tlog] in *.
      assert (A3 : PI t3 (cs ++ [(raw, off, fin)])).
      { split; [rewrite Pb; eapply parse_crops; exact Q|]. intros B. apply Forall_app in B as [B1 B2]. inversion B2 as [|? ? B3 _]; subst.
        rewrite E, !told_app, (H B1), (E1 B3), (E2 B3), (told_fmt parser_names s l3 eq_refl eq_refl F), app_nil_r, flat_map_app, <- app_assoc. f_equal.
        cbn [flat_map]. rewrite app_nil_r. unfold call_report. cbn [call_data call_last fst snd]. rewrite <- !app_assoc. destruct fin; reflexivity. }
      destruct r; [|exact (PIW _ _ A3)|congruence|exact (PIW _ _ A3)]. destruct A3 as [A1 A2]. split; [exact A1|]. intros B. cbn [tlog tp_ev].
      rewrite told_app, (A2 B), told_runner; [apply app_nil_r|apply crossing_any|reflexivity].
    - intros B. exists 2%nat. split; [lia|]. apply Forall_app in B as [B1 B2]. inversion B2 as [|? ? B3 _]; subst.
      cbn [tlog tp_ev]. rewrite !told_app, (H B1), (E1 B3), (E2 B3), flat_map_app. rewrite app_length.
      match goal with |- ?x = firstn (?a + ?b - 2) (?u ++ ?v) => replace (a + b - 2)%nat with (a + (b - 2))%nat end.
      2: { cbn [flat_map]. rewrite app_nil_r. unfold call_report. destruct fin; cbn; lia. }
      rewrite firstn_app_2, <- app_assoc. f_equal. cbn [flat_map]. rewrite app_nil_r. unfold call_report. cbn [call_data call_last fst snd]. destruct fin; cbn; rewrite <- ?app_assoc; reflexivity.
  Qed.
End Parser.

Lemma calls_bytes s tc src evs p acts en : byteio_run s tc src evs = (p, acts, en) -> Forall is_bytes (provided evs) -> all_bytes (calls acts).
Proof.
  intros H B. destruct (run_calls _ _ _ _ _ _ _ H) as [_ (rest & D)].
  assert (K : is_bytes (data_of acts)).
  { assert (K : is_bytes (concat (provided evs))) by (unfold is_bytes in *; apply Forall_concat; exact B). rewrite D in K. apply Forall_app in K. apply K. }
  unfold data_of in K. unfold is_bytes, all_bytes in *. clear - K. induction (calls acts) as [|c cs IH]; constructor; cbn [flat_map] in K; apply Forall_app in K as [K1 K2]; auto.
Qed.
Theorem parser_run s tc src evs : Forall is_bytes (provided evs) ->
  let '(t, acts, en) := tbyteio_run s tc src evs in
  let all := flat_map (call_report (s_debug s)) (calls acts) in
  exists n, (n <= 2)%nat /\ told parser_names (tp_ev t) = firstn (length all - n) all /\ (en = REnd -> n = 0%nat).
Proof.
  intros B. pose proof (traced_acts s tc src evs) as T. destruct (tbyteio_run s tc src evs) as [[t acts] en] eqn:E. destruct T as (p & T).
  pose proof (calls_bytes s tc src evs p acts en T B) as AB. cbv zeta.
  unfold tbyteio_run in E. pose proof (get_read_mode_keeps s) as G. destruct (get_read_mode s) as [rm s1]. destruct G as (G & _). cbn [snd] in G. cbv zeta in E.
  match type of E with tread _ _ _ _ ?t0 = _ => assert (I0 : PI s1 t0 []) end.
  { split; [reflexivity|]. intros _. cbn [tp_ev]. destruct (3 <=? s_debug s1)%nat; [reflexivity|]. apply told_runner; [cbn; tauto|reflexivity]. }
  pose proof (read_walk2 s1 (update_settings s) tc src (PI s1) (PW s1) (PIW s1) (PIlog s1) (PIcall s1 (update_settings s) tc) evs _ I0) as W.
  rewrite E in W. cbn [good3 app] in W. destruct W as [W1 W2]. rewrite G in *.
  destruct (match en with REnd => true | _ => false end) eqn:Q.
  - assert (X : en = REnd) by (destruct en; congruence). destruct (W2 X) as [_ K]. exists 0%nat. split; [lia|]. split; [|auto]. rewrite Nat.sub_0_r, firstn_all. rewrite <- G. auto.
  - destruct (W1 AB) as (n & L & K). exists n. rewrite G in K. split; [exact L|]. split; [exact K|]. intros ->. discriminate.
Qed.

(** ** the books *)
Lemma Books_app q r l q1 r1 m q2 r2 : Books q r l q1 r1 -> Books q1 r1 m q2 r2 -> Books q r (l ++ m) q2 r2.
Proof.
  induction 1; intros K; cbn [app]; [exact K|apply Bk_put; auto|apply Bk_ask; auto|apply Bk_take; auto|apply Bk_state; auto|apply Bk_other; auto].
Qed.
Lemma preview_shown s b : exists x, Tidy attrs0 (preview s b) (lit "len " ++ zdec (chain_len (sb_chain b)) ++ lit "+" ++ x).
Proof.
  unfold preview. cbv zeta.
  assert (R : Tidy attrs0 (lit "len " ++ bold_num (chain_len (sb_chain b)) ++ span_wrap [c_ITALIC] (43 :: zdec (sgr_byte_len (sb_chain b))))
     (lit "len " ++ zdec (chain_len (sb_chain b)) ++ 43 :: zdec (sgr_byte_len (sb_chain b)))).
  { apply Tidy_app; [apply Tidy_lit; reflexivity|]. apply Tidy_app; [apply bold_num_visible|]. apply Tidy_span; [reflexivity|]. apply Tidy_plain. constructor; [easy|apply zdec_inline]. }
  set (r := (lit "len " ++ bold_num (chain_len (sb_chain b)) ++ span_wrap [c_ITALIC] (43 :: zdec (sgr_byte_len (sb_chain b))))%list) in *. clearbody r.
  destruct (negb (debug_buffer_contents s)); [exists (zdec (sgr_byte_len (sb_chain b))); exact R|].
  match goal with |- exists x, Tidy attrs0 (r ++ ?t) _ => assert (T : tidy attrs0 t) end.
  { apply tidy_app; [text|]. apply tidy_app.
    - apply tidy_span; [reflexivity|]. apply tidy_app; [text|]. apply tidy_app; [|apply tidy_app; [|text]].
      + apply join_tidy; [text|]. apply preview_values_tidy.
      + destruct (debug_buffer_contents_full s); [apply tidy_nil|]. destruct (5 <? _)%nat; [text|apply tidy_nil].
    - destruct (debug_buffer_contents_full s); [|apply tidy_nil]. apply tidy_app; [text|]. apply tidy_span; [reflexivity|].
      apply tidy_app; [text|]. apply tidy_app; [|text]. apply tidy_plain, join_inline; [repeat constructor; easy|].
      apply Forall_forall. intros x Hx. apply in_map_iff in Hx as (y & <- & _). apply preview_assemble. }
  destruct T as (v & T). exists (zdec (sgr_byte_len (sb_chain b)) ++ v). pose proof (Tidy_app _ _ _ _ _ R T) as K. rewrite <- !app_assoc in K. exact K.
Qed.
Lemma book_state s b segs r : Rep b segs -> Books (zlen (raw_of segs)) r (told books_names [buffer_state s b]) (zlen (raw_of segs)) r.
Proof.
  intros R. destruct (preview_shown s b) as (x & T). unfold buffer_state.
  rewrite (told_lit books_names s CHAINBUF 2 "Buffer state: "%string _ _ ltac:(cbn; tauto) eq_refl T). rewrite (Rep_len _ _ R).
  replace (if existsb (eqb_list (column CHAINBUF)) books_names then _ else _)
    with [(lit "chainbuf", 2%nat, lit "Buffer state: len " ++ zdec (zlen (raw_of segs)) ++ lit "+" ++ (x ++ [10]))].
  - apply Bk_state, Bk_end.
  - rewrite <- !app_assoc. reflexivity.
Qed.
Lemma book_other s d k p t q r : In d [CHAINBUF; BINFMT; PARSBUF] -> In p ["Responsing "; "Columns "; "Purging"; "Closing buffer for input"]%string ->
  Books q r (told books_names [dbg s d k (lit p ++ t)]) q r.
Proof.
  intros D P. destruct (told_dbg_begins books_names s d k (lit p) t (lit p)) as (tail & E).
  - unfold keyed. cbn in *. tauto.
  - repeat (destruct P as [<-|P]; [apply Tidy_lit; reflexivity|]). contradiction.
  - rewrite E. destruct (existsb _ _); [|apply Bk_end]. repeat (destruct D as [<-|D]; [repeat (destruct P as [<-|P]; [apply Bk_other; [easy|easy|easy|apply Bk_end]|]); contradiction|]). contradiction.
Qed.
Lemma chain_len_out out : chain_len out = zlen (raw_of (segs_of out)).
Proof. rewrite chain_len_bytes, bytes_of_segs. reflexivity. Qed.

Lemma book_detach s b segs req r : Rep b segs -> Forall consistent segs -> (0 <= req)%Z -> r = req ->
  exists p q out b', detach b req = (Ok out, b') /\ segs_of out = p /\ Rep b' q /\ Forall consistent q /\
    raw_of p ++ raw_of q = raw_of segs /\ zlen (raw_of p) = Z.min req (zlen (raw_of segs)) /\
    Books (zlen (raw_of segs)) r (told books_names (detach_trace s b req)) (zlen (raw_of q)) r.
Proof.
  intros R C P ->. destruct (detach_any b segs req R) as (res & b' & E & D). destruct (cut_consistent req segs C) as (p & q & K & H1 & H2 & H3 & H4).
  rewrite K in D. destruct D as (out & -> & S & R'). exists p, q, out, b'. specialize (H4 P).
  split; [exact E|]. split; [exact S|]. split; [exact R'|]. split; [exact H3|]. split; [exact H1|]. split; [exact H4|].
  unfold detach_trace. rewrite told_one. eapply Books_app; [apply book_state; exact R|].
  pose proof (Rep_len _ _ R) as L. destruct (sb_chain b) as [|x l] eqn:CH.
  - unfold detach in E. rewrite CH in E. injection E as <- <-. cbn [segs_of flat_map] in S. subst p. cbn [raw_of flat_map app] in H1. rewrite H1. apply Bk_end.
  - rewrite E. rewrite told_one. eapply Books_app; [|apply book_state; exact R'].
    rewrite (told_lit books_names s CHAINBUF 2 "Detached "%string _ (zdec (chain_len out) ++ lit " data byte(s)") ltac:(cbn; tauto) eq_refl)
      by (apply Tidy_app; [apply bold_num_visible|apply Tidy_lit; reflexivity]).
    rewrite chain_len_out, S.
    replace (if existsb (eqb_list (column CHAINBUF)) books_names then _ else _)
      with [(lit "chainbuf", 2%nat, lit "Detached " ++ zdec (zlen (raw_of p)) ++ lit " data byte(s)" ++ [10])] by (rewrite <- !app_assoc; reflexivity).
    apply Bk_take; [rewrite H4; apply Z.min_comm|]. replace (zlen (raw_of q)) with (zlen (raw_of segs) - zlen (raw_of p))%Z; [apply Bk_end|].
    rewrite <- H1. rewrite zlen_app. lia.
Qed.

(** state at the end of a loop *)
Definition book_end (s : settings) (closed : bool) (cols q r : Z) (o : toutcome (sbuf * N)) : Prop :=
  exists q' r', Books q r (told books_names (t_events o)) q' r' /\
    match o with TFin (sb, _) _ => exists segs, Rep sb segs /\ Forall consistent segs /\ q' = zlen (raw_of segs) /\ (closed = true -> q' = 0%Z) | _ => True end.
Lemma told_tout names t : told names [TOut t] = [].
Proof. reflexivity. Qed.
Lemma tbinary_loop_books fuel s cols req closed : (0 <= req)%Z -> forall sb off segs r, Rep sb segs -> Forall consistent segs ->
  (0 < req \/ zlen (raw_of segs) = 0)%Z ->
  book_end s closed cols (zlen (raw_of segs)) r (tbinary_loop fuel s cols req closed sb off).
Proof.
  intros HR. induction fuel as [|f IH]; intros sb off segs r R C HZ; cbn [tbinary_loop].
  - exists (zlen (raw_of segs)), r. split; [apply Bk_end|exact I].
  - unfold detach_bytes_trace, detach_bytes. set (req_msg := dbg s BINFMT 1 _).
    assert (A : forall l q2 r2, Books (zlen (raw_of segs)) req l q2 r2 -> Books (zlen (raw_of segs)) r (told books_names [req_msg] ++ l) q2 r2).
    { intros l q2 r2 K. unfold req_msg. rewrite (told_lit books_names s BINFMT 1 "Requested "%string _ (zdec req ++ lit " byte(s)") ltac:(cbn; tauto) eq_refl)
        by (apply Tidy_app; [apply bold_num_visible|apply Tidy_lit; reflexivity]).
      replace (if existsb (eqb_list (column BINFMT)) books_names then _ else _)
        with [(lit "  binfmt", 1%nat, lit "Requested " ++ zdec req ++ lit " byte(s)" ++ [10])] by (rewrite <- !app_assoc; reflexivity).
      cbn [app]. apply Bk_ask, K. }
    clearbody req_msg. destruct (_ || closed)%bool eqn:Have.
    + destruct (book_detach s sb segs req req R C HR eq_refl) as (p & q & out & b' & E & S & R' & C' & H1 & H4 & B). rewrite E.
      destruct out as [|x out].
      * cbn [segs_of flat_map] in S. subst p. cbn [raw_of flat_map app] in H1.
        assert (Z0 : zlen (raw_of segs) = 0%Z) by (unfold zlen in *; cbn [raw_of flat_map length] in H4; lia).
        exists (zlen (raw_of q)), req. split.
        { cbn [t_events]. rewrite told_one, told_app. apply A. eapply Books_app; [exact B|]. rewrite told_one. eapply Books_app; [|apply book_state; exact R'].
          match goal with |- context [dbg s CHAINBUF 1 ?m] => change m with (lit "Responsing " ++ lit "with EOF") end. apply book_other; cbn; tauto. }
        exists q. rewrite H1. auto.
      * set (els := x :: out) in *. clearbody els.
        assert (Z2 : (0 < req \/ zlen (raw_of q) = 0)%Z).
        { destruct HZ as [HZ|HZ]; [now left|]. right. rewrite <- H1, zlen_app in HZ. unfold zlen in *. lia. }
        destruct (IH b' (off + Z.to_N (sb_last b')) q req R' C' Z2) as (q' & r' & K1 & K2). exists q', r'. split.
        { rewrite t_events_pre. rewrite !told_app. rewrite app_nil_r. rewrite told_one, <- !app_assoc. apply A. eapply Books_app; [exact B|].
          replace (told books_names [_; _; _]) with (@nil (list N * nat * list N)); [exact K1|]. symmetry.
          rewrite told_one, told_dbg_at by (reflexivity || (cbn; tauto)). rewrite told_one, told_dbg_at by (reflexivity || (cbn; tauto)). reflexivity. }
        destruct (tbinary_loop f s cols req closed b' _) as [[sb1 off1] l|x0 l|l]; cbn [tpre]; auto.
    + exists (zlen (raw_of segs)), req. split.
      * cbn [t_events]. rewrite told_one. apply A. rewrite told_one. eapply Books_app; [|apply book_state; exact R].
        match goal with |- context [dbg s CHAINBUF 1 ?m] => change m with (lit "Responsing " ++ lit "with WaitRequest") end. apply book_other; cbn; tauto.
      * exists segs. apply orb_false_iff in Have as [_ ->]. repeat split; auto. discriminate.
Qed.
Lemma tbinary_format_books fuel s tc closed sb off segs r : (0 < columns s tc)%Z -> Rep sb segs -> Forall consistent segs ->
  book_end s closed (columns s tc) (zlen (raw_of segs)) r (tbinary_format fuel s tc closed sb off).
Proof.
  intros P R C. unfold tbinary_format. cbv zeta. rewrite current_cols_spec, (Rep_len _ _ R).
  set (req := if closed then _ else _).
  assert (HR : (0 <= req)%Z) by (unfold req, zlen; destruct closed; lia).
  assert (HZ : (0 < req \/ zlen (raw_of segs) = 0)%Z) by (unfold req, zlen; destruct closed; lia). clearbody req.
  destruct (tbinary_loop_books fuel s (columns s tc) req closed HR sb off segs r R C HZ) as (q' & r' & B & E). exists q', r'.
  destruct (tbinary_loop fuel s (columns s tc) req closed sb off) as [[sb1 off1] l|x l|l]; cbn [t_events] in B.
  - split.
    + rewrite t_events_pre, told_app. eapply Books_app with (q1 := zlen (raw_of segs)) (r1 := r).
      * destruct (s_columns s); [apply Bk_end|].
        match goal with |- context [dbg s BINFMT 2 (?m ++ ?t)] => change (m ++ t) with (lit "Columns " ++ (lit "amount set to: " ++ t)) end. apply book_other; cbn; tauto.
      * destruct (closed && _)%bool; cbn [t_events]; [|exact B]. rewrite told_app, told_tout, app_nil_r. exact B.
    + destruct (closed && _)%bool; exact E.
  - split; [|exact I]. rewrite t_events_pre, told_app. eapply Books_app with (q1 := zlen (raw_of segs)) (r1 := r); [|exact B].
    destruct (s_columns s); [apply Bk_end|]. match goal with |- context [dbg s BINFMT 2 (?m ++ ?t)] => change (m ++ t) with (lit "Columns " ++ (lit "amount set to: " ++ t)) end. apply book_other; cbn; tauto.
  - split; [|exact I]. rewrite t_events_pre, told_app. eapply Books_app with (q1 := zlen (raw_of segs)) (r1 := r); [|exact B].
    destruct (s_columns s); [apply Bk_end|]. match goal with |- context [dbg s BINFMT 2 (?m ++ ?t)] => change (m ++ t) with (lit "Columns " ++ (lit "amount set to: " ++ t)) end. apply book_other; cbn; tauto.
Qed.

Lemma purge_told s q r : Books q r (told books_names (crop_trace s)) q r.
Proof.
  unfold crop_trace. rewrite told_one.
  rewrite (told_dbg _ s PARSBUF 3 (lit "Purging") (lit "Purging")); [|cbn; tauto|apply Tidy_lit; reflexivity].
  erewrite told_lit; [|cbn; tauto|reflexivity|apply printd_described; constructor].
  apply Bk_other; [easy|easy|easy|]. apply Bk_other; [easy|easy|easy|]. apply Bk_end.
Qed.
Lemma append_books s p raw fin q r : pb_raw p = [] -> is_bytes raw ->
  Books q r (told books_names (append_trace s p raw fin)) (q + zlen raw) r.
Proof.
  intros P B. unfold append_trace. rewrite P. cbn [app]. rewrite told_one, (told_one _ _ (if fin then _ else _)).
  erewrite told_lit; [|cbn; tauto|reflexivity|apply Tidy_app; [apply bold_len|apply Tidy_lit; reflexivity]].
  erewrite told_lit; [|cbn; tauto|reflexivity|apply printd_described, B].
  match goal with |- context [lit "Appending " ++ (?a ++ ?b)] => idtac end.
  match goal with |- Books q r (?a ++ _) _ _ => replace a with [(lit " parsbuf", 3%nat, lit "Appending " ++ dec (N.of_nat (length raw)) ++ lit " bytes" ++ [10])] by (rewrite <- !app_assoc; reflexivity) end.
  cbn [app]. apply Bk_put. replace (q + Z.of_N (N.of_nat (length raw)))%Z with (q + zlen raw)%Z by (unfold zlen; lia).
  match goal with |- Books _ r (?a ++ _) _ _ => replace a with [(lit " parsbuf", 2%nat, lit "Buffer state: " ++ described (s_debug s) raw ++ [10])] by (rewrite <- !app_assoc; reflexivity) end.
  cbn [app]. apply Bk_other; [easy|easy|easy|]. destruct fin; [|apply Bk_end].
  change (lit "Closing buffer for input") with (lit "Closing buffer for input" ++ []). apply book_other; cbn; tauto.
Qed.
Lemma parse_books s e p sb ss off q r : Books q r (told books_names (parse_trace s e p sb ss off)) q r.
Proof.
  unfold parse_trace. rewrite told_one, told_app, told_scan by reflexivity.
  rewrite (told_dbg_other books_names s PARSER 1) by (reflexivity || (cbn; tauto)). cbn [app].
  destruct (parse e p sb ss); [apply purge_told|apply Bk_end].
Qed.
Lemma parse_closed e p sb ss p' sb' ss' : parse e p sb ss = Ok (p', sb', ss') -> pb_closed p' = pb_closed p.
Proof.
  unfold parse. destruct (run_scan _ _ _) as [[[u segs] s']|]; [|discriminate]. cbn [bind]. destruct u; [|discriminate].
  unfold crop_raw. cbn. intros H. injection H as <- _ _. reflexivity.
Qed.
Section BooksRun.
  Variables (s s1 : settings) (tc : Z).
  Hypothesis (BM : binary_mode s = true) (CO : (0 < columns s1 tc)%Z) (RM : te_read (update_settings s) = RM_binary).
  Definition BI (t : tproc) (cs : list call) : Prop :=
    pb_raw (pr_pb (tp_proc t)) = [] /\
    (all_bytes cs -> exists segs r, Rep (pr_sb (tp_proc t)) segs /\ Forall consistent segs /\
       Books 0 0 (told books_names (tp_ev t)) (zlen (raw_of segs)) r /\
       (forall cs' c, cs = cs' ++ [c] -> call_last c = true -> zlen (raw_of segs) = 0%Z)).
  Definition BW (t : tproc) (cs : list call) : Prop := all_bytes cs -> exists q r, Books 0 0 (told books_names (tp_ev t)) q r.
  Lemma BIW t cs : BI t cs -> BW t cs.
  Proof. intros [_ H] B. destruct (H B) as (segs & r & _ & _ & K & _). eauto. Qed.
  Lemma BIsilent t cs l : BI t cs -> told books_names l = [] -> BI (tlog t l) cs.
  Proof.
    intros [P H] R. split; [exact P|]. intros B. destruct (H B) as (segs & r & H1 & H2 & H3 & H4). exists segs, r. cbn [tlog tp_ev tp_proc]. rewrite told_app, R, app_nil_r. auto.
  Qed.
  Lemma BIlog t cs l : BI t cs -> Forall (reader_msg s1) l -> BI (tlog t l) cs.
  Proof. intros H R. apply BIsilent; [exact H|]. apply (told_reader books_names s1); [reflexivity|reflexivity|exact R]. Qed.
  Lemma BIcall t cs raw off fin : BI t cs ->
    let '(t', r) := tprocess_chunk s1 (update_settings s) tc t raw off fin in
    match r with CbOk => BI t' (cs ++ [(raw, off, fin)]) | CbInt => False | _ => BW t' (cs ++ [(raw, off, fin)]) end.
  Proof.
    intros [P H]. unfold tprocess_chunk. cbv zeta. set (pb := append_raw (pr_pb (tp_proc t)) raw fin).
    assert (PR : pb_raw pb = raw) by (unfold pb, append_raw; cbn; now rewrite P).
    assert (PC : pb_closed pb = fin) by reflexivity.
    set (l1 := append_trace s1 (pr_pb (tp_proc t)) raw fin). set (l2 := parse_trace s1 (update_settings s) pb (pr_sb (tp_proc t)) (pr_ss (tp_proc t)) off).
    pose proof (fun q r => append_books s1 (pr_pb (tp_proc t)) raw fin q r P) as E1. fold l1 in E1.
    pose proof (parse_books s1 (update_settings s) pb (pr_sb (tp_proc t)) (pr_ss (tp_proc t)) off) as E2. fold l2 in E2. clearbody l1. clearbody l2. clearbody pb.
    assert (PRE : all_bytes (cs ++ [(raw, off, fin)]) -> exists segs r, Rep (pr_sb (tp_proc t)) segs /\ Forall consistent segs /\ is_bytes raw /\
      Books 0 0 (told books_names ((tp_ev t ++ l1) ++ l2)) (zlen (raw_of segs) + zlen raw) r).
    { intros B. apply Forall_app in B as [B1 B2]. inversion B2 as [|? ? B3 _]; subst. destruct (H B1) as (segs & r & H1 & H2 & H3 & _). exists segs, r.
      repeat split; auto. rewrite !told_app. eapply Books_app; [eapply Books_app; [exact H3|apply E1, B3]|apply E2]. }
    destruct (parse (update_settings s) pb (pr_sb (tp_proc t)) (pr_ss (tp_proc t))) as [[[pb' sb'] ss']|x] eqn:Q.
    2:{ intros B. destruct (PRE B) as (segs & r & _ & _ & _ & K). eexists _, _. exact K. }
    pose proof (parse_crops _ _ _ _ _ _ _ Q) as CR. pose proof (parse_closed _ _ _ _ _ _ _ Q) as CL. rewrite PC in CL.
    rewrite RM. unfold tformat. cbn [tp_proc pr_pb pr_sb pr_ss pr_offset pr_line pr_out tp_ev tp_off tlog]. rewrite CL.
    assert (MID : all_bytes (cs ++ [(raw, off, fin)]) -> exists q r, Books 0 0 (told books_names ((tp_ev t ++ l1) ++ l2)) q r /\
       book_end s1 fin (columns s1 tc) q r (tbinary_format (loop_fuel sb') s1 tc fin sb' (pr_offset (tp_proc t)))).
    { intros B. destruct (PRE B) as (segs & r & R & C & HB & K). rewrite <- PR in HB. destruct (lexes_total _ HB) as (ts & HL).
      destruct (parse_binary s pb _ _ ts pb' sb' ss' HB HL Q BM) as (segss & -> & F2).
      assert (RW : raw_of (concat segss) = raw /\ Forall consistent (concat segss)).
      { rewrite <- PR, <- (lexes_flat _ _ HL). clear - F2. induction F2 as [|w gs ts segss [F1 F3] F IH]; [split; [reflexivity|constructor]|].
        destruct IH as [I1 I2]. cbn [concat flat_map]. rewrite raw_of_app. split; [f_equal; [exact F1|exact I1]|].
        apply Forall_app. split; [|exact I2]. revert F3. apply Forall_impl. intros g E. unfold consistent. lia. }
      destruct RW as [RW RC]. exists (zlen (raw_of segs) + zlen raw)%Z, r. split; [exact K|].
      pose proof (tbinary_format_books (loop_fuel (attach (pr_sb (tp_proc t)) (concat segss))) s1 tc fin (attach (pr_sb (tp_proc t)) (concat segss)) (pr_offset (tp_proc t)) (segs ++ concat segss) r CO) as T.
      rewrite raw_of_app, RW, zlen_app in T. apply T; [apply Rep_attach, R|]. apply Forall_app. auto. }
    destruct (tbinary_format (loop_fuel sb') s1 tc fin sb' (pr_offset (tp_proc t))) as [[sb1 off1] l|x l|l].
    - apply BIsilent; [|apply told_runner; [apply crossing_any|reflexivity]]. split; [cbn [tp_proc pr_pb]; exact CR|]. intros B. destruct (MID B) as (q & r & K1 & q' & r' & K2 & segs & R & C & E & Z0).
      exists segs, r'. cbn [tp_proc pr_sb tp_ev]. repeat split; auto; [rewrite told_app, <- E; eapply Books_app; [exact K1|exact K2]|].
      intros cs' c EQ L. apply app_inj_tail in EQ as [_ <-]. rewrite <- E. apply Z0. exact L.
    - intros B. destruct (MID B) as (q & r & K1 & q' & r' & K2 & _). exists q', r'. cbn [tp_ev]. rewrite told_app. eapply Books_app; [exact K1|exact K2].
    - intros B. destruct (MID B) as (q & r & K1 & q' & r' & K2 & _). exists q', r'. cbn [tp_ev]. rewrite told_app. eapply Books_app; [exact K1|exact K2].
  Qed.
End BooksRun.

Theorem books_run s tc src evs : binary_mode s = true -> (0 < columns s tc)%Z -> Forall is_bytes (provided evs) ->
  let '(t, acts, en) := tbyteio_run s tc src evs in
  exists q r, Books 0 0 (told books_names (tp_ev t)) q r /\
    (forall cs c, en = REnd -> calls acts = cs ++ [c] -> call_last c = true -> q = 0%Z).
Proof.
  intros BM CO B. pose proof (traced_acts s tc src evs) as T. destruct (tbyteio_run s tc src evs) as [[t acts] en] eqn:E. destruct T as (p & T).
  pose proof (calls_bytes s tc src evs p acts en T B) as AB.
  assert (RM : te_read (update_settings s) = RM_binary).
  { revert BM. unfold update_settings, binary_mode, get_read_mode. destruct (s_binary s); [reflexivity|]. destruct (s_text s); [discriminate|]. cbn. now destruct (s_default_read_mode s). }
  unfold tbyteio_run in E. assert (CC : columns (snd (get_read_mode s)) tc = columns s tc).
  { unfold get_read_mode. destruct (s_binary s); [reflexivity|]. destruct (s_text s); reflexivity. }
  destruct (get_read_mode s) as [rm s1]. cbn [snd] in CC. rewrite <- CC in CO. cbv zeta in E.
  match type of E with tread _ _ _ _ ?t0 = _ => assert (I0 : BI t0 []) end.
  { split; [reflexivity|]. intros _. exists [], 0%Z. split; [apply Rep_init|]. split; [constructor|]. split; [|intros cs' c EQ; now apply app_cons_not_nil in EQ].
    cbn [tp_ev]. destruct (3 <=? s_debug s1)%nat; [apply Bk_end|]. rewrite told_runner; [apply Bk_end|cbn; tauto|reflexivity]. }
  pose proof (read_walk2 s1 (update_settings s) tc src BI BW BIW (BIlog s1) (BIcall s s1 tc BM CO RM) evs _ I0) as W.
  rewrite E in W. cbn [good3 app] in W. destruct W as [W1 W2].
  destruct (match en with REnd => true | _ => false end) eqn:Q.
  - assert (X : en = REnd) by (destruct en; congruence). destruct (W2 X) as [_ K]. destruct (K AB) as (segs & r & _ & _ & K1 & K2). exists (zlen (raw_of segs)), r. split; [exact K1|]. intros cs c _. apply K2.
  - destruct (W1 AB) as (q & r & K). exists q, r. split; [exact K|]. intros cs c ->. discriminate.
Qed.
