(** A run with traces does what the run without them does; the traces stand between lines *)
From Coq Require Import Ascii String.
From Coq Require Import List Arith NArith ZArith Bool Lia.
From Verif.Model Require Import Base Ansi Regex Strip Settings Segment Template Parser Console Formatter Reader Runner Trace.
From Verif.Spec Require Import Numbers Terminal Sgr Lexical SgrParams Display Output Weave.
From Verif.Proof Require Import BaseFacts RegexFacts TermFacts ClosingFacts TokFacts PaintFacts ConsoleFacts TextFormat TraceFacts.
Import ListNotations.
Local Open Scope N_scope.

(** ** regular output ends with complete lines *)
Lemma sgr_match_inv t g r : re_match SGR_REGEXP t = Some (g, r) ->
  exists ps, t = (27 :: 91 :: ps ++ [109]) ++ r /\ Forall (fun c => between 48 c 57 || (c =? 59) = true) ps.
Proof.
  unfold re_match, SGR_REGEXP, rcats, fold_right. cbn [mt RChr]. intros H.
  destruct t as [|c1 t]; [discriminate|]. rewrite in_cls_single in H. destruct (N.eqb_spec c1 27) as [->|]; [|discriminate].
  destruct t as [|c2 t]; [discriminate|]. rewrite in_cls_single in H. destruct (N.eqb_spec c2 91) as [->|]; [|discriminate].
  rewrite star_k_disjoint in H.
  - pose proof (takew_dropw (in_cls [(48, 57); (59, 59)]) t) as E. pose proof (takew_forall (in_cls [(48, 57); (59, 59)]) t) as F.
    destruct (dropw _ t) as [|c3 u]; [discriminate|]. rewrite in_cls_single in H. destruct (N.eqb_spec c3 109) as [->|]; [|discriminate].
    injection H as _ <-. exists (takew (in_cls [(48, 57); (59, 59)]) t). split.
    + rewrite <- E at 1. cbn [app]. now rewrite <- app_assoc.
    + eapply Forall_impl; [|exact F]. intros c. unfold in_cls, between. cbn [existsb fst snd]. rewrite orb_false_r.
      destruct (48 <=? c) eqn:A, (c <=? 57) eqn:B; cbn; auto; intros K; apply andb_true_iff in K as [K1 K2]; apply N.leb_le in K1, K2; apply N.eqb_eq; lia.
  - intros b u Hb. rewrite in_cls_single. destruct (N.eqb_spec b 109) as [->|]; [discriminate|reflexivity].
Qed.

Lemma strip_view t : (strip_sgr t = [] /\ sgr_only t) \/
  exists a c b, t = a ++ c :: b /\ sgr_only b /\ exists v, strip_sgr t = v ++ [c].
Proof.
  remember (length t) as n eqn:Hn. revert t Hn. induction n as [n IH] using lt_wf_ind. intros t Hn. subst n.
  destruct t as [|x t]; [left; split; [reflexivity|constructor]|].
  destruct (re_match SGR_REGEXP (x :: t)) as [[g r]|] eqn:M.
  - destruct (sgr_match_inv _ _ _ M) as (ps & E & F).
    assert (S : strip_sgr (x :: t) = strip_sgr r).
    { rewrite E in M |- *. unfold strip_sgr. rewrite (re_scan_match _ _ _ g); [reflexivity|easy|exact M]. }
    rewrite S. destruct (IH (length r)) with (t := r) as [[H1 H2]|(a & c & b & -> & H2 & v & H3)]; [rewrite E, app_length; cbn; lia|reflexivity| |].
    + left. split; [exact H1|]. rewrite E. cbn [app]. rewrite <- app_assoc. cbn [app]. now constructor.
    + right. exists ((27 :: 91 :: ps ++ [109]) ++ a), c, b. split; [now rewrite E, <- app_assoc|]. split; [exact H2|]. now exists v.
  - assert (S : strip_sgr (x :: t) = x :: strip_sgr t) by (unfold strip_sgr; now rewrite re_scan_unmatched).
    rewrite S. right. destruct (IH (length t)) with (t := t) as [[H1 H2]|(a & c & b & -> & H2 & v & H3)]; [cbn; lia|reflexivity| |].
    + exists [], x, t. split; [reflexivity|]. split; [exact H2|]. exists []. now rewrite H1.
    + exists (x :: a), c, b. split; [reflexivity|]. split; [exact H2|]. exists (x :: v). now rewrite H3.
Qed.
Lemma strip_line_end t : ends_with_newline (strip_sgr t) = true -> line_end t.
Proof.
  intros H. destruct (strip_view t) as [[E _]|(a & c & b & -> & S & v & E)]; rewrite E in H; [discriminate|].
  rewrite ends_with_newline_snoc in H. apply N.eqb_eq in H as ->. now exists a, b.
Qed.
Lemma line_end_app a t : line_end t -> line_end (a ++ t).
Proof. intros (x & y & -> & S). exists (a ++ x), y. now rewrite <- app_assoc. Qed.
Lemma line_end_newline a : line_end (a ++ [10]).
Proof. exists a, []. split; [reflexivity|constructor]. Qed.
Lemma text_line_end s els n : line_end (text_line s els n).
Proof.
  unfold text_line. cbv zeta. destruct (ends_with_newline _) eqn:E; cbn [app]; [|apply line_end_newline].
  rewrite app_nil_r. unfold write_with_line_num. apply line_end_app, strip_line_end, E.
Qed.
Lemma binary_row_end s cols dl els off : line_end (binary_row s cols dl els off).
Proof. unfold binary_row. cbv zeta. unfold write_with_offset. rewrite !app_assoc. apply line_end_newline. Qed.
Lemma write_end t : line_end (write t).
Proof. apply line_end_newline. Qed.

(** ** events *)
Lemma regular_app a b : regular (a ++ b) = regular a ++ regular b.
Proof. apply flat_map_app. Qed.
Lemma regular_dbg s d l m : regular [dbg s d l m] = [].
Proof. reflexivity. Qed.
Definition quiet (l : list tev) : Prop := Forall (fun e => match e with TDbg _ _ => True | TOut _ => False end) l.
Lemma quiet_regular l : quiet l -> regular l = [].
Proof. induction 1 as [|[t|k t] l He H IH]; [reflexivity|contradiction|exact IH]. Qed.
Definition ends_line (e : tev) : Prop := match e with TOut t => line_end t | TDbg _ _ => True end.
Lemma quiet_ends l : quiet l -> Forall ends_line l.
Proof. apply Forall_impl. now intros [t|k t]. Qed.
Ltac quiet := unfold quiet; repeat first [apply Forall_app; split | apply Forall_cons; [exact I|] | apply Forall_nil].

Lemma scan_trace_quiet s e evs : forall ss at_, quiet (scan_trace s e evs ss at_).
Proof.
  induction evs as [|[b|g w] evs IH]; intros ss at_; cbn [scan_trace]; [constructor|apply IH|].
  destruct (handle_match e g ss) as [[segs ss1]|x]; [|constructor]. constructor; [exact I|apply IH].
Qed.
Lemma parse_trace_quiet s e p sb ss off : quiet (parse_trace s e p sb ss off).
Proof.
  unfold parse_trace. constructor; [exact I|]. apply Forall_app. split; [apply scan_trace_quiet|].
  destruct (parse e p sb ss); [unfold crop_trace; quiet|constructor].
Qed.
Lemma append_trace_quiet s p raw fin : quiet (append_trace s p raw fin).
Proof. unfold append_trace. destruct fin; quiet. Qed.
Lemma detach_trace_quiet s b req : quiet (detach_trace s b req).
Proof.
  unfold detach_trace, buffer_state. constructor; [exact I|]. destruct (sb_chain b); [constructor|].
  destruct (detach b req) as [[out|x] b']; quiet.
Qed.
Lemma detach_bytes_trace_quiet s b req force : quiet (detach_bytes_trace s b req force).
Proof.
  unfold detach_bytes_trace, buffer_state. destruct (_ || _)%bool; [|quiet].
  apply Forall_app. split; [apply detach_trace_quiet|]. destruct (detach b req) as [[[|x l]|y] b']; quiet.
Qed.
Lemma detach_line_trace_quiet s b force : quiet (detach_line_trace s b force).
Proof.
  unfold detach_line_trace, buffer_state. destruct (line_scan (sb_chain b)) as [n nl]. destruct (n =? 0)%Z; [quiet|].
  destruct (_ || _)%bool; [apply detach_trace_quiet|quiet].
Qed.

(** ** the formatters *)
Definition t_events {A} (o : toutcome A) : list tev := match o with TFin _ l | TFail _ l | TNoFuel l => l end.
Lemma t_events_pre {A} l (o : toutcome A) : t_events (tpre l o) = l ++ t_events o.
Proof. now destruct o. Qed.
Lemma tpre_nil {A} (o : toutcome A) : tpre [] o = o.
Proof. now destruct o. Qed.

Definition berased (o : toutcome (sbuf * N)) (w : str) : outcome (str * sbuf * N) :=
  match o with
  | TFin (sb, off) l => Fin (w ++ regular l, sb, off)
  | TFail e l => Fail e (w ++ regular l)
  | TNoFuel l => NoFuel (w ++ regular l)
  end.
Lemma berased_pre l o w : berased (tpre l o) w = berased o (w ++ regular l).
Proof. destruct o as [[sb off] m|e m|m]; cbn [tpre berased]; now rewrite regular_app, app_assoc. Qed.
Lemma tbinary_loop_erased fuel s cols req closed : forall sb off w,
  binary_loop fuel s cols req closed sb off w = berased (tbinary_loop fuel s cols req closed sb off) w.
Proof.
  induction fuel as [|f IH]; intros sb off w; cbn [binary_loop tbinary_loop].
  - cbn. now rewrite app_nil_r.
  - assert (Q : regular (dbg s BINFMT 1 (lit "Requested " ++ bold_num req ++ lit " byte(s)") :: detach_bytes_trace s sb req closed) = []).
    { apply quiet_regular. constructor; [exact I|apply detach_bytes_trace_quiet]. }
    set (asked := _ :: _) in *. clearbody asked.
    destruct (detach_bytes sb req closed) as [[els|x] sb'].
    + rewrite berased_pre, regular_app, Q. cbn [app regular flat_map dbg_at]. rewrite app_nil_r. apply IH.
    + destruct x; cbn [berased]; rewrite Q, app_nil_r; reflexivity.
Qed.
Lemma tbinary_format_erased fuel s tc closed sb off :
  binary_format fuel s tc closed sb off = berased (tbinary_format fuel s tc closed sb off) [].
Proof.
  unfold binary_format, tbinary_format. cbv zeta. rewrite tbinary_loop_erased, berased_pre.
  assert (Q : forall c, regular (match s_columns s with Some _ => [] | None => [dbg s BINFMT 2 (lit "Columns amount set to: " ++ bold_num c)] end) = [])
    by (intros c; destruct (s_columns s); reflexivity).
  rewrite Q, app_nil_r.
  destruct (tbinary_loop fuel s _ _ closed sb off) as [[sb' off'] l|e l|l]; cbn [berased]; try reflexivity.
  destruct (closed && effective_print_offsets s)%bool; cbn [berased]; [|reflexivity]. rewrite regular_app. cbn [regular flat_map app]. now rewrite app_nil_r.
Qed.
Definition terased (o : toutcome (sbuf * N * N)) (w : str) : outcome (str * sbuf * N) :=
  match o with
  | TFin (sb, ln, _) l => Fin (w ++ regular l, sb, ln)
  | TFail e l => Fail e (w ++ regular l)
  | TNoFuel l => NoFuel (w ++ regular l)
  end.
Lemma terased_pre l o w : terased (tpre l o) w = terased o (w ++ regular l).
Proof. destruct o as [[[sb ln] off] m|e m|m]; cbn [tpre terased]; now rewrite regular_app, app_assoc. Qed.
Lemma ttext_loop_erased fuel s closed : forall sb ln off w,
  text_loop fuel s closed sb ln w = terased (ttext_loop fuel s closed sb ln off) w.
Proof.
  induction fuel as [|f IH]; intros sb ln off w; cbn [text_loop ttext_loop].
  - cbn. now rewrite app_nil_r.
  - assert (Q : regular (dbg s TXTFMT 1 (lit "Requested line") :: detach_line_trace s sb closed) = []).
    { apply quiet_regular. constructor; [exact I|apply detach_line_trace_quiet]. }
    set (asked := _ :: _) in *. clearbody asked.
    destruct (detach_line sb closed) as [[els|x] sb'].
    + rewrite terased_pre, regular_app, Q. cbn [app regular flat_map dbg_at]. rewrite app_nil_r. apply IH.
    + destruct x; cbn [terased]; rewrite Q, app_nil_r; reflexivity.
Qed.
Lemma ttext_format_erased fuel s closed sb ln off :
  text_format fuel s closed sb ln = terased (ttext_format fuel s closed sb ln off) [].
Proof.
  unfold text_format, ttext_format. rewrite (ttext_loop_erased fuel s closed sb ln off).
  destruct (ttext_loop fuel s closed sb ln off) as [[[sb' ln'] off'] l|e l|l]; cbn [terased]; try reflexivity.
  rewrite regular_app. now destruct closed; cbn [regular flat_map dbg app]; rewrite app_nil_r.
Qed.

(** properties of all events *)
Section Events.
  Variable P : tev -> Prop.
  Variable s : settings.
  Hypothesis Hquiet : forall l t, tidy_ev (TDbg l t) -> P (TDbg l t).
  Hypothesis Hrow : forall t, line_end t -> P (TOut t).

  Lemma all_tidy l : Forall tidy_ev l -> quiet l -> Forall P l.
  Proof.
    intros H Q. induction Q as [|[t|k t] l He Q IH]; [constructor|contradiction|]. inversion H; subst. constructor; auto.
  Qed.
  Lemma tidy_P d l m : named d l -> tidy attrs0 m -> P (dbg s d l m).
  Proof. intros D H. apply Hquiet. now apply (dbg_tidy s d l m). Qed.
  Lemma tidy_at_P d l m off : named d l -> tidy attrs0 m -> P (dbg_at s d l m off).
  Proof. intros D H. apply Hquiet. now apply (dbg_at_tidy s d l m off). Qed.

  Lemma tbinary_loop_events fuel cols req closed : forall sb off, Forall P (t_events (tbinary_loop fuel s cols req closed sb off)).
  Proof.
    induction fuel as [|f IH]; intros sb off; cbn [tbinary_loop]; [constructor|].
    assert (A : Forall P (dbg s BINFMT 1 (lit "Requested " ++ bold_num req ++ lit " byte(s)") :: detach_bytes_trace s sb req closed)).
    { constructor.
      - apply tidy_P; [named|]. apply tidy_app; [text|]. apply tidy_app; [apply bold_num_tidy|text].
      - apply all_tidy; [apply detach_bytes_trace_tidy|apply detach_bytes_trace_quiet]. }
    set (asked := _ :: _) in *. clearbody asked.
    destruct (detach_bytes sb req closed) as [[els|x] sb']; [|destruct x; exact A].
    rewrite t_events_pre. apply Forall_app. split; [|apply IH]. apply Forall_app. split; [exact A|].
    constructor; [apply tidy_at_P; [named|]; apply tidy_plain, encoded_inline, safe_inline|].
    constructor; [apply tidy_at_P; [named|]; apply binary_debug_row_tidy|].
    constructor; [apply Hrow, binary_row_end|constructor].
  Qed.
  Lemma tbinary_format_events fuel tc closed sb off : Forall P (t_events (tbinary_format fuel s tc closed sb off)).
  Proof.
    unfold tbinary_format. cbv zeta. rewrite t_events_pre. apply Forall_app. split.
    - destruct (s_columns s); constructor; [|constructor]. apply tidy_P; [named|]. apply tidy_app; [text|apply bold_num_tidy].
    - match goal with |- context [tbinary_loop fuel s ?c ?r closed sb off] =>
        pose proof (tbinary_loop_events fuel c r closed sb off) as H; destruct (tbinary_loop fuel s c r closed sb off) as [[sb' off'] l|e l|l] end; try exact H.
      destruct (closed && _)%bool; [|exact H]. cbn [t_events] in *. apply Forall_app. split; [exact H|]. constructor; [apply Hrow, write_end|constructor].
  Qed.
  Lemma ttext_loop_events fuel closed : forall sb ln off, Forall P (t_events (ttext_loop fuel s closed sb ln off)).
  Proof.
    induction fuel as [|f IH]; intros sb ln off; cbn [ttext_loop]; [constructor|].
    assert (A : Forall P (dbg s TXTFMT 1 (lit "Requested line") :: detach_line_trace s sb closed)).
    { constructor.
      - apply tidy_P; [named|text].
      - apply all_tidy; [apply detach_line_trace_tidy|apply detach_line_trace_quiet]. }
    set (asked := _ :: _) in *. clearbody asked.
    destruct (detach_line sb closed) as [[els|x] sb']; [|destruct x; exact A].
    rewrite t_events_pre. apply Forall_app. split; [|apply IH]. apply Forall_app. split; [exact A|].
    constructor; [apply tidy_at_P; [named|]; apply tidy_plain, encoded_inline, safe_inline|].
    constructor; [apply tidy_at_P; [named|]; apply tidy_plain, hidden_inline, raw_hex_inline|].
    constructor; [apply tidy_at_P; [named|]; apply tidy_plain, hidden_inline, safe_inline|].
    constructor; [apply Hrow, text_line_end|constructor].
  Qed.
  Lemma ttext_format_events fuel closed sb ln off : Forall P (t_events (ttext_format fuel s closed sb ln off)).
  Proof.
    unfold ttext_format. pose proof (ttext_loop_events fuel closed sb ln off) as H.
    destruct (ttext_loop fuel s closed sb ln off) as [a l|e l|l]; try exact H. cbn [t_events] in *. apply Forall_app. split; [exact H|].
    destruct closed; constructor; [|constructor]. apply tidy_P; [named|text].
  Qed.

End Events.

(** ** whole runs, for a property of event lists that holds for the messages and for what the
    formatters produce *)
Section Runs.
  Variable M : list tev -> Prop.
  Variable s : settings.
  Variable src : source.
  Variable e : tenv.
  Variable tc : Z.
  Hypothesis Mnil : M [].
  Hypothesis Mapp : forall a b, M a -> M b -> M (a ++ b).
  Hypothesis Mdbg : forall l t, tidy_ev (TDbg l t) -> M [TDbg l t].
  Hypothesis Mtext : te_read e = RM_text -> forall fuel closed sb ln off, M (t_events (ttext_format fuel s closed sb ln off)).
  Hypothesis Mbin : te_read e = RM_binary -> forall fuel closed sb off, M (t_events (tbinary_format fuel s tc closed sb off)).

  Lemma all_tidy_M l : Forall tidy_ev l -> quiet l -> M l.
  Proof.
    intros H Q. induction Q as [|[t|k t] l He Q IH]; [exact Mnil|contradiction|]. inversion H; subst.
    change (M ([TDbg k t] ++ l)). apply Mapp; auto.
  Qed.
  Lemma tidy_M d l m : named d l -> tidy attrs0 m -> M [dbg s d l m].
  Proof. intros D H. apply Mdbg. now apply (dbg_tidy s d l m). Qed.
  Lemma tidy_at_M d l m off : named d l -> tidy attrs0 m -> M [dbg_at s d l m off].
  Proof. intros D H. apply Mdbg. now apply (dbg_at_tidy s d l m off). Qed.

  Definition Inv (t : tproc) : Prop := pr_out (tp_proc t) = regular (tp_ev t) /\ M (tp_ev t).
  Lemma Inv_log t l : Inv t -> M l -> regular l = [] -> Inv (tlog t l).
  Proof.
    intros [E F] Pl Q. split; cbn [tlog tp_proc tp_ev].
    - rewrite regular_app, Q, app_nil_r. exact E.
    - auto.
  Qed.
  Lemma tformat_erased t : Inv t ->
    let '(t', r) := tformat s (te_read e) tc t in Inv t' /\ format s (te_read e) tc (tp_proc t) = (tp_proc t', r).
  Proof.
    intros [E F]. unfold tformat, format. cbv zeta. destruct (te_read e) eqn:R; [|].
  2: {
      rewrite (ttext_format_erased _ _ _ _ _ (tp_off t)).
      pose proof (Mtext eq_refl (loop_fuel (pr_sb (tp_proc t))) (pb_closed (pr_pb (tp_proc t))) (pr_sb (tp_proc t)) (pr_line (tp_proc t)) (tp_off t)) as H.
      destruct (ttext_format _ s _ _ _ _) as [[[sb ln] off] l|x l|l]; cbn [terased t_events app] in *.
      all: split; [split; cbn [tp_proc tp_ev pr_out]; [now rewrite regular_app, E|auto]|reflexivity]. }
    - rewrite tbinary_format_erased.
      pose proof (Mbin eq_refl (loop_fuel (pr_sb (tp_proc t))) (pb_closed (pr_pb (tp_proc t))) (pr_sb (tp_proc t)) (pr_offset (tp_proc t))) as H.
      destruct (tbinary_format _ s _ _ _ _) as [[sb off] l|x l|l]; cbn [berased t_events app] in *.
      all: split; [split; cbn [tp_proc tp_ev pr_out]; [now rewrite regular_app, E|auto]|reflexivity].
  Qed.
  Lemma tprocess_chunk_erased t raw off fin : Inv t ->
    let '(t', r) := tprocess_chunk s e tc t raw off fin in Inv t' /\ process_chunk s e tc (tp_proc t) raw off fin = (tp_proc t', r).
  Proof.
    intros I. unfold tprocess_chunk, process_chunk. cbv zeta.
    assert (I2 : Inv (tlog (tlog t (append_trace s (pr_pb (tp_proc t)) raw fin))
                           (parse_trace s e (append_raw (pr_pb (tp_proc t)) raw fin) (pr_sb (tp_proc t)) (pr_ss (tp_proc t)) off))).
    { apply Inv_log; [apply Inv_log; [exact I| |]| |].
      - apply all_tidy_M; [apply append_trace_tidy|apply append_trace_quiet].
      - apply quiet_regular, append_trace_quiet.
      - apply all_tidy_M; [apply parse_trace_tidy|apply parse_trace_quiet].
      - apply quiet_regular, parse_trace_quiet. }
    set (t2 := tlog (tlog t _) _) in *. assert (E2 : tp_proc t2 = tp_proc t) by reflexivity. clearbody t2.
    destruct (parse e _ (pr_sb (tp_proc t)) (pr_ss (tp_proc t))) as [[[pb' sb'] ss']|x].
    - match goal with |- context [tformat s ?rm ?tc ?u] => assert (I3 : Inv u) end.
      { destruct I2 as [A B]. rewrite E2 in A. split; [exact A|exact B]. }
      match goal with |- context [tformat s ?rm ?tc ?u] => pose proof (tformat_erased u I3) as H; destruct (tformat s rm tc u) as [t3 r] end.
      cbn [tp_proc] in H. destruct H as [I4 ->]. destruct r; try (split; [exact I4|reflexivity]).
      split; [|reflexivity]. apply Inv_log; [exact I4| |reflexivity].
      apply tidy_M; [named|]. apply separator_line_tidy. destruct fin; easy.
    - split; [|reflexivity]. destruct I2 as [A B]. rewrite E2 in A. split; [exact A|exact B].
  Qed.

  (** ** the reader *)
  Definition ok3 (x : tproc * list action * reader_end) (y : proc * list action * reader_end) : Prop :=
    let '(t, a, en) := x in Inv t /\ y = (tp_proc t, a, en).
  Lemma ok3_pre l x y : ok3 x y -> ok3 (pre l x) (pre l y).
  Proof. destruct x as [[t a] en]. intros [I ->]. split; [exact I|reflexivity]. Qed.
  Lemma tread_finish_erased raw off t : Inv t ->
    ok3 (tread_finish s (tprocess_chunk s e tc) raw off t) (read_finish (process_chunk s e tc) raw off (tp_proc t)).
  Proof.
    intros I. unfold tread_finish, read_finish.
    assert (I1 : Inv (tlog t [dbg_at s READER 1 (lit "Encountered EOF") (Z.to_N off)])).
    { apply Inv_log; [exact I| |reflexivity]. apply tidy_at_M; [named|text]. }
    pose proof (tprocess_chunk_erased _ raw off true I1) as H. cbn [tlog tp_proc] in H.
    destruct (tprocess_chunk s e tc _ raw off true) as [t' r]. destruct H as [I2 ->]. destruct r; (split; [exact I2|reflexivity]).
  Qed.
  Lemma tread_loop_erased evs : forall off lines chunks pos t, Inv t ->
    ok3 (tread_loop s (tprocess_chunk s e tc) src evs off lines chunks pos t)
        (read_loop (process_chunk s e tc) (s_max_bytes s) (s_max_lines s) src evs off lines (tp_proc t)).
  Proof.
    induction evs as [|ev evs IH]; intros off lines chunks pos t I; cbn [tread_loop read_loop].
    - apply ok3_pre, tread_finish_erased, I.
    - destruct ev as [raw| |]; [|split; [exact I|reflexivity]|split; [exact I|reflexivity]].
      destruct raw as [|b raw]; [apply ok3_pre, tread_finish_erased, I|]. set (r0 := b :: raw). clearbody r0.
      set (t1 := tlog t _). assert (I1 : Inv t1).
      { apply Inv_log; [exact I| |reflexivity]. apply tidy_at_M; [named|].
        apply tidy_app; [text|]. apply tidy_app; [apply tidy_plain, dec_inline|]. apply tidy_app; [text|apply printd_tidy]. }
      assert (E1 : tp_proc t1 = tp_proc t) by reflexivity. clearbody t1.
      destruct (tell_fails src); [split; [exact I1|now rewrite E1]|].
      set (t2 := tlog t1 _). assert (I2 : Inv t2).
      { apply Inv_log; [exact I1| |reflexivity]. apply tidy_at_M; [named|].
        apply tidy_app; [text|]. destruct src; try apply bold_num_tidy; (apply tidy_span; [reflexivity|text]). }
      assert (E2 : tp_proc t2 = tp_proc t) by exact E1. clearbody t2. cbv zeta.
      destruct (apply_max_lines (s_max_lines s) r0 lines) as [raw1 lines1].
      set (t3 := tlog t2 _). assert (I3 : Inv t3).
      { unfold t3. destruct (limit_on (s_max_lines s)) as [m|]; [destruct (lines_reached m r0 lines)|].
        - apply Inv_log; [exact I2| |reflexivity]. apply (Mapp [_] [_]); (apply tidy_at_M; [named|]).
          + apply tidy_app; [text|apply bold_num_tidy].
          + apply tidy_app; [text|apply printd_tidy].
        - apply Inv_log; [exact I2|exact Mnil|reflexivity].
        - apply Inv_log; [exact I2|exact Mnil|reflexivity]. }
      assert (E3 : tp_proc t3 = tp_proc t) by exact E2. clearbody t3.
      match goal with |- context [if ?c then _ else _] => destruct c end.
      + apply ok3_pre. rewrite <- E3. match goal with |- ok3 (tread_finish _ _ ?a ?b ?u) _ => change (tp_proc t3) with (tp_proc u) end.
        apply tread_finish_erased. apply Inv_log; [exact I3| |reflexivity]. apply (Mapp [_] [_]); (apply tidy_at_M; [named|]).
        * apply tidy_app; [text|apply bold_num_tidy].
        * apply tidy_app; [text|apply printd_tidy].
      + pose proof (tprocess_chunk_erased t3 raw1 off false I3) as H. rewrite E3 in H.
        destruct (tprocess_chunk s e tc t3 raw1 off false) as [st1 r]. destruct H as [I4 ->].
        destruct r; try (split; [exact I4|reflexivity]).
        match goal with |- context [if ?c then _ else _] => destruct c end; apply ok3_pre; [now apply tread_finish_erased|now apply IH].
  Qed.
  Lemma tread_erased evs t : Inv t -> (src = SrcMissing \/ M (open_trace s src)) ->
    ok3 (tread s (tprocess_chunk s e tc) src evs t) (read (process_chunk s e tc) (s_max_bytes s) (s_max_lines s) src evs (tp_proc t)).
  Proof.
    intros I O. unfold tread, read.
    assert (K : src = SrcMissing -> ok3 (t, [], RError OSError) (tp_proc t, [], RError OSError)) by (split; [exact I|reflexivity]).
    destruct src eqn:S; try (now apply K); apply ok3_pre; rewrite <- S in *.
    all: destruct O as [O|O]; [congruence|].
    all: change (tp_proc t) with (tp_proc (tlog t (open_trace s src))); apply tread_loop_erased, Inv_log; [exact I|exact O|destruct src; reflexivity].
  Qed.
End Runs.
