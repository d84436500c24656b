(** Claims about debug traces *)
From Coq Require Import Ascii String.
From Coq Require Import List Arith NArith ZArith Bool Lia.
From Verif.Model Require Import Base Ansi Regex Strip Settings Segment Template Parser Console Formatter Reader Runner Trace Options.
From Verif.Spec Require Import Numbers Terminal Sgr Lexical SgrParams Display Output Input Weave.
From Verif.Proof Require Import BaseFacts RegexFacts TermFacts ClosingFacts LexFacts TokFacts PaintFacts ConsoleFacts TextFormat TraceFacts TraceRun.
Import ListNotations.
Local Open Scope N_scope.

(** ** weaving *)
Definition shown_traces (d : nat) (l : list tev) : list str :=
  flat_map (fun e => match e with TOut _ => [] | TDbg k t => if (d <? k)%nat then [] else [t] end) l.
Lemma woven_events d l : Forall ends_line l -> Woven (regular l) (shown_traces d l) (shown d l).
Proof.
  induction 1 as [|[t|k t] l He H IH]; [constructor| |].
  - change (Woven (t ++ regular l) (shown_traces d l) (t ++ shown d l)). now constructor.
  - change (regular (TDbg k t :: l)) with (regular l). unfold shown_traces, shown. cbn [flat_map ev_shown].
    destruct (d <? k)%nat; [exact IH|]. now constructor.
Qed.

Lemma get_read_mode_keeps s : let '(_, s1) := get_read_mode s in
  s_debug s1 = s_debug s /\ s_filename s1 = s_filename s /\ s_max_bytes s1 = s_max_bytes s /\ s_max_lines s1 = s_max_lines s.
Proof. unfold get_read_mode. destruct (s_binary s); [repeat split|]. destruct (s_text s); repeat split. Qed.

Definition leveled (e : tev) : Prop := match e with TOut _ => True | TDbg l _ => (1 <= l)%nat end.
Lemma open_leveled s src : Forall (fun e => ends_line e /\ leveled e) (open_trace s src).
Proof. unfold open_trace. constructor; [|constructor; [|constructor]]; (split; [exact I|cbn [leveled dbg]; auto]). Qed.

(** what every event of a run satisfies *)
Lemma run_events (P : tev -> Prop) s tc src evs :
  (forall l t, tidy_ev (TDbg l t) -> P (TDbg l t)) -> (forall t, line_end t -> P (TOut t)) ->
  (src = SrcMissing \/ Forall P (open_trace (snd (get_read_mode s)) src)) ->
  let '(t, acts, en) := tbyteio_run s tc src evs in
  byteio_run s tc src evs = (tp_proc t, acts, en) /\ pr_out (tp_proc t) = regular (tp_ev t) /\ Forall P (tp_ev t).
Proof.
  intros Hq Hr Ho. unfold tbyteio_run, byteio_run. destruct (get_read_mode s) as [rm s1] eqn:R. cbn [snd] in Ho.
  set (e := update_settings s). set (t0 := mkTproc proc_init 0 _).
  pose proof (tread_erased (Forall P) s1 src e tc (Forall_nil P) (fun a b Ha Hb => proj2 (Forall_app P a b) (conj Ha Hb))
    (fun l t H => Forall_cons _ (Hq l t H) (Forall_nil P))
    (fun _ fuel closed sb ln off => ttext_format_events P s1 Hq Hr fuel closed sb ln off)
    (fun _ fuel closed sb off => tbinary_format_events P s1 Hq Hr fuel tc closed sb off) evs t0) as K.
  assert (I0 : Inv (Forall P) t0).
  { unfold t0. split; cbn [tp_proc tp_ev pr_out proc_init].
    - now destruct (3 <=? s_debug s1)%nat.
    - destruct (3 <=? s_debug s1)%nat; [constructor|]. constructor; [|constructor]. apply Hq.
      apply (dbg_tidy s1 RUNNER 1); [named|]. apply separator_line_tidy. easy. }
  specialize (K I0 Ho). destruct (tread s1 _ src evs t0) as [[t acts] en]. destruct K as [[K1 K2] K3].
  change proc_init with (tp_proc t0). rewrite K3. auto.
Qed.

Theorem debug_woven s tc src evs : let '(t, acts, en) := tbyteio_run s tc src evs in
  exists p traces, byteio_run s tc src evs = (p, acts, en) /\ Woven (pr_out p) traces (shown (s_debug s) (tp_ev t)) /\
  (s_debug s = 0%nat -> traces = []).
Proof.
  pose proof (run_events (fun e => ends_line e /\ leveled e) s tc src evs) as K.
  destruct (tbyteio_run s tc src evs) as [[t acts] en]. destruct K as (K1 & K2 & K3).
  - intros l x (L & _). split; [exact I|exact L].
  - intros x L. split; [exact L|exact I].
  - right. apply open_leveled.
  - exists (tp_proc t), (shown_traces (s_debug s) (tp_ev t)). split; [exact K1|]. split.
    + rewrite K2. apply woven_events. eapply Forall_impl; [|exact K3]. now intros x [H _].
    + intros ->. clear - K3. unfold shown_traces. induction K3 as [|[x|k x] l [_ H] K IH]; [reflexivity|exact IH|].
      cbn [flat_map leveled] in *. destruct (Nat.ltb_spec 0 k); [exact IH|lia].
Qed.

(** ** harmlessness *)
Lemma open_tidy s src : (src = SrcStdin \/ forall n, s_filename s = Some n -> one_line n) -> Forall tidy_ev (open_trace s src).
Proof.
  intros H. unfold open_trace. constructor; [|constructor; [|constructor]]; (apply dbg_tidy; [named|]).
  - assert (K : tidy attrs0 (lit "Opened file: " ++ span_wrap [c_BOLD] (match s_filename s with Some n => n | None => [] end)) \/ src = SrcStdin).
    { destruct H as [H|H]; [now right|]. left. apply tidy_app; [text|]. apply tidy_span; [reflexivity|]. apply tidy_plain.
      destruct (s_filename s) as [n|]; [now apply (H n)|constructor]. }
    destruct K as [K| ->]; [|text]. destruct src; try exact K. text.
  - apply tidy_app; [text|apply bold_num_tidy].
Qed.
Theorem debug_harmless s tc src evs : (src = SrcStdin \/ forall n, s_filename s = Some n -> one_line n) ->
  let '(t, acts, en) := tbyteio_run s tc src evs in
  exists p traces, byteio_run s tc src evs = (p, acts, en) /\ Woven (pr_out p) traces (shown (s_debug s) (tp_ev t)) /\ Forall harmless_line traces.
Proof.
  intros H. pose proof (run_events (fun e => ends_line e /\ tidy_ev e) s tc src evs) as K.
  destruct (tbyteio_run s tc src evs) as [[t acts] en]. destruct K as (K1 & K2 & K3).
  - intros l x L. split; [exact I|exact L].
  - intros x L. split; [exact L|exact I].
  - right. pose proof (get_read_mode_keeps s) as G. destruct (get_read_mode s) as [rm s1]. destruct G as (_ & G & _). cbn [snd].
    apply Forall_and; [eapply Forall_impl; [|apply open_leveled]; now intros x [? _]|]. apply open_tidy. now rewrite G.
  - exists (tp_proc t), (shown_traces (s_debug s) (tp_ev t)). split; [exact K1|]. split.
    + rewrite K2. apply woven_events. eapply Forall_impl; [|exact K3]. now intros x [A _].
    + clear - K3. unfold shown_traces. induction K3 as [|[x|k x] l [_ A] K IH]; [constructor|exact IH|].
      cbn [flat_map]. destruct (s_debug s <? k)%nat; [exact IH|]. constructor; [eapply tidy_harmless; exact A|exact IH].
Qed.

(** a file name with a line break and an escape sequence that clears the screen *)
Definition odd_name : list N := [65; 10; 27; 91; 50; 74].
Definition odd_settings : settings := apply_opt (apply_opt default_settings O_debug) (O_file odd_name).
Theorem debug_harmless_refuted : exists s tc src evs,
  let '(t, _, _) := tbyteio_run s tc src evs in
  regular (tp_ev t) = [] /\ ~ clean (shown (s_debug s) (tp_ev t)).
Proof.
  exists odd_settings, 80%Z, (SrcFile true), []. set (x := tbyteio_run _ _ _ _). vm_compute in x. subst x. cbv beta iota.
  split; [reflexivity|]. intros H. vm_compute in H. discriminate.
Qed.

(** ** characters of a text, whatever the attributes *)
Definition Chars (t v : str) : Prop := forall a, exists a' cs, Painted a t a' cs /\ map cell_char cs = v.
Lemma Chars_app t1 v1 t2 v2 : Chars t1 v1 -> Chars t2 v2 -> Chars (t1 ++ t2) (v1 ++ v2).
Proof.
  intros H1 H2 a. destruct (H1 a) as (a1 & c1 & P1 & <-). destruct (H2 a1) as (a2 & c2 & P2 & <-).
  exists a2, (c1 ++ c2). split; [eapply Painted_app; eassumption|apply map_app].
Qed.
Lemma Chars_plain t : Forall inline t -> Chars t t.
Proof. intros H a. destruct (Tidy_plain a t H) as (cs & P & E & _). eauto. Qed.
Lemma Chars_assemble p : Chars (assemble p) [].
Proof. intros a. exists (sgr_apply p a), []. split; [apply Painted_assemble|reflexivity]. Qed.
Lemma Chars_span o t v : Chars t v -> Chars (span_wrap o t) v.
Proof.
  intros H. unfold span_wrap. change v with ([] ++ v). apply Chars_app; [apply Chars_assemble|]. rewrite <- (app_nil_r v).
  apply Chars_app; [exact H|apply Chars_assemble].
Qed.
Lemma Chars_newline : Chars [10] [10].
Proof. intros a. exists a, [to_cell (10, a)]. split; [constructor; [easy|constructor]|reflexivity]. Qed.
Lemma Chars_visible t v : Chars t v -> visible t = v.
Proof. intros H. destruct (H attrs0) as (a' & cs & P & <-). eapply Painted_visible; exact P. Qed.
Lemma Chars_separator s : Chars (get_separator s) [0x2502].
Proof. unfold get_separator. destruct (0 <? s_debug s)%nat; (apply Chars_span, Chars_plain, inline_all; reflexivity). Qed.
Lemma offset_text_any s a off : map fst (offset_cells s a off) = offset_text s off.
Proof.
  unfold offset_text, offset_cells. cbv zeta. destruct (s_decimal_offsets s); unfold styled; rewrite ?map_app, ?map_map; reflexivity.
Qed.
Lemma prefix_visible s off f rest v : good_open f -> a_bold (sgr_apply f attrs0) = false -> a_dim (sgr_apply f attrs0) = false ->
  (exists a' cs, Painted attrs0 rest a' cs /\ map cell_char cs = v) -> visible (format_prefix_with_offset s off f ++ rest) = offset_text s off ++ [0x2502] ++ v.
Proof.
  intros G B D H. destruct (prefix_tidy s off f G B D) as (cs & P & E & _). destruct H as (a' & c2 & P2 & <-).
  erewrite Painted_visible by (eapply Painted_app; eassumption). rewrite map_app, E, offset_text_any, <- app_assoc. reflexivity.
Qed.

(** ** rows of binary mode *)
Lemma Mirrored_app s c a b : Mirrored s c a -> Mirrored s c b -> Mirrored s c (a ++ b).
Proof. induction 1; intros Hb; cbn [app]; [exact Hb|apply Mr_trace; auto|eapply Mr_row; eauto|eapply Mr_total; eauto]. Qed.
Lemma Mirrored_quiet s c l : quiet l -> Mirrored s c l.
Proof. induction 1 as [|[t|k t] l He H IH]; [constructor|contradiction|]. now constructor. Qed.

Definition bytes_of (els : list elem) : bytes := flat_map (fun e => match e with ESeg g => seg_raw g | _ => [] end) els.
Lemma chain_len_bytes els : chain_len els = Z.of_nat (length (bytes_of els)).
Proof.
  induction els as [|e els IH]; [reflexivity|]. unfold bytes_of. cbn [chain_len fold_right flat_map]. fold (chain_len els). fold (bytes_of els).
  rewrite IH. destruct e; cbn [el_len]; try reflexivity. unfold data_len, zlen. rewrite app_length. lia.
Qed.
Lemma hex_hidden els : format_hidden seg_raw_to_hex els = flat_map (fun b => 32 :: fmt_hex_lo 2 b) (bytes_of els).
Proof.
  unfold format_hidden, bytes_of. induction els as [|e els IH]; [reflexivity|]. cbn [flat_map]. rewrite flat_map_app, <- IH. now destruct e.
Qed.
Lemma safe_hidden els : format_hidden seg_raw_to_safe els = map safe_sign (bytes_of els).
Proof.
  unfold format_hidden, bytes_of. induction els as [|e els IH]; [reflexivity|]. cbn [flat_map]. rewrite map_app, <- IH.
  destruct e; try reflexivity. unfold seg_raw_to_safe. f_equal. apply map_ext, safe_of_spec.
Qed.
Lemma hex_elems els : Chars (format_elems seg_raw_to_hex els) (flat_map (fun b => 32 :: fmt_hex_lo 2 b) (bytes_of els)).
Proof.
  rewrite <- hex_hidden. unfold format_elems, format_hidden. induction els as [|e els IH]; [intros a; exists a, []; split; [constructor|reflexivity]|].
  cbn [flat_map]. apply Chars_app; [|exact IH]. destruct e; cbn [format_elem]; try apply Chars_assemble. apply Chars_plain, raw_hex_inline.
Qed.
Lemma justify_repeat n : justify_raw n = repeat 32 (3 * Z.to_nat n).
Proof.
  unfold justify_raw. assert (K : forall k i, flat_map (fun _ : nat => [32; 32; 32]) (seq i k) = repeat 32 (3 * k)).
  { induction k as [|k IH]; intros i; [reflexivity|]. cbn [seq flat_map]. rewrite IH. replace (3 * S k)%nat with (S (S (S (3 * k)))) by lia. reflexivity. }
  apply K.
Qed.
Lemma row_pair s cols els off : s_debug s <> 0%nat ->
  Mirrored s cols [dbg_at s BINFMT 1 (binary_debug_row s cols (chain_len els) els) off; TOut (binary_row s cols (chain_len els) els off)].
Proof.
  intros D. assert (O : effective_print_offsets s = true).
  { rewrite with_offsets_spec. unfold with_offsets, debugging. destruct (s_debug s); [congruence|reflexivity]. }
  set (raw := bytes_of els).
  assert (B : Chars (format_elems seg_raw_to_hex els ++ justify_raw (cols - chain_len els) ++ [32] ++ get_separator s)
                    (flat_map (fun b => 32 :: fmt_hex_lo 2 b) raw ++ repeat 32 (3 * Z.to_nat (cols - Z.of_nat (length raw))) ++ [32] ++ [0x2502])).
  { rewrite chain_len_bytes, justify_repeat. apply Chars_app; [apply hex_elems|]. apply Chars_app; [apply Chars_plain, repeat_inline; easy|].
    apply Chars_app; [apply Chars_plain, inline_all; reflexivity|apply Chars_separator]. }
  assert (E : binary_row s cols (chain_len els) els off =
    (format_prefix_with_offset s off [c_GREEN] ++ format_elems seg_raw_to_hex els ++ justify_raw (cols - chain_len els) ++ [32] ++ get_separator s)
    ++ (format_elems seg_processed_noop els ++ [10])).
  { unfold binary_row, write_with_offset. cbv zeta. rewrite O, <- !app_assoc. reflexivity. }
  rewrite E. apply (Mr_row s cols off raw).
  - unfold dbg_at, binary_debug_row. rewrite O, hex_hidden, safe_hidden, chain_len_bytes, justify_repeat. fold raw.
    unfold row_head. rewrite <- !app_assoc. apply prefix_visible; [solve_good|reflexivity|reflexivity|].
    match goal with |- exists a' cs, Painted attrs0 ?x a' cs /\ map cell_char cs = ?v => cut (Chars x v); [intros CH; exact (CH attrs0)|] end.
    apply Chars_app.
    + apply Chars_plain. unfold raw. rewrite <- (hex_hidden els). apply hidden_inline, raw_hex_inline.
    + apply Chars_app; [apply Chars_plain, repeat_inline; easy|]. change [32; 0x2502] with ([32] ++ [0x2502]). rewrite <- app_assoc.
      apply Chars_app; [apply Chars_plain, inline_all; reflexivity|]. apply Chars_app; [apply Chars_separator|].
      apply Chars_app; [|apply Chars_newline]. apply Chars_plain. apply Forall_forall. intros x Hx. apply in_map_iff in Hx as (y & <- & _). apply safe_sign_inline.
  - unfold row_head. apply prefix_visible; [solve_good|reflexivity|reflexivity|exact (B attrs0)].
  - constructor.
Qed.
Lemma detach_last b req els b' : detach_bytes b req true = (Ok els, b') \/ detach_bytes b req false = (Ok els, b') -> sb_last b' = chain_len els.
Proof.
  assert (K : detach b req = (Ok els, b') -> els <> [] -> sb_last b' = chain_len els).
  { unfold detach. destruct (sb_chain b) as [|x l] eqn:C; [intros H; injection H as <- <-; congruence|].
    destruct (d_err _) as [x0|]; [discriminate|]. intros H _. inversion H; subst. reflexivity. }
  intros [H|H]; unfold detach_bytes in H.
  - rewrite orb_true_r in H. destruct (detach b req) as [[[|x l]|y] b0]; try discriminate. inversion H; subst. now apply K.
  - rewrite orb_false_r in H. destruct (req <=? _)%Z; [|discriminate]. destruct (detach b req) as [[[|x l]|y] b0]; try discriminate. inversion H; subst. now apply K.
Qed.
Lemma tbinary_loop_mirrored fuel s cols req closed : s_debug s <> 0%nat ->
  forall sb off, Mirrored s cols (t_events (tbinary_loop fuel s cols req closed sb off)).
Proof.
  intros D. induction fuel as [|f IH]; intros sb off; cbn [tbinary_loop]; [constructor|].
  assert (A : Mirrored s cols (dbg s BINFMT 1 (lit "Requested " ++ bold_num req ++ lit " byte(s)") :: detach_bytes_trace s sb req closed)).
  { constructor. apply Mirrored_quiet, detach_bytes_trace_quiet. }
  set (asked := _ :: _) in *. clearbody asked.
  destruct (detach_bytes sb req closed) as [[els|x] sb'] eqn:E; [|destruct x; exact A].
  assert (L : sb_last sb' = chain_len els) by (apply (detach_last sb req); destruct closed; auto).
  rewrite t_events_pre, L. apply Mirrored_app; [|apply IH]. apply Mirrored_app; [exact A|].
  constructor. now apply row_pair.
Qed.
Lemma tbinary_format_mirrored fuel s tc closed sb off : s_debug s <> 0%nat ->
  Mirrored s (columns s tc) (t_events (tbinary_format fuel s tc closed sb off)).
Proof.
  intros D. unfold tbinary_format. cbv zeta. rewrite t_events_pre, current_cols_spec. apply Mirrored_app.
  - apply Mirrored_quiet. destruct (s_columns s); quiet.
  - match goal with |- context [tbinary_loop fuel s ?c ?r closed sb off] =>
      pose proof (tbinary_loop_mirrored fuel s c r closed D sb off) as H; destruct (tbinary_loop fuel s c r closed sb off) as [[sb' off'] l|e l|l] end; try exact H.
    destruct (closed && _)%bool; [|exact H]. cbn [t_events] in *. apply Mirrored_app; [exact H|]. apply (Mr_total s _ off'); [|constructor].
    unfold write, format_total_size. rewrite prefix_visible with (v := [10]); [reflexivity|solve_good|reflexivity|reflexivity|exact (Chars_newline attrs0)].
Qed.
Theorem debug_rows s tc src evs : fst (get_read_mode s) = RM_binary -> s_debug s <> 0%nat ->
  let '(t, _, _) := tbyteio_run s tc src evs in Mirrored s (columns s tc) (tp_ev t).
Proof.
  intros R D. pose proof (get_read_mode_keeps s) as G. unfold tbyteio_run. destruct (get_read_mode s) as [rm s1] eqn:E. cbn [fst] in R. subst rm.
  destruct G as (G1 & _).
  assert (SM : forall l, Mirrored s1 (columns s1 tc) l -> Mirrored s (columns s tc) l).
  { assert (S1 : s_decimal_offsets s1 = s_decimal_offsets s /\ s_columns s1 = s_columns s).
    { unfold get_read_mode in E. destruct (s_binary s); [injection E as <-; auto|]. destruct (s_text s); [discriminate|]. injection E as E1 E2. rewrite <- E2. auto. }
    destruct S1 as [S1 S2]. assert (OT : forall off, offset_text s1 off = offset_text s off) by (intros off; unfold offset_text, offset_cells; now rewrite S1).
    assert (CC : columns s1 tc = columns s tc) by (unfold columns; now rewrite S1, S2). rewrite CC.
    induction 1; [constructor|constructor; assumption| |].
    - apply (Mr_row s _ off raw); [|unfold row_head in *|assumption]; unfold row_head in *; rewrite OT in *; assumption.
    - apply (Mr_total s _ off); [|assumption]. now rewrite <- OT. }
  set (e := update_settings s). set (t0 := mkTproc proc_init 0 _).
  assert (Re : te_read e = RM_binary) by (unfold e, update_settings; rewrite E; reflexivity).
  pose proof (tread_erased (fun l => Mirrored s1 (columns s1 tc) l) s1 src e tc (Mr_nil _ _) (Mirrored_app s1 (columns s1 tc))
    (fun l t _ => Mr_trace _ _ l t [] (Mr_nil _ _))
    (fun Q => False_ind _ (eq_ind RM_binary (fun m => match m with RM_binary => True | RM_text => False end) I RM_text (eq_trans (eq_sym Re) Q)))
    (fun _ fuel closed sb off => tbinary_format_mirrored fuel s1 tc closed sb off ltac:(congruence)) evs t0) as K.
  assert (I0 : Inv (fun l => Mirrored s1 (columns s1 tc) l) t0).
  { unfold t0. split; cbn [tp_proc tp_ev pr_out proc_init].
    - now destruct (3 <=? s_debug s1)%nat.
    - apply Mirrored_quiet. destruct (3 <=? s_debug s1)%nat; quiet. }
  assert (O : quiet (open_trace s1 src)) by (unfold open_trace; quiet).
  specialize (K I0 (or_intror (Mirrored_quiet _ _ _ O))).
  destruct (tread s1 _ src evs t0) as [[t acts] en]. destruct K as [[_ K2] _]. now apply SM.
Qed.

(** ** announcements of the parser *)
Lemma zdec_of n : zdec (Z.of_N n) = dec n.
Proof. unfold zdec. destruct (Z.ltb_spec (Z.of_N n) 0) as [H|H]; [lia|]. cbn [app]. now rewrite Z.abs_eq, N2Z.id by lia. Qed.
Lemma tidy_Tidy r : tidy attrs0 r -> exists v, one_line v /\ Tidy attrs0 r v.
Proof. intros [v X]. exists v. split; [|exact X]. destruct X as (cs & _ & _ & F). exact F. Qed.
Lemma printd_head s v : exists rest, one_line rest /\ Tidy attrs0 (printd s v) (lit "len " ++ dec (N.of_nat (length v)) ++ rest).
Proof.
  destruct (printd_split s v) as (t & -> & H). destruct (tidy_Tidy t H) as (r & F & T). exists r. split; [exact F|].
  rewrite app_assoc. apply Tidy_app; [|exact T]. apply Tidy_app; [apply Tidy_plain, inline_all; reflexivity|].
  unfold zlen. rewrite <- nat_N_Z, <- zdec_of. apply bold_num_visible.
Qed.
Lemma match_trace_announces s k w segs off : Forall label_ok segs -> segs <> [] ->
  announces s (off, (k, w)) (match_trace s (mgroup_of k) w segs off).
Proof.
  intros L NE. destruct segs as [|g l]; [congruence|]. inversion L as [|? ? Lg Ll]; subst. unfold announces, match_trace, dbg_at.
  destruct (printd_head s w) as (r1 & F1 & T1).
  assert (X : exists r2, one_line r2 /\ Tidy attrs0 ((if eqb_list w (ascii_replace (seg_proc g)) then [] else lit " -> " ++ printd s (ascii_replace (seg_proc g))) ++ more_segments_trace s l) r2).
  { apply tidy_Tidy. apply tidy_app; [|now apply more_segments_tidy]. destruct (eqb_list _ _); [apply tidy_nil|]. apply tidy_app; [text|apply printd_tidy]. }
  destruct X as (r2 & F2 & T2). eexists. exists (seg_label g), (r1 ++ r2). split; [reflexivity|]. split; [apply Forall_app; auto|].
  assert (Y : Tidy attrs0 (lit "Match group #" ++ rjust 48 2 (dec (N.of_nat (mgroup_of k))) ++ lit ": " ++ segment_trace s w g ++ more_segments_trace s l)
    (lit "Match group #" ++ (repeat 48 (2 - length (dec (alternative k))) ++ dec (alternative k)) ++ lit ": " ++ lit "Seg " ++ ([60] ++ seg_label g ++ [62]) ++ lit ": "
     ++ (lit "len " ++ dec (N.of_nat (length w)) ++ r1) ++ r2)).
  { assert (A : N.of_nat (mgroup_of k) = alternative k) by (destruct k as [| | | | | | | | |[]]; reflexivity). rewrite A.
    apply Tidy_app; [apply Tidy_plain, inline_all; reflexivity|]. apply Tidy_app.
    { unfold rjust. apply Tidy_plain. apply Forall_app. split; [apply repeat_inline; easy|apply dec_inline]. }
    apply Tidy_app; [apply Tidy_plain, inline_all; reflexivity|].
    match type of T2 with Tidy _ ?x _ => replace (segment_trace s w g ++ more_segments_trace s l)
      with (lit "Seg " ++ span_wrap [c_INVERSED] ([60] ++ seg_label g ++ [62]) ++ lit ": " ++ printd s w ++ x)
      by (unfold segment_trace; rewrite <- !app_assoc; reflexivity) end.
    apply Tidy_app; [apply Tidy_plain, inline_all; reflexivity|]. apply Tidy_app.
    { apply Tidy_span; [reflexivity|]. apply Tidy_plain. apply Forall_app. split; [repeat constructor; easy|]. apply Forall_app. split; [exact Lg|repeat constructor; easy]. }
    apply Tidy_app; [apply Tidy_plain, inline_all; reflexivity|]. apply Tidy_app; assumption. }
  destruct Y as (cs & P & E & _).
  rewrite prefix_visible with (v := map cell_char cs ++ [10]); [|cbn [db_color PARSER]; solve_good|reflexivity|reflexivity|].
  - rewrite E, <- !app_assoc. reflexivity.
  - exists attrs0, (cs ++ [Glyph 10 attrs0]). split; [|now rewrite map_app]. eapply Painted_app; [exact P|]. apply Pt_chr; [easy|constructor].
Qed.

Lemma substitute_some e t ss raw segs : raw <> [] -> substitute e t ss raw = Ok segs -> segs <> [].
Proof.
  intros NE H. unfold substitute in H.
  assert (ES : forall (A B : Type) (r1 : result A) (r2 : result B) (f : A -> B -> list segment), (forall a b, f a b <> []) ->
    bind r1 (fun o => bind r2 (fun det => Ok (f o det))) = Ok segs -> segs <> []).
  { intros A B r1 r2 f F E. destruct r1; [|discriminate]. cbn [bind] in E. destruct r2; [|discriminate]. cbn [bind] in E. injection E as <-. apply F. }
  assert (EX : (if is_ignored (t_disp e t) then Ok (substitute_base e t raw)
      else
        bind (label_opening_seq e t ss) (fun o =>
        bind (esc_details e t ss (skipn 1 raw)) (fun det =>
          Ok (if (negb (is_binary (te_read e)) && negb (te_no_separators e)
                  && match te_details e with MD_brief | MD_full => true | _ => false end)%bool
              then wrap_in_separators (mkSeg o (type_label (t_class t)) (firstn 1 raw) (process e t (firstn 1 raw)) :: det)
              else mkSeg o (type_label (t_class t)) (firstn 1 raw) (process e t (firstn 1 raw)) :: det)))) = Ok segs -> segs <> []).
  { clear H. intros H. destruct (is_ignored _); [injection H as <-; discriminate|]. eapply ES; [|exact H].
    intros a b. cbv beta. match goal with |- (if ?c then _ else _) <> [] => destruct c end; discriminate. }
  destruct (t_kind t); try (injection H as <-; discriminate); try (apply EX; exact H).
  destruct (te_details e); try (injection H as <-; discriminate).
  all: destruct raw as [|b raw]; [congruence|]; cbn [control_loop] in H.
  all: destruct (control_details e t ss b); [|discriminate]; cbn [bind] in H; destruct (control_loop e t ss raw); [|discriminate]; cbn [bind] in H; injection H as <-; discriminate.
Qed.

Lemma scan_trace_announces s e ts evs : Forall2 tok_view ts evs -> Forall (fun t => snd t <> []) ts -> forall ss off,
  exists n, Forall2 (announces s) (firstn n (located off ts)) (scan_trace s e evs ss off) /\
            ((exists r, run_scan e evs ss = Ok r) -> (length ts <= n)%nat).
Proof.
  induction 1 as [|[k w] ev ts evs (g & -> & V) H IH]; intros NE ss off; [exists 0%nat; split; [constructor|cbn; lia]|].
  inversion NE as [|? ? N1 N2]; subst. cbn [snd fst] in *. cbn [scan_trace run_scan].
  destruct (handle_match e g ss) as [[segs ss1]|x] eqn:HM.
  2:{ exists 0%nat. split; [constructor|]. intros [r R]. discriminate. }
  destruct (IH N2 ss1 (off + N.of_nat (length w))) as (n & F & Full). exists (S n). split.
  - cbn [located firstn snd]. destruct V as (V1 & V2 & _). rewrite V1. constructor.
    + rewrite V2.
      unfold handle_match in HM. rewrite V1 in HM. cbv zeta in HM. rewrite V2 in HM.
      destruct (resolve_match g (mgroup_of k) ss) as [[t ss']|x]; [|discriminate]. cbn [bind] in HM.
      destruct (substitute e t ss' w) as [segs'|x] eqn:SB; [|discriminate]. cbn [bind] in HM. injection HM as <- <-.
      apply match_trace_announces; [eapply substitute_labels; exact SB|eapply substitute_some; eassumption].
    + exact F.
  - cbn [bind]. intros [r R]. cbn [length]. apply le_n_S, Full. destruct (run_scan e evs ss1) as [y|x]; [eauto|discriminate].
Qed.
Theorem debug_tokens s e p sb ss off ts : is_bytes (pb_raw p) -> Lexes (pb_raw p) ts -> (0 <= off)%Z ->
  exists first msgs last n, parse_trace s e p sb ss off = first :: msgs ++ last /\
    Forall2 (announces s) (firstn n (located (Z.to_N off) ts)) msgs /\
    (forall p' sb' ss', parse e p sb ss = Ok (p', sb', ss') -> (length ts <= n)%nat).
Proof.
  intros Hb L H0.
  destruct (scan_trace_announces s e ts _ (scan_tokens _ _ Hb L)) with (ss := ss) (off := Z.to_N off) as (n & F & Full).
  { clear - L. induction L as [|k w rest ts T L IH]; constructor; [eapply token_nonempty; exact T|exact IH]. }
  unfold parse_trace. do 3 eexists. exists n. split; [reflexivity|]. split; [exact F|].
  intros p' sb' ss' P. apply Full. unfold parse in P. destruct (run_scan e _ ss) as [y|x]; [eauto|discriminate].
Qed.

(** ** the offset of text lines *)
Lemma run_case (P : list tev -> reader_end -> Prop) (x : tproc * list action * reader_end) :
  P (tp_ev (fst (fst x))) (snd x) -> let '(t, _, en) := x in P (tp_ev t) en.
Proof. now destruct x as [[t a] en]. Qed.
Definition odd_offset_settings : settings := apply_opt (apply_opt default_settings O_debug) (O_marker 1).
(** the bytes 05 0A 41: the second line starts at offset 2, but is announced at offset 6 *)
Theorem debug_text_offset_refuted : exists s tc evs m,
  evs = [RData [5; 10; 65]] /\
  let '(t, _, en) := tbyteio_run s tc SrcStdin evs in
  en = REnd /\ In (TDbg 1 m) (tp_ev t) /\ visible m = offset_text s 6 ++ [0x2502; 65; 10] /\
  (forall l x, In (TDbg l x) (tp_ev t) -> visible x <> offset_text s 2 ++ [0x2502; 65; 10]).
Proof.
  exists odd_offset_settings, 80%Z. eexists. exists (ev_shown 1 (dbg_at odd_offset_settings TXTFMT 1 [65] 6)). split; [reflexivity|].
  set (m := ev_shown 1 _).
  apply (run_case (fun l en => en = REnd /\ In (TDbg 1 m) l /\ visible m = offset_text odd_offset_settings 6 ++ [0x2502; 65; 10] /\
    (forall k x, In (TDbg k x) l -> visible x <> offset_text odd_offset_settings 2 ++ [0x2502; 65; 10]))).
  set (y := tbyteio_run _ _ _ _). vm_compute in y. vm_compute in m. subst m y. cbn [fst snd tp_ev]. split; [reflexivity|]. split; [|split].
  - apply (nth_error_In _ 38). cbn [nth_error]. reflexivity.
  - vm_compute. reflexivity.
  - match goal with |- forall k x, In (TDbg k x) ?l -> _ => set (L := l) end.
    assert (K : forallb (fun e => match e with TDbg _ x => negb (eqb_list (visible x) (offset_text odd_offset_settings 2 ++ [0x2502; 65; 10])) | TOut _ => true end)
                  L = true) by (vm_compute; reflexivity).
    clearbody L. rewrite forallb_forall in K. intros l x Hx. specialize (K _ Hx). cbn beta iota in K. apply negb_true_iff in K.
    intros Q. rewrite Q, eqb_list_refl in K. discriminate.
Qed.
