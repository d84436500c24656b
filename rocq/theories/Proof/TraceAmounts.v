(** What debug messages say about amounts of data *)
From Coq Require Import Ascii String.
From Coq Require Import List Arith NArith ZArith Bool Lia.
From Verif.Model Require Import Base Ansi Regex Strip Settings Segment Template Parser Console Formatter Reader Runner Trace.
From Verif.Spec Require Import Numbers Terminal Sgr Lexical SgrParams Display Output Input Weave TraceText.
From Verif.Proof Require Import BaseFacts RegexFacts TermFacts ClosingFacts TokFacts PaintFacts ConsoleFacts BufFacts BufHistory LexClaims ParseClaims ReaderFacts ReaderExtra TraceFacts TraceRun TraceClaims TraceWhole TraceTextFacts.
Import ListNotations.
Local Open Scope N_scope.

(** ** who says what *)
Definition reader_msg (s : settings) (e : tev) : Prop := (exists k m off, e = dbg_at s READER k m off) \/ (exists k m, e = dbg s READER k m).
Definition fmt_starts : list string := ["Requested "; "Buffer state: "; "Detached "; "Responsing "; "EOF"; "Columns "]%string.
Definition fmt_msg (s : settings) (e : tev) : Prop :=
  (exists t, e = TOut t)
  \/ (exists d k m v off, In d [BINFMT; TXTFMT] /\ e = dbg_at s d k m off /\ Tidy attrs0 m v /\ (~ In 32 v \/ exists r, v = 32 :: r))
  \/ (exists d k p t, In d [CHAINBUF; BINFMT; TXTFMT] /\ e = dbg s d k (lit p ++ t) /\ In p fmt_starts).
Ltac starts d := right; right; exists d; do 3 eexists; split; [cbn; tauto|]; split; [|].

Lemma lit_app a b : lit (a ++ b)%string = lit a ++ lit b.
Proof. unfold lit. induction a as [|c a IH]; [reflexivity|]. cbn. f_equal. exact IH. Qed.
Lemma fmt_dbg s d k p m t : In d [CHAINBUF; BINFMT; TXTFMT] -> In p fmt_starts -> m = lit p ++ t -> fmt_msg s (dbg s d k m).
Proof. intros D P ->. right. right. exists d, k, p, t. auto. Qed.
Ltac fmt p := eapply (fmt_dbg _ _ _ p); [cbn; tauto|cbn; tauto|reflexivity].
Lemma buffer_state_fmt s b : fmt_msg s (buffer_state s b).
Proof. unfold buffer_state. fmt "Buffer state: "%string. Qed.
Lemma detach_trace_fmt s b req : Forall (fmt_msg s) (detach_trace s b req).
Proof.
  unfold detach_trace. constructor; [apply buffer_state_fmt|]. destruct (sb_chain b); [constructor|].
  destruct (detach b req) as [[out|x] b']; [|constructor]. constructor; [fmt "Detached "%string|]. constructor; [apply buffer_state_fmt|constructor].
Qed.
Lemma detach_bytes_trace_fmt s b req force : Forall (fmt_msg s) (detach_bytes_trace s b req force).
Proof.
  unfold detach_bytes_trace. destruct (_ || _)%bool.
  - apply Forall_app. split; [apply detach_trace_fmt|]. destruct (detach b req) as [[[|x l]|y] b']; try constructor; [|constructor; [apply buffer_state_fmt|constructor]].
    fmt "Responsing "%string.
  - constructor; [fmt "Responsing "%string|]. constructor; [apply buffer_state_fmt|constructor].
Qed.
Lemma detach_line_trace_fmt s b force : Forall (fmt_msg s) (detach_line_trace s b force).
Proof.
  unfold detach_line_trace. destruct (line_scan (sb_chain b)) as [n nl]. destruct (n =? 0)%Z.
  - constructor; [fmt "Responsing "%string|]. constructor; [apply buffer_state_fmt|constructor].
  - destruct (_ || _)%bool; [apply detach_trace_fmt|].
    constructor; [fmt "Responsing "%string|]. constructor; [apply buffer_state_fmt|constructor].
Qed.
Lemma no_space_app a b : ~ In 32 a -> ~ In 32 b -> ~ In (32 : N) (a ++ b).
Proof. intros A B H. apply in_app_or in H as [H|H]; auto. Qed.
Lemma safe_no_space g : ~ In 32 (seg_raw_to_safe g).
Proof.
  unfold seg_raw_to_safe. intros H. apply in_map_iff in H as (y & E & _). rewrite safe_of_spec in E. unfold safe_sign in E.
  destruct (between 9 y 13) eqn:B9; cbn [orb] in E; [discriminate|]. destruct (N.eqb_spec y 32); [discriminate|].
  destruct (between 33 y 126) eqn:B; [|discriminate]. apply between_spec in B. lia.
Qed.
Lemma preview_no_space p : ~ In 32 (preview_sgr (assemble p)).
Proof.
  destruct p as [|x p]; [intros []|]. destruct (assemble_shape (x :: p) ltac:(discriminate)) as (ps & -> & HP & _).
  unfold preview_sgr. destruct (sgr_match_group ps [] HP) as (g & M & G).
  pose proof (re_scan_match SGR_REGEXP (27 :: 91 :: ps ++ [109]) [] g ltac:(discriminate) M) as E. rewrite app_nil_r in E. rewrite E, re_scan_nil.
  cbn [flat_map]. rewrite G, app_nil_r. apply no_space_app; [intros [?|[?|[]]]; discriminate|]. apply no_space_app; [|intros [?|[]]; discriminate].
  intros H. rewrite Forall_forall in HP. destruct (HP _ H) as [K|K]; [lia|discriminate].
Qed.
Lemma encoded_no_space els : ~ In 32 (format_encoded seg_raw_to_safe els).
Proof.
  unfold format_encoded. induction els as [|e els IH]; [intros []|]. cbn [flat_map]. apply no_space_app; [|exact IH].
  destruct e; try apply preview_no_space. apply safe_no_space.
Qed.
Lemma hidden_no_space els : ~ In 32 (format_hidden seg_raw_to_safe els).
Proof.
  unfold format_hidden. induction els as [|e els IH]; [intros []|]. cbn [flat_map]. apply no_space_app; [|exact IH].
  destruct e; try (intros []). apply safe_no_space.
Qed.
Lemma encoded_fmt s d k els off : In d [BINFMT; TXTFMT] -> fmt_msg s (dbg_at s d k (format_encoded seg_raw_to_safe els) off).
Proof.
  intros D. right. left. exists d, k, (format_encoded seg_raw_to_safe els), (format_encoded seg_raw_to_safe els), off. split; [exact D|]. split; [reflexivity|].
  split; [apply Tidy_plain, encoded_inline, safe_inline|]. left. apply encoded_no_space.
Qed.
Lemma hidden_fmt s d k els off : In d [BINFMT; TXTFMT] -> fmt_msg s (dbg_at s d k (format_hidden seg_raw_to_safe els) off).
Proof.
  intros D. right. left. exists d, k, (format_hidden seg_raw_to_safe els), (format_hidden seg_raw_to_safe els), off. split; [exact D|]. split; [reflexivity|].
  split; [apply Tidy_plain, hidden_inline, safe_inline|]. left. apply hidden_no_space.
Qed.
Lemma hex_fmt s d k els off : In d [BINFMT; TXTFMT] -> fmt_msg s (dbg_at s d k (format_hidden seg_raw_to_hex els) off).
Proof.
  intros D. right. left. exists d, k, (format_hidden seg_raw_to_hex els), (format_hidden seg_raw_to_hex els), off. split; [exact D|]. split; [reflexivity|].
  split; [apply Tidy_plain, hidden_inline, raw_hex_inline|]. rewrite hex_hidden. destruct (bytes_of els); [left; intros []|right; cbn; eauto].
Qed.
Lemma Painted_first a c t a' cs : Painted a (c :: t) a' cs -> c <> 27 -> exists r, map cell_char cs = c :: r.
Proof.
  intros P NE. remember (c :: t) as u eqn:E. revert E. induction P as [a|a p s a' cs P IH|a d s a' cs Hc P IH]; intros E; [discriminate| |].
  - destruct p as [|x p]; [cbn in E; auto|]. destruct (assemble_shape (x :: p) ltac:(discriminate)) as (ps & E2 & _). rewrite E2 in E. injection E as E _. congruence.
  - injection E as -> ->. cbn [map]. rewrite to_cell_char. eauto.
Qed.
Lemma row_fmt s k cols dl els off : fmt_msg s (dbg_at s BINFMT k (binary_debug_row s cols dl els) off).
Proof.
  right. left. destruct (binary_debug_row_tidy s cols dl els) as (v & T). exists BINFMT, k, (binary_debug_row s cols dl els), v, off. split; [cbn; tauto|]. split; [reflexivity|].
  split; [exact T|]. right. unfold binary_debug_row in T. rewrite hex_hidden, justify_repeat in T.
  assert (H : exists r, flat_map (fun b => 32 :: fmt_hex_lo 2 b) (bytes_of els) ++ repeat 32 (3 * Z.to_nat (cols - dl)) ++ [32]
     ++ (if effective_print_offsets s then get_separator s else [32]) ++ format_hidden seg_raw_to_safe els = 32 :: r).
  { destruct (bytes_of els); [|cbn; eauto]. cbn [flat_map app]. destruct (3 * Z.to_nat (cols - dl))%nat; cbn; eauto. }
  destruct H as (r & H). rewrite H in T. destruct T as (cs & P & <- & _). eapply Painted_first; [exact P|discriminate].
Qed.
Lemma tbinary_loop_fmt fuel s cols req closed : forall sb off, Forall (fmt_msg s) (t_events (tbinary_loop fuel s cols req closed sb off)).
Proof.
  induction fuel as [|f IH]; intros sb off; cbn [tbinary_loop]; [constructor|].
  assert (A : Forall (fmt_msg s) (dbg s BINFMT 1 (lit "Requested " ++ bold_num req ++ lit " byte(s)") :: detach_bytes_trace s sb req closed)).
  { constructor; [fmt "Requested "%string|apply detach_bytes_trace_fmt]. }
  set (asked := _ :: _) in *. clearbody asked.
  destruct (detach_bytes sb req closed) as [[els|x] sb'] eqn:E; [|destruct x; exact A].
  rewrite t_events_pre. apply Forall_app. split; [|apply IH]. apply Forall_app. split; [exact A|].
  constructor; [apply encoded_fmt; cbn; tauto|]. constructor; [apply row_fmt|]. constructor; [left; eauto|constructor].
Qed.
Lemma tbinary_format_fmt fuel s tc closed sb off : Forall (fmt_msg s) (t_events (tbinary_format fuel s tc closed sb off)).
Proof.
  unfold tbinary_format. cbv zeta. rewrite t_events_pre. apply Forall_app. split.
  - destruct (s_columns s); [constructor|]. constructor; [fmt "Columns "%string|constructor].
  - match goal with |- context [tbinary_loop fuel s ?c ?r closed sb off] =>
      pose proof (tbinary_loop_fmt fuel s c r closed sb off) as H; destruct (tbinary_loop fuel s c r closed sb off) as [[sb' off'] l|e l|l] end; try exact H.
    destruct (closed && _)%bool; [|exact H]. cbn [t_events] in *. apply Forall_app. split; [exact H|]. constructor; [left; eauto|constructor].
Qed.
Lemma ttext_loop_fmt fuel s closed : forall sb ln off, Forall (fmt_msg s) (t_events (ttext_loop fuel s closed sb ln off)).
Proof.
  induction fuel as [|f IH]; intros sb ln off; cbn [ttext_loop]; [constructor|].
  assert (A : Forall (fmt_msg s) (dbg s TXTFMT 1 (lit "Requested line") :: detach_line_trace s sb closed)).
  { constructor; [fmt "Requested "%string|apply detach_line_trace_fmt]. }
  set (asked := _ :: _) in *. clearbody asked.
  destruct (detach_line sb closed) as [[els|x] sb'] eqn:E; [|destruct x; exact A].
  rewrite t_events_pre. apply Forall_app. split; [|apply IH]. apply Forall_app. split; [exact A|].
  constructor; [apply encoded_fmt; cbn; tauto|]. constructor; [apply hex_fmt; cbn; tauto|]. constructor; [apply hidden_fmt; cbn; tauto|]. constructor; [left; eauto|constructor].
Qed.
Lemma ttext_format_fmt fuel s closed sb ln off : Forall (fmt_msg s) (t_events (ttext_format fuel s closed sb ln off)).
Proof.
  unfold ttext_format. pose proof (ttext_loop_fmt fuel s closed sb ln off) as H. destruct (ttext_loop fuel s closed sb ln off) as [[[sb' ln'] off'] l|e l|l]; try exact H.
  cbn [t_events] in *. apply Forall_app. split; [exact H|]. destruct closed; [|constructor]. constructor; [fmt "EOF"%string|constructor].
Qed.
Lemma tformat_fmt s rm tc t : exists l, tp_ev (fst (tformat s rm tc t)) = tp_ev t ++ l /\ Forall (fmt_msg s) l.
Proof.
  unfold tformat. cbv zeta. destruct rm.
  - match goal with |- context [tbinary_format ?f s tc ?c ?sb ?o] => pose proof (tbinary_format_fmt f s tc c sb o) as H end.
    destruct (tbinary_format _ s tc _ _ _) as [[sb off] l|x l|l]; (exists l; split; [reflexivity|exact H]).
  - match goal with |- context [ttext_format ?f s ?c ?sb ?ln ?o] => pose proof (ttext_format_fmt f s c sb ln o) as H end.
    destruct (ttext_format _ s _ _ _ _) as [[[sb ln] off] l|x l|l]; (exists l; split; [reflexivity|exact H]).
Qed.

(** ** silence *)
Lemma keyed_fmt d : In d [CHAINBUF; BINFMT; TXTFMT] -> keyed d.
Proof. unfold keyed. cbn. tauto. Qed.
Lemma keyed_fmt2 d : In d [BINFMT; TXTFMT] -> keyed d.
Proof. unfold keyed. cbn. tauto. Qed.
Lemma told_all names l : (forall e, In e l -> told names [e] = []) -> told names l = [].
Proof. induction l as [|e l IH]; intros H; [reflexivity|]. rewrite told_one, (H e (or_introl eq_refl)). apply IH. intros x Hx. apply H. now right. Qed.
Lemma told_at_all start l : (forall e, In e l -> told_at start [e] = []) -> told_at start l = [].
Proof. induction l as [|e l IH]; intros H; [reflexivity|]. rewrite told_at_one, (H e (or_introl eq_refl)). apply IH. intros x Hx. apply H. now right. Qed.
Lemma told_fmt names s l : forallb (existsb far) names = true -> forallb (fun d => negb (existsb (eqb_list (column d)) names)) [CHAINBUF; BINFMT; TXTFMT] = true ->
  Forall (fmt_msg s) l -> told names l = [].
Proof.
  intros F N H. apply told_all. intros e He. rewrite Forall_forall in H. destruct (H e He) as [(t & ->)|[(d & k & m & v & off & D & -> & _)|(d & k & p & t & D & -> & _)]].
  - reflexivity.
  - apply told_dbg_at; [exact F|now apply keyed_fmt2].
  - apply told_dbg_other; [now apply keyed_fmt|]. rewrite forallb_forall in N. apply negb_true_iff. now apply N.
Qed.
Lemma told_reader names s l : forallb (existsb far) names = true -> existsb (eqb_list (column READER)) names = false ->
  Forall (reader_msg s) l -> told names l = [].
Proof.
  intros F N H. apply told_all. intros e He. rewrite Forall_forall in H. destruct (H e He) as [(k & m & off & ->)|(k & m & ->)].
  - apply told_dbg_at; [exact F|cbn; tauto].
  - apply told_dbg_other; [cbn; tauto|exact N].
Qed.
Lemma told_scan names s e evs : forallb (existsb far) names = true -> forall ss off, told names (scan_trace s e evs ss off) = [].
Proof.
  intros F. induction evs as [|[b|g w] evs IH]; intros ss off; cbn [scan_trace]; [reflexivity|apply IH|].
  destruct (handle_match e g ss) as [[segs ss1]|x]; [|reflexivity]. rewrite told_one, IH. unfold match_trace. rewrite told_dbg_at; [reflexivity|exact F|cbn; tauto].
Qed.

(** what can be asked for among the messages with offsets *)
Definition starts : list (list N) := [lit "Read chunk #"; lit "Current position: "; lit "Cropping input -> "; lit "Encountered EOF"].
Lemma after_prefix p t r : after p t = Some r -> t = p ++ r.
Proof.
  revert t. induction p as [|c p IH]; intros t H; cbn [after] in H; [now injection H as ->|]. destruct t as [|d t]; [discriminate|].
  destruct (N.eqb_spec c d) as [->|]; [|discriminate]. cbn [app]. f_equal. now apply IH.
Qed.
Lemma after_app p r : after p (p ++ r) = Some r.
Proof. induction p as [|c p IH]; [reflexivity|]. cbn [app after]. now rewrite N.eqb_refl. Qed.
Ltac each_start H := unfold starts in H; repeat (destruct H as [<-|H]; [|]); [.. | contradiction H].
Lemma told_at_fmt start s l : In start starts -> Forall (fmt_msg s) l -> told_at start l = [].
Proof.
  intros S H. apply told_at_all. intros e He. rewrite Forall_forall in H. destruct (H e He) as [(t & ->)|[(d & k & m & v & off & D & -> & T & V)|(d & k & p & t & D & -> & P)]].
  - reflexivity.
  - rewrite (told_at_said start s d k m v off (keyed_fmt2 d D) T). destruct (after start (v ++ [10])) as [r|] eqn:A; [|reflexivity]. exfalso. apply after_prefix in A.
    destruct V as [V|(r' & ->)]; [|each_start S; discriminate A].
    assert (I : In 32 (v ++ [10])). { rewrite A. apply in_or_app. left. each_start S; cbn; tauto. }
    apply in_app_or in I as [I|[I|[]]]; [contradiction|discriminate].
  - apply (told_at_dbg start s d k (lit p) t (lit p) (keyed_fmt d D)).
    + unfold fmt_starts in P. repeat (destruct P as [<-|P]; [apply Tidy_plain, inline_all; reflexivity|]). contradiction.
    + intros tail. unfold fmt_starts in P. each_start S; repeat (destruct P as [<-|P]; [reflexivity|]); contradiction.
Qed.
Lemma told_at_lit start s d k (p : string) t : keyed d -> forallb inlineb (lit p) = true -> (forall tail, after start (lit p ++ tail) = None) -> told_at start [dbg s d k (lit p ++ t)] = [].
Proof. intros D I A. apply (told_at_dbg start s d k (lit p) t (lit p) D); [apply Tidy_plain, inline_all, I|exact A]. Qed.
Lemma told_at_lit_off start s d k (p : string) t off : keyed d -> forallb inlineb (lit p) = true -> (forall tail, after start (lit p ++ tail) = None) -> told_at start [dbg_at s d k (lit p ++ t) off] = [].
Proof. intros D I A. apply (told_at_offset start s d k (lit p) t (lit p) off D); [apply Tidy_plain, inline_all, I|exact A]. Qed.
Ltac at_lit S p := match goal with
  | |- told_at ?st [dbg ?s ?d ?k ?m] = [] => match m with lit p ++ ?t => apply (told_at_lit st s d k p t) | _ => apply (told_at_lit st s d k p []) end
  | |- told_at ?st [dbg_at ?s ?d ?k ?m ?o] = [] => match m with lit p ++ ?t => apply (told_at_lit_off st s d k p t o) | _ => apply (told_at_lit_off st s d k p [] o) end
  end; [cbn; tauto|reflexivity|intros tail; each_start S; reflexivity].
Lemma told_at_append start s p raw fin : In start starts -> told_at start (append_trace s p raw fin) = [].
Proof.
  intros S. unfold append_trace. rewrite told_at_app, told_at_one.
  replace (told_at start [dbg s PARSBUF 3 (lit "Appending " ++ bold_num (zlen raw) ++ lit " bytes")]) with (@nil (list N * nat * list N)).
  2: { symmetry. at_lit S "Appending "%string. }
  replace (told_at start [dbg s PARSBUF 2 (lit "Buffer state: " ++ printd s (pb_raw p ++ raw))]) with (@nil (list N * nat * list N)).
  2: { symmetry. at_lit S "Buffer state: "%string. }
  destruct fin; [|reflexivity]. cbn [app]. at_lit S "Closing buffer for input"%string.
Qed.
Lemma told_at_scan start s e evs : In start starts -> forall ss off, told_at start (scan_trace s e evs ss off) = [].
Proof.
  intros S. induction evs as [|[b|g w] evs IH]; intros ss off; cbn [scan_trace]; [reflexivity|apply IH|].
  destruct (handle_match e g ss) as [[segs ss1]|x]; [|reflexivity]. rewrite told_at_one, IH, app_nil_r. unfold match_trace. at_lit S "Match group #"%string.
Qed.
Lemma told_at_parse start s e p sb ss off : In start starts -> told_at start (parse_trace s e p sb ss off) = [].
Proof.
  intros S. unfold parse_trace. rewrite told_at_one, told_at_app, (told_at_scan start) by exact S.
  replace (told_at start [dbg s PARSER 1 (lit "Parsing segment: " ++ printd s (pb_raw p))]) with (@nil (list N * nat * list N)).
  2: { symmetry. at_lit S "Parsing segment: "%string. }
  destruct (parse e p sb ss); [|reflexivity]. unfold crop_trace. cbn [app]. rewrite told_at_one.
  replace (told_at start [dbg s PARSBUF 3 (lit "Purging")]) with (@nil (list N * nat * list N)).
  2: { symmetry. at_lit S "Purging"%string. }
  cbn [app]. at_lit S "Buffer state: "%string.
Qed.
Lemma crossing_any (fin : bool) : crossing (if fin then CROSS_CLOSE else CROSS).
Proof. unfold crossing. destruct fin; cbn; tauto. Qed.
(** a call does not speak about reading *)
Lemma told_at_call start s e tc t raw off fin : In start starts ->
  exists l, tp_ev (fst (tprocess_chunk s e tc t raw off fin)) = tp_ev t ++ l /\ told_at start l = [].
Proof.
  intros S. unfold tprocess_chunk. cbv zeta. set (pb := append_raw (pr_pb (tp_proc t)) raw fin).
  set (l1 := append_trace s (pr_pb (tp_proc t)) raw fin). set (l2 := parse_trace s e pb (pr_sb (tp_proc t)) (pr_ss (tp_proc t)) off).
  assert (E1 : told_at start l1 = []) by now apply told_at_append. assert (E2 : told_at start l2 = []) by now apply told_at_parse. clearbody l1 l2.
  destruct (parse e pb (pr_sb (tp_proc t)) (pr_ss (tp_proc t))) as [[[pb' sb'] ss']|x].
  - match goal with |- context [tformat s ?rm tc ?u] => destruct (tformat_fmt s rm tc u) as (l3 & E & F); destruct (tformat s rm tc u) as [t3 r] end.
    cbn [fst tp_ev tlog] in E. pose proof (told_at_fmt start s l3 S F) as E3.
    destruct r; cbn [fst tlog tp_ev]; rewrite E; rewrite <- !app_assoc; eexists; (split; [reflexivity|]); rewrite !told_at_app, E1, E2, E3; try reflexivity.
    cbn [app]. apply told_at_runner. apply crossing_any.
  - cbn [fst tp_ev tlog]. exists (l1 ++ l2). rewrite <- app_assoc. split; [reflexivity|]. now rewrite told_at_app, E1, E2.
Qed.

(** ** reading *)
Lemma reached_crop m raw : forall lines r l, crop_lines m raw lines = (r, l) ->
  if lines_reached m raw lines then (length r < length raw)%nat else r = raw.
Proof.
  induction raw as [|b t IH]; intros lines r l H; cbn [crop_lines lines_reached] in *; [now injection H as <- _|].
  destruct (b =? 10).
  - destruct (m <=? lines + 1)%Z; cbn [orb]; [injection H as <- _; cbn; lia|]. destruct (crop_lines m t (lines + 1)) as [r' l'] eqn:E. injection H as <- _.
    specialize (IH _ _ _ E). destruct (lines_reached m t (lines + 1)); [cbn; lia|congruence].
  - destruct (crop_lines m t lines) as [r' l'] eqn:E. injection H as <- _. specialize (IH _ _ _ E). destruct (lines_reached m t lines); [cbn; lia|congruence].
Qed.
Lemma py_take_shorter {A} n (l : list A) : (n < zlen l)%Z -> l <> [] -> (length (py_take n l) < length l)%nat.
Proof.
  intros H NE. assert (length l <> 0%nat) by (destruct l; [congruence|discriminate]). unfold py_take, zlen in *. destruct (Z.ltb_spec n 0); rewrite firstn_length; lia.
Qed.

Section Reading.
  Variables (s : settings) (cb : tproc -> bytes -> Z -> bool -> tproc * cb_res) (src : source).
  Hypothesis Hcb : forall start t raw off fin, In start starts -> exists l, tp_ev (fst (cb t raw off fin)) = tp_ev t ++ l /\ told_at start l = [].
  Hypothesis Htell : tell_fails src = false.
  Notation RC := (lit "Read chunk #").
  Notation CP := (lit "Current position: ").
  Notation CI := (lit "Cropping input -> ").
  Notation EE := (lit "Encountered EOF").
  Definition said (start : list N) (t : tproc) := told_at start (tp_ev t).
  Lemma said_cb start t raw off fin : In start starts -> said start (fst (cb t raw off fin)) = said start t.
  Proof. intros S. destruct (Hcb start t raw off fin S) as (l & E & Q). unfold said. now rewrite E, told_at_app, Q, app_nil_r. Qed.
  Lemma said_log start t l : said start (tlog t l) = said start t ++ told_at start l.
  Proof. unfold said. cbn [tlog tp_ev]. apply told_at_app. Qed.
  Lemma in_RC : In RC starts. Proof. cbn; tauto. Qed.
  Lemma in_CP : In CP starts. Proof. cbn; tauto. Qed.
  Lemma in_CI : In CI starts. Proof. cbn; tauto. Qed.
  Lemma in_EE : In EE starts. Proof. cbn; tauto. Qed.

  (** what is said during some actions, given what is left to be read *)
  Record Told (evs : list read_ev) (chunks off : N) (t : tproc) (x : tproc * list action * reader_end) : Prop := {
    T_chunk : said RC (fst (fst x)) = said RC t ++ map (chunk_report s) (firstn (reads (snd (fst x))) (numbered chunks off (provided evs)));
    T_pos : said CP (fst (fst x)) = said CP t ++ map (position_report s src) (firstn (reads (snd (fst x))) (numbered chunks off (provided evs)));
    T_eof : said EE (fst (fst x)) = said EE t ++ map (eof_report s) (filter call_last (calls (snd (fst x))));
    T_crop : (said CI (fst (fst x)) = said CI t /\ data_of (snd (fst x)) = concat (firstn (reads (snd (fst x))) (provided evs)))
             \/ (exists l c, In c (calls (snd (fst x))) /\ said CI (fst (fst x)) = said CI t ++ l ++ [crop_report s c] /\
                  (length (data_of (snd (fst x))) < length (concat (firstn (reads (snd (fst x))) (provided evs))))%nat) }.
  (** the last call *)
  Lemma finish_said raw off t x : x = tread_finish s cb raw off t ->
    (forall start, In start [RC; CP; CI] -> said start (fst (fst x)) = said start t) /\
    said EE (fst (fst x)) = said EE t ++ [eof_report s (raw, off, true)] /\
    calls (snd (fst x)) = [(raw, off, true)] /\ reads (snd (fst x)) = 0%nat.
  Proof.
    intros ->. unfold tread_finish, read_finish. set (t1 := tlog t _).
    assert (L : forall start, In start [RC; CP; CI] -> said start t1 = said start t).
    { intros start S. unfold t1. rewrite said_log. assert (S' : In start starts) by (cbn in S |- *; tauto).
      replace (told_at start _) with (@nil (list N * nat * list N)); [apply app_nil_r|]. symmetry.
      rewrite (told_at_said start s READER 1 (lit "Encountered EOF") (lit "Encountered EOF")); [|cbn; tauto|apply Tidy_plain, inline_all; reflexivity].
      cbn in S. repeat (destruct S as [<-|S]; [reflexivity|]). contradiction. }
    assert (E : said EE t1 = said EE t ++ [eof_report s (raw, off, true)]).
    { unfold t1. rewrite said_log. f_equal. rewrite (told_at_said EE s READER 1 (lit "Encountered EOF") (lit "Encountered EOF")); [|cbn; tauto|apply Tidy_plain, inline_all; reflexivity].
      rewrite after_app. reflexivity. }
    clearbody t1. pose proof (fun start => said_cb start t1 raw off true) as C. destruct (cb t1 raw off true) as [t2 r]. cbn [fst] in C.
    assert (D : forall start, In start starts -> said start t2 = said start t1) by exact C.
    assert (R1 : forall start, In start [RC; CP; CI] -> said start t2 = said start t) by (intros start S; rewrite D; [now apply L|cbn in S |- *; tauto]).
    assert (R2 : said EE t2 = said EE t ++ [eof_report s (raw, off, true)]) by (rewrite D; [exact E|exact in_EE]).
    destruct r; cbn [fst snd calls reads filter length]; auto.
  Qed.

  (** what the reader says about a chunk *)
  Lemma said_one start t k m v off : Tidy attrs0 m v ->
    said start (tlog t [dbg_at s READER k m off]) = said start t ++ match after start (v ++ [10]) with Some r => [(offset_text s off, k, r)] | None => [] end.
  Proof. intros T. rewrite said_log. f_equal. apply told_at_said; [cbn; tauto|exact T]. Qed.
  Lemma crop_said start t k1 k2 (p : string) n raw off : In start starts -> is_bytes raw -> forallb inlineb (lit p) = true ->
    (forall tail, after start (lit p ++ tail) = None) ->
    said start (tlog t [dbg_at s READER k1 (lit p ++ bold_num n) off; dbg_at s READER k2 (lit "Cropping input -> " ++ printd s raw) off])
    = said start t ++ match after start CI with Some _ => [(offset_text s off, k2, described (s_debug s) raw ++ [10])] | None => [] end.
  Proof.
    intros S B P A. rewrite said_log. f_equal. rewrite told_at_one.
    rewrite (told_at_said start s READER k1 (lit p ++ bold_num n) (lit p ++ zdec n)); [|cbn; tauto|apply Tidy_app; [apply Tidy_plain, inline_all, P|apply bold_num_visible]].
    rewrite <- app_assoc, A. cbn [app].
    rewrite (told_at_said start s READER k2 _ (lit "Cropping input -> " ++ described (s_debug s) raw)); [|cbn; tauto|apply Tidy_app; [apply Tidy_plain, inline_all; reflexivity|now apply printd_described]].
    each_start S; reflexivity.
  Qed.

  Lemma firstn_numbered n i off l : firstn (S n) (numbered i off l) = match l with [] => [] | c :: r => (i, off, c) :: firstn n (numbered (i + 1) (off + N.of_nat (length c)) r) end.
  Proof. now destruct l. Qed.
  (** prepending actions *)
  Lemma told_pre evs chunks off t a x : Told evs chunks off t x -> calls a = [] -> reads a = 0%nat -> Told evs chunks off t (pre a x).
  Proof.
    intros [H1 H2 H3 H4] C R. destruct x as [[t' l] en]. cbn [fst snd] in *.
    assert (RA : reads (a ++ l) = reads l) by (unfold reads in *; rewrite filter_app, app_length; lia).
    assert (CA : calls (a ++ l) = calls l) by (rewrite calls_app, C; reflexivity).
    assert (DA : data_of (a ++ l) = data_of l) by (unfold data_of; now rewrite CA).
    constructor; cbn [pre fst snd]; rewrite ?RA, ?CA, ?DA; assumption.
  Qed.

  Lemma loop_told evs : Forall is_bytes (provided evs) -> forall off lines chunks t, (0 <= off)%Z ->
    Told evs chunks (Z.to_N off) t (tread_loop s cb src evs off lines chunks (Z.to_N off) t).
  Proof.
    assert (Fin : forall evs raw off chunks t, provided evs = [] -> raw = [] -> Told evs chunks (Z.to_N off) t (pre [ARead] (tread_finish s cb raw off t))).
    { clear evs. intros evs raw off chunks t P ->. destruct (finish_said [] off t _ eq_refl) as (F1 & F2 & F3 & F4).
      destruct (tread_finish s cb [] off t) as [[t' a] en]. cbn [fst snd] in *.
      assert (RA : reads (ARead :: a) = 1%nat) by (cbn [reads filter length]; unfold reads in F4; cbn; now rewrite F4).
      constructor; cbn [pre app fst snd]; rewrite ?P; cbn [numbered firstn map concat calls]; rewrite ?firstn_nil; cbn [map concat]; rewrite ?app_nil_r.
      - apply F1. cbn; tauto.
      - apply F1. cbn; tauto.
      - rewrite F2, F3. reflexivity.
      - left. split; [apply F1; cbn; tauto|]. unfold data_of. cbn [calls]. rewrite F3. reflexivity. }
    induction evs as [|ev evs IH]; intros B off lines chunks t O; cbn [tread_loop].
    - now apply Fin.
    - assert (None_ : forall en, provided (ev :: evs) = [] -> Told (ev :: evs) chunks (Z.to_N off) t (t, [ARead; AClose], en)).
      { intros en P. constructor; cbn [fst snd]; rewrite ?P; cbn; rewrite ?app_nil_r; auto. }
      destruct ev as [raw| |]; [|now apply None_|now apply None_].
      destruct raw as [|b raw]; [now apply Fin|]. cbn [provided] in B. inversion B as [|? ? Br Bs]; subst. clear None_.
      assert (NE : b :: raw <> []) by discriminate. assert (P : provided (RData (b :: raw) :: evs) = (b :: raw) :: provided evs) by reflexivity.
      set (r0 := b :: raw) in *. clearbody r0. rewrite Htell.
      set (no := Z.to_N off).
      (* the chunk and the position *)
      set (t1 := tlog t _).
      assert (K1 : forall start, In start starts -> said start t1 = said start t ++ match after start RC with Some _ => [chunk_report s (chunks, no, r0)] | None => [] end).
      { intros start S. unfold t1. rewrite (said_one start t 1 _ (RC ++ dec chunks ++ lit ": " ++ described (s_debug s) r0)).
        - each_start S; try reflexivity; rewrite <- !app_assoc, after_app; reflexivity.
        - apply Tidy_app; [apply Tidy_plain, inline_all; reflexivity|]. apply Tidy_app; [apply Tidy_plain, dec_inline|]. apply Tidy_app; [apply Tidy_plain, inline_all; reflexivity|]. now apply printd_described. }
      clearbody t1. set (t2 := tlog t1 _).
      assert (K2 : forall start, In start starts -> said start t2 = said start t1 ++ match after start CP with Some _ => [position_report s src (chunks, no, r0)] | None => [] end).
      { intros start S. unfold t2. rewrite (said_one start t1 3 _ (CP ++ match src with SrcFile _ => dec (no + N.of_nat (length r0)) | _ => lit "n/a" end)).
        - each_start S; try reflexivity; rewrite <- !app_assoc, after_app; reflexivity.
        - apply Tidy_app; [apply Tidy_plain, inline_all; reflexivity|].
          assert (G : Tidy attrs0 (span_wrap [c_BOLD] (lit "n/a")) (lit "n/a")) by (apply Tidy_span; [reflexivity|apply Tidy_plain, inline_all; reflexivity]).
          destruct src; try exact G. rewrite <- zdec_of. apply bold_num_visible. }
      clearbody t2. cbv zeta. destruct (apply_max_lines (s_max_lines s) r0 lines) as [raw1 lines1] eqn:AL.
      set (t3 := tlog t2 _).
      assert (B1 : is_bytes raw1). { destruct (apply_prefix _ _ _ _ _ AL) as (rest & ->). unfold is_bytes in *. apply Forall_app in Br. apply Br. }
      assert (K3 : (raw1 = r0 /\ forall start, In start starts -> said start t3 = said start t2) \/
        ((length raw1 < length r0)%nat /\ (forall start, In start starts -> start <> CI -> said start t3 = said start t2) /\ said CI t3 = said CI t2 ++ [crop_report s (raw1, off, false)])).
      { unfold t3, apply_max_lines in *. destruct (limit_on (s_max_lines s)) as [m|].
        2: { left. injection AL as <- _. split; [reflexivity|]. intros start _. rewrite said_log. apply app_nil_r. }
        pose proof (reached_crop _ _ _ _ _ AL) as RE. destruct (lines_reached m r0 lines).
        - right. split; [exact RE|].
          assert (X : forall start, In start starts -> (forall tail, after start (lit "Line limit exceeded: " ++ tail) = None)) by (intros start S tail; each_start S; reflexivity).
          split.
          + intros start S NC. rewrite (crop_said start t2 2 3 "Line limit exceeded: "%string m raw1 no S B1 eq_refl (X start S)). each_start S; try apply app_nil_r. congruence.
          + rewrite (crop_said CI t2 2 3 "Line limit exceeded: "%string m raw1 no in_CI B1 eq_refl (X CI in_CI)). reflexivity.
        - left. split; [exact RE|]. intros start _. rewrite said_log. apply app_nil_r. }
      assert (L1 : (length raw1 <= length r0)%nat) by (destruct K3 as [[-> _]|[K _]]; lia).
      clearbody t3.
      assert (S1 : said RC t3 = said RC t ++ [chunk_report s (chunks, no, r0)]).
      { destruct K3 as [[_ K]|(_ & K & _)]; rewrite K by (exact in_RC || discriminate); rewrite (K2 _ in_RC), (K1 _ in_RC), app_nil_r; reflexivity. }
      assert (S2 : said CP t3 = said CP t ++ [position_report s src (chunks, no, r0)]).
      { destruct K3 as [[_ K]|(_ & K & _)]; rewrite K by (exact in_CP || discriminate); rewrite (K2 _ in_CP), (K1 _ in_CP), app_nil_r; reflexivity. }
      assert (S3 : said EE t3 = said EE t).
      { destruct K3 as [[_ K]|(_ & K & _)]; rewrite K by (exact in_EE || discriminate); rewrite (K2 _ in_EE), (K1 _ in_EE), !app_nil_r; reflexivity. }
      assert (S4 : said CI t2 = said CI t) by (rewrite (K2 _ in_CI), (K1 _ in_CI), !app_nil_r; reflexivity).
      clear K1 K2.
      match goal with |- context [if ?c then _ else _] => destruct c eqn:Ov end.
      + (* byte limit *)
        set (m := match s_max_bytes s with Some m => m | None => 0%Z end). set (raw2 := py_take (m - off) raw1). set (t4 := tlog t3 _).
        assert (B2 : is_bytes raw2). { destruct (py_take_prefix (m - off) raw1) as (rest & E). fold raw2 in E. rewrite E in B1. unfold is_bytes in *. apply Forall_app in B1. apply B1. }
        assert (X : forall start, In start starts -> (forall tail, after start (lit "Byte limit exceeded: " ++ tail) = None)) by (intros start S tail; each_start S; reflexivity).
        assert (K4 : forall start, In start starts -> start <> CI -> said start t4 = said start t3).
        { intros start S NC. unfold t4. rewrite (crop_said start t3 2 3 "Byte limit exceeded: "%string m raw2 no S B2 eq_refl (X start S)). each_start S; try apply app_nil_r. congruence. }
        assert (K5 : said CI t4 = said CI t3 ++ [crop_report s (raw2, off, true)]).
        { unfold t4. rewrite (crop_said CI t3 2 3 "Byte limit exceeded: "%string m raw2 no in_CI B2 eq_refl (X CI in_CI)). reflexivity. }
        assert (L2 : (length raw2 < length r0)%nat).
        { assert (LL : (length raw2 <= length raw1)%nat) by (unfold raw2; destruct (py_take_prefix (m - off) raw1) as (rest & E); rewrite E at 2; rewrite app_length; lia).
          destruct K3 as [[-> _]|[K _]]; [|lia]. apply py_take_shorter; [|exact NE]. unfold limit_on in Ov. destruct (s_max_bytes s) as [m0|]; [|discriminate].
          destruct (m0 =? 0)%Z; [discriminate|]. apply Z.ltb_lt in Ov. subst m. lia. }
        clearbody t4. destruct (finish_said raw2 off t4 _ eq_refl) as (F1 & F2 & F3 & F4). destruct (tread_finish s cb raw2 off t4) as [[t' a] en]. cbn [fst snd] in *.
        assert (RA : reads (ARead :: a) = 1%nat) by (unfold reads in *; cbn [filter length]; now rewrite F4).
        constructor; cbn [pre app fst snd]; rewrite ?RA, ?P; cbn [numbered firstn map concat calls]; rewrite ?app_nil_r.
        * rewrite F1 by (cbn; tauto). rewrite K4 by (exact in_RC || discriminate). exact S1.
        * rewrite F1 by (cbn; tauto). rewrite K4 by (exact in_CP || discriminate). exact S2.
        * rewrite F2, F3, K4, S3 by (exact in_EE || discriminate). reflexivity.
        * right. assert (DL : data_of (ARead :: a) = raw2) by (unfold data_of; cbn [calls]; rewrite F3; cbn; apply app_nil_r).
          exists (match length raw1 =? length r0 with true => [] | false => [crop_report s (raw1, off, false)] end)%nat, (raw2, off, true). rewrite DL, F3. split; [now left|]. split; [|exact L2].
          rewrite F1 by (cbn; tauto). rewrite K5. destruct K3 as [[E K]|(K & _ & KC)].
          -- rewrite E, Nat.eqb_refl, (K _ in_CI), S4. reflexivity.
          -- destruct (Nat.eqb_spec (length raw1) (length r0)); [lia|]. rewrite KC, S4, <- app_assoc. reflexivity.
      + (* the chunk is passed on *)
        clear Ov. pose proof (fun start => said_cb start t3 raw1 off false) as C. destruct (cb t3 raw1 off false) as [t4 r]. cbn [fst] in C.
        assert (Short : forall en a, calls a = [] -> reads a = 0%nat -> Told (RData r0 :: evs) chunks no t (t4, [ARead; ACall raw1 off false] ++ a, en)).
        { intros en a CA RA. assert (R1 : reads ([ARead; ACall raw1 off false] ++ a) = 1%nat) by (unfold reads in *; rewrite filter_app, app_length, RA; reflexivity).
          assert (C1 : calls ([ARead; ACall raw1 off false] ++ a) = [(raw1, off, false)]) by (rewrite calls_app, CA; reflexivity).
          assert (D1 : data_of ([ARead; ACall raw1 off false] ++ a) = raw1) by (unfold data_of; rewrite C1; cbn; apply app_nil_r).
          constructor; cbn [fst snd]; rewrite ?R1, ?C1, ?D1, ?P; cbn [numbered firstn map concat filter call_last snd]; rewrite ?app_nil_r.
          - rewrite (C _ in_RC). exact S1.
          - rewrite (C _ in_CP). exact S2.
          - rewrite (C _ in_EE). exact S3.
          - rewrite (C _ in_CI). destruct K3 as [[E K]|(K & _ & KC)]; [left; split; [rewrite (K _ in_CI); exact S4|exact E]|].
            right. exists [], (raw1, off, false). split; [now left|]. split; [rewrite KC, S4; reflexivity|exact K]. }
        destruct r; try (match goal with |- Told _ _ _ _ (_, ARead :: ACall _ _ _ :: ?a, _) => exact (Short _ a eq_refl eq_refl) end).
        match goal with |- context [if ?c then _ else _] => destruct c eqn:Stop end.
        * (* a limit has been reached *)
          destruct (finish_said [] (off + zlen raw1) t4 _ eq_refl) as (F1 & F2 & F3 & F4). destruct (tread_finish s cb [] (off + zlen raw1) t4) as [[t' a] en]. cbn [fst snd] in *.
          assert (RA : reads ([ARead; ACall raw1 off false] ++ a) = 1%nat) by (unfold reads in *; rewrite filter_app, app_length, F4; reflexivity).
          assert (CA : calls ([ARead; ACall raw1 off false] ++ a) = [(raw1, off, false); ([], off + zlen raw1, true)]%Z) by (rewrite calls_app, F3; reflexivity).
          assert (DA : data_of ([ARead; ACall raw1 off false] ++ a) = raw1) by (unfold data_of; rewrite CA; cbn; now rewrite app_nil_r).
          constructor; cbn [pre fst snd]; rewrite ?RA, ?CA, ?DA, ?P; cbn [numbered firstn map concat filter call_last snd]; rewrite ?app_nil_r.
          -- rewrite F1 by (cbn; tauto). rewrite (C _ in_RC). exact S1.
          -- rewrite F1 by (cbn; tauto). rewrite (C _ in_CP). exact S2.
          -- rewrite F2, (C _ in_EE), S3. reflexivity.
          -- rewrite F1 by (cbn; tauto). rewrite (C _ in_CI). destruct K3 as [[E K]|(K & _ & KC)]; [left; split; [rewrite (K _ in_CI); exact S4|exact E]|].
             right. exists [], (raw1, off, false). split; [now left|]. split; [rewrite KC, S4; reflexivity|exact K].
        * assert (E : raw1 = r0).
          { destruct (apply_full _ _ _ _ _ AL) as [E|(m & LM & LE)]; [exact E|]. apply orb_false_iff in Stop as [_ Stop]. rewrite LM in Stop. apply Z.leb_gt in Stop. lia. }
          destruct K3 as [[_ K3]|(K & _)]; [|subst raw1; lia]. subst raw1.
          assert (ON : no + N.of_nat (length r0) = Z.to_N (off + zlen r0)) by (unfold no, zlen; lia). rewrite ON.
          assert (O1 : (0 <= off + zlen r0)%Z) by (unfold zlen; lia).
          destruct (IH Bs (off + zlen r0)%Z lines1 (chunks + 1) t4 O1) as [I1 I2 I3 I4].
          destruct (tread_loop s cb src evs (off + zlen r0) lines1 (chunks + 1) (Z.to_N (off + zlen r0)) t4) as [[t' a] en]. cbn [fst snd] in *.
          assert (RA : reads ([ARead; ACall r0 off false] ++ a) = S (reads a)) by (unfold reads in *; rewrite filter_app, app_length; reflexivity).
          assert (CA : calls ([ARead; ACall r0 off false] ++ a) = (r0, off, false) :: calls a) by (rewrite calls_app; reflexivity).
          assert (DA : data_of ([ARead; ACall r0 off false] ++ a) = r0 ++ data_of a) by (unfold data_of; rewrite CA; reflexivity).
          constructor; cbn [pre fst snd]; rewrite ?RA, ?CA, ?DA, ?P; rewrite ?firstn_numbered; cbn [firstn map concat filter call_last snd]; rewrite ?ON.
          -- rewrite I1, (C _ in_RC), S1, <- app_assoc. reflexivity.
          -- rewrite I2, (C _ in_CP), S2, <- app_assoc. reflexivity.
          -- rewrite I3, (C _ in_EE), S3. reflexivity.
          -- rewrite (C _ in_CI), (K3 _ in_CI), S4 in I4. destruct I4 as [[E1 E2]|(l & c & IC & E1 & E2)]; [left; split; [exact E1|now rewrite E2]|].
             right. exists l, c. split; [now right|]. split; [exact E1|]. rewrite !app_length. lia.
  Qed.
End Reading.

Lemma told_at_open start s src : In start starts -> told_at start (open_trace s src) = [].
Proof.
  intros S. unfold open_trace. rewrite told_at_one.
  assert (E1 : told_at start [dbg s READER 1 (match src with SrcStdin => lit "Reading from stdin"
     | _ => lit "Opened file: " ++ span_wrap [c_BOLD] (match s_filename s with Some n => n | None => [] end) end)] = []).
  { assert (E : told_at start [dbg s READER 1 (lit "Opened file: " ++ span_wrap [c_BOLD] (match s_filename s with Some n => n | None => [] end))] = []) by at_lit S "Opened file: "%string.
    destruct src; try exact E. at_lit S "Reading from stdin"%string. }
  rewrite E1. cbn [app]. at_lit S "Read buffer: size "%string.
Qed.
Lemma told_at_opening start (s : settings) tc : told_at start (if (3 <=? s_debug s)%nat then [] else [dbg s RUNNER 1 (separator_line s tc CROSS_OPEN)]) = [].
Proof. destruct (3 <=? s_debug s)%nat; [reflexivity|]. apply told_at_runner. cbn. tauto. Qed.

Theorem reading_run s tc src evs : opens src -> Forall is_bytes (provided evs) ->
  let '(t, acts, en) := tbyteio_run s tc src evs in
  let chunks := firstn (reads acts) (numbered 0 0 (provided evs)) in
  told_at (lit "Read chunk #") (tp_ev t) = map (chunk_report s) chunks /\
  told_at (lit "Current position: ") (tp_ev t) = map (position_report s src) chunks /\
  told_at (lit "Encountered EOF") (tp_ev t) = map (eof_report s) (filter call_last (calls acts)) /\
  (told_at (lit "Cropping input -> ") (tp_ev t) = [] /\ data_of acts = concat (firstn (reads acts) (provided evs))
   \/ exists l c, In c (calls acts) /\ told_at (lit "Cropping input -> ") (tp_ev t) = l ++ [crop_report s c] /\
        (length (data_of acts) < length (concat (firstn (reads acts) (provided evs))))%nat).
Proof.
  intros O B. unfold tbyteio_run. pose proof (read_mode_decimal s) as D. pose proof (get_read_mode_keeps s) as G. destruct (get_read_mode s) as [rm s1]. cbn [snd] in D. destruct G as (G & _).
  cbv zeta. set (t0 := mkTproc proc_init 0 _). set (cb := tprocess_chunk s1 (update_settings s) tc).
  assert (OT : forall off, offset_text s1 off = offset_text s off) by (intros off; unfold offset_text, offset_cells; now rewrite D).
  assert (TF : tell_fails src = false) by (destruct O as [->| ->]; reflexivity).
  assert (T0 : forall start, In start starts -> said start (tlog t0 (open_trace s1 src)) = []).
  { intros start S. rewrite said_log. unfold said, t0. cbn [tp_ev]. rewrite told_at_opening, told_at_open by exact S. reflexivity. }
  assert (E : tread s1 cb src evs t0 = pre [AOpen] (tread_loop s1 cb src evs 0 0 0 0 (tlog t0 (open_trace s1 src)))) by (destruct O as [->| ->]; reflexivity).
  rewrite E. set (t1 := tlog t0 _) in *. clearbody t1.
  assert (H : Told s1 src evs 0 0 t1 (pre [AOpen] (tread_loop s1 cb src evs 0 0 0 0 t1))).
  { apply told_pre; [|reflexivity|reflexivity]. apply (loop_told s1 cb src (fun start t raw off fin => told_at_call start s1 (update_settings s) tc t raw off fin) TF evs B 0 0 0 t1). lia. }
  destruct (pre [AOpen] (tread_loop s1 cb src evs 0 0 0 0 t1)) as [[t acts] en]. destruct H as [H1 H2 H3 H4]. cbn [fst snd] in *.
  rewrite T0 in H1, H2, H3, H4 by (cbn; tauto). cbn [app] in *. unfold said in *.
  assert (R1 : forall x, chunk_report s1 x = chunk_report s x) by (intros [[i off] c]; unfold chunk_report; now rewrite OT, G).
  assert (R2 : forall x, position_report s1 src x = position_report s src x) by (intros [[i off] c]; unfold position_report; now rewrite OT).
  assert (R3 : forall x, eof_report s1 x = eof_report s x) by (intros x; unfold eof_report; now rewrite OT).
  assert (R4 : forall x, crop_report s1 x = crop_report s x) by (intros x; unfold crop_report; now rewrite OT, G).
  split; [rewrite H1; apply map_ext, R1|]. split; [rewrite H2; apply map_ext, R2|]. split; [rewrite H3; apply map_ext, R3|].
  destruct H4 as [H4|(l & c & I & E4 & L)]; [left; exact H4|]. right. exists l, c. rewrite <- R4. auto.
Qed.

(** ** walking along a run, with the messages of the reader *)
Section Walk.
  Variables (s : settings) (e : tenv) (tc : Z) (src : source).
  Variables (I W : tproc -> list call -> Prop).
  Hypothesis IW : forall t cs, I t cs -> W t cs.
  Hypothesis Ilog : forall t cs l, I t cs -> Forall (reader_msg s) l -> I (tlog t l) cs.
  Hypothesis Icall : forall t cs raw off fin, I t cs ->
    let '(t', r) := tprocess_chunk s e tc t raw off fin in
    match r with CbOk => I t' (cs ++ [(raw, off, fin)]) | CbInt => False | _ => W t' (cs ++ [(raw, off, fin)]) end.
  Ltac readers := repeat first [apply Forall_cons; [first [left; do 3 eexists; reflexivity|right; do 2 eexists; reflexivity]|] | apply Forall_nil].

  Lemma finish_walk2 raw off t cs : I t cs -> good3 I W cs (tread_finish s (tprocess_chunk s e tc) raw off t).
  Proof.
    intros H. unfold tread_finish, read_finish.
    assert (H1 : I (tlog t [dbg_at s READER 1 (lit "Encountered EOF") (Z.to_N off)]) cs) by (apply Ilog; [exact H|readers]).
    pose proof (Icall _ _ raw off true H1) as K. destruct (tprocess_chunk s e tc _ raw off true) as [t' r].
    destruct r; cbn [good3 calls]; try contradiction; (split; [auto|]); try discriminate. auto.
  Qed.
  Lemma loop_walk2 evs : forall off lines chunks pos t cs, I t cs ->
    good3 I W cs (tread_loop s (tprocess_chunk s e tc) src evs off lines chunks pos t).
  Proof.
    induction evs as [|ev evs IH]; intros off lines chunks pos t cs H; cbn [tread_loop].
    - apply good3_pre. cbn [calls]. rewrite app_nil_r. now apply finish_walk2.
    - destruct ev as [raw| |]; [|now apply good3_end|now apply good3_end].
      destruct raw as [|b raw]; [apply good3_pre; cbn [calls]; rewrite app_nil_r; now apply finish_walk2|]. set (r0 := b :: raw). clearbody r0.
      set (t1 := tlog t _). assert (I1 : I t1 cs) by (apply Ilog; [exact H|readers]). clearbody t1.
      destruct (tell_fails src); [now apply good3_end|].
      set (t2 := tlog t1 _). assert (I2 : I t2 cs) by (apply Ilog; [exact I1|readers]). clearbody t2. cbv zeta.
      destruct (apply_max_lines (s_max_lines s) r0 lines) as [raw1 lines1].
      set (t3 := tlog t2 _). assert (I3 : I t3 cs).
      { unfold t3. destruct (limit_on (s_max_lines s)) as [m|]; [destruct (lines_reached m r0 lines)|]; (apply Ilog; [exact I2|readers]). }
      clearbody t3.
      match goal with |- context [if ?c then _ else _] => destruct c end.
      + apply good3_pre. cbn [calls]. rewrite app_nil_r. apply finish_walk2. apply Ilog; [exact I3|readers].
      + pose proof (Icall t3 cs raw1 off false I3) as K. destruct (tprocess_chunk s e tc t3 raw1 off false) as [st1 r].
        destruct r; try contradiction; try (cbn [good3 calls]; split; [auto|discriminate]).
        match goal with |- context [if ?c then _ else _] => destruct c end; apply good3_pre; cbn [calls]; [now apply finish_walk2|now apply IH].
  Qed.
  Lemma read_walk2 evs t : I t [] -> good3 I W [] (tread s (tprocess_chunk s e tc) src evs t).
  Proof.
    intros H. unfold tread. assert (K : good3 I W [] (pre [AOpen] (tread_loop s (tprocess_chunk s e tc) src evs 0 0 0 0 (tlog t (open_trace s src))))).
    { apply good3_pre. cbn [calls]. apply loop_walk2. apply Ilog; [exact H|]. unfold open_trace. readers. }
    destruct src; try exact K; now apply good3_end.
  Qed.
End Walk.
