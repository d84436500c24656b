(** Debug messages: complete lines that do nothing to the terminal *)
From Coq Require Import Ascii String.
From Coq Require Import List Arith NArith ZArith Bool Lia.
From Verif.Model Require Import Base Ansi Regex Strip Settings Segment Template Parser Console Formatter Reader Runner Trace.
From Verif.Spec Require Import Numbers Terminal Sgr Lexical SgrParams Display Output Weave.
From Verif.Proof Require Import BaseFacts RegexFacts TermFacts ClosingFacts TokFacts PaintFacts ConsoleFacts.
Import ListNotations.
Local Open Scope N_scope.

Definition inline (c : N) : Prop := displayable c = true /\ c <> 10.
Lemma inline_no27 c : inline c -> c <> 27.
Proof. intros [H _] ->. discriminate. Qed.

(** text that starts and ends with attributes [a] and shows [v], within one line *)
Definition Tidy (a : attrs) (s v : str) : Prop := exists cs, Painted a s a cs /\ map cell_char cs = v /\ Forall inline v.

Lemma Tidy_nil a : Tidy a [] [].
Proof. exists []. repeat constructor. Qed.
Lemma Tidy_app a s1 v1 s2 v2 : Tidy a s1 v1 -> Tidy a s2 v2 -> Tidy a (s1 ++ s2) (v1 ++ v2).
Proof.
  intros (c1 & P1 & <- & F1) (c2 & P2 & <- & F2). exists (c1 ++ c2). split; [eapply Painted_app; eassumption|].
  split; [apply map_app|]. apply Forall_app. auto.
Qed.
Lemma Tidy_plain a s : Forall inline s -> Tidy a s s.
Proof.
  intros H. exists (map to_cell (styled a s)). split; [apply Painted_plain; eapply Forall_impl; [apply inline_no27|exact H]|].
  split; [|exact H]. rewrite map_to_cell_char. unfold styled. rewrite map_map. cbn. apply map_id.
Qed.
(** a span around a tidy text *)
Lemma Tidy_span a o s v : sgr_apply (closing_seq o) (sgr_apply o a) = a -> Tidy (sgr_apply o a) s v -> Tidy a (span_wrap o s) v.
Proof.
  intros E (cs & P & <- & F). exists cs. split; [|auto]. unfold span_wrap. apply Pt_sgr. rewrite <- (app_nil_r cs).
  eapply Painted_app; [exact P|]. rewrite <- E at 2. apply Painted_assemble.
Qed.
Definition tidy (a : attrs) (s : str) : Prop := exists v, Tidy a s v.
Lemma tidy_nil a : tidy a [].
Proof. exists []. apply Tidy_nil. Qed.
Lemma tidy_app a s1 s2 : tidy a s1 -> tidy a s2 -> tidy a (s1 ++ s2).
Proof. intros [v1 H1] [v2 H2]. exists (v1 ++ v2). now apply Tidy_app. Qed.
Lemma tidy_plain a s : Forall inline s -> tidy a s.
Proof. intros H. exists s. now apply Tidy_plain. Qed.
Lemma tidy_span a o s : sgr_apply (closing_seq o) (sgr_apply o a) = a -> tidy (sgr_apply o a) s -> tidy a (span_wrap o s).
Proof. intros E [v H]. exists v. now apply Tidy_span. Qed.

(** ** the characters of messages *)
Lemma inline_ascii c : 32 <= c <= 126 -> inline c.
Proof.
  intros H. split; [|lia]. unfold displayable, between. repeat match goal with |- context [?a =? ?b] => destruct (N.eqb_spec a b); try lia end.
  replace (c <? 0x110000) with true by (symmetry; apply N.ltb_lt; lia).
  repeat match goal with |- context [?a <=? ?b] => destruct (N.leb_spec a b); try lia end; reflexivity.
Qed.
Definition inlineb (c : N) : bool := displayable c && negb (c =? 10).
Lemma inlineb_ok c : inlineb c = true <-> inline c.
Proof. unfold inlineb, inline. rewrite andb_true_iff, negb_true_iff, N.eqb_neq. reflexivity. Qed.
Lemma inline_all l : forallb inlineb l = true -> Forall inline l.
Proof. intros H. apply Forall_forall. intros c Hc. rewrite forallb_forall in H. now apply inlineb_ok, H. Qed.
Ltac text := apply tidy_plain, inline_all; vm_compute; reflexivity.

Lemma dec_inline n : Forall inline (dec n).
Proof. eapply Forall_impl; [|apply dec_digits]. cbn beta. intros c H. apply inline_ascii. lia. Qed.
Lemma hex_inline w n : Forall inline (fmt_hex_lo w n).
Proof. eapply Forall_impl; [|apply fmt_hex_lo_chars]. cbn beta. intros c H. apply inline_ascii. lia. Qed.
Lemma zdec_inline n : Forall inline (zdec n).
Proof. unfold zdec. apply Forall_app. split; [|apply dec_inline]. destruct (n <? 0)%Z; repeat constructor; easy. Qed.
Lemma repeat_inline c n : inline c -> Forall inline (repeat c n).
Proof. intros H. apply Forall_forall. intros x Hx. apply repeat_spec in Hx. now subst. Qed.
Lemma firstn_inline n l : Forall inline l -> Forall inline (firstn n l).
Proof. apply firstn_Forall. Qed.
Lemma skipn_inline n l : Forall inline l -> Forall inline (skipn n l).
Proof. intros H. apply Forall_forall. intros x Hx. rewrite Forall_forall in H. apply H. rewrite <- (firstn_skipn n l). apply in_or_app. now right. Qed.
Lemma join_inline sep l : Forall inline sep -> Forall (Forall inline) l -> Forall inline (join sep l).
Proof.
  intros Hs H. induction H as [|x l Hx H IH]; [constructor|]. destruct l as [|y l]; [exact Hx|].
  cbn [join]. apply Forall_app. split; [exact Hx|]. apply Forall_app. auto.
Qed.
Lemma join_tidy a sep l : tidy a sep -> Forall (tidy a) l -> tidy a (join sep l).
Proof.
  intros Hs H. induction H as [|x l Hx H IH]; [apply tidy_nil|]. destruct l as [|y l]; [exact Hx|].
  cbn [join]. auto using tidy_app.
Qed.

Lemma bold_num_tidy n : tidy attrs0 (bold_num n).
Proof. apply tidy_span; [reflexivity|]. apply tidy_plain, zdec_inline. Qed.
Lemma bold_num_visible n : Tidy attrs0 (bold_num n) (zdec n).
Proof. apply Tidy_span; [reflexivity|]. apply Tidy_plain, zdec_inline. Qed.

Lemma printd_split s v : exists tail, printd s v = (lit "len " ++ bold_num (zlen v)) ++ tail /\ tidy attrs0 tail.
Proof.
  unfold printd. cbv zeta. set (r := (lit "len " ++ bold_num (zlen v))%list).
  clearbody r.
  destruct (negb (debug_buffer_contents s)); [exists []; split; [now rewrite app_nil_r|apply tidy_nil]|]. destruct v as [|b v].
  - eexists; split; [reflexivity|]. apply tidy_app; [text|]. change (tidy attrs0 (span_wrap [c_GRAY] (lit "[]"))). apply tidy_span; [reflexivity|text].
  - set (h := join [32] (map (fmt_hex_lo 2) (b :: v))).
    assert (Hh : Forall inline h).
    { apply join_inline; [repeat constructor; easy|]. apply Forall_forall. intros x Hx. apply in_map_iff in Hx as (y & <- & _). apply hex_inline. }
    clearbody h. eexists; split; [reflexivity|]. apply tidy_app; [text|].
    match goal with |- context [?x] => match x with if debug_buffer_contents_full s then h else _ => set (m := x) end end.
    assert (Hm : Forall inline m).
    { unfold m. destruct (debug_buffer_contents_full s); [exact Hh|]. apply Forall_app. split; [now apply firstn_inline|].
      destruct (8 <? length h)%nat; [|constructor]. apply Forall_app. split; [apply inline_all; reflexivity|]. unfold py_drop. cbn [Z.ltb Z.compare]. now apply skipn_inline. }
    clearbody m. change (tidy attrs0 (assemble [c_GRAY] ++ [91] ++ m ++ [93] ++ assemble (closing_seq [c_GRAY]))).
    rewrite (app_assoc m), (app_assoc [91]). change (tidy attrs0 (span_wrap [c_GRAY] ([91] ++ m ++ [93]))).
    apply tidy_span; [reflexivity|]. apply tidy_plain. apply Forall_app. split; [repeat constructor; easy|]. apply Forall_app. split; [exact Hm|repeat constructor; easy].
Qed.

Lemma printd_tidy s v : tidy attrs0 (printd s v).
Proof. destruct (printd_split s v) as (t & -> & H). apply tidy_app; [|exact H]. apply tidy_app; [text|apply bold_num_tidy]. Qed.

(** ** previews of sequences *)
Lemma sgr_match_group ps t : Forall pchar ps ->
  exists g, re_match SGR_REGEXP ((27 :: 91 :: ps ++ [109]) ++ t) = Some (g, t) /\ Regex.group 3 g = Some ps.
Proof.
  intros H. assert (HP : Forall (fun x => in_cls [(48, 57); (59, 59)] x = true) ps).
  { eapply Forall_impl; [|exact H]. intros c Hc. unfold in_cls. cbn [existsb fst snd].
    destruct Hc as [Hc| ->]; [|reflexivity].
    replace (48 <=? c) with true by (symmetry; apply N.leb_le; lia).
    replace (c <=? 57) with true by (symmetry; apply N.leb_le; lia). reflexivity. }
  eexists. split.
  - unfold re_match, SGR_REGEXP. unfold rcats, fold_right. cbn [mt app RChr]. rewrite !in_cls_single.
    change (27 =? 27) with true. change (91 =? 91) with true. cbn iota.
    apply star_k_greedy. rewrite <- app_assoc. rewrite dropw_app_all by exact HP.
    cbn [app]. rewrite dropw_stop by reflexivity. rewrite in_cls_single. change (109 =? 109) with true. reflexivity.
  - cbn [Regex.group Nat.eqb]. f_equal. apply firstn_minus_app.
Qed.
Lemma preview_assemble p : Forall inline (preview_sgr (assemble p)).
Proof.
  destruct p as [|x p]; [constructor|]. destruct (assemble_shape (x :: p) ltac:(discriminate)) as (ps & -> & HP & _).
  unfold preview_sgr. destruct (sgr_match_group ps [] HP) as (g & M & G).
  pose proof (re_scan_match SGR_REGEXP (27 :: 91 :: ps ++ [109]) [] g ltac:(discriminate) M) as E. rewrite app_nil_r in E. rewrite E, re_scan_nil.
  cbn [flat_map]. rewrite G, app_nil_r. apply Forall_app. split; [apply inline_all; reflexivity|]. apply Forall_app. split; [|repeat constructor; easy].
  eapply Forall_impl; [|exact HP]. intros c [Hc| ->]; apply inline_ascii; lia.
Qed.
Lemma preview_values_tidy els : Forall (tidy (sgr_apply [c_GRAY] attrs0)) (preview_values els).
Proof.
  unfold preview_values. induction els as [|e els IH]; [constructor|]. cbn [flat_map]. apply Forall_app. split; [|exact IH].
  assert (R : forall r, Forall (tidy (sgr_apply [c_GRAY] attrs0)) [span_wrap [c_ITALIC] (preview_sgr (assemble r))]).
  { intros r. constructor; [|constructor]. apply tidy_span; [reflexivity|]. apply tidy_plain, preview_assemble. }
  destruct e; auto. apply Forall_forall. intros x Hx. apply in_map_iff in Hx as (y & <- & _). apply tidy_plain, hex_inline.
Qed.
Lemma preview_tidy s b : tidy attrs0 (preview s b).
Proof.
  unfold preview. cbv zeta.
  set (r := (lit "len " ++ bold_num (chain_len (sb_chain b)) ++ span_wrap [c_ITALIC] (43 :: zdec (sgr_byte_len (sb_chain b))))%list).
  assert (R : tidy attrs0 r).
  { apply tidy_app; [text|]. apply tidy_app; [apply bold_num_tidy|]. apply tidy_span; [reflexivity|]. apply tidy_plain. constructor; [easy|apply zdec_inline]. }
  clearbody r. destruct (negb (debug_buffer_contents s)); [exact R|].
  apply tidy_app; [exact R|]. apply tidy_app; [text|]. apply tidy_app.
  - apply tidy_span; [reflexivity|]. apply tidy_app; [text|]. apply tidy_app; [|apply tidy_app; [|text]].
    + apply join_tidy; [text|]. apply preview_values_tidy.
    + destruct (debug_buffer_contents_full s); [apply tidy_nil|]. destruct (5 <? _)%nat; [text|apply tidy_nil].
  - destruct (debug_buffer_contents_full s); [|apply tidy_nil]. apply tidy_app; [text|]. apply tidy_span; [reflexivity|].
    apply tidy_app; [text|]. apply tidy_app; [|text]. apply tidy_plain, join_inline; [repeat constructor; easy|].
    apply Forall_forall. intros x Hx. apply in_map_iff in Hx as (y & <- & _). apply preview_assemble.
Qed.

(** ** whole messages *)
Definition tidy_ev (e : tev) : Prop :=
  match e with TOut _ => True | TDbg l t => (1 <= l)%nat /\ exists m, t = m ++ [10] /\ tidy attrs0 m end.
Definition named (d : dbuf) (l : nat) : Prop := In d [READER; PARSER; PARSBUF; CHAINBUF; BINFMT; TXTFMT; RUNNER] /\ (1 <= l)%nat.

Lemma dbg_tidy s d l m : named d l -> tidy attrs0 m -> tidy_ev (dbg s d l m).
Proof.
  intros [D L] H. unfold dbg, tidy_ev. split; [exact L|]. eexists. split; [apply app_assoc|]. apply tidy_app; [|exact H].
  assert (S1 : tidy attrs0 (get_separator s)).
  { unfold get_separator. destruct (0 <? s_debug s)%nat; (apply tidy_span; [reflexivity|apply tidy_plain, inline_all; reflexivity]). }
  repeat (destruct D as [<-|D]; [cbn [db_key READER PARSER PARSBUF CHAINBUF BINFMT TXTFMT RUNNER]; try apply tidy_nil|]); try contradiction.
  1-5: unfold format_prefix; rewrite dim_0x_id;
       [apply tidy_app; [apply tidy_span; [reflexivity|apply tidy_plain, inline_all; reflexivity]|exact S1]
       |apply Forall_app; split; [apply span_nox; repeat constructor; easy|apply get_separator_nox]].
  - unfold format_prefix, get_separator. destruct (0 <? s_debug s)%nat.
    all: match goal with |- tidy _ (dim_0x (span_wrap ?o ?t ++ ?x)) => change (tidy attrs0 (span_wrap o t ++ x)) end.
    all: apply tidy_app; (apply tidy_span; [reflexivity|apply tidy_plain, inline_all; reflexivity]).
Qed.

Lemma aligned_inline w l : Forall inline l -> Forall inline (aligned w l).
Proof. intros H. unfold aligned. apply Forall_app. split; [apply repeat_inline; easy|exact H]. Qed.
Lemma offset_cells_inline s a off : Forall inline (map fst (offset_cells s a off)).
Proof.
  unfold offset_cells. cbv zeta. destruct (s_decimal_offsets s); unfold styled; rewrite ?map_app, ?map_map; cbn [fst]; rewrite ?map_id.
  - apply aligned_inline, firstn_inline, dec_inline.
  - apply Forall_app. split; [apply repeat_inline; easy|]. apply Forall_app. split; [repeat constructor; easy|].
    apply firstn_inline, hex_inline.
Qed.
Lemma prefix_tidy s off f : good_open f -> a_bold (sgr_apply f attrs0) = false -> a_dim (sgr_apply f attrs0) = false ->
  Tidy attrs0 (format_prefix_with_offset s off f) (map fst (offset_cells s (sgr_apply f attrs0) off) ++ [0x2502]).
Proof.
  intros G B D. eexists. split; [eapply prefix_painted; [exact G|reflexivity|exact B|exact D]|].
  split; [rewrite map_to_cell_char, map_app; reflexivity|]. apply Forall_app. split; [apply offset_cells_inline|repeat constructor; easy].
Qed.
Lemma dbg_at_tidy s d l m off : named d l -> tidy attrs0 m -> tidy_ev (dbg_at s d l m off).
Proof.
  intros [D L] H. unfold dbg_at, tidy_ev. split; [exact L|]. eexists. split; [apply app_assoc|]. apply tidy_app; [|exact H].
  repeat (destruct D as [<-|D]; [eexists; apply prefix_tidy; [solve_good|reflexivity|reflexivity]|]). contradiction.
Qed.

(** ** what the parser says *)
Definition label_ok (g : segment) : Prop := Forall inline (seg_label g).
Lemma segment_trace_tidy s raw g : label_ok g -> tidy attrs0 (segment_trace s raw g).
Proof.
  intros L. unfold segment_trace. apply tidy_app; [text|]. apply tidy_app.
  - apply tidy_span; [reflexivity|]. apply tidy_plain. apply Forall_app. split; [repeat constructor; easy|]. apply Forall_app. split; [exact L|repeat constructor; easy].
  - apply tidy_app; [text|]. apply tidy_app; [apply printd_tidy|]. destruct (eqb_list _ _); [apply tidy_nil|]. apply tidy_app; [text|apply printd_tidy].
Qed.
Lemma more_segments_tidy s l : Forall label_ok l -> tidy attrs0 (more_segments_trace s l).
Proof.
  induction 1 as [|g l Hg Hl IH]; [apply tidy_nil|]. cbn [more_segments_trace].
  apply tidy_app; [text|]. apply tidy_app; [now apply segment_trace_tidy|exact IH].
Qed.
Lemma type_label_ok c : Forall inline (type_label c).
Proof. destruct c; repeat constructor; easy. Qed.
Lemma control_loop_labels e t ss raw segs : control_loop e t ss raw = Ok segs -> Forall label_ok segs.
Proof.
  revert segs. induction raw as [|b raw IH]; intros segs H; cbn [control_loop] in H; [injection H as <-; constructor|].
  destruct (control_details e t ss b) as [det|x] eqn:D; [|discriminate]. cbn [bind] in H.
  destruct (control_loop e t ss raw) as [more|x]; [|discriminate]. cbn [bind] in H. injection H as <-.
  constructor; [apply type_label_ok|]. apply Forall_app. split; [|auto].
  unfold control_details in D. destruct (is_ignored _); [injection D as <-; constructor|].
  destruct (te_details e); try (injection D as <-; constructor).
  - destruct (assoc b brief_label_map); [|discriminate]. destruct (details_opening_seq e t ss); [|discriminate]. cbn [bind] in D. injection D as <-.
    constructor; [apply inline_all; reflexivity|constructor].
  - destruct (details_opening_seq e t ss); [|discriminate]. cbn [bind] in D. injection D as <-. constructor; [apply inline_all; reflexivity|constructor].
Qed.
Lemma substitute_labels e t ss raw segs : substitute e t ss raw = Ok segs -> Forall label_ok segs.
Proof.
  unfold substitute. intros H.
  assert (B : forall r, Forall label_ok (substitute_base e t r)) by (intros r; constructor; [apply type_label_ok|constructor]).
  assert (ES : (if is_ignored (t_disp e t) then Ok (substitute_base e t raw)
      else
        bind (label_opening_seq e t ss) (fun o =>
        bind (esc_details e t ss (skipn 1 raw)) (fun det =>
          Ok (if (negb (is_binary (te_read e)) && negb (te_no_separators e)
                  && match te_details e with MD_brief | MD_full => true | _ => false end)%bool
              then wrap_in_separators (mkSeg o (type_label (t_class t)) (firstn 1 raw) (process e t (firstn 1 raw)) :: det)
              else mkSeg o (type_label (t_class t)) (firstn 1 raw) (process e t (firstn 1 raw)) :: det)))) = Ok segs -> Forall label_ok segs).
  { clear H. intros H. destruct (is_ignored (t_disp e t)); [injection H as <-; apply B|].
    destruct (label_opening_seq e t ss) as [o|x]; [|discriminate]. cbn [bind] in H.
    destruct (esc_details e t ss (skipn 1 raw)) as [det|x] eqn:D; [|discriminate]. cbn [bind] in H.
    assert (Hd : Forall label_ok det).
    { unfold esc_details in D. assert (K : forall p q, bind (details_opening_seq e t ss) (fun o => Ok [mkSeg o TYPE_LABEL_DETAILS p q]) = Ok det -> Forall label_ok det).
      { intros p q E. destruct (details_opening_seq e t ss); [|discriminate]. cbn [bind] in E. injection E as <-. constructor; [apply inline_all; reflexivity|constructor]. }
      destruct (te_details e); try (now apply K in D); [injection D as <-; constructor|].
      destruct (brief_details_processed t ss); [|discriminate]. cbn [bind] in D. now apply K in D. }
    assert (Hs : forall o, Forall label_ok (mkSeg o (type_label (t_class t)) (firstn 1 raw) (process e t (firstn 1 raw)) :: det)).
    { intros o'. constructor; [apply type_label_ok|exact Hd]. }
    match type of H with Ok (if ?c then _ else _) = _ => destruct c end; injection H as <-; [|apply Hs].
    unfold wrap_in_separators. constructor; [constructor|]. apply Forall_app. split; [apply Hs|]. constructor; [constructor|constructor]. }
  destruct (t_kind t); try (injection H as <-; apply B); try (apply ES; exact H).
  destruct (te_details e); try (now apply control_loop_labels in H); injection H as <-; (constructor; [apply type_label_ok|constructor]).
Qed.

Lemma match_trace_tidy s mg raw segs at_ : Forall label_ok segs -> tidy_ev (match_trace s mg raw segs at_).
Proof.
  intros H. apply dbg_at_tidy; [split; [cbn; tauto|auto]|]. apply tidy_app; [text|]. apply tidy_app.
  - apply tidy_plain. unfold rjust. apply Forall_app. split; [apply repeat_inline; easy|apply dec_inline].
  - apply tidy_app; [text|]. destruct H as [|g l Hg Hl]; [apply tidy_nil|]. apply tidy_app; [now apply segment_trace_tidy|now apply more_segments_tidy].
Qed.
Lemma scan_trace_tidy s e evs : forall ss at_, Forall tidy_ev (scan_trace s e evs ss at_).
Proof.
  induction evs as [|ev evs IH]; intros ss at_; [constructor|]. cbn [scan_trace]. destruct ev as [b|g w]; [apply IH|].
  destruct (handle_match e g ss) as [[segs ss1]|x] eqn:H; [|constructor]. constructor; [|apply IH].
  apply match_trace_tidy. unfold handle_match in H. destruct (primary_mgroup g) as [mg|]; [|discriminate]. cbv zeta in H.
  destruct (resolve_match g mg ss) as [[t ss']|x]; [|discriminate]. cbn [bind] in H.
  match type of H with bind ?r _ = _ => destruct r as [segs'|x] eqn:E; [|discriminate] end. cbn [bind] in H. injection H as <- <-.
  eapply substitute_labels; exact E.
Qed.
Ltac named := split; [cbn [In]; tauto|auto].

Lemma crop_trace_tidy s : Forall tidy_ev (crop_trace s).
Proof.
  constructor; [|constructor; [|constructor]].
  - apply dbg_tidy; [named|text].
  - apply dbg_tidy; [named|]. apply tidy_app; [text|apply printd_tidy].
Qed.
Lemma parse_trace_tidy s e p sb ss off : Forall tidy_ev (parse_trace s e p sb ss off).
Proof.
  unfold parse_trace. constructor.
  - apply dbg_tidy; [named|]. apply tidy_app; [text|apply printd_tidy].
  - apply Forall_app. split; [apply scan_trace_tidy|]. destruct (parse e p sb ss); [apply crop_trace_tidy|constructor].
Qed.
Lemma append_trace_tidy s p raw fin : Forall tidy_ev (append_trace s p raw fin).
Proof.
  unfold append_trace. apply Forall_app. split; [constructor; [|constructor; [|constructor]]|].
  - apply dbg_tidy; [named|]. apply tidy_app; [text|]. apply tidy_app; [apply bold_num_tidy|text].
  - apply dbg_tidy; [named|]. apply tidy_app; [text|apply printd_tidy].
  - destruct fin; [|constructor]. constructor; [|constructor]. apply dbg_tidy; [named|text].
Qed.

(** ** what the segment buffer and the formatters say *)
Lemma buffer_state_tidy s b : tidy_ev (buffer_state s b).
Proof. apply dbg_tidy; [named|]. apply tidy_app; [text|apply preview_tidy]. Qed.
Lemma detach_trace_tidy s b req : Forall tidy_ev (detach_trace s b req).
Proof.
  unfold detach_trace. constructor; [apply buffer_state_tidy|]. destruct (sb_chain b); [constructor|].
  destruct (detach b req) as [[out|x] b']; [|constructor]. constructor; [|constructor; [apply buffer_state_tidy|constructor]].
  apply dbg_tidy; [named|]. apply tidy_app; [text|]. apply tidy_app; [apply bold_num_tidy|text].
Qed.
Lemma detach_bytes_trace_tidy s b req force : Forall tidy_ev (detach_bytes_trace s b req force).
Proof.
  unfold detach_bytes_trace. destruct (_ || _)%bool.
  - apply Forall_app. split; [apply detach_trace_tidy|]. destruct (detach b req) as [[[|x l]|y] b']; try constructor; [|constructor; [apply buffer_state_tidy|constructor]].
    apply dbg_tidy; [named|text].
  - constructor; [apply dbg_tidy; [named|text]|]. constructor; [apply buffer_state_tidy|constructor].
Qed.
Lemma detach_line_trace_tidy s b force : Forall tidy_ev (detach_line_trace s b force).
Proof.
  unfold detach_line_trace. destruct (line_scan (sb_chain b)) as [n nl]. destruct (n =? 0)%Z.
  - constructor; [apply dbg_tidy; [named|text]|]. constructor; [apply buffer_state_tidy|constructor].
  - destruct (_ || _)%bool; [apply detach_trace_tidy|].
    constructor; [apply dbg_tidy; [named|text]|]. constructor; [apply buffer_state_tidy|constructor].
Qed.

Lemma safe_of_spec b : safe_of b = safe_sign b.
Proof.
  unfold safe_of, safe_sign, between. cbv zeta. destruct (N.ltb_spec b 128) as [H|H].
  - destruct ((9 <=? b) && (b <=? 13) || (b =? 32)); [reflexivity|]. now destruct ((33 <=? b) && (b <=? 126)).
  - cbn. destruct (N.leb_spec 9 b), (N.leb_spec b 13), (N.eqb_spec b 32), (N.leb_spec 33 b), (N.leb_spec b 126); cbn; try lia; reflexivity.
Qed.
Lemma safe_sign_inline b : inline (safe_sign b).
Proof.
  unfold safe_sign. destruct (_ || _)%bool; [easy|]. destruct (between 33 b 126) eqn:E; [|easy]. apply between_spec in E. apply inline_ascii. lia.
Qed.
Lemma safe_inline g : Forall inline (seg_raw_to_safe g).
Proof. unfold seg_raw_to_safe. apply Forall_forall. intros x Hx. apply in_map_iff in Hx as (y & <- & _). rewrite safe_of_spec. apply safe_sign_inline. Qed.
Lemma raw_hex_inline g : Forall inline (seg_raw_to_hex g).
Proof.
  unfold seg_raw_to_hex. induction (seg_raw g) as [|b l IH]; [constructor|]. cbn [flat_map]. apply Forall_app. split; [|exact IH].
  constructor; [easy|apply hex_inline].
Qed.
Lemma hidden_inline fn els : (forall g, Forall inline (fn g)) -> Forall inline (format_hidden fn els).
Proof.
  intros H. unfold format_hidden. induction els as [|e els IH]; [constructor|]. cbn [flat_map]. apply Forall_app. split; [|exact IH].
  destruct e; try constructor. apply H.
Qed.
Lemma encoded_inline fn els : (forall g, Forall inline (fn g)) -> Forall inline (format_encoded fn els).
Proof.
  intros H. unfold format_encoded. induction els as [|e els IH]; [constructor|]. cbn [flat_map]. apply Forall_app. split; [|exact IH].
  destruct e; try apply preview_assemble. apply H.
Qed.
Lemma separator_tidy s : tidy attrs0 (get_separator s).
Proof. unfold get_separator. destruct (0 <? s_debug s)%nat; (apply tidy_span; [reflexivity|apply tidy_plain, inline_all; reflexivity]). Qed.
Lemma binary_debug_row_tidy s cols dl els : tidy attrs0 (binary_debug_row s cols dl els).
Proof.
  unfold binary_debug_row. apply tidy_app; [apply tidy_plain, hidden_inline, raw_hex_inline|]. apply tidy_app.
  - apply tidy_plain. unfold justify_raw. induction (seq 0 _) as [|x l IH]; [constructor|]. cbn [flat_map app]. repeat (constructor; [easy|]). exact IH.
  - apply tidy_app; [text|]. apply tidy_app; [destruct (effective_print_offsets s); [apply separator_tidy|text]|].
    apply tidy_plain, hidden_inline, safe_inline.
Qed.

Lemma separator_line_tidy s columns c : inline c -> tidy attrs0 (separator_line s columns c).
Proof.
  intros H. unfold separator_line. cbv zeta.
  assert (K : forall o, sgr_apply (closing_seq [c_BG_BLACK]) (sgr_apply [c_BG_BLACK] (sgr_apply o attrs0)) = sgr_apply o attrs0 ->
    sgr_apply (closing_seq o) (sgr_apply o attrs0) = attrs0 ->
    forall n, tidy attrs0 (span_wrap o ((span_wrap [c_BG_BLACK] (repeat 0x2500 MAIN_PREFIX_LEN) ++ [c]) ++ repeat 0x2500 n))).
  { intros o E1 E2 n. apply tidy_span; [exact E2|]. apply tidy_app; [apply tidy_app|].
    - apply tidy_span; [exact E1|]. apply tidy_plain, repeat_inline. easy.
    - apply tidy_plain. constructor; [exact H|constructor].
    - apply tidy_plain, repeat_inline. easy. }
  destruct (0 <? s_debug s)%nat; apply K; reflexivity.
Qed.

(** a complete message does nothing to the terminal *)
Lemma tidy_harmless l t : tidy_ev (TDbg l t) -> harmless_line t.
Proof.
  intros (_ & m & -> & v & cs & P & <- & F).
  assert (Q : Painted attrs0 (m ++ [10]) attrs0 (cs ++ [Glyph 10 attrs0])).
  { eapply Painted_app; [exact P|]. change [Glyph 10 attrs0] with (map to_cell (styled attrs0 [10])). apply Painted_plain. repeat constructor. easy. }
  split; [|split].
  - unfold clean. rewrite (Painted_screen _ _ _ Q), forallb_app. cbn [forallb is_leak negb andb]. rewrite andb_true_r.
    clear Q. revert F. induction P as [a|a p s a' cs P IH|a c s a' cs Hc P IH]; intros F; [reflexivity|auto|].
    cbn [map] in F. rewrite to_cell_char in F. inversion F as [|x l0 [D _] F0]; subst. cbn [forallb]. rewrite (IH F0).
    unfold to_cell. cbn [fst]. now rewrite D.
  - now apply Painted_final in Q.
  - exists (map cell_char cs). rewrite (Painted_visible _ _ _ Q), map_app. split; [reflexivity|].
    intros I. rewrite Forall_forall in F. destruct (F _ I) as [_ []]. reflexivity.
Qed.
