(** Processing one chunk: parser, templates, buffer and formatter together *)
From Coq Require Import List Arith NArith ZArith Bool Lia.
From Verif.Model Require Import Base Ansi Strip Settings Segment Template Parser Console Formatter Reader Runner.
From Verif.Spec Require Import Numbers Terminal Sgr Lexical SgrParams Display Output.
From Verif.Proof Require Import BaseFacts TermFacts ClosingFacts LexFacts TokFacts PaintFacts DisplayFacts BinDisplay TextDisplay BufFacts BufHistory ConsoleFacts TextFormat BinFormat.
Import ListNotations.
Local Open Scope N_scope.

(** ** the settings after the read mode has been resolved *)
Definition resolved (s : settings) : settings := snd (get_read_mode s).

Lemma resolved_columns s : s_columns (resolved s) = s_columns s.
Proof. destruct s as [[] [] ? ? ? ? ? ? ? ? ? ? ? ? ? ? ? ? ? ? ?]; reflexivity. Qed.
Lemma resolved_console s :
  (forall off, format_prefix_with_offset (resolved s) off = format_prefix_with_offset s off) /\
  effective_print_offsets (resolved s) = effective_print_offsets s /\
  (forall t n, write_with_line_num (resolved s) t n = write_with_line_num s t n) /\
  (forall t n, write_with_offset (resolved s) t n = write_with_offset s t n) /\
  get_separator (resolved s) = get_separator s /\
  (forall tc off, current_cols (resolved s) tc off = current_cols s tc off).
Proof. destruct s as [[] [] ? ? ? ? ? ? ? ? ? ? ? ? ? ? ? ? ? ? ?]; repeat split; reflexivity. Qed.
Lemma resolved_text_loop s fuel : forall closed sb ln w, text_loop fuel (resolved s) closed sb ln w = text_loop fuel s closed sb ln w.
Proof.
  destruct (resolved_console s) as (_ & _ & K & _).
  induction fuel as [|f IH]; intros closed sb ln w; [reflexivity|]. cbn [text_loop]. unfold text_line. destruct (detach_line sb closed) as [[els|x] sb']; [|reflexivity].
  rewrite K. apply IH.
Qed.
Lemma resolved_binary_loop s fuel : forall c r closed sb off w, binary_loop fuel (resolved s) c r closed sb off w = binary_loop fuel s c r closed sb off w.
Proof.
  destruct (resolved_console s) as (_ & K1 & _ & K2 & K3 & _).
  induction fuel as [|f IH]; intros c r closed sb off w; [reflexivity|]. cbn [binary_loop]. unfold binary_row. destruct (detach_bytes sb r closed) as [[els|x] sb']; [|reflexivity].
  rewrite K1, K2, K3. apply IH.
Qed.
Lemma resolved_format s rm tc p : format (resolved s) rm tc p = format s rm tc p.
Proof.
  destruct (resolved_console s) as (K0 & K1 & _ & _ & _ & K2). unfold format, text_format, binary_format, format_total_size.
  destruct rm; [|now rewrite resolved_text_loop]. rewrite K2, K1, resolved_binary_loop.
  destruct (binary_loop _ _ _ _ _ _ _ _) as [[[w sb] off]|x w|w]; try reflexivity. now rewrite K0.
Qed.
Lemma resolved_chunk s e tc p raw off fin : process_chunk (resolved s) e tc p raw off fin = process_chunk s e tc p raw off fin.
Proof. unfold process_chunk. destruct (parse e _ _ _) as [[[pb sb] ss]|x]; [apply resolved_format|reflexivity]. Qed.

(** ** which pieces have codes *)
Lemma csi_sort_sgr p f : csi_sort p f = C_sgr <-> f = 109 /\ p <> [] /\ p <> [48].
Proof.
  unfold csi_sort. destruct (N.eqb_spec f 109) as [->|Hf]; [|split; [discriminate|tauto]].
  destruct p as [|c [|d p]]; [split; [discriminate|tauto]| |].
  - destruct (N.eqb_spec c 48) as [->|Hc]; [split; [discriminate|tauto]|]. split; [|reflexivity]. intros _. repeat split; congruence.
  - split; [|reflexivity]. intros _. repeat split; discriminate.
Qed.
Lemma bad_tok_codes k : bad_tok k <-> ~ exists c, TokCodes k c.
Proof.
  destruct k as [n| |p i f| | | | | | |r]; cbn [bad_tok TokCodes]; try (split; [easy|intros H; apply H; eexists; reflexivity]).
  destruct (csi_sort p f) eqn:E.
  - split; [|intros H; exfalso; apply H; eexists; reflexivity]. intros (H1 & H2 & H3 & _).
    assert (csi_sort p f = C_sgr) by (apply csi_sort_sgr; auto). congruence.
  - apply csi_sort_sgr in E. tauto.
  - split; [|intros H; exfalso; apply H; eexists; reflexivity]. intros (H1 & H2 & H3 & _).
    assert (csi_sort p f = C_sgr) by (apply csi_sort_sgr; auto). congruence.
Qed.

Lemma codes_dec k : (exists c, TokCodes k c) \/ ~ exists c, TokCodes k c.
Proof.
  destruct k as [n| |p i f| | | | | | |r]; cbn [TokCodes]; try (left; eexists; reflexivity).
  destruct (csi_sort p f); try (left; eexists; reflexivity).
  destruct (parse_pcodes p) as [c|x] eqn:E; [left; exists c; now apply parse_pcodes_spec|right].
  intros [c Hc]. apply parse_pcodes_spec in Hc. congruence.
Qed.
Lemma coded_dec ts : (exists toks, Forall2 Coded ts toks) \/ ~ exists toks, Forall2 Coded ts toks.
Proof.
  induction ts as [|[k w] ts IH]; [left; exists []; constructor|].
  destruct (codes_dec k) as [[c Hc]|Hc].
  - destruct IH as [[toks H]|H]; [left; exists ((k, w, c) :: toks); now constructor|right]. intros [toks K]. inversion K; subst. eauto.
  - right. intros [toks K]. inversion K as [|x [[k' w'] c] l l' [E1 E2] HC']; subst. cbn in E1. injection E1 as <- <-. eauto.
Qed.

(** whether all pieces are fine, or else one of them makes the parser fail *)
Lemma toks_segs_coded e s ts toks : Lexes s ts -> Forall2 Coded ts toks -> exists segs, toks_segs e ts = Ok segs.
Proof.
  intros HL. revert toks. induction HL as [|k w rest ts HT HL IH]; intros toks HC; [eexists; reflexivity|].
  inversion HC as [|x [[k' w'] c] l l' [E1 E2] HC']; subst. cbn in E1. injection E1 as <- <-.
  destruct (IH _ HC') as [b Eb]. cbn [toks_segs]. destruct (tok_segs_result e k w rest HT) as [[B _]|[_ [a ->]]].
  - apply bad_tok_codes in B. exfalso. apply B. eexists. exact E2.
  - cbn [bind]. rewrite Eb. eexists. reflexivity.
Qed.
Lemma toks_segs_bad e s ts : Lexes s ts -> (~ exists toks, Forall2 Coded ts toks) -> toks_segs e ts = Err ValueError.
Proof.
  intros HL. induction HL as [|k w rest ts HT HL IH]; intros HN; [exfalso; apply HN; exists []; constructor|].
  cbn [toks_segs]. destruct (tok_segs_result e k w rest HT) as [[_ ->]|[NB [a ->]]]; [reflexivity|]. cbn [bind].
  rewrite IH; [reflexivity|]. intros [toks HC]. rewrite bad_tok_codes in NB.
  destruct (codes_dec k) as [[c Hc]|Hc]; [|exact (NB Hc)]. apply HN. exists ((k, w, c) :: toks). constructor; [split; [reflexivity|exact Hc]|exact HC].
Qed.

(** ** lines and rows of what has been received so far *)
Lemma done_app a b : done_lines false (a ++ b) = done_lines false a ++ done_lines false (rest_after false a ++ b).
Proof.
  remember (length a) as n eqn:Hn. revert a Hn. induction n as [n IH] using lt_wf_ind. intros a ->.
  destruct (split_tokens a) as [H|(x & t & y & -> & H & Ht)].
  - rewrite rest_none by exact H. unfold done_lines at 2. rewrite (token_lines_none a H).
    destruct a as [|z a]; [reflexivity|]. cbn [filter]. now rewrite (terminated_none _ H).
  - rewrite rest_break by exact Ht. rewrite <- app_assoc. cbn [app]. unfold done_lines at 1 2. rewrite !token_lines_break by assumption. cbn [filter].
    rewrite (terminated_break x t Ht). cbn [app]. f_equal. apply (IH (length y)); [|reflexivity]. rewrite app_length. cbn [length]. lia.
Qed.
Lemma rest_app a b : rest_after false (a ++ b) = rest_after false (rest_after false a ++ b).
Proof.
  remember (length a) as n eqn:Hn. revert a Hn. induction n as [n IH] using lt_wf_ind. intros a ->.
  destruct (split_tokens a) as [H|(x & t & y & -> & H & Ht)].
  - now rewrite (rest_none a) by exact H.
  - rewrite rest_break by exact Ht. rewrite <- app_assoc. cbn [app]. rewrite rest_break by exact Ht.
    apply (IH (length y)); [|reflexivity]. rewrite app_length. cbn [length]. lia.
Qed.
Lemma lines_app a b : token_lines (a ++ b) = done_lines false a ++ token_lines (rest_after false a ++ b).
Proof.
  remember (length a) as n eqn:Hn. revert a Hn. induction n as [n IH] using lt_wf_ind. intros a ->.
  destruct (split_tokens a) as [H|(x & t & y & -> & H & Ht)].
  - rewrite rest_none by exact H. unfold done_lines. rewrite (token_lines_none a H).
    destruct a as [|z a]; [reflexivity|]. cbn [filter]. now rewrite (terminated_none _ H).
  - rewrite rest_break by exact Ht. rewrite <- app_assoc. cbn [app]. unfold done_lines. rewrite !token_lines_break by assumption. cbn [filter].
    rewrite (terminated_break x t Ht). cbn [app]. f_equal. apply (IH (length y)); [|reflexivity]. rewrite app_length. cbn [length]. lia.
Qed.
Lemma numbered_app s n a b : numbered s n (a ++ b) = numbered s n a ++ numbered s (n + N.of_nat (length a)) b.
Proof.
  revert n. induction a as [|l a IH]; intros n; cbn [app numbered length]; [now rewrite N.add_0_r|].
  rewrite IH. do 3 f_equal. lia.
Qed.
Lemma coded_byteful s ts toks : Lexes s ts -> Forall2 Coded ts toks -> Forall byteful toks.
Proof.
  intros HL. revert toks. induction HL as [|k w rest ts HT HL IH]; intros toks HC; inversion HC as [|x [[k' w'] c] l l' [E1 E2] HC']; subst; constructor; auto.
  cbn in E1. injection E1 as <- <-. unfold byteful. cbn. eapply token_nonempty. exact HT.
Qed.
Lemma rest_byteful c ts : Forall byteful ts -> Forall byteful (rest_after c ts).
Proof.
  destruct c; [constructor|]. induction 1 as [|t ts Ht H IH]; [constructor|]. unfold rest_after in *.
  destruct (existsb is_line_break (t :: ts)); [exact IH|]. now constructor.
Qed.

(** ** text mode *)
Definition TState (s : settings) (p : proc) (ts : list token) : Prop :=
  pb_raw (pr_pb p) = [] /\ Forall byteful ts /\
  (exists gs, Forall2 (Group s) (rest_after false ts) gs /\ Rep (pr_sb p) (concat gs)) /\
  pr_line p = 1 + N.of_nat (length (done_lines false ts)) /\
  Rows (pr_out p) (text_rows_so_far s ts).

Lemma tstate_init s : TState s proc_init [].
Proof. repeat split; try constructor; try apply Rows_nil. exists []. split; [constructor|apply Rep_init]. Qed.

Lemma loop_fuel_segs sb segs : Rep sb segs -> (length segs < loop_fuel sb)%nat /\ (length (raw_of segs) < loop_fuel sb)%nat.
Proof.
  intros H. unfold loop_fuel. pose proof (Rep_chain sb segs H). rewrite (Rep_len sb segs H). unfold zlen. lia.
Qed.

Lemma text_chunk s e tc p ts raw off fin lx toks :
  Env s e -> binary_mode s = false -> TState s p ts -> is_bytes raw -> Lexes raw lx -> Forall2 Coded lx toks ->
  exists p', process_chunk s e tc p raw off fin = (p', CbOk) /\
    (if fin then Rows (pr_out p') (text_rows s (ts ++ toks))
     else TState s p' (ts ++ toks)).
Proof.
  intros E B (H1 & HB & (gs & H2 & H3) & H4 & H5) Hb HL HC.
  destruct (toks_segs_coded e raw lx toks HL HC) as [segs HS].
  destruct (toks_groups s e lx toks segs E B (lexes_tokens raw lx HL) HC HS) as (gs2 & G1 & ->).
  unfold process_chunk. pose proof (parse_toks e (append_raw (pr_pb p) raw fin) (pr_sb p) (pr_ss p) lx) as PT.
  unfold append_raw in PT at 1 2. cbn [pb_raw] in PT. rewrite H1 in PT. cbn [app] in PT. specialize (PT Hb HL). rewrite HS in PT. destruct PT as [ss' ->].
  unfold format. rewrite (env_read s e E), B. cbn [pr_sb pr_pb pb_closed append_raw pr_line pr_offset pr_ss pr_out].
  pose proof (Rep_attach _ _ (concat gs2) H3) as HR. rewrite <- concat_app in HR.
  assert (HG : Forall2 (Group s) (rest_after false ts ++ toks) (gs ++ gs2)) by now apply Forall2_app.
  assert (HBB : Forall byteful (rest_after false ts ++ toks)) by (apply Forall_app; split; [now apply rest_byteful|now apply (coded_byteful raw lx)]).
  assert (HF : (length (rest_after false ts ++ toks) < loop_fuel (attach (pr_sb p) (concat gs2)))%nat).
  { pose proof (groups_chain s _ _ HG). destruct (loop_fuel_segs _ _ HR). lia. }
  unfold text_format.
  destruct (text_loop_spec s _ _ fin _ (pr_line p) [] _ HG HBB HR HF) as (out & sb' & gs' & extra & T1 & T2 & T3 & T4 & T5 & T6).
  rewrite T1. eexists. split; [reflexivity|]. cbn [pr_out app]. rewrite H4 in *.
  destruct fin.
  - unfold text_rows. rewrite (lines_app ts toks), numbered_app. apply Rows_app; [exact H5|exact T2].
  - split; [reflexivity|]. split; [apply Forall_app; split; [exact HB|now apply (coded_byteful raw lx)]|]. cbn [pr_sb pr_line pr_out]. split; [|split].
    + exists gs'. rewrite rest_app. split; [exact T3|]. rewrite T5, app_nil_r in T4 by reflexivity. exact T4.
    + rewrite (done_app ts toks), app_length. lia.
    + unfold text_rows_so_far. change (filter terminated (token_lines (ts ++ toks))) with (done_lines false (ts ++ toks)).
      rewrite (done_app ts toks), numbered_app. apply Rows_app; [exact H5|exact T2].
Qed.

(** ** binary mode *)
Definition BState (s : settings) (c : nat) (p : proc) (l : list bcell) : Prop :=
  pb_raw (pr_pb p) = [] /\
  (exists segs, Forall good_bin segs /\ Rep (pr_sb p) segs /\ cells3 segs = skipn (whole false c l) l) /\
  pr_offset p = N.of_nat (whole false c l) /\
  Rows (pr_out p) (binary_rows_so_far s c l).

Lemma bstate_init s c : (0 < c)%nat -> BState s c proc_init [].
Proof.
  intros Hc. unfold BState, whole. cbn [length]. rewrite Nat.div_0_l by lia. cbn [Nat.mul firstn skipn].
  split; [reflexivity|]. split; [|split; [reflexivity|]].
  - exists []. split; [constructor|split; [apply Rep_init|reflexivity]].
  - unfold binary_rows_so_far. cbn [length]. rewrite Nat.div_0_l by lia. apply Rows_nil.
Qed.

Lemma toks_bin s e ts toks segs : Env s e -> binary_mode s = true ->
  Forall (fun t => exists rest, Token (fst t) (snd t) rest) ts -> Forall2 Coded ts toks -> toks_segs e ts = Ok segs ->
  Forall good_bin segs /\ cells3 segs = byte_cells s toks.
Proof.
  intros E B HT HC. revert segs. induction HC as [|[k w] [[k' w'] c] ts toks [H1 H2] HC IH]; intros segs HS; cbn [toks_segs] in HS.
  - injection HS as <-. split; [constructor|reflexivity].
  - cbn in H1. injection H1 as <- <-. inversion HT as [|x l [rest Hx] HT']; subst. cbn [fst snd] in Hx.
    destruct (tok_segs e k w) as [a|] eqn:Ha; [|discriminate]. cbn [bind] in HS.
    destruct (toks_segs e ts) as [b|]; [|discriminate]. injection HS as <-.
    destruct (IH HT' b eq_refl) as [I1 I2]. destruct (bin_tok s e k w rest a c E B Hx Ha H2) as [J1 J2].
    split; [now apply Forall_app|]. unfold cells3. rewrite flat_map_app. cbn [byte_cells flat_map]. f_equal; [exact J2|exact I2].
Qed.

Lemma whole_app {A} c (a b : list A) : (0 < c)%nat -> whole false c (a ++ b) = (whole false c a + whole false c (skipn (whole false c a) a ++ b))%nat.
Proof.
  intros Hc. unfold whole. rewrite !app_length, skipn_length. set (n := length a). set (m := length b).
  pose proof (Nat.mul_div_le n c ltac:(lia)). rewrite <- Nat.mul_add_distr_r. f_equal.
  replace (n + m)%nat with ((n - n / c * c + m) + (n / c) * c)%nat by lia. rewrite Nat.div_add by lia. lia.
Qed.
Lemma split_whole {A} c (a b : list A) k : (0 < c)%nat -> k = whole false c (skipn (whole false c a) a ++ b) ->
  firstn (whole false c a + k) (a ++ b) = firstn (whole false c a) a ++ firstn k (skipn (whole false c a) a ++ b).
Proof.
  intros Hc _. pose proof (whole_le false c a Hc). set (m := whole false c a) in *.
  rewrite <- (firstn_skipn m a) at 1. rewrite <- app_assoc.
  replace (m + k)%nat with (length (firstn m a) + k)%nat by (rewrite firstn_length; lia). now rewrite firstn_app_2.
Qed.
Lemma whole_multiple {A} c (a : list A) : (0 < c)%nat -> length (firstn (whole false c a) a) = (length a / c * c)%nat.
Proof. intros Hc. rewrite firstn_length. pose proof (whole_le false c a Hc). unfold whole in *. lia. Qed.

Lemma binary_chunk s e tc c p l raw off fin lx toks :
  Env s e -> binary_mode s = true -> columns s tc = Z.of_nat c -> (0 < c)%nat ->
  BState s c p l -> is_bytes raw -> Lexes raw lx -> Forall2 Coded lx toks ->
  exists p', process_chunk s e tc p raw off fin = (p', CbOk) /\
    (if fin then Rows (pr_out p') (binary_rows s c (l ++ byte_cells s toks))
     else BState s c p' (l ++ byte_cells s toks)).
Proof.
  intros E B HCols Hc (H1 & (segs & H2 & H3 & H4) & H5 & H6) Hb HL HC.
  destruct (toks_segs_coded e raw lx toks HL HC) as [more HS].
  destruct (toks_bin s e lx toks more E B (lexes_tokens raw lx HL) HC HS) as (G1 & G2).
  unfold process_chunk. pose proof (parse_toks e (append_raw (pr_pb p) raw fin) (pr_sb p) (pr_ss p) lx) as PT.
  unfold append_raw in PT at 1 2. cbn [pb_raw] in PT. rewrite H1 in PT. cbn [app] in PT. specialize (PT Hb HL). rewrite HS in PT. destruct PT as [ss' ->].
  unfold format. rewrite (env_read s e E), B. cbn [pr_sb pr_pb pb_closed append_raw pr_line pr_offset pr_ss pr_out].
  pose proof (Rep_attach _ _ more H3) as HR.
  assert (HG : Forall good_bin (segs ++ more)) by now apply Forall_app.
  assert (HC3 : cells3 (segs ++ more) = skipn (whole false c l) l ++ byte_cells s toks) by (unfold cells3; rewrite flat_map_app; f_equal; assumption).
  assert (HF : (length (cells3 (segs ++ more)) < loop_fuel (attach (pr_sb p) more))%nat).
  { rewrite (cells3_all_length _ HG). now apply loop_fuel_segs. }
  destruct (binary_format_spec s tc c fin _ _ (pr_offset p) _ HCols Hc HG HR HF) as (out & sb' & segs' & T1 & T2 & T3 & T4 & T5).
  rewrite T1. eexists. split; [reflexivity|]. cbn [pr_out]. rewrite H5 in *. rewrite HC3 in *. clear HC3 HF.
  set (new := byte_cells s toks) in *. set (m := whole false c l) in *.
  pose proof (whole_le false c l Hc) as WL. fold m in WL.
  assert (LL : length l = (m + length (skipn m l))%nat) by (rewrite skipn_length; lia).
  pose proof (whole_multiple c l Hc) as WM. fold m in WM.
  destruct fin.
  - unfold binary_rows, rows_part in *. cbn [whole] in T2. rewrite firstn_all in T2.
    replace (l ++ new) with (firstn m l ++ skipn m l ++ new) by (rewrite app_assoc, firstn_skipn; reflexivity).
    rewrite (groups_app c _ _ _ Hc WM), rows_cells_app, groups_concat by exact Hc. rewrite <- app_assoc.
    apply Rows_app; [exact H6|]. rewrite N.add_0_l, firstn_length, Nat.min_l by lia.
    replace (N.of_nat (length (firstn m l ++ skipn m l ++ new))) with (N.of_nat m + N.of_nat (length (skipn m l ++ new))); [exact T2|].
    rewrite (app_length (firstn m l)), firstn_length. lia.
  - unfold BState. cbn [pr_pb pb_raw pr_sb pr_offset pr_out]. rewrite (whole_app c l new Hc). fold m. set (k := whole false c (skipn m l ++ new)) in *.
    split; [reflexivity|]. split; [|split].
    + exists segs'. split; [exact T3|split; [exact T4|]]. rewrite T5. replace (l ++ new) with (firstn m l ++ skipn m l ++ new) by (rewrite app_assoc, firstn_skipn; reflexivity).
      rewrite <- skipn_add. f_equal. rewrite skipn_app, firstn_length, Nat.min_l by lia. rewrite (skipn_all2 (firstn m l)) by (rewrite firstn_length; lia).
      now rewrite Nat.sub_diag.
    + lia.
    + pose proof (split_whole c l new k Hc eq_refl) as SW. fold m in SW. unfold binary_rows_so_far. change (length (l ++ new) / c * c)%nat with (whole false c (l ++ new)). rewrite (whole_app c l new Hc). fold m k.
      rewrite SW. rewrite (groups_app c _ _ _ Hc WM), rows_cells_app, groups_concat by exact Hc.
      apply Rows_app; [exact H6|]. rewrite N.add_0_l, firstn_length, Nat.min_l by lia.
      unfold rows_part in T2. rewrite app_nil_r in T2. exact T2.
Qed.

(** ** a chunk that cannot be processed *)
Lemma bad_chunk s e tc p raw off fin lx :
  pb_raw (pr_pb p) = [] -> is_bytes raw -> Lexes raw lx -> (~ exists toks, Forall2 Coded lx toks) ->
  exists p', process_chunk s e tc p raw off fin = (p', CbErr ValueError) /\ pr_out p' = pr_out p.
Proof.
  intros H1 Hb HL HN. unfold process_chunk. pose proof (parse_toks e (append_raw (pr_pb p) raw fin) (pr_sb p) (pr_ss p) lx) as PT.
  unfold append_raw in PT at 1 2. cbn [pb_raw] in PT. rewrite H1 in PT. cbn [app] in PT. specialize (PT Hb HL).
  rewrite (toks_segs_bad e raw lx HL HN) in PT. rewrite PT. eexists. split; reflexivity.
Qed.
