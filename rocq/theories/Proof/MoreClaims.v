(** C26, C33, C36: unusual numbers of columns, interruption, limited lines *)
From Coq Require Import List Arith NArith ZArith Bool Lia.
From Verif.Model Require Import Base Ansi Regex Settings Segment Template Parser Console Formatter Reader Runner.
From Verif.Spec Require Import Numbers Terminal Utf8 Lexical SgrParams Display Output Input Dump Fragments Compare.
From Verif.Proof Require Import BaseFacts RegexFacts TermFacts ClosingFacts LexFacts TokFacts PaintFacts DisplayFacts BinDisplay TextDisplay BufFacts BufHistory ConsoleFacts TextFormat BinFormat RunFacts ReaderFacts RunMain LexClaims RunClaims BinClaims TextClaims.
Import ListNotations.
Local Open Scope N_scope.

(** ** C26 *)
(** no columns: nothing is taken from the buffer *)
Lemma bytes_zero sb segs force : sb_active sb = [] -> sb_chain sb = flat_map attach_elems segs ->
  exists sb', detach_bytes sb 0 force = (Err EOFError, sb') /\ sb_active sb' = [] /\ sb_chain sb' = flat_map attach_elems segs.
Proof.
  intros Ha Hc. assert (HR : Rep sb segs) by (left; auto). unfold detach_bytes.
  assert (0 <=? chain_len (sb_chain sb) = true)%Z as ->.
  { apply Z.leb_le. rewrite (Rep_len sb segs HR). apply zlen_nonneg. }
  cbn [orb]. unfold detach. destruct segs as [|g t].
  - rewrite Hc. cbn [flat_map]. exists sb. auto.
  - assert (E : detach_loop (flat_map attach_elems (g :: t)) 0 [] = mkD [] (flat_map attach_elems (g :: t)) [] None).
    { cbn [flat_map]. unfold attach_elems at 1 3. destruct (no_formatting (seg_open g)); reflexivity. }
    assert (NE : exists e c, sb_chain sb = e :: c).
    { rewrite Hc. cbn [flat_map]. unfold attach_elems. destruct (no_formatting (seg_open g)); cbn; eauto. }
    destruct NE as (e0 & c0 & NE). rewrite NE, <- NE, Hc, Ha, E. cbn. eexists. split; [reflexivity|]. auto.
Qed.
Lemma format_zero s tc closed sb segs off fuel : columns s tc = 0%Z -> sb_active sb = [] -> sb_chain sb = flat_map attach_elems segs -> (0 < fuel)%nat ->
  exists out sb', binary_format fuel s tc closed sb off = Fin (out, sb', off) /\ sb_active sb' = [] /\ sb_chain sb' = flat_map attach_elems segs /\
    Rows out (if closed then total_cells s off else []).
Proof.
  intros HC Ha Hc Hf. unfold binary_format. rewrite current_cols_spec, HC, with_offsets_spec.
  replace (if closed then Z.min (chain_len (sb_chain sb)) 0 else 0)%Z with 0%Z.
  2: { destruct closed; [|reflexivity]. assert (HR : Rep sb segs) by (left; auto). rewrite (Rep_len sb segs HR). pose proof (zlen_nonneg (raw_of segs)). lia. }
  destruct fuel as [|fuel]; [lia|]. cbn [binary_loop]. destruct (bytes_zero sb segs closed Ha Hc) as (sb' & -> & H1 & H2).
  unfold total_cells. destruct closed; cbn [andb]; [|eexists; eexists; split; [reflexivity|]; repeat split; auto; apply Rows_nil].
  destruct (with_offsets s) eqn:WO; [|eexists; eexists; split; [reflexivity|]; repeat split; auto; apply Rows_nil].
  eexists; eexists; split; [reflexivity|]; repeat split; auto. rewrite app_nil_l. apply Rows_one. unfold write, format_total_size. rewrite app_assoc, map_app. eapply Painted_app.
  - apply prefix_painted; try reflexivity. solve_good.
  - apply Pt_chr; [easy|constructor].
Qed.
Definition ZState (p : proc) (ts : list token) : Prop :=
  pb_raw (pr_pb p) = [] /\ sb_active (pr_sb p) = [] /\ (exists segs, sb_chain (pr_sb p) = flat_map attach_elems segs) /\ pr_offset p = 0 /\ Rows (pr_out p) [].
Lemma zero_chunk s tc p ts raw off fin lx toks : binary_mode s = true -> columns s tc = 0%Z -> ZState p ts -> is_bytes raw -> Lexes raw lx -> Forall2 Coded lx toks ->
  exists p', process_chunk s (update_settings s) tc p raw off fin = (p', CbOk) /\
    if fin then Rows (pr_out p') (total_cells s 0) else ZState p' (ts ++ toks).
Proof.
  intros B HC (H1 & H2 & (segs & H3) & H4 & H5) Hb HL HT. pose proof (env_of s) as E.
  destruct (toks_segs_coded (update_settings s) raw lx toks HL HT) as [more HS].
  unfold process_chunk. pose proof (parse_toks (update_settings s) (append_raw (pr_pb p) raw fin) (pr_sb p) (pr_ss p) lx) as PT.
  unfold append_raw in PT at 1 2. cbn [pb_raw] in PT. rewrite H1 in PT. cbn [app] in PT. specialize (PT Hb HL). rewrite HS in PT. destruct PT as [ss' ->].
  unfold format. rewrite (env_read s _ E), B. cbn [pr_sb pr_pb pb_closed append_raw pr_line pr_offset pr_ss pr_out].
  destruct (format_zero s tc fin (attach (pr_sb p) more) (segs ++ more) (pr_offset p) (loop_fuel (attach (pr_sb p) more)) HC) as (out & sb' & T1 & T2 & T3 & T4).
  - exact H2.
  - unfold attach. cbn [sb_chain]. now rewrite H3, flat_map_app.
  - unfold loop_fuel. lia.
  - rewrite T1. eexists. split; [reflexivity|]. rewrite H4 in *. destruct fin.
    + cbn [pr_out]. now apply (Rows_app (pr_out p) [] out).
    + unfold ZState. cbn [pr_pb pb_raw pr_sb pr_offset pr_out]. repeat split; auto; [eauto|]. now apply (Rows_app (pr_out p) [] out []).
Qed.
Lemma zero_run_result s tc src : opens src -> binary_mode s = true -> columns s tc = 0%Z -> forall evs d,
    Forall is_bytes (provided evs) -> Limited (s_max_bytes s) (s_max_lines s) (concat (provided evs)) d ->
    exists p acts en, byteio_run s tc src evs = (p, acts, en) /\
      Result (fun _ => []) (fun _ => total_cells s 0) evs (first_bytes (length d) (provided evs)) (Stops (s_max_bytes s) (s_max_lines s) (concat (provided evs))) p en.
Proof.
  intros H B HC. apply (run_result s tc src H ZState).
  - repeat split; try apply Rows_nil. exists []. reflexivity.
  - intros p ts K. apply K.
  - intros p ts K. apply K.
  - intros p ts raw off fin lx toks K1 K2 K3 K4. now apply (zero_chunk s tc p ts raw off fin lx toks).
Qed.
Lemma zero_eof s tc src evs chunks toks : opens src -> binary_mode s = true -> columns s tc = 0%Z -> Processed s evs chunks -> Finishes s evs -> Tokens chunks toks ->
  exists p acts, byteio_run s tc src evs = (p, acts, REnd) /\ displays (pr_out p) (total_cells s 0).
Proof. intros H B HC. exact (both_eof s tc src _ _ (zero_run_result s tc src H B HC) evs chunks toks). Qed.

(** a negative number of columns: the loop does not end *)
Lemma negative_step sb segs n force : (n < 0)%Z -> Rep sb segs -> segs <> [] -> Forall consistent segs ->
  exists els sb' segs', detach_bytes sb n force = (Ok els, sb') /\ Rep sb' segs' /\ segs' <> [] /\ Forall consistent segs'.
Proof.
  intros Hn HR Hs HC. unfold detach_bytes.
  assert (n <=? chain_len (sb_chain sb) = true)%Z as ->.
  { apply Z.leb_le. rewrite (Rep_len sb segs HR). pose proof (zlen_nonneg (raw_of segs)). lia. }
  cbn [orb]. pose proof (detach_spec sb segs n (fun _ => []) HR ltac:(lia)) as D. destruct (cut_consistent n segs HC) as (p & r & EC & _ & _ & Cr & _).
  rewrite EC in D. destruct D as (out & b' & D1 & D2 & _ & _ & _ & D6). rewrite D1. exists out, b', r.
  split; [destruct out; [now exfalso; apply D6|reflexivity]|]. split; [exact D2|]. split; [|exact Cr].
  intros ->. destruct segs as [|g t]; [easy|]. cbn [cut] in EC. destruct (Z.eqb_spec n 0); [lia|]. unfold data_len in EC. destruct (Z.leb_spec (zlen (seg_raw g)) n) as [L|L]; [pose proof (zlen_nonneg (seg_raw g)); lia|].
  destruct (seg_split g n) as [[a b]|]; cbn [bind] in EC; discriminate.
Qed.
Lemma negative_loop s cols req closed : (req < 0)%Z -> forall fuel sb segs off w, Rep sb segs -> segs <> [] -> Forall consistent segs ->
  exists out, binary_loop fuel s cols req closed sb off w = NoFuel out.
Proof.
  intros Hr. induction fuel as [|fuel IH]; intros sb segs off w H1 H2 H3; [eexists; reflexivity|]. cbn [binary_loop].
  destruct (negative_step sb segs req closed Hr H1 H2 H3) as (els & sb' & segs' & -> & K1 & K2 & K3). eapply IH; eassumption.
Qed.
Lemma negative_format s tc closed sb segs off fuel : (columns s tc < 0)%Z -> Rep sb segs -> segs <> [] -> Forall consistent segs ->
  exists out, binary_format fuel s tc closed sb off = NoFuel out.
Proof.
  intros HC H1 H2 H3. unfold binary_format. rewrite current_cols_spec.
  destruct (negative_loop s (columns s tc) (if closed then Z.min (chain_len (sb_chain sb)) (columns s tc) else columns s tc) closed ltac:(destruct closed; lia) fuel sb segs off [] H1 H2 H3) as [out E].
  rewrite E. eexists. reflexivity.
Qed.
Lemma good_consistent segs : Forall good_bin segs -> Forall consistent segs.
Proof. intros H. eapply Forall_impl; [|exact H]. intros g (_ & _ & K & _). now symmetry. Qed.
Lemma negative_run s tc src c rest toks : opens src -> binary_mode s = true -> (columns s tc < 0)%Z -> no_limit (s_max_bytes s) -> no_limit (s_max_lines s) ->
  c <> [] -> is_bytes c -> Tokens [c] toks ->
  (exists p acts, byteio_run s tc src (RData c :: rest) = (p, acts, RHang)) /\
  exists sb, parse (update_settings s) (append_raw pbuf_init c false) sbuf_init sgr_state_init = Ok sb /\
    forall fuel, exists out, binary_format fuel s tc false (snd (fst sb)) 0 = NoFuel out.
Proof.
  intros HS B HC NB NL Hc Hb HT. pose proof (env_of s) as E.
  apply tokens_cons_inv in HT as (lx & t1 & t2 & HL & HT & _ & _).
  destruct (toks_segs_coded (update_settings s) c lx t1 HL HT) as [more HM].
  destruct (toks_bin s _ lx t1 more E B (lexes_tokens c lx HL) HT HM) as (G1 & G2).
  pose proof (parse_toks (update_settings s) (append_raw pbuf_init c false) sbuf_init sgr_state_init lx) as PT.
  unfold append_raw in PT at 1 2. cbn [pb_raw pbuf_init app] in PT. specialize (PT Hb HL). rewrite HM in PT. destruct PT as [ss' PT].
  assert (NM : more <> []).
  { intros ->. assert (BL : length (byte_cells s t1) = 0%nat) by (rewrite <- G2; reflexivity).
    destruct lx as [|[k w] lx]; [inversion HL; subst; easy|]. inversion HT as [|x t l l' [E1 E2] H']; subst. cbn [byte_cells flat_map] in BL. rewrite app_length in BL.
    inversion HL as [|k' w' r' ts' Tk]; subst.
    pose proof (binary_cells_bytes s (tok_kind t) (tok_bytes t) (tok_codes t)) as BB. destruct t as [[k' w'] cs]. cbn in E1. injection E1 as <- <-. cbn [tok_kind tok_bytes tok_codes fst snd] in *.
    pose proof (token_nonempty _ _ _ Tk) as NW. specialize (BB NW). apply (f_equal (@length N)) in BB. rewrite map_length in BB. destruct w; [easy|]. cbn [length] in BB. change (@length (N * N * attrs)) with (@length bcell) in BB. lia. }
  assert (HR : Rep (attach sbuf_init more) more) by (apply (Rep_attach _ [] more), Rep_init).
  assert (HF : forall fuel, exists out, binary_format fuel s tc false (attach sbuf_init more) 0 = NoFuel out).
  { intros fuel. eapply negative_format; eauto using good_consistent. }
  split; [|eexists; split; [exact PT|exact HF]].
  assert (PC : forall o, exists p', process_chunk s (update_settings s) tc proc_init c o false = (p', CbHang)).
  { intros o. unfold process_chunk, proc_init. cbn [pr_pb pr_sb pr_ss pr_offset pr_line pr_out]. rewrite PT. unfold format. rewrite (env_read s _ E), B.
    cbn [pr_sb pr_pb pb_closed append_raw pr_line pr_offset pr_ss pr_out]. destruct (HF (loop_fuel (attach sbuf_init more))) as [out ->]. eexists. reflexivity. }
  rewrite run_read. assert (RL : exists p acts, read_loop (process_chunk s (update_settings s) tc) (s_max_bytes s) (s_max_lines s) src (RData c :: rest) 0 0 proc_init = (p, acts, RHang)).
  { destruct c as [|b c]; [easy|]. cbn [read_loop]. rewrite (opens_tell src HS). unfold apply_max_lines. rewrite (limit_on_none _ NL), (limit_on_none _ NB). destruct (PC 0%Z) as [p' ->]. eauto. }
  destruct RL as (p & acts & RL). destruct HS as [->| ->]; unfold read; rewrite RL; cbn [pre]; eauto.
Qed.

(** ** C33 *)
Lemma chunk_grows s e tc p raw off fin : exists w, pr_out (fst (process_chunk s e tc p raw off fin)) = pr_out p ++ w.
Proof.
  unfold process_chunk. destruct (parse e _ _ _) as [[[pb sb] ss]|x]; [|exists []; symmetry; apply app_nil_r].
  unfold format. cbn [pr_pb pr_sb pr_ss pr_offset pr_line pr_out].
  destruct (te_read e); [destruct (binary_format _ _ _ _ _ _) as [[[w sb'] o]|x w|w]|destruct (text_format _ _ _ _ _) as [[[w sb'] o]|x w|w]]; exists w; reflexivity.
Qed.
Lemma finish_grows s e tc raw off p : exists w, pr_out (fst (fst (read_finish (process_chunk s e tc) raw off p))) = pr_out p ++ w.
Proof.
  destruct (chunk_grows s e tc p raw off true) as [w Hw]. exists w. unfold read_finish. destruct (process_chunk s e tc p raw off true) as [p' []]; exact Hw.
Qed.
Lemma pre_fst {St} a (x : St * list action * reader_end) : fst (fst (pre a x)) = fst (fst x).
Proof. destruct x as [[st l] e]. reflexivity. Qed.
Lemma loop_grows s e tc mb ml src evs : forall off lines p, exists w, pr_out (fst (fst (read_loop (process_chunk s e tc) mb ml src evs off lines p))) = pr_out p ++ w.
Proof.
  assert (Nil : forall p : proc, exists w, pr_out p = pr_out p ++ w) by (intros p; exists []; symmetry; apply app_nil_r).
  induction evs as [|ev evs IH]; intros off lines p; cbn [read_loop]; [rewrite pre_fst; apply finish_grows|].
  destruct ev as [[|b raw]| |]; try apply Nil; [rewrite pre_fst; apply finish_grows|]. destruct (tell_fails src); [apply Nil|].
  destruct (apply_max_lines ml (b :: raw) lines) as [raw1 lines1]. destruct (match limit_on mb with Some m => (m <? off + zlen raw1)%Z | None => false end); [rewrite pre_fst; apply finish_grows|].
  destruct (chunk_grows s e tc p raw1 off false) as [w Hw]. destruct (process_chunk s e tc p raw1 off false) as [p1 []]; cbn [fst] in *; try (exists w; exact Hw).
  match goal with |- context [if ?b then _ else _] => destruct b end; rewrite pre_fst.
  - destruct (finish_grows s e tc [] (off + zlen raw1) p1) as [w2 H2]. exists (w ++ w2). now rewrite H2, Hw, app_assoc.
  - destruct (IH (off + zlen raw1)%Z lines1 p1) as [w2 H2]. exists (w ++ w2). now rewrite H2, Hw, app_assoc.
Qed.
Lemma pre_snd {St} a (x : St * list action * reader_end) : snd (pre a x) = snd x.
Proof. destruct x as [[st l] e]. reflexivity. Qed.
Lemma loop_interrupt s e tc mb ml src head rest evs : forall off lines p,
  let x1 := read_loop (process_chunk s e tc) mb ml src (head ++ RInterrupt :: rest) off lines p in
  let x2 := read_loop (process_chunk s e tc) mb ml src (head ++ evs) off lines p in
  (exists w, pr_out (fst (fst x2)) = pr_out (fst (fst x1)) ++ w) /\ (snd x1 = REnd \/ x1 = x2).
Proof.
  assert (Same : forall x : proc * list action * reader_end, (exists w, pr_out (fst (fst x)) = pr_out (fst (fst x)) ++ w) /\ (snd x = REnd \/ x = x)).
  { intros x. split; [exists []; symmetry; apply app_nil_r|now right]. }
  induction head as [|ev head IH]; intros off lines p; cbv zeta; cbn [app].
  - split; [apply (loop_grows s e tc mb ml src evs off lines p)|now left].
  - cbn [read_loop]. destruct ev as [[|b raw]| |]; try apply Same. destruct (tell_fails src); [apply Same|].
    destruct (apply_max_lines ml (b :: raw) lines) as [raw1 lines1]. destruct (match limit_on mb with Some m => (m <? off + zlen raw1)%Z | None => false end); [apply Same|].
    destruct (process_chunk s e tc p raw1 off false) as [p1 []]; try apply Same.
    match goal with |- context [if ?b then _ else _] => destruct b end; [apply Same|]. rewrite !pre_fst, !pre_snd.
    destruct (IH (off + zlen raw1)%Z lines1 p1) as [[w Hw] HE]. split; [exists w; exact Hw|]. destruct HE as [HE|HE]; [now left|right]. now rewrite HE.
Qed.
Lemma run_interrupt s tc src head rest evs p1 a1 e1 p2 a2 e2 :
  byteio_run s tc src (head ++ RInterrupt :: rest) = (p1, a1, e1) -> byteio_run s tc src (head ++ evs) = (p2, a2, e2) ->
  (exists w, pr_out p2 = pr_out p1 ++ w) /\ (e1 = REnd \/ (p1, a1, e1) = (p2, a2, e2)).
Proof.
  rewrite !run_read. unfold read. intros H1 H2.
  assert (M : src = SrcMissing \/ src <> SrcMissing) by (destruct src; auto; right; discriminate).
  destruct M as [->|M].
  - injection H1 as <- <- <-. injection H2 as <- <- <-. split; [exists []; reflexivity|now right].
  - destruct (loop_interrupt s (update_settings s) tc (s_max_bytes s) (s_max_lines s) src head rest evs 0%Z 0%Z proc_init) as [[w Hw] HE].
    set (x1 := read_loop _ _ _ _ (head ++ RInterrupt :: rest) _ _ _) in *. set (x2 := read_loop _ _ _ _ (head ++ evs) _ _ _) in *.
    assert (F1 : pre [AOpen] x1 = (p1, a1, e1)) by (destruct src; [exact H1|exact H1|easy]). assert (F2 : pre [AOpen] x2 = (p2, a2, e2)) by (destruct src; [exact H2|exact H2|easy]).
    rewrite <- (pre_fst [AOpen] x1), <- (pre_fst [AOpen] x2), F1, F2 in Hw. cbn [fst] in Hw. split; [eauto|].
    destruct HE as [HE|HE]; [left; rewrite <- (pre_snd [AOpen] x1), F1 in HE; exact HE|right]. rewrite <- F1, <- F2. now rewrite HE.
Qed.

(** ** C36 *)
Lemma concat_first n cs : concat (first_bytes n cs) = firstn n (concat cs).
Proof.
  revert n. induction cs as [|c cs IH]; intros n; [now rewrite firstn_nil|]. cbn [first_bytes concat]. rewrite firstn_app. destruct (Nat.leb_spec (length c) n) as [L|L].
  - cbn [concat]. rewrite IH, (firstn_all2 c) by exact L. reflexivity.
  - cbn [concat]. replace (n - length c)%nat with 0%nat by lia. reflexivity.
Qed.
Lemma limited_prefix mb ml data d : Limited mb ml data d -> exists rest, data = d ++ rest.
Proof.
  destruct 1 as [mb ml data|mb ml b data|mb ml l data|mb ml b l data].
  - exists []. symmetry. apply app_nil_r.
  - eexists. symmetry. apply firstn_skipn.
  - apply before_line_prefix.
  - destruct (before_line_prefix l data) as [rest E]. exists (skipn b (before_line l data) ++ rest). now rewrite app_assoc, firstn_skipn.
Qed.
(** the bytes processed *)
Lemma processed_data s evs chunks : Processed s evs chunks -> Limited (s_max_bytes s) (s_max_lines s) (concat (provided evs)) (concat chunks).
Proof.
  intros (_ & d & HL & ->). rewrite concat_first. destruct (limited_prefix _ _ _ _ HL) as [rest E]. rewrite E at 2. rewrite firstn_app, Nat.sub_diag, firstn_all. cbn [firstn]. now rewrite app_nil_r.
Qed.
Lemma before_first t : line_count (before_line 1 t) = match before_line 1 t with [] => 0%nat | _ => 1%nat end.
Proof.
  induction t as [|c t IH]; [reflexivity|]. cbn [before_line]. destruct (N.eqb_spec c 10) as [->|Hc]; [reflexivity|].
  cbn [line_count]. destruct (N.eqb_spec c 10); [contradiction|]. rewrite IH. destruct (before_line 1 t); reflexivity.
Qed.
Lemma line_count_pos c t : (0 < line_count (c :: t))%nat.
Proof. revert c. induction t as [|d t IH]; intros c; cbn [line_count]; destruct (c =? 10); try lia. apply IH. Qed.
Lemma before_line_count n l : (0 < n)%nat -> line_count (before_line n l) = if blank_at (n - 1) l then (n - 1)%nat else Nat.min n (line_count l).
Proof.
  revert n. induction l as [|c t IH]; intros n Hn; [destruct n as [|[|n]]; [lia| |]; reflexivity|].
  cbn [before_line]. unfold blank_at. cbn [byte_lines]. destruct (N.eqb_spec c 10) as [->|Hc].
  - destruct n as [|[|m]]; [lia|reflexivity|]. cbn [line_count]. change (10 =? 10) with true. cbn iota. rewrite IH by lia.
    replace (S (S m) - 1)%nat with (S (S m - 1)) by lia. cbn [nth_error]. unfold blank_at. destruct (nth_error (byte_lines t) (S m - 1)) as [[|x [|y z]]|]; try (cbn [Nat.min]; lia). destruct (x =? 10); cbn [Nat.min]; lia.
  - assert (LC : line_count (c :: before_line n t) = match before_line n t with [] => 1%nat | _ => line_count (before_line n t) end).
    { cbn [line_count]. destruct (N.eqb_spec c 10); [contradiction|reflexivity]. }
    rewrite LC. clear LC. assert (LT : line_count (c :: t) = match t with [] => 1%nat | _ => line_count t end).
    { cbn [line_count]. destruct (N.eqb_spec c 10); [contradiction|reflexivity]. }
    rewrite LT. clear LT. destruct n as [|[|m]]; [lia| |].
    + pose proof (before_first t) as BF. replace (match before_line 1 t with [] => 1%nat | _ => line_count (before_line 1 t) end) with 1%nat by (destruct (before_line 1 t); [reflexivity|now rewrite BF]).
      assert (NB : match nth_error (match byte_lines t with [] => [[c]] | x :: r => (c :: x) :: r end) (1 - 1) with Some [x] => x =? 10 | _ => false end = false).
      { destruct (byte_lines t) as [|x r]; cbn; [|destruct x; [|reflexivity]]; now apply N.eqb_neq. }
      rewrite NB. destruct t as [|d t]; [reflexivity|]. pose proof (line_count_pos d t). lia.
    + destruct t as [|d t]; [destruct m; reflexivity|]. specialize (IH (S (S m)) ltac:(lia)).
      assert (BE : before_line (S (S m)) (d :: t) <> []) by (cbn [before_line]; destruct (d =? 10); discriminate).
      destruct (before_line (S (S m)) (d :: t)) as [|x r] eqn:EB; [easy|]. rewrite IH. unfold blank_at.
      replace (S (S m) - 1)%nat with (S m) by lia.
      destruct (byte_lines (d :: t)) as [|y l] eqn:EL; [exfalso; cbn [byte_lines] in EL; destruct (d =? 10); [discriminate|destruct (byte_lines t); discriminate]|]. reflexivity.
Qed.
Lemma max_lines_count s tc src evs chunks toks n : opens src -> binary_mode s = false -> no_limit (s_max_bytes s) -> limit_is (s_max_lines s) n ->
  Processed s evs chunks -> Finishes s evs -> Tokens chunks toks ->
  exists p acts, byteio_run s tc src evs = (p, acts, REnd) /\
    length (text_lines (visible (pr_out p))) =
      if blank_at (n - 1) (concat (provided evs)) then (n - 1)%nat else Nat.min n (line_count (concat (provided evs))).
Proof.
  intros HS HB NB HL HP HE HT. destruct (text_eof s tc src evs chunks toks HS HB HP HE HT) as (p & acts & R & D). exists p, acts. split; [exact R|].
  rewrite (text_line_count s chunks toks _ HT D). pose proof (processed_data _ _ _ HP) as PD. rewrite <- before_line_count by apply HL. f_equal.
  assert (C : forall l m, no_limit l -> limit_is l m -> False) by (intros l m [K|K] [K1 K2]; rewrite K in K1; [discriminate|injection K1 as K1; lia]).
  inversion PD as [mb ml data X1 X2|mb ml b data X1 X2|mb ml l data X1 X2|mb ml b l data X1 X2]; subst; try (exfalso; eapply C; eassumption).
  f_equal. destruct X2 as [X2 _], HL as [HL _]. rewrite HL in X2. injection X2 as X2. lia.
Qed.
