(** Lemmas for C115: little is kept between two reads *)
From Coq Require Import List Arith NArith ZArith Bool Lia.
From Verif.Model Require Import Base Ansi Settings Segment Template Parser Console Formatter Reader Runner Options.
From Verif.Spec Require Import Numbers Terminal Utf8 Lexical SgrParams Display Output Input Kept.
From Verif.Proof Require Import LexFacts BaseFacts TokFacts DisplayFacts TextDisplay BufFacts BufHistory TextFormat BinFormat RunFacts ReaderFacts RunMain RunClaims BinClaims LexExtra ExampleFacts ProcessClaims.
Import ListNotations.
Local Open Scope N_scope.

(** * The state in which the next read is awaited *)
Section State.
  Variable s : settings.
  Variable tc : Z.
  Variable src : source.
  Hypothesis Hsrc : opens src.
  Variable St : proc -> list token -> Prop.
  Hypothesis st_init : St proc_init [].
  Hypothesis st_raw : forall p ts, St p ts -> pb_raw (pr_pb p) = [].
  Hypothesis st_chunk : forall p ts raw off fin lx toks, St p ts -> is_bytes raw -> Lexes raw lx -> Forall2 Coded lx toks ->
    exists p', process_chunk s (update_settings s) tc p raw off fin = (p', CbOk) /\ (fin = false -> St p' (ts ++ toks)).

  Lemma run_state evs chunks toks : Processed s evs chunks -> Tokens chunks toks -> ending_of evs = At_interrupt ->
    ~ Stops (s_max_bytes s) (s_max_lines s) (concat (provided evs)) ->
    exists p acts, byteio_run s tc src evs = (p, acts, REnd) /\ St p toks.
  Proof.
    intros (HB & d & HL & ->) HT HI HN. destruct (limited_within _ _ _ _ HL) as (rb & rn & R1 & R2 & ->).
    set (Inv := fun p done => exists toks, Tokens done toks /\ St p toks).
    set (Any := fun (p : proc) (done : list (list N)) => True).
    assert (VP : forall a b : list N, is_bytes (a ++ b) -> is_bytes a) by (intros a b H; apply Forall_app in H; tauto).
    assert (CG : forall p done c off fin, Inv p done -> good_chunk c ->
      exists p', process_chunk s (update_settings s) tc p c off fin = (p', CbOk) /\ if fin then Any p' (done ++ [c]) else Inv p' (done ++ [c])).
    { intros p done c off fin (tk & HT' & HS) (Hb & lx & t & Hlx & HC). destruct (st_chunk p tk c off fin lx t HS Hb Hlx HC) as (p' & E & K).
      exists p'. split; [exact E|]. destruct fin; [exact I|]. exists (tk ++ t). split; [apply tokens_app; [exact HT'|now apply (tokens_one c lx)]|now apply K]. }
    assert (CB : forall p done c off fin, Inv p done -> is_bytes c -> ~ good_chunk c ->
      exists p', process_chunk s (update_settings s) tc p c off fin = (p', CbErr ValueError) /\ Any p' done).
    { intros p done c off fin (tk & HT' & HS) Hb HNg. destruct (lexes_total c Hb) as [lx Hlx].
      destruct (bad_chunk s (update_settings s) tc p c off fin lx (st_raw _ _ HS) Hb Hlx) as (p' & E & K).
      - intros [t HC]. apply HNg. split; eauto.
      - exists p'. split; [exact E|exact I]. }
    destruct (loop_forward (process_chunk s (update_settings s) tc) (s_max_bytes s) (s_max_lines s) src Inv Any Any is_bytes good_chunk ValueError
                VP good_chunk_dec good_chunk_nil CG CB (opens_tell src Hsrc) evs HB rb rn 0%Z 0%Z proc_init [] R1 R2) as (p & acts & en & E & K).
    { exists []. split; [apply tokens_nil|exact st_init]. }
    pose proof (reached_stops _ _ _ _ (concat (provided evs)) R1 R2) as RS. set (fb := first_bytes _ _) in *.
    assert (FB : Forall is_bytes fb) by now apply first_bytes_bytes.
    inversion K as [cs G1 G2 _ G4|cs c rest G1 G2 G3 _|cs G1 G0 G2 G3 (tk & G4 & G4')|cs G1 G0 G2 G3 (tk & G4 & G4')]; subst en; cbn [app] in *.
    - exfalso. rewrite RS in G4. destruct G4 as [G4|G4]; [congruence|contradiction].
    - exfalso. apply tokens_nonempty in HT. rewrite G3 in HT. assert (Q : Forall good_chunk (nonempty cs ++ c :: rest)).
      { apply good_tokens; [rewrite <- G3; now apply nonempty_bytes|eauto]. }
      apply Forall_app in Q as [_ Q]. inversion Q. contradiction.
    - exists p, (AOpen :: acts). split; [rewrite run_read; unfold read; destruct Hsrc as [->| ->]; rewrite E; reflexivity|].
      assert (HT2 : Tokens fb tk) by (apply tokens_nonempty; rewrite <- G3; now apply tokens_nonempty in G4).
      now rewrite (tokens_det fb toks tk FB HT HT2).
    - congruence.
  Qed.
End State.

(** * Elements of the chain *)
Lemma attach_elems_length g : (length (attach_elems g) <= 4)%nat.
Proof. unfold attach_elems. destruct (no_formatting _); cbn; lia. Qed.
Lemma rep_length sb segs : Rep sb segs -> (length (sb_chain sb) <= 4 * length segs)%nat /\ (length (sb_active sb) <= 1)%nat.
Proof.
  assert (A : forall l, (length (flat_map attach_elems l) <= 4 * length l)%nat).
  { induction l as [|g l IH]; [reflexivity|]. cbn [flat_map]. rewrite app_length. pose proof (attach_elems_length g). cbn [length]. lia. }
  intros [[Ha Hc]|(g & t & -> & _ & Ha & Hc)]; rewrite Ha, Hc; cbn [length]; [split; [apply A|lia]|]. pose proof (A t). lia.
Qed.
Lemma held_raw l : held_bytes l = raw_of (segs_of l).
Proof. unfold held_bytes, raw_of, segs_of. induction l as [|e l IH]; [reflexivity|]. cbn [flat_map]. rewrite IH, flat_map_app. destruct e; cbn; try reflexivity. now rewrite app_nil_r. Qed.
Lemma held_proc l : held_text l = flat_map seg_proc (segs_of l).
Proof. unfold held_text, segs_of. induction l as [|e l IH]; [reflexivity|]. cbn [flat_map]. rewrite IH, flat_map_app. destruct e; cbn; try reflexivity. now rewrite app_nil_r. Qed.

(** * Binary mode *)
Lemma cells_bytes s toks : Forall (fun t => exists rest, Token (tok_kind t) (tok_bytes t) rest) toks -> map (fun x => fst (fst x)) (byte_cells s toks) = flat_map tok_bytes toks.
Proof.
  induction 1 as [|t toks [rest T] _ IH]; [reflexivity|]. etransitivity; [apply (map_app _ (binary_cells s (tok_kind t) (tok_bytes t) (tok_codes t)))|].
  exact (f_equal2 (@app N) (binary_cells_bytes s (tok_kind t) (tok_bytes t) (tok_codes t) (token_nonempty _ _ _ T)) IH).
Qed.
Lemma good_bin_length segs : Forall good_bin segs -> (length segs <= length (raw_of segs))%nat.
Proof.
  unfold raw_of. induction 1 as [|g l (_ & H & _) F IH]; [auto|]. cbn [flat_map length]. rewrite app_length. destruct (seg_raw g); [easy|]. cbn [length]. lia.
Qed.
Lemma good_bin_text segs : Forall good_bin segs -> length (flat_map seg_proc segs) = length (raw_of segs).
Proof. unfold raw_of. induction 1 as [|g l (_ & _ & H & _) F IH]; [auto|]. cbn [flat_map]. now rewrite !app_length, IH, H. Qed.

Lemma binary_kept s tc n src evs chunks toks : opens src -> binary_ok s tc n -> Processed s evs chunks -> Tokens chunks toks ->
  ending_of evs = At_interrupt -> ~ Stops (s_max_bytes s) (s_max_lines s) (concat (provided evs)) ->
  exists p acts, byteio_run s tc src evs = (p, acts, REnd) /\ pb_raw (pr_pb p) = [] /\
    held_bytes (sb_chain (pr_sb p)) = incomplete_row n (concat chunks) /\
    length (held_text (sb_chain (pr_sb p))) = length (incomplete_row n (concat chunks)) /\
    (length (incomplete_row n (concat chunks)) < n)%nat /\
    (length (sb_chain (pr_sb p)) <= 4 * length (incomplete_row n (concat chunks)))%nat /\ (length (sb_active (pr_sb p)) <= 1)%nat.
Proof.
  intros HS HB HP HT HI HN. pose proof HB as (B & HC & Hc).
  destruct (run_state s tc src HS (fun p ts => BState s n p (byte_cells s ts)) (bstate_init s n Hc)) with (evs := evs) (chunks := chunks) (toks := toks) as (p & acts & R & (P1 & (segs & P2 & P3 & P4) & _)); try assumption.
  - intros q ts H. apply H.
  - intros q ts raw off fin lx tk H Hb HL HCo. destruct (binary_chunk s (update_settings s) tc n q _ raw off fin lx tk (env_of s) B HC Hc H Hb HL HCo) as (q' & E & K).
    exists q'. split; [exact E|]. intros ->. unfold byte_cells. rewrite flat_map_app. exact K.
  - exists p, acts. split; [exact R|split; [exact P1|]].
    pose proof (cells3_all_bytes segs P2) as C. rewrite P4 in C.
    assert (Q : raw_of segs = incomplete_row n (concat chunks)).
    { rewrite <- C, <- (byte_cells_bytes s chunks toks HT). unfold incomplete_row, whole. rewrite map_length. symmetry. apply skipn_map. }
    rewrite held_raw, held_proc, (Rep_segs _ _ P3), Q, good_bin_text, Q by exact P2. destruct (rep_length _ _ P3) as [L1 L2].
    pose proof (good_bin_length segs P2) as L3. rewrite Q in L3. repeat split; auto; [|lia].
    unfold incomplete_row. rewrite skipn_length. set (m := length (concat chunks)). pose proof (Nat.mod_upper_bound m n ltac:(lia)). pose proof (Nat.div_mod m n ltac:(lia)). nia.
Qed.

(** * Text mode *)
Lemma control_loop_size e t ss w segs : control_loop e t ss w = Ok segs -> Forall (run_member R_control) w ->
  (length segs <= 2 * length w)%nat /\ (length (raw_of segs) <= 31 * length w)%nat.
Proof.
  revert segs. induction w as [|b w IH]; intros segs H F; cbn [control_loop] in H; [injection H as <-; cbn; lia|].
  inversion F as [|x l Hb F']; subst.
  destruct (control_details e t ss b) as [det|] eqn:D; [|discriminate]. cbn [bind] in H. destruct (control_loop e t ss w) as [more|]; [|discriminate]. injection H as <-.
  destruct (IH more eq_refl F') as [I1 I2].
  assert (K : (length det <= 1)%nat /\ raw_of det = []).
  { unfold control_details in D. destruct (is_ignored _); [injection D as <-; cbn; auto|]. destruct (te_details e); try (injection D as <-; cbn; auto; fail).
    - destruct (assoc b brief_label_map); [|discriminate]. destruct (details_opening_seq e t ss); [|discriminate]. injection D as <-. cbn. auto.
    - destruct (details_opening_seq e t ss); [|discriminate]. injection D as <-. cbn. auto. }
  destruct K as [K1 K2]. cbn in Hb. unfold rng in Hb. split; [cbn [length]; rewrite app_length; lia|].
  change (raw_of (?x :: ?l)) with (seg_raw x ++ raw_of l). rewrite !raw_of_app, K2. cbn [seg_raw app]. rewrite app_length, repeat_length. cbn [length]. lia.
Qed.
Lemma tok_segs_size e k w rest segs : Token k w rest -> tok_segs e k w = Ok segs ->
  (length segs <= 2 * length w)%nat /\ (length (raw_of segs) <= 31 * length w)%nat.
Proof.
  intros T. unfold tok_segs. destruct (tok_state k sgr_state_init) as [ss|]; [|discriminate]. cbn [bind]. intros H.
  assert (NE : (1 <= length w)%nat) by (apply token_nonempty in T; destruct w; [easy|cbn; lia]).
  assert (One : forall o l pr, [mkSeg o l w pr] = segs -> (length segs <= 2 * length w)%nat /\ (length (raw_of segs) <= 31 * length w)%nat).
  { intros o l pr <-. cbn [raw_of flat_map seg_raw length]. rewrite app_nil_r. lia. }
  destruct (is_escape_seq k) eqn:Hk.
  - destruct (esc_shape k w rest T Hk) as (t & -> & Ht & _). assert (2 <= length (27%N :: t))%nat by (destruct t; [easy|cbn; lia]).
    rewrite BinDisplay.substitute_escape in H by now apply BinDisplay.tpl_kind_esc. destruct (is_ignored _); [injection H as H; eapply One, H|].
    destruct (label_opening_seq _ _ _) as [o|]; [|discriminate]. cbn [bind skipn firstn] in H.
    assert (D : forall det, esc_details e (tok_tpl k) ss t = Ok det -> (length det <= 1)%nat /\ (length (raw_of det) <= length t)%nat).
    { intros det. unfold esc_details. destruct (te_details e).
      all: try (intros Q; injection Q as <-; cbn; lia).
      all: try (destruct (brief_details_processed _ _); [|discriminate]); destruct (details_opening_seq _ _ _); try discriminate; intros Q; injection Q as <-; cbn [raw_of flat_map seg_raw length bind]; rewrite app_nil_r; lia. }
    destruct (esc_details _ _ _ _) as [det|]; [|discriminate]. destruct (D det eq_refl) as [D1 D2]. cbn [bind] in H. injection H as <-.
    destruct (_ && _ && _)%bool; [unfold wrap_in_separators|]; cbn [length app raw_of flat_map seg_raw]; fold (raw_of det);
      rewrite ?flat_map_app, ?app_length; cbn [flat_map seg_raw app length] in *; fold (raw_of det); rewrite ?app_length; cbn [length]; lia.
  - destruct (BinDisplay.tpl_kind_other k Hk) as (K1 & K2 & K3). unfold substitute in H.
    destruct (t_kind (tok_tpl k)) eqn:TK; try congruence; try (injection H as H; eapply One, H).
    specialize (K3 eq_refl). subst k. destruct (te_details e); try (injection H as H; eapply One, H);
      (eapply control_loop_size; [exact H|]; inversion T; assumption).
Qed.

(** a text loop only takes segments from the front *)
Lemma text_loop_suffix s closed : forall fuel sb segs ln w w' sb' ln', Rep sb segs -> text_loop fuel s closed sb ln w = Fin (w', sb', ln') ->
  exists pre segs', segs = pre ++ segs' /\ Rep sb' segs'.
Proof.
  induction fuel as [|fuel IH]; intros sb segs ln w w' sb' ln' HR H; cbn [text_loop] in H; [discriminate|].
  pose proof (detach_line_spec sb segs closed seg_processed_noop HR) as D. destruct (split_line segs) as [[a rest] nl].
  destruct (zlen (raw_of a) =? 0)%Z; [rewrite D in H; injection H as _ <- _; exists [], segs; auto|].
  destruct (nl || closed)%bool; [|rewrite D in H; injection H as _ <- _; exists [], segs; auto].
  destruct D as (p & r & out & b' & _ & D1 & _ & D2 & D3 & _). rewrite D2 in H. destruct (IH _ r _ _ _ _ _ D3 H) as (pre & segs' & -> & D4).
  exists (p ++ pre), segs'. rewrite <- app_assoc. auto.
Qed.

(** pieces without their codes *)
Definition pieces (ts : list token) : list (kind * bytes) := map fst ts.
Lemma pieces_app a b : pieces (a ++ b) = pieces a ++ pieces b.
Proof. apply map_app. Qed.

(** the text state, with the segments in the buffer at the end of all segments so far *)
Definition TMem (s : settings) (e : tenv) (p : proc) (ts : list token) : Prop :=
  TState s p ts /\ Forall (fun t => exists rest, Token (tok_kind t) (tok_bytes t) rest) ts /\
  exists pre segs, toks_segs e (pieces ts) = Ok (pre ++ segs) /\ Rep (pr_sb p) segs.

Lemma coded_fst lx toks : Forall2 Coded lx toks -> lx = pieces toks.
Proof. induction 1 as [|x y l l' [E _] H IH]; [reflexivity|]. cbn [pieces map]. f_equal; [|exact IH]. subst x. now destruct y as [[? ?] ?]. Qed.

Lemma text_chunk_mem s e tc p ts raw off fin lx toks :
  Env s e -> binary_mode s = false -> TMem s e p ts -> is_bytes raw -> Lexes raw lx -> Forall2 Coded lx toks ->
  exists p', process_chunk s e tc p raw off fin = (p', CbOk) /\ (fin = false -> TMem s e p' (ts ++ toks)).
Proof.
  intros E B (H & HTk & pre & segs & M1 & M2) Hb HL HC. destruct (text_chunk s e tc p ts raw off fin lx toks E B H Hb HL HC) as (p' & R & K).
  exists p'. split; [exact R|]. intros ->. split; [exact K|]. destruct H as (H1 & _). split.
  { apply Forall_app. split; [exact HTk|]. clear -HL HC. revert toks HC. induction HL as [|k w rest ts T L IH]; intros t1 HC; inversion HC as [|x [[k' w'] cc] l l' [E1 E2] HC']; subst; constructor; auto.
    cbn in E1. injection E1 as <- <-. exists rest. exact T. }
  destruct (toks_segs_coded e raw lx toks HL HC) as [more HS].
  unfold process_chunk in R. pose proof (parse_toks e (append_raw (pr_pb p) raw false) (pr_sb p) (pr_ss p) lx) as PT.
  unfold append_raw in PT at 1 2. cbn [pb_raw] in PT. rewrite H1 in PT. cbn [app] in PT. specialize (PT Hb HL). rewrite HS in PT. destruct PT as [ss' PT]. rewrite PT in R.
  unfold format in R. rewrite (env_read s e E), B in R. cbn [pr_sb pr_pb pb_closed append_raw pr_line pr_offset pr_ss pr_out] in R.
  unfold text_format in R. destruct (text_loop _ _ _ _ _ _) as [[[w' sb'] ln']|x w'|w'] eqn:TL; try discriminate. injection R as <-.
  destruct (text_loop_suffix _ _ _ _ _ _ _ _ _ _ (Rep_attach _ _ more M2) TL) as (pre' & segs' & S1 & S2).
  exists (pre ++ pre'), segs'. split; [|exact S2].
  rewrite pieces_app, toks_segs_app, M1. cbn [bind]. rewrite <- (coded_fst lx toks HC), HS. cbn [bind]. now rewrite <- !app_assoc, S1.
Qed.
Lemma tmem_init s e : TMem s e proc_init [].
Proof. split; [apply tstate_init|]. split; [constructor|]. exists [], []. split; [reflexivity|apply Rep_init]. Qed.

Lemma suffix_clean {A} (P : A -> Prop) (a b : list A) : forall c d, a ++ b = c ++ d -> (a = [] \/ exists a' x, a = a' ++ [x] /\ ~ P x) -> Forall P d -> exists z, b = z ++ d.
Proof.
  intros c d E Ha F. destruct Ha as [->|(a' & x & -> & Hx)]; [exists c; exact E|].
  apply app_eq_app in E as (l & [[E1 E2]|[E1 E2]]).
  - subst d. destruct l as [|y l] using rev_ind; [exists []; reflexivity|]. rewrite app_assoc in E1. apply app_inj_tail in E1 as [_ <-].
    exfalso. apply Hx. rewrite <- app_assoc in F. apply Forall_app in F as [_ F]. now inversion F.
  - exists l. exact E2.
Qed.

Lemma rest_split ts : exists a, ts = a ++ rest_after false ts /\ (a = [] \/ exists a' t, a = a' ++ [t] /\ is_line_break t = true).
Proof.
  remember (length ts) as n eqn:Hn. revert ts Hn. induction n as [n IH] using lt_wf_ind. intros ts ->.
  destruct (split_tokens ts) as [HN|(x & t & y & -> & HN & Ht)].
  - exists []. rewrite rest_none by exact HN. auto.
  - rewrite rest_break by exact Ht. destruct (IH (length y)) with (ts := y) as (a & E & Ha); [rewrite app_length; cbn; lia|reflexivity|].
    exists (x ++ t :: a). split; [rewrite <- app_assoc; cbn [app]; now rewrite <- E|]. right. destruct Ha as [->|(a' & u & -> & Hu)].
    + exists x, t. auto.
    + exists (x ++ t :: a'), u. rewrite <- app_assoc. auto.
Qed.

Lemma toks_size e ts segs : Forall (fun t => exists rest, Token (tok_kind t) (tok_bytes t) rest) ts -> toks_segs e (pieces ts) = Ok segs ->
  (length segs <= 2 * length (flat_map tok_bytes ts))%nat /\ (length (raw_of segs) <= 31 * length (flat_map tok_bytes ts))%nat.
Proof.
  intros F. revert segs. induction F as [|[[k w] c] ts [rest T] F IH]; intros segs H; cbn [pieces map fst toks_segs] in H; [injection H as <-; cbn; lia|]; fold (pieces ts) in H.
  destruct (tok_segs e k w) as [a|] eqn:A; [|discriminate]. cbn [bind] in H. destruct (toks_segs e (pieces ts)) as [b|]; [|discriminate]. injection H as <-.
  destruct (IH b eq_refl) as [I1 I2]. destruct (tok_segs_size e k w rest a T A) as [S1 S2]. rewrite raw_of_app. cbn [flat_map]. rewrite !app_length. cbn [tok_bytes fst snd] in *. lia.
Qed.

Lemma plain_bytes k w rest : Token k w rest -> k <> K_newline -> ~ In 10 w.
Proof.
  intros T Hk. destruct (is_escape_seq k) eqn:Ek.
  - destruct (esc_shape k w rest T Ek) as (t & -> & _ & F). intros [I|I]; [discriminate|]. rewrite Forall_forall in F. specialize (F 10 I). lia.
  - assert (LF : forall P (w : list N), Forall P w -> In 10 w -> P 10) by (intros P w0 F I; rewrite Forall_forall in F; auto).
    intros I. inversion T; subst; try congruence; try discriminate Ek.
    + match goal with H : scalar cp |- _ => pose proof (LF _ _ (utf8_high cp H ltac:(assumption)) I) as K end. unfold high, rng in K. lia.
    + match goal with H : Forall high w |- _ => pose proof (LF _ _ H I) as K end. unfold high, rng in K. lia.
    + destruct I as [I|[]]. discriminate.
    + match goal with H : Forall (run_member ?k) w |- _ => pose proof (LF _ _ H I) as K; destruct k; cbn in K; unfold rng in K; lia end.
Qed.

Lemma unfinished_none l : ~ In 10 l -> unfinished l = l.
Proof.
  intros H. destruct l as [|b l]; [reflexivity|]. cbn [unfinished]. destruct (existsb (N.eqb 10) (b :: l)) eqn:E; [|reflexivity].
  apply existsb_exists in E as (x & I & Ex). apply N.eqb_eq in Ex. subst x. contradiction.
Qed.
Lemma unfinished_after a b : unfinished (a ++ 10 :: b) = unfinished b.
Proof.
  induction a as [|x a IH].
  - cbn [app unfinished existsb]. rewrite N.eqb_refl. reflexivity.
  - cbn [app unfinished]. rewrite IH. assert (E : existsb (N.eqb 10) (x :: a ++ 10 :: b) = true); [|now rewrite E].
    apply existsb_exists. exists 10. split; [right; apply in_or_app; right; now left|apply N.eqb_refl].
Qed.
Lemma rest_bytes ts : Forall (fun t => exists rest, Token (tok_kind t) (tok_bytes t) rest) ts ->
  flat_map tok_bytes (rest_after false ts) = unfinished (flat_map tok_bytes ts).
Proof.
  intros F. destruct (rest_split ts) as (a & E & Ha).
  assert (NF : ~ In 10 (flat_map tok_bytes (rest_after false ts))).
  { pose proof (rest_no_break false ts) as R. rewrite E in F. apply Forall_app in F as [_ F]. clear E Ha. intros I. apply in_flat_map in I as (t & I1 & I2).
    rewrite Forall_forall in F, R. destruct (F t I1) as [r T]. apply (plain_bytes _ _ _ T); [|exact I2]. intros K. specialize (R t I1). unfold no_break, is_line_break in R. now rewrite K in R. }
  rewrite E at 2. destruct Ha as [->|(a' & t & -> & Ht)]; [symmetry; now apply unfinished_none|].
  assert (Q : tok_bytes t = [10]).
  { rewrite E in F. rewrite <- app_assoc in F. apply Forall_app in F as [_ F]. inversion F as [|x l [r T] _]; subst. unfold is_line_break in Ht. destruct (tok_kind t) eqn:K; try discriminate. now inversion T. }
  rewrite !flat_map_app. cbn [flat_map]. rewrite Q, app_nil_r, <- app_assoc. cbn [app]. rewrite unfinished_after. symmetry. now apply unfinished_none.
Qed.

Lemma text_kept s tc src evs chunks toks : opens src -> binary_mode s = false -> Processed s evs chunks -> Tokens chunks toks ->
  ending_of evs = At_interrupt -> ~ Stops (s_max_bytes s) (s_max_lines s) (concat (provided evs)) ->
  exists p acts, byteio_run s tc src evs = (p, acts, REnd) /\ pb_raw (pr_pb p) = [] /\
    (length (held_bytes (sb_chain (pr_sb p))) <= 31 * length (unfinished (concat chunks)))%nat /\
    (length (sb_chain (pr_sb p)) <= 8 * length (unfinished (concat chunks)))%nat /\ (length (sb_active (pr_sb p)) <= 1)%nat.
Proof.
  intros HS B HP HT HI HN. set (e := update_settings s).
  destruct (run_state s tc src HS (TMem s e) (tmem_init s e)) with (evs := evs) (chunks := chunks) (toks := toks) as (p & acts & R & ((P1 & _ & (gs & P2 & P3) & _) & P4 & (pre & segs & P5 & P6))); try assumption.
  - intros q ts [H _]. apply H.
  - intros q ts raw off fin lx tk H Hb HL HCo. exact (text_chunk_mem s e tc q ts raw off fin lx tk (env_of s) B H Hb HL HCo).
  - exists p, acts. split; [exact R|split; [exact P1|]].
    assert (Q : segs = concat gs) by (rewrite <- (Rep_segs _ _ P6); now apply Rep_segs). subst segs. pose proof (Rep_segs _ _ P3) as Q6.
    destruct (groups_plain s _ _ P2 (rest_no_break false toks)) as [NL _].
    destruct (rest_split toks) as (a & E & Ha). pose proof P4 as F4. rewrite E in F4. apply Forall_app in F4 as [F1 F2].
    rewrite E, pieces_app, toks_segs_app in P5.
    destruct (toks_segs e (pieces a)) as [sa|] eqn:SA; [|discriminate]. cbn [bind] in P5.
    destruct (toks_segs e (pieces (rest_after false toks))) as [sr|] eqn:SR; [|discriminate]. cbn [bind] in P5. injection P5 as P5.
    destruct (suffix_clean (fun g => seg_is_newline g = false) sa sr pre (concat gs) P5) as [z Z]; [|exact NL|].
    { destruct Ha as [->|(a' & t & -> & Ht)]; [injection SA as <-; now left|]. right.
      rewrite pieces_app, toks_segs_app in SA. destruct (toks_segs e (pieces a')) as [x|]; [|discriminate]. cbn [bind pieces map toks_segs] in SA.
      destruct t as [[k w] cc]. cbn [fst toks_segs] in SA. unfold is_line_break in Ht. cbn in Ht. destruct k; try discriminate.
      destruct (tok_segs e K_newline w) as [y|] eqn:Y; [|discriminate]. cbn [bind] in SA. injection SA as <-.
      assert (TS : toks_segs e [(K_newline, w)] = Ok (y ++ [])) by (cbn [toks_segs]; now rewrite Y).
      assert (Q : Forall (fun t => exists rest, Token (fst t) (snd t) rest) [(K_newline, w)]).
      { apply Forall_app in F1 as [_ F1]. inversion F1 as [|u l U _]; subst. repeat constructor. exact U. }
      assert (Q2 : Forall2 Coded [(K_newline, w)] [(K_newline, w, [])]) by (constructor; [split; reflexivity|constructor]).
      destruct (toks_groups s e [(K_newline, w)] [(K_newline, w, [])] (y ++ []) (env_of s) B Q Q2 TS) as (gy & G1 & G2).
      inversion G1 as [|u v l l' [GG1 GG2] GN]; subst. inversion GN; subst. destruct (GG2 eq_refl) as [g ->]. cbn [concat app] in G2.
      destruct GG1 as (body & trail & bc & tcs & SE & _ & _ & _ & _ & (l & u & -> & _ & U & _) & _). cbn in U.
      assert (g = u) by (destruct l as [|? [|? ?]]; cbn in SE; congruence). subst u. exists x, g. rewrite G2. split; [reflexivity|]. now rewrite U. }
    destruct (toks_size e _ sr F2 SR) as [S1 S2]. rewrite (rest_bytes toks P4) in S1, S2.
    assert (CB : flat_map tok_bytes toks = concat chunks) by (apply coded_tokens in HT as [_ HT]; rewrite <- HT; clear; induction toks; cbn; congruence).
    rewrite CB in S1, S2. rewrite Z, raw_of_app in S2. rewrite Z in S1. rewrite app_length in S1, S2. destruct (rep_length _ _ P3) as [L1 L2].
    rewrite held_raw, Q6. repeat split; [lia|lia|exact L2].
Qed.

(** * Examples *)
Definition kept_evs : list read_ev := map RData ex_chunks ++ [RInterrupt].
Lemma kept_processed s : no_limit (s_max_bytes s) -> no_limit (s_max_lines s) -> Processed s kept_evs ex_chunks.
Proof. intros H1 H2. split; [repeat constructor|]. exists (concat ex_chunks). split; [now apply Lim_none|reflexivity]. Qed.
Lemma kept_example :
  (forall m, Processed (text_marked m) kept_evs ex_chunks) /\ Processed (bin_columns 4) kept_evs ex_chunks /\ ending_of kept_evs = At_interrupt /\
  (forall d m, ~ Stops (s_max_bytes (text_marked m)) (s_max_lines (text_marked m)) d /\ ~ Stops (s_max_bytes (bin_columns m)) (s_max_lines (bin_columns m)) d) /\
  (exists toks, Tokens ex_chunks toks) /\
  unfinished (concat ex_chunks) = [9; 195; 169; 1] /\ incomplete_row 4 (concat ex_chunks) = [169; 1] /\
  held_bytes (sb_chain (pr_sb (fst (fst (byteio_run (bin_columns 4) 80 SrcStdin kept_evs))))) = [169; 1] /\
  held_bytes (sb_chain (pr_sb (fst (fst (byteio_run (text_marked 2) 80 SrcStdin kept_evs))))) = [9; 195; 169; 0] /\
  length (held_bytes (sb_chain (pr_sb (fst (fst (byteio_run (text_marked 2) 80 SrcStdin [RData [31]; RInterrupt])))))) = 31%nat.
Proof.
  split; [intros m; apply kept_processed; now left|]. split; [apply kept_processed; now left|]. split; [reflexivity|].
  split; [intros d m; split; apply no_limit_goes; now left|]. split; [eexists; exact ex_tokens|].
  repeat split; vm_compute; reflexivity.
Qed.
