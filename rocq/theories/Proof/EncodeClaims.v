(** C101: whatever is written to the standard output can be encoded *)
From Coq Require Import List Arith NArith ZArith Bool Lia.
From Verif.Model Require Import Base Ansi Strip Settings Segment Template Parser Console Formatter Reader Runner Options Messages Legend Process.
From Verif.Spec Require Import Numbers Terminal Sgr Utf8 Lexical SgrParams Display Output Input.
From Verif.Proof Require Import BaseFacts RegexFacts TermFacts ClosingFacts LexFacts TokFacts PaintFacts DisplayFacts BinDisplay TextDisplay TextFormat RunFacts LookClaims.
Import ListNotations.
Local Open Scope N_scope.

Notation scalars := (Forall scalar).
Lemma low c : c < 0xD800 -> scalar c.
Proof. now left. Qed.
Lemma lows s : Forall (fun c => c < 0xD800) s -> scalars s.
Proof. apply Forall_impl. exact low. Qed.
Definition scb (c : N) : bool := (c <? 0xD800) || ((0xE000 <=? c) && (c <? 0x110000)).
Lemma scb_ok c : scb c = true -> scalar c.
Proof.
  unfold scb, scalar. rewrite orb_true_iff, andb_true_iff, !N.ltb_lt, N.leb_le. tauto.
Qed.
Definition lowb (s : str) : bool := forallb scb s.
Lemma lowb_ok s : lowb s = true -> scalars s.
Proof. intros H. apply Forall_forall. intros c Hc. unfold lowb in H. rewrite forallb_forall in H. now apply scb_ok, H. Qed.

Lemma scalars_app a b : scalars (a ++ b) <-> scalars a /\ scalars b.
Proof. apply Forall_app. Qed.
Lemma sc_dec n : scalars (dec n).
Proof. apply lows. eapply Forall_impl; [|apply dec_namec]. unfold namec. intros c Hc. lia. Qed.
Lemma sc_hex w n : scalars (fmt_hex_lo w n).
Proof. apply lows. eapply Forall_impl; [|apply fmt_hex_lo_chars]. cbn beta. intros c Hc. lia. Qed.
Lemma sc_assemble p : scalars (assemble p).
Proof.
  unfold assemble. destruct p as [|x p]; [constructor|]. cbv zeta. rewrite !scalars_app. split; [now apply lowb_ok|]. split; [|now apply lowb_ok].
  apply join_Forall; [now apply lowb_ok|]. apply Forall_map, Forall_forall. intros n _. apply sc_dec.
Qed.
Lemma sc_wrap o s : scalars s -> scalars (span_wrap o s).
Proof. intros H. unfold span_wrap. rewrite !scalars_app. auto using sc_assemble. Qed.
Lemma sc_rjust w s : scalars s -> scalars (rjust 32 w s).
Proof. intros H. unfold rjust. apply scalars_app. split; [|exact H]. apply Forall_forall. intros c Hc. apply repeat_spec in Hc. subst. now apply scb_ok. Qed.
Lemma sc_sub (a b : str) : (forall c, In c a -> In c b) -> scalars b -> scalars a.
Proof. intros H Hb. apply Forall_forall. intros c Hc. rewrite Forall_forall in Hb. auto. Qed.
Lemma in_firstn {A} n (l : list A) x : In x (firstn n l) -> In x l.
Proof. intros H. rewrite <- (firstn_skipn n l). apply in_or_app. now left. Qed.
Lemma in_skipn {A} n (l : list A) x : In x (skipn n l) -> In x l.
Proof. intros H. rewrite <- (firstn_skipn n l). apply in_or_app. now right. Qed.
Lemma sc_separator s : scalars (get_separator s).
Proof. unfold get_separator. destruct (0 <? s_debug s)%nat; apply sc_wrap; now apply lowb_ok. Qed.
Lemma sc_dim s : scalars s -> scalars (dim_0x s).
Proof.
  assert (K : forall n s, (length s <= n)%nat -> scalars s -> scalars (dim_0x s)).
  { induction n as [|n IH]; intros [|c t] Hn H; cbn [length] in Hn; try constructor; [lia|]. inversion H as [|x y Hc Ht]; subst.
    assert (D : scalars (c :: dim_0x t)) by (constructor; [exact Hc|apply IH; [lia|exact Ht]]).
    cbn [dim_0x]. destruct (N.eq_dec c 48) as [->|N1].
    - destruct t as [|d t]; [exact D|]. destruct (N.eq_dec d 120) as [->|N2].
      + inversion Ht; subst. apply scalars_app. split; [apply sc_wrap; now apply lowb_ok|]. apply IH; [cbn in Hn; lia|assumption].
      + revert D. generalize (dim_0x (d :: t)). intros u D. destruct d as [|p]; [exact D|]. do 7 (try (destruct p as [p|p|]; try exact D)). now destruct N2.
    - revert D. generalize (dim_0x t). intros u D. destruct c as [|p]; [exact D|]. do 6 (try (destruct p as [p|p|]; try exact D)). now destruct N1. }
  apply (K (length s)). lia.
Qed.
Lemma sc_prefix s l f : scalars l -> scalars (format_prefix s l f).
Proof.
  intros H. unfold format_prefix. apply sc_dim, scalars_app. split; [|apply sc_separator]. apply sc_wrap, sc_rjust. eapply sc_sub; [|exact H]. intros c. apply in_firstn.
Qed.
Lemma sc_offset s n f : scalars (format_prefix_with_offset s n f).
Proof.
  apply sc_prefix. unfold offset_str. destruct (s_decimal_offsets s); [apply sc_dec|]. cbv zeta. apply scalars_app. split; [now apply lowb_ok|apply sc_hex].
Qed.

(** ** segments *)
Definition seg_ok (g : segment) : Prop := scalars (seg_proc g).
Definition el_ok (e : elem) : Prop := match e with ESeg g => seg_ok g | _ => True end.
Lemma el_ok_emit fn e : (forall g, seg_ok g -> scalars (fn g)) -> el_ok e -> scalars (format_elem fn e).
Proof. intros H He. destruct e; cbn [format_elem]; auto using sc_assemble. Qed.
Lemma els_ok_emit fn l : (forall g, seg_ok g -> scalars (fn g)) -> Forall el_ok l -> scalars (format_elems fn l).
Proof. intros H Hl. apply Forall_flat_map. eapply Forall_impl; [|exact Hl]. intros e. now apply el_ok_emit. Qed.
Lemma attach_ok b segs : Forall el_ok (sb_chain b) -> Forall seg_ok segs -> Forall el_ok (sb_chain (attach b segs)).
Proof.
  intros H1 H2. cbn [attach sb_chain]. apply Forall_app. split; [exact H1|]. apply Forall_flat_map. eapply Forall_impl; [|exact H2].
  intros g Hg. unfold attach_elems. destruct (no_formatting _); repeat constructor; exact Hg.
Qed.
Lemma take_in n (l : list N) x : In x (py_take n l) -> In x l.
Proof. unfold py_take. destruct (_ <? _)%Z; apply in_firstn. Qed.
Lemma drop_in n (l : list N) x : In x (py_drop n l) -> In x l.
Proof. unfold py_drop. destruct (_ <? _)%Z; apply in_skipn. Qed.
Lemma split_ok g n l r : seg_ok g -> seg_split g n = Ok (l, r) -> seg_ok l /\ seg_ok r.
Proof.
  intros H. unfold seg_split. destruct (negb _); [discriminate|]. intros [= <- <-]. split; unfold seg_ok in *; cbn [seg_proc]; (eapply sc_sub; [|exact H]); intros c; [apply take_in|apply drop_in].
Qed.
Lemma loop_ok chain : Forall el_ok chain -> forall req active,
  Forall el_ok (d_out (detach_loop chain req active)) /\ Forall el_ok (d_chain (detach_loop chain req active)).
Proof.
  induction 1 as [|e t He Ht IH]; intros req active; cbn [detach_loop]; [split; constructor|].
  assert (C : Forall el_ok (e :: t)) by now constructor.
  destruct e as [g|r|r|r].
  - destruct (req =? 0)%Z; [(split; cbn [d_out d_chain]; [constructor|first [exact C|constructor]])|]. destruct (data_len g <=? req)%Z.
    + unfold d_emit. cbn [d_out d_chain]. destruct (IH (req - data_len g)%Z active). split; [now constructor|assumption].
    + destruct (seg_split g req) as [[l r]|x] eqn:E; cbn [d_out d_chain]; [|(split; cbn [d_out d_chain]; [constructor|first [exact C|constructor]])]. destruct (split_ok _ _ _ _ He E). split; repeat constructor; assumption.
  - destruct (req =? 0)%Z; [(split; cbn [d_out d_chain]; [constructor|first [exact C|constructor]])|]. unfold d_emit. cbn [d_out d_chain]. destruct (IH req (active ++ [r])). split; [now constructor|assumption].
  - destruct (list_remove r active) as [a|]; [apply IH|]. cbn [d_out d_chain]. (split; cbn [d_out d_chain]; [constructor|first [exact C|constructor]]).
  - unfold d_emit. cbn [d_out d_chain]. destruct (IH req active). split; [now constructor|assumption].
Qed.
Lemma detach_ok b req r b' : Forall el_ok (sb_chain b) -> detach b req = (r, b') ->
  Forall el_ok (sb_chain b') /\ forall els, r = Ok els -> Forall el_ok els.
Proof.
  intros H. unfold detach. destruct (sb_chain b) as [|e t] eqn:E.
  - intros [= <- <-]. rewrite E. split; [constructor|]. intros els [= <-]. constructor.
  - rewrite <- E in *. destruct (loop_ok _ H req (sb_active b)) as [L1 L2].
    destruct (d_err _); intros [= <- <-]; cbn [sb_chain]; (split; [exact L2|]); intros els [= <-].
    rewrite !Forall_app. repeat split; [|exact L1|]; apply Forall_map, Forall_forall; intros; exact I.
Qed.
Lemma detach_bytes_ok b req f r b' : Forall el_ok (sb_chain b) -> detach_bytes b req f = (r, b') ->
  Forall el_ok (sb_chain b') /\ forall els, r = Ok els -> Forall el_ok els.
Proof.
  intros H. unfold detach_bytes. destruct (_ || _)%bool; [|intros [= <- <-]; split; [exact H|discriminate]].
  destruct (detach b req) as [q b2] eqn:E. destruct (detach_ok _ _ _ _ H E) as [D1 D2].
  destruct q as [[|x l]|]; intros [= <- <-]; (split; [exact D1|]); try discriminate. exact D2.
Qed.
Lemma detach_line_ok b f r b' : Forall el_ok (sb_chain b) -> detach_line b f = (r, b') ->
  Forall el_ok (sb_chain b') /\ forall els, r = Ok els -> Forall el_ok els.
Proof.
  intros H. unfold detach_line. destruct (line_scan _) as [n nl]. destruct (n =? 0)%Z; [intros [= <- <-]; split; [exact H|discriminate]|].
  destruct (nl || f)%bool; [intros E; exact (detach_ok _ _ _ _ H E)|]. intros [= <- <-]. split; [exact H|discriminate].
Qed.

(** ** formatters *)
Lemma sc_noop g : seg_ok g -> scalars (seg_processed_noop g).
Proof. auto. Qed.
Lemma sc_raw_hex g : seg_ok g -> scalars (seg_raw_to_hex g).
Proof. intros _. apply Forall_flat_map, Forall_forall. intros b _. constructor; [now apply scb_ok|apply sc_hex]. Qed.
Lemma sc_justify n : scalars (justify_raw n).
Proof. apply Forall_flat_map, Forall_forall. intros b _. now apply lowb_ok. Qed.
Lemma sc_row s c dl els off : Forall el_ok els -> scalars (binary_row s c dl els off).
Proof.
  intros H. unfold binary_row, write_with_offset. cbv zeta. rewrite !scalars_app. repeat split.
  - destruct (effective_print_offsets s); [apply sc_offset|constructor].
  - apply els_ok_emit; [apply sc_raw_hex|exact H].
  - apply sc_justify.
  - now apply lowb_ok.
  - destruct (effective_print_offsets s); [apply sc_separator|now apply lowb_ok].
  - apply els_ok_emit; [apply sc_noop|exact H].
  - now apply lowb_ok.
Qed.
Lemma sc_line s els n : Forall el_ok els -> scalars (text_line s els n).
Proof.
  intros H. unfold text_line. cbv zeta. apply scalars_app. split; [|destruct (ends_with_newline _); now apply lowb_ok].
  unfold write_with_line_num. cbv zeta. apply scalars_app. split; [|apply els_ok_emit; [apply sc_noop|exact H]].
  destruct (0 <? s_debug s)%nat; [apply sc_prefix, sc_dec|]. destruct (s_no_line_numbers s); [constructor|].
  apply scalars_app. split; [apply sc_wrap, sc_rjust, sc_dec|apply sc_separator].
Qed.
Definition out_ok {A} (o : outcome (str * sbuf * A)) : Prop :=
  match o with Fin (w, sb, _) => scalars w /\ Forall el_ok (sb_chain sb) | Fail _ w | NoFuel w => scalars w end.
Lemma binary_loop_ok s c r closed : forall fuel sb off w, Forall el_ok (sb_chain sb) -> scalars w -> out_ok (binary_loop fuel s c r closed sb off w).
Proof.
  induction fuel as [|f IH]; intros sb off w H Hw; cbn [binary_loop]; [exact Hw|].
  destruct (detach_bytes sb r closed) as [q sb'] eqn:E. destruct (detach_bytes_ok _ _ _ _ _ H E) as [D1 D2].
  destruct q as [els|x]; [|destruct x; cbn [out_ok]; auto]. apply IH; [exact D1|]. apply scalars_app. split; [exact Hw|]. apply sc_row. now apply D2.
Qed.
Lemma text_loop_ok s closed : forall fuel sb n w, Forall el_ok (sb_chain sb) -> scalars w -> out_ok (text_loop fuel s closed sb n w).
Proof.
  induction fuel as [|f IH]; intros sb n w H Hw; cbn [text_loop]; [exact Hw|].
  destruct (detach_line sb closed) as [q sb'] eqn:E. destruct (detach_line_ok _ _ _ _ H E) as [D1 D2].
  destruct q as [els|x]; [|destruct x; cbn [out_ok]; auto]. apply IH; [exact D1|]. apply scalars_app. split; [exact Hw|]. apply sc_line. now apply D2.
Qed.
Lemma binary_format_ok fuel s tc closed sb off : Forall el_ok (sb_chain sb) -> out_ok (binary_format fuel s tc closed sb off).
Proof.
  intros H. unfold binary_format. cbv zeta. match goal with |- context [binary_loop ?a ?b ?c ?d ?e ?f ?g ?h] => pose proof (binary_loop_ok b c d e a f g h H (Forall_nil _)) as K; destruct (binary_loop a b c d e f g h) as [[[w sb'] off']|x w|w] end; cbn [out_ok] in *; try exact K.
  destruct (_ && _)%bool; cbn [out_ok]; [|exact K]. destruct K as [K1 K2]. split; [|exact K2]. unfold write. rewrite !scalars_app. repeat split; [exact K1|apply sc_offset|now apply lowb_ok].
Qed.

(** ** a run *)
Definition PInv (p : proc) : Prop := pb_raw (pr_pb p) = [] /\ Forall el_ok (sb_chain (pr_sb p)) /\ scalars (pr_out p).
Lemma format_ok s rm tc p : PInv p -> scalars (pr_out (fst (format s rm tc p))) /\ (snd (format s rm tc p) = CbOk -> PInv (fst (format s rm tc p))).
Proof.
  intros (H1 & H2 & H3). unfold format. cbv zeta. destruct rm.
  - pose proof (binary_format_ok (loop_fuel (pr_sb p)) s tc (pb_closed (pr_pb p)) (pr_sb p) (pr_offset p) H2) as K.
    destruct (binary_format _ _ _ _ _ _) as [[[w sb'] n]|x w|w]; cbn [out_ok fst snd pr_out] in *.
    + destruct K as [K1 K2]. assert (scalars (pr_out p ++ w)) by now apply scalars_app. split; [assumption|]. intros _. split; [exact H1|split; [exact K2|assumption]].
    + split; [now apply scalars_app|discriminate].
    + split; [now apply scalars_app|discriminate].
  - pose proof (text_loop_ok s (pb_closed (pr_pb p)) (loop_fuel (pr_sb p)) (pr_sb p) (pr_line p) [] H2 (Forall_nil _)) as K. unfold text_format.
    destruct (text_loop _ _ _ _ _ _) as [[[w sb'] n]|x w|w]; cbn [out_ok fst snd pr_out] in *.
    + destruct K as [K1 K2]. assert (scalars (pr_out p ++ w)) by now apply scalars_app. split; [assumption|]. intros _. split; [exact H1|split; [exact K2|assumption]].
    + split; [now apply scalars_app|discriminate].
    + split; [now apply scalars_app|discriminate].
Qed.

(** characters of a painted text *)
Lemma painted_scalars a s a' cs : Painted a s a' cs -> scalars (map cell_char cs) -> scalars s.
Proof.
  induction 1 as [a|a p s a' cs H IH|a c s a' cs Hc H IH]; intros K; [constructor| |].
  - apply scalars_app. split; [apply sc_assemble|now apply IH].
  - cbn [map] in K. rewrite to_cell_char in K. inversion K; subst. constructor; auto.
Qed.
Lemma shows_scalars segs : forall cs, Forall2 seg_shows segs cs -> scalars (map cell_char (concat cs)) -> Forall seg_ok segs.
Proof.
  induction segs as [|g segs IH]; intros cs H K; [constructor|]. inversion H as [|x c l cs' Hg H']; subst. cbn [concat] in K. rewrite map_app in K.
  apply scalars_app in K as [K1 K2]. constructor; [|now apply (IH cs')]. destruct Hg as (_ & a' & HP & _). eapply painted_scalars; eassumption.
Qed.
(** tokens show nothing else *)
Definition tcells_ok (l : list tcell) : Prop := scalars (map fst l).
Lemma tc_app a b : tcells_ok (a ++ b) <-> tcells_ok a /\ tcells_ok b.
Proof. unfold tcells_ok. rewrite map_app. apply scalars_app. Qed.
Lemma tc_styled a l : scalars l -> tcells_ok (styled a l).
Proof. intros H. unfold tcells_ok, styled. rewrite map_map. cbn [fst]. now rewrite map_id. Qed.
Lemma tc_one c a : scalar c -> tcells_ok [(c, a)].
Proof. intros H. constructor; [exact H|constructor]. Qed.
Lemma tc_flat {A} (f : A -> list tcell) l : (forall x, In x l -> tcells_ok (f x)) -> tcells_ok (flat_map f l).
Proof. intros H. induction l as [|x l IH]; [constructor|]. cbn [flat_map]. apply tc_app. split; [apply H; now left|]. apply IH. intros; apply H; now right. Qed.
Lemma namec_scalars n : Forall namec n -> scalars n.
Proof. intros H. apply lows. eapply Forall_impl; [|exact H]. unfold namec. intros; lia. Qed.
Lemma tc_names a names : Forall (Forall namec) names -> tcells_ok (name_cells a names).
Proof.
  induction 1 as [|n names Hn H IH]; [constructor|]. cbn [name_cells]. destruct names; [apply tc_styled; now apply namec_scalars|].
  rewrite !tc_app. split; [apply tc_styled; now apply namec_scalars|]. split; [apply tc_one; now apply scb_ok|exact IH].
Qed.
Lemma marker_scalar s k : scalar (marker s k).
Proof.
  apply scb_ok. unfold marker. destruct k as [| |p i f| | | | | | |r]; try reflexivity.
  - destruct (binary_mode s); reflexivity.
  - destruct (csi_sort p f); reflexivity.
  - destruct r; try reflexivity. destruct (s_focus s CC_space); reflexivity.
Qed.
Lemma esc_tail_scalars k w rest : Token k w rest -> is_escape_seq k = true -> scalars (tl w).
Proof. intros T H. destruct (esc_shape k w rest T H) as (t & -> & _ & Ht). cbn [tl]. apply lows. eapply Forall_impl; [|exact Ht]. cbn beta. intros; lia. Qed.
Lemma text_cells_scalar s k w rest codes : Token k w rest -> tcells_ok (fst (text_cells s k w codes)) /\ tcells_ok (snd (text_cells s k w codes)).
Proof.
  intros T. unfold text_cells. destruct (s_ignore s (class_of k)).
  - split; [|constructor]. cbn [fst]. apply tc_flat. intros x _. constructor; [now apply scb_ok|]. destruct k; try exact (Forall_nil _). apply tc_one. now apply scb_ok.
  - assert (R : forall a l, tcells_ok (styled a (map (fun _ : N => marker s k) l))).
    { intros a l. apply tc_styled. apply Forall_map, Forall_forall. intros c _. apply marker_scalar. }
    assert (S1 : forall (b : bool) x, tcells_ok (if b then [(32, x)] else [])) by (intros [|] x; [apply tc_one; now apply scb_ok|constructor]).
    destruct (is_escape_seq k) eqn:E.
    + cbn [fst snd]. rewrite !tc_app. repeat split.
      * destruct (separators s); [apply tc_one; now apply scb_ok|constructor].
      * apply tc_one, marker_scalar.
      * unfold escape_details_cells. destruct (marker_level s); [constructor| |apply tc_styled; eapply esc_tail_scalars; eassumption].
        destruct k; try exact (Forall_nil _). destruct (csi_sort _ _); try exact (Forall_nil _). apply tc_names, code_names_chars.
      * destruct (separators s); [apply tc_one; now apply scb_ok|constructor].
    + destruct k as [cp| |p i f| | | | | | |r]; cbn [fst snd]; try discriminate E; try (split; [apply R|constructor]).
      * inversion T; subst. split; [|constructor]. now apply tc_one.
      * split; [|constructor]. constructor; [now apply scb_ok|]. apply tc_one. now apply scb_ok.
      * destruct r; cbn [fst snd]; try (split; [apply R|constructor]).
        -- assert (CD : forall b, run_member R_control b -> tcells_ok (control_details_cells s b)).
           { intros b Hb. unfold control_details_cells. destruct (marker_level s); [constructor|apply tc_one; cbn in Hb; unfold rng in Hb; apply low; lia|apply tc_styled, sc_hex]. }
           inversion T as [| | | | | | | | |k' w' r' Hw P Hr]; subst. rewrite (app_removelast_last 0 Hw) in P. apply Forall_app in P as [P1 P2].
           split; [rewrite tc_app; split|].
           ++ apply tc_flat. intros b Hb. constructor; [now apply scb_ok|]. apply CD. rewrite Forall_forall in P1. auto.
           ++ apply tc_one. now apply scb_ok.
           ++ apply CD. now inversion P2.
        -- split; [|constructor]. apply tc_flat. intros x _. constructor; [now apply scb_ok|]. apply tc_one. now apply scb_ok.
        -- split; [|constructor]. apply tc_styled. inversion T; subst. apply lows. eapply Forall_impl; [|eassumption]. cbn [run_member]. unfold rng. intros; lia.
Qed.
Lemma bin_cells_scalar s k w rest codes : Token k w rest -> scalars (map (fun x : bcell => snd (fst x)) (binary_cells s k w codes)).
Proof.
  intros T. apply Forall_map. unfold binary_cells. destruct (s_ignore s (class_of k)); [apply Forall_map, Forall_forall; intros; now apply scb_ok|].
  destruct (is_escape_seq k) eqn:E.
  - pose proof (esc_tail_scalars k w rest T E) as HT. destruct w as [|b t]; [constructor|]. cbn [tl] in HT. constructor; [apply marker_scalar|].
    apply Forall_map. eapply Forall_impl; [|exact HT]. intros c Hc. exact Hc.
  - assert (R : forall a, Forall (fun x : bcell => scalar (snd (fst x))) (map (fun b => (b, marker s k, a)) w)).
    { intros a. apply Forall_map, Forall_forall. intros. apply marker_scalar. }
    destruct k as [cp| |p i f| | | | | | |r]; try discriminate E; try (apply R; easy).
    + destruct (decoding s); [|apply R]. inversion T; subst. apply Forall_forall. intros [[b c] a] Hx. apply in_combine_l in Hx. apply in_combine_r in Hx. cbn [fst snd].
      apply in_app_or in Hx as [Hx|[<-|[]]]; [apply repeat_spec in Hx; subst; now apply scb_ok|assumption].
    + destruct r; try (apply R; easy). apply Forall_map. inversion T; subst. eapply Forall_impl; [|eassumption]. cbn [run_member]. unfold rng. intros c Hc. apply low. cbn; lia.
Qed.
Lemma text_tok_ok s e k w rest segs : Env s e -> binary_mode s = false -> Token k w rest -> tok_segs e k w = Ok segs -> Forall seg_ok segs.
Proof.
  intros E B T HS. assert (C : exists codes, TokCodes k codes).
  { unfold tok_segs in HS. destruct (tok_state k sgr_state_init) as [ss|] eqn:TS; [|discriminate]. apply tok_state_codes in TS as (codes & HC & _). eauto. }
  destruct C as [codes HC]. destruct (text_tok s e k w rest segs codes E B T HS HC) as (body & trail & bc & tc & -> & H1 & H2 & H3 & H4 & _).
  destruct (text_cells_scalar s k w rest codes T) as [S1 S2]. apply Forall_app. split.
  - apply (shows_scalars body bc H1). rewrite H3, map_to_cell_char. exact S1.
  - apply (shows_scalars trail tc H2). rewrite H4, map_to_cell_char. exact S2.
Qed.
Lemma combine_chars (a b : list N) (c : attrs) : length b = length a -> map (fun x : bcell => snd (fst x)) (combine (combine a b) (repeat c (length a))) = b.
Proof. revert b. induction a as [|x a IH]; intros [|y b] H; try discriminate; [reflexivity|]. cbn in *. f_equal. apply IH. lia. Qed.
Lemma bin_tok_ok s e k w rest segs : Env s e -> binary_mode s = true -> Token k w rest -> tok_segs e k w = Ok segs -> Forall seg_ok segs.
Proof.
  intros E B T HS. assert (C : exists codes, TokCodes k codes).
  { unfold tok_segs in HS. destruct (tok_state k sgr_state_init) as [ss|] eqn:TS; [|discriminate]. apply tok_state_codes in TS as (codes & HC & _). eauto. }
  destruct C as [codes HC]. destruct (bin_tok s e k w rest segs codes E B T HS HC) as [G1 G2].
  pose proof (bin_cells_scalar s k w rest codes T) as K. rewrite <- G2 in K. clear -G1 K. induction G1 as [|g segs (_ & _ & L & _) H IH]; [constructor|].
  cbn [flat_map] in K. rewrite map_app in K. apply scalars_app in K as [K1 K2]. constructor; [|now apply IH].
  unfold seg_cells3 in K1. rewrite combine_chars in K1 by exact L. exact K1.
Qed.
Lemma toks_ok s e : Env s e -> forall ts segs, Forall (fun t => exists rest, Token (fst t) (snd t) rest) ts -> toks_segs e ts = Ok segs -> Forall seg_ok segs.
Proof.
  intros E. induction ts as [|[k w] ts IH]; intros segs HT HS; cbn [toks_segs] in HS; [injection HS as <-; constructor|].
  destruct (tok_segs e k w) as [a|] eqn:A; [|discriminate]. cbn [bind] in HS. destruct (toks_segs e ts) as [b|] eqn:Bq; [|discriminate]. injection HS as <-.
  inversion HT as [|x l [rest Hx] HT']; subst. cbn [fst snd] in Hx. apply Forall_app. split; [|now apply IH].
  destruct (binary_mode s) eqn:B; [eapply bin_tok_ok|eapply text_tok_ok]; eassumption.
Qed.

Lemma chunk_ok s e tc p raw off fin : Env s e -> is_bytes raw -> PInv p ->
  scalars (pr_out (fst (process_chunk s e tc p raw off fin))) /\ (snd (process_chunk s e tc p raw off fin) = CbOk -> PInv (fst (process_chunk s e tc p raw off fin))).
Proof.
  intros E Hb (H1 & H2 & H3). unfold process_chunk. cbv zeta. destruct (lexes_total raw Hb) as [lx HL].
  pose proof (parse_toks e (append_raw (pr_pb p) raw fin) (pr_sb p) (pr_ss p) lx) as PT.
  unfold append_raw in PT at 1 2. cbn [pb_raw] in PT. rewrite H1 in PT. cbn [app] in PT. specialize (PT Hb HL).
  destruct (toks_segs e lx) as [segs|x] eqn:HS.
  - destruct PT as [ss' ->]. apply format_ok. split; [reflexivity|]. cbn [pr_sb pr_out]. split; [|exact H3]. apply attach_ok; [exact H2|].
    eapply toks_ok; [exact E|apply (lexes_tokens raw lx HL)|exact HS].
  - rewrite PT. cbn [fst snd pr_out]. split; [exact H3|discriminate].
Qed.
