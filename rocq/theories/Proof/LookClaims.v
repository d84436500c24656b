(** C10, C12, C16, C17: leaks, completeness, ignoring and focusing *)
From Coq Require Import List Arith NArith ZArith Bool Lia.
From Verif.Model Require Import Base Ansi Regex Settings Segment Template Parser Console Formatter Reader Runner.
From Verif.Spec Require Import Numbers Terminal Utf8 Lexical SgrParams Display Output Input Dump Fragments Compare.
From Verif.Proof Require Import BaseFacts RegexFacts TermFacts ClosingFacts LexFacts TokFacts PaintFacts DisplayFacts BinDisplay TextDisplay TextFormat RunFacts ReaderFacts RunMain LexClaims RunClaims BinClaims TextClaims FragClaims ShowClaims.
Import ListNotations.
Local Open Scope N_scope.

Lemma Forall2_length {A B} (R : A -> B -> Prop) l m : Forall2 R l m -> length l = length m.
Proof. induction 1; cbn; congruence. Qed.

(** ** C10 *)
Definition shown_ok (c : N) : Prop := displayable c = true.
Lemma ok_scalar c : 32 <= c -> c <> 127 -> ~ (128 <= c /\ c <= 159) -> scalar c -> shown_ok c.
Proof.
  intros H1 H2 H3 H4. unfold scalar in H4. unfold shown_ok, displayable. apply orb_true_iff. right. rewrite !andb_true_iff, !negb_true_iff. repeat split.
  - now apply N.leb_le.
  - now apply N.eqb_neq.
  - apply not_true_iff_false. rewrite between_spec. exact H3.
  - apply not_true_iff_false. rewrite between_spec. lia.
  - apply N.ltb_lt. lia.
Qed.
Lemma ok_range c : 32 <= c -> c <> 127 -> ~ (128 <= c /\ c <= 159) -> c < 0xD800 -> shown_ok c.
Proof. intros H1 H2 H3 H4. apply ok_scalar; try assumption. now left. Qed.
Definition cells_ok (k : kind) (l : list tcell) : Prop := Forall (fun x => shown_ok (fst x) \/ (k = K_utf8 (fst x) /\ 128 <= fst x /\ fst x <= 159)) l.
Lemma ok_app k a b : cells_ok k (a ++ b) <-> cells_ok k a /\ cells_ok k b.
Proof. apply Forall_app. Qed.
Lemma ok_styled k a l : Forall shown_ok l -> cells_ok k (styled a l).
Proof. intros H. unfold cells_ok, styled. apply Forall_map. eapply Forall_impl; [|exact H]. cbn [fst]. auto. Qed.
Lemma ok_one k c a : shown_ok c -> cells_ok k [(c, a)].
Proof. intros H. constructor; [now left|constructor]. Qed.
Lemma ok_flat {A} k (f : A -> list tcell) l : (forall x, In x l -> cells_ok k (f x)) -> cells_ok k (flat_map f l).
Proof. intros H. unfold cells_ok. apply Forall_flat_map. now apply Forall_forall. Qed.
Lemma ok_names k a names : Forall (Forall namec) names -> cells_ok k (name_cells a names).
Proof.
  assert (N : forall n, Forall namec n -> Forall shown_ok n).
  { intros n H. eapply Forall_impl; [|exact H]. unfold namec. intros c Hc. apply ok_range; lia. }
  induction 1 as [|n names Hn H IH]; [constructor|]. cbn [name_cells]. destruct names; [apply ok_styled; auto|].
  rewrite !ok_app. split; [apply ok_styled; auto|]. split; [now apply ok_one|exact IH].
Qed.
Lemma marker_ok s k : k <> K_run R_printable -> shown_ok (marker s k).
Proof.
  intros H. unfold marker. destruct k as [| |p i f| | | | | | |r]; try reflexivity.
  - destruct (binary_mode s); reflexivity.
  - destruct (csi_sort p f); reflexivity.
  - destruct r; try reflexivity; [destruct (s_focus s CC_space); reflexivity|easy].
Qed.
Lemma hex_ok w n : Forall shown_ok (fmt_hex_lo w n).
Proof. eapply Forall_impl; [|apply fmt_hex_lo_chars]. cbn beta. intros c Hc. apply ok_range; lia. Qed.
Lemma dec_ok n : Forall shown_ok (dec n).
Proof. eapply Forall_impl; [|apply dec_namec]. unfold namec. intros c Hc. apply ok_range; lia. Qed.
Lemma esc_tail_ok k w rest : Token k w rest -> is_escape_seq k = true -> Forall shown_ok (tl w).
Proof. intros T H. destruct (esc_shape k w rest T H) as (t & -> & _ & Ht). cbn [tl]. eapply Forall_impl; [|exact Ht]. cbn beta. intros c Hc. apply ok_range; lia. Qed.

Lemma text_cells_ok s k w rest codes : Token k w rest -> cells_ok k (fst (text_cells s k w codes)) /\ cells_ok k (snd (text_cells s k w codes)).
Proof.
  intros T. unfold text_cells. destruct (s_ignore s (class_of k)).
  - split; [|constructor]. cbn [fst]. apply ok_flat. intros x _. constructor; [now left|]. destruct k; try exact (Forall_nil _). now apply ok_one.
  - assert (R : forall a l, k <> K_run R_printable -> cells_ok k (styled a (map (fun _ : N => marker s k) l))).
    { intros a l Hk. apply ok_styled. apply Forall_map, Forall_forall. intros c _. now apply marker_ok. }
    destruct (is_escape_seq k) eqn:E.
    + assert (Hk : k <> K_run R_printable) by (intros ->; discriminate). cbn [fst snd]. rewrite !ok_app. repeat split.
      * destruct (separators s); [now apply ok_one|constructor].
      * now apply ok_one, marker_ok.
      * unfold escape_details_cells. destruct (marker_level s); [constructor| |apply ok_styled; eapply esc_tail_ok; eassumption].
        destruct k; try exact (Forall_nil _). destruct (csi_sort _ _); try exact (Forall_nil _). apply ok_names, code_names_chars.
      * destruct (separators s); [now apply ok_one|constructor].
    + destruct k as [cp| |p i f| | | | | | |r]; cbn [fst snd]; try discriminate E; try (split; [apply R; easy|constructor]).
      * inversion T; subst. split; [|constructor]. constructor; [|constructor]. cbn [fst].
        destruct (N.le_gt_cases cp 159); [right; auto|left; apply ok_scalar; (lia || assumption)].
      * split; [|constructor]. constructor; [left; reflexivity|]. now apply ok_one.
      * destruct r; cbn [fst snd]; try (split; [apply R; easy|constructor]).
        -- assert (CD : forall b, run_member R_control b -> cells_ok (K_run R_control) (control_details_cells s b)).
           { intros b Hb. unfold control_details_cells. destruct (marker_level s); [constructor|apply ok_one; cbn in Hb; unfold rng in Hb; apply ok_range; lia|apply ok_styled, hex_ok]. }
           inversion T as [| | | | | | | | |k' w' r' Hw P Hr]; subst. rewrite (app_removelast_last 0 Hw) in P. apply Forall_app in P as [P1 P2].
           split; [rewrite ok_app; split|].
           ++ apply ok_flat. intros b Hb. constructor; [left; reflexivity|]. apply CD. rewrite Forall_forall in P1. auto.
           ++ now apply ok_one.
           ++ apply CD. now inversion P2.
        -- split; [|constructor]. apply ok_flat. intros x _. constructor; [left; reflexivity|]. now apply ok_one.
        -- split; [|constructor]. apply ok_styled. inversion T; subst. eapply Forall_impl; [|eassumption]. cbn [run_member]. unfold rng. intros c Hc. apply ok_range; lia.
Qed.
Lemma number_ok s n : Forall (fun x => shown_ok (fst x)) (line_number_cells s n).
Proof.
  assert (A : forall w l, Forall shown_ok l -> Forall shown_ok (aligned w l)).
  { intros w l H. unfold aligned. apply Forall_app. split; [|exact H]. apply Forall_forall. intros c Hc. apply repeat_spec in Hc. now subst. }
  assert (S : forall a l, Forall shown_ok l -> Forall (fun x : tcell => shown_ok (fst x)) (styled a l)) by (intros; now apply Forall_map).
  unfold line_number_cells. destruct (debugging s); [|destruct (s_no_line_numbers s); [constructor|]];
  (apply Forall_app; split; [|constructor; [reflexivity|constructor]]); apply S, A; [apply firstn_Forall'|]; apply dec_ok.
Qed.

Definition leak_ok (toks : list token) (x : tcell) : Prop :=
  shown_ok (fst x) \/ (128 <= fst x /\ fst x <= 159 /\ exists t, In t toks /\ tok_kind t = K_utf8 (fst x)).
Lemma pieces_ok s toks l : Forall Piece l -> (forall t, In t l -> In t toks) -> Forall (leak_ok toks) (pieces_cells s l).
Proof.
  induction 1 as [|t l [rest T] H IH]; intros HI; [constructor|].
  assert (K : forall c, cells_ok (tok_kind t) c -> Forall (leak_ok toks) c).
  { intros c Hc. eapply Forall_impl; [|exact Hc]. intros x [Hx|(Hk & Hx)]; [now left|]. right. repeat split; try apply Hx. exists t. split; [apply HI; now left|exact Hk]. }
  destruct (text_cells_ok s _ _ rest (tok_codes t) T) as [C1 C2]. destruct l as [|t2 l]; [cbn [pieces_cells]; now apply K|].
  rewrite pieces_cons by easy. rewrite !Forall_app. split; [now apply K|]. split; [now apply K|]. apply IH. intros x Hx. apply HI. now right.
Qed.
Lemma numbered_ok s toks n ls : Forall (fun l => Forall Piece l /\ forall t, In t l -> In t toks) ls -> Forall (leak_ok toks) (concat (numbered s n ls)).
Proof.
  intros H. revert n. induction H as [|l ls [H1 H2] H IH]; intros n; [constructor|]. cbn [numbered concat]. unfold line_cells. rewrite !Forall_app. repeat split.
  - eapply Forall_impl; [|apply number_ok]. intros x Hx. now left.
  - now apply pieces_ok.
  - destruct (terminated l); [constructor|]. constructor; [now left|constructor].
  - apply IH.
Qed.
Lemma lines_in toks l t : In l (token_lines toks) -> In t l -> In t toks.
Proof.
  revert l. induction toks as [|x toks IH]; intros l HL HT; [easy|]. cbn [token_lines] in HL. destruct (is_line_break x).
  - destruct HL as [<-|HL]; [destruct HT as [<-|[]]; now left|]. right. eauto.
  - destruct (token_lines toks) as [|m ms]; [destruct HL as [<-|[]]; destruct HT as [<-|[]]; now left|].
    destruct HL as [<-|HL]; [|right; eapply IH; [right; exact HL|exact HT]]. destruct HT as [<-|HT]; [now left|]. right. eapply IH; [left; reflexivity|exact HT].
Qed.
Lemma text_all_ok s toks ls : Forall Piece toks -> (forall l, In l ls -> In l (token_lines toks)) -> Forall (leak_ok toks) (concat (numbered s 1 ls)).
Proof.
  intros H HI. apply numbered_ok. apply Forall_forall. intros l Hl. specialize (HI l Hl). split.
  - apply Forall_forall. intros t Ht. rewrite Forall_forall in H. apply H. eapply lines_in; eassumption.
  - intros t Ht. eapply lines_in; eassumption.
Qed.

Lemma no_leaks cs toks data rest rows out : Tokens cs toks -> data = concat cs ++ rest -> displays out rows -> Forall (leak_ok toks) (concat rows) ->
  forall c, In (Leak c) (screen out) -> 128 <= c /\ c <= 159 /\ occurs (utf8_encode c) data.
Proof.
  intros HT -> [[HD _] _] HL c HI. rewrite HD in HI. apply in_map_iff in HI as (x & E & Hx). rewrite Forall_forall in HL. specialize (HL x Hx).
  unfold to_cell in E. destruct HL as [HL|(H1 & H2 & t & Ht & Hk)].
  - rewrite HL in E. discriminate.
  - destruct (displayable (fst x)); [discriminate|]. injection E as <-. split; [exact H1|]. split; [exact H2|].
    destruct (coded_tokens cs toks HT) as [HP <-]. rewrite Forall_forall in HP. destruct (HP t Ht) as [r T]. rewrite Hk in T.
    assert (EB : tok_bytes t = utf8_encode (fst x)) by (inversion T; reflexivity). apply in_split in Ht as (a & b & ->).
    rewrite map_app, concat_app. cbn [map concat]. rewrite EB. exists (concat (map tok_bytes a)), (concat (map tok_bytes b) ++ rest). now rewrite <- !app_assoc.
Qed.
Lemma text_leaks s tc src evs chunks p acts en : opens src -> binary_mode s = false -> Processed s evs chunks -> byteio_run s tc src evs = (p, acts, en) ->
  forall c, In (Leak c) (screen (pr_out p)) -> 128 <= c /\ c <= 159 /\ occurs (utf8_encode c) (concat chunks).
Proof.
  intros HS HB HP HR. destruct (text_any s tc src evs chunks HS HB HP) as (p' & acts' & en' & cs & toks & rows & rest & R & T & HR2 & HC & HD).
  rewrite HR in R. injection R as <- <- <-. eapply no_leaks; [exact T|exact HC|exact HD|].
  destruct HR2 as [-> | ->]; apply text_all_ok; try (eapply pieces_of; exact T); auto. intros l Hl. apply filter_In in Hl. tauto.
Qed.

(** binary mode *)
Lemma bin_cells_ok s k w rest codes : Token k w rest ->
  Forall (fun x : bcell => shown_ok (snd (fst x)) \/ (decoding s = true /\ k = K_utf8 (snd (fst x)) /\ 128 <= snd (fst x) /\ snd (fst x) <= 159)) (binary_cells s k w codes).
Proof.
  intros T. unfold binary_cells. destruct (s_ignore s (class_of k)); [apply Forall_map, Forall_forall; intros; now left|].
  destruct (is_escape_seq k) eqn:E.
  - pose proof (esc_tail_ok k w rest T E) as HT. destruct w as [|b t]; [constructor|]. cbn [tl] in HT. constructor.
    + left. apply marker_ok. intros ->. discriminate.
    + apply Forall_map. eapply Forall_impl; [|exact HT]. intros c Hc. now left.
  - assert (R : forall a, k <> K_run R_printable -> Forall (fun x : bcell => shown_ok (snd (fst x)) \/ (decoding s = true /\ k = K_utf8 (snd (fst x)) /\ 128 <= snd (fst x) /\ snd (fst x) <= 159)) (map (fun b => (b, marker s k, a)) w)).
    { intros a Hk. apply Forall_map, Forall_forall. intros. left. now apply marker_ok. }
    destruct k as [cp| |p i f| | | | | | |r]; try discriminate E; try (apply R; easy).
    + destruct (decoding s); [|apply R; easy]. inversion T; subst. apply Forall_forall. intros [[b c] a] Hx. apply in_combine_l in Hx. apply in_combine_r in Hx. cbn [fst snd].
      apply in_app_or in Hx as [Hx|[<-|[]]]; [apply repeat_spec in Hx; subst; now left|]. destruct (N.le_gt_cases cp 159); [right; auto|left; apply ok_scalar; (lia || assumption)].
    + destruct r; try (apply R; easy). apply Forall_map. inversion T; subst. eapply Forall_impl; [|eassumption]. cbn [run_member]. unfold rng. intros c Hc. left. apply ok_range; cbn; lia.
Qed.
Definition bleak_ok s (toks : list token) (x : bcell) : Prop :=
  shown_ok (snd (fst x)) \/ (decoding s = true /\ 128 <= snd (fst x) /\ snd (fst x) <= 159 /\ exists t, In t toks /\ tok_kind t = K_utf8 (snd (fst x))).
Lemma byte_cells_ok s toks : Forall Piece toks -> Forall (bleak_ok s toks) (byte_cells s toks).
Proof.
  intros H. unfold byte_cells. apply Forall_flat_map, Forall_forall. intros t Ht. rewrite Forall_forall in H. destruct (H t Ht) as [r T].
  eapply Forall_impl; [|eapply bin_cells_ok; exact T]. intros x [Hx|(Hd & Hk & Hx)]; [now left|]. right. repeat split; try tauto. eauto.
Qed.
Lemma offset_ok s a n : Forall (fun x => shown_ok (fst x)) (offset_cells s a n).
Proof.
  assert (S : forall a l, Forall shown_ok l -> Forall (fun x : tcell => shown_ok (fst x)) (styled a l)) by (intros; now apply Forall_map).
  assert (RP : forall n, Forall shown_ok (repeat 32 n)) by (intros; apply Forall_forall; intros c Hc; apply repeat_spec in Hc; now subst).
  unfold offset_cells. destruct (s_decimal_offsets s).
  - apply S. unfold aligned. apply Forall_app. split; [apply RP|]. apply firstn_Forall', dec_ok.
  - cbv zeta. rewrite !Forall_app. repeat split; apply S; [apply RP| |apply firstn_Forall', hex_ok]. repeat constructor.
Qed.
Lemma row_ok s c off row (P : bcell -> Prop) (Q : tcell -> Prop) : Forall P row ->
  (forall x, shown_ok (fst x) -> Q x) -> (forall x, P x -> Q (char_cell x)) -> Forall Q (row_cells s c off row).
Proof.
  intros HP HQ HQ2. unfold row_cells. rewrite !Forall_app.
  assert (S : forall a l, Forall shown_ok l -> Forall Q (styled a l)) by (intros a l Hl; apply Forall_map; eapply Forall_impl; [|exact Hl]; intros; now apply HQ).
  assert (HB : Q (bar s)) by now apply HQ.
  repeat split.
  - destruct (with_offsets s); [|constructor]. apply Forall_app. split; [eapply Forall_impl; [|apply offset_ok]; intros; now apply HQ|]. now constructor.
  - apply Forall_flat_map, Forall_forall. intros [[b ch] a] _. cbn [hex_cells]. apply S. constructor; [reflexivity|apply hex_ok].
  - apply S. apply Forall_forall. intros x Hx. apply repeat_spec in Hx. now subst.
  - constructor; [now apply HQ|]. constructor; [destruct (with_offsets s); now apply HQ|constructor].
  - apply Forall_map. eapply Forall_impl; [|exact HP]. exact HQ2.
  - constructor; [now apply HQ|constructor].
Qed.
Lemma rows_ok s c (P : bcell -> Prop) (Q : tcell -> Prop) rows : Forall (Forall P) rows ->
  (forall x, shown_ok (fst x) -> Q x) -> (forall x, P x -> Q (char_cell x)) -> forall off, Forall Q (concat (rows_cells s c off rows)).
Proof.
  intros HP HQ HQ2. induction HP as [|r rows Hr H IH]; intros off; [constructor|]. cbn [rows_cells concat]. apply Forall_app. split; [eapply row_ok; eassumption|apply IH].
Qed.
Lemma groups_all {A} (P : A -> Prop) c l : Forall P l -> Forall (Forall P) (groups c l).
Proof.
  unfold groups. generalize (length l) as f. intros f. revert l. induction f as [|f IH]; intros l H; [constructor|]. cbn [grouped]. destruct l as [|x l]; [constructor|].
  constructor; [now apply firstn_Forall'|]. apply IH. rewrite <- (firstn_skipn c (x :: l)) in H. now apply Forall_app in H.
Qed.
Lemma total_ok s n (Q : tcell -> Prop) : (forall x, shown_ok (fst x) -> Q x) -> Forall Q (concat (total_cells s n)).
Proof.
  intros HQ. assert (HB : Q (bar s)) by now apply HQ.
  unfold total_cells. destruct (with_offsets s); [|constructor]. cbn [concat]. rewrite app_nil_r, !Forall_app. split; [eapply Forall_impl; [|apply offset_ok]; exact HQ|].
  split; (constructor; [now try apply HQ|constructor]).
Qed.
Lemma bin_leaks s tc c src evs chunks p acts en : opens src -> binary_ok s tc c -> Processed s evs chunks -> byteio_run s tc src evs = (p, acts, en) ->
  forall x, In (Leak x) (screen (pr_out p)) -> decoding s = true /\ 128 <= x /\ x <= 159 /\ occurs (utf8_encode x) (concat chunks).
Proof.
  intros HS HB HP HR. destruct (bin_any s tc c src evs chunks HS HB HP) as (p' & acts' & en' & cs & toks & rows & rest & R & T & HR2 & HC & HD).
  rewrite HR in R. injection R as <- <- <-.
  set (Q := fun x : tcell => shown_ok (fst x) \/ (decoding s = true /\ 128 <= fst x /\ fst x <= 159 /\ exists t, In t toks /\ tok_kind t = K_utf8 (fst x))).
  assert (A : Forall Q (concat rows)).
  { assert (HQ : forall x, shown_ok (fst x) -> Q x) by (intros; now left).
    assert (HQ2 : forall x, bleak_ok s toks x -> Q (char_cell x)) by (intros [[b ch] a] Hx; exact Hx).
    pose proof (byte_cells_ok s toks (pieces_of _ _ T)) as HO.
    destruct HR2 as [-> | ->].
    - unfold binary_rows_so_far. eapply rows_ok; [|exact HQ|exact HQ2]. apply groups_all. now apply firstn_Forall'.
    - unfold binary_rows. rewrite concat_app. apply Forall_app. split; [eapply rows_ok; [|exact HQ|exact HQ2]; now apply groups_all|now apply total_ok]. }
  intros x HI. split.
  - destruct HD as [[HD _] _]. rewrite HD in HI. apply in_map_iff in HI as (y & E & Hy). rewrite Forall_forall in A. specialize (A y Hy).
    unfold to_cell in E. destruct A as [A|A]; [rewrite A in E; discriminate|apply A].
  - eapply no_leaks; [exact T|exact HC|exact HD| |exact HI]. eapply Forall_impl; [|exact A]. intros y [Hy|(_ & Hy)]; [now left|now right].
Qed.

(** ** C12 *)
Lemma trailing_cons s t l : l <> [] -> trailing s (t :: l) = trailing s l.
Proof.
  intros H. unfold trailing. cbn [rev]. destruct (rev l) as [|x r] eqn:E; [|reflexivity]. apply (f_equal (@rev _)) in E. rewrite rev_involutive in E. contradiction.
Qed.
Lemma break_trailing s t : is_line_break t = true -> snd (tok_cells s t) = [].
Proof.
  intros H. unfold is_line_break in H. unfold tok_cells, text_cells. destruct (tok_kind t); try discriminate. destruct (s_ignore s _); reflexivity.
Qed.
Lemma pieces_all s l : trailing s l = [] -> pieces_cells s l = flat_map (whole_cells s) l.
Proof.
  induction l as [|t l IH]; intros H; [reflexivity|]. destruct l as [|t2 l].
  - cbn [pieces_cells flat_map]. unfold whole_cells. cbn in H. rewrite H, !app_nil_r. reflexivity.
  - rewrite pieces_cons by easy. rewrite trailing_cons in H by easy. rewrite IH by exact H. cbn [flat_map]. unfold whole_cells at 3. now rewrite <- !app_assoc.
Qed.
Lemma lines_trailing s toks : trailing s toks = [] -> Forall (fun l => trailing s l = []) (token_lines toks).
Proof.
  induction toks as [|t toks IH]; intros H; [constructor|]. cbn [token_lines]. destruct (is_line_break t) eqn:B.
  - constructor; [exact (break_trailing s t B)|]. destruct toks as [|t2 toks]; [constructor|]. apply IH. now rewrite <- (trailing_cons s t) by easy.
  - destruct toks as [|t2 toks]; [constructor; [exact H|constructor]|]. rewrite trailing_cons in H by easy. specialize (IH H).
    destruct (token_lines (t2 :: toks)) as [|l ls] eqn:E; [exfalso; cbn [token_lines] in E; destruct (is_line_break t2); [discriminate|]; destruct (token_lines toks); discriminate|].
    inversion IH as [|? ? H1 H2]; subst. constructor; [|exact H2]. destruct l as [|x l]; [|now rewrite trailing_cons].
    exfalso. cbn [token_lines] in E. destruct (is_line_break t2); [discriminate|]. destruct (token_lines toks); discriminate.
Qed.
Lemma numbered_complete s ls : Forall (fun l => trailing s l = []) ls -> forall n, numbered s n ls = complete_lines s n ls.
Proof. induction 1 as [|l ls Hl H IH]; intros n; [reflexivity|]. cbn [numbered complete_lines]. unfold line_cells. now rewrite IH, pieces_all. Qed.
Lemma text_complete s tc src evs chunks toks : opens src -> binary_mode s = false -> Processed s evs chunks -> Finishes s evs -> Tokens chunks toks ->
  trailing s toks = [] ->
  exists p acts, byteio_run s tc src evs = (p, acts, REnd) /\ displays (pr_out p) (complete_lines s 1 (token_lines toks)).
Proof.
  intros HS HB HP HE HT HN. destruct (text_eof s tc src evs _ _ HS HB HP HE HT) as (p & acts & R & D). exists p, acts. split; [exact R|].
  rewrite <- numbered_complete; [exact D|now apply lines_trailing].
Qed.

(** ** C16 *)
Lemma bm_ignore s f : binary_mode (with_ignore s f) = binary_mode s. Proof. reflexivity. Qed.
Lemma tok_ignore s f t : tok_cells (with_ignore s f) t = hidden s f t.
Proof.
  unfold hidden, tok_cells, text_cells, ignored_piece, is_line_break. change (s_ignore (with_ignore s f)) with f. destruct (f _) eqn:F.
  - destruct (tok_kind t); reflexivity.
  - destruct (tok_kind t) as [cp| |p i fi| | | | | | |r]; reflexivity.
Qed.
Lemma pieces_cells_with s cell l : (forall t, tok_cells s t = cell t) -> pieces_cells s l = pieces_with cell l.
Proof. intros H. induction l as [|t l IH]; [reflexivity|]. cbn [pieces_cells pieces_with]. rewrite H, IH. reflexivity. Qed.
Lemma numbered_with s num cell ls : (forall n, line_number_cells s n = num n) -> (forall t, tok_cells s t = cell t) -> forall n, numbered s n ls = lines_with num cell n ls.
Proof. intros H1 H2. induction ls as [|l ls IH]; intros n; [reflexivity|]. cbn [numbered lines_with]. unfold line_cells. now rewrite H1, (pieces_cells_with s cell l H2), IH. Qed.
Lemma text_ignored s f tc src evs chunks toks : opens src -> binary_mode s = false -> Processed s evs chunks -> Finishes s evs -> Tokens chunks toks ->
  exists p acts, byteio_run (with_ignore s f) tc src evs = (p, acts, REnd) /\ displays (pr_out p) (lines_with (line_number_cells s) (hidden s f) 1 (token_lines toks)).
Proof.
  intros HS HB HP HE HT. destruct (text_eof (with_ignore s f) tc src evs chunks toks HS HB HP HE HT) as (p & acts & R & D). exists p, acts. split; [exact R|].
  unfold text_rows in D. rewrite (numbered_with _ (line_number_cells s) (hidden s f)) in D; [exact D|reflexivity|apply tok_ignore].
Qed.
Lemma bytes_ignore s f toks : byte_cells (with_ignore s f) toks = flat_map (hidden_bytes s f) toks.
Proof.
  unfold byte_cells. apply flat_map_ext. intros t. unfold hidden_bytes, binary_cells, ignored_bytes. change (s_ignore (with_ignore s f)) with f. destruct (f _); [reflexivity|].
  destruct (tok_kind t); reflexivity.
Qed.
Lemma rows_ignore s f c rows : forall off, rows_cells (with_ignore s f) c off rows = rows_cells s c off rows.
Proof. induction rows as [|r rows IH]; intros off; [reflexivity|]. cbn [rows_cells]. now rewrite IH. Qed.
Lemma bin_ignored s f tc c src evs chunks toks : opens src -> binary_ok s tc c -> Processed s evs chunks -> Finishes s evs -> Tokens chunks toks ->
  exists p acts, byteio_run (with_ignore s f) tc src evs = (p, acts, REnd) /\ displays (pr_out p) (binary_rows s c (flat_map (hidden_bytes s f) toks)).
Proof.
  intros HS HB HP HE HT. destruct (bin_eof (with_ignore s f) tc c src evs chunks toks HS HB HP HE HT) as (p & acts & R & D). exists p, acts. split; [exact R|].
  cbv beta in D. unfold binary_rows in *. rewrite rows_ignore, bytes_ignore in D. exact D.
Qed.

(** ** C17 *)
Lemma plain_focus s f k : f (class_of k) = true -> plain_style (with_focus s f) k = plain_style (with_focus s (fun _ => true)) k.
Proof. intros H. unfold plain_style. cbn [with_focus s_focus]. now rewrite H. Qed.
Lemma plain_nofocus s f k : f (class_of k) = false -> plain_style (with_focus s f) k = plain_style (with_focus s (fun _ => false)) k.
Proof. intros H. unfold plain_style. cbn [with_focus s_focus]. now rewrite H. Qed.
Lemma cells_focus s f g k w codes : f (class_of k) = g (class_of k) -> text_cells (with_focus s f) k w codes = text_cells (with_focus s g) k w codes.
Proof.
  intros H. assert (P : plain_style (with_focus s f) k = plain_style (with_focus s g) k) by (unfold plain_style; cbn [with_focus s_focus]; now rewrite H).
  assert (M : marker (with_focus s f) k = marker (with_focus s g) k).
  { unfold marker. destruct k as [cp| |p i fi| | | | | | |r]; try reflexivity. destruct r; try reflexivity. cbn [with_focus s_focus]. cbn [class_of] in H. now rewrite H. }
  assert (L : label_style (with_focus s f) k codes = label_style (with_focus s g) k codes).
  { unfold label_style. rewrite P. reflexivity. }
  unfold text_cells. rewrite P, M, L. reflexivity.
Qed.
Lemma cells_ignored s f g k w codes : s_ignore s (class_of k) = true -> text_cells (with_focus s f) k w codes = text_cells (with_focus s g) k w codes.
Proof. intros H. unfold text_cells. cbn [with_focus s_ignore]. rewrite H. reflexivity. Qed.
Lemma tok_focus s f t : tok_cells (with_focus s f) t = highlighted s f t.
Proof.
  unfold highlighted, tok_cells. destruct (s_ignore s _) eqn:I.
  - rewrite andb_false_r. now apply cells_ignored.
  - rewrite andb_true_r. destruct (f _) eqn:F; now apply cells_focus.
Qed.
Lemma bytes_focus s f t : binary_cells (with_focus s f) (tok_kind t) (tok_bytes t) (tok_codes t) = highlighted_bytes s f t.
Proof.
  assert (E : forall g k w codes, f (class_of k) = g (class_of k) -> binary_cells (with_focus s f) k w codes = binary_cells (with_focus s g) k w codes).
  { intros g k w codes H. assert (P : plain_style (with_focus s f) k = plain_style (with_focus s g) k) by (unfold plain_style; cbn [with_focus s_focus]; now rewrite H).
    assert (M : marker (with_focus s f) k = marker (with_focus s g) k).
    { unfold marker. destruct k as [cp| |p i fi| | | | | | |r]; try reflexivity. destruct r; try reflexivity. cbn [with_focus s_focus]. cbn [class_of] in H. now rewrite H. }
    assert (L : label_style (with_focus s f) k codes = label_style (with_focus s g) k codes) by (unfold label_style; rewrite P; reflexivity).
    unfold binary_cells. rewrite P, M, L. reflexivity. }
  unfold highlighted_bytes. cbv zeta. destruct (s_ignore s _) eqn:I.
  - rewrite andb_false_r. unfold binary_cells. cbn [with_focus s_ignore]. rewrite I. reflexivity.
  - rewrite andb_true_r. destruct (f _) eqn:F; now apply E.
Qed.
Lemma text_focused s f tc src evs chunks toks : opens src -> binary_mode s = false -> Processed s evs chunks -> Finishes s evs -> Tokens chunks toks ->
  exists p acts, byteio_run (with_focus s f) tc src evs = (p, acts, REnd) /\ displays (pr_out p) (lines_with (line_number_cells s) (highlighted s f) 1 (token_lines toks)).
Proof.
  intros HS HB HP HE HT. destruct (text_eof (with_focus s f) tc src evs chunks toks HS HB HP HE HT) as (p & acts & R & D). exists p, acts. split; [exact R|].
  unfold text_rows in D. rewrite (numbered_with _ (line_number_cells s) (highlighted s f)) in D; [exact D|reflexivity|apply tok_focus].
Qed.
Lemma rows_focus s f c rows : forall off, rows_cells (with_focus s f) c off rows = rows_cells s c off rows.
Proof. induction rows as [|r rows IH]; intros off; [reflexivity|]. cbn [rows_cells]. now rewrite IH. Qed.
Lemma bin_focused s f tc c src evs chunks toks : opens src -> binary_ok s tc c -> Processed s evs chunks -> Finishes s evs -> Tokens chunks toks ->
  exists p acts, byteio_run (with_focus s f) tc src evs = (p, acts, REnd) /\ displays (pr_out p) (binary_rows s c (flat_map (highlighted_bytes s f) toks)).
Proof.
  intros HS HB HP HE HT. destruct (bin_eof (with_focus s f) tc c src evs chunks toks HS HB HP HE HT) as (p & acts & R & D). exists p, acts. split; [exact R|].
  cbv beta in D. unfold binary_rows in *. rewrite rows_focus in D. unfold byte_cells in D. rewrite (flat_map_ext _ (highlighted_bytes s f)) in D; [exact D|]. apply bytes_focus.
Qed.

(** only the looks *)
Lemma same_refl a : same_char a a. Proof. now left. Qed.
Lemma similar_map a b : map fst a = map fst b -> Forall2 similar a b.
Proof.
  revert b. induction a as [|x a IH]; intros [|y b] H; try discriminate; [constructor|]. cbn [map] in H. injection H as H1 H2. constructor; [now left|auto].
Qed.
Lemma similar_refl a : Forall2 similar a a. Proof. now apply similar_map. Qed.
Lemma similar_styled a b (l : list N) st st' : same_char a b -> Forall2 similar (styled st (map (fun _ => a) l)) (styled st' (map (fun _ => b) l)).
Proof. intros H. induction l as [|x l IH]; [constructor|]. constructor; [exact H|exact IH]. Qed.
Lemma marker_focus s f g k : same_char (marker (with_focus s f) k) (marker (with_focus s g) k).
Proof.
  unfold marker. destruct k as [cp| |p i fi| | | | | | |r]; try (now left). destruct r; try (now left). cbn [with_focus s_focus].
  unfold same_char. destruct (f CC_space), (g CC_space); auto.
Qed.
Lemma map_fst_flat (f g : N -> list tcell) l : (forall x, map fst (f x) = map fst (g x)) -> map fst (flat_map f l) = map fst (flat_map g l).
Proof. intros H. induction l as [|x l IH]; [reflexivity|]. cbn [flat_map]. etransitivity; [apply map_app|]. symmetry. etransitivity; [apply map_app|]. exact (f_equal2 (@app N) (eq_sym (H x)) (eq_sym IH)). Qed.
Lemma text_similar s f g k w codes :
  Forall2 similar (fst (text_cells (with_focus s f) k w codes)) (fst (text_cells (with_focus s g) k w codes)) /\
  map fst (snd (text_cells (with_focus s f) k w codes)) = map fst (snd (text_cells (with_focus s g) k w codes)).
Proof.
  unfold text_cells. cbn [with_focus s_ignore]. destruct (s_ignore s (class_of k)); [split; [apply similar_refl|reflexivity]|].
  destruct (is_escape_seq k) eqn:E.
  - split; [|reflexivity]. cbn [fst]. change (separators (with_focus s f)) with (separators s). change (separators (with_focus s g)) with (separators s).
    apply Forall2_app; [apply similar_refl|]. apply Forall2_app; [constructor; [apply marker_focus|constructor]|]. change (escape_details_cells (with_focus s f)) with (escape_details_cells (with_focus s g)). apply similar_refl.
  - pose proof (fun l st st' => similar_styled _ _ l st st' (marker_focus s f g k)) as M.
    destruct k as [cp| |p i fi| | | | | | |r]; try discriminate E; try (split; [apply M|reflexivity]).
    + split; [apply similar_map|]; reflexivity.
    + split; [apply similar_map|]; reflexivity.
    + destruct r; try (split; [apply M|reflexivity]); (split; [apply similar_map|reflexivity]).
      * cbn [fst]. etransitivity; [apply map_app|]. symmetry. etransitivity; [apply map_app|]. f_equal. apply map_fst_flat. reflexivity.
      * cbn [fst]. apply map_fst_flat. reflexivity.
      * cbn [fst]. now rewrite !map_fst_styled.
Qed.
Lemma pieces_similar s f g l : Forall2 similar (pieces_cells (with_focus s f) l) (pieces_cells (with_focus s g) l).
Proof.
  induction l as [|t l IH]; [constructor|]. destruct (text_similar s f g (tok_kind t) (tok_bytes t) (tok_codes t)) as [C1 C2].
  destruct l as [|t2 l]; [exact C1|]. rewrite !pieces_cons by easy. apply Forall2_app; [exact C1|]. apply Forall2_app; [now apply similar_map|exact IH].
Qed.
Lemma numbered_similar s f g ls : forall n, Forall2 (Forall2 similar) (numbered (with_focus s f) n ls) (numbered (with_focus s g) n ls).
Proof.
  induction ls as [|l ls IH]; intros n; [constructor|]. cbn [numbered]. constructor; [|apply IH]. apply Forall2_app; [apply similar_refl|]. unfold line_cells.
  apply Forall2_app; [apply pieces_similar|apply similar_refl].
Qed.
Lemma text_looks s f g tc src evs chunks toks : opens src -> binary_mode s = false -> Processed s evs chunks -> Finishes s evs -> Tokens chunks toks ->
  exists p1 a1 r1 p2 a2 r2, byteio_run (with_focus s f) tc src evs = (p1, a1, REnd) /\ byteio_run (with_focus s g) tc src evs = (p2, a2, REnd) /\
    displays (pr_out p1) r1 /\ displays (pr_out p2) r2 /\ Forall2 (Forall2 similar) r1 r2.
Proof.
  intros HS HB HP HE HT. destruct (text_eof (with_focus s f) tc src evs chunks toks HS HB HP HE HT) as (p & acts & R & D).
  destruct (text_eof (with_focus s g) tc src evs chunks toks HS HB HP HE HT) as (p' & acts' & R' & D').
  exists p, acts, (text_rows (with_focus s f) toks), p', acts', (text_rows (with_focus s g) toks). repeat split; try assumption; try apply D; try apply D'. apply numbered_similar.
Qed.

Definition bsimilar (x y : bcell) : Prop := fst (fst x) = fst (fst y) /\ same_char (snd (fst x)) (snd (fst y)).
Lemma bin_similar s f g k w codes : Forall2 bsimilar (binary_cells (with_focus s f) k w codes) (binary_cells (with_focus s g) k w codes).
Proof.
  assert (MP : forall (F G : N -> bcell) l, (forall b, bsimilar (F b) (G b)) -> Forall2 bsimilar (map F l) (map G l)).
  { intros F G l H. induction l; constructor; auto. }
  assert (SR : forall b c a a', bsimilar (b, c, a) (b, c, a')) by (intros; split; [reflexivity|now left]).
  unfold binary_cells. cbn [with_focus s_ignore]. destruct (s_ignore s (class_of k)); [apply MP; intros; apply SR|].
  destruct (is_escape_seq k) eqn:E.
  - destruct w as [|b t]; [constructor|]. constructor; [split; [reflexivity|apply marker_focus]|]. apply MP. intros; apply SR.
  - assert (M : forall st st', Forall2 bsimilar (map (fun b => (b, marker (with_focus s f) k, st)) w) (map (fun b => (b, marker (with_focus s g) k, st')) w)).
    { intros. apply MP. intros. split; [reflexivity|apply marker_focus]. }
    destruct k as [cp| |p i fi| | | | | | |r]; try discriminate E; try apply M.
    + change (decoding (with_focus s f)) with (decoding s). change (decoding (with_focus s g)) with (decoding s). destruct (decoding s); [|apply M].
      generalize (combine w (repeat 95 (length w - 1) ++ [cp])) as l. generalize (length w) as n. intros n l. revert n. induction l as [|[b c] l IH]; intros [|n]; cbn [repeat combine]; constructor; auto.
    + destruct r; try apply M. apply MP. intros; apply SR.
Qed.
Lemma row_similar s f g c off r1 r2 : Forall2 bsimilar r1 r2 -> Forall2 similar (row_cells (with_focus s f) c off r1) (row_cells (with_focus s g) c off r2).
Proof.
  intros H. pose proof (Forall2_length _ _ _ H) as HL. unfold row_cells. change (with_offsets (with_focus s f)) with (with_offsets s). change (with_offsets (with_focus s g)) with (with_offsets s).
  apply Forall2_app; [apply similar_refl|]. apply Forall2_app.
  - induction H as [|[[b1 c1] a1] [[b2 c2] a2] r1 r2 [E _] H IH]; [constructor|]. cbn [flat_map]. apply Forall2_app; [|apply IH; injection HL; auto]. cbn in E. subst. apply similar_map. cbn [hex_cells]. now rewrite !map_fst_styled.
  - rewrite HL. apply Forall2_app; [apply similar_refl|]. apply Forall2_app; [apply similar_refl|]. apply Forall2_app; [|apply similar_refl].
    clear HL. induction H as [|[[b1 c1] a1] [[b2 c2] a2] r1 r2 [_ E] H IH]; constructor; auto.
Qed.
Lemma rows_similar s f g c r1 r2 : Forall2 (Forall2 bsimilar) r1 r2 -> forall off, Forall2 (Forall2 similar) (rows_cells (with_focus s f) c off r1) (rows_cells (with_focus s g) c off r2).
Proof. induction 1 as [|x y r1 r2 Hx H IH]; intros off; [constructor|]. cbn [rows_cells]. constructor; [now apply row_similar|]. rewrite (Forall2_length _ _ _ Hx). apply IH. Qed.
Lemma grouped_rel {A B} (R : A -> B -> Prop) c : forall n l1 l2, Forall2 R l1 l2 -> Forall2 (Forall2 R) (grouped n c l1) (grouped n c l2).
Proof.
  induction n as [|n IH]; intros l1 l2 H; [constructor|]. cbn [grouped]. destruct H as [|x y l1 l2 H1 H2]; [constructor|].
  assert (H : Forall2 R (x :: l1) (y :: l2)) by now constructor. clear H1 H2. rewrite <- (firstn_skipn c (x :: l1)), <- (firstn_skipn c (y :: l2)) in H.
  pose proof (Forall2_length _ _ _ H) as _. assert (F : Forall2 R (firstn c (x :: l1)) (firstn c (y :: l2)) /\ Forall2 R (skipn c (x :: l1)) (skipn c (y :: l2))).
  { rewrite !firstn_skipn in H. clear IH. revert H. generalize (x :: l1) (y :: l2). clear. intros a b H. revert c. induction H as [|x y a b H1 H IH]; intros [|c]; cbn [firstn skipn]; split; auto; try constructor; auto; apply IH. }
  constructor; [apply F|apply IH, F].
Qed.
Lemma bin_looks s f g tc c src evs chunks toks : opens src -> binary_ok s tc c -> Processed s evs chunks -> Finishes s evs -> Tokens chunks toks ->
  exists p1 a1 r1 p2 a2 r2, byteio_run (with_focus s f) tc src evs = (p1, a1, REnd) /\ byteio_run (with_focus s g) tc src evs = (p2, a2, REnd) /\
    displays (pr_out p1) r1 /\ displays (pr_out p2) r2 /\ Forall2 (Forall2 similar) r1 r2.
Proof.
  intros HS HB HP HE HT. destruct (bin_eof (with_focus s f) tc c src evs chunks toks HS HB HP HE HT) as (p & acts & R & D).
  destruct (bin_eof (with_focus s g) tc c src evs chunks toks HS HB HP HE HT) as (p' & acts' & R' & D'). cbv beta in D, D'.
  do 6 eexists. split; [exact R|]. split; [exact R'|]. split; [exact D|]. split; [exact D'|]. unfold binary_rows.
  assert (H : Forall2 bsimilar (byte_cells (with_focus s f) toks) (byte_cells (with_focus s g) toks)).
  { unfold byte_cells. clear. induction toks as [|t toks IH]; [constructor|]. cbn [flat_map]. apply Forall2_app; [apply bin_similar|exact IH]. }
  rewrite (Forall2_length _ _ _ H). apply Forall2_app.
  - apply rows_similar. unfold groups. rewrite (Forall2_length _ _ _ H). now apply grouped_rel.
  - change (total_cells (with_focus s f)) with (total_cells (with_focus s g)). induction (total_cells (with_focus s g) _); constructor; auto using similar_refl.
Qed.
