(** C05, C12, C27, C28: the lines of text mode *)
From Coq Require Import List Arith NArith ZArith Bool Lia.
From Verif.Model Require Import Base Ansi Regex Settings Segment Template Parser Console Formatter Reader Runner.
From Verif.Spec Require Import Numbers Terminal Utf8 Lexical SgrParams Display Output Input Dump.
From Verif.Proof Require Import BaseFacts RegexFacts LexFacts TokFacts PaintFacts DisplayFacts TextFormat RunFacts ReaderFacts RunMain LexClaims RunClaims BinClaims.
Import ListNotations.
Local Open Scope N_scope.

Definition no10 (l : list tcell) : Prop := Forall (fun x => fst x <> 10) l.
Lemma no10_styled a l : Forall (fun c => c <> 10) l -> no10 (styled a l).
Proof. intros H. unfold no10, styled. apply Forall_forall. intros x Hx. apply in_map_iff in Hx as (c & <- & Hc). rewrite Forall_forall in H. now apply H. Qed.
Lemma no10_app a b : no10 (a ++ b) <-> no10 a /\ no10 b.
Proof. apply Forall_app. Qed.
Lemma no10_one c a : c <> 10 -> no10 [(c, a)].
Proof. intros H. repeat constructor. exact H. Qed.
Lemma no10_flat {A} (f : A -> list tcell) l : (forall x, In x l -> no10 (f x)) -> no10 (flat_map f l).
Proof. intros H. unfold no10. apply Forall_flat_map. now apply Forall_forall. Qed.

Lemma up_no10 w n : Forall (fun c => c <> 10) (fmt_hex_up w n).
Proof.
  unfold fmt_hex_up, rjust. apply Forall_app. split; apply Forall_forall; intros c H.
  - apply repeat_spec in H. now subst.
  - apply in_map_iff in H as (d & <- & _). unfold hexdig_up. destruct (d <? 10); lia.
Qed.
Lemma code_names_no10 codes : Forall (Forall (fun c => c <> 10)) (code_names codes).
Proof.
  remember (length codes) as n eqn:Hn. revert codes Hn. induction n as [n IH] using lt_wf_ind. intros codes ->.
  destruct codes as [|c t]; [constructor|]. cbn [code_names].
  assert (K : forall x : list N, (length x < length (c :: t))%nat -> Forall (Forall (fun c => c <> 10)) (code_names x)) by (intros x Hx; now apply (IH (length x))).
  cbn [length] in K.
  assert (L : (if c =? 38 then 70 else 66) <> 10) by (destruct (c =? 38); easy).
  pose proof dec_no10. pose proof up_no10.
  destruct ((c =? 38) || (c =? 48))%bool; [|constructor; auto].
  destruct t as [|m [|x t2]]; try (constructor; auto; fail).
  destruct (m =? 5); [constructor; [now constructor|apply K; cbn [length]; lia]|].
  destruct t2 as [|g [|b t4]]; try (constructor; auto; fail).
  destruct (m =? 2); constructor; auto. apply K; cbn [length]; lia.
Qed.
Lemma name_cells_no10 a names : Forall (Forall (fun c => c <> 10)) names -> no10 (name_cells a names).
Proof.
  induction 1 as [|n names Hn H IH]; [constructor|]. cbn [name_cells]. destruct names; [now apply no10_styled|].
  rewrite !no10_app. split; [now apply no10_styled|]. split; [now apply no10_one|exact IH].
Qed.

Lemma text_cells_no10 s k w rest codes : Token k w rest -> k <> K_newline -> no10 (fst (text_cells s k w codes)) /\ no10 (snd (text_cells s k w codes)).
Proof.
  intros T HK. unfold text_cells. pose proof (escape_chars k w rest T) as HE. pose proof (marker_no10 s k) as HM.
  destruct (s_ignore s (class_of k)).
  - split; [|constructor]. cbn [fst]. apply no10_flat. intros x _. constructor; [easy|]. destruct k; try exact (Forall_nil _). now destruct HK.
  - assert (R : forall a l, no10 (styled a (map (fun _ : N => marker s k) l))).
    { intros a l. apply no10_styled. apply Forall_forall. intros c Hc. apply in_map_iff in Hc as (? & <- & _). exact HM. }
    destruct (is_escape_seq k) eqn:E.
    + cbn [fst snd]. rewrite !no10_app. repeat split.
      * destruct (separators s); [now apply no10_one|constructor].
      * now apply no10_one.
      * unfold escape_details_cells. destruct (marker_level s); [constructor| |apply no10_styled; auto].
        destruct k; try exact (Forall_nil _). destruct (csi_sort _ _); try exact (Forall_nil _). apply name_cells_no10, code_names_no10.
      * destruct (separators s); [now apply no10_one|constructor].
    + assert (CD : forall b, 0 < b -> no10 (control_details_cells s b)).
      { intros b Hb. unfold control_details_cells. destruct (marker_level s); [constructor|apply no10_one; lia|apply no10_styled, hex_no10]. }
      destruct k as [cp| |p i f| | | | | | |r]; cbn [fst snd]; try (split; [apply R|constructor]); try easy.
      * inversion T; subst. split; [apply no10_one; lia|constructor].
      * destruct r; cbn [fst snd]; try (split; [apply R|constructor]).
        -- assert (P : Forall (fun b => 0 < b) w) by (inversion T; subst; eapply Forall_impl; [|eassumption]; cbn [run_member]; unfold rng; intros; lia).
           assert (Hw : w <> []) by (eapply token_nonempty; exact T). rewrite (app_removelast_last 0 Hw) in P. apply Forall_app in P as [P1 P2].
           split; [rewrite no10_app; split|].
           ++ apply no10_flat. intros b Hb. constructor; [exact HM|]. apply CD. rewrite Forall_forall in P1. auto.
           ++ now apply no10_one.
           ++ apply CD. now inversion P2.
        -- split; [|constructor]. apply no10_flat. intros x _. constructor; [exact HM|]. now apply no10_one.
        -- split; [|constructor]. apply no10_styled. inversion T; subst. eapply Forall_impl; [|eassumption]. cbn [run_member]. unfold rng. intros; lia.
Qed.

Lemma newline_cells s codes : exists x a, fst (text_cells s K_newline [10] codes) = x ++ [(10, a)] /\ no10 x /\ snd (text_cells s K_newline [10] codes) = [].
Proof.
  unfold text_cells. cbn [class_of is_escape_seq]. destruct (s_ignore s CC_space).
  - exists [(ignored_sign, ignored_style)], ignored_style. repeat split. now apply no10_one.
  - exists [(marker s K_newline, plain_style s K_newline)], attrs0. repeat split. now apply no10_one.
Qed.

(** ** lines *)
Definition Piece (t : token) : Prop := exists rest, Token (tok_kind t) (tok_bytes t) rest.
Definition ends_once (l : list tcell) : Prop := exists x a, l = x ++ [(10, a)] /\ no10 x.

Lemma newline_bytes t : Piece t -> is_line_break t = true -> tok_kind t = K_newline /\ tok_bytes t = [10].
Proof. intros [rest T] H. unfold is_line_break in H. destruct (tok_kind t); try discriminate. split; [reflexivity|]. now inversion T. Qed.

(** form of a line: no line break except possibly the last piece *)
Inductive Line : list token -> Prop :=
| Line_end t : Piece t -> is_line_break t = true -> Line [t]
| Line_one t : Piece t -> is_line_break t = false -> Line [t]
| Line_more t l : Piece t -> is_line_break t = false -> Line l -> Line (t :: l).

Lemma token_lines_form toks : Forall Piece toks -> Forall Line (token_lines toks).
Proof.
  induction 1 as [|t toks Ht H IH]; [constructor|]. cbn [token_lines]. destruct (is_line_break t) eqn:E; [constructor; [now constructor|exact IH]|].
  destruct (token_lines toks) as [|l ls]; [constructor; [now apply Line_one|constructor]|]. inversion IH; subst. constructor; [now apply Line_more|assumption].
Qed.

Lemma line_ends s l : Line l -> ends_once (line_cells s l).
Proof.
  intros H. unfold line_cells, ends_once. induction H as [t HP HB|t [rest T] HB|t l [rest T] HB HL IH].
  - destruct (newline_bytes t HP HB) as [Hk Hw]. unfold terminated. cbn [existsb pieces_cells]. rewrite HB. cbn [orb]. rewrite app_nil_r.
    unfold tok_cells. rewrite Hk, Hw. destruct (newline_cells s (tok_codes t)) as (x & a & -> & Hx & _). eauto.
  - unfold terminated. cbn [existsb pieces_cells]. rewrite HB. cbn [orb]. exists (fst (tok_cells s t)), attrs0. split; [reflexivity|].
    apply (text_cells_no10 s _ _ rest); [exact T|]. intros K. unfold is_line_break in HB. rewrite K in HB. discriminate.
  - destruct IH as (x & a & E & Hx). exists (fst (tok_cells s t) ++ snd (tok_cells s t) ++ x), a.
    unfold terminated. cbn [existsb]. rewrite HB. cbn [orb]. fold (terminated l).
    assert (PC : pieces_cells s (t :: l) = fst (tok_cells s t) ++ snd (tok_cells s t) ++ pieces_cells s l) by (inversion HL; reflexivity).
    rewrite PC, <- !app_assoc, E. split; [reflexivity|]. rewrite !no10_app.
    destruct (text_cells_no10 s _ _ rest (tok_codes t) T) as [A B]; [|auto]. intros K. unfold is_line_break in HB. rewrite K in HB. discriminate.
Qed.

Lemma number_no10 s n : no10 (line_number_cells s n).
Proof.
  unfold line_number_cells, aligned. destruct (debugging s); [|destruct (s_no_line_numbers s); [constructor|]]; apply no10_app; (split; [|now apply no10_one]);
  apply no10_styled, Forall_app; (split; [apply repeat_no10|]); [apply firstn_Forall'|]; apply dec_no10.
Qed.
Lemma numbered_ends s n ls : Forall Line ls -> Forall ends_once (numbered s n ls).
Proof.
  intros H. revert n. induction H as [|l ls Hl H IH]; intros n; [constructor|]. cbn [numbered]. constructor; [|apply IH].
  destruct (line_ends s l Hl) as (x & a & -> & Hx). exists (line_number_cells s n ++ x), a. split; [now rewrite app_assoc|].
  apply no10_app. split; [apply number_no10|exact Hx].
Qed.

Lemma pieces_of chunks toks : Tokens chunks toks -> Forall Piece toks.
Proof. intros H. now apply coded_tokens in H as [H _]. Qed.
Lemma text_rows_end s chunks toks : Tokens chunks toks -> Forall ends_once (text_rows s toks).
Proof. intros H. apply numbered_ends, token_lines_form. eapply pieces_of. exact H. Qed.

Lemma ends_form (rows : list (list tcell)) : Forall ends_once rows -> Forall (fun r : list tcell => exists l, map fst r = l ++ [10] /\ Forall (fun c => c <> 10) l) rows.
Proof.
  intros H. eapply Forall_impl; [|exact H]. intros r (x & a & -> & Hx). exists (map fst x). split; [now rewrite map_app|].
  apply Forall_forall. intros c Hc. apply in_map_iff in Hc as (y & <- & Hy). unfold no10 in Hx. rewrite Forall_forall in Hx. auto.
Qed.

(** every line that is written ends with its only line feed *)
Lemma parts_end out rows : displays out rows -> Forall ends_once rows ->
  exists parts, out = concat parts /\ length parts = length rows /\ Forall (fun p => exists v, visible p = v ++ [10] /\ ~ In 10 v /\ final_attrs p = attrs0) parts.
Proof.
  intros [_ (parts & -> & H)] HE. exists parts. split; [reflexivity|]. split; [clear HE; induction H; cbn; congruence|].
  apply ends_form in HE. induction H as [|p r parts rows Hp H IH]; [constructor|]. inversion HE as [|? ? (l & E & Hl) HE']; subst. constructor; [|auto].
  exists l. rewrite (shows_visible _ _ Hp). split; [exact E|]. split; [|apply Hp]. intros K. rewrite Forall_forall in Hl. now apply (Hl 10).
Qed.

(** ** correspondence with the lines of the input *)
Lemma piece_no10 t : Piece t -> is_line_break t = false -> Forall (fun b => b <> 10) (tok_bytes t).
Proof.
  intros [rest T] H. unfold is_line_break in H. destruct t as [[k w] c]. cbn in *. destruct T; try discriminate; clear H.
  - eapply Forall_impl; [|apply utf8_high; assumption]. unfold high, rng. intros; lia.
  - eapply Forall_impl; [|eassumption]. unfold high, rng. intros; lia.
  - destruct H0 as (A & B & C). unfold rng in *. constructor; [easy|]. constructor; [easy|]. rewrite !Forall_app. split; [|split; [|constructor; [lia|constructor]]];
      (eapply Forall_impl; [|eassumption]; cbn beta; intros; lia).
  - destruct H0 as (_ & A & B). unfold rng in *. constructor; [easy|]. rewrite Forall_app. split; [|constructor; [lia|constructor]]. eapply Forall_impl; [|eassumption]; cbn beta; intros; lia.
  - unfold rng in *. repeat constructor; lia.
  - unfold rng in *. repeat constructor; lia.
  - unfold rng in *. repeat constructor; lia.
  - repeat constructor; easy.
  - eapply Forall_impl; [|eassumption]. intros b Hb. apply run_member_low in Hb. tauto.
Qed.
Lemma byte_lines_line a b : Forall (fun c => c <> 10) a -> a <> [] ->
  byte_lines (a ++ b) = match byte_lines b with [] => [a] | x :: r => (a ++ x) :: r end.
Proof.
  intros H Ha. induction H as [|c a Hc H IH]; [easy|]. cbn [app byte_lines]. destruct (N.eqb_spec c 10); [contradiction|].
  destruct a as [|d a]; [cbn [app]; now destruct (byte_lines b)|]. rewrite IH by easy. now destruct (byte_lines b).
Qed.
Lemma token_byte_lines toks : Forall Piece toks -> map (fun l => concat (map tok_bytes l)) (token_lines toks) = byte_lines (concat (map tok_bytes toks)).
Proof.
  induction 1 as [|t toks Ht H IH]; [reflexivity|]. cbn [token_lines map concat]. destruct (is_line_break t) eqn:E.
  - destruct (newline_bytes t Ht E) as [_ Hw]. cbn [map concat]. rewrite Hw, IH. reflexivity.
  - rewrite byte_lines_line; [|now apply piece_no10|destruct Ht as [? Ht]; eapply token_nonempty; exact Ht].
    rewrite <- IH. destruct (token_lines toks) as [|l ls]; cbn [map concat]; [now rewrite app_nil_r|reflexivity].
Qed.
Lemma byte_lines_count l : length (byte_lines l) = line_count l.
Proof.
  induction l as [|c l IH]; [reflexivity|]. cbn [byte_lines line_count]. destruct (c =? 10); [cbn [length]; now rewrite IH|].
  rewrite <- IH. destruct l as [|d l]; [reflexivity|]. destruct (byte_lines (d :: l)) eqn:E; [|reflexivity].
  exfalso. cbn [byte_lines] in E. destruct (d =? 10); [discriminate|]. destruct (byte_lines l); discriminate.
Qed.
Lemma numbered_length s n ls : length (numbered s n ls) = length ls.
Proof. revert n. induction ls as [|l ls IH]; intros n; [reflexivity|]. cbn. now rewrite IH. Qed.
Lemma numbered_nth s n ls i r : nth_error (numbered s n ls) i = Some r -> exists l, nth_error ls i = Some l /\ r = line_number_cells s (n + N.of_nat i) ++ line_cells s l.
Proof.
  revert n i. induction ls as [|l ls IH]; intros n [|i] H; try discriminate; cbn [numbered nth_error] in H.
  - injection H as <-. exists l. split; [reflexivity|]. f_equal. f_equal. lia.
  - apply IH in H as (l' & E & ->). exists l'. split; [exact E|]. f_equal. f_equal. lia.
Qed.

Lemma text_lines_of s chunks toks out : Tokens chunks toks -> displays out (text_rows s toks) ->
  text_lines (visible out) = map (fun r => removelast (map fst r)) (text_rows s toks).
Proof. intros HT HD. rewrite (displays_visible _ _ HD). apply lines_of_rows. apply ends_form. eapply text_rows_end. exact HT. Qed.

Lemma text_line_count s chunks toks out : Tokens chunks toks -> displays out (text_rows s toks) ->
  length (text_lines (visible out)) = line_count (concat chunks).
Proof.
  intros HT HD. rewrite (text_lines_of s chunks toks out HT HD), map_length. unfold text_rows. rewrite numbered_length.
  rewrite <- byte_lines_count. destruct (coded_tokens chunks toks HT) as [HP <-]. rewrite <- token_byte_lines by exact HP. now rewrite map_length.
Qed.

(** each line: number and the pieces of the input line *)
Lemma text_line_pieces s chunks toks out i line : Tokens chunks toks -> displays out (text_rows s toks) ->
  nth_error (text_lines (visible out)) i = Some line ->
  exists l, nth_error (token_lines toks) i = Some l /\ line ++ [10] = map fst (line_number_cells s (1 + N.of_nat i)) ++ map fst (line_cells s l) /\
    nth_error (byte_lines (concat chunks)) i = Some (concat (map tok_bytes l)).
Proof.
  intros HT HD HN. rewrite (text_lines_of s chunks toks out HT HD), nth_error_map in HN.
  destruct (@nth_error (list (N * attrs)) (text_rows s toks) i) as [r|] eqn:E; [|discriminate]. cbn [option_map] in HN. injection HN as <-.
  pose proof (nth_error_In _ _ E) as HI. pose proof (ends_form _ (text_rows_end s chunks toks HT)) as HF. rewrite Forall_forall in HF.
  destruct (HF r HI) as (x & Ex & _). apply numbered_nth in E as (l & E & ->). exists l. split; [exact E|]. split.
  - unfold tcell in *. rewrite <- map_app, Ex, removelast_last. reflexivity.
  - destruct (coded_tokens chunks toks HT) as [HP <-]. rewrite <- token_byte_lines by exact HP. rewrite nth_error_map, E. reflexivity.
Qed.

Lemma before_bar_app a b : Forall (fun c => c <> 0x2502) a -> before_bar (a ++ 0x2502 :: b) = a.
Proof. induction 1 as [|c a Hc H IH]; [reflexivity|]. cbn [app before_bar]. destruct (N.eqb_spec c 0x2502); [contradiction|]. now rewrite IH. Qed.
Lemma dec_no_bar n : Forall (fun c => c <> 0x2502) (dec n).
Proof.
  unfold dec. pose proof (digits_bound 10 n ltac:(lia)) as H. apply Forall_forall. intros c Hc. apply in_map_iff in Hc as (d & <- & Hd).
  rewrite Forall_forall in H. specialize (H d Hd). cbn beta in H. lia.
Qed.
Lemma read_line_number_back s n rest : (debugging s = true \/ s_no_line_numbers s = false) -> (debugging s = true -> n < 100000000) ->
  read_line_number (map fst (line_number_cells s n) ++ rest) = Some n.
Proof.
  intros H1 H2. unfold read_line_number, line_number_cells.
  assert (B : forall k l, Forall (fun c => c <> 0x2502) l -> Forall (fun c => c <> 0x2502) (aligned k l)).
  { intros k l Hl. unfold aligned. apply Forall_app. split; [|exact Hl]. apply Forall_forall. intros c Hc. apply repeat_spec in Hc. now subst. }
  destruct (debugging s).
  - rewrite map_app, map_fst_styled, <- app_assoc. cbn [map fst bar app].
    rewrite firstn_all2 by (apply (dec_length n 8); [lia|]; exact (H2 eq_refl)).
    rewrite before_bar_app by apply B, dec_no_bar. unfold aligned. rewrite skip_blanks_aligned by apply dec_head. apply read_dec.
  - destruct H1 as [H1|H1]; [discriminate|]. rewrite H1, map_app, map_fst_styled, <- app_assoc. cbn [map fst bar app].
    rewrite before_bar_app by apply B, dec_no_bar. unfold aligned. rewrite skip_blanks_aligned by apply dec_head. apply read_dec.
Qed.
Lemma text_line_number s chunks toks out i line : Tokens chunks toks -> displays out (text_rows s toks) ->
  (debugging s = true \/ s_no_line_numbers s = false) -> (debugging s = true -> 1 + N.of_nat i < 100000000) ->
  nth_error (text_lines (visible out)) i = Some line -> read_line_number line = Some (1 + N.of_nat i).
Proof.
  intros HT HD H1 H2 HN. destruct (text_line_pieces s chunks toks out i line HT HD HN) as (l & E & K & _).
  assert (HL : Line l) by (pose proof (token_lines_form _ (pieces_of _ _ HT)) as F; rewrite Forall_forall in F; apply F; eapply nth_error_In; exact E).
  destruct (line_ends s l HL) as (x & a & Ex & _). rewrite Ex, map_app, app_assoc in K. cbn [map fst] in K. apply app_inj_tail in K as [-> _].
  now apply read_line_number_back.
Qed.
