(** Lemmas for C113: the screen of text mode with full details can be read back *)
From Coq Require Import List Arith NArith ZArith Bool Lia.
From Verif.Model Require Import Base Ansi Settings Segment Template Parser Console Formatter Reader Runner Options.
From Verif.Spec Require Import Numbers Terminal Utf8 Lexical SgrParams Display Output Input ReadBack.
From Verif.Proof Require Import LexFacts BaseFacts RunClaims BinClaims ShowClaims LookClaims MoreClaims ExampleFacts RunExtra OffsetShown UnderlineFacts.
Import ListNotations.
Local Open Scope N_scope.

Definition good (x : list tcell) (bs : list N) : Prop :=
  forall r, next_under r = false ->
    next_under (map to_cell x ++ r) = false /\ read_back W_none (map to_cell x ++ r) = bs ++ read_back W_none r.

Lemma good_nil : good [] [].
Proof. intros r H. split; [exact H|reflexivity]. Qed.
Lemma good_app x y a b : good x a -> good y b -> good (x ++ y) (a ++ b).
Proof.
  intros X Y r H. rewrite map_app, <- app_assoc. destruct (Y r H) as [Y1 Y2]. destruct (X _ Y1) as [X1 X2]. split; [exact X1|].
  now rewrite X2, Y2, app_assoc.
Qed.
Lemma good_flat {A} (f : A -> list tcell) (g : A -> list N) l : (forall x, In x l -> good (f x) (g x)) -> good (flat_map f l) (flat_map g l).
Proof.
  induction l as [|x l IH]; intros H; [apply good_nil|]. simpl. apply good_app; [apply H; now left|]. apply IH. intros; apply H; now right.
Qed.

Lemma glyph c a : displayable c = true -> to_cell (c, a) = Glyph c a.
Proof. unfold to_cell. simpl. now intros ->. Qed.
Lemma good_one c a : displayable c = true -> a_under a = 0 -> good [(c, a)] (stands_for c a).
Proof.
  intros D U r H. cbn [map app]. rewrite (glyph c a D). cbn [next_under under read_back]. rewrite U. cbn. rewrite H. split; reflexivity.
Qed.
Lemma good_styled a l (f : N -> list N) : a_under a = 0 -> Forall (fun c => displayable c = true /\ stands_for c a = f c) l -> good (styled a l) (flat_map f l).
Proof.
  intros U F. induction F as [|c l [D E] F IH]; [apply good_nil|]. cbn [styled map flat_map]. fold (styled a l).
  change ((c, a) :: styled a l) with ([(c, a)] ++ styled a l). apply good_app; [|exact IH]. rewrite <- E. now apply good_one.
Qed.
Lemma good_frame a l : a_under a = 0 -> Forall (fun c => displayable c = true /\ stands_for c a = []) l -> good (styled a l) [].
Proof.
  intros U F. replace (@nil N) with (flat_map (fun _ : N => @nil N) l) by (clear; induction l; auto). now apply good_styled.
Qed.

(** * colors *)
Lemma colored_utf8 s cp : colored (plain_style s (K_utf8 cp)) 12 = true.
Proof. unfold plain_style. simpl. now destruct (s_focus s CC_utf8). Qed.
Lemma good_utf8 s cp : scalar cp -> good [(cp, plain_style s (K_utf8 cp))] (utf8_encode cp).
Proof.
  intros _ r H. cbn [map app]. unfold to_cell. cbn [fst snd]. destruct (displayable cp).
  - cbn [next_under under read_back]. rewrite under_plain. cbn. rewrite H. split; [reflexivity|]. unfold stands_for. now rewrite colored_utf8.
  - split; reflexivity.
Qed.

(** * escape sequences *)
Lemma read_details s k codes l r : Forall (fun c => displayable c = true) l ->
  read_back W_none (map to_cell (styled (details_style s k codes) l) ++ r) = l ++ read_back W_none r.
Proof.
  intros F. induction F as [|c l D F IH]; [reflexivity|]. cbn [styled map app]. fold (styled (details_style s k codes) l).
  rewrite (glyph _ _ D). cbn [read_back under]. rewrite under_details. cbn. now rewrite IH.
Qed.
Lemma displayable_low c : 32 <= c -> c <= 126 -> displayable c = true.
Proof. intros. unfold displayable, between. repeat match goal with |- context [?a =? ?b] => destruct (N.eqb_spec a b) | |- context [?a <=? ?b] => destruct (N.leb_spec a b) | |- context [?a <? ?b] => destruct (N.ltb_spec a b) end; try lia; reflexivity. Qed.
Lemma escape_shape k w rest : Token k w rest -> is_escape_seq k = true -> exists b t, w = 27 :: b :: t /\ Forall (fun c => 32 <= c /\ c <= 126) (b :: t).
Proof.
  assert (RW : forall lo hi l, 32 <= lo -> hi <= 126 -> Forall (rng lo hi) l -> Forall (fun c => 32 <= c /\ c <= 126) l).
  { intros lo hi l A B. apply Forall_impl. unfold rng. intros c [X Y]. lia. }
  intros T E. inversion T; subst; try discriminate E.
  - match goal with H : csi_tail _ _ _ |- _ => destruct H as (P & I & F) end. do 2 eexists. split; [reflexivity|]. constructor; [lia|].
    apply Forall_app. split; [now apply (RW 48 63) in P|]. apply Forall_app. split; [now apply (RW 32 47) in I|]. constructor; [unfold rng in F; lia|constructor].
  - match goal with H : nf_tail _ _ |- _ => destruct H as (NE & I & F) end. destruct i as [|b i]; [congruence|]. exists b, (i ++ [f]). split; [reflexivity|].
    apply (RW 32 47) in I; [|lia|lia]. inversion I; subst. constructor; [assumption|]. apply Forall_app. split; [assumption|]. constructor; [unfold rng in F; lia|constructor].
  - exists c, []. split; [reflexivity|]. constructor; [|constructor]. match goal with H : rng _ _ c |- _ => unfold rng in H; lia end.
  - exists c, []. split; [reflexivity|]. constructor; [|constructor]. match goal with H : rng _ _ c |- _ => unfold rng in H; lia end.
  - exists c, []. split; [reflexivity|]. constructor; [|constructor]. match goal with H : rng _ _ c |- _ => unfold rng in H; lia end.
Qed.
Lemma label_marker s k : is_escape_seq k = true -> displayable (marker s k) = true /\ (marker s k =? 0x2C6F) = false.
Proof. destruct k as [| |p i f| | | | | | |]; try discriminate; intros _; try (split; reflexivity). simpl. destruct (csi_sort p f); split; reflexivity. Qed.
Lemma good_escape s k codes b t : is_escape_seq k = true -> Forall (fun c => 32 <= c /\ c <= 126) (b :: t) ->
  good ((marker s k, label_style s k codes) :: styled (details_style s k codes) (b :: t)) (27 :: b :: t).
Proof.
  intros E F r H. destruct (label_marker s k E) as [D M].
  assert (F' : Forall (fun c => displayable c = true) (b :: t)) by (eapply Forall_impl; [|exact F]; intros c [? ?]; now apply displayable_low).
  cbn [map]. rewrite (glyph _ _ D). cbn [app next_under under]. rewrite under_label. split; [reflexivity|].
  cbn [read_back under]. rewrite under_label. cbn [N.eqb negb].
  assert (NU : next_under (map to_cell (styled (details_style s k codes) (b :: t)) ++ r) = true).
  { inversion F' as [|? ? Db]; subst. cbn [styled map app]. rewrite (glyph _ _ Db). cbn [next_under under]. now rewrite under_details. }
  rewrite NU, M, (read_details s k codes (b :: t) r F'). reflexivity.
Qed.
Lemma good_separator c : (c = 0x28B8 \/ c = 0x2847) -> good [(c, separator_style)] [].
Proof. intros [-> | ->]; [exact (good_one 0x28B8 separator_style eq_refl eq_refl)|exact (good_one 0x2847 separator_style eq_refl eq_refl)]. Qed.

(** * control characters *)
Lemma hex_two b : b < 32 -> exists h l, fmt_hex_lo 2 b = [h; l] /\ displayable h = true /\ displayable l = true /\ 16 * hex_value h + hex_value l = b.
Proof.
  intros H. assert (K : forallb (fun b => match fmt_hex_lo 2 b with [h; l] => displayable h && displayable l && (16 * hex_value h + hex_value l =? b) | _ => false end) (map N.of_nat (seq 0 32)) = true) by (vm_compute; reflexivity).
  rewrite forallb_forall in K. specialize (K b). destruct (fmt_hex_lo 2 b) as [|h [|l [|]]]; try (exfalso; assert (X : false = true) by (apply K; apply in_map_iff; exists (N.to_nat b); split; [lia|apply in_seq; lia]); discriminate X).
  exists h, l. assert (X : displayable h && displayable l && (16 * hex_value h + hex_value l =? b) = true) by (apply K; apply in_map_iff; exists (N.to_nat b); split; [lia|apply in_seq; lia]).
  apply andb_prop in X as [X X3]. apply andb_prop in X as [X1 X2]. apply N.eqb_eq in X3. auto.
Qed.
Lemma good_control s b : marker_level s = L_full -> b < 32 ->
  good ((0x2C6F, plain_style s (K_run R_control)) :: control_details_cells s b) [b].
Proof.
  intros L H r Hr. unfold control_details_cells. rewrite L. destruct (hex_two b H) as (h & l & E & Dh & Dl & V). rewrite E.
  cbn [styled map app]. rewrite (glyph _ _ Dh), (glyph _ _ Dl), (glyph 0x2C6F _ eq_refl). cbn [next_under under]. rewrite under_plain. split; [reflexivity|].
  cbn [read_back under next_under]. rewrite under_plain, under_details. cbn. now rewrite V.
Qed.

(** * pieces *)
Lemma flat_single (l : list N) : flat_map (fun c => [c]) l = l.
Proof. induction l as [|x l IH]; [reflexivity|]. simpl. now rewrite IH. Qed.
Lemma flat_same (b : N) l : Forall (fun x => x = b) l -> flat_map (fun _ => [b]) l = l.
Proof. induction 1 as [|x l -> _ IH]; [reflexivity|]. simpl. now rewrite IH. Qed.
Lemma good_signs s k b w : displayable (marker s k) = true -> stands_for (marker s k) (plain_style s k) = [b] -> Forall (fun x => x = b) w ->
  good (styled (plain_style s k) (map (fun _ => marker s k) w)) w.
Proof.
  intros D E F. rewrite <- (flat_same b w F) at 2. clear F.
  assert (X : flat_map (fun _ => [b]) w = flat_map (fun c => stands_for c (plain_style s k)) (map (fun _ => marker s k) w)).
  { induction w as [|x w IH]; [reflexivity|]. simpl. rewrite E, IH. reflexivity. }
  rewrite X. apply good_styled; [apply under_plain|]. apply Forall_forall. intros c I. apply in_map_iff in I as (y & <- & _). auto.
Qed.
Lemma space_style s k : class_of k = CC_space -> plain_style s k = (if s_focus s CC_space then set_fg (ColIdx 0) (set_bg (ColIdx 6) attrs0) else set_fg (ColIdx 14) attrs0).
Proof. intros E. unfold plain_style, focus_style. rewrite E. destruct (s_focus s CC_space); [reflexivity|]. destruct k as [| |p i f| | | | | | |r]; try discriminate E; try reflexivity. destruct r; try discriminate E; reflexivity. Qed.

Lemma good_piece s t : piece t -> marker_level s = L_full -> tok_kind t <> K_binary -> s_ignore s (class_of (tok_kind t)) = false ->
  good (fst (tok_cells s t) ++ snd (tok_cells s t)) (tok_bytes t) /\
  (tok_kind t <> K_run R_control -> good (fst (tok_cells s t)) (tok_bytes t)).
Proof.
  destruct t as [[k w] codes]. intros [rest T] L NB NI. unfold tok_cells, tok_kind, tok_bytes, tok_codes in *. cbn [fst snd] in *.
  unfold text_cells. rewrite NI. destruct (is_escape_seq k) eqn:E.
  - destruct (escape_shape k w rest T E) as (b & t & -> & F).
    assert (G : good ((if separators s then [(0x28B8, separator_style)] else []) ++ [(marker s k, label_style s k codes)] ++ escape_details_cells s k (27 :: b :: t) codes) (27 :: b :: t)).
    { change (27 :: b :: t) with ([] ++ 27 :: b :: t) at 2. apply good_app; [destruct (separators s); [apply good_separator; auto|apply good_nil]|].
      unfold escape_details_cells. rewrite L. cbn [tl app]. now apply good_escape. }
    cbn [fst snd]. split; [|intros _; exact G]. rewrite <- (app_nil_r (27 :: b :: t)) at 2. apply good_app; [exact G|].
    destruct (separators s); [apply good_separator; auto|apply good_nil].
  - assert (Both : forall x, good x w -> good (fst (x, @nil tcell) ++ snd (x, @nil tcell)) w /\ (k <> K_run R_control -> good (fst (x, @nil tcell)) w)) by (intros x X; cbn [fst snd]; rewrite app_nil_r; auto).
    inversion T; subst; try discriminate E; try (now destruct NB).
    + apply Both. now apply good_utf8.
    + apply Both. apply (good_signs s K_escape 27); [reflexivity| |now repeat constructor]. unfold plain_style; simpl; now destruct (s_focus s CC_control).
    + apply Both. change [10] with ([10] ++ []). change [(marker s K_newline, plain_style s K_newline); (10, attrs0)] with ([(marker s K_newline, plain_style s K_newline)] ++ [(10, attrs0)]).
      apply good_app.
      * replace [10] with (stands_for (marker s K_newline) (plain_style s K_newline)); [apply good_one; [reflexivity|apply under_plain]|].
        rewrite space_style by reflexivity. now destruct (s_focus s CC_space).
      * change (@nil N) with (stands_for 10 attrs0). apply (good_one 10 attrs0); reflexivity.
    + rename k0 into r. match goal with H : Forall (run_member r) w |- _ => rename H into F end.
      assert (ST : forall b, (forall x, run_member r x -> x = b) -> displayable (marker s (K_run r)) = true ->
                 stands_for (marker s (K_run r)) (plain_style s (K_run r)) = [b] -> good (styled (plain_style s (K_run r)) (map (fun _ => marker s (K_run r)) w)) w).
      { intros b HB D S. apply (good_signs s (K_run r) b); auto. eapply Forall_impl; [exact HB|exact F]. }
      destruct r; cbn [class_of] in NI.
      * (* control *)
        cbn [fst snd]. split; [|now intros []].
        assert (F' : Forall (fun b => b < 32) w) by (eapply Forall_impl; [|exact F]; simpl; unfold rng; intros; lia).
        match goal with H : w <> [] |- _ => rename H into NE end.
        rewrite (app_removelast_last 0 NE) at 3. rewrite <- app_assoc.
        rewrite (app_removelast_last 0 NE) in F'. apply Forall_app in F' as [F1 F2]. inversion F2; subst.
        apply good_app; [|now apply good_control].
        rewrite <- (flat_single (removelast w)) at 2. apply good_flat. intros b I. apply good_control; [exact L|]. rewrite Forall_forall in F1. now apply F1.
      * apply Both. apply (ST 0); [easy|reflexivity|]. unfold plain_style; simpl; now destruct (s_focus s CC_control).
      * apply Both. apply (ST 8); [easy|reflexivity|]. unfold plain_style; simpl; now destruct (s_focus s CC_control).
      * apply Both. apply (ST 127); [easy|reflexivity|]. unfold plain_style; simpl; now destruct (s_focus s CC_control).
      * (* tab *)
        apply Both. rewrite <- (flat_same 9 w F) at 2. apply good_flat. intros _ _. rewrite space_style by reflexivity.
        change [9] with (stands_for (marker s (K_run R_tab)) (set_fg (ColIdx 14) attrs0) ++ stands_for 9 (set_fg (ColIdx 14) attrs0)).
        set (st := if s_focus s CC_space then _ else _).
        change [(marker s (K_run R_tab), st); (9, st)] with ([(marker s (K_run R_tab), st)] ++ [(9, st)]).
        apply good_app.
        -- replace (stands_for _ (set_fg (ColIdx 14) attrs0)) with (stands_for (marker s (K_run R_tab)) st) by (unfold st; now destruct (s_focus s CC_space)).
           apply good_one; [reflexivity|unfold st; now destruct (s_focus s CC_space)].
        -- replace (stands_for 9 (set_fg (ColIdx 14) attrs0)) with (stands_for 9 st) by (unfold st; now destruct (s_focus s CC_space)).
           apply good_one; [reflexivity|unfold st; now destruct (s_focus s CC_space)].
      * apply Both. apply (ST 11); [easy|reflexivity|]. rewrite space_style by reflexivity. now destruct (s_focus s CC_space).
      * apply Both. apply (ST 12); [easy|reflexivity|]. rewrite space_style by reflexivity. now destruct (s_focus s CC_space).
      * apply Both. apply (ST 13); [easy|reflexivity|]. rewrite space_style by reflexivity. now destruct (s_focus s CC_space).
      * apply Both. apply (ST 32); [easy|simpl; now destruct (s_focus s CC_space)|]. rewrite space_style by reflexivity. simpl. now destruct (s_focus s CC_space).
      * (* printable *)
        apply Both. rewrite <- (flat_single w) at 2. apply good_styled; [apply under_plain|]. eapply Forall_impl; [|exact F].
        simpl. unfold rng. intros c [C1 C2]. split; [apply displayable_low; lia|]. unfold plain_style; simpl; now destruct (s_focus s CC_printable).
Qed.

(** * lines *)
Definition readable_piece (s : settings) (t : token) : Prop := piece t /\ tok_kind t <> K_binary /\ s_ignore s (class_of (tok_kind t)) = false.
Definition told (l : list token) : Prop := l <> [] /\ forall d, tok_kind (last l d) <> K_run R_control.
Lemma good_pieces s l : marker_level s = L_full -> Forall (readable_piece s) l -> told l -> good (pieces_cells s l) (flat_map tok_bytes l).
Proof.
  intros L F. induction F as [|t l (P & B & I) F IH]; intros [NE LT]; [congruence|].
  destruct (good_piece s t P L B I) as [G1 G2]. destruct l as [|t' l].
  - simpl. rewrite app_nil_r. apply G2. exact (LT t).
  - change (pieces_cells s (t :: t' :: l)) with (fst (tok_cells s t) ++ snd (tok_cells s t) ++ pieces_cells s (t' :: l)).
    rewrite app_assoc. change (flat_map tok_bytes (t :: t' :: l)) with (tok_bytes t ++ flat_map tok_bytes (t' :: l)). apply good_app; [exact G1|].
    apply IH. split; [discriminate|]. intros d. exact (LT d).
Qed.
Lemma frame_number s n : good (line_number_cells s n) [].
Proof.
  assert (B : good [bar s] []).
  { unfold bar. replace (@nil N) with (stands_for 0x2502 (set_fg (ColIdx (if debugging s then 8 else 6)) attrs0)); [apply good_one; reflexivity|now destruct (debugging s)]. }
  assert (D : forall w l, Forall (fun c => 48 <= c /\ c <= 57) l -> good (styled green (aligned w l)) []).
  { intros w l F. apply good_frame; [reflexivity|]. unfold aligned. apply Forall_app. split.
    - apply Forall_forall. intros c I. apply repeat_spec in I. subst c. split; reflexivity.
    - eapply Forall_impl; [|exact F]. intros c [A C]. split; [apply displayable_low; lia|]. assert (K : c = 48 \/ c = 49 \/ c = 50 \/ c = 51 \/ c = 52 \/ c = 53 \/ c = 54 \/ c = 55 \/ c = 56 \/ c = 57) by lia.
      repeat (destruct K as [-> | K]; [reflexivity|]). subst c. reflexivity. }
  unfold line_number_cells. destruct (debugging s); [|destruct (s_no_line_numbers s); [apply good_nil|]];
    change (@nil N) with (@nil N ++ []); (apply good_app; [apply D|exact B]).
  - pose proof (dec_digits n) as F. rewrite <- (firstn_skipn 8 (dec n)) in F. now apply Forall_app in F.
  - apply dec_digits.
Qed.
Lemma good_line s l : marker_level s = L_full -> Forall (readable_piece s) l -> told l -> good (line_cells s l) (flat_map tok_bytes l).
Proof.
  intros L F T. unfold line_cells. rewrite <- (app_nil_r (flat_map tok_bytes l)). apply good_app; [now apply good_pieces|].
  destruct (terminated l); [apply good_nil|]. change (@nil N) with (stands_for 10 attrs0). apply (good_one 10 attrs0); reflexivity.
Qed.
Lemma good_lines s ls : marker_level s = L_full -> Forall (Forall (readable_piece s)) ls -> Forall told ls ->
  forall n, good (concat (numbered s n ls)) (flat_map tok_bytes (concat ls)).
Proof.
  intros L F. induction F as [|l ls F1 F IH]; intros T n; [apply good_nil|]. inversion T; subst. cbn [numbered concat]. rewrite flat_map_app.
  apply good_app; [|now apply IH]. change (flat_map tok_bytes l) with ([] ++ flat_map tok_bytes l). apply good_app; [apply frame_number|now apply good_line].
Qed.

Lemma lines_concat ts : concat (token_lines ts) = ts.
Proof.
  induction ts as [|t ts IH]; [reflexivity|]. cbn [token_lines]. destruct (is_line_break t); [simpl; now rewrite IH|].
  destruct (token_lines ts) as [|l ls]; simpl in *; now rewrite <- IH.
Qed.
Lemma lines_all (P : token -> Prop) ts : Forall P ts -> Forall (Forall P) (token_lines ts).
Proof.
  intros F. rewrite <- (lines_concat ts) in F. induction (token_lines ts) as [|l ls IH]; constructor; simpl in F; apply Forall_app in F as [F1 F2]; auto.
Qed.
Lemma lines_told ts : (forall d, tok_kind (last ts d) <> K_run R_control) \/ ts = [] -> Forall told (token_lines ts).
Proof.
  induction ts as [|t ts IH]; intros H; [constructor|]. destruct H as [H|H]; [|discriminate]. cbn [token_lines].
  assert (IH' : Forall told (token_lines ts)) by (apply IH; destruct ts as [|x ts]; [now right|left; intros d; exact (H d)]).
  destruct (is_line_break t) eqn:B.
  - constructor; [|exact IH']. split; [discriminate|]. intros d. simpl. unfold is_line_break in B. destruct (tok_kind t); discriminate.
  - pose proof (lines_concat ts) as C. destruct (token_lines ts) as [|l ls].
    + simpl in C. subst ts. constructor; [|constructor]. split; [discriminate|exact H].
    + inversion IH' as [|? ? [NE LT]]; subst. constructor; [|assumption]. split; [discriminate|]. intros d. destruct l as [|y l]; [congruence|]. exact (LT d).
Qed.
Lemma last_told_spec toks : last_told toks -> (forall d, tok_kind (last toks d) <> K_run R_control) \/ toks = [].
Proof.
  unfold last_told. intros H. destruct (rev toks) as [|t r] eqn:E.
  - right. apply (f_equal (@rev token)) in E. now rewrite rev_involutive in E.
  - left. intros d. apply (f_equal (@rev token)) in E. rewrite rev_involutive in E. subst toks. simpl. now rewrite last_last.
Qed.

Lemma tokens_bytes chunks toks : Tokens chunks toks -> flat_map tok_bytes toks = concat chunks.
Proof.
  intros (tss & L & C).
  assert (A : flat_map snd (concat tss) = concat chunks).
  { clear C. induction L as [|c ts cs tss' H _ IH]; [reflexivity|]. simpl. rewrite flat_map_app, IH. f_equal.
    clear -H. induction H as [|k w rest ts T _ IH]; [reflexivity|]. simpl. now rewrite IH. }
  rewrite <- A. clear A L. induction C as [|t x ts xs [-> _] _ IH]; [reflexivity|]. simpl. now rewrite IH.
Qed.

Lemma read_rows s chunks toks : marker_level s = L_full -> none_ignored s toks -> Tokens chunks toks -> no_stray toks -> last_told toks ->
  read_back W_none (map to_cell (concat (text_rows s toks))) = concat chunks.
Proof.
  intros L I T B E. pose proof (tokens_pieces chunks toks T) as P.
  assert (F : Forall (readable_piece s) toks).
  { unfold none_ignored, no_stray in *. rewrite Forall_forall in *. intros t H. repeat split; auto. }
  pose proof (good_lines s (token_lines toks) L (lines_all _ _ F) (lines_told toks (last_told_spec toks E)) 1) as G.
  destruct (G [] eq_refl) as [_ G2]. rewrite !app_nil_r in G2. unfold text_rows. rewrite G2, lines_concat. now apply tokens_bytes.
Qed.

Lemma recovered s tc src evs chunks toks :
  opens src -> binary_mode s = false -> marker_level s = L_full -> none_ignored s toks ->
  Processed s evs chunks -> Finishes s evs -> Tokens chunks toks -> no_stray toks -> last_told toks ->
  exists p acts, byteio_run s tc src evs = (p, acts, REnd) /\ read_back W_none (screen (pr_out p)) = concat chunks.
Proof.
  intros HS HB HL HI HP HE HT HN HD. destruct (text_eof s tc src evs chunks toks HS HB HP HE HT) as (p & acts & R & D). exists p, acts. split; [exact R|].
  destruct D as [[D _] _]. rewrite D. now apply (read_rows s chunks toks).
Qed.

Lemma alike s1 tc1 src1 evs1 chunks1 toks1 s2 tc2 src2 evs2 chunks2 toks2 :
  opens src1 -> binary_mode s1 = false -> marker_level s1 = L_full -> none_ignored s1 toks1 ->
  Processed s1 evs1 chunks1 -> Finishes s1 evs1 -> Tokens chunks1 toks1 -> no_stray toks1 -> last_told toks1 ->
  opens src2 -> binary_mode s2 = false -> marker_level s2 = L_full -> none_ignored s2 toks2 ->
  Processed s2 evs2 chunks2 -> Finishes s2 evs2 -> Tokens chunks2 toks2 -> no_stray toks2 -> last_told toks2 ->
  screen (pr_out (fst (fst (byteio_run s1 tc1 src1 evs1)))) = screen (pr_out (fst (fst (byteio_run s2 tc2 src2 evs2)))) ->
  concat chunks1 = concat chunks2.
Proof.
  intros A1 A2 A3 A4 A5 A6 A7 A8 A9 B1 B2 B3 B4 B5 B6 B7 B8 B9 E.
  destruct (recovered s1 tc1 src1 evs1 chunks1 toks1 A1 A2 A3 A4 A5 A6 A7 A8 A9) as (p1 & a1 & R1 & E1).
  destruct (recovered s2 tc2 src2 evs2 chunks2 toks2 B1 B2 B3 B4 B5 B6 B7 B8 B9) as (p2 & a2 & R2 & E2).
  rewrite R1, R2 in E. simpl in E. rewrite <- E1, <- E2, E. reflexivity.
Qed.

(** * Examples *)
Definition ex_lines : list (list N) := ex_chunks ++ [[10]].
Definition ex_lines_toks : list token := ex_toks ++ [(K_newline, [10], [])].
Lemma ex_lines_tokens : Tokens ex_lines ex_lines_toks.
Proof.
  destruct ex_tokens as (tss & L & C). exists (tss ++ [[(K_newline, [10])]]). split.
  - apply Forall2_app; [exact L|]. constructor; [|constructor]. change [10] with ([10] ++ []) at 1. constructor; [|constructor]. constructor.
  - rewrite concat_app. apply Forall2_app; [exact C|]. constructor; [|constructor]. now split.
Qed.
Definition shown_text (s : settings) (chunks : list (list N)) : list cell := screen (pr_out (fst (fst (byteio_run s 80 SrcStdin (map RData chunks))))).
Lemma stray_alike : exists s a b, binary_mode s = false /\ marker_level s = L_full /\ a <> b /\
  read_back W_none (shown_text s [[a; 10]]) <> [a; 10] /\ shown_text s [[a; 10]] = shown_text s [[b; 10]].
Proof. exists (text_marked 2), 128, 129. repeat split; try reflexivity; vm_compute; congruence. Qed.
Lemma tail_alike : exists s a b, binary_mode s = false /\ marker_level s = L_full /\ a < 32 /\ b < 32 /\ a <> b /\
  shown_text s [[a]] = shown_text s [[b]].
Proof. exists (text_marked 2), 1, 2. repeat split; try reflexivity; vm_compute; congruence. Qed.
Lemma brief_alike : exists s a b, binary_mode s = false /\ marker_level s = L_brief /\ a <> b /\
  shown_text s [a] = shown_text s [b].
Proof.
  exists (text_marked 1), [27; 91; 72; 10], [27; 91; 74; 10]. repeat split; try reflexivity; try (vm_compute; congruence).
Qed.
