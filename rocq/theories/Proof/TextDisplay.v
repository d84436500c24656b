(** Templates in text mode *)
From Coq Require Import List Arith NArith ZArith Bool Lia.
From Verif.Model Require Import Base Ansi Strip Settings Segment Template.
From Verif.Spec Require Import Numbers Terminal Sgr Utf8 Lexical SgrParams Display.
From Verif.Proof Require Import BaseFacts RegexFacts TermFacts ClosingFacts LexFacts TokFacts PaintFacts DisplayFacts BinDisplay.
Import ListNotations.
Local Open Scope N_scope.

Definition no10 (g : segment) : Prop := Forall (fun c => c <> 10) (seg_proc g).
Lemma no10_newline g : no10 g -> seg_is_newline g = false.
Proof.
  intros H. unfold seg_is_newline. apply not_true_iff_false. rewrite existsb_exists. intros (x & Hx & E).
  apply N.eqb_eq in E. subst x. unfold no10 in H. rewrite Forall_forall in H. now apply (H 10 Hx).
Qed.

(** segments of a token: [body] ends with a segment that has bytes, [trail] has none *)
Definition shows_text (body_trail : list tcell * list tcell) (nl : bool) (segs : list segment) : Prop :=
  exists body trail bc tc,
    segs = body ++ trail /\ Forall2 seg_shows body bc /\ Forall2 seg_shows trail tc /\
    concat bc = map to_cell (fst body_trail) /\ concat tc = map to_cell (snd body_trail) /\
    (exists l x, body = l ++ [x] /\ seg_raw x <> [] /\ seg_is_newline x = nl /\ Forall (fun g => seg_is_newline g = false) l) /\
    Forall (fun g => seg_raw g = [] /\ seg_is_newline g = false) trail.

Lemma shows_one (g : segment) cells nl : seg_shows g (map to_cell cells) -> seg_raw g <> [] -> seg_is_newline g = nl -> shows_text (cells, []) nl [g].
Proof.
  intros H1 H2 H3. exists [g], [], [map to_cell cells], []. cbn [app concat fst snd map]. rewrite app_nil_r.
  repeat split; auto. exists [], g. auto.
Qed.

(** ** characters of code names *)
Definition namec (c : N) : Prop := 48 <= c /\ c <= 102.
Lemma dec_namec n : Forall namec (dec n).
Proof. eapply Forall_impl; [|apply dec_digits]. unfold namec. cbn beta. intros; lia. Qed.
Lemma hex_namec w n : Forall namec (fmt_hex_up w n).
Proof. eapply Forall_impl; [|apply fmt_hex_up_chars]. unfold namec. cbn beta. intros; lia. Qed.
Lemma code_names_chars codes : Forall (Forall namec) (code_names codes).
Proof.
  induction codes as [codes IH] using (@length_ind N). destruct codes as [|c t]; [constructor|]. cbn [code_names].
  assert (L : namec (if c =? 38 then 70 else 66)) by (destruct (c =? 38); unfold namec; lia).
  assert (P : Forall (Forall namec) (dec c :: code_names t)) by (constructor; [apply dec_namec|apply IH; cbn [length]; lia]).
  destruct ((c =? 38) || (c =? 48)); [|exact P].
  destruct t as [|m [|n t2]]; try exact P. destruct (m =? 5).
  - constructor; [constructor; [exact L|apply dec_namec]|apply IH; cbn [length]; lia].
  - destruct t2 as [|g [|b t4]]; try exact P. destruct (m =? 2); [|exact P].
    constructor; [constructor; [exact L|apply hex_namec]|apply IH; cbn [length]; lia].
Qed.

Lemma brief_painted a names : a_under a = 1 -> Forall (Forall namec) names ->
  Painted a (join brief_separator names) a (map to_cell (name_cells a names)).
Proof.
  intros Ha H. assert (Hu : forall x, a_under x = 1 -> sgr_apply [4] (sgr_apply [24] x) = x) by (intros x Hx; destruct x; cbn in *; now subst).
  induction H as [|n names Hn H IH]; [constructor|].
  assert (Pn : Painted a n a (map to_cell (styled a n))).
  { apply Painted_plain. eapply Forall_impl; [|exact Hn]. unfold namec. cbn beta. intros; lia. }
  destruct names as [|m names]; [exact Pn|]. change (join brief_separator (n :: m :: names)) with (n ++ brief_separator ++ join brief_separator (m :: names)).
  change (name_cells a (n :: m :: names)) with (styled a n ++ [(0xFF65, set_under 0 a)] ++ name_cells a (m :: names)).
  rewrite !map_app. eapply Painted_app; [exact Pn|]. eapply Painted_app; [|exact IH].
  unfold brief_separator. constructor. cbn [app map]. change (sgr_apply [c_UNDERLINED_OFF] a) with (set_under 0 a).
  apply Pt_chr; [easy|]. rewrite <- (Hu a Ha) at 2. apply Painted_assemble.
Qed.
Lemma join_Forall (P : N -> Prop) sep l : Forall P sep -> Forall (Forall P) l -> Forall P (join sep l).
Proof.
  intros Hs H. induction H as [|x l Hx H IH]; [constructor|]. destruct l as [|y l]; [exact Hx|].
  cbn [join]. apply Forall_app. split; [exact Hx|]. apply Forall_app. auto.
Qed.
Lemma details_under s k codes : a_under (details_style s k codes) = 1.
Proof.
  unfold details_style. destruct k as [| |p i f| | | | | | |r]; try reflexivity. destruct (csi_sort p f); try reflexivity.
  destruct (s_color_markers s); [|reflexivity]. now rewrite harmless_under.
Qed.

Lemma styled_app a x y : styled a (x ++ y) = styled a x ++ styled a y.
Proof. apply map_app. Qed.
Lemma styled_flat a (f : N -> list N) w : styled a (flat_map f w) = flat_map (fun b => styled a (f b)) w.
Proof. induction w as [|b w IH]; [reflexivity|]. cbn [flat_map]. now rewrite styled_app, IH. Qed.

Lemma text_level s : binary_mode s = false -> forall e, Env s e ->
  te_details e = match marker_level s with L_none => MD_no | L_brief => MD_brief | L_full => MD_full end.
Proof. intros B e E. now rewrite (env_details s e E), B. Qed.

Lemma Forall2_cons_inv_one {A B} (R : A -> B -> Prop) x y : R x y -> Forall2 R [x] [y].
Proof. auto. Qed.

(** ** escape sequences *)
Lemma text_escape s e k w rest ss segs codes :
  Env s e -> binary_mode s = false -> Token k w rest -> is_escape_seq k = true -> s_ignore s (class_of k) = false ->
  TokCodes k codes ->
  (forall p i f, k = K_csi p i f -> csi_is_sgr p f = true ->
    ss_opening ss = Some (fst (brief_loop codes)) /\ ss_brief ss = Some (join brief_separator (code_names codes))) ->
  substitute e (tok_tpl k) ss w = Ok segs -> shows_text (text_cells s k w codes) false segs.
Proof.
  intros E B HT Hk I HC Hss HS.
  rewrite substitute_escape in HS by now apply tpl_kind_esc. rewrite (disp_ignored s e k E), I in HS.
  destruct (label_facts s e k ss codes E Hk I (fun p i f K1 K2 => proj1 (Hss p i f K1 K2))) as (lo & LE & LG & LA). rewrite LE in HS.
  destruct (details_facts s e k ss codes E (or_introl Hk) (fun p i f K1 K2 => proj1 (Hss p i f K1 K2))) as (dop & DE & DG & _ & DA).
  destruct (esc_shape k w rest HT Hk) as (t & -> & Ht & Hr). cbn [skipn firstn] in HS.
  rewrite (process_esc s e k E Hk I) in HS. unfold esc_details in HS.
  rewrite (text_level s B e E), (env_read s e E), B, DE, (env_sep s e E) in HS. cbn [bind is_binary negb andb] in HS.
  set (lab := mkSeg lo (type_label (t_class (tok_tpl k))) [27] [marker s k]) in *.
  assert (SL : seg_shows lab (map to_cell [(marker s k, label_style s k codes)])).
  { unfold lab. rewrite <- LA. apply (seg_shows_plain lo _ [27] [marker s k] LG). constructor; [apply marker_not_esc|constructor]. }
  assert (NL : seg_is_newline lab = false).
  { apply no10_newline. constructor; [|constructor]. unfold marker. destruct k as [| |p i f| | | | | | |r]; try discriminate Hk; try easy. destruct (csi_sort p f); easy. }
  unfold text_cells. rewrite I, Hk.
  (* details segment *)
  assert (Det : marker_level s = L_none /\ segs = [lab] \/
     exists det, seg_shows det (map to_cell (escape_details_cells s k (27 :: t) codes)) /\ seg_raw det = t /\ seg_is_newline det = false /\
                 segs = if separators s then wrap_in_separators [lab; det] else [lab; det]).
  { unfold separators, escape_details_cells. destruct (marker_level s); cbn [bind] in HS.
    - left. rewrite andb_false_r in HS. injection HS as <-. auto.
    - right. destruct (brief_details_processed (tok_tpl k) ss) as [br|] eqn:BR; [|discriminate]. cbn [bind] in HS.
      injection HS as <-. exists (mkSeg dop TYPE_LABEL_DETAILS t br). repeat split; auto.
      + exists (sgr_apply dop attrs0). split; [|now apply good_closing]. cbn [seg_open seg_proc]. rewrite DA.
        destruct k as [| |p i f| | | | | | |r]; try discriminate Hk; try (injection BR as <-; constructor).
        unfold brief_details_processed in BR. rewrite tpl_csi in BR. specialize (Hss p i f eq_refl). rewrite csi_sort_sgr in Hss.
        destruct (csi_sort p f); try (injection BR as <-; constructor).
        cbn [T_ESCAPE_SEQ_SGR mkTemplate t_kind] in BR. rewrite (proj2 (Hss eq_refl)) in BR. injection BR as <-.
        apply brief_painted; [apply details_under|apply code_names_chars].
      + apply no10_newline. unfold no10. cbn [seg_proc].
        destruct k as [| |p i f| | | | | | |r]; try discriminate Hk; try (injection BR as <-; constructor).
        unfold brief_details_processed in BR. rewrite tpl_csi in BR. specialize (Hss p i f eq_refl). rewrite csi_sort_sgr in Hss.
        destruct (csi_sort p f); try (injection BR as <-; constructor).
        cbn [T_ESCAPE_SEQ_SGR mkTemplate t_kind] in BR. rewrite (proj2 (Hss eq_refl)) in BR. injection BR as <-.
        apply join_Forall; [repeat constructor; easy|]. eapply Forall_impl; [|apply code_names_chars]. cbn beta. intros x Hx.
        eapply Forall_impl; [|exact Hx]. unfold namec. cbn beta. intros; lia.
    - right. injection HS as <-. exists (mkSeg dop TYPE_LABEL_DETAILS t (ascii_ignore t)).
      rewrite ascii_ignore_id by (eapply Forall_impl; [|exact Hr]; cbn beta; intros; lia). split; [|split; [reflexivity|split]].
      + cbn [tl]. rewrite <- DA. apply seg_shows_plain; [exact DG|]. eapply Forall_impl; [|exact Hr]; cbn beta; intros; lia.
      + apply no10_newline. unfold no10. cbn [seg_proc]. eapply Forall_impl; [|exact Hr]; cbn beta; intros; lia.
      + rewrite andb_true_r. reflexivity. }
  destruct Det as [[ML ->]|(det & SD & RD & ND & ->)].
  - unfold separators, escape_details_cells. rewrite ML, andb_false_r. apply shows_one; auto; easy.
  - set (dc := escape_details_cells s k (27 :: t) codes) in *. destruct (separators s).
    + set (sl := mkSeg [c_COLOR_EXTENDED; c_MODE_256; 255] [] [] SEPARATOR_LEFT).
      set (sr := mkSeg [c_COLOR_EXTENDED; c_MODE_256; 255] [] [] SEPARATOR_RIGHT).
      assert (Ssl : seg_shows sl (map to_cell [(0x28B8, separator_style)])).
      { apply (seg_shows_plain [c_COLOR_EXTENDED; c_MODE_256; 255]); [solve_good|constructor; [easy|constructor]]. }
      assert (Ssr : seg_shows sr (map to_cell [(0x2847, separator_style)])).
      { apply (seg_shows_plain [c_COLOR_EXTENDED; c_MODE_256; 255]); [solve_good|constructor; [easy|constructor]]. }
      exists [sl; lab; det], [sr], [map to_cell [(0x28B8, separator_style)]; map to_cell [(marker s k, label_style s k codes)]; map to_cell dc],
        [map to_cell [(0x2847, separator_style)]].
      split; [reflexivity|]. split; [repeat (apply Forall2_cons; [assumption|]); constructor|]. split; [repeat (apply Forall2_cons; [assumption|]); constructor|].
      split; [cbn [concat fst]; rewrite app_nil_r, !map_app; reflexivity|]. split; [reflexivity|].
      split; [|constructor; [auto|constructor]]. exists [sl; lab], det. repeat split; auto; congruence.
    + exists [lab; det], [], [map to_cell [(marker s k, label_style s k codes)]; map to_cell dc], [].
      split; [reflexivity|]. split; [repeat (apply Forall2_cons; [assumption|]); constructor|]. split; [constructor|].
      split; [cbn [concat fst]; rewrite app_nil_r, !map_app; reflexivity|]. split; [reflexivity|].
      split; [|constructor]. exists [lab], det. repeat split; auto; congruence.
Qed.

(** ** runs of generic control characters, with details *)
Lemma brief_map_value b c : assoc b brief_label_map = Some c -> c = b + 64.
Proof.
  intros H. assert (K : forallb (fun x => snd x =? fst x + 64) brief_label_map = true) by reflexivity.
  rewrite forallb_forall in K. assert (In (b, c) brief_label_map).
  { clear K. revert H. generalize brief_label_map. intros l. induction l as [|[k v] l IH]; cbn [assoc]; [discriminate|].
    destruct (N.eqb_spec b k); [intros E; injection E as ->; subst; now left|]. intros; right; auto. }
  apply K in H0. cbn [fst snd] in H0. now apply N.eqb_eq in H0.
Qed.

Lemma last_In {A} (d : A) l : l <> [] -> In (last l d) l.
Proof. intros H. rewrite (app_removelast_last d H) at 2. apply in_or_app. right. now left. Qed.
Lemma flat_snoc {A} (f : N -> list A) x w : w <> [] ->
  flat_map (fun b => x :: f b) w = (flat_map (fun b => x :: f b) (removelast w) ++ [x]) ++ f (last w 0).
Proof.
  intros Hw. rewrite (app_removelast_last 0 Hw) at 1. rewrite flat_map_app. cbn [flat_map]. rewrite app_nil_r, <- app_assoc. reflexivity.
Qed.

Lemma control_text s e ss w segs :
  Env s e -> binary_mode s = false -> w <> [] -> Forall (run_member R_control) w -> marker_level s <> L_none ->
  control_loop e T_CONTROL_CHAR ss w = Ok segs -> shows_text (text_cells s (K_run R_control) w []) false segs.
Proof.
  intros E B Hw Hm ML. set (k := K_run R_control).
  destruct (opening_facts s e k E) as (G & _ & A). unfold opening_of in *.
  destruct (details_facts s e k ss [] E (or_intror eq_refl) ltac:(discriminate)) as (dop & DE & DG & _ & DA).
  change T_CONTROL_CHAR with (tok_tpl k).
  set (prim b := mkSeg (mode_get e (tok_tpl k) (t_opening (tok_tpl k))) (type_label (t_class (tok_tpl k))) (repeat 0 (N.to_nat b)) (process_byte e (tok_tpl k) b)).
  assert (Hraw : forall b, run_member R_control b -> seg_raw (prim b) <> []).
  { intros b Hb. unfold prim. cbn [seg_raw]. cbn in Hb. unfold rng in Hb. destruct (N.to_nat b) eqn:Eb; [lia|]. easy. }
  assert (Hno10 : forall b, no10 (prim b)).
  { intros b. unfold prim, no10. cbn [seg_proc]. rewrite (process_byte_text s e k b E). unfold byte_text. cbn [class_of k].
    destruct (s_ignore s CC_control); constructor; try easy; constructor. }
  destruct (s_ignore s (class_of k)) eqn:I.
  - (* ignored *)
    assert (HL : forall l, control_loop e (tok_tpl k) ss l = Ok (map prim l)).
    { induction l as [|b l IH]; [reflexivity|]. cbn [control_loop map].
      unfold control_details. rewrite (disp_ignored s e k E), I. cbn [bind]. rewrite IH. reflexivity. }
    rewrite HL. intros HS. injection HS as <-. unfold text_cells. rewrite I.
    exists (map prim w), [], (map (fun _ => [to_cell (ignored_sign, ignored_style)]) w), [].
    rewrite app_nil_r. split; [reflexivity|]. split; [|split; [constructor|split; [|split; [reflexivity|split; [|constructor]]]]].
    + clear Hw Hm HL. induction w as [|b w IH]; [constructor|]. cbn [map]. constructor; [|exact IH].
      unfold prim. rewrite (process_byte_text s e k b E). unfold byte_text. rewrite I.
      change [to_cell (ignored_sign, ignored_style)] with (map to_cell (styled ignored_style [ignored_sign])). rewrite <- A.
      apply seg_shows_plain; [exact G|]. constructor; [easy|constructor].
    + cbn [fst]. clear. induction w as [|b w IH]; [reflexivity|]. cbn [map concat flat_map]. rewrite IH. reflexivity.
    + rewrite (app_removelast_last 0 Hw), map_app. exists (map prim (removelast w)), (prim (last w 0)). split; [reflexivity|].
      split; [apply Hraw; rewrite Forall_forall in Hm; apply Hm; now apply last_In|]. split; [now apply no10_newline|].
      apply Forall_map, Forall_forall. intros; now apply no10_newline.
  - (* details *)
    set (dcell b := control_details_cells s b).
    assert (HD : forall b det, run_member R_control b -> control_details e (tok_tpl k) ss b = Ok det ->
        exists d, det = [d] /\ seg_raw d = [] /\ seg_is_newline d = false /\ seg_shows d (map to_cell (dcell b))).
    { intros b det Hb. unfold control_details. rewrite (disp_ignored s e k E), I, (text_level s B e E).
      unfold dcell, control_details_cells. fold k. destruct (marker_level s); [easy| |].
      - destruct (assoc b brief_label_map) as [c|] eqn:BM; [|discriminate]. apply brief_map_value in BM. subst c.
        rewrite DE. cbn [bind]. intros HS. injection HS as <-. eexists. split; [reflexivity|]. split; [reflexivity|]. split.
        + apply no10_newline. constructor; [lia|constructor].
        + rewrite <- DA. apply (seg_shows_plain dop _ [] [b + 64] DG). constructor; [|constructor]. lia.
      - rewrite DE. cbn [bind]. intros HS. injection HS as <-. eexists. split; [reflexivity|]. split; [reflexivity|]. split.
        + apply no10_newline. unfold no10. cbn [seg_proc]. eapply Forall_impl; [|apply fmt_hex_lo_chars]. cbn beta. intros; lia.
        + rewrite <- DA. apply (seg_shows_plain dop _ [] _ DG). eapply Forall_impl; [|apply fmt_hex_lo_chars]. cbn beta. intros; lia. }
    assert (SP : forall b, seg_shows (prim b) (map to_cell [(marker s k, plain_style s k)])).
    { intros b. unfold prim. rewrite (process_byte_text s e k b E). unfold byte_text. rewrite I. rewrite <- A.
      apply (seg_shows_plain _ _ _ [marker s k] G). constructor; [apply marker_not_esc|constructor]. }
    intros HS. unfold text_cells. rewrite I. cbn [is_escape_seq k]. fold k.
    change (control_details_cells s) with dcell.
    assert (Gen : forall w segs, w <> [] -> Forall (run_member R_control) w -> control_loop e (tok_tpl k) ss w = Ok segs ->
      shows_text (flat_map (fun b => (marker s k, plain_style s k) :: dcell b) (removelast w) ++ [(marker s k, plain_style s k)], dcell (last w 0)) false segs).
    { clear w segs Hw Hm HS. induction w as [|b w IH]; intros segs Hw Hm HS; [easy|].
      inversion Hm as [|b' w' Hb Hm']; subst. cbn [control_loop] in HS. fold (prim b) in HS.
      destruct (control_details e (tok_tpl k) ss b) as [det|] eqn:CD; [|discriminate].
      apply (HD b det Hb) in CD as (d & -> & Rd & Nd & Sd). cbn [bind] in HS.
      destruct (control_loop e (tok_tpl k) ss w) as [more|] eqn:CL; [|discriminate]. cbn [bind app] in HS. injection HS as <-.
      destruct w as [|b2 w].
      - injection CL as <-. exists [prim b], [d], [map to_cell [(marker s k, plain_style s k)]], [map to_cell (dcell b)].
        split; [reflexivity|]. split; [constructor; auto|]. split; [constructor; auto|].
        split; [cbn [concat fst removelast flat_map app]; now rewrite app_nil_r|].
        split; [cbn [concat snd last]; now rewrite app_nil_r|].
        split; [|constructor; auto]. exists [], (prim b). repeat split; auto. now apply no10_newline.
      - destruct (IH more ltac:(easy) Hm' eq_refl) as (body & trail & bc & tc & -> & H1 & H2 & H3 & H4 & (l & x & -> & H5 & H6 & H7) & H8).
        exists (prim b :: d :: l ++ [x]), trail, (map to_cell [(marker s k, plain_style s k)] :: map to_cell (dcell b) :: bc), tc.
        split; [reflexivity|]. split; [repeat (apply Forall2_cons; auto)|]. split; [exact H2|].
        cbn [fst snd] in *. split.
        + change (removelast (b :: b2 :: w)) with (b :: removelast (b2 :: w)). cbn [flat_map concat]. rewrite H3.
          rewrite !map_app. cbn [map app]. rewrite ?map_app, <- ?app_assoc. reflexivity.
        + split; [exact H4|]. split; [|exact H8]. exists (prim b :: d :: l), x. repeat split; auto.
          repeat constructor; auto. now apply no10_newline. }
    now apply Gen.
Qed.

(** ** everything else *)
Lemma byte_text_plain s k w (T : binary_mode s = false) :
  is_escape_seq k = false -> s_ignore s (class_of k) = false -> k <> K_newline -> decodes s k = false -> k <> K_run R_control ->
  forall st, st = plain_style s k -> styled st (flat_map (byte_text s k) w) = fst (text_cells s k w []) /\ snd (text_cells s k w []) = [].
Proof.
  intros He I Hn D Hc st ->. rewrite styled_flat. unfold text_cells. rewrite I, He. split.
  - rewrite (flat_map_ext_in _ (fun b => styled (plain_style s k) (match k with K_run R_tab => [marker s k; 9] | K_run R_printable => [b] | _ => [marker s k] end))).
    + destruct k as [cp| |p i f| | | | | | |r]; try discriminate He; try easy.
      * cbn [decodes class_of] in D, I. rewrite I, T in D. discriminate.
      * cbn [fst]. unfold styled. cbn [map app]. induction w as [|b w IH]; [reflexivity|]. cbn [flat_map map app]. now rewrite IH.
      * cbn [fst]. unfold styled. cbn [map app]. induction w as [|b w IH]; [reflexivity|]. cbn [flat_map map app]. now rewrite IH.
      * destruct r; try easy; cbn [fst]; unfold styled; cbn [map app]; induction w as [|b w IH]; try reflexivity; cbn [flat_map map app]; now rewrite IH.
    + intros b _. unfold byte_text. rewrite I, T. destruct k as [cp| |p i f| | | | | | |r]; try discriminate He; try easy.
      * cbn [decodes class_of] in D, I. rewrite I, T in D. discriminate.
  - destruct k as [cp| |p i f| | | | | | |r]; try reflexivity. destruct r; easy.
Qed.
Lemma marker_not_10 s k : marker s k <> 10.
Proof.
  unfold marker. destruct k as [| |p i f| | | | | | |r]; try easy.
  - destruct (binary_mode s); easy.
  - destruct (csi_sort p f); easy.
  - destruct r; try easy. destruct (s_focus s CC_space); easy.
Qed.
Lemma byte_text_chars s k w rest : Token k w rest -> k <> K_newline ->
  Forall (fun c => c <> 27 /\ c <> 10) (flat_map (byte_text s k) w).
Proof.
  intros HT Hn. rewrite Forall_forall. intros c Hc. apply in_flat_map in Hc as (b & Hb & Hc). unfold byte_text in Hc.
  pose proof (marker_not_esc s k) as M1. pose proof (marker_not_10 s k) as M2.
  destruct (s_ignore s (class_of k)).
  - destruct k; cbn in Hc; destruct Hc as [<-|Hc]; try easy.
  - destruct k as [cp| |p i f| | | | | | |r]; try easy; try (cbn in Hc; destruct Hc as [<-|[]]; auto).
    + destruct (binary_mode s); cbn in Hc; [destruct Hc as [<-|[]]; auto|easy].
    + destruct r; try (cbn in Hc; destruct Hc as [<-|[]]; solve [auto]).
      * destruct Hc as [<-|Hc]; [auto|]. destruct (binary_mode s); cbn in Hc; [easy|]. destruct Hc as [<-|[]]; split; easy.
      * inversion HT as [| | | | | | | | |k' w' rest' H1 H2 H3]; subst. rewrite Forall_forall in H2. specialize (H2 b Hb). cbn in H2. unfold rng in H2. destruct Hc as [<-|[]]. lia.
Qed.

Definition is_nl (k : kind) : bool := match k with K_newline => true | _ => false end.

Lemma text_base s e k w rest codes : Env s e -> binary_mode s = false -> Token k w rest ->
  (is_escape_seq k = false \/ s_ignore s (class_of k) = true) ->
  (k = K_run R_control -> marker_level s = L_none \/ s_ignore s (class_of k) = true) -> TokCodes k codes ->
  shows_text (text_cells s k w codes) (is_nl k) (substitute_base e (tok_tpl k) w).
Proof.
  intros E B HT Hk Hctl HC. pose proof (opening_facts s e k E) as (G & _ & A). unfold opening_of in *.
  pose proof (token_nonempty _ _ _ HT) as Hw. unfold substitute_base.
  set (o := mode_get e (tok_tpl k) (t_opening (tok_tpl k))) in *. set (lb := type_label (t_class (tok_tpl k))).
  destruct (s_ignore s (class_of k)) eqn:I.
  - (* ignored *)
    assert (D : decodes s k = false) by (destruct k; try reflexivity; cbn [decodes class_of] in *; now rewrite I).
    rewrite (process_text s e k w E D). unfold text_cells. rewrite I.
    assert (X : styled ignored_style (flat_map (byte_text s k) w) = flat_map (fun _ => (ignored_sign, ignored_style)
                        :: match k with K_newline => [(10, ignored_style)] | _ => [] end) w).
    { rewrite styled_flat. apply flat_map_ext_in. intros b _. unfold byte_text. rewrite I, B. destruct k; reflexivity. }
    apply shows_one; [|exact Hw|].
    + rewrite <- X, <- A. apply seg_shows_plain; [exact G|]. destruct (is_nl k) eqn:N.
      * destruct k; try discriminate N. unfold byte_text. rewrite I, B. apply Forall_forall. intros c Hc. apply in_flat_map in Hc as (b & _ & Hc).
        cbn in Hc. destruct Hc as [<-|[<-|[]]]; easy.
      * eapply Forall_impl; [|eapply byte_text_chars; [exact HT|destruct k; easy]]. cbn beta. tauto.
    + destruct (is_nl k) eqn:N.
      * destruct k; try discriminate N. inversion HT; subst. unfold seg_is_newline. cbn [seg_proc flat_map]. unfold byte_text. rewrite I, B. reflexivity.
      * apply no10_newline. unfold no10. cbn [seg_proc]. eapply Forall_impl; [|eapply byte_text_chars; [exact HT|destruct k; easy]]. cbn beta. tauto.
  - destruct Hk as [Hk|Hk]; [|discriminate].
    assert (HCn : codes = []) by (destruct k; try exact HC; discriminate Hk). subst codes.
    destruct (decodes s k) eqn:D.
    + destruct k as [cp| | | | | | | | |]; try discriminate D. inversion HT as [cp' rest' Hs Hc E1 E2 E3| | | | | | | | |]; subst.
      destruct (utf8_decode_encode cp Hs Hc) as [UD UL].
      assert (P : process e (tok_tpl (K_utf8 cp)) (utf8_encode cp) = [cp]).
      { unfold process. cbn [tok_tpl T_UTF_8_SEQ mkTemplate t_kind].
        change T_UTF_8_SEQ with (tok_tpl (K_utf8 cp)). rewrite (disp_ignored s e (K_utf8 cp) E), I.
        rewrite (env_read s e E), B. cbn [is_text is_binary orb]. exact UD. }
      rewrite P. unfold text_cells. rewrite I. cbn [is_escape_seq]. apply shows_one; [|exact Hw|].
      * rewrite <- A. apply (seg_shows_plain o lb _ [cp] G). constructor; [lia|constructor].
      * apply no10_newline. constructor; [lia|constructor].
    + rewrite (process_text s e k w E D). destruct (is_nl k) eqn:N.
      * destruct k; try discriminate N. inversion HT; subst. cbn [flat_map]. rewrite app_nil_r. unfold byte_text, text_cells. rewrite I, B. cbn [is_escape_seq].
        apply shows_one; [|easy|reflexivity]. split; [exact G|]. exists attrs0. split; [|now apply good_closing_default].
        cbn [seg_open seg_proc map]. rewrite A. apply Pt_chr; [easy|]. apply Pt_sgr. apply Pt_chr; [easy|]. constructor.
      * assert (Hno : Forall (fun c => c <> 27 /\ c <> 10) (flat_map (byte_text s k) w)) by (eapply byte_text_chars; [exact HT|destruct k; easy]).
        assert (SH : seg_shows (mkSeg o lb w (flat_map (byte_text s k) w)) (map to_cell (styled (plain_style s k) (flat_map (byte_text s k) w)))).
        { rewrite <- A. apply seg_shows_plain; [exact G|]. eapply Forall_impl; [|exact Hno]. cbn beta. tauto. }
        assert (NN : seg_is_newline (mkSeg o lb w (flat_map (byte_text s k) w)) = false).
        { apply no10_newline. unfold no10. cbn [seg_proc]. eapply Forall_impl; [|exact Hno]. cbn beta. tauto. }
        assert (CC : {k = K_run R_control} + {k <> K_run R_control}) by (destruct k as [| | | | | | | | |r]; try (right; easy); destruct r; (left; reflexivity) || (right; easy)).
        destruct CC as [->|CC].
        -- destruct (Hctl eq_refl) as [ML|]; [|discriminate].
           assert (X : text_cells s (K_run R_control) w [] = (styled (plain_style s (K_run R_control)) (flat_map (byte_text s (K_run R_control)) w), [])).
           { unfold text_cells. rewrite I. cbn [is_escape_seq]. unfold control_details_cells. rewrite ML. cbv zeta iota beta. f_equal.
             pose proof (flat_snoc (fun _ => @nil tcell) (marker s (K_run R_control), plain_style s (K_run R_control)) w Hw) as F.
             rewrite app_nil_r in F. etransitivity; [symmetry; exact F|]. rewrite styled_flat. apply flat_map_ext_in. intros b _. unfold byte_text. rewrite I. reflexivity. }
           rewrite X. now apply shows_one.
        -- assert (Hn : k <> K_newline) by (destruct k; easy).
           destruct (byte_text_plain s k w B Hk I Hn D CC _ eq_refl) as [X1 X2].
           rewrite (surjective_pairing (text_cells s k w [])), X2, <- X1. now apply shows_one.
Qed.

Lemma text_tok s e k w rest segs codes :
  Env s e -> binary_mode s = false -> Token k w rest -> tok_segs e k w = Ok segs -> TokCodes k codes ->
  shows_text (text_cells s k w codes) (is_nl k) segs.
Proof.
  intros E B HT HS HC. unfold tok_segs in HS.
  destruct (tok_state k sgr_state_init) as [ss|] eqn:TS; [|discriminate]. cbn [bind] in HS.
  apply tok_state_codes in TS as (codes' & HC' & Hss). rewrite (TokCodes_det _ _ _ HC HC') in *. clear HC codes.
  destruct (is_escape_seq k) eqn:Hk.
  - destruct (s_ignore s (class_of k)) eqn:I.
    + rewrite substitute_escape in HS by now apply tpl_kind_esc. rewrite (disp_ignored s e k E), I in HS. injection HS as <-.
      eapply text_base; eauto.
    + replace (is_nl k) with false by (destruct k; try reflexivity; discriminate Hk). eapply text_escape; eauto.
  - destruct (tpl_kind_other k Hk) as (K1 & K2 & K3).
    assert (CC : {k = K_run R_control} + {k <> K_run R_control}) by (destruct k as [| | | | | | | | |r]; try (right; easy); destruct r; (left; reflexivity) || (right; easy)).
    destruct CC as [->|CC].
    + assert (codes' = []) by exact HC'. subst codes'. cbn [is_nl].
      unfold substitute in HS. cbn [tok_tpl T_CONTROL_CHAR mkTemplate t_kind] in HS. rewrite (text_level s B e E) in HS.
      inversion HT as [| | | | | | | | |k' w' rest' H1 H2 H3]; subst.
      destruct (marker_level s) eqn:ML.
      * injection HS as <-. change false with (is_nl (K_run R_control)). eapply text_base; eauto.
      * eapply control_text; eauto. congruence.
      * eapply control_text; eauto. congruence.
    + assert (HS' : segs = substitute_base e (tok_tpl k) w).
      { unfold substitute in HS. destruct (t_kind (tok_tpl k)) eqn:K; try easy; try congruence. now specialize (K3 eq_refl). }
      subst segs. eapply text_base; eauto; easy.
Qed.
