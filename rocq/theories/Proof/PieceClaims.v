(** C08, C09, C11, C13-C15: what the parser makes of each piece of its input *)
From Coq Require Import List Arith NArith ZArith Bool Lia.
From Verif.Model Require Import Base Ansi Regex Strip Settings Segment Template Parser.
From Verif.Spec Require Import Numbers Terminal Sgr Utf8 Lexical SgrParams Display Names.
From Verif.Proof Require Import BaseFacts RegexFacts TermFacts ClosingFacts LexFacts TokFacts PaintFacts DisplayFacts BinDisplay TextDisplay LexClaims BinClaims.
Import ListNotations.
Local Open Scope N_scope.

Lemma toks_pieces e ts segs : toks_segs e ts = Ok segs ->
  exists segss, segs = concat segss /\ Forall2 (fun t gs => tok_segs e (fst t) (snd t) = Ok gs) ts segss.
Proof.
  revert segs. induction ts as [|[k w] ts IH]; intros segs H; cbn [toks_segs] in H.
  - injection H as <-. exists []. auto.
  - destruct (tok_segs e k w) as [a|] eqn:E; [|discriminate]. destruct (toks_segs e ts) as [b|] eqn:E2; [|discriminate].
    cbn [bind] in H. injection H as <-. destruct (IH b eq_refl) as (ss & -> & F). exists (a :: ss). split; [reflexivity|]. constructor; auto.
Qed.

(** the segments attached by [parse], piece by piece, satisfy what holds for every piece *)
Lemma parse_pieces (P : kind * bytes -> list segment -> Prop) e p sb ss ts p' sb' ss' :
  is_bytes (pb_raw p) -> Lexes (pb_raw p) ts -> parse e p sb ss = Ok (p', sb', ss') ->
  (forall k w rest gs, In (k, w) ts -> Token k w rest -> tok_segs e k w = Ok gs -> P (k, w) gs) ->
  exists segss, sb' = attach sb (concat segss) /\ Forall2 P ts segss.
Proof.
  intros HB HL HP HH. pose proof (parse_toks e p sb ss ts HB HL) as K. destruct (toks_segs e ts) as [segs|] eqn:E; [|congruence].
  destruct K as [s2 K]. rewrite K in HP. injection HP as <- <- <-. apply toks_pieces in E as (segss & -> & F). exists segss. split; [reflexivity|].
  clear K. revert segss F. induction HL as [|k w rest ts T L IH]; intros segss F; inversion F as [|t gs ts' gss H1 H2]; subst; constructor.
  - eapply HH; [now left|exact T|exact H1].
  - cbn in HB. apply is_bytes_app in HB as [_ HB]. apply IH; auto. intros k' w' r' gs' Hi. apply HH. now right.
Qed.

Lemma seg_codes e k w gs : tok_segs e k w = Ok gs -> exists codes, TokCodes k codes.
Proof.
  unfold tok_segs. intros H. destruct (tok_state k sgr_state_init) as [ss|] eqn:TS; [|discriminate].
  apply tok_state_codes in TS as (c & Hc & _). eauto.
Qed.

(** ** C08, C09 *)
Lemma cells3_raw g : length (seg_proc g) = length (seg_raw g) -> map (fun x => fst (fst x)) (seg_cells3 g) = seg_raw g.
Proof.
  intros H. unfold seg_cells3. generalize (sgr_apply (seg_open g) attrs0). intros a. revert H. generalize (seg_proc g). induction (seg_raw g) as [|b l IH]; intros [|c p] H; try discriminate; [reflexivity|].
  cbn [length repeat combine map fst]. f_equal. apply IH. now injection H.
Qed.
Lemma bin_piece s k w rest gs : binary_mode s = true -> Token k w rest -> tok_segs (update_settings s) k w = Ok gs ->
  flat_map seg_raw gs = w /\ Forall (fun g => length (seg_proc g) = length (seg_raw g)) gs.
Proof.
  intros B T H. destruct (seg_codes _ _ _ _ H) as [c Hc]. destruct (bin_tok s _ k w rest gs c (env_of s) B T H Hc) as [G E].
  assert (F : Forall (fun g => length (seg_proc g) = length (seg_raw g)) gs) by (eapply Forall_impl; [|exact G]; intros g (_ & _ & ? & _); assumption).
  split; [|exact F]. pose proof (binary_cells_bytes s k w c) as X. rewrite <- E in X.
  etransitivity; [|exact (X (token_nonempty _ _ _ T))]. clear -F. induction F as [|g l H F IH]; [reflexivity|]. cbn [flat_map]. rewrite map_app, cells3_raw by exact H. now f_equal.
Qed.

(** in text mode *)
Lemma text_raw s k w rest gs : binary_mode s = false -> keeps_bytes s k = true -> Token k w rest -> tok_segs (update_settings s) k w = Ok gs ->
  flat_map seg_raw gs = w.
Proof.
  intros B KB T H. unfold tok_segs in H. destruct (tok_state k sgr_state_init) as [ss|]; [|discriminate]. cbn [bind] in H.
  pose proof (env_of s) as E. destruct (is_escape_seq k) eqn:Hk.
  - rewrite substitute_escape in H by now apply tpl_kind_esc. rewrite (disp_ignored s _ k E) in H.
    destruct (esc_shape k w rest T Hk) as (t & -> & Ht & Hr). cbn [skipn firstn] in H.
    destruct (s_ignore s (class_of k)) eqn:I; [injection H as <-; cbn; now rewrite app_nil_r|].
    destruct (label_opening_seq _ _ _) as [o|]; [|discriminate]. cbn [bind] in H. unfold esc_details in H. rewrite (text_level s B _ E) in H.
    unfold keeps_bytes in KB. rewrite Hk, I in KB.
    assert (ML : marker_level s <> L_none) by (intros ML; rewrite ML in KB; destruct k; try discriminate; discriminate Hk).
    assert (X : exists d, seg_raw d = t /\ exists b : bool, gs = if b then wrap_in_separators [mkSeg o (type_label (t_class (tok_tpl k))) [27] (process (update_settings s) (tok_tpl k) [27]); d]
                                                  else [mkSeg o (type_label (t_class (tok_tpl k))) [27] (process (update_settings s) (tok_tpl k) [27]); d]).
    { destruct (marker_level s); [easy| |].
      - destruct (brief_details_processed _ _); [|discriminate]. cbn [bind] in H. destruct (details_opening_seq _ _ _); [|discriminate]. cbn [bind] in H. injection H as <-.
        eexists. split; [|eexists; reflexivity]. reflexivity.
      - destruct (details_opening_seq _ _ _); [|discriminate]. cbn [bind] in H. injection H as <-. eexists. split; [|eexists; reflexivity]. reflexivity. }
    destruct X as (d & <- & b & ->). destruct b; cbn [wrap_in_separators flat_map seg_raw app]; now rewrite ?app_nil_r.
  - destruct (tpl_kind_other k Hk) as (K1 & K2 & K3). unfold substitute in H.
    destruct (t_kind (tok_tpl k)) eqn:K; try easy; try (injection H as <-; cbn; apply app_nil_r).
    specialize (K3 eq_refl). subst k. rewrite (text_level s B _ E) in H. unfold keeps_bytes in KB. destruct (marker_level s); try discriminate KB.
    injection H as <-. cbn. apply app_nil_r.
Qed.

Lemma control_loop_raw e t ss raw gs : control_loop e t ss raw = Ok gs -> flat_map seg_raw gs = flat_map (fun b => repeat 0 (N.to_nat b)) raw.
Proof.
  revert gs. induction raw as [|b raw IH]; intros gs H; cbn [control_loop] in H; [injection H as <-; reflexivity|].
  destruct (control_details e t ss b) as [d|] eqn:D; [|discriminate]. cbn [bind] in H. destruct (control_loop e t ss raw) as [m|]; [|discriminate]. cbn [bind] in H.
  injection H as <-. cbn [flat_map seg_raw]. rewrite flat_map_app, (IH m eq_refl). f_equal.
  unfold control_details in D. replace (flat_map seg_raw d) with (@nil N); [reflexivity|].
  destruct (is_ignored _); [injection D as <-; reflexivity|].
  destruct (te_details e); [injection D as <-; reflexivity| | |injection D as <-; reflexivity].
  - destruct (assoc b brief_label_map); [|discriminate D]. destruct (details_opening_seq _ _ _); [|discriminate D]. cbn [bind] in D. injection D as <-. reflexivity.
  - destruct (details_opening_seq _ _ _); [|discriminate D]. cbn [bind] in D. injection D as <-. reflexivity.
Qed.
Lemma text_recorded s k w rest gs : binary_mode s = false -> Token k w rest -> tok_segs (update_settings s) k w = Ok gs ->
  flat_map seg_raw gs = recorded s k w.
Proof.
  intros B T H. unfold recorded. destruct (keeps_bytes s k) eqn:KB; [exact (text_raw s k w rest gs B KB T H)|].
  unfold tok_segs in H. destruct (tok_state k sgr_state_init) as [ss|]; [|discriminate]. cbn [bind] in H.
  pose proof (env_of s) as E. destruct (is_escape_seq k) eqn:Hk.
  - rewrite substitute_escape in H by now apply tpl_kind_esc. rewrite (disp_ignored s _ k E) in H.
    destruct (esc_shape k w rest T Hk) as (t & -> & Ht & Hr). cbn [skipn firstn] in H.
    assert (N0 : s_ignore s (class_of k) = false /\ marker_level s = L_none).
    { unfold keeps_bytes in KB. rewrite Hk in KB. destruct k; try discriminate Hk; cbn [negb orb] in KB; apply orb_false_iff in KB as [-> KB]; (split; [reflexivity|]); now destruct (marker_level s). }
    destruct N0 as [N0 ML]. rewrite N0 in H. destruct (label_opening_seq _ _ _) as [o|]; [|discriminate]. cbn [bind] in H. unfold esc_details in H. rewrite (text_level s B _ E), ML in H.
    cbn [bind] in H. injection H as <-. destruct k; try discriminate Hk; destruct (_ && _)%bool; reflexivity.
  - destruct k as [| | | | | | | | |r]; try discriminate Hk; try (unfold keeps_bytes in KB; cbn in KB; discriminate KB). destruct r; try (unfold keeps_bytes in KB; cbn in KB; discriminate KB).
    unfold keeps_bytes in KB. unfold substitute in H. cbn [tok_tpl t_kind] in H. rewrite (text_level s B _ E) in H.
    destruct (marker_level s); [discriminate| |]; exact (control_loop_raw _ _ _ _ _ H).
Qed.

(** ** characters of a piece in text mode *)
Lemma Painted_other a s a' cs : Painted a s a' cs -> forall b, exists b' cs', Painted b s b' cs' /\ map cell_char cs' = map cell_char cs.
Proof.
  induction 1 as [a|a p s a' cs H IH|a c s a' cs Hc H IH]; intros b.
  - exists b, []. split; constructor.
  - destruct (IH (sgr_apply p b)) as (b' & cs' & P & E). exists b', cs'. split; [now constructor|exact E].
  - destruct (IH b) as (b' & cs' & P & E). exists b', (to_cell (c, b) :: cs'). split; [now constructor|]. cbn [map]. now rewrite !to_cell_char, E.
Qed.
Lemma shown_visible gs cs : Forall2 seg_shows gs cs -> forall a, exists a' cs', Painted a (flat_map seg_proc gs) a' cs' /\ map cell_char cs' = map cell_char (concat cs).
Proof.
  induction 1 as [|g c gs cs [_ (a1 & P & _)] H IH]; intros a; [exists a, []; split; constructor|].
  destruct (Painted_other _ _ _ _ P a) as (a2 & c2 & P2 & E2). destruct (IH a2) as (a3 & c3 & P3 & E3).
  exists a3, (c2 ++ c3). split; [cbn [flat_map]; eapply Painted_app; eassumption|]. cbn [concat]. now rewrite !map_app, E2, E3.
Qed.
Lemma text_piece s k w rest gs codes : binary_mode s = false -> Token k w rest -> tok_segs (update_settings s) k w = Ok gs -> TokCodes k codes ->
  visible (flat_map seg_proc gs) = map fst (fst (text_cells s k w codes)) ++ map fst (snd (text_cells s k w codes)).
Proof.
  intros B T H HC. destruct (text_tok s _ k w rest gs codes (env_of s) B T H HC) as (body & trail & bc & tc & -> & F1 & F2 & E1 & E2 & _).
  destruct (shown_visible _ _ (Forall2_app F1 F2) attrs0) as (a' & cs' & P & E). rewrite (Painted_visible _ _ _ P), E, concat_app, map_app, E1, E2.
  now rewrite !map_to_cell_char.
Qed.

(** ** C11 *)
Lemma control_details_chars s b : run_member R_control b -> ControlDetails (marker_level s) b (map fst (control_details_cells s b)).
Proof.
  intros H. unfold control_details_cells, ControlDetails. destruct (marker_level s); [reflexivity|reflexivity|]. unfold styled. rewrite map_map. cbn [fst].
  rewrite map_id. split; [|apply read_hex_lo]. apply fmt_hex_lo_length; [lia|]. cbn in H. unfold rng in H. change (16 ^ N.of_nat 2) with 256. lia.
Qed.
Lemma marked_chars (f : N -> list (N * attrs)) x w : map fst (flat_map (fun b => x :: f b) w) = concat (map (fun d => fst x :: d) (map (fun b => map fst (f b)) w)).
Proof. induction w as [|b w IH]; [reflexivity|]. cbn [flat_map map concat app]. now rewrite map_app, IH. Qed.
Lemma control_piece s w rest gs : binary_mode s = false -> s_ignore s CC_control = false -> Token (K_run R_control) w rest -> tok_segs (update_settings s) (K_run R_control) w = Ok gs ->
  exists ds, Forall2 (ControlDetails (marker_level s)) w ds /\ visible (flat_map seg_proc gs) = concat (map (fun d => 0x2C6F :: d) ds).
Proof.
  intros B I T H. rewrite (text_piece s _ w rest gs [] B T H eq_refl). unfold text_cells. cbn [class_of is_escape_seq]. rewrite I. cbn [fst snd].
  inversion T as [| | | | | | | | |k' w' r' Hw Hm Hr]; subst. exists (map (fun b => map fst (control_details_cells s b)) w). split.
  - clear -Hm. induction Hm as [|b w Hb Hm IH]; constructor; auto. now apply control_details_chars.
  - rewrite <- map_app. etransitivity; [apply f_equal; symmetry; apply (flat_snoc (control_details_cells s) (marker s (K_run R_control), plain_style s (K_run R_control)) w Hw)|].
    apply (marked_chars (control_details_cells s) (marker s (K_run R_control), plain_style s (K_run R_control))).
Qed.

(** ** C14 *)
Lemma fmt_hex_up_length6 n : n < 16777216 -> length (fmt_hex_up 6 n) = 6%nat.
Proof. intros H. transitivity (length (fmt_hex_lo 6 n)); [unfold fmt_hex_up, fmt_hex_lo; rewrite !rjust_length, !map_length; reflexivity|]. apply fmt_hex_lo_length; [lia|exact H]. Qed.
Lemma code_names_spec codes : Names codes (code_names codes).
Proof.
  remember (length codes) as n eqn:En. revert codes En. induction n as [n IH] using lt_wf_ind. intros codes ->.
  destruct codes as [|c t]; [constructor|]. cbn [code_names].
  assert (D : ~ ext_color (c :: t) -> Names (c :: t) (dec c :: code_names t)).
  { intros X. constructor; [exact X|apply read_dec|]. eapply IH; [|reflexivity]. cbn; lia. }
  destruct ((c =? 38) || (c =? 48)) eqn:C.
  - assert (GL : ground_letter c (if c =? 38 then 70 else 66)).
    { unfold ground_letter. destruct (N.eqb_spec c 38); [auto|]. cbn in C. apply N.eqb_eq in C. auto. }
    destruct t as [|m [|x t2]]; try (apply D; intros (c' & r & _ & [(n & E)|(u & y & z & E)]); discriminate).
    destruct (N.eqb_spec m 5) as [->|M5].
    + apply Names_indexed; [exact GL|apply read_dec|]. eapply IH; [|reflexivity]. cbn; lia.
    + destruct t2 as [|g [|b t4]]; try (apply D; intros (c' & r & _ & [(n & E)|(u & y & z & E)]); try discriminate; injection E; intros; subst; lia).
      destruct (N.eqb_spec m 2) as [->|M2].
      * apply Names_rgb; [exact GL|apply read_hex_up| |eapply IH; [|reflexivity]; cbn; lia]. intros. apply fmt_hex_up_length6. lia.
      * apply D. intros (c' & r & _ & [(n & E)|(u & y & z & E)]); injection E; lia.
  - apply D. intros (c' & r & Hc & [(n & E)|(u & y & z & E)]); injection E; intros; subst; apply orb_false_iff in C as [C1 C2]; apply N.eqb_neq in C1; apply N.eqb_neq in C2; lia.
Qed.
Lemma name_cells_dotted a names : map fst (name_cells a names) = dotted names.
Proof.
  induction names as [|n r IH]; [reflexivity|]. assert (S : forall l, map fst (styled a l) = l) by (intros; unfold styled; rewrite map_map; apply map_id).
  destruct r as [|m r]; [apply S|]. cbn [name_cells dotted] in *. rewrite !map_app, S, IH. reflexivity.
Qed.
Lemma sgr_piece s p i f w rest gs : binary_mode s = false -> marker_level s = L_brief -> s_ignore s CC_esc = false -> csi_sort p f = C_sgr ->
  Token (K_csi p i f) w rest -> tok_segs (update_settings s) (K_csi p i f) w = Ok gs ->
  exists codes names, ParamCodes p codes /\ Names codes names /\
    visible (flat_map seg_proc gs) = (if s_no_separators s then [] else [0x28B8]) ++ 0x1DD :: dotted names ++ (if s_no_separators s then [] else [0x2847]).
Proof.
  intros B ML I CS T H. destruct (seg_codes _ _ _ _ H) as [c Hc]. exists c, (code_names c). split; [unfold TokCodes in Hc; now rewrite CS in Hc|].
  split; [apply code_names_spec|]. rewrite (text_piece s _ w rest gs c B T H Hc). unfold text_cells, separators, escape_details_cells, marker. cbn [class_of is_escape_seq].
  rewrite I, CS, ML. cbn [fst snd]. rewrite andb_true_r. rewrite !map_app, name_cells_dotted. destruct (s_no_separators s); cbn [negb map app fst]; now rewrite <- ?app_assoc.
Qed.

(** ** C15 *)
Lemma harmless_one c a : protected (harmless c a) a /\ a_under (harmless c a) = a_under a.
Proof.
  unfold harmless. destruct (_ || between 100 c 107) eqn:A; [|repeat split].
  unfold sgr_code. rewrite !orb_true_iff, !between_spec, !N.eqb_eq in A.
  repeat match goal with |- context [if ?x =? ?y then _ else _] => destruct (N.eqb_spec x y); [subst; try (repeat split; reflexivity); lia|] end.
  repeat match goal with |- context [if between ?x ?y ?z then _ else _] => destruct (between x y z); [repeat split|] end.
  repeat split.
Qed.
Lemma protected_trans a b c : protected a b -> protected b c -> protected a c.
Proof. unfold protected. intuition congruence. Qed.
Lemma harmless_protected codes a : protected (harmless_effect codes a) a.
Proof.
  revert a. induction codes as [codes IH] using (@length_ind N). intros a.
  destruct codes as [|c t]; [repeat split|]. cbn [harmless_effect].
  assert (Hs : forall f x b, f = set_fg \/ f = set_bg -> protected (f x b) b) by (intros f x b [-> | ->]; repeat split).
  assert (Hset : (if c =? 38 then set_fg else set_bg) = set_fg \/ (if c =? 38 then set_fg else set_bg) = set_bg) by (destruct (c =? 38); auto).
  assert (X : forall t' b, (length t' < length (c :: t))%nat -> protected b a -> protected (harmless_effect t' b) a) by (intros t' b L H; eapply protected_trans; [apply IH; exact L|exact H]).
  destruct ((c =? 38) || (c =? 48)).
  - destruct t as [|m [|n t2]]; try (apply X; [cbn [length]; lia|repeat split]).
    destruct (m =? 5); [apply X; [cbn [length]; lia|now apply Hs]|].
    destruct t2 as [|g [|b t4]]; try (apply X; [cbn [length]; lia|repeat split]).
    destruct (m =? 2); (apply X; [cbn [length]; lia|]); [now apply Hs|repeat split].
  - apply X; [cbn [length]; lia|]. apply harmless_one.
Qed.

Lemma sgr_harmless s p i f w rest gs : s_color_markers s = true -> s_ignore s CC_esc = false -> csi_sort p f = C_sgr ->
  Token (K_csi p i f) w rest -> tok_segs (update_settings s) (K_csi p i f) w = Ok gs ->
  Forall (fun g => forall a, protected (sgr_apply (seg_open g) a) a /\ (seg_label g <> TYPE_LABEL_DETAILS -> a_under (sgr_apply (seg_open g) a) = a_under a)) gs.
Proof.
  intros CM I CS T H. unfold tok_segs in H. destruct (tok_state _ _) as [ss|] eqn:TS; [|discriminate]. cbn [bind] in H.
  apply tok_state_codes in TS as (codes & _ & Hss). specialize (Hss p i f eq_refl). rewrite csi_sort_sgr, CS in Hss. destruct (Hss eq_refl) as [HO _]. clear Hss.
  pose proof (env_of s) as E. rewrite substitute_escape in H by (apply tpl_kind_esc; reflexivity). rewrite (disp_ignored s _ (K_csi p i f) E) in H. cbn [class_of] in H. rewrite I in H.
  rewrite tpl_csi, CS in H. destruct (brief_loop_spec codes) as (_ & _ & BA).
  unfold label_opening_seq in H. rewrite (env_color s _ E), CM, HO in H. cbn [bind T_ESCAPE_SEQ_SGR mkTemplate t_kind] in H.
  assert (L : forall a, protected (sgr_apply (sgr_add (fst (brief_loop codes)) []) a) a /\ a_under (sgr_apply (sgr_add (fst (brief_loop codes)) []) a) = a_under a).
  { intros a. unfold sgr_add. rewrite app_nil_r, BA. split; [apply harmless_protected|apply harmless_under]. }
  set (lab := mkSeg _ _ _ _) in H at 1.
  assert (D : forall det, esc_details (update_settings s) T_ESCAPE_SEQ_SGR ss (skipn 1 w) = Ok det ->
     Forall (fun g => forall a, protected (sgr_apply (seg_open g) a) a /\ (seg_label g <> TYPE_LABEL_DETAILS -> a_under (sgr_apply (seg_open g) a) = a_under a)) det).
  { intros det. unfold esc_details, details_opening_seq. rewrite (env_color s _ E), CM, HO. cbn [T_ESCAPE_SEQ_SGR mkTemplate t_kind negb bind].
    assert (Q : forall raw pr, Forall (fun g => forall a, protected (sgr_apply (seg_open g) a) a /\ (seg_label g <> TYPE_LABEL_DETAILS -> a_under (sgr_apply (seg_open g) a) = a_under a))
        [mkSeg (sgr_add DETAILS_OPENING_SEQ (fst (brief_loop codes))) TYPE_LABEL_DETAILS raw pr]).
    { intros raw pr. constructor; [|constructor]. intros a. cbn [seg_open seg_label]. split; [|easy].
      replace (sgr_apply (sgr_add DETAILS_OPENING_SEQ (fst (brief_loop codes))) a) with (harmless_effect codes (sgr_apply DETAILS_OPENING_SEQ a)) by (rewrite <- BA; reflexivity).
      eapply protected_trans; [apply harmless_protected|]. repeat split. }
    destruct (te_details (update_settings s)); try (intros X; injection X as <-; solve [apply Q|constructor]).
    - destruct (brief_details_processed _ _); [|discriminate]. cbn [bind]. intros X; injection X as <-. apply Q. }
  destruct (esc_details _ _ _ _) as [det|] eqn:ED; [|discriminate]. specialize (D det eq_refl). cbn [bind] in H.
  assert (LB : forall a, protected (sgr_apply (seg_open lab) a) a /\ (seg_label lab <> TYPE_LABEL_DETAILS -> a_under (sgr_apply (seg_open lab) a) = a_under a)) by (intros a; split; [apply L|intros _; apply L]).
  assert (SP : forall l x a, protected (sgr_apply (seg_open (mkSeg [c_COLOR_EXTENDED; c_MODE_256; 255] l [] x)) a) a /\
       (seg_label (mkSeg [c_COLOR_EXTENDED; c_MODE_256; 255] l [] x) <> TYPE_LABEL_DETAILS -> a_under (sgr_apply (seg_open (mkSeg [c_COLOR_EXTENDED; c_MODE_256; 255] l [] x)) a) = a_under a)) by (intros; repeat split).
  destruct (_ && _)%bool in H; injection H as <-.
  - unfold wrap_in_separators. constructor; [intros; apply SP|]. apply Forall_app. split; [constructor; auto|]. constructor; [intros; apply SP|constructor].
  - constructor; auto.
Qed.
