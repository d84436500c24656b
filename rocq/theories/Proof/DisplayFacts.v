(** What the templates produce for a token is what the display specification says *)
From Coq Require Import List Arith NArith ZArith Bool Lia.
From Verif.Model Require Import Base Ansi Strip Settings Segment Template.
From Verif.Spec Require Import Numbers Terminal Sgr Utf8 Lexical SgrParams Display.
From Verif.Proof Require Import BaseFacts RegexFacts TermFacts ClosingFacts LexFacts TokFacts PaintFacts.
Import ListNotations.
Local Open Scope N_scope.

(** * settings as seen by the templates *)
Record Env (s : settings) (e : tenv) : Prop := {
  env_display : forall c, te_display e c = if s_ignore s c then DM_ignored else if s_focus s c then DM_focused else DM_default;
  env_read : te_read e = if binary_mode s then RM_binary else RM_text;
  env_details : te_details e = if binary_mode s then MD_strict
                               else match marker_level s with L_none => MD_no | L_brief => MD_brief | L_full => MD_full end;
  env_decode : te_decode e = decoding s;
  env_sep : te_no_separators e = s_no_separators s;
  env_color : te_color_markers e = s_color_markers s
}.
Lemma env_of s : Env s (update_settings s).
Proof.
  unfold update_settings, get_read_mode, binary_mode, decoding, marker_level.
  destruct s as [bi te dm bu co de db dc fi fo ig le ma mb ml cm nl ns no ve dem].
  destruct bi, te, dm, dc as [[]|], ma as [|[]|]; constructor; reflexivity.
Qed.

(** * SGR codes of the input *)
Lemma allowed_ok : forall c, c <> 38 -> c <> 48 ->
  existsb (N.eqb c) ALLOWED_SGRS =
  ((c =? 2) || (c =? 3) || (c =? 9) || (c =? 53) || between 30 c 37 || between 40 c 47
     || between 90 c 97 || between 100 c 107).
Proof.
  intros c H1 H2. apply eq_true_iff_eq. rewrite existsb_exists. unfold ALLOWED_SGRS, LIST_ALL_COLORS, LIST_COLORS, LIST_BG_COLORS, LIST_HI_COLORS, LIST_BG_HI_COLORS.
  unfold c_DIM, c_ITALIC, c_OVERLINED, c_CROSSLINED.
  rewrite !orb_true_iff, !between_spec, !N.eqb_eq. split.
  - intros (x & Hx & E). apply N.eqb_eq in E. subst x. rewrite !in_app_iff, !nrange_in in Hx. cbn [In] in Hx. lia.
  - intros H. exists c. split; [|apply N.eqb_refl]. rewrite !in_app_iff, !nrange_in. cbn [In]. lia.
Qed.

Lemma brief_loop_spec codes :
  snd (brief_loop codes) = code_names codes /\ good_open (fst (brief_loop codes)) /\
  forall a, sgr_apply (fst (brief_loop codes)) a = harmless_effect codes a.
Proof.
  induction codes as [codes IH] using (@length_ind N).
  destruct codes as [|p rest]; [repeat split; apply good_nil|].
  cbn [brief_loop code_names harmless_effect].
  unfold c_COLOR_EXTENDED, c_BG_COLOR_EXTENDED, c_MODE_256, c_MODE_RGB.
  destruct ((p =? 38) || (p =? 48)) eqn:E.
  - (* extended color *)
    assert (Plain : let q := (let '(al, nm) := brief_loop rest in (al, dec p :: nm)) in
       snd q = dec p :: code_names rest /\ good_open (fst q) /\ forall a, sgr_apply (fst q) a = harmless_effect rest a).
    { destruct (IH rest) as (H1 & H2 & H3); [cbn [length]; lia|]. destruct (brief_loop rest) as [al nm]. cbn [fst snd] in *.
      cbv zeta. rewrite <- H1. auto. }
    assert (App : forall i l, item_group i <> None -> good_open l -> good_open (item_params i ++ l)).
    { intros i l Hi Hl. apply good_app; [|exact Hl]. exists [i]. split; [cbn; now rewrite app_nil_r|]. auto. }
    assert (Hp : p = 38 \/ p = 48) by (apply orb_true_iff in E as [E|E]; apply N.eqb_eq in E; auto).
    destruct rest as [|m [|n rest2]]; try exact Plain.
    destruct (m =? 5) eqn:M.
    + apply N.eqb_eq in M. subst m. destruct (IH rest2) as (H1 & H2 & H3); [cbn [length]; lia|].
      destruct (brief_loop rest2) as [al nm]. cbn [fst snd] in *. rewrite <- H1. split; [reflexivity|].
      destruct Hp as [-> | ->].
      * split; [exact (App (I_indexed false n) al ltac:(discriminate) H2)|]. intros a. rewrite <- H3. exact (sgr_apply_item (I_indexed false n) al a ltac:(discriminate)).
      * split; [exact (App (I_indexed true n) al ltac:(discriminate) H2)|]. intros a. rewrite <- H3. exact (sgr_apply_item (I_indexed true n) al a ltac:(discriminate)).
    + destruct rest2 as [|g [|b rest4]]; try exact Plain.
      destruct (m =? 2) eqn:M2; [|exact Plain].
      apply N.eqb_eq in M2. subst m. destruct (IH rest4) as (H1 & H2 & H3); [cbn [length]; lia|].
      destruct (brief_loop rest4) as [al nm]. cbn [fst snd] in *. rewrite <- H1.
      replace (n * 256 * 256 + g * 256 + b) with (n * 65536 + g * 256 + b) by lia. split; [reflexivity|].
      destruct Hp as [-> | ->].
      * split; [exact (App (I_rgb false n g b) al ltac:(discriminate) H2)|]. intros a. rewrite <- H3. exact (sgr_apply_item (I_rgb false n g b) al a ltac:(discriminate)).
      * split; [exact (App (I_rgb true n g b) al ltac:(discriminate) H2)|]. intros a. rewrite <- H3. exact (sgr_apply_item (I_rgb true n g b) al a ltac:(discriminate)).
  - destruct (IH rest) as (H1 & H2 & H3); [cbn [length]; lia|]. destruct (brief_loop rest) as [al nm]. cbn [fst snd] in *.
    rewrite <- H1. split; [reflexivity|]. apply orb_false_iff in E as [E1 E2]. apply N.eqb_neq in E1, E2.
    rewrite allowed_ok by assumption. unfold harmless.
    destruct (_ || between 100 p 107) eqn:A.
    + assert (code_group p <> None).
      { unfold code_group. rewrite !orb_true_iff, !between_spec, !N.eqb_eq in A.
        repeat match goal with |- context [if ?x then _ else _] => destruct x eqn:? end; try easy.
        repeat match goal with H : (_ || _) = false |- _ => apply orb_false_iff in H as [? ?] end.
        repeat match goal with H : (_ =? _) = false |- _ => apply N.eqb_neq in H end.
        repeat match goal with H : between _ _ _ = false |- _ => apply not_true_iff_false in H; rewrite between_spec in H end.
        lia. }
      split.
      * change (p :: al) with ([p] ++ al). apply good_app; [|exact H2]. exists [I_code p]. split; [reflexivity|]. auto.
      * intros a. rewrite sgr_apply_code by assumption. apply H3.
    + auto.
Qed.

Lemma harmless_under codes a : a_under (harmless_effect codes a) = a_under a.
Proof.
  revert a. induction codes as [codes IH] using (@length_ind N). intros a.
  destruct codes as [|c t]; [reflexivity|]. cbn [harmless_effect].
  assert (Hs : forall f x b, f = set_fg \/ f = set_bg -> a_under (f x b) = a_under b) by (intros f x b [-> | ->]; reflexivity).
  assert (Hset : (if c =? 38 then set_fg else set_bg) = set_fg \/ (if c =? 38 then set_fg else set_bg) = set_bg) by (destruct (c =? 38); auto).
  destruct ((c =? 38) || (c =? 48)).
  - destruct t as [|m [|n t2]]; try (rewrite IH by (cbn [length]; lia); reflexivity).
    destruct (m =? 5); [rewrite IH by (cbn [length]; lia); now apply Hs|].
    destruct t2 as [|g [|b t4]]; try (rewrite IH by (cbn [length]; lia); reflexivity).
    destruct (m =? 2); rewrite IH by (cbn [length]; lia); [now apply Hs|reflexivity].
  - rewrite IH by (cbn [length]; lia). unfold harmless.
    destruct (_ || between 100 c 107) eqn:A; [|reflexivity].
    unfold sgr_code.
    rewrite !orb_true_iff, !between_spec, !N.eqb_eq in A.
    repeat match goal with |- context [if ?x =? ?y then _ else _] => destruct (N.eqb_spec x y); [subst; try reflexivity; lia|] end.
    repeat match goal with |- context [if between ?x ?y ?z then _ else _] => destruct (between x y z); [reflexivity|] end.
    reflexivity.
Qed.

(** * openings *)
Definition dmode (s : settings) (c : char_class) : display_mode :=
  if s_ignore s c then DM_ignored else if s_focus s c then DM_focused else DM_default.

Lemma tok_class k : t_class (tok_tpl k) = class_of k.
Proof.
  destruct k as [| |p i f| | | | | | |r]; try reflexivity; [|destruct r; reflexivity].
  unfold tok_tpl. destruct (f =? 109); [|reflexivity]. destruct (_ || _)%bool; reflexivity.
Qed.
Lemma tpl_csi p i f : tok_tpl (K_csi p i f) =
  match csi_sort p f with C_reset => T_ESCAPE_SEQ_SGR_0 | C_sgr => T_ESCAPE_SEQ_SGR | C_other => T_ESCAPE_SEQ_CSI end.
Proof.
  unfold tok_tpl, csi_sort. destruct (f =? 109); [|reflexivity].
  destruct p as [|c [|d p]]; cbn [eqb_list orb]; try reflexivity.
  - rewrite andb_true_r. destruct (c =? 48); reflexivity.
  - rewrite andb_false_r. reflexivity.
Qed.
Lemma csi_sort_sgr p f : csi_is_sgr p f = match csi_sort p f with C_sgr => true | _ => false end.
Proof.
  unfold csi_is_sgr, csi_sort. destruct (f =? 109); [|reflexivity].
  destruct p as [|c [|d p]]; cbn [eqb_list orb andb negb]; try reflexivity.
  - rewrite andb_true_r. destruct (c =? 48); reflexivity.
  - rewrite andb_false_r. reflexivity.
Qed.

Definition opening_of (e : tenv) (k : kind) : sgr := mode_get e (tok_tpl k) (t_opening (tok_tpl k)).

Lemma opening_facts s e k : Env s e ->
  good_open (opening_of e k) /\ opening_of e k <> [] /\
  sgr_apply (opening_of e k) attrs0 = (if s_ignore s (class_of k) then ignored_style else plain_style s k).
Proof.
  intros E. unfold opening_of, mode_get, t_disp. rewrite tok_class, (env_display s e E). unfold plain_style.
  destruct (s_ignore s (class_of k)); [|destruct (s_focus s (class_of k))];
  (destruct k as [| |p i f| | | | | | |r];
   [ | | rewrite tpl_csi; unfold focus_style, base_style; cbn [class_of]; destruct (csi_sort p f) | | | | | | | destruct r ]);
  cbn [tok_tpl];
  (destruct (te_read e); (split; [solve_good|split; [easy|reflexivity]])).
Qed.

(** details of escape sequences and control characters *)
Lemma details_facts s e k ss codes :
  Env s e -> (is_escape_seq k = true \/ k = K_run R_control) ->
  (forall p i f, k = K_csi p i f -> csi_is_sgr p f = true -> ss_opening ss = Some (fst (brief_loop codes))) ->
  exists o, details_opening_seq e (tok_tpl k) ss = Ok o /\ good_open o /\ o <> [] /\ sgr_apply o attrs0 = details_style s k codes.
Proof.
  intros E Hk Hss. unfold details_opening_seq, details_style.
  destruct k as [| |p i f| | | | | | |r]; try (destruct Hk as [Hk|Hk]; discriminate).
  2-5: eexists; (split; [reflexivity|split; [solve_good|split; [easy|reflexivity]]]).
  - rewrite tpl_csi. specialize (Hss p i f eq_refl). rewrite csi_sort_sgr in Hss.
    unfold base_style. destruct (csi_sort p f).
    + eexists; (split; [reflexivity|split; [solve_good|split; [easy|reflexivity]]]).
    + cbn [T_ESCAPE_SEQ_SGR mkTemplate t_kind]. rewrite (env_color s e E). destruct (s_color_markers s); cbn [negb].
      * rewrite Hss by reflexivity. eexists; split; [reflexivity|]. destruct (brief_loop_spec codes) as (_ & H2 & H3).
        assert (good_open DETAILS_OPENING_SEQ) by solve_good.
        split; [now apply good_app|]. split; [easy|]. unfold sgr_add. rewrite sgr_apply_app by assumption. now rewrite H3.
      * eexists; (split; [reflexivity|split; [solve_good|split; [easy|reflexivity]]]).
    + eexists; (split; [reflexivity|split; [solve_good|split; [easy|reflexivity]]]).
  - destruct Hk as [Hk|Hk]; [discriminate|]. injection Hk as ->.
    eexists; (split; [reflexivity|split; [solve_good|split; [easy|reflexivity]]]).
Qed.

(** the label part of an escape sequence *)
Lemma label_facts s e k ss codes :
  Env s e -> is_escape_seq k = true -> s_ignore s (class_of k) = false ->
  (forall p i f, k = K_csi p i f -> csi_is_sgr p f = true -> ss_opening ss = Some (fst (brief_loop codes))) ->
  exists o, label_opening_seq e (tok_tpl k) ss = Ok o /\ good_open o /\ sgr_apply o attrs0 = label_style s k codes.
Proof.
  intros E Hk Hi Hss. pose proof (opening_facts s e k E) as (G & _ & A). rewrite Hi in A.
  assert (D : exists o, Ok (sgr_add (mode_get e (tok_tpl k) (t_opening (tok_tpl k))) []) = Ok o /\ good_open o /\ sgr_apply o attrs0 = plain_style s k).
  { eexists. split; [reflexivity|]. unfold sgr_add. rewrite app_nil_r. auto. }
  unfold label_opening_seq, label_style.
  destruct k as [| |p i f| | | | | | |r]; try discriminate Hk; try exact D.
  specialize (Hss p i f eq_refl). rewrite csi_sort_sgr in Hss. rewrite tpl_csi in *.
  destruct (csi_sort p f); try exact D.
  cbn [T_ESCAPE_SEQ_SGR mkTemplate t_kind]. rewrite (env_color s e E).
  destruct (s_color_markers s); [|exact D]. rewrite Hss by reflexivity. eexists; split; [reflexivity|].
  destruct (brief_loop_spec codes) as (_ & H2 & H3). unfold sgr_add. rewrite app_nil_r. auto.
Qed.

(** what the SGR template holds after resolving a token *)
Lemma tok_state_codes k ss : tok_state k sgr_state_init = Ok ss -> exists codes, TokCodes k codes /\
  forall p i f, k = K_csi p i f -> csi_is_sgr p f = true ->
    ss_opening ss = Some (fst (brief_loop codes)) /\ ss_brief ss = Some (join brief_separator (code_names codes)).
Proof.
  unfold tok_state, TokCodes. intros H.
  destruct k as [| |p i f| | | | | | |r]; try (exists []; split; [reflexivity|discriminate]).
  pose proof (csi_sort_sgr p f) as S. destruct (csi_is_sgr p f) eqn:C.
  - destruct (csi_sort p f); try discriminate S. unfold set_details_fmt_str in H.
    destruct (parse_pcodes p) as [codes|] eqn:P; [|discriminate]. cbn [bind] in H. exists codes.
    split; [now apply parse_pcodes_spec|]. intros _ _ _ _ _. destruct (brief_loop_spec codes) as (<- & _ & _).
    destruct (brief_loop codes) as [al nm]. injection H as <-. auto.
  - exists []. split; [destruct (csi_sort p f); [reflexivity|discriminate S|reflexivity]|]. intros p' i' f' K K'. injection K as -> -> ->. congruence.
Qed.
Lemma PartCode_det p c c' : PartCode p c -> PartCode p c' -> c = c'.
Proof. intros H1 H2. apply part_code_spec in H1, H2. congruence. Qed.
Lemma ParamCodes_det p c c' : ParamCodes p c -> ParamCodes p c' -> c = c'.
Proof. intros H1 H2. apply parse_pcodes_spec in H1, H2. congruence. Qed.
Lemma TokCodes_det k c c' : TokCodes k c -> TokCodes k c' -> c = c'.
Proof. unfold TokCodes. destruct k; try congruence. destruct (csi_sort _ _); try congruence. apply ParamCodes_det. Qed.

Lemma utf8_decode_encode cp : scalar cp -> 128 <= cp -> utf8_decode (utf8_encode cp) = [cp] /\ (2 <= length (utf8_encode cp) <= 4)%nat.
Proof.
  intros Hs Hc. unfold utf8_encode. destruct (N.ltb_spec cp 0x80); [lia|].
  assert (B : forall n, n mod 64 < 64) by (intros; apply N.mod_lt; lia).
  assert (D : forall n, n = 64 * (n / 64) + n mod 64) by (intros; apply N.div_mod; lia).
  assert (E1 : cp / 4096 = cp / 64 / 64) by (rewrite N.div_div by lia; reflexivity).
  assert (E2 : cp / 262144 = cp / 64 / 64 / 64) by (rewrite !N.div_div by lia; reflexivity).
  pose proof (D cp). pose proof (D (cp / 64)). pose proof (D (cp / 64 / 64)).
  pose proof (B cp). pose proof (B (cp/64)). pose proof (B (cp/64/64)).
  destruct (N.ltb_spec cp 0x800); [|destruct (N.ltb_spec cp 0x10000)]; cbn [utf8_decode length]; (split; [f_equal|lia]);
  rewrite ?E2, ?E1; clear B D E1 E2;
  generalize dependent (cp / 64 / 64 / 64); generalize dependent ((cp / 64 / 64) mod 64); generalize dependent (cp / 64 / 64);
  generalize dependent ((cp / 64) mod 64); generalize dependent (cp / 64); generalize dependent (cp mod 64); intros; lia.
Qed.

(** * binary mode *)
(** a segment as (byte, character, style) triples *)
Definition seg_cells3 (g : segment) : list bcell :=
  combine (combine (seg_raw g) (seg_proc g)) (repeat (sgr_apply (seg_open g) attrs0) (length (seg_raw g))).
Definition good_bin (g : segment) : Prop :=
  good_open (seg_open g) /\ seg_raw g <> [] /\ length (seg_proc g) = length (seg_raw g) /\ Forall (fun c => c <> 27) (seg_proc g).

Lemma cells3_map raw (f : N -> N) o l : seg_cells3 (mkSeg o l raw (map f raw)) = map (fun b => (b, f b, sgr_apply o attrs0)) raw.
Proof. unfold seg_cells3. cbn [seg_raw seg_proc seg_open]. induction raw as [|b raw IH]; [reflexivity|]. cbn. now rewrite IH. Qed.
Lemma flat_map_single {A B} (f : A -> B) l : flat_map (fun x => [f x]) l = map f l.
Proof. induction l; cbn; congruence. Qed.
Lemma flat_map_ext_in {A B} (f g : A -> list B) l : (forall x, In x l -> f x = g x) -> flat_map f l = flat_map g l.
Proof. intros H. induction l as [|x l IH]; [reflexivity|]. cbn. rewrite H by now left. rewrite IH; [reflexivity|]. intros; apply H; now right. Qed.
Lemma good_bin_map o l raw f : good_open o -> raw <> [] -> Forall (fun b => f b <> 27) raw -> good_bin (mkSeg o l raw (map f raw)).
Proof. intros H1 H2 H3. repeat split; auto; cbn [seg_raw seg_proc]; [apply map_length|]. now apply Forall_map. Qed.
Lemma ascii_ignore_id l : Forall (fun b => b < 128) l -> ascii_ignore l = l.
Proof.
  induction 1 as [|b l Hb H IH]; [reflexivity|]. unfold ascii_ignore in *. cbn [filter]. apply N.ltb_lt in Hb. now rewrite Hb, IH.
Qed.
Lemma esc_shape k w rest : Token k w rest -> is_escape_seq k = true ->
  exists t, w = 27 :: t /\ t <> [] /\ Forall (fun b => 32 <= b /\ b <= 126) t.
Proof.
  intros H Hk. inversion H; subst; try discriminate Hk.
  - exists (91 :: p ++ i ++ [f]). split; [reflexivity|]. split; [easy|]. destruct H0 as (H1 & H2 & H3).
    constructor; [lia|]. apply Forall_app. split; [eapply Forall_impl; [|exact H1]; unfold rng; intros; lia|].
    apply Forall_app. split; [eapply Forall_impl; [|exact H2]; unfold rng; intros; lia|]. constructor; [unfold rng in H3; lia|constructor].
  - exists (i ++ [f]). split; [reflexivity|]. split; [intros K; now apply app_eq_nil in K|]. destruct H0 as (H1 & H2 & H3).
    apply Forall_app. split; [eapply Forall_impl; [|exact H2]; unfold rng; intros; lia|]. constructor; [unfold rng in H3; lia|constructor].
  - exists [c]. split; [reflexivity|]. split; [easy|]. constructor; [unfold rng in *; lia|constructor].
  - exists [c]. split; [reflexivity|]. split; [easy|]. constructor; [unfold rng in *; lia|constructor].
  - exists [c]. split; [reflexivity|]. split; [easy|]. constructor; [unfold rng in *; lia|constructor].
Qed.
