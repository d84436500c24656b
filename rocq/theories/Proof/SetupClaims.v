(** Preferences of renderers, the default renderer, ready-made styles *)
From Coq Require Import Ascii String.
From Coq Require Import List NArith ZArith Bool Lia.
From Verif.Model Require Import Base Ansi Strip Color Presets ColorNames Render RenderSetup.
From Verif.Spec Require Import Terminal Palette Display Tmux Html Styles SgrNames Preferences Conditions.
From Verif.Proof Require Import BaseFacts TermFacts PaintFacts RenderFacts RenderClaims SgrNamesClaims.
Import ListNotations.
Local Open Scope N_scope.


Lemma latest_snoc {O A} (f : O -> option A) h o x : latest f (h ++ [o]) x -> match f o with Some v => x = Some v | None => latest f h x end.
Proof.
  destruct x as [v|]; cbn [latest].
  - intros (a & o' & b & E & F & N). destruct b as [|c b _] using rev_ind.
    + apply app_inj_tail in E as [-> ->]. now rewrite F.
    + rewrite app_comm_cons, app_assoc in E. apply app_inj_tail in E as [-> ->]. rewrite (N c) by (apply in_or_app; right; now left).
      exists a, o', b. split; [reflexivity|]. split; [exact F|]. intros u I. apply N. apply in_or_app. now left.
  - intros N. rewrite (N o) by (apply in_or_app; right; now left). intros u I. apply N. apply in_or_app. now left.
Qed.
Lemma steps_snoc s h o s' : setup_steps s (h ++ [o]) = Ok s' -> exists s1, setup_steps s h = Ok s1 /\ setup_step s1 o = Ok s'.
Proof.
  revert s. induction h as [|x h IH]; intros s H; cbn [app setup_steps] in *.
  - exists s. split; [reflexivity|]. destruct (setup_step s o) as [y|]; [exact H|discriminate].
  - destruct (setup_step s x) as [y|]; [|discriminate]. cbn [bind] in *. now apply IH.
Qed.
Theorem default_latest h s x : setup_steps setup0 h = Ok s -> latest sets_default h x -> su_default s = match x with Some r => r | None => R_sgr end.
Proof.
  revert s x. induction h as [|o h IH] using rev_ind; intros s x H L.
  - injection H as <-. destruct x as [v|]; [|reflexivity]. destruct L as (a & o & b & E & _). destruct a; discriminate.
  - apply steps_snoc in H as (s1 & H1 & H2). apply latest_snoc in L. destruct o as [[r|]|r p]; cbn [sets_default] in L.
    + injection H2 as <-. now subst x.
    + injection H2 as <-. now subst x.
    + assert (su_default s = su_default s1) as -> by (destruct r; cbn in H2; try discriminate; injection H2 as <-; reflexivity). now apply IH.
Qed.
Lemma own_latest h s : setup_steps setup0 h = Ok s ->
  (forall x, latest (sets_prefs R_sgr) h x -> su_sgr s = match x with Some p => p | None => prefs0 end) /\
  (forall x, latest (sets_prefs R_tmux) h x -> su_tmux s = x) /\ (forall x, latest (sets_prefs R_debug) h x -> su_debug s = x).
Proof.
  revert s. induction h as [|o h IH] using rev_ind; intros s H.
  - injection H as <-. repeat split; intros [v|] L; try reflexivity; destruct L as (a & o & b & E & _); destruct a; discriminate.
  - apply steps_snoc in H as (s1 & H1 & H2). destruct (IH _ H1) as (A & B & C).
    repeat split; intros x L; apply latest_snoc in L; destruct o as [[r|]|r p]; try (destruct r); cbn [sets_prefs same_renderer setup_step] in *; try discriminate;
      injection H2 as <-; cbn [su_sgr su_tmux su_debug]; auto; now subst x.
Qed.
(** own preferences if there are any, else those of the terminal renderer, else the initial ones *)
Theorem prefs_latest h s r own base : setup_steps setup0 h = Ok s -> latest (sets_prefs r) h own -> latest (sets_prefs R_sgr) h base ->
  prefs_of s r = match own, base with Some p, _ => p | None, Some p => p | None, None => mkPrefs (Some false) false false end.
Proof.
  intros H O B. destruct (own_latest _ _ H) as (P & T & D).
  destruct r; cbn [prefs_of].
  - destruct own as [p|]; [exact (P _ O)|exact (P _ B)].
  - rewrite (T _ O). destruct own; [reflexivity|]. now rewrite (P _ B).
  - rewrite (P _ B). destruct own as [p|]; [|reflexivity]. exfalso. clear -H O. destruct O as (a & o & b & -> & E & _).
    revert H. generalize setup0. induction a as [|x a IH]; intros s0 H; cbn [app setup_steps] in H.
    + destruct o as [?|[| | | |] ?]; cbn in E, H; discriminate.
    + destruct (setup_step s0 x) as [s1|]; [|discriminate]. exact (IH _ H).
  - rewrite (P _ B). destruct own as [p|]; [|reflexivity]. exfalso. clear -H O. destruct O as (a & o & b & -> & E & _).
    revert H. generalize setup0. induction a as [|x a IH]; intros s0 H; cbn [app setup_steps] in H.
    + destruct o as [?|[| | | |] ?]; cbn in E, H; discriminate.
    + destruct (setup_step s0 x) as [s1|]; [|discriminate]. exact (IH _ H).
  - rewrite (D _ O). destruct own; [reflexivity|]. now rewrite (P _ B).
Qed.
(** calls fail exactly if they ask for something the class does not have *)
Theorem setup_fails h : (exists s, setup_steps setup0 h = Ok s) <-> ~ exists p, In (SO_prefs R_noop p) h \/ In (SO_prefs R_html p) h.
Proof.
  generalize setup0. induction h as [|o h IH]; intros s0; cbn [setup_steps].
  - split; [intros _ (p & [[]|[]])|eauto].
  - destruct o as [r|r p].
    + destruct r as [r|]; cbn [setup_step bind]; rewrite IH; split; intros N (p & K); apply N; exists p; cbn [In] in *; intuition discriminate.
    + destruct r; cbn [setup_step bind]; try rewrite IH.
      1, 2, 5: split; intros N (q & K); apply N; exists q; cbn [In] in *; intuition discriminate.
      1, 2: split; [intros (s & E); discriminate|]; intros N; exfalso; apply N; exists p; cbn [In]; auto.
Qed.

(** ** what comes out *)
Theorem session_shown h0 s p tty order st h t : setup_steps setup0 h0 = Ok s ->
  (latest sets_default h0 None \/ latest sets_default h0 (Some R_sgr)) ->
  (latest (sets_prefs R_sgr) h0 (Some p) \/ latest (sets_prefs R_sgr) h0 None /\ p = mkPrefs (Some false) false false) ->
  (pf_force p = Some true \/ pf_force p = Some false /\ tty = true) ->
  reached st -> Forall run_standard (text_runs h t) -> Forall (fun c => c <> 27) (text_raw h t) ->
  let d := if pf_16 p then Only16 else if pf_256 p then Only256 else Full in
  exists out st' ls, default_render s tty order st h t = (Ok out, st') /\ reached st' /\ Forall2 (run_looks d) (text_runs h t) ls /\
    screen out = map to_cell (concat (map (fun ra => styled (snd ra) (run_string (fst ra))) (combine (text_runs h t) ls))) /\
    final_attrs out = attrs0 /\ visible out = text_raw h t.
Proof.
  intros H D P F R S N d.
  assert (ED : su_default s = R_sgr) by (destruct D as [D|D]; apply (default_latest _ _ _ H) in D; exact D).
  assert (EP : su_sgr s = p).
  { destruct (own_latest _ _ H) as (A & _). destruct P as [P|[P ->]]; apply A in P; exact P. }
  unfold default_render. rewrite ED. unfold env_for. cbn [prefs_of]. rewrite EP. set (cf := mkRconf (pf_force p) (pf_256 p) (pf_16 p) tty).
  destruct (text_shown (mkRenv cf order) st h t) as (out & st' & ls & E1 & E2 & E3 & E4 & E5 & E6 & _); auto.
  exists out, st', ls. repeat split; assumption.
Qed.
(** forced or forbidden styles do not depend on the terminal *)
Theorem forced_anywhere s r order st text sty b1 b2 : pf_force (prefs_of s r) <> Some false ->
  render_in s b1 order r st text sty = render_in s b2 order r st text sty.
Proof.
  intros F. unfold render_in, env_for. destruct (prefs_of s r) as [f c256 c16]. cbn [pf_force pf_256 pf_16] in *.
  assert (A : is_sgr_usage_allowed (mkRconf f c256 c16 b1) = is_sgr_usage_allowed (mkRconf f c256 c16 b2)) by (destruct f as [[]|]; [reflexivity|congruence|reflexivity]).
  assert (CC : forall cst c bg, render_color (mkRconf f c256 c16 b1) cst c bg = render_color (mkRconf f c256 c16 b2) cst c bg)
    by (intros; unfold render_color; rewrite A; reflexivity).
  assert (CS : render_colors (mkRconf f c256 c16 b1) st sty = render_colors (mkRconf f c256 c16 b2) st sty).
  { unfold render_colors. rewrite CC. destruct (render_color _ st _ false) as [[fg|] st1]; [|reflexivity]. now rewrite CC. }
  destruct r; cbn [render re_conf re_order]; try reflexivity.
  - unfold sgr_render. rewrite CS. unfold render_attributes. now rewrite A.
  - unfold tmux_render. rewrite CS. unfold render_attributes. now rewrite A.
Qed.
(** with 16 colors the other setting is ignored *)
Theorem sixteen_wins s s' r tty order st text sty : pf_16 (prefs_of s r) = true -> pf_16 (prefs_of s' r) = true -> pf_force (prefs_of s r) = pf_force (prefs_of s' r) ->
  render_in s tty order r st text sty = render_in s' tty order r st text sty.
Proof.
  intros S S' F. unfold render_in, env_for. destruct (prefs_of s r) as [f c256 c16], (prefs_of s' r) as [f' c256' c16']. cbn [pf_force pf_256 pf_16] in *. subst c16 c16' f'.
  destruct r; reflexivity.
Qed.
(** "Affects all renderer types": not those with preferences of their own, nor HTML *)
Definition forcing : prefs := mkPrefs (Some true) false false.
Theorem affects_all_refuted : exists h p s s', setup_steps setup0 h = Ok s /\ setup_steps setup0 (h ++ [SO_prefs R_sgr p]) = Ok s' /\
  prefs_of s' R_sgr = p /\ prefs_of s' R_tmux = prefs_of s R_tmux /\ prefs_of s R_tmux <> p.
Proof.
  exists [SO_prefs R_tmux forcing], (mkPrefs None false false). eexists _, _. split; [reflexivity|]. split; [reflexivity|]. repeat split; discriminate.
Qed.
Theorem html_unaffected s s' tty tty' order st text sty : render_in s tty order R_html st text sty = render_in s' tty' order R_html st text sty.
Proof. reflexivity. Qed.

(** ** ready-made styles *)
Definition shows_as (s : style) (a : attrs) : Prop :=
  forall cf st text, styled_output cf -> reached st -> Forall (fun c => c <> 27) text ->
  exists out st', sgr_render cf st text s = (Ok out, st') /\ screen out = map to_cell (styled a text) /\ final_attrs out = attrs0.
Lemma shown_sixteen s a fg bg : Denotes (st_fg s) fg -> Denotes (st_bg s) bg ->
  (forall d x, shown_as d fg x -> x = a_fg a) -> (forall d x, shown_as d bg x -> x = a_bg a) ->
  a = mkAttrs (a_fg a) (a_bg a) (on (st_bold s)) (on (st_dim s)) (on (st_italic s)) (if on (st_underlined s) then 1 else if on (st_double_underlined s) then 2 else 0)
        (if on (st_blink s) then 1 else 0) (on (st_inversed s)) false (on (st_crosslined s)) (on (st_overlined s)) ->
  shows_as s a.
Proof.
  intros DF DB SF SB E cf st text A R N. destruct (sgr_render_painted cf st text s A R) as (out & st' & b & E1 & _ & L & P); auto; [split; eauto|].
  exists out, st'. split; [exact E1|]. assert (EB : b = a).
  { destruct L as (L1 & L2 & L3 & L4 & L5 & L6 & L7 & L8 & L9 & L10 & L11). apply L1 in DF. apply L2 in DB. apply SF in DF. apply SB in DB.
    rewrite E. destruct b. cbn in *. now subst. }
  subst b. split; [eapply Painted_screen; exact P|eapply Painted_final; exact P].
Qed.
Lemma sixteen_shown n d x : shown_as d (K_16 n) x -> x = ColIdx (Z.to_N n).
Proof. destruct d; exact (fun H => H). Qed.
Lemma none_shown d x : shown_as d K_none x -> x = ColDefault.
Proof. destruct d; exact (fun H => H). Qed.
Definition capital_name (n : string) : Prop := forall c, In c (chars n) -> between 97 c 122 = false /\ c < 128.
Lemma upper_any_case name n : capital_name n -> AnyCase name n -> upper name = txt n.
Proof.
  unfold AnyCase, capital_name. intros C A. change (txt n) with (chars n). revert C A. generalize (chars n). intros t C A. unfold upper.
  induction A as [|x y l l' H A IH]; [reflexivity|]. cbn [map]. f_equal; [|apply IH; intros c I; apply C; now right].
  destruct (C y (or_introl eq_refl)) as [Y _]. unfold letter_like, between in *. destruct H as [<-|[H ->]]; [now rewrite Y|now rewrite H].
Qed.
Lemma styles_shown n a : In (n, a) PRESENTED -> exists s, In (n, s) STYLES /\ shows_as s a.
Proof.
  assert (D16 : forall h n, (0 <= n <= 7)%Z -> Denotes (ColorIndexed16 (Some h) (Some (30 + n)) (Some (40 + n)))%Z (K_16 n)) by exact D_16.
  assert (D16b := D_16_bright).
  unfold PRESENTED. cbn [In]. intros H.
  destruct H as [H|[H|[H|[H|[H|[H|[H|[H|[H|[]]]]]]]]]]; injection H as <- <-.
  - exists S_WARNING. split; [unfold STYLES; cbn [In]; tauto|]. eapply (shown_sixteen _ _ (K_16 3) K_none); [exact (D_16 _ 3 ltac:(lia))|exact D_none|apply sixteen_shown|apply none_shown|reflexivity].
  - exists S_WARNING_LABEL. split; [unfold STYLES; cbn [In]; tauto|]. eapply (shown_sixteen _ _ (K_16 3) K_none); [exact (D_16 _ 3 ltac:(lia))|exact D_none|apply sixteen_shown|apply none_shown|reflexivity].
  - exists S_WARNING_ACCENT. split; [unfold STYLES; cbn [In]; tauto|]. eapply (shown_sixteen _ _ (K_16 11) K_none); [exact (D_16_bright _ 11 ltac:(lia))|exact D_none|apply sixteen_shown|apply none_shown|reflexivity].
  - exists S_ERROR. split; [unfold STYLES; cbn [In]; tauto|]. eapply (shown_sixteen _ _ (K_16 1) K_none); [exact (D_16 _ 1 ltac:(lia))|exact D_none|apply sixteen_shown|apply none_shown|reflexivity].
  - exists S_ERROR_LABEL. split; [unfold STYLES; cbn [In]; tauto|]. eapply (shown_sixteen _ _ (K_16 1) K_none); [exact (D_16 _ 1 ltac:(lia))|exact D_none|apply sixteen_shown|apply none_shown|reflexivity].
  - exists S_ERROR_ACCENT. split; [unfold STYLES; cbn [In]; tauto|]. eapply (shown_sixteen _ _ (K_16 9) K_none); [exact (D_16_bright _ 9 ltac:(lia))|exact D_none|apply sixteen_shown|apply none_shown|reflexivity].
  - exists S_CRITICAL. split; [unfold STYLES; cbn [In]; tauto|]. eapply (shown_sixteen _ _ (K_16 15) (K_16 9)); [exact (D_16_bright _ 15 ltac:(lia))|exact (D_16_bright _ 9 ltac:(lia))|apply sixteen_shown|apply sixteen_shown|reflexivity].
  - exists S_CRITICAL_LABEL. split; [unfold STYLES; cbn [In]; tauto|]. eapply (shown_sixteen _ _ (K_16 15) (K_16 9)); [exact (D_16_bright _ 15 ltac:(lia))|exact (D_16_bright _ 9 ltac:(lia))|apply sixteen_shown|apply sixteen_shown|reflexivity].
  - exists S_CRITICAL_ACCENT. split; [unfold STYLES; cbn [In]; tauto|]. eapply (shown_sixteen _ _ (K_16 15) (K_16 9)); [exact (D_16_bright _ 15 ltac:(lia))|exact (D_16_bright _ 9 ltac:(lia))|apply sixteen_shown|apply sixteen_shown|reflexivity].
Qed.
Definition all_capital : forallb (fun e => forallb (fun c => negb (between 97 c 122) && (c <? 128)) (chars (fst e))) STYLES = true := eq_refl.
Lemma names_capital n s : In (n, s) STYLES -> capital_name n.
Proof.
  intros I c K. pose proof (proj1 (forallb_forall _ _) all_capital _ I) as H. cbn [fst] in H. pose proof (proj1 (forallb_forall _ _) H _ K) as H2. cbn beta in H2.
  apply andb_true_iff in H2 as [H1 H2]. apply N.ltb_lt in H2. destruct (between 97 c 122); [discriminate|auto].
Qed.
Lemma style_get_in name l s : style_get name l = Some s -> exists n, In (n, s) l /\ name = txt n.
Proof.
  induction l as [|[n t] l IH]; cbn [style_get]; [discriminate|]. destruct (eqb_list name (txt n)) eqn:E.
  - intros [= ->]. exists n. split; [now left|]. now apply eqb_list_spec.
  - intros H. destruct (IH H) as (m & I & K). exists m. split; [now right|exact K].
Qed.
Lemma any_case_upper name : forall n, upper name = txt n -> AnyCase name n.
Proof.
  intros n. unfold AnyCase. change (txt n) with (chars n). generalize (chars n). unfold upper. induction name as [|c name IH]; intros t H; destruct t as [|d t]; try discriminate; [constructor|].
  cbn [map] in H. injection H as H1 H2. constructor; [|now apply IH]. unfold letter_like, between. destruct ((97 <=? c) && (c <=? 122)); [right|left]; auto.
Qed.
Definition found_all : forallb (fun e => match style_get (txt (fst e)) STYLES with Some _ => true | None => false end) STYLES = true := eq_refl.
Lemma style_get_self n s : In (n, s) STYLES -> style_get (txt n) STYLES = Some s.
Proof.
  unfold STYLES. cbn [In]. intros H. destruct H as [H|[H|[H|[H|[H|[H|[H|[H|[H|[]]]]]]]]]]; injection H as <- <-; reflexivity.
Qed.
Theorem styles_resolve name s : resolve_style_name name = Ok s <-> exists n, In (n, s) STYLES /\ AnyCase name n.
Proof.
  unfold resolve_style_name. split.
  - destruct (style_get (upper name) STYLES) as [t|] eqn:E; [|discriminate]. intros [= ->]. apply style_get_in in E as (n & I & K). exists n. split; [exact I|]. now apply any_case_upper.
  - intros (n & I & A). rewrite (upper_any_case _ _ (names_capital _ _ I) A), (style_get_self _ _ I). reflexivity.
Qed.
Theorem styles_presented n a name : In (n, a) PRESENTED -> AnyCase name n -> exists s, resolve_style_name name = Ok s /\ shows_as s a.
Proof.
  intros I A. destruct (styles_shown _ _ I) as (s & IS & S). exists s. split; [|exact S]. apply styles_resolve. eauto.
Qed.
Theorem styles_unknown name : (forall n a, In (n, a) PRESENTED -> ~ AnyCase name n) -> resolve_style_name name = Err KeyError.
Proof.
  intros H. destruct (resolve_style_name name) as [s|e] eqn:E.
  - exfalso. apply styles_resolve in E as (n & I & A).
    assert (K : exists a, In (n, a) PRESENTED).
    { unfold STYLES in I. cbn [In] in I. unfold PRESENTED. cbn [In].
      destruct I as [I|[I|[I|[I|[I|[I|[I|[I|[I|[]]]]]]]]]]; injection I as <- _; eexists; tauto. }
    destruct K as (a & K). exact (H _ _ K A).
  - unfold resolve_style_name in E. destruct (style_get _ _); congruence.
Qed.
Definition sample_history : list setup_op := [SO_prefs R_sgr (mkPrefs (Some true) true false); SO_default (Some R_html); SO_prefs R_tmux forcing; SO_default None].
Lemma sample_session : exists s, setup_steps setup0 sample_history = Ok s /\ latest sets_default sample_history (Some R_sgr) /\
  latest (sets_prefs R_sgr) sample_history (Some (mkPrefs (Some true) true false)) /\ prefs_of s R_tmux = forcing /\ prefs_of s R_debug = mkPrefs (Some true) true false.
Proof.
  eexists. split; [reflexivity|]. split; [|split; [|split; reflexivity]].
  - exists [SO_prefs R_sgr (mkPrefs (Some true) true false); SO_default (Some R_html); SO_prefs R_tmux forcing], (SO_default None), []. repeat split. intros o [].
  - exists [], (SO_prefs R_sgr (mkPrefs (Some true) true false)), [SO_default (Some R_html); SO_prefs R_tmux forcing; SO_default None]. repeat split.
    intros o [<-|[<-|[<-|[]]]]; reflexivity.
Qed.
Lemma sample_style : AnyCase (txt "Warning_label") "WARNING_LABEL" /\ In ("WARNING_LABEL"%string, set_bold true (set_fg (ColIdx 3) attrs0)) PRESENTED.
Proof. split; [apply any_case_upper; reflexivity|]. unfold PRESENTED. cbn [In]. tauto. Qed.
