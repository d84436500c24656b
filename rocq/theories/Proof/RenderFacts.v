(** Rendering of styled texts *)
From Coq Require Import List Arith NArith ZArith Bool Lia.
From Verif.Model Require Import Base Ansi Color Presets Render.
From Verif.Spec Require Import Terminal Sgr Palette Display Styles.
From Verif.Proof Require Import BaseFacts RegexFacts TermFacts ClosingFacts TokFacts PaintFacts ConsoleFacts ColorFacts PresetFacts.
Import ListNotations.
Local Open Scope N_scope.

(** * lines *)
Lemma splitlines_from_concat s : forall cur, concat (splitlines_from cur s) = rev cur ++ s.
Proof.
  induction s as [s IH] using (@length_ind N). intros cur. destruct s as [|c t]; cbn [splitlines_from].
  - destruct cur; [reflexivity|]. cbn [concat]. now rewrite !app_nil_r.
  - destruct (c =? 13) eqn:E; [apply N.eqb_eq in E; subst c|destruct (is_break c)].
    + destruct t as [|d t']; [cbn; now rewrite !app_nil_r|]. destruct (d =? 10) eqn:D.
      * apply N.eqb_eq in D. subst d. cbn [concat]. rewrite IH by (cbn; lia). cbn. now rewrite <- !app_assoc.
      * cbn [concat]. rewrite IH by (cbn; lia). cbn. now rewrite <- !app_assoc.
    + cbn [concat]. rewrite IH by (cbn; lia). cbn. now rewrite <- !app_assoc.
    + rewrite IH by (cbn; lia). cbn. now rewrite <- !app_assoc.
Qed.
Lemma splitlines_concat s : concat (splitlines s) = s.
Proof. apply (splitlines_from_concat s []). Qed.

Lemma allowed cf : is_sgr_usage_allowed cf = true <-> styled_output cf.
Proof.
  unfold is_sgr_usage_allowed, styled_output. destruct (rc_force cf) as [[|]|], (rc_tty cf); split; intros H; auto;
    try discriminate; destruct H as [H|[H1 H2]]; discriminate.
Qed.

(** * colors *)
Lemma after_one (hs : list Z) (a : approximator) (h : Z) : snd (find_closest (after (looked_up hs) a) h) = after (looked_up (hs ++ [h])) a.
Proof. unfold looked_up. rewrite map_app, after_app. reflexivity. Qed.

Definition set_color (bg : bool) (x : color) (a : attrs) : attrs := if bg then set_bg x a else set_fg x a.
Definition get_color (bg : bool) (a : attrs) : color := if bg then a_bg a else a_fg a.

Lemma good_one i : item_group i <> None -> good_open (item_params i).
Proof. intros H. exists [i]. split; [cbn; now rewrite app_nil_r|auto]. Qed.
Lemma rgb_good (bg : bool) r g b : good_open [(if bg then 48 else 38); 2; r; g; b].
Proof. apply (good_one (I_rgb bg r g b)). easy. Qed.
Lemma indexed_good (bg : bool) n : good_open [(if bg then 48 else 38); 5; n].
Proof. apply (good_one (I_indexed bg n)). easy. Qed.

Definition code16 (bg : bool) (n : Z) : Z := (if n <? 8 then (if bg then 40 else 30) + n else (if bg then 100 else 90) + (n - 8))%Z.
Lemma code16_ok n bg : (0 <= n <= 15)%Z ->
  good_open [Z.to_N (code16 bg n)] /\ forall a, sgr_apply [Z.to_N (code16 bg n)] a = set_color bg (ColIdx (Z.to_N n)) a.
Proof.
  intros H. assert (C : In n (map (fun k => 0 + Z.of_nat k)%Z (seq 0 16))) by (apply in_range; lia).
  cbn in C. repeat (destruct C as [<-|C]; [destruct bg; (split; [solve_good|reflexivity])|]). contradiction.
Qed.
Lemma valid_index n : (0 <= n <= 255)%Z -> forall bg, init_color_indexed n bg = Ok [(if bg then 48 else 38); 5; Z.to_N n].
Proof. intros H bg. unfold init_color_indexed. rewrite valid_channel by lia. reflexivity. Qed.

Lemma via16 st h bg : reached st ->
  exists n, nearest16 h n /\
    bind (fst (find_closest (rs_16 st) h)) (fun c => to_sgr c bg) = Ok [Z.to_N (code16 bg n)] /\
    reached (mkRstate (snd (find_closest (rs_16 st) h)) (rs_256 st)).
Proof.
  intros (h16 & h256 & ->). cbn [rs_16 rs_256]. destruct (closest16 h16 h) as (n & N & E & M).
  exists n. split; [split; assumption|]. split.
  - rewrite E. cbn. unfold code16. destruct (n <? 8)%Z eqn:L, bg; apply (f_equal (fun z => Ok [Z.to_N z])); lia.
  - rewrite after_one. now exists (h16 ++ [h]), h256.
Qed.
Lemma via256 st h bg : reached st ->
  exists n, nearest256 h n /\
    bind (fst (find_closest (rs_256 st) h)) (fun c => to_sgr c bg) = Ok [(if bg then 48 else 38); 5; Z.to_N n] /\
    reached (mkRstate (rs_16 st) (snd (find_closest (rs_256 st) h))).
Proof.
  intros (h16 & h256 & ->). cbn [rs_16 rs_256]. destruct (closest256 h256 h) as (n & N & E & M).
  exists n. split; [split; [assumption|]; intros m Hm; apply M; assumption|]. split.
  - rewrite E. cbn [bind to_sgr c256]. apply valid_index. lia.
  - rewrite after_one. now exists h16, (h256 ++ [h]).
Qed.

(** the sequences for a color of the terminal *)
Inductive SeqFor (bg : bool) : color -> sgr -> Prop :=
| SF_none : SeqFor bg ColDefault []
| SF_rgb r g b : r < 256 -> g < 256 -> b < 256 -> SeqFor bg (ColRgb r g b) [(if bg then 48 else 38); 2; r; g; b]
| SF_256 n : (0 <= n <= 255)%Z -> SeqFor bg (ColIdx (Z.to_N n)) [(if bg then 48 else 38); 5; Z.to_N n]
| SF_16 n : (0 <= n <= 15)%Z -> SeqFor bg (ColIdx (Z.to_N n)) [Z.to_N (code16 bg n)].

Lemma SeqFor_ok bg x p : SeqFor bg x p -> good_open p /\ forall a, get_color bg a = ColDefault -> sgr_apply p a = set_color bg x a.
Proof.
  intros [|r g b _ _ _|n N|n N].
  - split; [apply good_nil|]. intros a E. destruct bg, a; cbn in *; subst; reflexivity.
  - split; [apply rgb_good|]. intros a _. destruct bg; reflexivity.
  - split; [apply indexed_good|]. intros a _. destruct bg; reflexivity.
  - destruct (code16_ok n bg N). split; auto.
Qed.

Lemma render_color_ok cf st c k bg : styled_output cf -> reached st -> Denotes c k ->
  exists p st' x, render_color cf st c bg = (Ok p, st') /\ reached st' /\ shown_as (depth_of cf) k x /\ SeqFor bg x p.
Proof.
  intros A R D. apply allowed in A. unfold render_color, depth_of.
  destruct D as [|h|h n N|h n N|h n N]; cbn [hex_value]; rewrite ?A; cbn [negb shown_as].
  - exists [], st, ColDefault. repeat (split; [first [reflexivity|assumption]|]). constructor.
  - destruct (rc_16 cf); [|destruct (rc_256 cf)]; unfold with_16, with_256; cbn [fst snd].
    + destruct (via16 st h bg R) as (n & M & -> & R').
      eexists _, _, _. split; [reflexivity|]. split; [exact R'|]. split; [eauto|]. constructor. apply M.
    + destruct (via256 st h bg R) as (n & M & -> & R').
      eexists _, _, _. split; [reflexivity|]. split; [exact R'|]. split; [eauto|]. constructor. destruct M as [M _]. lia.
    + rewrite rgb_sgr. eexists _, _, _. split; [reflexivity|]. split; [exact R|]. split; [reflexivity|].
      destruct (channel_range h) as (Hr & Hg & Hb). constructor; lia.
  - destruct (rc_16 cf); unfold with_16; cbn [fst snd].
    + destruct (via16 st h bg R) as (m & M & -> & R').
      eexists _, _, _. split; [reflexivity|]. split; [exact R'|]. split; [eauto|]. constructor. apply M.
    + cbn [to_sgr]. rewrite valid_index by assumption.
      eexists _, _, _. split; [reflexivity|]. split; [exact R|].
      split; [destruct (rc_256 cf); reflexivity|]. constructor. lia.
  - pose proof (SF_16 bg n ltac:(lia)) as G. unfold code16 in G.
    replace (n <? 8)%Z with true in G by (symmetry; apply Z.ltb_lt; lia).
    cbn [to_sgr]. replace (if bg then Some (40 + n)%Z else Some (30 + n)%Z) with (Some ((if bg then 40 else 30) + n)%Z) by (destruct bg; reflexivity).
    eexists _, _, _. split; [reflexivity|]. split; [exact R|]. split; [reflexivity|exact G].
  - pose proof (SF_16 bg n ltac:(lia)) as G. unfold code16 in G.
    replace (n <? 8)%Z with false in G by (symmetry; apply Z.ltb_ge; lia).
    cbn [to_sgr]. replace (if bg then Some (100 + (n - 8))%Z else Some (90 + (n - 8))%Z) with (Some ((if bg then 100 else 90) + (n - 8))%Z) by (destruct bg; reflexivity).
    eexists _, _, _. split; [reflexivity|]. split; [exact R|]. split; [reflexivity|exact G].
Qed.

Lemma denotes_unique c k k' : Denotes c k -> Denotes c k' -> k = k'.
Proof. intros H K. destruct H; inversion K; subst; try reflexivity; f_equal; lia. Qed.

(** * attributes *)
Lemma truthy_on o : truthy o = on o.
Proof. destruct o as [[|]|]; reflexivity. Qed.

Definition attr_look (s : style) : attrs :=
  mkAttrs ColDefault ColDefault (on (st_bold s)) (on (st_dim s)) (on (st_italic s))
    (if on (st_underlined s) then 1 else if on (st_double_underlined s) then 2 else 0)
    (if on (st_blink s) then 1 else 0) (on (st_inversed s)) false (on (st_crosslined s)) (on (st_overlined s)).

Lemma attribute_seqs_ok s : good_open (concat (attribute_seqs s)) /\ sgr_apply (concat (attribute_seqs s)) attrs0 = attr_look s.
Proof.
  unfold attribute_seqs, attr_look. rewrite !truthy_on.
  destruct (on (st_blink s)), (on (st_bold s)), (on (st_crosslined s)), (on (st_dim s)), (on (st_double_underlined s)),
    (on (st_inversed s)), (on (st_italic s)), (on (st_overlined s)), (on (st_underlined s)); (split; [solve_good|reflexivity]).
Qed.

Lemma render_colors_ok cf st s : styled_output cf -> reached st -> standard s ->
  exists fg bg st' x y, render_colors cf st s = (Ok (fg, bg), st') /\ reached st' /\ SeqFor false x fg /\ SeqFor true y bg /\
    (forall k, Denotes (st_fg s) k -> shown_as (depth_of cf) k x) /\ (forall k, Denotes (st_bg s) k -> shown_as (depth_of cf) k y).
Proof.
  intros A R ((kf & Df) & (kb & Db)). unfold render_colors.
  destruct (render_color_ok cf st (st_fg s) kf false A R Df) as (p & st1 & x & -> & R1 & X & Gp).
  destruct (render_color_ok cf st1 (st_bg s) kb true A R1 Db) as (q & st2 & y & -> & R2 & Y & Gq).
  exists p, q, st2, x, y. cbn [bind]. repeat (split; [first [reflexivity|assumption]|]). split.
  - intros k D. now rewrite (denotes_unique _ _ _ D Df).
  - intros k D. now rewrite (denotes_unique _ _ _ D Db).
Qed.

(** the opening sequence of a style *)
Lemma opening_ok cf st s : styled_output cf -> reached st -> standard s ->
  exists fg bg st' a, render_colors cf st s = (Ok (fg, bg), st') /\ reached st' /\
    let o := sgr_add (sgr_add (concat (render_attributes cf s)) fg) bg in
    good_open o /\ sgr_apply o attrs0 = a /\ looks (depth_of cf) s a.
Proof.
  intros A R S. destruct (render_colors_ok cf st s A R S) as (fg & bg & st' & x & y & E & R' & Ff & Fb & X & Y).
  destruct (SeqFor_ok _ _ _ Ff) as [Gf Sf]. destruct (SeqFor_ok _ _ _ Fb) as [Gb Sb]. cbn [get_color set_color] in *.
  destruct (attribute_seqs_ok s) as [Ga Sa].
  exists fg, bg, st', (set_bg y (set_fg x (attr_look s))). split; [exact E|]. split; [exact R'|]. cbv zeta.
  unfold sgr_add, render_attributes. apply allowed in A. rewrite A.
  split; [repeat apply good_app; assumption|]. split.
  - rewrite !sgr_apply_app by (repeat apply good_app; assumption). rewrite Sa, Sf, Sb by reflexivity. reflexivity.
  - unfold looks. cbn. auto 20.
Qed.

(** * lines in a style *)
Lemma lines_painted o ls : good_open o -> Forall (fun c => c <> 27) (concat ls) ->
  Painted attrs0 (flat_map (span_wrap o) ls) attrs0 (map to_cell (styled (sgr_apply o attrs0) (concat ls))).
Proof.
  intros G. induction ls as [|l ls IH]; intros H; cbn [flat_map concat].
  - constructor.
  - cbn [concat] in H. apply Forall_app in H as [H1 H2]. unfold styled. rewrite !map_app.
    eapply Painted_app; [now apply Painted_span|]. apply IH. exact H2.
Qed.

Lemma sgr_render_painted cf st text s : styled_output cf -> reached st -> standard s -> Forall (fun c => c <> 27) text ->
  exists out st' a, sgr_render cf st text s = (Ok out, st') /\ reached st' /\ looks (depth_of cf) s a /\
    Painted attrs0 out attrs0 (map to_cell (styled a text)).
Proof.
  intros A R S H. destruct (opening_ok cf st s A R S) as (fg & bg & st' & a & E & R' & G & Ea & L). cbv zeta in *.
  unfold sgr_render. rewrite E. cbn [bind]. eexists _, _, a. split; [reflexivity|]. split; [exact R'|]. split; [exact L|].
  rewrite <- Ea. rewrite <- (splitlines_concat text) at 2. apply lines_painted; [exact G|]. now rewrite splitlines_concat.
Qed.

(** a whole text *)
Lemma runs_painted e rs : styled_output (re_conf e) -> Forall run_standard rs ->
  Forall (fun c => c <> 27) (flat_map run_string rs) -> forall st, reached st ->
  exists out st' looks_of, render_runs e R_sgr st rs = (Ok out, st') /\ reached st' /\
    Forall2 (run_looks (depth_of (re_conf e))) rs looks_of /\
    Painted attrs0 out attrs0 (map to_cell (concat (map (fun ra => styled (snd ra) (run_string (fst ra))) (combine rs looks_of)))).
Proof.
  intros A. induction rs as [|r rs IH]; intros S H st R; cbn [render_runs].
  - exists [], st, []. repeat split; auto. constructor.
  - inversion S as [|? ? S1 S2]; subst. cbn [flat_map] in H. apply Forall_app in H as [H1 H2].
    assert (One : exists out st1 a, render_run e R_sgr st r = (Ok out, st1) /\ reached st1 /\ run_looks (depth_of (re_conf e)) r a /\
              Painted attrs0 out attrs0 (map to_cell (styled a (run_string r)))).
    { unfold render_run, run_looks, run_standard in *. destruct (run_style r) as [s|].
      - cbn [render]. apply sgr_render_painted; assumption.
      - exists (run_string r), st, attrs0. repeat split; auto. now apply Painted_plain. }
    destruct One as (out1 & st1 & a & E1 & R1 & L1 & P1). rewrite E1.
    destruct (IH S2 H2 st1 R1) as (out2 & st2 & las & E2 & R2 & L2 & P2). rewrite E2. cbn [bind].
    exists (out1 ++ out2), st2, (a :: las). split; [reflexivity|]. split; [exact R2|]. split; [now constructor|].
    cbn [combine map concat fst snd]. rewrite map_app. eapply Painted_app; eassumption.
Qed.

(** * independence of what was looked up before *)
Lemma registers_only cs hs : filter is_register (history cs hs) = map Register cs.
Proof.
  unfold history, looked_up. rewrite filter_app. replace (filter is_register (map Lookup hs)) with (@nil event) by (induction hs; auto).
  rewrite app_nil_r. induction cs as [|c cs IH]; [reflexivity|]. cbn. now rewrite IH.
Qed.
Lemma same_answer cs h1 h2 h : (forall c k, In c cs -> hex_value c = Some k -> color24 k) ->
  fst (find_closest (after (looked_up h1) (fold_left add_to_map cs approx_init)) h)
  = fst (find_closest (after (looked_up h2) (fold_left add_to_map cs approx_init)) h).
Proof.
  intros H. rewrite <- !history_state.
  assert (R : forall hs, registered_in_range (history cs hs)) by (intros hs c k I; apply in_history in I; eauto).
  rewrite (lookups_irrelevant (history cs h1)), (lookups_irrelevant (history cs h2)) by apply R. now rewrite !registers_only.
Qed.
Lemma presets16_range c k : In c presets16 -> hex_value c = Some k -> color24 k.
Proof. intros I V. apply presets16_spec in I as (n & N & ->). cbn in V. injection V as <-. now apply basic_range. Qed.
Lemma presets256_range c k : In c presets256 -> hex_value c = Some k -> color24 k.
Proof. intros I V. apply presets256_spec in I as (n & N & ->). cbn in V. injection V as <-. now apply xterm_range. Qed.

Lemma same_color cf st1 st2 c bg : reached st1 -> reached st2 ->
  fst (render_color cf st1 c bg) = fst (render_color cf st2 c bg) /\
  reached (snd (render_color cf st1 c bg)).
Proof.
  intros R1 (h16' & h256' & ->). pose proof R1 as (h16 & h256 & ->). unfold render_color.
  destruct (hex_value c) as [h|]; [|auto]. destruct (negb (is_sgr_usage_allowed cf)); [auto|].
  assert (R16 : reached (mkRstate (snd (find_closest (after (looked_up h16) table16) h)) (after (looked_up h256) table256)))
    by (rewrite after_one; now exists (h16 ++ [h]), h256).
  assert (R256 : reached (mkRstate (after (looked_up h16) table16) (snd (find_closest (after (looked_up h256) table256) h))))
    by (rewrite after_one; now exists h16, (h256 ++ [h])).
  destruct c; [auto| |]; (destruct (rc_16 cf); [|try destruct (rc_256 cf)]); cbn [fst snd with_16 with_256 rs_16 rs_256]; auto; split; auto.
  - f_equal. unfold table16. apply same_answer. exact presets16_range.
  - f_equal. unfold table16. apply same_answer. exact presets16_range.
  - f_equal. unfold table256. apply same_answer. exact presets256_range.
Qed.
Lemma same_colors cf st1 st2 s : reached st1 -> reached st2 ->
  fst (render_colors cf st1 s) = fst (render_colors cf st2 s) /\ reached (snd (render_colors cf st1 s)).
Proof.
  intros R1 R2. unfold render_colors.
  destruct (same_color cf st1 st2 (st_fg s) false R1 R2) as [E1 R3].
  destruct (same_color cf st2 st1 (st_fg s) false R2 R1) as [_ R4].
  destruct (render_color cf st1 (st_fg s) false) as [r1 st1'], (render_color cf st2 (st_fg s) false) as [r2 st2']. cbn [fst snd] in *.
  subst r2. destruct r1 as [fg|x]; [|auto].
  destruct (same_color cf st1' st2' (st_bg s) true R3 R4) as [E5 R5].
  destruct (render_color cf st1' (st_bg s) true) as [q1 st1''], (render_color cf st2' (st_bg s) true) as [q2 st2'']. cbn [fst snd] in *.
  subst q2. auto.
Qed.

Lemma same_render e k st1 st2 text s : reached st1 -> reached st2 ->
  fst (render e k st1 text s) = fst (render e k st2 text s) /\ reached (snd (render e k st1 text s)).
Proof.
  intros R1 R2. destruct k; cbn [render]; auto; unfold sgr_render, tmux_render, debug_render, sgr_render.
  - destruct (same_colors (re_conf e) st1 st2 s R1 R2) as [E R].
    destruct (render_colors (re_conf e) st1 s), (render_colors (re_conf e) st2 s). cbn [fst snd] in *. now subst.
  - destruct (same_colors (re_conf e) st1 st2 s R1 R2) as [E R].
    destruct (render_colors (re_conf e) st1 s), (render_colors (re_conf e) st2 s). cbn [fst snd] in *. now subst.
  - destruct (same_colors (debug_conf (re_conf e)) st1 st2 s R1 R2) as [E R].
    destruct (render_colors (debug_conf (re_conf e)) st1 s), (render_colors (debug_conf (re_conf e)) st2 s). cbn [fst snd] in *. now subst.
Qed.

Lemma same_runs e k rs : forall st1 st2, reached st1 -> reached st2 ->
  fst (render_runs e k st1 rs) = fst (render_runs e k st2 rs) /\ reached (snd (render_runs e k st1 rs)).
Proof.
  induction rs as [|r rs IH]; intros st1 st2 R1 R2; [auto|]. cbn [render_runs].
  assert (One : forall st1 st2, reached st1 -> reached st2 ->
            fst (render_run e k st1 r) = fst (render_run e k st2 r) /\ reached (snd (render_run e k st1 r))).
  { intros s1 s2 Q1 Q2. unfold render_run. destruct (run_style r); [now apply same_render|auto]. }
  destruct (One st1 st2 R1 R2) as [E1 R3]. destruct (One st2 st1 R2 R1) as [_ R4].
  destruct (render_run e k st1 r) as [r1 st1'], (render_run e k st2 r) as [r2 st2']. cbn [fst snd] in *. subst r2.
  destruct r1 as [s1|x]; [|auto]. destruct (IH st1' st2' R3 R4) as [E5 R5].
  destruct (render_runs e k st1' rs), (render_runs e k st2' rs). cbn [fst snd] in *. now subst.
Qed.

(** * styles switched off *)
Lemma not_allowed cf : ~ styled_output cf -> is_sgr_usage_allowed cf = false.
Proof. intros H. destruct (is_sgr_usage_allowed cf) eqn:E; [|reflexivity]. elim H. now apply allowed. Qed.
Lemma render_colors_off cf st s : is_sgr_usage_allowed cf = false -> render_colors cf st s = (Ok ([], []), st).
Proof. intros H. unfold render_colors, render_color. rewrite H. destruct (hex_value (st_fg s)), (hex_value (st_bg s)); reflexivity. Qed.
Lemma sgr_render_off cf st text s : ~ styled_output cf -> sgr_render cf st text s = (Ok text, st).
Proof.
  intros H. apply not_allowed in H. unfold sgr_render, render_attributes. rewrite render_colors_off, H by assumption. cbn [bind concat app sgr_add].
  change (span_wrap []) with (fun t : str => t ++ []). f_equal. f_equal. rewrite <- (splitlines_concat text) at 2.
  induction (splitlines text) as [|l ls IH]; [reflexivity|]. cbn [flat_map concat]. rewrite IH, app_nil_r. reflexivity.
Qed.
Lemma tmux_render_off cf st text s : ~ styled_output cf -> tmux_render cf st text s = (Ok text, st).
Proof.
  intros H. apply not_allowed in H. unfold tmux_render, render_attributes. rewrite render_colors_off, H by assumption. cbn.
  f_equal. f_equal. rewrite <- (splitlines_concat text) at 2.
  induction (splitlines text) as [|l ls IH]; [reflexivity|]. cbn [flat_map concat]. rewrite IH, app_nil_r. reflexivity.
Qed.
Lemma runs_off e k rs st : (k = R_noop \/ ((k = R_sgr \/ k = R_tmux) /\ ~ styled_output (re_conf e))) ->
  render_runs e k st rs = (Ok (flat_map run_string rs), st).
Proof.
  intros K. induction rs as [|r rs IH]; [reflexivity|]. cbn [render_runs flat_map].
  assert (One : render_run e k st r = (Ok (run_string r), st)).
  { unfold render_run. destruct (run_style r); [|reflexivity]. destruct K as [->|[[->| ->] K]]; cbn [render]; auto using sgr_render_off, tmux_render_off. }
  rewrite One, IH. reflexivity.
Qed.
