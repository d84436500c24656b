(** C102: texts and the styles they share *)
From Coq Require Import Ascii String.
From Coq Require Import List Arith NArith ZArith Bool Lia.
From Verif.Model Require Import Base Ansi Strip Color Presets ColorNames Render RenderSetup StyleMemory.
From Verif.Spec Require Import Terminal Palette Display Tmux Html Styles SgrNames Preferences SharedStyles Conditions.
From Verif.Proof Require Import BaseFacts TermFacts PaintFacts ColorFacts RenderFacts RenderClaims RenderMore SetupClaims.
Import ListNotations.
Local Open Scope nat_scope.

(** ** memory is well formed *)
Definition wf (m : memory) : Prop :=
  Forall (fun r => match mr_style r with Some i => i < List.length (mem_styles m) | None => True end) (mem_runs m) /\
  Forall (Forall (fun i => i < List.length (mem_runs m))) (mem_texts m).
Lemma wf0 : wf mem0.
Proof. split; constructor. Qed.
Lemma mtext_ok m t : wf m -> Forall (fun i => i < List.length (mem_runs m)) (mtext m t).
Proof.
  intros [_ H]. unfold mtext. destruct (nth_in_or_default t (mem_texts m) []) as [I|E]; [|rewrite E; constructor]. rewrite Forall_forall in H. now apply H.
Qed.
Lemma update_Forall {A} (P : A -> Prop) i x l : P x -> Forall P l -> Forall P (update i x l).
Proof. intros Hx H. revert i. induction H as [|y l Hy H IH]; intros [|i]; cbn [update]; constructor; auto. Qed.
Lemma grow_runs (l : list (list nat)) n k : n <= k -> Forall (Forall (fun i => i < n)) l -> Forall (Forall (fun i => i < k)) l.
Proof. intros L. apply Forall_impl. intros a. apply Forall_impl. intros i. lia. Qed.
Lemma grow_styles (l : list mrun) n k : n <= k -> Forall (fun r => match mr_style r with Some i => i < n | None => True end) l -> Forall (fun r => match mr_style r with Some i => i < k | None => True end) l.
Proof. intros L. apply Forall_impl. intros r. destruct (mr_style r); [lia|auto]. Qed.
Lemma nth_error_lt {A} (l : list A) i x : nth_error l i = Some x -> i < List.length l.
Proof. intros H. apply nth_error_Some. congruence. Qed.

Lemma wf_step m o m' : wf m -> mem_step m o = Ok m' -> wf m'.
Proof.
  intros W. pose proof W as [W1 W2].
  destruct o as [[i|] g|i c|a [|i|n]|t s|t u|t s|t u|t f]; cbn [mem_step].
  - destruct (nth_error (mem_styles m) i); [|intros [= <-]; exact W]. destruct (style_init _); cbn [bind]; [|discriminate]. intros [= <-].
    split; cbn [mem_styles mem_runs mem_texts]; [|exact W2]. eapply grow_styles; [|exact W1]. rewrite app_length. cbn. lia.
  - destruct (style_init _); cbn [bind]; [|discriminate]. intros [= <-].
    split; cbn [mem_styles mem_runs mem_texts]; [|exact W2]. eapply grow_styles; [|exact W1]. rewrite app_length. cbn. lia.
  - destruct (nth_error (mem_styles m) i); [|intros [= <-]; exact W]. destruct (style_change _ _); cbn [bind]; [|discriminate]. intros [= <-].
    split; cbn [mem_styles mem_runs mem_texts]; [|exact W2]. rewrite update_len. exact W1.
  - intros [= <-]. split; cbn [mem_styles mem_runs mem_texts].
    + apply Forall_app. split; [exact W1|]. constructor; [exact I|constructor].
    + rewrite app_length. cbn [List.length]. apply Forall_app. split; [eapply grow_runs; [|exact W2]; lia|]. repeat constructor. lia.
  - cbn [mem_text]. destruct (Nat.ltb_spec i (List.length (mem_styles m))); intros [= <-]; [|exact W]. split; cbn [mem_styles mem_runs mem_texts].
    + apply Forall_app. split; [exact W1|]. constructor; [exact H|constructor].
    + rewrite app_length. cbn [List.length]. apply Forall_app. split; [eapply grow_runs; [|exact W2]; lia|]. repeat constructor. lia.
  - cbn [mem_text]. destruct (style_init _); cbn [bind]; [|discriminate]. intros [= <-]. split; cbn [mem_styles mem_runs mem_texts].
    + rewrite app_length. cbn [List.length]. apply Forall_app. split; [eapply grow_styles; [|exact W1]; lia|]. constructor; [cbn [mr_style]; lia|constructor].
    + rewrite app_length. cbn [List.length]. apply Forall_app. split; [eapply grow_runs; [|exact W2]; lia|]. repeat constructor. lia.
  - intros [= <-]. split; cbn [mem_styles mem_runs mem_texts]; [apply Forall_app; split; [exact W1|repeat constructor]|].
    rewrite app_length. cbn [List.length]. apply update_Forall; [|eapply grow_runs; [|exact W2]; lia].
    apply Forall_app. split; [|repeat constructor; lia]. eapply Forall_impl; [|apply (mtext_ok m t W)]. cbn. lia.
  - intros [= <-]. split; cbn [mem_styles mem_runs mem_texts]; [exact W1|]. apply update_Forall; [|exact W2]. apply Forall_app. split; now apply mtext_ok.
  - intros [= <-]. split; cbn [mem_styles mem_runs mem_texts]; [apply Forall_app; split; [exact W1|repeat constructor]|].
    rewrite app_length. cbn [List.length]. apply update_Forall; [|eapply grow_runs; [|exact W2]; lia].
    constructor; [lia|]. eapply Forall_impl; [|apply (mtext_ok m t W)]. cbn. lia.
  - intros [= <-]. split; cbn [mem_styles mem_runs mem_texts]; [exact W1|]. apply update_Forall; [|exact W2]. apply Forall_app. split; now apply mtext_ok.
  - destruct (mtext m t) as [|i [|]]; [intros [= <-]; exact W| |discriminate]. destruct (nth_error (mem_runs m) i) as [r|] eqn:E; intros [= <-]; [|exact W].
    split; cbn [mem_styles mem_runs mem_texts]; [|now rewrite update_len]. apply update_Forall; [|exact W1]. cbn [mr_style].
    apply nth_error_In in E. rewrite Forall_forall in W1. exact (W1 _ E).
Qed.
Lemma wf_steps m os m' : wf m -> mem_steps m os = Ok m' -> wf m'.
Proof.
  revert m. induction os as [|o os IH]; intros m W; cbn [mem_steps]; [intros [= <-]; exact W|].
  destruct (mem_step m o) as [m1|] eqn:E; cbn [bind]; [|discriminate]. apply IH. eapply wf_step; eassumption.
Qed.

(** ** the value of a style *)
Lemma style_ext (s t : style) : st_fg s = st_fg t -> st_bg s = st_bg t -> (forall a, value_of s a = value_of t a) -> st_class_name s = st_class_name t -> s = t.
Proof.
  intros F B V C. pose proof (V AT_blink). pose proof (V AT_bold). pose proof (V AT_crosslined). pose proof (V AT_dim). pose proof (V AT_double_underlined).
  pose proof (V AT_inversed). pose proof (V AT_italic). pose proof (V AT_overlined). pose proof (V AT_underlined). clear V.
  destruct s, t. cbn in *. congruence.
Qed.
Lemma with_colors_values s f b : same_values_but_colors s (with_colors s f b).
Proof. split; [now intros []|reflexivity]. Qed.
Lemma with_colors_unique s f b s' : st_fg s' = f -> st_bg s' = b -> same_values_but_colors s s' -> s' = with_colors s f b.
Proof.
  intros F B [V C]. destruct (with_colors_values s f b) as [V' C']. apply style_ext; [exact F|exact B| |congruence]. intros a. now rewrite V, V'.
Qed.
Lemma resolve_stands a c : resolve_color a false = Ok (Some c) <-> stands_for a c.
Proof.
  destruct a as [|x|h|n]; cbn [resolve_color stands_for].
  - split; [now intros [= <-]|now intros ->].
  - split; [now intros [= <-]|now intros ->].
  - split; [now intros [= <-]|now intros ->].
  - fold presets. rewrite <- names_resolve. destruct (resolve_color_name n); cbn [bind]; split; congruence.
Qed.
Lemma resolve_some a o : resolve_color a false = Ok o -> exists c, o = Some c.
Proof. destruct a as [|x|h|n]; cbn [resolve_color]; try (intros [= <-]; eauto). destruct (resolve_color_name n); cbn [bind]; [|discriminate]. intros [= <-]. eauto. Qed.
Lemma set_attr_value s a v : value_of (set_attr s a v) a = v.
Proof. now destruct a. Qed.
Lemma set_attr_other s a v b : b <> a -> value_of (set_attr s a v) b = value_of s b.
Proof. destruct a, b; intros H; try reflexivity; now destruct H. Qed.
Lemma attr_dec (a b : attr) : {a = b} + {a <> b}.
Proof. decide equality. Qed.
Lemma change_effect s c s' : style_change s c = Ok s' <-> effect s c s'.
Proof.
  destruct c as [a|a| | |a v|n]; cbn [style_change effect].
  - unfold set_style_fg. split.
    + destruct (resolve_color a false) as [o|] eqn:E; cbn [bind]; [|discriminate]. destruct (resolve_some _ _ E) as [c ->]. intros [= <-].
      split; [now apply resolve_stands|]. split; [reflexivity|apply with_colors_values].
    + intros (A & B & V). apply resolve_stands in A. rewrite A. cbn [bind]. f_equal. symmetry. now apply with_colors_unique.
  - unfold set_style_bg. split.
    + destruct (resolve_color a false) as [o|] eqn:E; cbn [bind]; [|discriminate]. destruct (resolve_some _ _ E) as [c ->]. intros [= <-].
      split; [reflexivity|]. split; [now apply resolve_stands|apply with_colors_values].
    + intros (A & B & V). apply resolve_stands in B. rewrite B. cbn [bind]. f_equal. symmetry. now apply with_colors_unique.
  - split; [intros [= <-]; split; [reflexivity|split; [reflexivity|apply with_colors_values]]|].
    intros (A & B & V). f_equal. symmetry. now apply with_colors_unique.
  - assert (X : forall f, st_fg (autopick_fg s) = f -> st_fg s' = f -> st_bg s' = st_bg s -> same_values_but_colors s s' -> Ok (autopick_fg s) = Ok s').
    { intros f Hf A B [V C]. f_equal. unfold autopick_fg in *. destruct (hex_value (st_bg s)).
      - symmetry. apply with_colors_unique; [cbn [st_fg with_colors] in Hf; congruence|exact B|split; assumption].
      - apply style_ext; congruence. }
    assert (E : match hex_value (st_bg s) with None => st_fg (autopick_fg s) = st_fg s
      | Some h => st_fg (autopick_fg s) = ColorRGB (Some (if 45 * 255 <=? 100 * brightness h then 0x0a0a0a else 0xcccccc)%Z) end).
    { destruct (hex_value (st_bg s)) as [h|] eqn:H; [|now rewrite autopick_none].
      unfold autopick_fg. rewrite H. cbn [st_fg with_colors]. unfold hsv_value_255. rewrite channels_spec. fold (brightness h).
      destruct (Z.leb_spec 115 (brightness h)), (Z.leb_spec (45 * 255) (100 * brightness h)); try reflexivity; lia. }
    split.
    + intros [= <-]. split; [exact E|]. unfold autopick_fg. destruct (hex_value (st_bg s)); [split; [reflexivity|apply with_colors_values]|repeat split].
    + intros (A & B & V). destruct (hex_value (st_bg s)); eapply X; eassumption.
  - split.
    + intros [= <-]. split; [split; reflexivity|]. split; [apply set_attr_value|]. split; [apply set_attr_other|reflexivity].
    + intros ([F B] & A & V & C). f_equal. apply style_ext; [now symmetry|now symmetry| |now symmetry].
      intros b. destruct (attr_dec b a) as [->|NE]; [now rewrite set_attr_value|]. rewrite set_attr_other by exact NE. symmetry. now apply V.
  - split.
    + intros [= <-]. split; [split; reflexivity|]. split; [now intros []|reflexivity].
    + intros ([F B] & V & C). f_equal. apply style_ext; [now symmetry|now symmetry| |now symmetry]. intros b. rewrite V. now destruct b.
Qed.
Lemma step_style m o m' i s : mem_step m o = Ok m' -> nth_error (mem_styles m) i = Some s ->
  exists s', changed s (changes_of i o) s' /\ nth_error (mem_styles m') i = Some s'.
Proof.
  intros H N. pose proof (nth_error_lt _ _ _ N) as L.
  assert (K : mem_styles m' = mem_styles m -> changes_of i o = [] -> exists s', changed s (changes_of i o) s' /\ nth_error (mem_styles m') i = Some s').
  { intros -> ->. exists s. split; [reflexivity|exact N]. }
  assert (K2 : forall x, mem_styles m' = mem_styles m ++ [x] -> changes_of i o = [] -> exists s', changed s (changes_of i o) s' /\ nth_error (mem_styles m') i = Some s').
  { intros x -> ->. exists s. split; [reflexivity|]. rewrite nth_error_app1; [exact N|exact L]. }
  destruct o as [[j|] g|j c|a [|j|n]|t x|t u|t x|t u|t f]; cbn [mem_step] in H.
  - destruct (nth_error (mem_styles m) j); [|injection H as <-; now apply K]. destruct (style_init _) as [x|]; cbn [bind] in H; [|discriminate]. injection H as <-. now apply (K2 x).
  - destruct (style_init _) as [x|]; cbn [bind] in H; [|discriminate]. injection H as <-. now apply (K2 x).
  - cbn [changes_of] in *. destruct (Nat.eqb_spec j i) as [->|NE].
    + rewrite N in H. destruct (style_change s c) as [s1|] eqn:C; cbn [bind] in H; [|discriminate]. injection H as <-. exists s1. split; [exists s1; split; [apply change_effect; exact C|reflexivity]|].
      cbn [mem_styles]. now apply update_nth_same.
    + destruct (nth_error (mem_styles m) j); [|injection H as <-; now apply K]. destruct (style_change _ _) as [s1|]; cbn [bind] in H; [|discriminate]. injection H as <-.
      exists s. split; [reflexivity|]. cbn [mem_styles]. now rewrite update_nth_other.
  - injection H as <-. now apply K.
  - cbn [mem_text] in H. destruct (_ <? _); injection H as <-; now apply K.
  - cbn [mem_text] in H. destruct (style_init _) as [x|]; cbn [bind] in H; [|discriminate]. injection H as <-. now apply (K2 x).
  - injection H as <-. now apply K.
  - injection H as <-. now apply K.
  - injection H as <-. now apply K.
  - injection H as <-. now apply K.
  - destruct (mtext m t) as [|k [|]]; [injection H as <-; now apply K| |discriminate]. destruct (nth_error (mem_runs m) k); injection H as <-; now apply K.
Qed.
Lemma changed_app s a b s1 s2 : changed s a s1 -> changed s1 b s2 -> changed s (a ++ b) s2.
Proof.
  revert s. induction a as [|c a IH]; intros s; cbn [changed app]; [now intros ->|]. intros (x & E & H) K. exists x. split; [exact E|now apply IH].
Qed.
Theorem style_history m os m' i s : mem_steps m os = Ok m' -> nth_error (mem_styles m) i = Some s ->
  exists s', changed s (flat_map (changes_of i) os) s' /\ nth_error (mem_styles m') i = Some s'.
Proof.
  revert m s. induction os as [|o os IH]; intros m s; cbn [mem_steps flat_map]; [intros [= <-] N; exists s; split; [reflexivity|exact N]|].
  destruct (mem_step m o) as [m1|] eqn:E; cbn [bind]; [|discriminate]. intros H N. destruct (step_style m o m1 i s E N) as (s1 & C1 & N1).
  destruct (IH m1 s1 H N1) as (s2 & C2 & N2). exists s2. split; [eapply changed_app; eassumption|exact N2].
Qed.
Theorem child_history m j p g os m' : nth_error (mem_styles m) j = Some p -> mem_steps m (M_style (Some j) g :: os) = Ok m' ->
  exists s s', style_init (with_inherit g (Some p)) = Ok s /\ changed s (flat_map (changes_of (List.length (mem_styles m))) os) s' /\
  nth_error (mem_styles m') (List.length (mem_styles m)) = Some s'.
Proof.
  intros N. cbn [mem_steps mem_step]. rewrite N. destruct (style_init _) as [s|]; cbn [bind]; [|discriminate]. intros H.
  destruct (style_history _ _ _ (List.length (mem_styles m)) s H) as (s' & C & N'); [|exists s, s'; auto].
  cbn [mem_styles]. rewrite nth_error_app2 by lia. now rewrite Nat.sub_diag.
Qed.

(** ** rendering *)
Lemma frozen_runs m t : text_runs (frozen m) t = map (now_run m) (mtext_runs m t).
Proof.
  unfold text_runs, mtext_runs, runs_of, mtext, frozen. cbn [hp_runs hp_texts]. induction (nth t (mem_texts m) []) as [|i l IH]; [reflexivity|].
  cbn [flat_map]. rewrite map_app, <- IH. f_equal. rewrite nth_error_map. destruct (nth_error (mem_runs m) i); reflexivity.
Qed.
Lemma frozen_render e k st m t : mtext_render e k st m t = text_render e k st (frozen m) t.
Proof.
  unfold mtext_render, text_render. rewrite frozen_runs. generalize (mtext_runs m t). intros l. revert st.
  induction l as [|r l IH]; intros st; [reflexivity|]. cbn [mrender_runs render_runs map].
  assert (E : mrender_run e k st m r = render_run e k st (now_run m r)).
  { unfold mrender_run, render_run, now_run. cbn [run_style run_string]. destruct (mr_style r) as [i|]; [|reflexivity]. destruct (nth_error (mem_styles m) i); reflexivity. }
  rewrite E. destruct (render_run e k st (now_run m r)) as [[x|x] st1]; [|reflexivity]. now rewrite IH.
Qed.
Lemma mtext_runs_in m t r : In r (mtext_runs m t) -> In r (mem_runs m).
Proof.
  unfold mtext_runs. intros H. apply in_flat_map in H as (i & _ & H). destruct (nth_error (mem_runs m) i) eqn:E; [|destruct H]. destruct H as [<-|[]]. eapply nth_error_In, E.
Qed.
Lemma as_is_now m r : wf m -> In r (mem_runs m) -> as_is m r (now_run m r).
Proof.
  intros [W _] I. split; [reflexivity|]. unfold now_run. cbn [run_style]. destruct (mr_style r) as [i|] eqn:E; [|reflexivity]. split; [reflexivity|].
  rewrite Forall_forall in W. specialize (W r I). rewrite E in W. now apply nth_error_Some.
Qed.

(** whatever the program has done so far: [str(text)] shows the text with its styles as they are now *)
Theorem memory_shown os m h0 s p tty order st t : mem_steps mem0 os = Ok m -> setup_steps setup0 h0 = Ok s ->
  (latest sets_default h0 None \/ latest sets_default h0 (Some R_sgr)) ->
  (latest (sets_prefs R_sgr) h0 (Some p) \/ latest (sets_prefs R_sgr) h0 None /\ p = mkPrefs (Some false) false false) ->
  (pf_force p = Some true \/ pf_force p = Some false /\ tty = true) -> reached st ->
  exists rs, Forall2 (as_is m) (mtext_runs m t) rs /\
  (Forall run_standard rs -> Forall (fun c => c <> 27%N) (flat_map run_string rs) ->
   let d := if pf_16 p then Only16 else if pf_256 p then Only256 else Full in
   exists out st' ls, mem_render s tty order st m t = (Ok out, st') /\ reached st' /\ Forall2 (run_looks d) rs ls /\
     screen out = map to_cell (concat (map (fun ra => styled (snd ra) (run_string (fst ra))) (combine rs ls))) /\
     final_attrs out = attrs0 /\ visible out = flat_map run_string rs).
Proof.
  intros HM HS HD HP HF HR. exists (map (now_run m) (mtext_runs m t)). split.
  - pose proof (wf_steps _ _ _ wf0 HM) as W. assert (K : Forall (fun r => In r (mem_runs m)) (mtext_runs m t)) by (apply Forall_forall; apply mtext_runs_in).
    induction K as [|r l Hr K IH]; cbn [map]; constructor; auto. now apply as_is_now.
  - intros H1 H2 d. unfold mem_render. rewrite frozen_render.
    pose proof (session_shown h0 s p tty order st (frozen m) t HS HD HP HF HR) as K. unfold text_raw in K. rewrite frozen_runs in K. exact (K H1 H2).
Qed.

(** ** texts do not notice what has nothing to do with them *)
Lemma flat_map_nth_app {A} (l l' : list A) ids : Forall (fun i => i < List.length l) ids ->
  flat_map (fun i => match nth_error (l ++ l') i with Some r => [r] | None => [] end) ids = flat_map (fun i => match nth_error l i with Some r => [r] | None => [] end) ids.
Proof. induction 1 as [|i ids Hi H IH]; [reflexivity|]. cbn [flat_map]. rewrite IH, nth_error_app1 by exact Hi. reflexivity. Qed.
Lemma nth_update_other {A} (d : A) i j x l : i <> j -> nth j (update i x l) d = nth j l d.
Proof. revert i j. induction l as [|y l IH]; intros [|i] [|j] H; cbn [update nth]; auto; now destruct H. Qed.
Lemma apart_step m o m' t : wf m -> t < List.length (mem_texts m) -> mem_step m o = Ok m' -> apart m t o ->
  mtext_runs m' t = mtext_runs m t /\ (forall i, refers m t i -> nth_error (mem_styles m') i = nth_error (mem_styles m) i) /\ t < List.length (mem_texts m').
Proof.
  intros W L H A. pose proof (mtext_ok m t W) as T.
  assert (RS : forall i, refers m t i -> i < List.length (mem_styles m)).
  { intros i (r & I & E). apply mtext_runs_in in I. destruct W as [W _]. rewrite Forall_forall in W. specialize (W r I). now rewrite E in W. }
  assert (SA : forall x i, refers m t i -> nth_error (mem_styles m ++ x) i = nth_error (mem_styles m) i) by (intros x i R; apply nth_error_app1; auto).
  assert (TA : forall st' rs ts, mem_texts m' = mem_texts m ++ ts -> mem_runs m' = mem_runs m ++ rs -> mem_styles m' = mem_styles m ++ st' ->
     mtext_runs m' t = mtext_runs m t /\ (forall i, refers m t i -> nth_error (mem_styles m') i = nth_error (mem_styles m) i) /\ t < List.length (mem_texts m')).
  { intros st' rs ts E1 E2 E3. repeat split.
    - unfold mtext_runs, mtext. rewrite E1, E2, app_nth1 by exact L. apply flat_map_nth_app. exact T.
    - intros i R. rewrite E3. now apply SA.
    - rewrite E1, app_length. lia. }
  assert (TU : forall u l rs, u <> t -> mem_texts m' = update u l (mem_texts m) -> mem_runs m' = mem_runs m ++ rs -> mem_styles m' = mem_styles m ->
     mtext_runs m' t = mtext_runs m t /\ (forall i, refers m t i -> nth_error (mem_styles m') i = nth_error (mem_styles m) i) /\ t < List.length (mem_texts m')).
  { intros u l rs NE E1 E2 E3. repeat split.
    - unfold mtext_runs, mtext. rewrite E1, E2, nth_update_other by exact NE. apply flat_map_nth_app. exact T.
    - intros i _. now rewrite E3.
    - rewrite E1, update_len. exact L. }
  assert (TI : m' = m -> mtext_runs m' t = mtext_runs m t /\ (forall i, refers m t i -> nth_error (mem_styles m') i = nth_error (mem_styles m) i) /\ t < List.length (mem_texts m')) by (intros ->; auto).
  destruct o as [[j|] g|j c|a [|j|n]|u x|u v|u x|u v|u f]; cbn [mem_step apart] in H, A.
  - destruct (nth_error (mem_styles m) j); [|injection H as <-; now apply TI]. destruct (style_init _) as [x|]; cbn [bind] in H; [|discriminate]. injection H as <-. apply (TA [x] [] []); cbn; now rewrite ?app_nil_r.
  - destruct (style_init _) as [x|]; cbn [bind] in H; [|discriminate]. injection H as <-. apply (TA [x] [] []); cbn; now rewrite ?app_nil_r.
  - destruct (nth_error (mem_styles m) j); [|injection H as <-; now apply TI]. destruct (style_change _ _) as [x|]; cbn [bind] in H; [|discriminate]. injection H as <-.
    split; [reflexivity|]. split; [|exact L]. intros i R. cbn [mem_styles]. apply update_nth_other. intros ->. now apply A.
  - injection H as <-. eapply (TA [] _ _); cbn; [reflexivity|reflexivity|symmetry; apply app_nil_r].
  - cbn [mem_text] in H. destruct (_ <? _); injection H as <-; [|now apply TI]. eapply (TA [] _ _); cbn; [reflexivity|reflexivity|symmetry; apply app_nil_r].
  - cbn [mem_text] in H. destruct (style_init _) as [x|]; cbn [bind] in H; [|discriminate]. injection H as <-. eapply (TA [x] _ _); reflexivity.
  - injection H as <-. eapply (TU u); [exact A|reflexivity|reflexivity|reflexivity].
  - injection H as <-. eapply (TU u _ []); [exact A|reflexivity|cbn; now rewrite app_nil_r|reflexivity].
  - injection H as <-. eapply (TU u); [exact A|reflexivity|reflexivity|reflexivity].
  - injection H as <-. eapply (TU u _ []); [exact A|reflexivity|cbn; now rewrite app_nil_r|reflexivity].
  - destruct A.
Qed.
Lemma apart_ext m m' t o : mtext_runs m' t = mtext_runs m t -> apart m t o -> apart m' t o.
Proof. intros E. unfold apart, refers. now rewrite E. Qed.
Lemma apart_steps m os m' t : wf m -> t < List.length (mem_texts m) -> mem_steps m os = Ok m' -> Forall (apart m t) os ->
  mtext_runs m' t = mtext_runs m t /\ (forall i, refers m t i -> nth_error (mem_styles m') i = nth_error (mem_styles m) i).
Proof.
  revert m. induction os as [|o os IH]; intros m W L; cbn [mem_steps]; [intros [= <-]; auto|].
  destruct (mem_step m o) as [m1|] eqn:E; cbn [bind]; [|discriminate]. intros H A. inversion A as [|? ? A1 A2]; subst.
  destruct (apart_step m o m1 t W L E A1) as (R1 & S1 & L1). destruct (IH m1) as (R2 & S2); auto.
  - eapply wf_step; eassumption.
  - eapply Forall_impl; [|exact A2]. intros x. now apply apart_ext.
  - split; [congruence|]. intros i Hi. rewrite S2; [now apply S1|]. destruct Hi as (r & I & K). exists r. split; [now rewrite R1|exact K].
Qed.
Theorem untouched h m os m' t e k st : mem_steps mem0 h = Ok m -> t < List.length (mem_texts m) -> mem_steps m os = Ok m' -> Forall (apart m t) os ->
  mtext_render e k st m' t = mtext_render e k st m t.
Proof.
  intros H L H' A. pose proof (wf_steps _ _ _ wf0 H) as W. destruct (apart_steps m os m' t W L H' A) as [R S].
  rewrite !frozen_render. unfold text_render. rewrite !frozen_runs, R. f_equal. apply map_ext_in. intros r I. unfold now_run. f_equal.
  destruct (mr_style r) as [i|] eqn:E; [|reflexivity]. apply S. exists r. auto.
Qed.

(** ** copies *)
Lemma now_app m x l : Forall (fun r => match mr_style r with Some i => i < List.length (mem_styles m) | None => True end) l ->
  map (now_run (mkMem (mem_styles m ++ x) (mem_runs m) (mem_texts m))) l = map (now_run m) l.
Proof.
  intros H. apply map_ext_in. intros r I. rewrite Forall_forall in H. specialize (H r I). unfold now_run. cbn [mem_styles]. f_equal. destruct (mr_style r); [|reflexivity]. now apply nth_error_app1.
Qed.
Lemma map_update {A B} (f : A -> B) i x l : map f (update i x l) = update i (f x) (map f l).
Proof. revert i. induction l as [|y l IH]; intros [|i]; cbn [update map]; f_equal; auto. Qed.
Lemma now_ext m m' : mem_styles m = mem_styles m' -> forall r, now_run m r = now_run m' r.
Proof. intros E r. unfold now_run. now rewrite E. Qed.
Lemma new_run_plain s : new_run (A_str s) SA_none = Ok (mkRun s None).
Proof. unfold new_run. destruct s; reflexivity. Qed.
Theorem copies h m o o' : mem_steps mem0 h = Ok m -> text_action m o = Some o' ->
  match mem_step m o with Ok m' => text_step (frozen m) o' = Ok (frozen m') | Err e => text_step (frozen m) o' = Err e end.
Proof.
  intros H A. pose proof (wf_steps _ _ _ wf0 H) as [W _].
  assert (F : forall rs ts, frozen (mkMem (mem_styles m) rs ts) = mkHeap (map (now_run m) rs) ts) by reflexivity.
  destruct o as [[j|] g|j c|a [|j|n]|u x|u v|u x|u v|u f]; cbn [text_action] in A; try discriminate; try (injection A as <-).
  - cbn [mem_step mem_text text_step new_run bind frozen hp_runs hp_texts]. rewrite F, map_app, map_length. reflexivity.
  - destruct (nth_error (mem_styles m) j) as [s|] eqn:N; [|discriminate]. injection A as <-. pose proof (nth_error_lt _ _ _ N) as L.
    cbn [mem_step mem_text]. rewrite (proj2 (Nat.ltb_lt _ _) L). cbn [text_step new_run bind frozen hp_runs hp_texts]. rewrite F, map_app, map_length.
    cbn [map]. unfold now_run at 3. cbn [mr_style mr_string]. rewrite N. reflexivity.
  - cbn [mem_step mem_text text_step new_run with_inherit ag_fg ag_bg ag_blink ag_bold ag_crosslined ag_dim ag_double_underlined ag_inversed ag_italic ag_overlined ag_underlined ag_class_name].
    destruct (style_init _) as [s|]; cbn [bind]; [|reflexivity]. unfold frozen. cbn [hp_runs hp_texts mem_styles mem_runs mem_texts]. rewrite map_length, map_app. f_equal. f_equal. f_equal.
    + rewrite <- (now_app m [s] (mem_runs m) W). apply map_ext. intros r. apply now_ext. reflexivity.
    + cbn [map]. unfold now_run. cbn [mr_style mr_string mem_styles]. rewrite nth_error_app2 by lia. now rewrite Nat.sub_diag.
  - cbn [mem_step text_step]. rewrite new_run_plain. cbn [bind]. rewrite F, map_app. cbn [hp_runs hp_texts frozen]. rewrite map_length. reflexivity.
  - reflexivity.
  - cbn [mem_step text_step]. rewrite new_run_plain. cbn [bind]. rewrite F, map_app. cbn [hp_runs hp_texts frozen]. rewrite map_length. reflexivity.
  - reflexivity.
  - cbn [mem_step text_step]. change (runs_of (frozen m) u) with (mtext m u). destruct (mtext m u) as [|i [|]]; [reflexivity| |reflexivity].
    cbn [frozen hp_runs hp_texts]. rewrite nth_error_map. destruct (nth_error (mem_runs m) i) as [r|]; cbn [option_map]; [|reflexivity]. rewrite F, map_update. reflexivity.
Qed.

(** ** ready-made styles *)
Theorem ready_kept os m i n s : mem_steps mem0 os = Ok m -> nth_error STYLES i = Some (n, s) -> (forall c, ~ In (M_change (S i) c) os) ->
  nth_error (mem_styles m) (S i) = Some s.
Proof.
  intros H N K. assert (E : flat_map (changes_of (S i)) os = []).
  { clear H. induction os as [|o os IH]; [reflexivity|]. cbn [flat_map]. rewrite IH by (intros c I; apply (K c); now right). rewrite app_nil_r.
    destruct o as [? ?|j c|? ?|? ?|? ?|? ?|? ?|? ?]; try reflexivity. unfold changes_of. destruct (Nat.eqb_spec j (S i)) as [->|]; [|reflexivity]. exfalso. apply (K c). now left. }
  destruct (style_history mem0 os m (S i) s H) as (s' & C & N').
  - cbn [mem0 mem_styles nth_error]. rewrite nth_error_map, N. reflexivity.
  - rewrite E in C. cbn [changed] in C. now subst.
Qed.
Definition flipped : list mem_op := [M_change 7 CH_flip; M_text (A_str (txt "x")) (RA_style 7)].
Theorem ready_changed : exists i n s a os m out, nth_error STYLES i = Some (n, s) /\ In (n, a) PRESENTED /\ mem_steps mem0 os = Ok m /\
  map mr_style (mtext_runs m 0) = [Some (S i)] /\
  fst (mem_render setup0 true (fun x => x) st0 m 0) = Ok out /\ screen out <> map to_cell (styled a (txt "x")) /\ visible out = txt "x".
Proof.
  exists 6, "CRITICAL"%string, S_CRITICAL. eexists. exists flipped. eexists. eexists. split; [reflexivity|]. split; [unfold PRESENTED; cbn [In]; do 6 right; left; reflexivity|].
  split; [vm_compute; reflexivity|]. split; [vm_compute; reflexivity|]. split; [vm_compute; reflexivity|]. split; [vm_compute; discriminate|vm_compute; reflexivity].
Qed.
(** a style, one inheriting from it, a text in each; then the first one becomes blue *)
Definition bold_red : style_args := mkArgs None (CA_name (txt "red")) CA_none None (Some true) None None None None None None None None.
Definition italic : style_args := mkArgs None CA_none CA_none None None None None None None (Some true) None None None.
Definition family : list mem_op := [M_style None bold_red; M_style (Some 10) italic; M_text (A_str (txt "x")) (RA_style 10); M_text (A_str (txt "y")) (RA_style 11)].
Lemma family_case : exists m m', mem_steps mem0 family = Ok m /\ mem_steps m [M_change 10 (CH_fg (CA_name (txt "blue")))] = Ok m' /\
  refers m' 0 10 /\ apart m 1 (M_change 10 (CH_fg (CA_name (txt "blue")))) /\
  exists out out1 out2, fst (mem_render setup0 true (fun x => x) st0 m 0) = Ok out /\ fst (mem_render setup0 true (fun x => x) st0 m' 0) = Ok out1 /\
    fst (mem_render setup0 true (fun x => x) st0 m' 1) = Ok out2 /\
    screen out = [Glyph 120 (set_bold true (set_fg (ColIdx 1) attrs0))] /\ screen out1 = [Glyph 120 (set_bold true (set_fg (ColIdx 4) attrs0))] /\
    screen out2 = [Glyph 121 (set_italic true (set_bold true (set_fg (ColIdx 1) attrs0)))].
Proof.
  eexists. eexists. split; [vm_compute; reflexivity|]. split; [vm_compute; reflexivity|]. split; [eexists; split; [left; reflexivity|reflexivity]|].
  split. { cbn [apart]. intros (r & [<-|[]] & E). discriminate. }
  eexists. eexists. eexists. split; [vm_compute; reflexivity|]. split; [vm_compute; reflexivity|]. split; [vm_compute; reflexivity|].
  split; [vm_compute; reflexivity|]. split; vm_compute; reflexivity.
Qed.
