(** C37-C40: the program as a whole, settings and options *)
From Coq Require Import List Arith NArith ZArith Bool Lia.
From Verif.Model Require Import Base Ansi Settings Segment Template Parser Console Formatter Reader Runner Options.
From Verif.Spec Require Import Numbers Terminal Utf8 Lexical SgrParams Display Output Input Dump Invocation.
From Verif.Proof Require Import ReaderFacts RunMain RunClaims MoreClaims RunExtra.
Import ListNotations.
Local Open Scope N_scope.

(** ** C37 *)
Lemma run_outcome s tc src evs chunks p acts en : opens src -> shows_something s tc -> Processed s evs chunks -> byteio_run s tc src evs = (p, acts, en) ->
  let readable_all := Forall (fun c => forall ts, Lexes c ts -> Forall (fun t => readable (fst t)) ts) chunks in
  let stops := Stops (s_max_bytes s) (s_max_lines s) (concat (provided evs)) in
  (en = REnd /\ readable_all /\ (ending_of evs = At_failure -> stops)) \/
  (en = RError ValueError /\ ~ readable_all) \/
  (en = RError OSError /\ readable_all /\ ending_of evs = At_failure /\ ~ stops).
Proof.
  intros HS HM HP E. pose proof (processed_bytes _ _ _ HP) as HBc. cbv zeta. rewrite <- (readable_tokens chunks HBc). destruct HP as (H & d & HL & EC).
  assert (M : exists so_far all, Result so_far all evs (first_bytes (length d) (provided evs)) (Stops (s_max_bytes s) (s_max_lines s) (concat (provided evs))) p en).
  { assert (K : forall so_far all, (forall evs d, Forall is_bytes (provided evs) -> Limited (s_max_bytes s) (s_max_lines s) (concat (provided evs)) d ->
      exists p acts en, byteio_run s tc src evs = (p, acts, en) /\ Result so_far all evs (first_bytes (length d) (provided evs)) (Stops (s_max_bytes s) (s_max_lines s) (concat (provided evs))) p en) ->
      exists so_far all, Result so_far all evs (first_bytes (length d) (provided evs)) (Stops (s_max_bytes s) (s_max_lines s) (concat (provided evs))) p en).
    { intros so_far all R. destruct (R evs d H HL) as (p' & a' & e' & E' & RR). exists so_far, all. rewrite E in E'. now injection E' as <- <- <-. }
    destruct (binary_mode s) eqn:B.
    - specialize (HM B). destruct (Z.eq_dec (columns s tc) 0) as [E0|E0].
      + eapply K. exact (zero_run_result s tc src HS B E0).
      + eapply K. apply (binary_run_result s tc (Z.to_nat (columns s tc)) src HS B); lia.
    - eapply K. intros evs' d'. exact (text_run_result s tc src HS B evs' d'). }
  rewrite <- EC in M. destruct M as (so_far & all & [toks T _ C|cs c rest toks N G _ _|toks E1 NC T _|toks E1 NC T _]).
  - left. split; [reflexivity|]. split; [eauto|]. intros K. destruct C as [C|C]; [congruence|exact C].
  - right. left. split; [reflexivity|]. intros (ts & T). apply tokens_nonempty in T. rewrite N in T.
    assert (HB : Forall is_bytes (cs ++ c :: rest)) by (rewrite <- N; now apply nonempty_bytes).
    assert (GT : Forall good_chunk (cs ++ c :: rest)) by (apply good_tokens; eauto). apply Forall_app in GT as [_ GT]. now inversion GT.
  - left. split; [reflexivity|]. split; [eauto|]. congruence.
  - right. right. eauto.
Qed.

(** exit status, error and output of the whole program *)
Lemma app_outcome s s1 tc src evs chunks epilogue r : app_input_settings s = Some s1 -> opens src -> shows_something s1 tc -> Processed s1 evs chunks ->
  app_run s tc src evs epilogue = Some r ->
  let readable_all := Forall (fun c => forall ts, Lexes c ts -> Forall (fun t => readable (fst t)) ts) chunks in
  let stops := Stops (s_max_bytes s1) (s_max_lines s1) (concat (provided evs)) in
  (ap_code r = Some 0%Z /\ ap_err r = None /\ readable_all /\ (ending_of evs = At_failure -> stops)) \/
  (ap_code r = Some 1%Z /\ ap_err r = Some ValueError /\ ~ readable_all) \/
  (ap_code r = Some 1%Z /\ ap_err r = Some OSError /\ readable_all /\ ending_of evs = At_failure /\ ~ stops).
Proof.
  intros H1 HS HM HP. unfold app_run. rewrite H1. intros [= <-]. destruct (byteio_run s1 tc src evs) as [[p acts] en] eqn:E.
  pose proof (run_outcome s1 tc src evs chunks p acts en HS HM HP E) as O. cbv zeta in *. unfold app_finish.
  destruct O as [(-> & O)|[(-> & O)|(-> & O)]]; cbn [ap_code ap_err]; auto.
Qed.
Lemma app_output s s1 tc src evs epilogue r p acts en : app_input_settings s = Some s1 -> app_run s tc src evs epilogue = Some r -> byteio_run s1 tc src evs = (p, acts, en) ->
  exists w, ap_out r = pr_out p ++ w.
Proof.
  intros H1. unfold app_run. rewrite H1. intros [= <-] ->. unfold app_finish. destruct en; cbn [ap_out]; eauto. exists []. symmetry. apply app_nil_r.
Qed.
Lemma app_missing s s1 tc evs epilogue r : app_input_settings s = Some s1 -> app_run s tc SrcMissing evs epilogue = Some r -> ap_code r = Some 1%Z /\ ap_err r = Some OSError.
Proof.
  intros H1. unfold app_run. rewrite H1. intros [= <-]. rewrite run_read. cbn. auto.
Qed.

(** ** C38 *)
Lemma ask_expected qs : forall s, fst (ask qs s) = expected s (given_mode s) (s_default_read_mode s) qs.
Proof.
  induction qs as [|q qs IH]; intros s; [reflexivity|]. cbn [ask expected].
  assert (EX : forall a b c d, s_marker a = s_marker b -> s_ignore a = s_ignore b -> s_focus a = s_focus b -> expected a c d qs = expected b c d qs).
  { clear. induction qs as [|q qs IH]; intros a b c d H1 H2 H3; [reflexivity|]. cbn [expected]. rewrite H1, H2, H3. destruct q; f_equal; auto. }
  destruct q as [|m| |c]; cbn [ask1].
  - destruct (get_read_mode s) as [m s1] eqn:G. specialize (IH s1). destruct (ask qs s1) as [l s2]. cbn [fst] in *. rewrite IH. clear IH.
    unfold get_read_mode in G. unfold given_mode at 2. destruct (s_binary s) eqn:B; [|destruct (s_text s) eqn:T].
    + injection G as <- <-. unfold given_mode. now rewrite B.
    + injection G as <- <-. unfold given_mode. now rewrite B, T.
    + injection G as <- <-. unfold given_mode. rewrite B, T. cbn [s_binary s_text s_default_read_mode]. destruct (s_default_read_mode s); cbn [is_binary is_text]; f_equal; now apply EX.
  - specialize (IH (set_default_read_mode s m)). destruct (ask qs (set_default_read_mode s m)) as [l s2]. cbn [fst] in *. rewrite IH. f_equal. now apply EX.
  - specialize (IH s). destruct (ask qs s) as [l s2]. cbn [fst] in *. rewrite IH. f_equal. unfold effective_marker_details, given_mode, marker_level_of.
    destruct (s_binary s); [reflexivity|]. destruct (s_text s); reflexivity.
  - specialize (IH s). destruct (ask qs s) as [l s2]. cbn [fst] in *. now rewrite IH.
Qed.
Lemma mode_stable qs1 qs2 s m : In (A_mode m) (fst (ask qs1 s)) -> forall m', In (A_mode m') (fst (ask (qs1 ++ qs2) s)) -> m' = m.
Proof.
  rewrite !ask_expected. intros H m'.
  assert (K1 : forall qs chosen d, chosen = Some m -> In (A_mode m') (expected s chosen d qs) -> m' = m).
  { clear. induction qs as [|q qs IH]; intros chosen d E H; [destruct H|]. subst chosen. destruct q; cbn [expected] in H; destruct H as [H|H]; try discriminate; try (eapply IH; eauto; fail). now injection H. }
  assert (K2 : forall qs qs2 chosen d, In (A_mode m) (expected s chosen d qs) -> In (A_mode m') (expected s chosen d (qs ++ qs2)) -> m' = m).
  { clear H. induction qs as [|q qs IH]; intros qs' chosen d H H'; [destruct H|]. destruct q; cbn [expected app] in H, H'.
    - destruct H as [H|H].
      + injection H as H. rewrite H in H'. destruct H' as [H'|H']; [now injection H'|]. eapply (K1 _ (Some m)); eauto.
      + destruct chosen as [m0|]; cbn beta iota in *.
        * destruct H' as [H'|H']; [|eapply IH; eauto]. injection H' as <-.
          assert (X : forall qs d, In (A_mode m) (expected s (Some m0) d qs) -> m = m0).
          { clear. induction qs as [|q qs IH]; intros d H; [destruct H|]. destruct q; cbn [expected] in H; destruct H as [H|H]; try discriminate; eauto. now injection H. }
          symmetry. eapply X. exact H.
        * destruct H' as [H'|H']; [|eapply IH; eauto]. injection H' as <-.
          assert (X : forall m0 qs d, In (A_mode m) (expected s (Some m0) d qs) -> m = m0).
          { clear. intros m0. induction qs as [|q qs IH]; intros d H; [destruct H|]. destruct q; cbn [expected] in H; destruct H as [H|H]; try discriminate; eauto. now injection H. }
          symmetry. eapply X. exact H.
    - destruct H as [H|H]; [discriminate|]. destruct H' as [H'|H']; [discriminate|]. eauto.
    - destruct H as [H|H]; [discriminate|]. destruct H' as [H'|H']; [discriminate|]. eauto.
    - destruct H as [H|H]; [discriminate|]. destruct H' as [H'|H']; [discriminate|]. eauto. }
  now apply K2.
Qed.

(** ** C40 *)
Lemma class_eqb_spec a b : char_class_eqb a b = true <-> a = b.
Proof. destruct a, b; cbn; split; congruence. Qed.
Lemma conflict_spec a b : conflict a b = true <-> Excludes a b \/ Excludes b a.
Proof.
  split.
  - destruct a; try discriminate; destruct b; try discriminate; intros H; try (left; now constructor); try (right; now constructor).
    + apply class_eqb_spec in H as ->. left. constructor.
    + apply class_eqb_spec in H as ->. right. constructor.
  - intros [H|H]; inversion H; subst; try reflexivity; now apply class_eqb_spec.
Qed.
Fixpoint apply_all (s : settings) (l : list opt) : settings := match l with [] => s | o :: r => apply_all (apply_opt s o) r end.
Definition clashes (a b : opt) : Prop := Excludes a b \/ Excludes b a \/ (is_file a = true /\ is_file b = true).
Lemma excludes_irrefl a : ~ Excludes a a.
Proof. intros H. inversion H. Qed.
Lemma parse_opts_spec l : forall seen s,
  (parse_opts seen s l = None /\ exists l1 o l2 a, l = l1 ++ o :: l2 /\ (In a seen \/ In a l1) /\ clashes o a) \/
  (parse_opts seen s l = Some (apply_all s l) /\ forall l1 o l2 a, l = l1 ++ o :: l2 -> (In a seen \/ In a l1) -> ~ clashes o a).
Proof.
  induction l as [|o l IH]; intros seen s.
  - right. split; [reflexivity|]. intros [|] ? ? ?; discriminate.
  - cbn [parse_opts apply_all]. destruct (existsb (conflict o) seen) eqn:C.
    { left. split; [reflexivity|]. apply existsb_exists in C as (a & Ha & C). exists [], o, l, a. split; [reflexivity|]. split; [now left|].
      apply conflict_spec in C as [C|C]; [left|right; left]; exact C. }
    destruct (is_file o && existsb is_file seen)%bool eqn:F.
    { left. split; [reflexivity|]. apply andb_true_iff in F as [F1 F2]. apply existsb_exists in F2 as (a & Ha & F2). exists [], o, l, a. split; [reflexivity|]. split; [now left|].
      right. right. auto. }
    assert (N : forall a, In a seen -> ~ clashes o a).
    { intros a Ha [K|[K|[K1 K2]]].
      - assert (existsb (conflict o) seen = true) by (apply existsb_exists; exists a; split; [exact Ha|apply conflict_spec; auto]). congruence.
      - assert (existsb (conflict o) seen = true) by (apply existsb_exists; exists a; split; [exact Ha|apply conflict_spec; auto]). congruence.
      - rewrite K1 in F. assert (existsb is_file seen = true) by (apply existsb_exists; eauto). rewrite H in F. discriminate. }
    destruct (IH (o :: seen) (apply_opt s o)) as [(E & l1 & x & l2 & a & -> & Ha & K)|(E & K)].
    + left. split; [exact E|]. exists (o :: l1), x, l2, a. split; [reflexivity|]. split; [|exact K]. destruct Ha as [[Ha|Ha]|Ha]; cbn [In]; auto.
    + right. split; [exact E|]. intros l1 x l2 a EL Ha. destruct l1 as [|y l1].
      * injection EL as <- <-. destruct Ha as [Ha|[]]. now apply N.
      * injection EL as <- ->. eapply K; [reflexivity|]. destruct Ha as [Ha|[->|Ha]]; cbn [In]; auto.
Qed.
Lemma is_file_form o : is_file o = true -> exists f, o = O_file f.
Proof. destruct o; try discriminate. eauto. Qed.
Lemma clashes_rejected l1 o l2 a : In a l1 -> clashes o a -> Rejected (l1 ++ o :: l2).
Proof.
  intros Ha K. assert (I1 : In a (l1 ++ o :: l2)) by (apply in_or_app; auto). assert (I2 : In o (l1 ++ o :: l2)) by (apply in_or_app; right; now left).
  destruct K as [K|[K|[K1 K2]]]; [now apply (Rej_excl _ o a)|now apply (Rej_excl _ a o)|].
  apply is_file_form in K1 as [g ->]. apply is_file_form in K2 as [f ->]. apply in_split in Ha as (x & y & ->).
  apply (Rej_files _ x f y g l2). now rewrite <- app_assoc.
Qed.
Lemma parse_args_none opts : parse_args opts = None <-> Rejected opts.
Proof.
  unfold parse_args. destruct (parse_opts_spec opts [] default_settings) as [(E & l1 & o & l2 & a & -> & Ha & K)|(E & K)]; rewrite E.
  - split; [intros _|reflexivity]. destruct Ha as [[]|Ha]. eapply clashes_rejected; eauto.
  - split; [discriminate|]. intros R. exfalso. destruct R as [a b Ha Hb X|l f m g r ->].
    + apply in_split in Hb as (l1 & l2 & ->). apply in_app_or in Ha as [Ha|[Ha|Ha]].
      * apply (K l1 b l2 a); auto. right. now left.
      * subst a. now apply excludes_irrefl in X.
      * apply in_split in Ha as (m1 & m2 & ->). apply (K (l1 ++ b :: m1) a m2 b); [now rewrite <- app_assoc|right; apply in_or_app; right; now left|now left].
    + apply (K (l ++ O_file f :: m) (O_file g) r (O_file f)); [now rewrite <- app_assoc|right; apply in_or_app; right; now left|]. right. right. auto.
Qed.
Lemma parse_args_some opts s : parse_args opts = Some s -> s = apply_all default_settings opts.
Proof. unfold parse_args. destruct (parse_opts_spec opts [] default_settings) as [(E & _)|(E & _)]; rewrite E; [discriminate|]. now intros [= <-]. Qed.

Lemma flag_of (f : settings -> bool) (P : opt -> bool) : (forall s o, f (apply_opt s o) = (P o || f s)%bool) -> forall l s, f (apply_all s l) = (existsb P l || f s)%bool.
Proof.
  intros H. induction l as [|o l IH]; intros s; [reflexivity|]. cbn [apply_all existsb]. rewrite IH, H. destruct (P o), (existsb P l); reflexivity.
Qed.
Lemma value_of {A} (f : settings -> option A) (g : opt -> option A) : (forall s o, f (apply_opt s o) = match g o with Some v => Some v | None => f s end) ->
  forall l s, f (apply_all s l) = last_value g l (f s).
Proof. intros H. induction l as [|o l IH]; intros s; [reflexivity|]. cbn [apply_all last_value]. now rewrite IH, H. Qed.
Lemma flag_in (f : settings -> bool) (P : opt -> bool) x : (forall s o, f (apply_opt s o) = (P o || f s)%bool) -> (forall o, P o = true <-> o = x) -> f default_settings = false ->
  forall l, f (apply_all default_settings l) = true <-> In x l.
Proof.
  intros H1 H2 H3 l. rewrite (flag_of f P H1), H3, orb_false_r. rewrite existsb_exists. split.
  - intros (o & Ho & K). apply H2 in K. now subst.
  - intros K. exists x. split; [exact K|now apply H2].
Qed.
Lemma debug_count_spec l : forall s, s_debug (apply_all s l) = (s_debug s + debug_count l)%nat.
Proof.
  induction l as [|o l IH]; intros s; [cbn; lia|]. cbn [apply_all]. rewrite IH. unfold debug_count. cbn [filter]. destruct s, o; cbn; lia.
Qed.
Lemma default_mode_kept l : forall s, s_default_read_mode (apply_all s l) = s_default_read_mode s.
Proof. induction l as [|o l IH]; intros s; [reflexivity|]. cbn [apply_all]. rewrite IH. now destruct s, o. Qed.

Ltac flag := match goal with |- ?f _ = true <-> In ?x _ =>
  match f with _ => apply (flag_in f (fun o => match o, x with
    | O_text, O_text | O_binary, O_binary | O_legend, O_legend | O_version, O_version | O_demo, O_demo | O_color_markers, O_color_markers
    | O_no_separators, O_no_separators | O_no_line_numbers, O_no_line_numbers | O_decimal_offsets, O_decimal_offsets | O_no_offsets, O_no_offsets => true | _, _ => false end));
    [intros [] []; reflexivity|intros []; split; (discriminate || reflexivity)|reflexivity] end end.

Lemma options_flags opts s : parse_args opts = Some s ->
  (s_text s = true <-> In O_text opts) /\ (s_binary s = true <-> In O_binary opts) /\ (s_legend s = true <-> In O_legend opts) /\
  (s_version s = true <-> In O_version opts) /\ (s_demo s = true <-> In O_demo opts) /\ (s_color_markers s = true <-> In O_color_markers opts) /\
  (s_no_separators s = true <-> In O_no_separators opts) /\ (s_no_line_numbers s = true <-> In O_no_line_numbers opts) /\
  (s_decimal_offsets s = true <-> In O_decimal_offsets opts) /\ (s_no_offsets s = true <-> In O_no_offsets opts) /\
  (forall c, s_focus s c = true <-> In (O_focus c) opts) /\ (forall c, s_ignore s c = true <-> In (O_ignore c) opts).
Proof.
  intros H. apply parse_args_some in H as ->. repeat (split; [flag|]). split; intros c.
  - apply (flag_in (fun s => s_focus s c) (fun o => match o with O_focus d => char_class_eqb c d | _ => false end) (O_focus c)).
    + intros [] o. destruct o; reflexivity.
    + intros o. destruct o; split; try discriminate; intros K; [apply class_eqb_spec in K; now subst|injection K as ->; now apply class_eqb_spec].
    + reflexivity.
  - apply (flag_in (fun s => s_ignore s c) (fun o => match o with O_ignore d => char_class_eqb c d | _ => false end) (O_ignore c)).
    + intros [] o. destruct o; reflexivity.
    + intros o. destruct o; split; try discriminate; intros K; [apply class_eqb_spec in K; now subst|injection K as ->; now apply class_eqb_spec].
    + reflexivity.
Qed.
Lemma options_values opts s : parse_args opts = Some s ->
  s_columns s = last_value columns_of opts None /\ s_buffer s = last_value buffer_of opts None /\
  s_max_bytes s = last_value max_bytes_of opts None /\ s_max_lines s = last_value max_lines_of opts None /\
  s_filename s = last_value file_of opts None /\ Some (s_marker s) = last_value marker_of opts (Some 0%Z) /\
  s_decode s = last_value (fun o => match o with O_decode => Some true | _ => None end) opts None /\
  s_debug s = debug_count opts /\ s_default_read_mode s = RM_text.
Proof.
  intros H. apply parse_args_some in H as ->. repeat split.
  - apply (value_of s_columns columns_of). intros [] []; reflexivity.
  - apply (value_of s_buffer buffer_of). intros [] []; reflexivity.
  - apply (value_of s_max_bytes max_bytes_of). intros [] []; reflexivity.
  - apply (value_of s_max_lines max_lines_of). intros [] []; reflexivity.
  - apply (value_of s_filename file_of). intros [] []; reflexivity.
  - apply (value_of (fun s => Some (s_marker s)) marker_of). intros [] []; reflexivity.
  - apply (value_of s_decode). intros [] []; reflexivity.
  - rewrite debug_count_spec. reflexivity.
  - rewrite default_mode_kept. reflexivity.
Qed.

(** ** C39 *)
Lemma after_flags s : s_legend (after_parse_args s) = s_legend s /\ s_version (after_parse_args s) = s_version s /\ s_demo (after_parse_args s) = s_demo s.
Proof. unfold after_parse_args, get_read_mode. destruct (4 <=? s_debug s)%nat; [|auto]. destruct (s_binary s); [auto|]. destruct (s_text s); auto. Qed.
Lemma runner_choice opts s : parse_args opts = Some s ->
  (In O_legend opts -> create_runner (after_parse_args s) = LegendRunner) /\
  (~ In O_legend opts -> In O_version opts -> create_runner (after_parse_args s) = VersionRunner) /\
  (~ In O_legend opts -> ~ In O_version opts -> In O_demo opts -> create_runner (after_parse_args s) = DemoRunner) /\
  (~ In O_legend opts -> ~ In O_version opts -> ~ In O_demo opts -> create_runner (after_parse_args s) = ByteIoRunner).
Proof.
  intros H. destruct (options_flags opts s H) as (_ & _ & L & V & D & _). destruct (after_flags s) as (F1 & F2 & F3).
  unfold create_runner. rewrite F1, F2, F3, <- L, <- V, <- D. clear. destruct (s_legend s), (s_version s), (s_demo s); repeat split; intros; try reflexivity; congruence.
Qed.
Lemma demo_run opts s : parse_args opts = Some s -> In O_demo opts -> ~ In O_legend opts -> ~ In O_version opts -> (debug_count opts < 4)%nat ->
  exists s1, app_input_settings s = Some s1 /\ s_filename s1 = Some DEMO_FILENAME /\ (binary_mode s1 = false <-> In O_text opts) /\
    s_columns s1 = last_value columns_of opts (Some 16%Z) /\ te_decode (update_settings s1) = true.
Proof.
  intros H HD HL HV HN. destruct (runner_choice opts s H) as (_ & _ & R & _). specialize (R HL HV HD).
  unfold app_input_settings. cbv zeta. rewrite R. destruct (options_values opts s H) as (C & _ & _ & _ & _ & _ & DC & DB & DM). destruct (options_flags opts s H) as (T & B & _).
  assert (E : after_parse_args s = s). { unfold after_parse_args. rewrite DB. destruct (Nat.leb_spec 4 (debug_count opts)); [lia|reflexivity]. }
  rewrite E. exists (demo_settings s). split; [reflexivity|]. split; [reflexivity|]. split.
  - unfold binary_mode, demo_settings. cbn [s_binary s_text s_default_read_mode]. rewrite <- T.
    assert (X : ~ (s_binary s = true /\ s_text s = true)).
    { rewrite B, T. intros [X1 X2]. assert (parse_args opts = None) by (apply parse_args_none; apply (Rej_excl _ O_text O_binary); auto; constructor). congruence. }
    destruct (s_binary s), (s_text s); cbn; split; try congruence; exfalso; auto.
  - split.
    + cbn [demo_settings s_columns]. rewrite C. assert (G : forall l (d e : option Z), d <> None \/ d = None -> match last_value columns_of l d with None => e | c => c end = last_value columns_of l (match d with None => e | c => c end)).
      { induction l as [|o l IH]; intros d e K; [now destruct d|]. cbn [last_value]. rewrite IH; [|destruct (columns_of o), d; auto; left; discriminate]. destruct (columns_of o); [reflexivity|now destruct d]. }
      rewrite G by now right. reflexivity.
    + assert (K : s_decode s = None \/ s_decode s = Some true).
      { rewrite DC. assert (G : forall l d, d = None \/ d = Some true -> last_value (fun o => match o with O_decode => Some true | _ => None end) l d = None \/ last_value (fun o => match o with O_decode => Some true | _ => None end) l d = Some true).
        { induction l as [|o l IH]; intros d K; [exact K|]. cbn [last_value]. apply IH. destruct o; auto. }
        apply G. now left. }
      unfold update_settings, get_read_mode, demo_settings. cbn [s_binary s_text s_default_read_mode]. destruct (s_binary s); [|destruct (s_text s)]; cbn; destruct K as [->| ->]; reflexivity.
Qed.
Lemma demo_text_witness : exists opts s s1, parse_args opts = Some s /\ In O_demo opts /\ ~ In O_text opts /\ app_input_settings s = Some s1 /\ binary_mode s1 = false.
Proof.
  exists [O_demo; O_debug; O_debug; O_debug; O_debug]. do 2 eexists. split; [reflexivity|]. split; [now left|]. split; [intros K; cbn in K; repeat (destruct K as [K|K]; [discriminate|]); exact K|].
  split; reflexivity.
Qed.
