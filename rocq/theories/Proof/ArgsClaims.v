(** The command lines understood *)
From Coq Require Import Ascii String.
From Coq Require Import List Arith NArith ZArith Bool Lia.
From Verif.Model Require Import Base Settings Runner Options Render Process Args.
From Verif.Spec Require Import Invocation CommandLine.
From Verif.Proof Require Import BaseFacts ArgsInt ArgsFacts.
Import ListNotations.
Local Open Scope N_scope.

Inductive Seen (s : str) : item -> Prop :=
| See_arg : Operand s -> Seen s (I_arg s)
| See_long p m e n : s = 45 :: 45 :: p ++ tail_of e -> LongFor p m -> Seen s (I_opt (act_of m) (45 :: 45 :: n) (option_map (fun v => (true, v)) e))
| See_short c m r : s = 45 :: c :: r -> Short c m -> Seen s (I_opt (act_of m) [45; c] (explicit_of r))
| See_unknown : Seen s I_unknown.
Lemma matches_two p x y l : matches p = x :: y :: l -> forall m, ~ Long p m.
Proof.
  intros M m L. destruct (matches_long _ _ (exact_long _ _ L)) as [n E]. rewrite E in M. discriminate.
Qed.
Lemma optional_cases s : Optional s -> (exists p e n m, s = 45 :: 45 :: p ++ tail_of e /\ Long n m /\ begins p n) \/ (exists c m r, s = 45 :: c :: r /\ Short c m).
Proof.
  intros [p n m H B|p n m v H B|c m r H]; [left; exists p, None, n, m; cbn; rewrite app_nil_r; auto|left; exists p, (Some v), n, m; auto|right; eauto].
Qed.
Lemma parse_seen s i : s <> [45; 45] -> parse_optional s = Some i -> Seen s i.
Proof.
  intros ND. destruct s as [|c s]; [intros [= <-]; constructor; constructor|].
  destruct (N.eq_dec c 45) as [->|N].
  2:{ intros H. rewrite (parse_operand (c :: s)) in H by now constructor. injection H as <-. constructor. now constructor. }
  destruct s as [|c s]; [intros [= <-]; apply See_arg; apply Op_dash|].
  assert (NO : ~ Optional (45 :: c :: s) -> parse_optional (45 :: c :: s) = Some i -> Seen (45 :: c :: s) i).
  { intros O. rewrite parse_not_optional by exact O. destruct (negative_number _) eqn:NN; [intros [= <-]; constructor; apply Op_negative; now apply negative_iff|].
    destruct (existsb _ _) eqn:E; [|intros [= <-]; constructor]. intros [= <-]. constructor. apply Op_blank; [|exact O]. apply existsb_32 in E. destruct E as [E|E]; [discriminate|exact E]. }
  destruct (N.eq_dec c 45) as [->|N].
  - destruct (partition_spec s) as [E NE]. destruct (partition_eq s) as [p e] eqn:P. cbn [fst snd] in *. subst s.
    destruct (matches p) as [|[n a] [|y l]] eqn:M.
    + apply NO. intros O. apply optional_cases in O as [(q & e' & n & m & Q & K1 & K2)|(x & m & r & Q & K)]; [|injection Q as <- _; now apply short_char in K].
      assert (NQ : ~ In 61 q) by (eapply begins_no_eq; eassumption). injection Q as Q. apply (f_equal partition_eq) in Q. rewrite !partition_app in Q by assumption. injection Q as <- <-.
      assert (J : In (45 :: 45 :: n, act_of m) (matches p)) by (apply matches_in; eauto 8). rewrite M in J. destruct J.
    + destruct (matches_one _ _ _ M) as (nm & m & -> & -> & L). destruct (parse_long p m e L) as [k K]. rewrite K. intros [= <-]. now econstructor.
    + intros H. exfalso. rewrite parse_unfold, partition_two in H by discriminate. rewrite (partition_app p e NE) in H. cbn [fst snd] in H.
      assert (F : find_option (45 :: 45 :: p ++ tail_of e) = None).
      { destruct (find_option _) as [b|] eqn:F; [|reflexivity]. exfalso. destruct e as [v|]; [cbn [tail_of] in F; now rewrite find_long_eq in F|]. cbn [tail_of] in F. rewrite app_nil_r in F. apply find_long in F. eapply matches_two; eassumption. }
      assert (F2 : find_option (45 :: 45 :: p) = None).
      { destruct (find_option (45 :: 45 :: p)) as [b|] eqn:F2; [|reflexivity]. apply find_long in F2. exfalso. eapply matches_two; eassumption. }
      rewrite F, F2, tuples_long, (partition_app p e NE) in H. cbn [fst snd] in H. rewrite M in H. cbn [map] in H. destruct e; discriminate.
  - destruct (find_option [45; c]) as [a|] eqn:F.
    + apply find_short_inv in F; [|exact N]. rewrite (parse_short _ _ s F). intros [= <-]. now econstructor.
    + apply NO. intros O. apply optional_cases in O as [(q & e' & n & m & Q & K1 & K2)|(x & m & r & Q & K)]; [injection Q; intros; congruence|]. injection Q as <- <-. rewrite (find_short _ _ K) in F. discriminate.
Qed.
Lemma operand_not_dashes v : Operand v -> v <> [45; 45].
Proof.
  intros H E. destruct H as [|c r N| |v L|r I O]; try discriminate.
  - injection E; intros; congruence.
  - subst. apply negative_iff in L. vm_compute in L. discriminate.
  - injection E as ->. destruct I as [I|[]]. discriminate.
Qed.
Lemma longfor_nonempty p m : LongFor p m -> p <> [].
Proof.
  intros (n & L & B & U) ->. assert (E : forall s m', Long (txt s) m' -> txt s = n) by (intros s m' H; apply (U _ m' H); now exists (txt s)).
  assert (E1 : txt "text" = n) by (apply (E "text"%string (Flag O_text)); exists (Some "t"%char), "text"%string; split; [right; now left|reflexivity]).
  assert (E2 : txt "demo" = n) by (apply (E "demo"%string (Flag O_demo)); exists (Some "M"%char), "demo"%string; split; [now left|reflexivity]).
  rewrite <- E1 in E2. discriminate.
Qed.

(** * Bundles *)
Definition group (c : N) (m : meaning) (r : str) : option (list arg_event * option (Z -> opt)) :=
  match explicit_of r with
  | None => match m with Flag o => Some ([V_opt o], None) | Number f => Some ([], Some f) | Help => Some ([V_help], None) end
  | Some (sep, e) => bundle (act_of m) [45; c] sep e
  end.
Lemma events_group used c m r rest : events used (I_opt (act_of m) [45; c] (explicit_of r) :: rest) =
  match group c m r with
  | None => [V_fail]
  | Some (l, None) => l ++ events used rest
  | Some (l, Some f) => match rest with I_arg v :: r' => l ++ take_int f v :: events used r' | _ => [V_fail] end
  end.
Proof.
  unfold group. destruct (explicit_of r) as [[sep e]|]; [destruct m; reflexivity|]. destruct m as [o|f|]; try reflexivity.
Qed.
Lemma group_step c x r here m : c <> 45 -> m = Flag here -> group c m (x :: r) =
  if (x =? 61) || (x =? 45) then None
  else match find_option [45; x] with
       | None => Some ([V_opt here; V_extra], None)
       | Some a => match group x (mean a) r with Some (l, f) => Some (V_opt here :: l, f) | None => None end
       end.
Proof.
  intros Hc ->. unfold group at 1. destruct (N.eqb_spec x 61) as [->|N1].
  - cbn [orb explicit_of act_of bundle]. assert (eqb_list (firstn 1 (skipn 1 [45; c])) [45] = false) by (cbn; apply N.eqb_neq in Hc; now rewrite Hc).
    destruct r; [reflexivity|].
    cbn [bundle]. now rewrite H.
  - rewrite explicit_other by assumption. cbn [act_of bundle orb]. assert (H : eqb_list (firstn 1 (skipn 1 [45; c])) [45] = false) by (cbn; apply N.eqb_neq in Hc; now rewrite Hc). rewrite H.
    destruct (x =? 45); [reflexivity|]. destruct (find_option [45; x]) as [a|]; [|reflexivity].
    destruct r as [|y r]; [destruct a; reflexivity|]. unfold group. destruct (N.eq_dec y 61) as [->|N2].
    + cbn [explicit_of]. rewrite act_mean. reflexivity.
    + rewrite explicit_other by assumption. rewrite act_mean. destruct y as [|p]; [reflexivity|]. do 6 (try (destruct p as [p|p|]; try reflexivity)). now destruct N2.
Qed.

Lemma group_number c f v : v <> [] -> (exists x r, v = x :: r /\ x <> 61) -> group c (Number f) v = Some ([take_int f v], None).
Proof. intros _ (x & r & -> & N). unfold group. now rewrite explicit_other. Qed.
Lemma take_int_iff f v o : take_int f v = V_opt o <-> exists n, Numeral v n /\ o = f n.
Proof.
  unfold take_int. destruct (int_of v) as [n|] eqn:E.
  - apply int_of_iff in E. split; [intros [= <-]; eauto|]. intros (n' & H & ->). apply int_of_iff in E. apply int_of_iff in H. congruence.
  - split; [discriminate|]. intros (n & H & _). apply int_of_iff in H. congruence.
Qed.
Lemma short_flags_group cs os : Flags cs os -> forall c o, Short c (Flag o) -> group c (Flag o) cs = Some (map V_opt (o :: os), None).
Proof.
  induction 1 as [|x o' cs os S1 F IH]; intros c o S0; [reflexivity|]. destruct (short_char _ _ S0) as [N1 _]. destruct (short_char _ _ S1) as [N2 N3].
  rewrite (group_step c x cs o) by auto. apply N.eqb_neq in N2, N3. rewrite N2, N3. cbn [orb]. rewrite (find_short _ _ S1), mean_act, (IH x o' S1). reflexivity.
Qed.
(** a group of flags [cs], then an option with a value, then [t] *)
Definition closing (c : N) (f : Z -> opt) (t : str) : option (list arg_event * option (Z -> opt)) :=
  match explicit_of t with None => Some ([], Some f) | Some (_, v) => Some ([take_int f v], None) end.
Lemma group_closing c f t : group c (Number f) t = closing c f t.
Proof. unfold group, closing. destruct (explicit_of t) as [[sep e]|]; [destruct e; reflexivity|reflexivity]. Qed.
Definition prepend (os : list opt) (x : option (list arg_event * option (Z -> opt))) := match x with Some (l, m) => Some (map V_opt os ++ l, m) | None => None end.
Lemma short_closing_group cs os : Flags cs os -> forall c o x f t, Short c (Flag o) -> Short x (Number f) -> group c (Flag o) (cs ++ x :: t) = prepend (o :: os) (closing x f t).
Proof.
  induction 1 as [|y o' cs os S1 F IH]; intros c o x f t S0 SX.
  - destruct (short_char _ _ S0) as [N1 _]. destruct (short_char _ _ SX) as [N2 N3]. cbn [app]. rewrite (group_step c x t o) by auto. apply N.eqb_neq in N2, N3. rewrite N2, N3. cbn [orb].
    rewrite (find_short _ _ SX), mean_act, group_closing. unfold prepend. destruct (closing x f t) as [[l m]|]; reflexivity.
  - destruct (short_char _ _ S0) as [N1 _]. destruct (short_char _ _ S1) as [N2 N3]. cbn [app]. rewrite (group_step c y (cs ++ x :: t) o) by auto. apply N.eqb_neq in N2, N3. rewrite N2, N3. cbn [orb].
    rewrite (find_short _ _ S1), mean_act, (IH y o' x f t S1 SX). unfold prepend. destruct (closing x f t) as [[l m]|]; reflexivity.
Qed.
(** everything that gives options only *)
Lemma group_sound r : forall c m l miss os, Short c m -> group c m r = Some (l, miss) -> l = map V_opt os ->
  match miss with
  | Some f => exists cs x, c :: r = cs ++ [x] /\ Flags cs os /\ Short x (Number f)
  | None => Flags (c :: r) os \/
            exists cs os' x f v n, (c :: r = cs ++ x :: v \/ c :: r = cs ++ x :: 61 :: v) /\ Flags cs os' /\ Short x (Number f) /\ Numeral v n /\ os = os' ++ [f n]
  end.
Proof.
  induction r as [|y r IH]; intros c m l miss os S0 G L.
  - destruct m as [o|f|]; cbn in G; injection G as <- <-.
    + destruct os as [|o' [|? ?]]; try discriminate. injection L as <-. left. repeat constructor. exact S0.
    + destruct os; [|discriminate]. exists [], c. split; [reflexivity|]. split; [constructor|exact S0].
    + destruct os; discriminate.
  - destruct m as [o|f|].
    + destruct (short_char _ _ S0) as [N1 _]. rewrite (group_step c y r o) in G by auto. destruct (y =? 61) eqn:Y1; [discriminate|]. destruct (y =? 45) eqn:Y2; [discriminate|]. cbn [orb] in G. apply N.eqb_neq in Y2.
      destruct (find_option [45; y]) as [a|] eqn:F.
      2:{ injection G as <- <-. destruct os as [|? [|? ?]]; discriminate. }
      apply find_short_inv in F; [|exact Y2]. destruct (group y (mean a) r) as [[l' miss']|] eqn:G'; [|discriminate]. injection G as <- <-.
      destruct os as [|o' os]; [discriminate|]. injection L as <- L. specialize (IH _ _ _ _ _ F G' L). destruct miss' as [f|].
      * destruct IH as (cs & x & E & FL & SX). exists (c :: cs), x. split; [cbn; now rewrite E|]. split; [now constructor|exact SX].
      * destruct IH as [IH|(cs & os' & x & f & v & n & E & FL & SX & NV & ->)]; [left; now constructor|]. right. exists (c :: cs), (o :: os'), x, f, v, n.
        split; [destruct E as [E|E]; [left|right]; cbn; now rewrite E|]. split; [now constructor|]. auto.
    + rewrite group_closing in G. unfold closing in G. destruct (N.eq_dec y 61) as [->|N].
      * cbn [explicit_of] in G. injection G as <- <-. destruct os as [|o [|? ?]]; try discriminate. injection L as L. apply take_int_iff in L as (n & NV & ->). right. exists [], [], c, f, r, n. split; [now right|]. split; [constructor|]. auto.
      * rewrite explicit_other in G by assumption. injection G as <- <-. destruct os as [|o [|? ?]]; try discriminate. injection L as L. apply take_int_iff in L as (n & NV & ->). right. exists [], [], c, f, (y :: r), n. split; [now left|]. split; [constructor|]. auto.
    + exfalso. revert G. unfold group. destruct (N.eq_dec y 61) as [->|N]; [cbn [explicit_of]|rewrite explicit_other by assumption]; cbn [act_of].
      * destruct r; [discriminate|]. cbn [bundle]. destruct (eqb_list (firstn 1 (skipn 1 [45; c])) [45]); discriminate.
      * intros G. assert (K : exists l', l = V_help :: l').
        { revert G. cbn [bundle]. destruct (eqb_list (firstn 1 (skipn 1 [45; c])) [45]); [discriminate|]. cbn [orb]. destruct (y =? 45); [discriminate|]. destruct (find_option [45; y]) as [a|]; [|intros [= <- _]; eauto].
          assert (D : forall x : option (list arg_event * option (Z -> opt)), match x with Some (l0, m) => Some (V_help :: l0, m) | None => None end = Some (l, miss) -> exists l', l = V_help :: l') by (intros [[l0 m]|] Q; [injection Q as <- _; eauto|discriminate]).
          destruct r as [|z r]; [destruct a; intros [= <- _]; eauto|]. destruct z as [|p]; [apply D|]. do 6 (try (destruct p as [p|p|]; try apply D)). }
        destruct K as [l' ->]. destruct os; discriminate.
Qed.

(** * Lines *)
Lemma classify_cons s r : s <> [45; 45] -> classify (s :: r) = match parse_optional s, classify r with Some i, Some l => Some (i :: l) | _, _ => None end.
Proof. intros H. cbn [classify]. destruct (eqb_list s [45; 45]) eqn:E; [apply eqb_list_spec in E; contradiction|reflexivity]. Qed.
Lemma long_not_dashes p m e : LongFor p m -> 45 :: 45 :: p ++ tail_of e <> [45; 45].
Proof. intros H E. apply longfor_nonempty in H. injection E as E. destruct p; [now apply H|discriminate]. Qed.
Lemma short_not_dashes c m r : Short c m -> 45 :: c :: r <> [45; 45].
Proof. intros H E. apply short_char in H. injection E; intros; subst. tauto. Qed.
Lemma words_events ws os : Words ws os -> forall u rest l, classify rest = Some l -> exists l', classify (ws ++ rest) = Some l' /\ events u l' = map V_opt os ++ events u l.
Proof.
  intros W u rest l C.
  assert (G : forall cs os' x f v n t, Flags cs os' -> Short x (Number f) -> closing x f t = Some ([V_opt (f n)], None) ->
    exists l', classify ((45 :: cs ++ x :: t) :: rest) = Some l' /\ events u l' = map V_opt (os' ++ [f n]) ++ events u l /\ v = tt).
  { intros cs os' x f v n t F SX K. destruct v. inversion F as [|c o cs' os'' S0 F' E1 E2]; subst; cbn [app].
    - rewrite classify_cons by (eapply short_not_dashes; eassumption). rewrite (parse_short _ _ t SX), C. eexists. split; [reflexivity|]. split; [|reflexivity].
      rewrite events_group, group_closing, K. reflexivity.
    - rewrite classify_cons by (eapply short_not_dashes; eassumption). rewrite (parse_short _ _ (cs' ++ x :: t) S0), C. eexists. split; [reflexivity|]. split; [|reflexivity].
      rewrite events_group, (short_closing_group cs' os'' F' c o x f t S0 SX), K. cbn [prepend map]. rewrite map_app. cbn [map app]. rewrite <- app_assoc. reflexivity. }
  destruct W as [p o L|p f v n L O NV|p f v n L NV|cs os NE F|cs os c f v n F S0 O NV|cs os c f v n F S0 NV|cs os c f v n F S0 NV].
  - cbn [app]. destruct (parse_long p _ None L) as [nm K]. pose proof (long_not_dashes p _ None L) as ND. cbn [tail_of] in *. rewrite app_nil_r in *. rewrite classify_cons, K, C by exact ND. eexists. split; reflexivity.
  - cbn [app]. destruct (parse_long p _ None L) as [nm K]. pose proof (long_not_dashes p _ None L) as ND. cbn [tail_of] in *. rewrite app_nil_r in *. rewrite classify_cons, K by exact ND.
    rewrite classify_cons, (parse_operand v O), C by now apply operand_not_dashes. eexists. split; [reflexivity|]. cbn [events act_of option_map map app]. f_equal. apply take_int_iff. eauto.
  - cbn [app]. destruct (parse_long p _ (Some v) L) as [nm K]. pose proof (long_not_dashes p _ (Some v) L) as ND. cbn [tail_of] in *. rewrite classify_cons, K, C by exact ND. eexists. split; [reflexivity|].
    cbn [events act_of option_map map app]. assert (T : take_int f v = V_opt (f n)) by (apply take_int_iff; eauto). destruct v; cbn [bundle]; rewrite T; reflexivity.
  - inversion F as [|c o cs' os' S0 F' E1 E2]; subst; [now destruct NE|]. cbn [app]. rewrite classify_cons by (eapply short_not_dashes; eassumption). rewrite (parse_short _ _ cs' S0), C. eexists. split; [reflexivity|].
    rewrite events_group, (short_flags_group cs' os' F' c o S0). reflexivity.
  - assert (T : take_int f v = V_opt (f n)) by (apply take_int_iff; eauto). inversion F as [|c' o cs' os' S1 F' E1 E2]; subst; cbn [app].
    + rewrite classify_cons by (eapply short_not_dashes; eassumption). rewrite (parse_short _ _ [] S0). rewrite classify_cons, (parse_operand v O), C by now apply operand_not_dashes. eexists. split; [reflexivity|].
      rewrite events_group, group_closing. cbn. now rewrite T.
    + rewrite classify_cons by (eapply short_not_dashes; eassumption). rewrite (parse_short _ _ (cs' ++ [c]) S1). rewrite classify_cons, (parse_operand v O), C by now apply operand_not_dashes. eexists. split; [reflexivity|].
      rewrite events_group, (short_closing_group cs' os' F' c' o c f [] S1 S0). unfold closing, prepend. cbn [explicit_of]. cbn [map app]. rewrite T, map_app, app_nil_r. cbn [map app]. now rewrite <- app_assoc.
  - destruct (numeral_head v n NV) as (x & t & -> & N). destruct (G cs os c f tt n (x :: t) F S0) as (l' & H1 & H2 & _).
    + unfold closing. rewrite explicit_other by exact N. f_equal. f_equal. f_equal. apply take_int_iff. eauto.
    + exists l'. split; [exact H1|exact H2].
  - destruct (G cs os c f tt n (61 :: v) F S0) as (l' & H1 & H2 & _).
    + unfold closing. cbn [explicit_of]. f_equal. f_equal. f_equal. apply take_int_iff. eauto.
    + exists l'. split; [exact H1|exact H2].
Qed.
Lemma line_events u argv opts : Line u argv opts -> exists l, classify argv = Some l /\ events u l = map V_opt opts.
Proof.
  induction 1 as [u|u ws os rest r W _ (l & C & E)|v rest r O H (l & C & E)|v O| |v].
  - exists []. auto.
  - destruct (words_events ws os W u rest l C) as (l' & C' & E'). exists l'. split; [exact C'|]. now rewrite E', E, map_app.
  - exists (I_arg v :: l). rewrite classify_cons, (parse_operand v O), C by now apply operand_not_dashes. split; [reflexivity|]. cbn [events map]. f_equal.
    destruct l as [|[| | |] l]; try exact E. cbn [events] in E. destruct r; discriminate.
  - exists [I_arg v; I_dash]. rewrite classify_cons, (parse_operand v O) by now apply operand_not_dashes. split; reflexivity.
  - exists [I_dash]. split; reflexivity.
  - exists [I_dash; I_arg v]. split; reflexivity.
Qed.
Lemma classify_inv argv l : classify argv = Some l ->
  (argv = [] /\ l = []) \/ (exists r, argv = [45; 45] :: r /\ l = I_dash :: map I_arg r) \/
  (exists s r i l', argv = s :: r /\ s <> [45; 45] /\ Seen s i /\ classify r = Some l' /\ l = i :: l').
Proof.
  destruct argv as [|s r]; [intros [= <-]; auto|]. destruct (list_eq_dec N.eq_dec s [45; 45]) as [->|N].
  - cbn [classify]. rewrite eqb_list_refl. intros [= <-]. right. left. eauto.
  - rewrite classify_cons by exact N. destruct (parse_optional s) as [i|] eqn:P; [|discriminate]. destruct (classify r) as [l'|] eqn:C; [|discriminate]. intros [= <-].
    right. right. exists s, r, i, l'. repeat split; auto. now apply parse_seen.
Qed.
Lemma classify_arg argv v l : classify argv = Some (I_arg v :: l) -> exists rest, argv = v :: rest /\ Operand v /\ classify rest = Some l.
Proof.
  intros H. destruct (classify_inv _ _ H) as [[_ E]|[(r & _ & E)|(s & r & i & l' & -> & N & K & C & E)]]; try discriminate. injection E as <- <-. inversion K; subst. eauto.
Qed.
Lemma line_complete n : forall u argv l opts, (List.length argv <= n)%nat -> classify argv = Some l -> events u l = map V_opt opts -> Line u argv opts.
Proof.
  induction n as [|n IH]; intros u argv l opts HN C E.
  - destruct argv; [|cbn in HN; lia]. injection C as <-. destruct opts; [constructor|discriminate].
  - destruct (classify_inv _ _ C) as [[-> ->]|[(r & -> & ->)|(s & r & i & l' & -> & ND & K & C' & ->)]].
    + destruct opts; [constructor|discriminate].
    + cbn [events] in E. destruct u; [destruct opts; discriminate|]. destruct r as [|v r]; cbn [map] in E.
      * destruct opts; [constructor|discriminate].
      * destruct opts as [|o opts]; [discriminate|]. cbn [map] in E. injection E as <- E. destruct r as [|v' r]; [|cbn in E; destruct opts; discriminate]. cbn in E. destruct opts; [constructor|discriminate].
    + cbn [List.length] in HN. destruct K as [O|p m e nm -> L|c m r' -> S0|].
      * cbn [events] in E. destruct u; [destruct opts; discriminate|]. destruct opts as [|o opts]; [discriminate|]. cbn [map] in E. injection E as <- E.
        destruct (classify_inv _ _ C') as [[-> ->]|[(q & -> & ->)|(s' & q & i & l'' & -> & ND' & K' & C'' & ->)]].
        -- destruct opts; [|discriminate]. apply L_file; [exact O|constructor].
        -- destruct q as [|v q]; [|cbn in E; destruct opts; discriminate]. cbn in E. destruct opts; [|discriminate]. now constructor.
        -- apply L_file; [exact O|]. apply (IH true _ (i :: l'')); [cbn in *; lia|exact C'|]. destruct K'; exact E.
      * destruct e as [v|]; cbn [option_map tail_of] in *.
        -- assert (B : bundle (act_of m) (45 :: 45 :: nm) true v = match m with Number f => Some ([take_int f v], None) | _ => None end) by (destruct m, v; reflexivity).
           assert (EV : events u (I_opt (act_of m) (45 :: 45 :: nm) (Some (true, v)) :: l') = match m with Number f => take_int f v :: events u l' | _ => [V_fail] end).
           { destruct m; cbn [events act_of]; cbn [act_of] in B; rewrite B; reflexivity. }
           rewrite EV in E. destruct m as [o|f|]; try (destruct opts as [|? [|? ?]]; discriminate). destruct opts as [|o opts]; [discriminate|]. cbn [map] in E. injection E as T E. apply take_int_iff in T as (z & NV & ->).
           apply (L_words u [45 :: 45 :: p ++ 61 :: v] [f z]); [apply W_long_eq; assumption|]. eapply IH; eauto. lia.
        -- rewrite app_nil_r in *. destruct m as [o|f|]; cbn [events act_of] in E.
           ++ destruct opts as [|o' opts]; [discriminate|]. cbn [map] in E. injection E as <- E. apply (L_words u [45 :: 45 :: p] [o]); [apply W_long; assumption|]. eapply IH; eauto. lia.
           ++ destruct l' as [|[v| | |] l']; try (destruct opts as [|? [|? ?]]; discriminate). destruct opts as [|o' opts]; [discriminate|]. cbn [map] in E. injection E as T E. apply take_int_iff in T as (z & NV & ->).
              apply classify_arg in C' as (rest & -> & O & C'). apply (L_words u [45 :: 45 :: p; v] [f z]); [apply W_long_next; assumption|]. eapply IH; eauto. cbn in HN. lia.
           ++ destruct opts; discriminate.
      * rewrite events_group in E. destruct (group c m r') as [[l0 miss]|] eqn:G; [|destruct opts as [|? [|? ?]]; discriminate]. destruct miss as [f|].
        -- destruct l' as [|[v| | |] l']; try (destruct opts as [|? [|? ?]]; discriminate).
           symmetry in E. apply map_eq_app in E as (o1 & o2 & -> & E1 & E2). destruct o2 as [|o o2]; [discriminate|]. cbn [map] in E2. injection E2 as T E2. symmetry in T. apply take_int_iff in T as (z & NV & ->).
           apply classify_arg in C' as (rest & -> & O & C'). destruct (group_sound _ _ _ _ _ _ S0 G (eq_sym E1)) as (cs & x & EC & FL & SX). rewrite EC.
           replace (o1 ++ f z :: o2) with ((o1 ++ [f z]) ++ o2) by (now rewrite <- app_assoc). apply (L_words u [45 :: cs ++ [x]; v]); [apply W_next; assumption|]. eapply IH; eauto. cbn in HN. lia.
        -- symmetry in E. apply map_eq_app in E as (o1 & o2 & -> & E1 & E2). symmetry in E2.
           assert (R : Line u r o2) by (eapply IH; eauto; lia).
           apply (L_words u [45 :: c :: r'] o1 r o2); [|exact R]. destruct (group_sound _ _ _ _ _ _ S0 G (eq_sym E1)) as [FL|(cs & os' & x & f & v & z & EC & FL & SX & NV & ->)].
           ++ apply W_flags; [discriminate|exact FL].
           ++ destruct EC as [-> | ->]; [apply W_attached; assumption|apply W_eq; assumption].
      * destruct opts; discriminate.
Qed.
Lemma invocation_iff argv opts : Invocation argv opts <-> exists l, classify argv = Some l /\ events false l = map V_opt opts.
Proof.
  split; [apply line_events|]. intros (l & C & E). eapply line_complete; eauto.
Qed.

(** * What follows *)
Lemma map_V_opt_inj a b : map V_opt a = map V_opt b -> a = b.
Proof. revert b. induction a as [|x a IH]; intros [|y b] H; try discriminate; [reflexivity|]. injection H as -> H. f_equal. now apply IH. Qed.
Lemma invocation_fun argv o1 o2 : Invocation argv o1 -> Invocation argv o2 -> o1 = o2.
Proof.
  intros H1 H2. apply invocation_iff in H1 as (l & C & E). apply invocation_iff in H2 as (l' & C' & E'). apply map_V_opt_inj. congruence.
Qed.
(** one file at most *)
Definition no_file (m : meaning) : Prop := match m with Flag o => forall v, o <> O_file v | Number f => forall v n, f n <> O_file v | Help => True end.
Lemma documented_no_file : Forall (fun x => no_file (snd x)) documented.
Proof. unfold documented, both, only. repeat (apply Forall_cons; [cbn [snd no_file]; first [exact I|intros; discriminate]|]). apply Forall_nil. Qed.
Lemma short_no_file c m : Short c m -> no_file m.
Proof. intros (a & n & H & _). pose proof documented_no_file as D. rewrite Forall_forall in D. exact (D _ H). Qed.
Lemma long_no_file c m : Long c m -> no_file m.
Proof. intros (a & n & H & _). pose proof documented_no_file as D. rewrite Forall_forall in D. exact (D _ H). Qed.
Lemma words_no_file ws os : Words ws os -> forall v, ~ In (O_file v) os.
Proof.
  assert (F1 : forall cs os, Flags cs os -> forall v, ~ In (O_file v) os).
  { induction 1 as [|c o cs os' H F IH]; intros v I; [destruct I|]. destruct I as [->|I]; [now apply (short_no_file _ _ H v)|]. eapply IH; eassumption. }
  assert (D : forall os' x v, ~ In (O_file v) os' -> x <> O_file v -> ~ In (O_file v) (os' ++ [x])) by (intros os' x v H1 H2 I; apply in_app_or in I as [I|[I|[]]]; [contradiction|congruence]).
  intros W v. destruct W as [p o (n & L & _)|p f x n (m & L & _) _ _|p f x n (m & L & _) _|cs os _ F|cs os c f x n F S0 _ _|cs os c f x n F S0 _|cs os c f x n F S0 _].
  - intros [->|[]]. now apply (long_no_file _ _ L v).
  - intros [E|[]]. now apply (long_no_file _ _ L v n).
  - intros [E|[]]. now apply (long_no_file _ _ L v n).
  - eapply F1; eassumption.
  - apply D; [eapply F1; eassumption|apply (short_no_file _ _ S0)].
  - apply D; [eapply F1; eassumption|apply (short_no_file _ _ S0)].
  - apply D; [eapply F1; eassumption|apply (short_no_file _ _ S0)].
Qed.
