(** What the program does with its command line *)
From Coq Require Import Ascii String.
From Coq Require Import List Arith NArith ZArith Bool Lia.
From Verif.Model Require Import Base Settings Runner Options Render Process Args.
From Verif.Spec Require Import Invocation CommandLine.
From Verif.Proof Require Import BaseFacts ArgsInt ArgsFacts ArgsClaims AppClaims.
Import ListNotations.
Local Open Scope N_scope.

(** at most one file *)
Fixpoint one_file (u : bool) (os : list opt) : Prop :=
  match os with [] => True | o :: r => (is_file o = true -> u = false) /\ one_file (u || is_file o) r end.
Lemma one_file_app u a b : (forall v, ~ In (O_file v) a) -> one_file u b -> one_file u (a ++ b).
Proof.
  induction a as [|o a IH]; intros H B; [exact B|]. cbn [app one_file]. assert (F : is_file o = false) by (destruct o; try reflexivity; exfalso; eapply H; now left).
  rewrite F, orb_false_r. split; [discriminate|]. apply IH; [intros v I; apply (H v); now right|exact B].
Qed.
Lemma line_one_file u argv opts : Line u argv opts -> one_file u opts.
Proof.
  induction 1 as [u|u ws os rest r W _ IH|v rest r O H IH|v O| |v]; cbn [one_file is_file orb]; auto.
  apply one_file_app; [|exact IH]. eapply words_no_file; eassumption.
Qed.
Lemma act_opts opts : forall seen s, one_file (existsb is_file seen) opts -> act false seen s (map V_opt opts) = match parse_opts seen s opts with None => C_usage | Some s' => C_run s' end.
Proof.
  induction opts as [|o opts IH]; intros seen s H; [reflexivity|]. cbn [map act parse_opts]. destruct (existsb (conflict o) seen); [reflexivity|].
  destruct H as [H1 H2]. assert (E : is_file o && existsb is_file seen = false) by (destruct (is_file o); [rewrite H1 by reflexivity|]; reflexivity). rewrite E. apply IH. cbn [existsb]. now rewrite orb_comm.
Qed.
Lemma act_run l : forall extra seen s s', act extra seen s l = C_run s' -> extra = false /\ exists opts, l = map V_opt opts.
Proof.
  induction l as [|e l IH]; intros extra seen s s' H.
  - cbn in H. destruct extra; [discriminate|]. split; [reflexivity|]. now exists [].
  - destruct e as [o| | |]; try discriminate; cbn [act] in H.
    + destruct (existsb (conflict o) seen); [discriminate|]. apply IH in H as [-> [opts ->]]. split; [reflexivity|]. now exists (o :: opts).
    + apply IH in H as [E _]. discriminate.
Qed.
Lemma command_line_invocation argv opts : Invocation argv opts -> command_line argv = match parse_args opts with None => C_usage | Some s => C_run s end.
Proof.
  intros H. pose proof (line_one_file _ _ _ H) as F. apply invocation_iff in H as (l & C & E). unfold command_line. rewrite C, E. apply act_opts. exact F.
Qed.
Lemma command_line_run argv s : command_line argv = C_run s <-> exists opts, Invocation argv opts /\ parse_args opts = Some s.
Proof.
  split.
  - intros H. unfold command_line in H. destruct (classify argv) as [l|] eqn:C; [|discriminate]. destruct (act_run _ _ _ _ _ H) as [_ [opts E]].
    assert (I : Invocation argv opts) by (apply invocation_iff; eauto). exists opts. split; [exact I|]. pose proof (line_one_file _ _ _ I) as F. rewrite E, act_opts in H by exact F.
    unfold parse_args. destruct (parse_opts [] default_settings opts); congruence.
  - intros (opts & I & P). rewrite (command_line_invocation _ _ I), P. reflexivity.
Qed.
Lemma main_invocation w argv opts : Invocation argv opts -> main w argv = Some (kolombos w opts).
Proof. intros H. unfold main, kolombos. rewrite (command_line_invocation _ _ H). destruct (parse_args opts); reflexivity. Qed.
Lemma main_other w argv : (forall opts, ~ Invocation argv opts) -> main w argv = None \/ main w argv = Some (mkApp [] None (Some 2%Z)).
Proof.
  intros H. unfold main. destruct (command_line argv) as [| |s] eqn:C; auto. apply command_line_run in C as (opts & I & _). now destruct (H opts).
Qed.

(** * Help *)
Lemma parse_ambiguous s : s <> [45; 45] -> (parse_optional s = None <-> Ambiguous s).
Proof.
  intros ND. split.
    - intros H. destruct s as [|c s]; [discriminate|]. destruct (N.eq_dec c 45) as [->|N]; [|rewrite (parse_operand (c :: s)) in H by (now constructor); discriminate].
      destruct s as [|c s]; [discriminate|]. destruct (N.eq_dec c 45) as [->|N].
      + destruct (partition_spec s) as [E NE]. destruct (partition_eq s) as [p e] eqn:P. cbn [fst snd] in *. subst s.
        destruct (matches p) as [|[n a] [|y l]] eqn:M.
        * exfalso. rewrite parse_not_optional in H; [destruct (negative_number _); [discriminate|]; destruct (existsb _ _); discriminate|].
          clear H. intros O. apply optional_cases in O as [(q & e' & n & m & Q & K1 & K2)|(x & m & r & Q & K)]; [|injection Q as <- _; now apply short_char in K].
          assert (NQ : ~ In 61 q) by (eapply begins_no_eq; eassumption). injection Q as Q. apply (f_equal partition_eq) in Q. rewrite !partition_app in Q by assumption. injection Q as <- <-.
          assert (J : In (45 :: 45 :: n, act_of m) (matches p)) by (apply matches_in; eauto 8). rewrite M in J. destruct J.
        * destruct (matches_one _ _ _ M) as (nm & m & -> & -> & L). destruct (parse_long p m e L) as [k K]. congruence.
        * destruct y as [n' a']. assert (I1 : In (n, a) (matches p)) by (rewrite M; now left). assert (I2 : In (n', a') (matches p)) by (rewrite M; right; now left).
          assert (ND' : NoDup (matches p)) by (apply NoDup_filter, table_nodup). rewrite M in ND'.
          apply matches_in in I1 as (n1 & m1 & -> & -> & L1 & B1). apply matches_in in I2 as (n2 & m2 & -> & -> & L2 & B2).
          exists p, n1, m1, n2, m2. split; [destruct e as [v|]; [right; now exists v|left; cbn; now rewrite app_nil_r]|]. repeat (split; [assumption|]). intros ->.
          inversion ND' as [|? ? K _]; subst. apply K. left. now rewrite (long_fun _ _ _ L1 L2).
      + exfalso. destruct (find_option [45; c]) as [a|] eqn:F.
        * apply find_short_inv in F; [|exact N]. rewrite (parse_short _ _ s F) in H. discriminate.
        * rewrite parse_not_optional in H; [destruct (negative_number _); [discriminate|]; destruct (existsb _ _); discriminate|].
          clear H. intros O. apply optional_cases in O as [(q & e' & n & m & Q & K1 & K2)|(x & m & r & Q & K)]; [injection Q; intros; congruence|]. injection Q as <- <-. rewrite (find_short _ _ K) in F. discriminate.
    - intros (p & n1 & m1 & n2 & m2 & E & L1 & L2 & B1 & B2 & D). destruct (parse_optional s) as [i|] eqn:P; [|reflexivity]. exfalso.
      assert (E' : exists e, s = 45 :: 45 :: p ++ tail_of e) by (destruct E as [->|[v ->]]; [exists None; cbn; now rewrite app_nil_r|now exists (Some v)]). destruct E' as [e ->]. clear E.
      assert (NE : ~ In 61 p) by (eapply begins_no_eq; eassumption).
      assert (I1 : In (45 :: 45 :: n1, act_of m1) (matches p)) by (apply matches_in; eauto 8). assert (I2 : In (45 :: 45 :: n2, act_of m2) (matches p)) by (apply matches_in; eauto 8).
      destruct (matches p) as [|x [|y l]] eqn:M; [destruct I1| |].
      + destruct I1 as [->|[]]. destruct I2 as [I2|[]]. injection I2 as I2 _. now apply D.
      + rewrite parse_unfold, partition_two in P by discriminate. rewrite (partition_app p e NE) in P. cbn [fst snd] in P.
        assert (F : find_option (45 :: 45 :: p ++ tail_of e) = None).
        { destruct (find_option _) as [b|] eqn:F; [|reflexivity]. exfalso. destruct e as [v|]; [cbn [tail_of] in F; now rewrite find_long_eq in F|]. cbn [tail_of] in F. rewrite app_nil_r in F. apply find_long in F. eapply matches_two; eassumption. }
        assert (F2 : find_option (45 :: 45 :: p) = None).
        { destruct (find_option (45 :: 45 :: p)) as [b|] eqn:F2; [|reflexivity]. apply find_long in F2. exfalso. eapply matches_two; eassumption. }
        rewrite F, F2, tuples_long, (partition_app p e NE) in P. cbn [fst snd] in P. rewrite M in P. cbn [map] in P. destruct e; discriminate.
Qed.
Lemma classify_clear argv : Clear argv <-> exists l, classify argv = Some l.
Proof.
  assert (A : forall s, s <> [45; 45] -> (parse_optional s = None <-> Ambiguous s)) by (intros s; apply parse_ambiguous).
  split.
  - induction 1 as [|r|s r H _ [l C]]; [now exists []|cbn [classify]; rewrite eqb_list_refl; eauto|].
    destruct (list_eq_dec N.eq_dec s [45; 45]) as [->|N]; [cbn [classify]; rewrite eqb_list_refl; eauto|].
    rewrite classify_cons, C by exact N. destruct (parse_optional s) as [i|] eqn:P; [eauto|]. apply A in P; [contradiction|exact N].
  - intros [l C]. revert l C. induction argv as [|s r IH]; intros l C; [constructor|].
    destruct (list_eq_dec N.eq_dec s [45; 45]) as [->|N]; [constructor|]. rewrite classify_cons in C by exact N. destruct (parse_optional s) as [i|] eqn:P; [|discriminate].
    destruct (classify r) as [l'|]; [|discriminate]. apply Cl_cons; [|now apply (IH l')]. intros Q. apply (A s N) in Q. congruence.
Qed.

Lemma group_step_help c x r : c <> 45 -> group c Help (x :: r) =
  if (x =? 61) || (x =? 45) then None
  else match find_option [45; x] with
       | None => Some ([V_help; V_extra], None)
       | Some a => match group x (mean a) r with Some (l, f) => Some (V_help :: l, f) | None => None end
       end.
Proof.
  intros Hc. unfold group at 1. destruct (N.eqb_spec x 61) as [->|N1].
  - cbn [orb explicit_of act_of bundle]. assert (eqb_list (firstn 1 (skipn 1 [45; c])) [45] = false) by (cbn; apply N.eqb_neq in Hc; now rewrite Hc).
    destruct r; [reflexivity|].
    cbn [bundle]. now rewrite H.
  - rewrite explicit_other by assumption. cbn [act_of bundle orb]. assert (H : eqb_list (firstn 1 (skipn 1 [45; c])) [45] = false) by (cbn; apply N.eqb_neq in Hc; now rewrite Hc). rewrite H.
    destruct (x =? 45); [reflexivity|]. destruct (find_option [45; x]) as [a|]; [|reflexivity].
    destruct r as [|y r]; [destruct a; reflexivity|]. unfold group. destruct (N.eq_dec y 61) as [->|N2].
    + cbn [explicit_of]. rewrite act_mean. reflexivity.
    + rewrite explicit_other by assumption. rewrite act_mean. destruct y as [|p]; [reflexivity|]. do 6 (try (destruct p as [p|p|]; try reflexivity)). now destruct N2.
Qed.
Lemma help_group c ds ds' : Short c Help -> Flags ds ds' -> group c Help ds = Some (V_help :: map V_opt ds', None).
Proof.
  intros S0 F. destruct (short_char _ _ S0) as [N1 _]. destruct F as [|x o ds ds' S1 F]; [reflexivity|]. destruct (short_char _ _ S1) as [N2 N3].
  rewrite group_step_help by auto. apply N.eqb_neq in N2, N3. rewrite N2, N3. cbn [orb]. rewrite (find_short _ _ S1), mean_act, (short_flags_group _ _ F x o S1). reflexivity.
Qed.
Lemma flags_help_group cs os : Flags cs os -> forall c o x ds ds', Short c (Flag o) -> Short x Help -> Flags ds ds' ->
  group c (Flag o) (cs ++ x :: ds) = Some (map V_opt (o :: os) ++ V_help :: map V_opt ds', None).
Proof.
  induction 1 as [|y o' cs os S1 F IH]; intros c o x ds ds' S0 SX FD.
  - destruct (short_char _ _ S0) as [N1 _]. destruct (short_char _ _ SX) as [N2 N3]. cbn [app]. rewrite (group_step c x ds o) by auto. apply N.eqb_neq in N2, N3. rewrite N2, N3. cbn [orb].
    rewrite (find_short _ _ SX), mean_act, (help_group _ _ _ SX FD). reflexivity.
  - destruct (short_char _ _ S0) as [N1 _]. destruct (short_char _ _ S1) as [N2 N3]. cbn [app]. rewrite (group_step c y (cs ++ x :: ds) o) by auto. apply N.eqb_neq in N2, N3. rewrite N2, N3. cbn [orb].
    rewrite (find_short _ _ S1), mean_act, (IH y o' x ds ds' S1 SX FD). reflexivity.
Qed.
Lemma help_events s os rest l : Helps s os -> classify rest = Some l -> exists i, classify (s :: rest) = Some (i :: l) /\ i <> I_dash /\ forall u, exists t, events u (i :: l) = map V_opt os ++ V_help :: t.
Proof.
  intros [p L|cs os' c ds ds' F S0 FD] C.
  - destruct (parse_long p _ None L) as [nm K]. pose proof (long_not_dashes p _ None L) as ND. cbn [tail_of] in *. rewrite app_nil_r in *. rewrite classify_cons, K, C by exact ND. eexists. split; [reflexivity|]. split; [discriminate|]. intros u. eexists. reflexivity.
  - destruct F as [|c' o cs os' S1 F]; cbn [app].
    + rewrite classify_cons by (eapply short_not_dashes; eassumption). rewrite (parse_short _ _ ds S0), C. eexists. split; [reflexivity|]. split; [discriminate|]. intros u. rewrite events_group, (help_group _ _ _ S0 FD). eexists. reflexivity.
    + rewrite classify_cons by (eapply short_not_dashes; eassumption). rewrite (parse_short _ _ (cs ++ c :: ds) S1), C. eexists. split; [reflexivity|]. split; [discriminate|]. intros u.
      rewrite events_group, (flags_help_group _ _ F c' o c ds ds' S1 S0 FD). rewrite <- app_assoc. eexists. reflexivity.
Qed.
Lemma line_then u argv opts : Line u argv opts -> ~ In [45; 45] argv -> forall rest i l, classify rest = Some (i :: l) -> i <> I_dash ->
  exists l' u', classify (argv ++ rest) = Some l' /\ l' <> [] /\ hd I_dash l' <> I_dash /\ events u l' = map V_opt opts ++ events u' (i :: l).
Proof.
  induction 1 as [u|u ws os rest' r W _ IH|v rest' r O H IH|v O| |v]; intros ND rest i l C NI.
  - exists (i :: l), u. split; [exact C|]. split; [discriminate|]. split; [exact NI|]. reflexivity.
  - destruct (IH (fun I => ND (in_or_app _ _ _ (or_intror I))) rest i l C NI) as (l' & u' & C' & _ & _ & E). destruct (words_events ws os W u (rest' ++ rest) l' C') as (l'' & C'' & E'').
    exists l'', u'. rewrite <- app_assoc. split; [exact C''|]. rewrite E'', E, map_app, <- app_assoc.
    assert (K : exists s ws', ws = s :: ws' /\ s <> [45; 45]).
    { destruct ws as [|s ws']; [inversion W|]. exists s, ws'. split; [reflexivity|]. intros ->. apply ND. now left. }
    destruct K as (s & ws' & -> & NS). cbn [app] in C''. rewrite classify_cons in C'' by exact NS. destruct (parse_optional s) as [i'|] eqn:P; [|discriminate]. destruct (classify (ws' ++ rest' ++ rest)) as [lx|]; [|discriminate]. injection C'' as <-.
    split; [discriminate|]. split; [|reflexivity]. cbn [hd]. intros ->. apply parse_seen in P; [|exact NS]. inversion P.
  - destruct (IH (fun I => ND (or_intror I)) rest i l C NI) as (l' & u' & C' & K1 & K2 & E).
    exists (I_arg v :: l'), u'. cbn [app]. rewrite classify_cons, (parse_operand v O), C' by now apply operand_not_dashes. split; [reflexivity|]. split; [discriminate|]. split; [discriminate|].
    cbn [events map app]. f_equal. destruct l' as [|[| | |] l']; try exact E. now destruct K2.
  - exfalso. apply ND. right. now left.
  - exfalso. apply ND. now left.
  - exfalso. apply ND. now left.
Qed.
Lemma act_help opts : forall extra seen s t, parse_opts seen s opts <> None -> act extra seen s (map V_opt opts ++ V_help :: t) = C_help.
Proof.
  induction opts as [|o opts IH]; intros extra seen s t H; [reflexivity|]. cbn [map app act parse_opts] in *. destruct (existsb (conflict o) seen); [now destruct H|].
  destruct (is_file o && existsb is_file seen); [now destruct H|]. now apply IH.
Qed.
Lemma main_help w a opts s os b : Invocation a opts -> ~ In [45; 45] a -> Helps s os -> ~ Rejected (opts ++ os) -> Clear b -> main w (a ++ s :: b) = None.
Proof.
  intros HA ND HS NR HB. apply classify_clear in HB as [l C]. destruct (help_events s os b l HS C) as (i & C' & NI & E). destruct (line_then _ _ _ HA ND (s :: b) i l C' NI) as (l' & u' & C'' & _ & _ & E').
  destruct (E u') as [t E2]. unfold main, command_line. rewrite C'', E', E2, app_assoc, <- map_app. rewrite act_help; [reflexivity|]. intros P. apply NR. now apply parse_args_none.
Qed.
(** help must have been asked for *)
Lemma bundle_help e : forall a name sep l m, bundle a name sep e = Some (l, m) -> In V_help l -> a = A_help \/ In 104 e.
Proof.
  assert (F : forall c, c <> 45 -> find_option [45; c] = Some A_help -> c = 104).
  { intros c N E. apply find_short_inv in E; [|exact N]. cbn [mean] in E. assert (H : Short 104 Help) by (exists "h"%char, "help"%string; split; [do 5 right; now left|reflexivity]).
    destruct E as (a & n & I & ->). unfold documented, both, only in I. repeat (destruct I as [I|I]; [injection I; intros; subst; try discriminate; try reflexivity|]). destruct I. }
  assert (T : forall f v, ~ In V_help [take_int f v]) by (intros f v [H|[]]; unfold take_int in H; destruct (int_of v); discriminate).
  assert (G : forall n e, (List.length e <= n)%nat -> forall a name sep l m, bundle a name sep e = Some (l, m) -> In V_help l -> a = A_help \/ In 104 e).
  { induction n as [|n IH]; intros e0 HN a name sep l m B I.
    - destruct e0; [|cbn in HN; lia]. destruct a as [o|f|]; cbn [bundle] in B; [discriminate| |now left]. injection B as <- <-. now apply T in I.
    - destruct e0 as [|c r]; [destruct a as [o|f|]; cbn [bundle] in B; [discriminate| |now left]; injection B as <- <-; now apply T in I|].
      destruct a as [o|f|]; [|cbn [bundle] in B; injection B as <- <-; now apply T in I|now left]. right. cbn [bundle] in B.
      destruct (eqb_list (firstn 1 (skipn 1 name)) [45]); [discriminate|]. destruct (sep || (c =? 45)) eqn:E; [discriminate|]. apply orb_false_iff in E as [_ E]. apply N.eqb_neq in E.
      destruct (find_option [45; c]) as [a'|] eqn:FO; [|injection B as <- <-; destruct I as [I|[I|[]]]; discriminate].
      destruct r as [|y r].
      + destruct a' as [o'|f'|]; injection B as <- <-; [destruct I as [I|[I|[]]]; discriminate|destruct I as [I|[]]; discriminate|]. left. now apply F.
      + assert (Q : exists sp e', (y :: r = e' \/ y :: r = 61 :: e') /\ match bundle a' [45; c] sp e' with Some (l0, m0) => Some (V_opt o :: l0, m0) | None => None end = Some (l, m)).
        { destruct (N.eq_dec y 61) as [->|NY]; [exists true, r; auto|]. exists false, (y :: r). split; [now left|]. revert B NY. clear. intros B NY. destruct y as [|p]; [exact B|]. revert B. do 6 (try (destruct p as [p|p|]; try (intros B; exact B))). now destruct NY. }
        destruct Q as (sp & e' & EE & Q). destruct (bundle a' [45; c] sp e') as [[l0 m0]|] eqn:B'; [|discriminate]. injection Q as <- <-. destruct I as [I|I]; [discriminate|].
        assert (LN : (List.length e' <= n)%nat) by (cbn in HN; destruct EE as [EE|EE]; apply (f_equal (@List.length N)) in EE; cbn in EE; lia).
        destruct (IH e' LN _ _ _ _ _ B' I) as [->|J]; [left; now apply F|]. right. destruct EE as [-> | ->]; [exact J|now right]. }
  intros a name sep l m. now apply (G (List.length e)).
Qed.

Lemma events_help l : forall u, In V_help (events u l) -> exists i, In i l /\ match i with I_opt a _ e => a = A_help \/ (exists sp v, e = Some (sp, v) /\ In 104 v) | _ => False end.
Proof.
  assert (T : forall f v, V_help <> take_int f v) by (intros f v H; unfold take_int in H; destruct (int_of v); discriminate).
  assert (G : forall n l u, (List.length l <= n)%nat -> In V_help (events u l) -> exists i, In i l /\ match i with I_opt a _ e => a = A_help \/ (exists sp v, e = Some (sp, v) /\ In 104 v) | _ => False end).
  { induction n as [|n IH]; intros l0 u HN I; [destruct l0; [destruct I|cbn in HN; lia]|]. destruct l0 as [|i l0]; [destruct I|]. cbn [List.length] in HN.
    assert (R : forall l1 u', (exists l2, i :: l0 = l2 ++ l1) -> (List.length l1 <= n)%nat -> In V_help (events u' l1) -> exists i0, In i0 (i :: l0) /\ match i0 with I_opt a _ e => a = A_help \/ (exists sp v, e = Some (sp, v) /\ In 104 v) | _ => False end).
    { intros l1 u' [l2 E] H1 H2. destruct (IH l1 u' H1 H2) as (i0 & J & K). exists i0. split; [rewrite E; apply in_or_app; now right|exact K]. }
    destruct i as [v| |a name e|]; cbn [events] in I.
    - destruct u.
      + destruct I as [I|I]; [discriminate|]. apply (R l0 true); [now exists [I_arg v]|lia|exact I].
      + destruct I as [I|I]; [discriminate|]. destruct l0 as [|j l0]; [destruct I|]. destruct j; try (apply (R _ true) in I; [exact I|now eexists [_]|lia]). apply (R l0 true); [now exists [I_arg v; I_dash]|cbn in HN; lia|exact I].
    - destruct u.
      + destruct I as [I|I]; [discriminate|]. apply (R l0 true); [now exists [I_dash]|lia|exact I].
      + destruct l0 as [|j l0]; [destruct I|]. destruct j as [v| | |]; try (now destruct I). destruct I as [I|I]; [discriminate|]. apply (R l0 true); [now exists [I_dash; I_arg v]|cbn in HN; lia|assumption].
    - destruct e as [[sp e]|].
      + assert (I' : match bundle a name sp e with None => False | Some (l1, None) => In V_help (l1 ++ events u l0) | Some (l1, Some f) => match l0 with I_arg v :: r' => In V_help (l1 ++ take_int f v :: events u r') | _ => False end end).
        { revert I. destruct a as [o0|f0|]; destruct (bundle _ name sp e) as [[l1 [f|]]|]; try (intros I; exact I); try (intros [I|[]]; discriminate); destruct l0 as [|[| | |] ?]; try (intros I; exact I); intros [I|[]]; discriminate. }
        clear I. destruct (bundle a name sp e) as [[l1 [f|]]|] eqn:B; [| |destruct I'].
        * destruct l0 as [|[v| | |] l0]; try destruct I'. apply in_app_or in I' as [I|[I|I]].
          -- exists (I_opt a name (Some (sp, e))). split; [now left|]. destruct (bundle_help _ _ _ _ _ _ B I) as [->|J]; [now left|right; eauto].
          -- symmetry in I. now apply T in I.
          -- apply (R l0 u); [now eexists [_; _]|cbn in HN; lia|exact I].
        * apply in_app_or in I' as [I|I].
          -- exists (I_opt a name (Some (sp, e))). split; [now left|]. destruct (bundle_help _ _ _ _ _ _ B I) as [->|J]; [now left|right; eauto].
          -- apply (R l0 u); [now eexists [_]|lia|exact I].
      + destruct a as [o|f|].
        * destruct I as [I|I]; [discriminate|]. apply (R l0 u); [now eexists [_]|lia|exact I].
        * destruct l0 as [|[v| | |] l0]; try (destruct I as [I|[]]; discriminate). destruct I as [I|I]; [symmetry in I; now apply T in I|]. apply (R l0 u); [now eexists [_; _]|cbn in HN; lia|exact I].
        * exists (I_opt A_help name None). split; [now left|now left].
    - destruct I as [I|I]; [discriminate|]. apply (R l0 u); [now eexists [_]|lia|exact I]. }
  intros u. now apply (G (List.length l)).
Qed.
Lemma classify_in argv l i : classify argv = Some l -> In i l -> (exists s, In s argv /\ Seen s i) \/ i = I_dash \/ exists s, i = I_arg s.
Proof.
  revert l. induction argv as [|s r IH]; intros l C I; [injection C as <-; destruct I|].
  destruct (classify_inv _ _ C) as [[E _]|[(r' & E & ->)|(s' & r' & i' & l' & E & N & K & C' & ->)]]; [discriminate| |]; injection E as -> ->.
  - destruct I as [<-|I]; [auto|]. apply in_map_iff in I as (x & <- & _). eauto.
  - destruct I as [<-|I]; [left; exists s'; split; [now left|exact K]|]. destruct (IH _ C' I) as [(x & J & K')|J]; [left; exists x; split; [now right|exact K']|auto].
Qed.
Lemma act_help_in l : forall extra seen s, act extra seen s l = C_help -> In V_help l.
Proof.
  induction l as [|e l IH]; intros extra seen s H; [cbn in H; destruct extra; discriminate|]. destruct e as [o| | |]; cbn [act] in H; try discriminate.
  - destruct (existsb (conflict o) seen); [discriminate|]. right. eapply IH; eassumption.
  - now left.
  - right. eapply IH; eassumption.
Qed.
Lemma main_help_asked w argv : main w argv = None -> exists s, In (45 :: s) argv /\ In 104 s.
Proof.
  unfold main, command_line. destruct (classify argv) as [l|] eqn:C; [|discriminate]. destruct (act _ _ _ _) eqn:A; try discriminate. intros _. apply act_help_in, events_help in A as (i & I & K).
  destruct (classify_in _ _ _ C I) as [(s & J & S0)|[->|[x ->]]]; [|destruct K|destruct K].
  destruct S0 as [O|p m e n -> L|c m r -> SH|]; try destruct K.
  - assert (m = Help) as -> by (destruct m; try discriminate; reflexivity). exists (45 :: p ++ tail_of e). split; [exact J|]. right. apply in_or_app. left.
    pose proof (longfor_nonempty _ _ L) as NE. destruct L as (nm & L & [q B] & _). assert (nm = txt "help") as ->.
    { clear - L. destruct L as (a & s & H & ->). unfold documented, both, only in H. repeat (destruct H as [H|H]; [injection H; intros; subst; try discriminate; try reflexivity|]). destruct H. }
    destruct p as [|x p]; [now destruct NE|]. injection B as <- _. now left.
  - destruct H as (sp & v & E & I'). destruct e as [v'|]; [|discriminate]. injection E as _ <-. exists (45 :: p ++ 61 :: v'). split; [exact J|]. right. apply in_or_app. right. now right.
  - assert (m = Help) as -> by (destruct m; try discriminate; reflexivity). exists (c :: r). split; [exact J|]. left.
    clear - SH. destruct SH as (a & s & H & ->). unfold documented, both, only in H. repeat (destruct H as [H|H]; [injection H; intros; subst; try discriminate; try reflexivity|]). destruct H.
  - destruct H as (sp & v & E & I'). exists (c :: r). split; [exact J|]. right. destruct r as [|x r]; [discriminate|]. destruct (N.eq_dec x 61) as [->|N]; [injection E as _ <-; now right|]. rewrite explicit_other in E by exact N. injection E as _ <-. exact I'.
Qed.
Lemma ways_same a n f v z rest opts way : In (Some a, n, Number f) documented -> Operand v -> Numeral v z -> Invocation rest opts ->
  In way [[45 :: N_of_ascii a :: v]; [45 :: N_of_ascii a :: 61 :: v]; [[45; N_of_ascii a]; v]; [45 :: 45 :: txt n; v]; [45 :: 45 :: txt n ++ 61 :: v]] ->
  Invocation (way ++ rest) (f z :: opts).
Proof.
  intros D O NV R I. assert (S0 : Short (N_of_ascii a) (Number f)) by (exists a, n; auto). assert (L : LongFor (txt n) (Number f)) by (apply exact_long; exists (Some a), n; auto).
  apply (L_words false way [f z] rest opts); [|exact R].
  destruct I as [<-|[<-|[<-|[<-|[<-|[]]]]]].
  - apply (W_attached [] [] _ f v z); [constructor|exact S0|exact NV].
  - apply (W_eq [] [] _ f v z); [constructor|exact S0|exact NV].
  - apply (W_next [] [] _ f v z); [constructor|exact S0|exact O|exact NV].
  - now apply W_long_next.
  - now apply W_long_eq.
Qed.
Lemma names_same a n o rest opts : In (Some a, n, Flag o) documented -> Invocation rest opts -> Invocation ([45; N_of_ascii a] :: rest) (o :: opts) /\ Invocation ((45 :: 45 :: txt n) :: rest) (o :: opts).
Proof.
  intros D R. assert (S0 : Short (N_of_ascii a) (Flag o)) by (exists a, n; auto). assert (L : LongFor (txt n) (Flag o)) by (apply exact_long; exists (Some a), n; auto). split.
  - apply (L_words false [[45; N_of_ascii a]] [o] rest opts); [|exact R]. apply W_flags; [discriminate|]. constructor; [exact S0|constructor].
  - apply (L_words false [45 :: 45 :: txt n] [o] rest opts); [|exact R]. now apply W_long.
Qed.
Lemma invocation_computed argv opts : match classify argv with Some l => events false l = map V_opt opts | None => False end -> Invocation argv opts.
Proof. intros H. destruct (classify argv) as [l|] eqn:C; [|destruct H]. apply invocation_iff. eauto. Qed.
Lemma main_others w argv : (forall opts, ~ Invocation argv opts) -> (forall s, In (45 :: s) argv -> ~ In 104 s) -> main w argv = Some (mkApp [] None (Some 2%Z)).
Proof.
  intros H1 H2. destruct (main_other w argv H1) as [E|E]; [|exact E]. destruct (main_help_asked w argv E) as (s & I & J). now apply H2 in I.
Qed.
Lemma main_refused w argv opts : Invocation argv opts -> (Rejected opts <-> main w argv = Some (mkApp [] None (Some 2%Z)) /\ command_line argv = C_usage).
Proof.
  intros H. unfold main. rewrite (command_line_invocation _ _ H), <- parse_args_none. destruct (parse_args opts); split; try discriminate; auto. intros [_ K]. discriminate.
Qed.
