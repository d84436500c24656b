(** The command lines that show the help: exactly those of Spec/HelpAsked.v *)
From Coq Require Import Ascii String.
From Coq Require Import List Arith NArith ZArith Bool Lia.
From Verif.Model Require Import Base Settings Runner Options Render Process Args.
From Verif.Spec Require Import Invocation CommandLine HelpAsked.
From Verif.Proof Require Import BaseFacts ArgsInt ArgsFacts ArgsClaims ArgsMain AppClaims.
Import ListNotations.
Local Open Scope N_scope.

(** * Words of short options *)
Definition open {A} (m : option A) : bool := match m with Some _ => true | None => false end.
Lemma stray_find c : Stray c <-> (c =? 61) || (c =? 45) = false /\ find_option [45; c] = None.
Proof.
  split.
  - intros (N1 & N2 & H). split; [apply N.eqb_neq in N1, N2; now rewrite N1, N2|]. destruct (find_option [45; c]) as [a|] eqn:F; [|reflexivity]. apply find_short_inv in F; [|exact N1]. now apply H in F.
  - intros [E F]. apply orb_false_iff in E as [E1 E2]. apply N.eqb_neq in E1, E2. split; [exact E2|]. split; [exact E1|]. intros m S0. rewrite (find_short _ _ S0) in F. discriminate.
Qed.
Lemma short_next x r here m : Short x m ->
  (if (x =? 61) || (x =? 45) then None else match find_option [45; x] with
     | None => Some ([here; V_extra], None)
     | Some a => match group x (mean a) r with Some (l, f) => Some (here :: l, f) | None => None end end) =
  match group x m r with Some (l, f) => Some (here :: l, f) | None => None end.
Proof.
  intros S0. destruct (short_char _ _ S0) as [N2 N3]. apply N.eqb_neq in N2, N3. rewrite N2, N3. cbn [orb]. now rewrite (find_short _ _ S0), mean_act.
Qed.
Lemma behind_inv t b : Behind t b -> t = [] /\ b = false \/ exists c r, t = c :: r /\ ((Stray c /\ b = false) \/ exists m, Short c m /\ match m with Number _ => b = match r with [] => true | _ => false end | _ => Behind r b end).
Proof.
  intros [|c o r b' H B|c r b' H B|c f v H N|c f H|c r H]; [now left| | | | |]; right.
  - exists c, r. split; [reflexivity|]. right. now exists (Flag o).
  - exists c, r. split; [reflexivity|]. right. now exists Help.
  - exists c, v. split; [reflexivity|]. right. exists (Number f). split; [exact H|]. now destruct v.
  - exists c, []. split; [reflexivity|]. right. now exists (Number f).
  - exists c, r. split; [reflexivity|]. now left.
Qed.
Lemma behind_group r : forall c m l miss, Short c m -> group c m r = Some (l, miss) -> Behind (c :: r) (open miss).
Proof.
  induction r as [|y r IH]; intros c m l miss S0 G.
  - destruct m as [o|f|]; cbn in G; injection G as <- <-; cbn [open]; [eapply Bh_flag|eapply Bh_open|eapply Bh_help]; try eassumption; constructor.
  - destruct m as [o|f|].
    + apply (Bh_flag c o); [exact S0|]. destruct (short_char _ _ S0) as [N1 _]. rewrite (group_step c y r o) in G by auto. destruct ((y =? 61) || (y =? 45)) eqn:Y; [discriminate|].
      destruct (find_option [45; y]) as [a|] eqn:F; [|injection G as <- <-; apply Bh_stray; now apply stray_find].
      apply orb_false_iff in Y as [_ Y]. apply N.eqb_neq in Y. apply find_short_inv in F; [|exact Y]. destruct (group y (mean a) r) as [[l' miss']|] eqn:G'; [|discriminate]. injection G as <- <-. eapply IH; eassumption.
    + rewrite group_closing in G. unfold closing in G. assert (miss = None) as -> by (destruct (N.eq_dec y 61) as [->|N]; [cbn [explicit_of] in G|rewrite explicit_other in G by exact N]; congruence).
      apply (Bh_number c f); [exact S0|discriminate].
    + apply Bh_help; [exact S0|]. destruct (short_char _ _ S0) as [N1 _]. rewrite (group_step_help c y r) in G by auto. destruct ((y =? 61) || (y =? 45)) eqn:Y; [discriminate|].
      destruct (find_option [45; y]) as [a|] eqn:F; [|injection G as <- <-; apply Bh_stray; now apply stray_find].
      apply orb_false_iff in Y as [_ Y]. apply N.eqb_neq in Y. apply find_short_inv in F; [|exact Y]. destruct (group y (mean a) r) as [[l' miss']|] eqn:G'; [|discriminate]. injection G as <- <-. eapply IH; eassumption.
Qed.
Lemma group_behind t b : Behind t b -> forall c m, Short c m -> (forall f, m <> Number f) -> exists l miss, group c m t = Some (l, miss) /\ open miss = b /\ (m = Help -> exists l', l = V_help :: l').
Proof.
  revert b. induction t as [|x t IH]; intros b B c m S0 NF.
  - apply behind_inv in B as [[_ ->]|(c' & r & E & _)]; [|discriminate]. destruct m as [o|f|]; [| now destruct (NF f)|]; cbn; do 2 eexists; (split; [reflexivity|split; [reflexivity|]]); [discriminate|eauto].
  - destruct (short_char _ _ S0) as [N1 _].
    assert (K : forall here, group c m (x :: t) = (if (x =? 61) || (x =? 45) then None else match find_option [45; x] with
       | None => Some ([here; V_extra], None)
       | Some a => match group x (mean a) t with Some (l, f) => Some (here :: l, f) | None => None end end) ->
       (m = Help -> here = V_help) -> exists l miss, group c m (x :: t) = Some (l, miss) /\ open miss = b /\ (m = Help -> exists l', l = V_help :: l')).
    { intros here K HH. apply behind_inv in B as [[E _]|(c' & r & E & B)]; [discriminate|]. injection E as <- <-. destruct B as [[ST ->]|(m' & S1 & B)].
      - apply stray_find in ST as [E1 E2]. rewrite K, E1, E2. do 2 eexists. split; [reflexivity|]. split; [reflexivity|]. intros M. rewrite HH by exact M. eauto.
      - rewrite K, (short_next x t here m' S1). destruct m' as [o'|f'|].
        + destruct (IH b B x (Flag o') S1) as (l & miss & G & O & _); [discriminate|]. rewrite G. do 2 eexists. split; [reflexivity|]. split; [exact O|]. intros M. rewrite HH by exact M. eauto.
        + rewrite group_closing. unfold closing. destruct t as [|y t].
          * cbn [explicit_of]. do 2 eexists. split; [reflexivity|]. split; [now rewrite B|]. intros M. rewrite HH by exact M. eauto.
          * assert (X : exists sp v, explicit_of (y :: t) = Some (sp, v)) by (destruct (N.eq_dec y 61) as [->|N]; [cbn; eauto|rewrite explicit_other by exact N; eauto]). destruct X as (sp & v & X). rewrite X.
            do 2 eexists. split; [reflexivity|]. split; [now rewrite B|]. intros M. rewrite HH by exact M. eauto.
        + destruct (IH b B x Help S1) as (l & miss & G & O & _); [discriminate|]. rewrite G. do 2 eexists. split; [reflexivity|]. split; [exact O|]. intros M. rewrite HH by exact M. eauto. }
    destruct m as [o|f|]; [apply (K (V_opt o)); [now apply group_step|discriminate]|now destruct (NF f)|apply (K V_help); [now apply group_step_help|reflexivity]].
Qed.
(** a word of flags, followed by something *)
Lemma flags_group cs os : Flags cs os -> forall c o x t, Short c (Flag o) ->
  group c (Flag o) (cs ++ x :: t) = match group (last (c :: cs) 0) (Flag (last (o :: os) o)) (x :: t) with Some (l, m) => Some (map V_opt (removelast (o :: os)) ++ l, m) | None => None end.
Proof.
  induction 1 as [|y o' cs os S1 F IH]; intros c o x t S0.
  - cbn [app last removelast map]. destruct (group c (Flag o) (x :: t)) as [[l m]|]; reflexivity.
  - destruct (short_char _ _ S0) as [N1 _]. cbn [app]. rewrite (group_step c y (cs ++ x :: t) o) by auto. rewrite (short_next y (cs ++ x :: t) (V_opt o) _ S1), (IH y o' x t S1).
    assert (L : forall (A : Type) (d d' : A) l, l <> [] -> last l d = last l d').
    { intros A d d' l. induction l as [|p [|q l] IHl]; intros NL; [now destruct NL|reflexivity|]. cbn [last]. now apply IHl. }
    change (last (c :: y :: cs) 0) with (last (y :: cs) 0). change (last (o :: o' :: os) o) with (last (o' :: os) o). rewrite (L opt o o' (o' :: os)) by discriminate.
    change (removelast (o :: o' :: os)) with (o :: removelast (o' :: os)). destruct (group (last (y :: cs) 0) _ (x :: t)) as [[l m]|]; reflexivity.
Qed.
Lemma last_flag cs os : Flags cs os -> forall c o, Short c (Flag o) -> Short (last (c :: cs) 0) (Flag (last (o :: os) o)).
Proof.
  induction 1 as [|y o' cs os S1 F IH]; intros c o S0; [exact S0|]. specialize (IH y o' S1).
  change (last (c :: y :: cs) 0) with (last (y :: cs) 0). change (last (o :: o' :: os) o) with (last (o' :: os) o).
  assert (L : forall (A : Type) (d d' : A) l, l <> [] -> last l d = last l d').
  { intros A d d' l. induction l as [|p [|q l] IHl]; intros NL; [now destruct NL|reflexivity|]. cbn [last]. now apply IHl. }
  rewrite (L opt o o' (o' :: os)) by discriminate. exact IH.
Qed.
(** all the shapes of a word *)
Inductive Shape (w : list N) (miss : option (Z -> opt)) (l : list arg_event) : Prop :=
| Sp_flags os : Flags w os -> miss = None -> l = map V_opt os -> Shape w miss l
| Sp_number cs os x f t l' : w = cs ++ x :: t -> Flags cs os -> Short x (Number f) -> closing x f t = Some (l', miss) -> l = map V_opt os ++ l' -> Shape w miss l
| Sp_stray cs os x t : w = cs ++ x :: t -> cs <> [] -> Flags cs os -> Stray x -> miss = None -> l = map V_opt os ++ [V_extra] -> Shape w miss l
| Sp_help cs os x t l' : w = cs ++ x :: t -> Flags cs os -> Short x Help -> Behind t (open miss) -> l = map V_opt os ++ V_help :: l' -> Shape w miss l.
Lemma group_shape r : forall c m l miss, Short c m -> group c m r = Some (l, miss) -> Shape (c :: r) miss l.
Proof.
  induction r as [|y r IH]; intros c m l miss S0 G.
  - destruct m as [o|f|]; cbn in G; injection G as <- <-.
    + apply (Sp_flags _ _ _ [o]); [repeat constructor; exact S0|reflexivity|reflexivity].
    + apply (Sp_number _ _ _ [] [] c f [] []); [reflexivity|constructor|exact S0|reflexivity|reflexivity].
    + apply (Sp_help _ _ _ [] [] c [] []); [reflexivity|constructor|exact S0|constructor|reflexivity].
  - destruct (short_char _ _ S0) as [N1 _]. destruct m as [o|f|].
    + rewrite (group_step c y r o) in G by auto. destruct ((y =? 61) || (y =? 45)) eqn:Y; [discriminate|]. destruct (find_option [45; y]) as [a|] eqn:F.
      2:{ injection G as <- <-. apply (Sp_stray _ _ _ [c] [o] y r); [reflexivity|discriminate|repeat constructor; exact S0|now apply stray_find|reflexivity|reflexivity]. }
      apply orb_false_iff in Y as [_ Y]. apply N.eqb_neq in Y. apply find_short_inv in F; [|exact Y]. destruct (group y (mean a) r) as [[l' miss']|] eqn:G'; [|discriminate]. injection G as <- <-.
      destruct (IH _ _ _ _ F G') as [os FL M ->|cs os x f t l1 E FL SX CL ->|cs os x t E NE FL ST M ->|cs os x t l1 E FL SX B ->].
      * apply (Sp_flags _ _ _ (o :: os)); [now constructor|exact M|reflexivity].
      * apply (Sp_number _ _ _ (c :: cs) (o :: os) x f t l1); [now rewrite E|now constructor|exact SX|exact CL|reflexivity].
      * apply (Sp_stray _ _ _ (c :: cs) (o :: os) x t); [now rewrite E|discriminate|now constructor|exact ST|exact M|reflexivity].
      * apply (Sp_help _ _ _ (c :: cs) (o :: os) x t l1); [now rewrite E|now constructor|exact SX|exact B|reflexivity].
    + rewrite group_closing in G. apply (Sp_number _ _ _ [] [] c f (y :: r) l); [reflexivity|constructor|exact S0|exact G|reflexivity].
    + assert (B : Behind (c :: y :: r) (open miss)) by (eapply behind_group; eassumption).
      apply behind_inv in B as [[E _]|(c' & r' & E & B)]; [discriminate|]. injection E as <- <-. destruct B as [[ST _]|(m' & S1 & B)]; [destruct ST as (_ & _ & ST); now destruct (ST Help)|].
      assert (m' = Help) as -> by (eapply short_fun; eassumption). destruct (group_behind _ _ B c Help S0) as (l1 & miss1 & G1 & _ & H1); [discriminate|]. rewrite G in G1. injection G1 as <- <-. destruct (H1 eq_refl) as [l' ->].
      apply (Sp_help _ _ _ [] [] c (y :: r) l'); [reflexivity|constructor|exact S0|exact B|reflexivity].
Qed.
(** how flags continue *)
Lemma flags_then cs os x t : Flags cs os -> cs <> [] -> (x =? 61) || (x =? 45) = false -> exists c m r, cs ++ x :: t = c :: r /\ Short c m /\
  group c m r = match find_option [45; x] with
     | None => Some (map V_opt os ++ [V_extra], None)
     | Some a => match group x (mean a) t with Some (l, f) => Some (map V_opt os ++ l, f) | None => None end end.
Proof.
  intros F. destruct F as [|c o cs os S0 F]; intros NE X; [now destruct NE|]. exists c, (Flag o), (cs ++ x :: t). split; [reflexivity|]. split; [exact S0|].
  rewrite (flags_group _ _ F c o x t S0). pose proof (last_flag _ _ F c o S0) as SL. destruct (short_char _ _ SL) as [N1 _]. rewrite (group_step _ x t _ _ N1 eq_refl), X.
  assert (R : map V_opt (o :: os) = map V_opt (removelast (o :: os)) ++ [V_opt (last (o :: os) o)]).
  { rewrite (app_removelast_last (l := o :: os) o) at 1 by discriminate. now rewrite map_app. }
  rewrite R. destruct (find_option [45; x]) as [a|]; [destruct (group x (mean a) t) as [[l m]|]|]; rewrite <- ?app_assoc; reflexivity.
Qed.

(** * Lines *)
Inductive Shown : list arg_event -> list opt -> Prop :=
| Sh_here t : Shown (V_help :: t) []
| Sh_opt o l os : Shown l os -> Shown (V_opt o :: l) (o :: os)
| Sh_extra l os : Shown l os -> Shown (V_extra :: l) os.
Lemma shown_app os l r : Shown l r -> Shown (map V_opt os ++ l) (os ++ r).
Proof. intros H. induction os as [|o os IH]; [exact H|]. cbn. now constructor. Qed.
Lemma shown_app_inv os l r : Shown (map V_opt os ++ l) r -> exists r', r = os ++ r' /\ Shown l r'.
Proof.
  revert r. induction os as [|o os IH]; intros r H; [now exists r|]. cbn in H. inversion H as [|o' l' os' H'|]; subst. apply IH in H' as (r' & -> & H'). now exists r'.
Qed.
Lemma shown_extra l r : Shown (V_extra :: l) r -> Shown l r.
Proof. intros H. now inversion H. Qed.
Lemma shown_opt o l r : Shown (V_opt o :: l) r -> exists r', Shown l r'.
Proof. intros H. inversion H; eauto. Qed.
Lemma shown_nil r : ~ Shown [] r.
Proof. intros H. inversion H. Qed.
Lemma shown_args q : forall u r, ~ Shown (events u (map I_arg q)) r.
Proof.
  assert (K : forall p r, ~ Shown (events true (map I_arg p)) r) by (induction p as [|v p IH]; intros r H; cbn [map events] in H; [now apply shown_nil in H|apply shown_extra in H; now apply IH in H]).
  intros [|] r; [apply K|]. destruct q as [|v q]; cbn [map events]; intros H; [now apply shown_nil in H|]. apply shown_opt in H as [r' H]. destruct q as [|v' q]; [now apply shown_nil in H|]. now apply (K (v' :: q)) in H.
Qed.
Lemma shown_dash q u r : ~ Shown (events u (I_dash :: map I_arg q)) r.
Proof.
  cbn [events]. destruct u; [intros H; apply shown_extra in H; now apply shown_args in H|]. destruct q as [|v q]; cbn [map]; intros H; [now apply shown_nil in H|]. apply shown_opt in H as [r' H]. now apply shown_args in H.
Qed.
Lemma clear_one s : Clear [s] -> s <> [45; 45] -> ~ Ambiguous s.
Proof. intros C N. inversion C; subst; [congruence|assumption]. Qed.
Lemma parse_unknown s : s <> [45; 45] -> (parse_optional s = Some I_unknown <-> ~ Operand s /\ ~ Optional s).
Proof.
  intros ND. split.
  - intros P. split; [intros O; rewrite (parse_operand s O) in P; discriminate|]. intros O. apply optional_cases in O as [(p & e & n & m & -> & L & B)|(c & m & r & -> & S0)]; [|rewrite (parse_short _ _ r S0) in P; discriminate].
    assert (NE : ~ In 61 p) by (eapply begins_no_eq; eassumption). assert (I1 : In (45 :: 45 :: n, act_of m) (matches p)) by (apply matches_in; eauto 8).
    destruct (matches p) as [|[n' a'] [|y l]] eqn:M; [destruct I1| |].
    + destruct (matches_one _ _ _ M) as (nm & m' & -> & -> & LF). destruct (parse_long p m' e LF) as [k K]. congruence.
    + assert (C : Clear [45 :: 45 :: p ++ tail_of e]) by (apply classify_clear; rewrite classify_cons, P by exact ND; cbn; eauto). apply (clear_one _ C ND).
      destruct y as [n2 a2]. assert (I1' : In (n', a') (matches p)) by (rewrite M; now left). assert (I2 : In (n2, a2) (matches p)) by (rewrite M; right; now left).
      assert (ND' : NoDup (matches p)) by (apply NoDup_filter, table_nodup). rewrite M in ND'.
      apply matches_in in I1' as (n1 & m1 & -> & -> & L1 & B1). apply matches_in in I2 as (k2 & m2 & -> & -> & L2 & B2).
      exists p, n1, m1, k2, m2. split; [destruct e as [v|]; [right; now exists v|left; cbn; now rewrite app_nil_r]|]. repeat (split; [assumption|]). intros ->.
      inversion ND' as [|? ? K _]; subst. apply K. left. now rewrite (long_fun _ _ _ L1 L2).
  - intros [NO NP]. destruct s as [|c s]; [destruct NO; exact Op_empty|]. destruct (N.eq_dec c 45) as [->|N]; [|destruct NO; now apply Op_plain]. destruct s as [|c s]; [destruct NO; exact Op_dash|].
    rewrite (parse_not_optional c s NP). destruct (negative_number (45 :: c :: s)) eqn:E1; [apply negative_iff in E1; destruct NO; now apply Op_negative|].
    destruct (existsb (N.eqb 32) (45 :: c :: s)) eqn:E2; [|reflexivity]. apply existsb_32 in E2. destruct E2 as [E2|E2]; [discriminate|]. destruct NO. now apply Op_blank.
Qed.
(** short words within a line *)
Lemma short_word u c m r rest l : Short c m -> classify rest = Some l -> exists l', classify ((45 :: c :: r) :: rest) = Some l' /\
  events u l' = match group c m r with
  | None => [V_fail]
  | Some (l0, None) => l0 ++ events u l
  | Some (l0, Some f) => match l with I_arg v :: r' => l0 ++ take_int f v :: events u r' | _ => [V_fail] end
  end.
Proof.
  intros S0 C. exists (I_opt (act_of m) [45; c] (explicit_of r) :: l). split; [|apply events_group]. rewrite classify_cons by (eapply short_not_dashes; eassumption). now rewrite (parse_short _ _ r S0), C.
Qed.
Lemma help_word cs os x t b : Flags cs os -> Short x Help -> Behind t b -> exists c m r l miss, cs ++ x :: t = c :: r /\ Short c m /\ group c m r = Some (map V_opt os ++ V_help :: l, miss) /\ open miss = b.
Proof.
  intros F SX B. destruct (group_behind t b B x Help SX) as (l0 & miss & G & O & H); [discriminate|]. destruct (H eq_refl) as [l ->]. destruct F as [|c o cs os S0 F].
  - exists x, Help, t, l, miss. auto.
  - destruct (short_char _ _ SX) as [N1 N2]. apply N.eqb_neq in N1, N2. destruct (flags_then (c :: cs) (o :: os) x t) as (c' & m & r & E & S1 & K); [now constructor|discriminate|now rewrite N1, N2|].
    exists c', m, r, l, miss. split; [exact E|]. split; [exact S1|]. rewrite K, (find_short _ _ SX), mean_act, G. auto.
Qed.
Lemma request_events ws os : Request ws os -> forall u rest l, classify rest = Some l -> exists l', classify (ws ++ rest) = Some l' /\ Shown (events u l') os.
Proof.
  intros R u rest l C. destruct R as [p L|cs os c t F S0 B|cs os c t v F S0 B O]; cbn [app].
  - destruct (parse_long p _ None L) as [nm K]. pose proof (long_not_dashes p _ None L) as ND. cbn [tail_of] in *. rewrite app_nil_r in *. rewrite classify_cons, K, C by exact ND. eexists. split; [reflexivity|]. constructor.
  - destruct (help_word cs os c t false F S0 B) as (x & m & r & l0 & miss & E & SX & G & O). destruct miss as [f|]; [discriminate|]. rewrite E. destruct (short_word u x m r rest l SX C) as (l' & C' & E').
    exists l'. split; [exact C'|]. rewrite E', G, <- app_assoc. rewrite <- (app_nil_r os) at 2. apply shown_app. constructor.
  - destruct (help_word cs os c t true F S0 B) as (x & m & r & l0 & miss & E & SX & G & OM). destruct miss as [f|]; [|discriminate]. rewrite E.
    assert (C1 : classify (v :: rest) = Some (I_arg v :: l)) by (rewrite classify_cons, (parse_operand v O), C by (now apply operand_not_dashes); reflexivity).
    destruct (short_word u x m r (v :: rest) _ SX C1) as (l' & C' & E').
    exists l'. split; [exact C'|]. rewrite E', G, <- app_assoc. rewrite <- (app_nil_r os) at 2. apply shown_app. constructor.
Qed.
Lemma asks_events u argv opts : Asks u argv opts -> exists l, classify argv = Some l /\ Shown (events u l) opts.
Proof.
  induction 1 as [u ws os rest R CL|u ws os rest r W _ (l & C & E)|v rest r O _ (l & C & E)|v rest r O _ (l & C & E)|u s rest r (ND & NO & NP) _ (l & C & E)|u cs os c t rest r NE F ST _ (l & C & E)].
  - apply classify_clear in CL as [l C]. eapply request_events; eassumption.
  - destruct (words_events ws os W u rest l C) as (l' & C' & E'). exists l'. split; [exact C'|]. rewrite E'. now apply shown_app.
  - exists (I_arg v :: l). rewrite classify_cons, (parse_operand v O), C by (now apply operand_not_dashes). split; [reflexivity|]. cbn [events]. constructor.
    destruct l as [|[| | |] l]; try exact E. exfalso. destruct (classify_inv _ _ C) as [[_ Q]|[(q & _ & Q)|(s & q & i & l' & _ & _ & K & _ & Q)]]; [discriminate| |injection Q as <- _; inversion K].
    injection Q as ->. revert E. apply shown_dash.
  - exists (I_arg v :: l). rewrite classify_cons, (parse_operand v O), C by (now apply operand_not_dashes). split; [reflexivity|]. cbn [events]. now constructor.
  - exists (I_unknown :: l). rewrite classify_cons, C by exact ND. assert (P : parse_optional s = Some I_unknown) by (apply parse_unknown; auto). rewrite P. split; [reflexivity|]. cbn [events]. now constructor.
  - apply stray_find in ST as [S1 S2]. destruct (flags_then cs os c t F NE S1) as (x & m & q & EQ & SX & K). rewrite EQ. destruct (short_word u x m q rest l SX C) as (l' & C' & E'). exists l'. split; [exact C'|].
    rewrite E', K, S2, <- app_assoc. apply shown_app. cbn [app]. now constructor.
Qed.
Lemma asks_complete n : forall u argv l opts, (List.length argv <= n)%nat -> classify argv = Some l -> Shown (events u l) opts -> Asks u argv opts.
Proof.
  induction n as [|n IH]; intros u argv l opts HN C E.
  - destruct argv; [|cbn in HN; lia]. injection C as <-. inversion E.
  - destruct (classify_inv _ _ C) as [[-> ->]|[(r & -> & ->)|(s & r & i & l' & -> & ND & K & C' & ->)]]; [inversion E|now apply shown_dash in E|].
    assert (CLR : Clear r) by (apply classify_clear; eauto). cbn [List.length] in HN.
    assert (PU : i = I_unknown -> Unknown s).
    { intros ->. rewrite classify_cons, C' in C by exact ND. destruct (parse_optional s) as [i|] eqn:P; [|discriminate]. injection C as ->. split; [exact ND|]. now apply parse_unknown. }
    destruct K as [O|p m e nm -> L|c m r' -> S0|].
    + cbn [events] in E. destruct u.
      * inversion E as [| |l0 os E0]; subst. apply As_operand; [exact O|]. apply (IH true r l'); [lia|exact C'|assumption].
      * inversion E as [|o l0 os E0|]; subst. apply As_file; [exact O|]. apply (IH true r l'); [lia|exact C'|].
        destruct l' as [|[| | |] l']; try exact E0. exfalso. destruct (classify_inv _ _ C') as [[_ Q]|[(q & _ & Q)|(s' & q & i & l2 & _ & _ & K & _ & Q)]]; [discriminate| |injection Q as <- _; inversion K].
        injection Q as ->. revert E0. apply shown_args.
    + destruct e as [v|]; cbn [option_map tail_of] in *.
      * assert (B : bundle (act_of m) (45 :: 45 :: nm) true v = match m with Number f => Some ([take_int f v], None) | _ => None end) by (destruct m, v; reflexivity).
        assert (EV : events u (I_opt (act_of m) (45 :: 45 :: nm) (Some (true, v)) :: l') = match m with Number f => take_int f v :: events u l' | _ => [V_fail] end).
        { destruct m; cbn [events act_of]; cbn [act_of] in B; rewrite B; reflexivity. }
        rewrite EV in E. destruct m as [o|f|]; try (inversion E; fail). destruct (take_int f v) as [o| | |] eqn:T; try (unfold take_int in T; destruct (int_of v); discriminate); [|inversion E].
        inversion E as [|o' l0 os E0|]; subst. apply take_int_iff in T as (z & NV & ->).
        apply (As_words u [45 :: 45 :: p ++ 61 :: v] [f z]); [now apply W_long_eq|]. eapply IH; eauto. lia.
      * rewrite app_nil_r in *. destruct m as [o|f|]; cbn [events act_of] in E.
        -- inversion E as [|o' l0 os E0|]; subst. apply (As_words u [45 :: 45 :: p] [o]); [now apply W_long|]. eapply IH; eauto. lia.
        -- destruct l' as [|[v| | |] l']; try (inversion E; fail). destruct (take_int f v) as [o| | |] eqn:T; try (unfold take_int in T; destruct (int_of v); discriminate); [|inversion E].
           inversion E as [|o' l0 os E0|]; subst. apply take_int_iff in T as (z & NV & ->).
           apply classify_arg in C' as (rest & -> & O & C'). apply (As_words u [45 :: 45 :: p; v] [f z]); [now apply W_long_next|]. eapply IH; eauto. cbn in HN. lia.
        -- inversion E; subst. apply (As_request u [45 :: 45 :: p] []); [now apply Rq_long|exact CLR].
    + rewrite events_group in E. destruct (group c m r') as [[l0 miss]|] eqn:G; [|inversion E].
      destruct (group_shape _ _ _ _ _ S0 G) as [os FL -> ->|cs os x f t l1 EQ FL SX CL ->|cs os x t EQ NE FL ST -> ->|cs os x t l1 EQ FL SX B ->].
      * apply shown_app_inv in E as (r0 & -> & E). apply (As_words u [45 :: c :: r'] os); [apply W_flags; [discriminate|exact FL]|]. eapply IH; eauto. lia.
      * rewrite EQ. unfold closing in CL. destruct t as [|y t].
        -- cbn [explicit_of] in CL. injection CL as <- <-. rewrite app_nil_r in E. destruct l' as [|[v| | |] l']; try (inversion E; fail). apply shown_app_inv in E as (r0 & -> & E).
           destruct (take_int f v) as [o| | |] eqn:T; try (unfold take_int in T; destruct (int_of v); discriminate); [|inversion E]. inversion E as [|o' l2 os' E0|]; subst. apply take_int_iff in T as (z & NV & ->).
           apply classify_arg in C' as (rest & -> & O & C'). replace (os ++ f z :: os') with ((os ++ [f z]) ++ os') by (now rewrite <- app_assoc).
           apply (As_words u [45 :: cs ++ [x]; v]); [now apply W_next|]. eapply IH; eauto. cbn in HN. lia.
        -- assert (X : exists v, explicit_of (y :: t) = Some (match y with 61 => true | _ => false end, v) /\ (y :: t = v \/ y :: t = 61 :: v)).
           { destruct (N.eq_dec y 61) as [->|N]; [exists t; auto|]. exists (y :: t). rewrite explicit_other by exact N. split; [|now left]. f_equal. f_equal. destruct y as [|q]; [reflexivity|]. do 6 (try (destruct q as [q|q|]; try reflexivity)). now destruct N. }
           destruct X as (v & X & XV). rewrite X in CL. injection CL as <- <-. rewrite <- app_assoc in E. apply shown_app_inv in E as (r0 & -> & E). cbn [app] in E.
           destruct (take_int f v) as [o| | |] eqn:T; try (unfold take_int in T; destruct (int_of v); discriminate); [|inversion E]. inversion E as [|o' l2 os' E0|]; subst. apply take_int_iff in T as (z & NV & ->).
           replace (os ++ f z :: os') with ((os ++ [f z]) ++ os') by (now rewrite <- app_assoc).
           apply (As_words u [45 :: cs ++ x :: y :: t]); [destruct XV as [-> | ->]; [now apply W_attached|now apply W_eq]|]. eapply IH; eauto. lia.
      * rewrite EQ. rewrite <- app_assoc in E. apply shown_app_inv in E as (r0 & -> & E). cbn [app] in E. inversion E as [| |l2 os' E0]; subst. apply As_stray; try assumption. eapply IH; eauto. lia.
      * rewrite EQ. destruct miss as [f|].
        -- destruct l' as [|[v| | |] l']; try (inversion E; fail). rewrite <- app_assoc in E. apply shown_app_inv in E as (r0 & -> & E). cbn [app] in E. inversion E; subst. rewrite app_nil_r.
           apply classify_arg in C' as (rest & -> & O & C'). apply (As_request u [45 :: cs ++ x :: t; v] os rest); [now apply Rq_open|]. apply classify_clear. eauto.
        -- rewrite <- app_assoc in E. apply shown_app_inv in E as (r0 & -> & E). cbn [app] in E. inversion E; subst. rewrite app_nil_r.
           apply (As_request u [45 :: cs ++ x :: t] os r); [now apply Rq_short|exact CLR].
    + cbn [events] in E. inversion E as [| |l0 os E0]; subst. apply As_unknown; [now apply PU|]. eapply IH; eauto. lia.
Qed.
Lemma asks_iff u argv opts : Asks u argv opts <-> exists l, classify argv = Some l /\ Shown (events u l) opts.
Proof. split; [apply asks_events|]. intros (l & C & E). eapply asks_complete; eauto. Qed.

(** * The program *)
Lemma flags_no_file cs os : Flags cs os -> forall v, ~ In (O_file v) os.
Proof. induction 1 as [|c o cs os' H F IH]; intros v I; [destruct I|]. destruct I as [->|I]; [now apply (short_no_file _ _ H v)|]. eapply IH; eassumption. Qed.
Lemma asks_one_file u argv opts : Asks u argv opts -> one_file u opts.
Proof.
  assert (K : forall u os, (forall v, ~ In (O_file v) os) -> one_file u os) by (intros u' os H; rewrite <- (app_nil_r os); apply one_file_app; [exact H|exact I]).
  induction 1 as [u ws os rest R CL|u ws os rest r W _ IH|v rest r O _ IH|v rest r O _ IH|u s rest r UN _ IH|u cs os c t rest r NE F ST _ IH]; auto.
  - apply K. destruct R as [p L|cs os c t F S0 B|cs os c t v F S0 B O]; [intros v []| |]; eapply flags_no_file; eassumption.
  - apply one_file_app; [|exact IH]. eapply words_no_file; eassumption.
  - cbn [one_file is_file orb]. auto.
  - apply one_file_app; [|exact IH]. eapply flags_no_file; eassumption.
Qed.
Lemma act_shown l opts : Shown l opts -> forall extra seen s, one_file (existsb is_file seen) opts -> (act extra seen s l = C_help <-> parse_opts seen s opts <> None).
Proof.
  induction 1 as [t|o l os _ IH|l os _ IH]; intros extra seen s F.
  - cbn. split; [discriminate|reflexivity].
  - cbn [act parse_opts]. destruct (existsb (conflict o) seen); [split; [discriminate|intros H; now destruct H]|]. destruct F as [F1 F2].
    assert (E : is_file o && existsb is_file seen = false) by (destruct (is_file o); [rewrite F1 by reflexivity|]; reflexivity). rewrite E. apply IH. cbn [existsb]. now rewrite orb_comm.
  - cbn [act]. now apply IH.
Qed.
Lemma act_shown_some l : forall extra seen s, act extra seen s l = C_help -> exists opts, Shown l opts.
Proof.
  induction l as [|e l IH]; intros extra seen s H; [cbn in H; destruct extra; discriminate|]. destruct e as [o| | |]; cbn [act] in H; try discriminate.
  - destruct (existsb (conflict o) seen); [discriminate|]. apply IH in H as [opts H]. exists (o :: opts). now constructor.
  - exists []. constructor.
  - apply IH in H as [opts H]. exists opts. now constructor.
Qed.
Lemma command_line_help argv : command_line argv = C_help <-> exists opts, Asks false argv opts /\ ~ Rejected opts.
Proof.
  split.
  - intros H. unfold command_line in H. destruct (classify argv) as [l|] eqn:C; [|discriminate]. destruct (act_shown_some _ _ _ _ H) as [opts SH].
    assert (A : Asks false argv opts) by (apply asks_iff; eauto). exists opts. split; [exact A|]. apply (act_shown _ _ SH) in H; [|exact (asks_one_file _ _ _ A)]. intros R. apply parse_args_none in R. now apply H.
  - intros (opts & A & R). pose proof (asks_one_file _ _ _ A) as F. apply asks_iff in A as (l & C & SH). unfold command_line. rewrite C. apply (act_shown _ _ SH); [exact F|]. intros P. apply R. now apply parse_args_none.
Qed.
Lemma main_help_iff w argv : main w argv = None <-> exists opts, Asks false argv opts /\ ~ Rejected opts.
Proof. rewrite <- command_line_help. unfold main. destruct (command_line argv); split; congruence. Qed.
Lemma main_code_two w argv : (forall opts, Invocation argv opts -> Rejected opts) -> (forall opts, Asks false argv opts -> Rejected opts) -> main w argv = Some (mkApp [] None (Some 2%Z)).
Proof.
  intros H1 H2. unfold main. destruct (command_line argv) as [| |s] eqn:E; [reflexivity| |]; exfalso.
  - apply command_line_help in E as (opts & A & R). now apply R, H2.
  - apply command_line_run in E as (opts & A & R). apply H1, parse_args_none in A. congruence.
Qed.
Lemma shown_fun l o1 o2 : Shown l o1 -> Shown l o2 -> o1 = o2.
Proof. intros H. revert o2. induction H as [t|o l os _ IH|l os _ IH]; intros o2 H2; inversion H2; subst; [reflexivity|f_equal; now apply IH|now apply IH]. Qed.
Lemma asks_fun argv o1 o2 : Asks false argv o1 -> Asks false argv o2 -> o1 = o2.
Proof. intros H1 H2. apply asks_iff in H1 as (l & C & E). apply asks_iff in H2 as (l' & C' & E'). rewrite C in C'. injection C' as <-. eapply shown_fun; eassumption. Qed.
Lemma asks_not_invocation argv o1 o2 : Asks false argv o1 -> ~ Invocation argv o2.
Proof.
  intros H1 H2. apply asks_iff in H1 as (l & C & E). apply invocation_iff in H2 as (l' & C' & E'). rewrite C in C'. injection C' as <-. rewrite E' in E. rewrite <- (app_nil_r (map V_opt o2)) in E. apply shown_app_inv in E as (r & _ & E). inversion E.
Qed.
Lemma asks_computed argv opts : match classify argv with Some l => Shown (events false l) opts | None => False end -> Asks false argv opts.
Proof. intros H. destruct (classify argv) as [l|] eqn:C; [|destruct H]. apply asks_iff. eauto. Qed.
