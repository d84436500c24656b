(** Usage errors: the reasons, and what the terminal shows *)
From Coq Require Import Ascii String.
From Coq Require Import List Arith NArith ZArith Bool Lia Permutation.
From Verif.Model Require Import Base Settings Runner Options Render SettingsDump Process Args Help UsageErrors.
From Verif.Spec Require Import Terminal Weave Invocation CommandLine HelpAsked SettingsShown UsageReasons Conditions.
From Verif.Proof Require Import BaseFacts TermFacts ArgsInt ArgsFacts ArgsClaims ArgsMain ArgsHelp AppClaims SettingsFacts SettingsClaims HelpClaims UsageFacts UsageReads.
Import ListNotations.
Local Open Scope N_scope.

(** * Names of options *)
Lemma called_flag o a n : In (a, n, Flag o) documented -> name_of (a, n, Flag o) = opt_title o -> Called o (opt_title o).
Proof. intros D E. right. exists a, n, (Flag o). split; [exact D|]. split; [now symmetry|]. now left. Qed.
Lemma called_number f a n : In (a, n, Number f) documented -> (forall z, name_of (a, n, Number f) = opt_title (f z)) -> forall z, Called (f z) (opt_title (f z)).
Proof. intros D E z. right. exists a, n, (Number f). split; [exact D|]. split; [now symmetry|]. right. exists f, z. auto. Qed.
Ltac flag_at k := first [refine (called_flag _ _ _ (nth_error_In documented k eq_refl) _); vm_compute; reflexivity|let k' := eval vm_compute in (S k) in flag_at k'].
Lemma called_title o : Called o (opt_title o).
Proof.
  destruct o as [v| | | | | |c|c|z|z|z| | |z| | |z| | |]; [left; exists v; split; reflexivity|..]; try destruct c;
    try (match goal with |- Called ?o _ => match o with
      | O_buffer _ => idtac | O_max_lines _ => idtac | O_max_bytes _ => idtac | O_marker _ => idtac | O_columns _ => idtac | _ => flag_at 0%nat end end);
    revert z.
  - refine (called_number O_buffer _ _ (nth_error_In documented 6 eq_refl) _). reflexivity.
  - refine (called_number O_max_lines _ _ (nth_error_In documented 7 eq_refl) _). reflexivity.
  - refine (called_number O_max_bytes _ _ (nth_error_In documented 8 eq_refl) _). reflexivity.
  - refine (called_number O_marker _ _ (nth_error_In documented 11 eq_refl) _). reflexivity.
  - refine (called_number O_columns _ _ (nth_error_In documented 14 eq_refl) _). reflexivity.
Qed.
Lemma called_iff o t : Called o t <-> t = opt_title o.
Proof.
  split; [|intros ->; apply called_title]. intros [(v & -> & ->)|(a & n & m & D & -> & K)]; [reflexivity|].
  unfold documented, both, only in D.
  repeat (destruct D as [D|D]; [injection D as <- <- <-; destruct K as [K|(f & z & K & ->)]; try discriminate K; injection K as <-; vm_compute; reflexivity|]). destruct D.
Qed.
Lemma rival_iff o seen t : (forall a b, In a seen -> In b seen -> conflict a b = false) -> (rival o seen = Some t <-> exists b, In b seen /\ conflict o b = true /\ t = opt_title b).
Proof.
  intros NC. unfold rival. split.
  - intros F. apply find_some in F as [I E]. apply existsb_exists in E as (b & IB & EB). apply eqb_list_spec in EB. exists b. split; [exact IB|]. split; [|now symmetry].
    rewrite <- rivals_conflict. apply existsb_exists. exists t. split; [exact I|]. now rewrite EB, eqb_list_refl.
  - intros (b & IB & CB & ->). pose proof CB as CB'. rewrite <- rivals_conflict in CB'. apply existsb_exists in CB' as (t & I & E). apply eqb_list_spec in E. subst t.
    destruct (find _ _) as [t|] eqn:F.
    + apply find_some in F as [IT ET]. apply existsb_exists in ET as (p & IP & EP). apply eqb_list_spec in EP. subst t. f_equal.
      assert (CP : conflict o p = true) by (rewrite <- rivals_conflict; apply existsb_exists; exists (opt_title p); split; [exact IT|apply eqb_list_refl]). symmetry. apply (conflict_same o b p CB CP). now apply NC.
    + exfalso. pose proof (find_none _ _ F _ I) as K. cbv beta in K. assert (Q : existsb (fun p => eqb_list (opt_title p) (opt_title b)) seen = true) by (apply existsb_exists; exists b; split; [exact IB|apply eqb_list_refl]). congruence.
Qed.
Lemma rival_none o seen : (rival o seen = None <-> existsb (conflict o) seen = false).
Proof.
  unfold rival. split.
  - intros F. destruct (existsb (conflict o) seen) eqn:E; [|reflexivity]. apply existsb_exists in E as (b & IB & CB). rewrite <- rivals_conflict in CB. apply existsb_exists in CB as (t & I & E). apply eqb_list_spec in E. subst t.
    pose proof (find_none _ _ F _ I) as K. cbv beta in K. assert (Q : existsb (fun p => eqb_list (opt_title p) (opt_title b)) seen = true) by (apply existsb_exists; exists b; split; [exact IB|apply eqb_list_refl]). congruence.
  - intros E. destruct (find _ _) as [t|] eqn:F; [|reflexivity]. exfalso. apply find_some in F as [I EQ]. apply existsb_exists in EQ as (b & IB & EB). apply eqb_list_spec in EB. subst t.
    assert (C : conflict o b = true) by (rewrite <- rivals_conflict; apply existsb_exists; exists (opt_title b); split; [exact I|apply eqb_list_refl]).
    assert (Q : existsb (conflict o) seen = true) by (apply existsb_exists; eauto). congruence.
Qed.

(** * The model agrees with [command_line] *)
Lemma act_why_usage l : forall extras seen s, act_why extras seen l <> None <-> act (match extras with [] => false | _ => true end) seen s (map erase l) = C_usage.
Proof.
  induction l as [|y l IH]; intros extras seen s.
  - cbn. destruct extras; split; congruence.
  - destruct y as [o| |x|r]; cbn [act_why map erase act].
    + destruct (rival o seen) as [t|] eqn:R.
      * assert (E : existsb (conflict o) seen = true) by (destruct (existsb (conflict o) seen) eqn:E; [reflexivity|]; apply rival_none in E; congruence). rewrite E. split; congruence.
      * apply rival_none in R. rewrite R. apply IH.
    + split; congruence.
    + rewrite (IH (extras ++ [x]) seen s). destruct extras; reflexivity.
    + split; congruence.
Qed.
Lemma usage_reason_iff argv : usage_reason argv <> None <-> command_line argv = C_usage.
Proof.
  unfold usage_reason, command_line. rewrite classify_erase. destruct (classify_why argv) as [r|l]; [split; congruence|].
  rewrite (events_erase _ l false (le_n _)). apply (act_why_usage _ [] []).
Qed.

(** * The first trouble *)
Lemma smooth_conflict a : Smooth a -> forall x y, In x (rev (options_of a)) -> In y (rev (options_of a)) -> conflict x y = false.
Proof.
  intros [_ H] x y IX IY. apply in_rev in IX, IY. destruct (conflict x y) eqn:C; [|reflexivity]. apply conflict_spec in C as [C|C]; [now apply (H x y) in C|now apply (H y x) in C].
Qed.
Lemma no_self a : ~ Excludes a a.
Proof. intros H. inversion H. Qed.
Lemma smooth_surplus a s : Smooth a -> Smooth (a ++ [S_surplus s]).
Proof. intros [H1 H2]. split; [apply Forall_app; split; [exact H1|repeat constructor]|]. unfold options_of. rewrite flat_map_app. cbn [flat_map]. rewrite !app_nil_r. exact H2. Qed.
Lemma smooth_opt a o : Smooth a -> rival o (rev (options_of a)) = None -> Smooth (a ++ [S_opt o]).
Proof.
  intros [H1 H2] R. apply rival_none in R. split; [apply Forall_app; split; [exact H1|repeat constructor]|]. unfold options_of in *. rewrite flat_map_app. cbn [flat_map app].
  assert (K : forall x, In x (flat_map (fun x => match x with S_opt o => [o] | _ => [] end) a) -> ~ Excludes o x /\ ~ Excludes x o).
  { intros x I. split; intros E; assert (Q : existsb (conflict o) (rev (flat_map (fun x => match x with S_opt o => [o] | _ => [] end) a)) = true) by (apply existsb_exists; exists x; split; [now apply in_rev in I|apply conflict_spec; auto]); congruence. }
  intros x y IX IY. apply in_app_or in IX, IY. destruct IX as [IX|[<-|[]]], IY as [IY|[<-|[]]]; [now apply H2|now apply K|now apply K|apply no_self].
Qed.
Lemma act_trouble l : forall a r, Smooth a -> act_why (surplus_of a) (rev (options_of a)) (map tr l) = Some r -> Trouble (a ++ l) r.
Proof.
  induction l as [|x l IH]; intros a r SM H.
  - cbn in H. rewrite app_nil_r. destruct (surplus_of a) eqn:E; [discriminate|]. injection H as <-. rewrite <- E. apply T_surplus; [exact SM|congruence].
  - destruct x as [o| |t v|s|t|t v]; cbn [map tr act_why] in H.
    + destruct (rival o (rev (options_of a))) as [t|] eqn:R.
      * injection H as <-. apply rival_iff in R as (b & IB & CB & ->); [|now apply smooth_conflict]. apply in_rev in IB.
        apply (T_excluded a o l b); [exact SM|exact IB|now apply conflict_spec|apply called_title|apply called_title].
      * replace (a ++ S_opt o :: l) with ((a ++ [S_opt o]) ++ l) by (now rewrite <- app_assoc). apply IH; [now apply smooth_opt|]. unfold surplus_of, options_of in *. rewrite !flat_map_app. cbn [flat_map app]. rewrite app_nil_r, rev_app_distr. exact H.
    + discriminate.
    + injection H as <-. now apply T_not_number.
    + replace (a ++ S_surplus s :: l) with ((a ++ [S_surplus s]) ++ l) by (now rewrite <- app_assoc). apply IH; [now apply smooth_surplus|]. unfold surplus_of, options_of in *. rewrite !flat_map_app. cbn [flat_map app]. rewrite !app_nil_r. exact H.
    + injection H as <-. now apply T_missing.
    + injection H as <-. now apply T_needless.
Qed.
Lemma smooth_prefix a b : Smooth (a ++ b) -> Smooth a.
Proof.
  intros [H1 H2]. apply Forall_app in H1 as [H1 _]. split; [exact H1|]. intros x y IX IY. apply H2; unfold options_of in *; rewrite flat_map_app; apply in_or_app; now left.
Qed.
Lemma act_smooth b : forall a l, Smooth (a ++ b) -> act_why (surplus_of a) (rev (options_of a)) (map tr (b ++ l)) = act_why (surplus_of (a ++ b)) (rev (options_of (a ++ b))) (map tr l).
Proof.
  induction b as [|x b IH]; intros a l SM; [now rewrite app_nil_r|].
  replace (a ++ x :: b) with ((a ++ [x]) ++ b) in * by (now rewrite <- app_assoc). rewrite <- (IH (a ++ [x]) l SM).
  pose proof (smooth_prefix _ _ SM) as SX. destruct SX as [H1 H2]. apply Forall_app in H1 as [H0 H1]. inversion H1 as [|? ? HX _]; subst.
  destruct x as [o| |t v|s|t|t v]; cbn in HX; try contradiction; cbn [app map tr act_why].
  - assert (R : rival o (rev (options_of a)) = None).
    { apply rival_none. destruct (existsb (conflict o) (rev (options_of a))) eqn:E; [|reflexivity]. exfalso. apply existsb_exists in E as (y & I & C). apply in_rev in I.
      assert (I1 : In y (options_of (a ++ [S_opt o]))) by (unfold options_of in *; rewrite flat_map_app; apply in_or_app; now left). assert (I2 : In o (options_of (a ++ [S_opt o]))) by (unfold options_of; rewrite flat_map_app; apply in_or_app; right; now left).
      apply conflict_spec in C as [C|C]; [now apply (H2 o y) in C|now apply (H2 y o) in C]. }
    rewrite R. unfold surplus_of, options_of. rewrite !flat_map_app. cbn [flat_map app]. now rewrite app_nil_r, rev_app_distr.
  - unfold surplus_of, options_of. rewrite !flat_map_app. cbn [flat_map app]. now rewrite !app_nil_r.
Qed.
Lemma trouble_act l r : Trouble l r -> act_why [] [] (map tr l) = Some r.
Proof.
  intros T. destruct T as [a t v b SM|a t b SM|a t v b SM|a o b o' t t' SM I E C C'|a SM NE].
  - now rewrite (act_smooth a [] _ SM).
  - now rewrite (act_smooth a [] _ SM).
  - now rewrite (act_smooth a [] _ SM).
  - rewrite (act_smooth a [] _ SM). cbn [app map tr act_why]. apply called_iff in C, C'. subst.
    assert (R : rival o (rev (options_of a)) = Some (opt_title o')) by (apply rival_iff; [now apply smooth_conflict|]; exists o'; split; [now apply in_rev in I|]; split; [now apply conflict_spec|reflexivity]). now rewrite R.
  - pose proof (act_smooth a [] [] SM) as K. rewrite app_nil_r in K. change (act_why [] [] (map tr a) = act_why (surplus_of a) (rev (options_of a)) []) in K. rewrite K. cbn [act_why]. destruct (surplus_of a); [now destruct NE|reflexivity].
Qed.
Lemma trouble_iff l r : Trouble l r <-> act_why [] [] (map tr l) = Some r.
Proof. split; [apply trouble_act|]. intros H. apply (act_trouble l []); [split; [constructor|intros x y []]|exact H]. Qed.

(** * Abbreviations that are not clear *)
Lemma filter_map_nodup (P : str * arg_action -> bool) l : NoDup (map fst l) -> NoDup (map fst (filter P l)).
Proof.
  induction l as [|x l IH]; intros H; [constructor|]. cbn in H. inversion H as [|? ? H1 H2]; subst. cbn. destruct (P x); [|now apply IH]. cbn. constructor; [|now apply IH].
  intros I. apply H1. apply in_map_iff in I as (y & E & I). apply filter_In in I as [I _]. apply in_map_iff. eauto.
Qed.
Lemma tuples_names s : Ambiguous s -> Candidates s (map (fun x => snd (fst x)) (option_tuples s)).
Proof.
  intros (p & n1 & m1 & n2 & m2 & E & L1 & L2 & B1 & B2 & D). assert (NE : ~ In 61 p) by (eapply begins_no_eq; eassumption).
  assert (E' : exists e, s = 45 :: 45 :: p ++ tail_of e) by (destruct E as [->|[v ->]]; [exists None; cbn; now rewrite app_nil_r|now exists (Some v)]). destruct E' as [e ->].
  rewrite tuples_long, (partition_app p e NE). cbn [fst snd]. rewrite map_map. cbn [fst snd].
  exists p. split; [destruct e as [v|]; [right; now exists v|left; cbn; now rewrite app_nil_r]|]. split; [exact NE|]. split; [apply filter_map_nodup, keys_nodup|].
  intros n. rewrite in_map_iff. split.
  - intros ([n' a] & <- & I). apply matches_in in I as (nm & m & -> & _ & L & B). cbn [fst]. eauto.
  - intros (k & m & -> & L & B). exists (45 :: 45 :: k, act_of m). split; [reflexivity|]. apply matches_in. eauto 8.
Qed.
Lemma candidates_perm s l l' : Candidates s l -> Candidates s l' -> Permutation l l'.
Proof.
  intros (p & E & NE & ND & H) (p' & E' & NE' & ND' & H').
  assert (p = p') as <-.
  { assert (Q : exists e, s = 45 :: 45 :: p ++ tail_of e) by (destruct E as [->|[v ->]]; [exists None; cbn; now rewrite app_nil_r|now exists (Some v)]).
    assert (Q' : exists e, s = 45 :: 45 :: p' ++ tail_of e) by (destruct E' as [->|[v ->]]; [exists None; cbn; now rewrite app_nil_r|now exists (Some v)]).
    destruct Q as [e Q], Q' as [e' Q']. rewrite Q in Q'. injection Q' as Q'. apply (f_equal partition_eq) in Q'. rewrite !partition_app in Q' by assumption. now injection Q'. }
  apply NoDup_Permutation; [exact ND|exact ND'|]. intros n. now rewrite H, H'.
Qed.
Lemma ambiguous_not_dashes s : Ambiguous s -> parse_optional s = None \/ s = [45; 45].
Proof. intros A. destruct (list_eq_dec N.eq_dec s [45; 45]) as [->|ND]; [now right|left]. now apply parse_ambiguous. Qed.
Lemma classify_why_inl argv r : classify_why argv = inl r -> exists a s b names, argv = a ++ s :: b /\ ~ In [45; 45] (a ++ [s]) /\ Forall (fun x => ~ Ambiguous x) a /\ Ambiguous s /\ Candidates s names /\ r = R_ambiguous s names.
Proof.
  induction argv as [|s q IH]; [discriminate|]. cbn [classify_why]. destruct (eqb_list s [45; 45]) eqn:E; [discriminate|]. assert (ND : s <> [45; 45]) by (intros ->; rewrite eqb_list_refl in E; discriminate).
  destruct (parse_optional s) as [i|] eqn:P.
  - destruct (classify_why q) as [e|l] eqn:C; [|discriminate]. intros [= ->]. destruct (IH eq_refl) as (a & s' & b & names & -> & NI & FA & A & CN & ->).
    exists (s :: a), s', b, names. split; [reflexivity|]. split; [intros [K|K]; [now apply ND|now apply NI]|]. split; [constructor; [|exact FA]|auto]. intros K. apply (parse_ambiguous s ND) in K. congruence.
  - intros [= <-]. apply (parse_ambiguous s ND) in P. exists [], s, q, (map (fun x => snd (fst x)) (option_tuples s)). split; [reflexivity|]. split; [intros [K|[]]; now apply ND|]. split; [constructor|]. split; [exact P|]. split; [now apply tuples_names|reflexivity].
Qed.
Lemma classify_why_ambiguous a s b : ~ In [45; 45] (a ++ [s]) -> Forall (fun x => ~ Ambiguous x) a -> Ambiguous s -> classify_why (a ++ s :: b) = inl (R_ambiguous s (map (fun x => snd (fst x)) (option_tuples s))).
Proof.
  intros ND FA A. induction FA as [|x a HX FA IH]; cbn [app classify_why].
  - destruct (eqb_list s [45; 45]) eqn:E; [apply eqb_list_spec in E; destruct ND; now left|]. destruct (ambiguous_not_dashes s A) as [P|P]; [now rewrite P|subst; now destruct ND; left].
  - destruct (eqb_list x [45; 45]) eqn:E; [apply eqb_list_spec in E; destruct ND; now left|]. destruct (parse_optional x) as [i|] eqn:P.
    + rewrite IH by (intros K; apply ND; now right). reflexivity.
    + apply parse_ambiguous in P; [contradiction|intros ->; discriminate].
Qed.

(** * What the command line is blamed for *)
Lemma reason_blamed argv r : usage_reason argv = Some r -> Blamed argv r.
Proof.
  unfold usage_reason. destruct (classify_why argv) as [x|l] eqn:C.
  - intros [= ->]. apply classify_why_inl in C as (a & s & b & names & -> & NI & FA & A & CN & ->). now apply Bl_ambiguous.
  - intros H. assert (CL : Clear argv) by (apply clear_why; eauto). destruct (reads_exist _ false argv (le_n _) CL) as [k R]. apply (Bl_trouble argv k); [exact CL|exact R|].
    apply trouble_iff. now rewrite <- (reads_events _ _ _ R _ C).
Qed.
Lemma blamed_reason argv r : Blamed argv r -> exists r', usage_reason argv = Some r' /\ Akin r r'.
Proof.
  intros [a s b names ND FA A CN|argv' k r' CL R T]; unfold usage_reason.
  - rewrite (classify_why_ambiguous a s b ND FA A). eexists. split; [reflexivity|]. apply Al_order. eapply candidates_perm; [exact CN|]. now apply tuples_names.
  - apply clear_why in CL as [l C]. rewrite C. exists r'. split; [|apply Al_same]. rewrite (reads_events _ _ _ R _ C). now apply trouble_iff.
Qed.
Lemma blamed_iff argv : (exists r, Blamed argv r) <-> command_line argv = C_usage.
Proof.
  rewrite <- usage_reason_iff. split.
  - intros [r B]. apply blamed_reason in B as (r' & -> & _). discriminate.
  - intros H. destruct (usage_reason argv) as [r|] eqn:E; [|now destruct H]. exists r. now apply reason_blamed.
Qed.
Lemma alike_sym r r' : Akin r r' -> Akin r' r.
Proof. intros [q|s l l' P]; constructor. now symmetry. Qed.
Lemma blamed_alike argv r r' : Blamed argv r -> Blamed argv r' -> Akin r r'.
Proof.
  intros B B'. apply blamed_reason in B as (q & E & A). apply blamed_reason in B' as (q' & E' & A'). rewrite E in E'. injection E' as <-. destruct A as [q|s l l' P]; [now apply alike_sym|].
  inversion A' as [q|? l2 ? P2]; subst; constructor; [exact P|]. now rewrite P.
Qed.
Lemma message_says p r : match r with R_ignored _ e | R_invalid _ e => Forall (fun c => c < 0x110000) e | _ => True end -> Says r (message p r).
Proof. destruct r; cbn [message]; intros H; constructor; now apply py_repr_quoted. Qed.

(** * The text on stderr *)
Lemma usage_error_some p argv r : usage_reason argv = Some r -> usage_error p argv = usage_text ++ txt "kolombos: error: " ++ message p r ++ [10].
Proof. unfold usage_error. now intros ->. Qed.
Definition scalars (argv : list str) : Prop := Forall (Forall (fun c => c < 0x110000)) argv.
(** all the strings of a reason are names of options or parts of the command line *)
Definition shown_name (t : str) : Prop := Forall (fun c => displayable c = true) t.
Definition step_ok (P : N -> Prop) (x : step) : Prop :=
  match x with
  | S_opt _ | S_help => True
  | S_surplus s => Forall P s
  | S_missing t => shown_name t
  | S_not_number t v | S_needless t v => shown_name t /\ Forall P v
  end.
Definition reason_ok (P : N -> Prop) (r : reason) : Prop :=
  match r with
  | R_ambiguous s names => Forall P s /\ Forall shown_name names
  | R_ignored t e | R_invalid t e => shown_name t /\ Forall P e
  | R_expected t => shown_name t
  | R_not_allowed t t' => shown_name t /\ shown_name t'
  | R_unrecognized l => Forall (Forall P) l
  end.
Lemma title_shown n : shown_name (title n).
Proof.
  unfold title. destruct (find _ declared) as [[ns a]|] eqn:F; [|constructor]. apply find_some in F as [I _].
  assert (K : forallb (fun x => forallb displayable (slashed (fst x))) declared = true) by (vm_compute; reflexivity). rewrite forallb_forall in K. apply K in I. cbn [fst] in I.
  rewrite forallb_forall in I. now apply Forall_forall.
Qed.
Lemma opt_title_shown o : shown_name (opt_title o).
Proof. destruct o; try apply title_shown. apply Forall_forall. apply forallb_forall. reflexivity. Qed.
Lemma letter_shown c m t : Letter c m t -> shown_name t.
Proof. intros H. apply letter_iff in H as [_ ->]. apply title_shown. Qed.
Lemma name_shown p m t : Name p m t -> shown_name t.
Proof. intros H. apply name_iff in H as (_ & n & _ & _ & ->). apply title_shown. Qed.
Section Parts.
  Variable P : N -> Prop.
  Hypothesis P45 : P 45.
  Lemma ok_given t f v st : shown_name t -> Forall P v -> Given t f v st -> step_ok P st.
  Proof. intros T F [n H|H]; [exact I|]. split; assumption. Qed.
  Lemma ok_here m : step_ok P (here m).
  Proof. destruct m; exact I. Qed.
  Lemma ok_surpluses l : Forall (Forall P) l -> Forall (step_ok P) (map S_surplus l).
  Proof. induction 1; constructor; assumption. Qed.
  Lemma ok_letters cs k e : Letters cs k e -> Forall P cs -> Forall (step_ok P) k /\ match e with E_needless t v => shown_name t /\ Forall P v | E_open t f => shown_name t | E_done => True end.
  Proof.
    induction 1 as [c m t L NN|c m t c' m' t' r l e L NN L' H IH|c m t s r L NN ST|c m t r L NN|c m t r L NN|c f t L|c f t x v st L NX G|c f t v st L G]; intros F;
      inversion F as [|? ? F1 F2]; subst; apply letter_shown in L.
    - split; [|exact I]. constructor; [apply ok_here|constructor].
    - destruct (IH F2) as [G1 G2]. split; [constructor; [apply ok_here|exact G1]|exact G2].
    - split; [|exact I]. constructor; [apply ok_here|]. constructor; [|constructor]. constructor; assumption.
    - split; [constructor|]. split; assumption.
    - split; [constructor|]. split; [assumption|]. now inversion F2.
    - split; [constructor|assumption].
    - split; [|exact I]. constructor; [|constructor]. eapply ok_given; [exact L| |exact G]. exact F2.
    - split; [|exact I]. constructor; [|constructor]. eapply ok_given; [exact L| |exact G]. now inversion F2.
  Qed.
  Lemma tail_ok a b l : Forall P (a :: b :: l) -> Forall P l.
  Proof. intros H. inversion H as [|? ? _ H2]; subst. now inversion H2. Qed.
  Lemma ok_reads u argv k : Reads u argv k -> Forall (Forall P) argv -> Forall (step_ok P) k.
  Proof.
    induction 1 as [u|u p m t rest k H NN _ IH|u p m t v rest H NN|u p f t v st rest k H G _ IH|u p f t v st rest k H O G _ IH|u p f t rest H NO
      |u cs k1 rest k H _ IH|u cs k1 t f v st rest k H O G _ IH|u cs k1 t f rest H NO|u cs k1 t v rest H
      |u s rest k UN _ IH|v rest k O ND _ IH|v rest k O _ IH|v r O| |v r|r]; intros F;
      try (inversion F as [|? ? F1 F2]; subst); try (constructor; fail).
    - constructor; [apply ok_here|now apply IH].
    - constructor; [|constructor]. split; [eapply name_shown; eassumption|]. apply tail_ok in F1. apply Forall_app in F1 as [_ F1]. now inversion F1.
    - constructor; [|now apply IH]. eapply ok_given; [eapply name_shown; eassumption| |exact G]. apply tail_ok in F1. apply Forall_app in F1 as [_ F1]. now inversion F1.
    - inversion F2 as [|? ? F3 F4]; subst. constructor; [|now apply IH]. eapply ok_given; [eapply name_shown; eassumption| |exact G]. exact F3.
    - constructor; [eapply name_shown; eassumption|constructor].
    - apply Forall_app. split; [|now apply IH]. eapply ok_letters; [exact H|]. now inversion F1.
    - inversion F2 as [|? ? F3 F4]; subst. apply ok_letters in H as [H1 H2]; [|now inversion F1]. apply Forall_app. split; [exact H1|]. constructor; [|now apply IH]. eapply ok_given; [exact H2| |exact G]. exact F3.
    - apply ok_letters in H as [H1 H2]; [|now inversion F1]. constructor; [exact H2|constructor].
    - apply ok_letters in H as [H1 H2]; [|now inversion F1]. constructor; [exact H2|constructor].
    - constructor; [exact F1|now apply IH].
    - constructor; [exact I|now apply IH].
    - constructor; [exact F1|now apply IH].
    - inversion F2 as [|? ? F3 F4]; subst. constructor; [exact I|now apply ok_surpluses].
    - inversion F2 as [|? ? F3 F4]; subst. constructor; [exact I|now apply ok_surpluses].
    - now apply ok_surpluses.
  Qed.
  Lemma ok_trouble l r : Trouble l r -> Forall (step_ok P) l -> reason_ok P r.
  Proof.
    intros [a t v b SM|a t b SM|a t v b SM|a o b o' t t' SM I0 E C C'|a SM NE] F.
    - apply Forall_app in F as [_ F]. now inversion F.
    - apply Forall_app in F as [_ F]. now inversion F.
    - apply Forall_app in F as [_ F]. now inversion F.
    - apply called_iff in C, C'. subst. split; apply opt_title_shown.
    - clear NE SM. cbn [reason_ok]. induction F as [|x a HX _ IH]; [constructor|]. destruct x; try exact IH. cbn. constructor; assumption.
  Qed.
  Lemma candidates_shown s names : Candidates s names -> Forall shown_name names.
  Proof.
    intros (p & _ & _ & _ & H). apply Forall_forall. intros n I. apply H in I as (k & m & -> & (a & w & D & ->) & _). unfold shown_name. constructor; [reflexivity|]. constructor; [reflexivity|].
    assert (K : forallb (fun x => forallb displayable (txt (snd (fst x)))) documented = true) by (vm_compute; reflexivity). rewrite forallb_forall in K. apply K in D. cbn [fst snd] in D.
    apply Forall_forall. now apply forallb_forall.
  Qed.
  Lemma ok_blamed argv r : Blamed argv r -> Forall (Forall P) argv -> reason_ok P r.
  Proof.
    intros [a s b names ND FA A CN|argv' k r' CL R T] F; [|eapply ok_trouble; [exact T|]; eapply ok_reads; eassumption].
    apply Forall_app in F as [_ F]. split; [now inversion F|]. now apply (candidates_shown s).
  Qed.
End Parts.
Lemma usage_reported p argv : scalars argv -> command_line argv = C_usage ->
  exists r msg, Blamed argv r /\ Says r msg /\ usage_error p argv = usage_text ++ txt "kolombos: error: " ++ msg ++ [10].
Proof.
  intros F H. apply usage_reason_iff in H. destruct (usage_reason argv) as [r|] eqn:E; [|now destruct H]. exists r, (message p r). pose proof (reason_blamed _ _ E) as B.
  split; [exact B|]. split; [apply message_says; pose proof (ok_blamed (fun c => c < 0x110000) eq_refl _ _ B F) as K; destruct r; try exact I; apply K|]. now apply usage_error_some.
Qed.
Lemma usage_silent p argv : command_line argv <> C_usage -> usage_error p argv = [].
Proof. intros H. unfold usage_error. destruct (usage_reason argv) as [r|] eqn:E; [|reflexivity]. exfalso. apply H, usage_reason_iff. congruence. Qed.

(** * The terminal *)
Lemma trun_displayable t : forall a, Forall (fun c => displayable c = true) t -> trun Ground a t = (Ground, a, map (fun c => Glyph c a) t).
Proof.
  induction t as [|c t IH]; intros a H; [reflexivity|]. inversion H as [|? ? H1 H2]; subst. cbn [trun tstep map].
  assert (N1 : (c =? 27) = false) by (apply N.eqb_neq; intros ->; discriminate). rewrite N1, H1, (IH a H2). reflexivity.
Qed.
Lemma shown_usage : trun Ground attrs0 usage_text = (Ground, attrs0, screen usage_text).
Proof. vm_compute. reflexivity. Qed.
Lemma usage_seen : visible usage_text = usage_shown.
Proof. vm_compute. reflexivity. Qed.
Lemma usage_clean : clean usage_text.
Proof. vm_compute. reflexivity. Qed.
Lemma harmless_after t : shown_name t -> clean (usage_text ++ t) /\ final_attrs (usage_text ++ t) = attrs0 /\ visible (usage_text ++ t) = usage_shown ++ t.
Proof.
  intros H. assert (E : trun Ground attrs0 (usage_text ++ t) = (Ground, attrs0, screen usage_text ++ map (fun c => Glyph c attrs0) t)) by (rewrite trun_app, shown_usage, (trun_displayable t attrs0 H); reflexivity).
  assert (ES : screen (usage_text ++ t) = screen usage_text ++ map (fun c => Glyph c attrs0) t) by (unfold screen at 1; now rewrite E).
  pose proof usage_clean as UC. pose proof usage_seen as US. unfold clean, final_attrs, visible in *. rewrite E, ES.
  split; [|split; [reflexivity|]].
  - rewrite forallb_app. apply andb_true_iff. split; [exact UC|]. clear. induction t; [reflexivity|exact IHt].
  - rewrite map_app, US, map_map. cbn [cell_char]. now rewrite map_id.
Qed.
Lemma repr_shown p t : safe_printable p -> shown_name (py_repr p t).
Proof. intros H. pose proof (py_repr_safe p t H) as K. eapply Forall_impl; [|exact K]. now intros c [E _]. Qed.
Lemma join_shown sep l : shown_name sep -> Forall shown_name l -> shown_name (join sep l).
Proof.
  intros HS. induction 1 as [|x l HX HL IH]; [constructor|]. destruct l as [|y l]; [exact HX|]. change (join sep (x :: y :: l)) with (x ++ sep ++ join sep (y :: l)). apply Forall_app. split; [exact HX|]. apply Forall_app. split; [exact HS|exact IH].
Qed.
Lemma txt_shown s : forallb displayable (txt s) = true -> shown_name (txt s).
Proof. intros H. apply Forall_forall. now apply forallb_forall. Qed.
(** words repeated as they are *)
Definition repeats (r : reason) : Prop := match r with R_ambiguous _ _ | R_unrecognized _ => True | _ => False end.
Lemma message_shown p argv r : safe_printable p -> Blamed argv r -> (repeats r -> Forall (Forall (fun c => displayable c = true)) argv) -> shown_name (message p r).
Proof.
  intros HP B F.
  assert (K : reason_ok (fun _ => True) r) by (apply (ok_blamed (fun _ => True) I _ _ B); apply Forall_forall; intros s _; apply Forall_forall; intros; exact I).
  assert (K2 : repeats r -> reason_ok (fun c => displayable c = true) r) by (intros R; apply (ok_blamed (fun c => displayable c = true) eq_refl _ _ B); now apply F).
  unfold shown_name in *. destruct r as [s names|t e|t|t v|t t'|l]; cbn [message reason_ok repeats] in *; repeat first [now apply (repr_shown p)|apply Forall_app; split]; try (apply txt_shown; reflexivity); try (now apply K); try (now apply K2).
  - apply (join_shown (txt ", ") names); [apply txt_shown; reflexivity|]. now apply K2.
  - apply (join_shown [32] l); [repeat constructor|]. now apply K2.
Qed.
Lemma error_harmless p argv r : safe_printable p -> usage_reason argv = Some r -> (repeats r -> Forall (Forall (fun c => displayable c = true)) argv) ->
  clean (usage_error p argv) /\ final_attrs (usage_error p argv) = attrs0 /\ visible (usage_error p argv) = usage_shown ++ txt "kolombos: error: " ++ message p r ++ [10].
Proof.
  intros HP E F. rewrite (usage_error_some p argv r E). apply harmless_after. unfold shown_name. apply Forall_app. split; [apply txt_shown; reflexivity|]. apply Forall_app. split; [|repeat constructor].
  apply (message_shown p argv r HP); [now apply reason_blamed|exact F].
Qed.
