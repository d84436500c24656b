(** How the strings of a command line are classified *)
From Coq Require Import Ascii String.
From Coq Require Import List Arith NArith ZArith Bool Lia.
From Verif.Model Require Import Base Settings Options Render Args.
From Verif.Spec Require Import CommandLine.
From Verif.Proof Require Import BaseFacts ArgsInt.
Import ListNotations.
Local Open Scope N_scope.

Definition act_of (m : meaning) : arg_action := match m with Flag o => A_flag o | Number f => A_int f | Help => A_help end.
Definition mean (a : arg_action) : meaning := match a with A_flag o => Flag o | A_int f => Number f | A_help => Help end.
Lemma act_mean a : act_of (mean a) = a.
Proof. now destruct a. Qed.
Lemma mean_act m : mean (act_of m) = m.
Proof. now destruct m. Qed.

(** * The tables *)
Definition keys : list (str * arg_action) := Eval vm_compute in option_strings.
Lemma keys_eq : option_strings = keys.
Proof. vm_compute. reflexivity. Qed.
Ltac member_at k := first [apply (nth_error_In _ k); reflexivity|let k' := eval vm_compute in (S k) in member_at k'].
Ltac member := member_at 0%nat.
Lemma table_sound : Forall (fun x => (exists c, fst x = [45; c] /\ Short c (mean (snd x))) \/ (exists n, fst x = 45 :: 45 :: n /\ Long n (mean (snd x)))) option_strings.
Proof.
  rewrite keys_eq. unfold keys.
  repeat (apply Forall_cons; [cbn [fst snd mean]; first
    [left; eexists; split; [reflexivity|]; eexists _, _; split; [member|vm_compute; reflexivity]
    |right; eexists; split; [reflexivity|]; eexists _, _; split; [member|vm_compute; reflexivity]]|]).
  constructor.
Qed.
Lemma table_complete : Forall (fun x => In (45 :: 45 :: txt (snd (fst x)), act_of (snd x)) option_strings /\
  match fst (fst x) with Some a => In ([45; N_of_ascii a], act_of (snd x)) option_strings | None => True end) documented.
Proof.
  rewrite keys_eq. unfold documented, both, only.
  repeat (apply Forall_cons; [cbn [fst snd act_of]; split;
    [match goal with |- context [txt ?x] => let v := eval vm_compute in (txt x) in change (txt x) with v end; member
    |first [exact I|match goal with |- context [N_of_ascii ?x] => let v := eval vm_compute in (N_of_ascii x) in change (N_of_ascii x) with v end; member]]|]). constructor.
Qed.
Lemma short_iff c m : Short c m <-> In ([45; c], act_of m) option_strings.
Proof.
  split.
  - intros (a & n & H & ->). pose proof table_complete as T. rewrite Forall_forall in T. apply T in H. apply H.
  - intros H. pose proof table_sound as T. rewrite Forall_forall in T. apply T in H. cbn [fst snd] in H. rewrite mean_act in H.
    destruct H as [(x & [= <-] & H)|(n & E & (a & s & H & ->))]; [exact H|]. injection E as -> E. exfalso.
    pose proof table_complete as T2. rewrite Forall_forall in T2. assert (txt s <> []) as N; [|now destruct (txt s)].
    clear - H. unfold documented, both, only in H. repeat (destruct H as [H|H]; [injection H as <- <- <-; discriminate|]). destruct H.
Qed.
Lemma long_iff n m : Long n m <-> In (45 :: 45 :: n, act_of m) option_strings.
Proof.
  split.
  - intros (a & s & H & ->). pose proof table_complete as T. rewrite Forall_forall in T. apply T in H. apply H.
  - intros H. pose proof table_sound as T. rewrite Forall_forall in T. apply T in H. cbn [fst snd] in H. rewrite mean_act in H.
    destruct H as [(x & E & H)|(x & [= <-] & H)]; [|exact H]. injection E as <- ->. exfalso. destruct H as (a & s & H & E).
    unfold documented, both, only in H. repeat (destruct H as [H|H]; [first [discriminate|injection H as <- <- <-; vm_compute in E; discriminate]|]). destruct H.
Qed.
Lemma keys_nodup : NoDup (map fst option_strings).
Proof.
  assert (D : forall l : list str, (fix nd l := match l with [] => true | x :: r => negb (existsb (eqb_list x) r) && nd r end) l = true -> NoDup l).
  { induction l as [|x r IH]; intros H; [constructor|]. apply andb_true_iff in H as [H1 H2]. constructor; [|now apply IH]. intros I. apply negb_true_iff in H1.
    assert (existsb (eqb_list x) r = true) by (apply existsb_exists; exists x; split; [exact I|apply eqb_list_refl]). congruence. }
  apply D. vm_compute. reflexivity.
Qed.
Lemma find_option_iff n a : find_option n = Some a <-> In (n, a) option_strings.
Proof.
  unfold find_option. generalize keys_nodup. induction option_strings as [|[x y] l IH]; intros N; [split; [discriminate|intros []]|].
  cbn [find fst]. inversion N as [|? ? N1 N2]; subst. specialize (IH N2). destruct (eqb_list x n) eqn:E.
  - apply eqb_list_spec in E. subst x. split; [intros [= ->]; now left|]. intros [[= ->]|I]; [reflexivity|]. exfalso. apply N1. now apply (in_map fst) in I.
  - rewrite IH. split; [now right|]. intros [[= -> ->]|I]; [now rewrite eqb_list_refl in E|exact I].
Qed.
Lemma key_shape n a : In (n, a) option_strings -> (exists c m, n = [45; c] /\ a = act_of m /\ Short c m) \/ (exists nm m, n = 45 :: 45 :: nm /\ a = act_of m /\ Long nm m).
Proof.
  intros H. pose proof table_sound as T. rewrite Forall_forall in T. apply T in H. cbn [fst snd] in H.
  destruct H as [(c & E & K)|(nm & E & K)]; [left; exists c, (mean a)|right; exists nm, (mean a)]; rewrite act_mean; auto.
Qed.
Lemma short_char c m : Short c m -> c <> 45 /\ c <> 61.
Proof.
  intros (a & n & H & ->). unfold documented, both, only in H. repeat (destruct H as [H|H]; [injection H; intros; subst; try discriminate; split; discriminate|]). destruct H.
Qed.
Lemma long_name n m : Long n m -> n <> [] /\ ~ In 61 n.
Proof.
  intros (a & s & H & ->). assert (K : forallb (fun x => match txt (snd (fst x)) with [] => false | _ => negb (existsb (N.eqb 61) (txt (snd (fst x)))) end) documented = true) by (vm_compute; reflexivity).
  rewrite forallb_forall in K. apply K in H. cbn [fst snd] in H. destruct (txt s) as [|x r]; [discriminate|]. split; [discriminate|]. intros I. apply negb_true_iff in H.
  assert (existsb (N.eqb 61) (x :: r) = true) by (apply existsb_exists; exists 61; split; [exact I|reflexivity]). congruence.
Qed.
Lemma long_fun n m m' : Long n m -> Long n m' -> m = m'.
Proof.
  intros H1 H2. apply long_iff, find_option_iff in H1. apply long_iff, find_option_iff in H2. rewrite H1 in H2. injection H2 as H2. rewrite <- (mean_act m), <- (mean_act m'). now f_equal.
Qed.
Lemma short_fun c m m' : Short c m -> Short c m' -> m = m'.
Proof.
  intros H1 H2. apply short_iff, find_option_iff in H1. apply short_iff, find_option_iff in H2. rewrite H1 in H2. injection H2 as H2. rewrite <- (mean_act m), <- (mean_act m'). now f_equal.
Qed.
Lemma no_prefix : forall n m n' m', Long n m -> Long n' m' -> begins n n' -> n = n'.
Proof.
  assert (K : forallb (fun x => forallb (fun y => negb (starts_with (txt (snd (fst x))) (txt (snd (fst y)))) || eqb_list (txt (snd (fst x))) (txt (snd (fst y)))) documented) documented = true) by (vm_compute; reflexivity).
  intros n m n' m' (a & s & H & ->) (a' & s' & H' & ->) [r E]. rewrite forallb_forall in K. specialize (K _ H). rewrite forallb_forall in K. specialize (K _ H'). cbn [fst snd] in K.
  apply orb_true_iff in K as [K|K]; [|now apply eqb_list_spec]. exfalso. apply negb_true_iff in K. rewrite E in K.
  assert (G : forall p q, starts_with p (p ++ q) = true) by (induction p as [|x p IH]; intros q; [reflexivity|cbn; now rewrite N.eqb_refl, IH]). rewrite G in K. discriminate.
Qed.
Lemma exact_long n m : Long n m -> LongFor n m.
Proof.
  intros H. exists n. split; [exact H|]. split; [exists []; now rewrite app_nil_r|]. intros n' m' H' B. symmetry. eapply no_prefix; eassumption.
Qed.

(** * Splitting at '=' and comparing beginnings *)
Definition tail_of (e : option str) : str := match e with Some v => 61 :: v | None => [] end.
Lemma partition_spec l : l = fst (partition_eq l) ++ tail_of (snd (partition_eq l)) /\ ~ In 61 (fst (partition_eq l)).
Proof.
  induction l as [|c r [IH1 IH2]]; [split; [reflexivity|intros []]|]. cbn [partition_eq]. destruct (N.eqb_spec c 61) as [->|N]; [split; [reflexivity|intros []]|].
  destruct (partition_eq r) as [a b]. cbn [fst snd] in *. split; [cbn; now rewrite IH1 at 1|]. intros [K|K]; [congruence|contradiction].
Qed.
Lemma partition_app p e : ~ In 61 p -> partition_eq (p ++ tail_of e) = (p, e).
Proof.
  induction p as [|c p IH]; intros H.
  - destruct e; reflexivity.
  - cbn [app partition_eq]. destruct (N.eqb_spec c 61) as [->|N]; [exfalso; apply H; now left|]. rewrite IH; [reflexivity|]. intros K. apply H. now right.
Qed.
Lemma starts_iff p l : starts_with p l = true <-> begins p l.
Proof.
  revert l. induction p as [|a p IH]; intros l.
  - split; [intros _; now exists l|reflexivity].
  - destruct l as [|b l]; [split; [discriminate|intros [r E]; discriminate]|]. cbn. rewrite andb_true_iff, N.eqb_eq, IH. split.
    + intros [-> [r ->]]. now exists r.
    + intros [r [= -> ->]]. split; [reflexivity|now exists r].
Qed.
Lemma begins_no_eq p n m : Long n m -> begins p n -> ~ In 61 p.
Proof. intros H [r ->] I. destruct (long_name _ _ H) as [_ K]. apply K. apply in_or_app. now left. Qed.
Lemma filter_unique {A} (P : A -> bool) l x : NoDup l -> In x l -> P x = true -> (forall y, In y l -> P y = true -> y = x) -> filter P l = [x].
Proof.
  intros N I Px U. induction l as [|y l IH]; [destruct I|]. inversion N as [|? ? N1 N2]; subst. cbn. destruct I as [->|I].
  - rewrite Px. f_equal. assert (K : forall z, In z l -> P z = false). { intros z Hz. destruct (P z) eqn:E; [|reflexivity]. rewrite (U z (or_intror Hz) E) in Hz. contradiction. }
    clear - K. induction l as [|z l IH]; [reflexivity|]. cbn. rewrite K by now left. apply IH. intros y Hy. apply K. now right.
  - destruct (P y) eqn:E; [rewrite (U y (or_introl eq_refl) E) in N1; contradiction|]. apply IH; auto. intros z Hz. apply U. now right.
Qed.
Lemma table_nodup : NoDup option_strings.
Proof. apply (NoDup_map_inv fst), keys_nodup. Qed.
Definition matches (p : str) := filter (fun x => starts_with (45 :: 45 :: p) (fst x)) option_strings.
Lemma matches_in p n a : In (n, a) (matches p) <-> exists nm m, n = 45 :: 45 :: nm /\ a = act_of m /\ Long nm m /\ begins p nm.
Proof.
  unfold matches. rewrite filter_In. cbn [fst]. rewrite starts_iff. split.
  - intros [I [r E]]. destruct (key_shape _ _ I) as [(c & m & -> & -> & S1)|(nm & m & -> & -> & L)].
    + injection E as -> E. destruct (short_char _ _ S1). congruence.
    + exists nm, m. repeat split; auto. injection E as ->. now exists r.
  - intros (nm & m & -> & -> & L & [r ->]). split; [now apply long_iff|]. now exists r.
Qed.
Lemma matches_long p m : LongFor p m -> exists n, matches p = [(45 :: 45 :: n, act_of m)].
Proof.
  intros (n & L & B & U). exists n. apply filter_unique; [apply table_nodup|now apply long_iff|cbn [fst]; destruct B as [r ->]; apply starts_iff; now exists r|].
  intros [k a] I P. assert (J : In (k, a) (matches p)) by (apply filter_In; split; assumption). apply matches_in in J as (nm & m' & -> & -> & L' & B'). pose proof (U nm m' L' B') as ->. now rewrite (long_fun n m' m L' L).
Qed.
Lemma matches_one p n a : matches p = [(n, a)] -> exists nm m, n = 45 :: 45 :: nm /\ a = act_of m /\ LongFor p m.
Proof.
  intros E. assert (I : In (n, a) (matches p)) by (rewrite E; now left). apply matches_in in I as (nm & m & -> & -> & L & B). exists nm, m. split; [reflexivity|]. split; [reflexivity|].
  exists nm. split; [exact L|]. split; [exact B|]. intros n' m' L' B'. assert (J : In (45 :: 45 :: n', act_of m') (matches p)) by (apply matches_in; exists n', m'; auto). rewrite E in J. destruct J as [[= -> _]|[]]. reflexivity.
Qed.

(** * The classes of strings *)
Lemma find_none_short c r : r <> [] -> c <> 45 -> find_option (45 :: c :: r) = None.
Proof.
  intros H1 H2. destruct (find_option (45 :: c :: r)) as [a|] eqn:E; [|reflexivity]. apply find_option_iff, key_shape in E as [(x & m & E & _)|(nm & m & E & _)]; [injection E; intros; congruence|injection E; intros; congruence].
Qed.
Lemma find_short c m : Short c m -> find_option [45; c] = Some (act_of m).
Proof. intros H. now apply find_option_iff, short_iff. Qed.
Lemma find_short_inv c a : c <> 45 -> find_option [45; c] = Some a -> Short c (mean a).
Proof.
  intros H E. apply find_option_iff in E. apply short_iff. now rewrite act_mean.
Qed.
Lemma tuples_short c m r : c <> 45 -> Short c m -> r <> [] -> option_tuples (45 :: c :: r) = [(act_of m, [45; c], Some (false, r))].
Proof.
  intros Hc H Hr.
  assert (E : option_tuples (45 :: c :: r) = flat_map (fun x => if eqb_list (fst x) [45; c] then [(snd x, fst x, Some (false, r))] else []) option_strings).
  { unfold option_tuples. transitivity (flat_map (fun x : str * arg_action => if eqb_list (fst x) (firstn 2 (45 :: c :: r)) then [(snd x, fst x, Some (false, skipn 2 (45 :: c :: r)))] else if starts_with (45 :: c :: r) (fst x) then [(snd x, fst x, None)] else []) option_strings).
    - destruct c as [|p]; [reflexivity|]. do 6 (try (destruct p as [p|p|]; try reflexivity)). now destruct Hc.
    - assert (K : forall x, In x option_strings -> starts_with (45 :: c :: r) (fst x) = false).
      { intros [n a] I. destruct (starts_with _ _) eqn:Q; [|reflexivity]. apply starts_iff in Q as [q Q]. cbn [fst] in Q. destruct (key_shape _ _ I) as [(x & m' & -> & _)|(nm & m' & -> & _)]; [injection Q as -> Q; destruct r; [congruence|discriminate]|injection Q; intros; congruence]. }
      revert K. generalize option_strings. induction l as [|x l IH]; intros K; [reflexivity|]. cbn [flat_map]. rewrite (K x) by now left. rewrite IH by (intros y Hy; apply K; now right). reflexivity. }
  rewrite E. clear E. apply short_iff in H. generalize keys_nodup. revert H. generalize option_strings. induction l as [|[n a] l IH]; intros I N; [destruct I|].
  cbn [flat_map fst snd]. inversion N as [|? ? N1 N2]; subst. destruct (eqb_list n [45; c]) eqn:Q.
  - apply eqb_list_spec in Q. subst n. destruct I as [[= ->]|I]; [|exfalso; apply N1; now apply (in_map fst) in I]. cbn [app]. f_equal.
    assert (K : forall x, In x l -> eqb_list (fst x) [45; c] = false). { intros x Hx. destruct (eqb_list _ _) eqn:Z; [|reflexivity]. apply eqb_list_spec in Z. exfalso. apply N1. cbn [fst]. rewrite <- Z. now apply in_map. }
    clear - K. induction l as [|x l IH]; [reflexivity|]. cbn [flat_map]. rewrite K by now left. apply IH. intros y Hy. apply K. now right.
  - destruct I as [[= -> _]|I]; [now rewrite eqb_list_refl in Q|]. now apply IH.
Qed.
Lemma tuples_none c r : c <> 45 -> find_option [45; c] = None -> option_tuples (45 :: c :: r) = [].
Proof.
  intros Hc H. transitivity (flat_map (fun x : str * arg_action => if eqb_list (fst x) (firstn 2 (45 :: c :: r)) then [(snd x, fst x, Some (false, skipn 2 (45 :: c :: r)))] else if starts_with (45 :: c :: r) (fst x) then [(snd x, fst x, None)] else []) option_strings).
  - unfold option_tuples. destruct c as [|p]; [reflexivity|]. do 6 (try (destruct p as [p|p|]; try reflexivity)). now destruct Hc.
  - assert (K : forall x, In x option_strings -> eqb_list (fst x) [45; c] = false /\ starts_with (45 :: c :: r) (fst x) = false).
    { intros [n a] I. cbn [fst]. assert (Z : n <> [45; c]) by (intros ->; apply find_option_iff in I; congruence). split.
      - destruct (eqb_list n [45; c]) eqn:Q; [apply eqb_list_spec in Q; contradiction|reflexivity].
      - destruct (starts_with _ _) eqn:Q; [|reflexivity]. apply starts_iff in Q as [q Q]. destruct (key_shape _ _ I) as [(x & m' & -> & _)|(nm & m' & -> & _)]; [injection Q; intros; congruence|injection Q; intros; congruence]. }
    revert K. generalize option_strings. induction l as [|x l IH]; intros K; [reflexivity|]. cbn [flat_map]. destruct (K x (or_introl eq_refl)) as [K1 K2]. cbn [firstn] in *. rewrite K1, K2. cbn [app]. apply IH. intros y Hy. apply K. now right.
Qed.
Lemma tuples_long t : option_tuples (45 :: 45 :: t) = map (fun x => (snd x, fst x, option_map (fun v => (true, v)) (snd (partition_eq t)))) (matches (fst (partition_eq t))).
Proof.
  unfold option_tuples, matches. change (partition_eq (45 :: 45 :: t)) with (let '(a, b) := let '(a, b) := partition_eq t in (45 :: a, b) in (45 :: a, b)). destruct (partition_eq t) as [a b]. reflexivity.
Qed.
Lemma parse_unfold c t : parse_optional (45 :: c :: t) =
  match find_option (45 :: c :: t) with
  | Some a => Some (I_opt a (45 :: c :: t) None)
  | None =>
      match snd (partition_eq (45 :: c :: t)), find_option (fst (partition_eq (45 :: c :: t))) with
      | Some v, Some a => Some (I_opt a (fst (partition_eq (45 :: c :: t))) (Some (true, v)))
      | _, _ =>
          match option_tuples (45 :: c :: t) with
          | [(a, n, e)] => Some (I_opt a n e)
          | _ :: _ => None
          | [] => if negative_number (45 :: c :: t) then Some (I_arg (45 :: c :: t))
                  else if existsb (N.eqb 32) (45 :: c :: t) then Some (I_arg (45 :: c :: t)) else Some I_unknown
          end
      end
  end.
Proof.
  cbn [parse_optional]. destruct (find_option (45 :: c :: t)); [reflexivity|]. destruct (partition_eq (45 :: c :: t)) as [p e]. reflexivity.
Qed.
Lemma partition_two c t : c <> 61 -> partition_eq (45 :: c :: t) = (45 :: c :: fst (partition_eq t), snd (partition_eq t)).
Proof.
  intros H. cbn [partition_eq N.eqb Pos.eqb]. apply N.eqb_neq in H. rewrite H. destruct (partition_eq t). reflexivity.
Qed.
Lemma longfor_exact p m m' : LongFor p m -> Long p m' -> m' = m.
Proof.
  intros (n & L & B & U) H. assert (p = n) as -> by (apply (U p m' H); exists []; now rewrite app_nil_r). eapply long_fun; eassumption.
Qed.
Lemma find_long n a : find_option (45 :: 45 :: n) = Some a -> Long n (mean a).
Proof. intros E. apply find_option_iff in E. apply long_iff. now rewrite act_mean. Qed.
Lemma find_long_eq p v : find_option (45 :: 45 :: p ++ 61 :: v) = None.
Proof.
  destruct (find_option _) as [a|] eqn:E; [|reflexivity]. apply find_long in E. destruct (long_name _ _ E) as [_ K]. exfalso. apply K. apply in_or_app. right. now left.
Qed.
Lemma longfor_no_eq p m : LongFor p m -> ~ In 61 p.
Proof. intros (n & L & B & _). eapply begins_no_eq; eassumption. Qed.

Lemma parse_long p m e : LongFor p m -> exists n, parse_optional (45 :: 45 :: p ++ tail_of e) = Some (I_opt (act_of m) (45 :: 45 :: n) (option_map (fun v => (true, v)) e)).
Proof.
  intros L. pose proof (longfor_no_eq _ _ L) as NE. destruct (matches_long _ _ L) as [n M].
  rewrite parse_unfold, partition_two by discriminate. rewrite (partition_app p e NE). cbn [fst snd].
  destruct (find_option (45 :: 45 :: p ++ tail_of e)) as [a|] eqn:F.
  - destruct e as [v|]; [cbn [tail_of] in F; rewrite find_long_eq in F; discriminate|]. cbn [tail_of] in *. rewrite app_nil_r in *. exists p. pose proof (longfor_exact _ _ _ L (find_long _ _ F)) as E. cbn [option_map]. now rewrite <- E, act_mean.
  - assert (T : match option_tuples (45 :: 45 :: p ++ tail_of e) with [(a, x, e0)] => Some (I_opt a x e0) | _ :: _ => None
       | [] => if negative_number (45 :: 45 :: p ++ tail_of e) then Some (I_arg (45 :: 45 :: p ++ tail_of e)) else if existsb (N.eqb 32) (45 :: 45 :: p ++ tail_of e) then Some (I_arg (45 :: 45 :: p ++ tail_of e)) else Some I_unknown end
       = Some (I_opt (act_of m) (45 :: 45 :: n) (option_map (fun v => (true, v)) e))).
    { rewrite tuples_long, (partition_app p e NE). cbn [fst snd]. rewrite M. reflexivity. }
    destruct e as [v|]; [|exists n; exact T].
    destruct (find_option (45 :: 45 :: p)) as [a|] eqn:F2; [|exists n; exact T].
    exists p. pose proof (longfor_exact _ _ _ L (find_long _ _ F2)) as E. cbn [option_map]. now rewrite <- E, act_mean.
Qed.
Definition explicit_of (r : str) : option (bool * str) := match r with [] => None | 61 :: v => Some (true, v) | _ => Some (false, r) end.
Lemma explicit_other c r : c <> 61 -> explicit_of (c :: r) = Some (false, c :: r).
Proof. intros H. unfold explicit_of. destruct c as [|p]; [reflexivity|]. do 6 (try (destruct p as [p|p|]; try reflexivity)). now destruct H. Qed.
Lemma parse_short c m r : Short c m -> parse_optional (45 :: c :: r) = Some (I_opt (act_of m) [45; c] (explicit_of r)).
Proof.
  intros H. destruct (short_char _ _ H) as [N1 N2]. rewrite parse_unfold. destruct r as [|x r].
  - rewrite (find_short _ _ H). reflexivity.
  - rewrite find_none_short by (try discriminate; assumption). rewrite partition_two by assumption. cbn [fst snd].
    destruct (N.eq_dec x 61) as [->|N3].
    + cbn [partition_eq N.eqb Pos.eqb fst snd]. rewrite (find_short _ _ H). reflexivity.
    + rewrite explicit_other by assumption. cbn [partition_eq]. pose proof N3 as N4. apply N.eqb_neq in N4. rewrite N4. destruct (partition_eq r) as [a b]. cbn [fst snd].
      rewrite find_none_short by (try discriminate; assumption). rewrite (tuples_short c m (x :: r) N1 H) by discriminate. now destruct b.
Qed.
Lemma digital_short c : Digital c -> find_option [45; c] = None.
Proof.
  intros D. destruct (find_option [45; c]) as [a|] eqn:E; [|reflexivity]. apply find_short_inv in E; [|now apply digital_facts in D]. exfalso.
  destruct E as (x & n & H & ->). apply is_digit_iff in D. assert (K : forallb (fun y => match fst (fst y) with Some a => negb (is_digit (N_of_ascii a)) | None => true end) documented = true) by (vm_compute; reflexivity).
  rewrite forallb_forall in K. apply K in H. cbn [fst] in H. rewrite D in H. discriminate.
Qed.
Lemma existsb_32 l : existsb (N.eqb 32) l = true <-> In 32 l.
Proof. rewrite existsb_exists. split; [intros (x & I & E); apply N.eqb_eq in E; now subst|intros I; exists 32; split; [exact I|reflexivity]]. Qed.

(** not an option: what remains *)
Lemma parse_not_optional c r : ~ Optional (45 :: c :: r) -> parse_optional (45 :: c :: r) =
  if negative_number (45 :: c :: r) then Some (I_arg (45 :: c :: r)) else if existsb (N.eqb 32) (45 :: c :: r) then Some (I_arg (45 :: c :: r)) else Some I_unknown.
Proof.
  intros H. rewrite parse_unfold.
  assert (F : find_option (45 :: c :: r) = None).
  { destruct (find_option _) as [a|] eqn:E; [|reflexivity]. exfalso. apply H. apply find_option_iff, key_shape in E as [(x & m & E & _ & K)|(nm & m & E & _ & K)]; injection E; intros; subst; [eapply Opt_short; eassumption|].
    eapply (Opt_long nm); [eassumption|]. exists []. now rewrite app_nil_r. }
  rewrite F. destruct (N.eq_dec c 45) as [->|N].
  - destruct (partition_spec r) as [E NE]. set (p := fst (partition_eq r)) in *. set (e := snd (partition_eq r)) in *. rewrite partition_two by discriminate. fold p e. cbn [fst snd].
    assert (O : forall n m, Long n m -> ~ begins p n).
    { intros n m L B. apply H. rewrite E. destruct e as [v|]; cbn [tail_of]; [eapply Opt_long_eq; eassumption|]. rewrite app_nil_r. eapply Opt_long; eassumption. }
    assert (F2 : find_option (45 :: 45 :: p) = None).
    { destruct (find_option (45 :: 45 :: p)) as [a|] eqn:Q; [|reflexivity]. apply find_long in Q. destruct (O _ _ Q). exists []. now rewrite app_nil_r. }
    rewrite F2, tuples_long. fold p e. assert (M : matches p = []).
    { destruct (matches p) as [|[n a] l] eqn:Q; [reflexivity|]. assert (I : In (n, a) (matches p)) by (rewrite Q; now left). apply matches_in in I as (nm & m & _ & _ & L & B). now destruct (O _ _ L). }
    rewrite M. cbn [map]. now destruct e.
  - assert (F2 : find_option [45; c] = None).
    { destruct (find_option [45; c]) as [a|] eqn:Q; [|reflexivity]. exfalso. apply H. eapply Opt_short, find_short_inv; eassumption. }
    rewrite tuples_none by assumption.
    assert (P : snd (partition_eq (45 :: c :: r)) = None \/ find_option (fst (partition_eq (45 :: c :: r))) = None).
    { destruct (N.eq_dec c 61) as [->|N2]; [right; reflexivity|]. rewrite partition_two by assumption. cbn [fst snd]. right. destruct (fst (partition_eq r)); [exact F2|]. apply find_none_short; [discriminate|assumption]. }
    destruct P as [-> | ->]; [reflexivity|]. now destruct (snd (partition_eq (45 :: c :: r))).
Qed.
Lemma parse_operand v : Operand v -> parse_optional v = Some (I_arg v).
Proof.
  intros H. destruct H as [|c r N| |v L|r I O].
  - reflexivity.
  - cbn [parse_optional]. destruct c as [|p]; [reflexivity|]. do 6 (try (destruct p as [p|p|]; try reflexivity)). now destruct N.
  - reflexivity.
  - pose proof L as L0. apply negative_iff in L. destruct L0 as (ds & e & He & [(-> & N & F)|(ds' & -> & N & F & F')]).
    + destruct ds as [|c r]; [now destruct N|]. cbn [app] in *. inversion F as [|? ? D _]; subst. rewrite parse_not_optional, L; [reflexivity|].
      intros O. inversion O as [p n m K1 K2 E|p n m v K1 K2 E|x m r' K E]; subst; try (apply digital_facts in D; tauto). apply digital_short in D. rewrite (find_short _ _ K) in D. discriminate.
    + assert (S1 : exists c r, ds ++ 46 :: ds' ++ e = c :: r /\ c <> 45 /\ find_option [45; c] = None).
      { destruct ds as [|c r]; [exists 46, (ds' ++ e); repeat split; try discriminate|]. inversion F as [|? ? D _]; subst. exists c, (r ++ 46 :: ds' ++ e). split; [reflexivity|]. split; [now apply digital_facts in D|now apply digital_short]. }
      destruct S1 as (c & r & E & N1 & F1). rewrite E in *. rewrite parse_not_optional, L; [reflexivity|].
      intros O. inversion O as [p n m K1 K2 E'|p n m v K1 K2 E'|x m r' K E']; subst; try congruence. rewrite (find_short _ _ K) in F1. discriminate.
  - destruct r as [|c r]; [destruct I|]. rewrite parse_not_optional by exact O. destruct (negative_number _); [reflexivity|]. assert (E : existsb (N.eqb 32) (45 :: c :: r) = true) by (apply existsb_32; now right). now rewrite E.
Qed.
