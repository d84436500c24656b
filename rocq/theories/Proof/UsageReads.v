(** Usage errors: the steps of a command line *)
From Coq Require Import Ascii String.
From Coq Require Import List Arith NArith ZArith Bool Lia.
From Verif.Model Require Import Base Settings Runner Options Render SettingsDump Process Args Help UsageErrors.
From Verif.Spec Require Import Invocation CommandLine HelpAsked UsageReasons.
From Verif.Proof Require Import BaseFacts ArgsInt ArgsFacts ArgsClaims ArgsMain ArgsHelp AppClaims UsageFacts.
Import ListNotations.
Local Open Scope N_scope.

(** * Names *)
Lemma titles : Forall (fun x => title (45 :: 45 :: txt (snd (fst x))) = name_of x /\ match fst (fst x) with Some a => title [45; N_of_ascii a] = name_of x | None => True end) documented.
Proof. unfold documented, both, only. repeat (apply Forall_cons; [split; vm_compute; first [reflexivity|exact I]|]). apply Forall_nil. Qed.
Lemma letter_iff c m t : Letter c m t <-> Short c m /\ t = title [45; c].
Proof.
  pose proof titles as T. rewrite Forall_forall in T. split.
  - intros (a & n & D & -> & ->). split; [exists a, n; auto|]. symmetry. apply (T _ D).
  - intros [(a & n & D & ->) ->]. exists a, n. split; [exact D|]. split; [reflexivity|]. apply (T _ D).
Qed.
Lemma name_iff p m t : Name p m t <-> LongFor p m /\ exists n, Long n m /\ begins p n /\ t = title (45 :: 45 :: n).
Proof.
  pose proof titles as T. rewrite Forall_forall in T. split.
  - intros (L & a & n & D & B & ->). split; [exact L|]. exists (txt n). split; [exists a, n; auto|]. split; [exact B|]. symmetry. apply (T _ D).
  - intros (L & n & (a & s & D & ->) & B & ->). split; [exact L|]. exists a, s. split; [exact D|]. split; [exact B|]. apply (T _ D).
Qed.
Lemma name_exists p m : LongFor p m -> exists t, Name p m t.
Proof. intros L. pose proof L as (n & LN & B & _). exists (title (45 :: 45 :: n)). apply name_iff. split; [exact L|]. eauto. Qed.
Lemma parse_named p m t e : Name p m t -> exists n, title (45 :: 45 :: n) = t /\ parse_optional (45 :: 45 :: p ++ tail_of e) = Some (I_opt (act_of m) (45 :: 45 :: n) (option_map (fun v => (true, v)) e)).
Proof.
  intros H. apply name_iff in H as (L & n & LN & B & ->). exists n. split; [reflexivity|]. pose proof (longfor_no_eq _ _ L) as NE.
  assert (M : matches p = [(45 :: 45 :: n, act_of m)]).
  { destruct (matches_long _ _ L) as [n' M]. assert (I1 : In (45 :: 45 :: n, act_of m) (matches p)) by (apply matches_in; eauto 8). rewrite M in *. destruct I1 as [E|[]]. now rewrite E. }
  assert (EX : forall m', Long p m' -> p = n).
  { intros m' LP. destruct L as (k & LK & BK & U). rewrite (U n m LN B). apply (U p m' LP). exists []. now rewrite app_nil_r. }
  rewrite parse_unfold, partition_two by discriminate. rewrite (partition_app p e NE). cbn [fst snd].
  destruct (find_option (45 :: 45 :: p ++ tail_of e)) as [a|] eqn:F.
  - destruct e as [v|]; [cbn [tail_of] in F; rewrite find_long_eq in F; discriminate|]. cbn [tail_of] in *. rewrite app_nil_r in *. pose proof (longfor_exact _ _ _ L (find_long _ _ F)) as E. cbn [option_map]. rewrite <- E, act_mean. now rewrite <- (EX _ (find_long _ _ F)).
  - assert (T : match option_tuples (45 :: 45 :: p ++ tail_of e) with [(a, x, e0)] => Some (I_opt a x e0) | _ :: _ => None
       | [] => if negative_number (45 :: 45 :: p ++ tail_of e) then Some (I_arg (45 :: 45 :: p ++ tail_of e)) else if existsb (N.eqb 32) (45 :: 45 :: p ++ tail_of e) then Some (I_arg (45 :: 45 :: p ++ tail_of e)) else Some I_unknown end
       = Some (I_opt (act_of m) (45 :: 45 :: n) (option_map (fun v => (true, v)) e))).
    { rewrite tuples_long, (partition_app p e NE). cbn [fst snd]. rewrite M. reflexivity. }
    destruct e as [v|]; [|exact T]. destruct (find_option (45 :: 45 :: p)) as [a|] eqn:F2; [|exact T].
    pose proof (longfor_exact _ _ _ L (find_long _ _ F2)) as E. cbn [option_map]. rewrite <- E, act_mean. now rewrite <- (EX _ (find_long _ _ F2)).
Qed.

(** * Steps *)
Definition tr (x : step) : why_event :=
  match x with
  | S_opt o => Y_opt o | S_help => Y_help | S_surplus s => Y_extra s
  | S_not_number t v => Y_fail (R_invalid t v) | S_missing t => Y_fail (R_expected t) | S_needless t v => Y_fail (R_ignored t v)
  end.
Lemma given_value n f v st : Given (title n) f v st <-> tr st = take_value n f v.
Proof.
  unfold take_value. split.
  - intros [z H|H]; [apply int_of_iff in H; now rewrite H|]. destruct (int_of v) as [z|] eqn:E; [apply int_of_iff in E; now apply H in E|reflexivity].
  - destruct (int_of v) as [z|] eqn:E; intros H.
    + apply int_of_iff in E. destruct st; try discriminate. injection H as ->. now constructor.
    + destruct st; try discriminate. injection H as -> ->. constructor. intros z K. apply int_of_iff in K. congruence.
Qed.
Lemma given_exists n f v : exists st, Given (title n) f v st.
Proof.
  destruct (int_of v) as [z|] eqn:E; [exists (S_opt (f z)); constructor; now apply int_of_iff|]. exists (S_not_number (title n) v). constructor. intros z K. apply int_of_iff in K. congruence.
Qed.

(** * Words of letters *)
Definition scan (c : N) (m : meaning) (r : str) : reason + (list why_event * option (str * (Z -> opt))) :=
  match explicit_of r with
  | None => match m with Number f => inr ([], Some ([45; c], f)) | _ => inr ([tr (here m)], None) end
  | Some (sep, e) => bundle_why (act_of m) [45; c] sep e
  end.
Lemma scan_step c x r m : c <> 45 -> ~ takes_number m -> scan c m (x :: r) =
  if x =? 61 then inl (R_ignored (title [45; c]) r)
  else if x =? 45 then inl (R_ignored (title [45; c]) (x :: r))
  else match find_option [45; x] with
       | None => inr ([tr (here m); Y_extra (45 :: x :: r)], None)
       | Some a => match scan x (mean a) r with inr (l, k) => inr (tr (here m) :: l, k) | inl e => inl e end
       end.
Proof.
  intros NC NM. apply N.eqb_neq in NC.
  assert (C : eqb_list [c] [45] = false) by (cbn; now rewrite NC).
  assert (A : forall sep e, bundle_why (act_of m) [45; c] sep e = match e with
      | [] => inl (R_ignored (title [45; c]) e)
      | c' :: r =>
          if eqb_list [c] [45] then inl (R_ignored (title [45; c]) e)
          else if sep || (c' =? 45) then inl (R_ignored (title [45; c]) e)
          else match find_option [45; c'] with
               | None => inr ([tr (here m); Y_extra (45 :: e)], None)
               | Some a' =>
                   match r with
                   | [] => match a' with
                           | A_int f => inr ([tr (here m)], Some ([45; c'], f))
                           | A_flag o => inr ([tr (here m); Y_opt o], None)
                           | A_help => inr ([tr (here m); Y_help], None)
                           end
                   | 61 :: r' =>
                       match bundle_why a' [45; c'] true r' with inr (l, k) => inr (tr (here m) :: l, k) | inl x => inl x end
                   | _ => match bundle_why a' [45; c'] false r with inr (l, k) => inr (tr (here m) :: l, k) | inl x => inl x end
                   end
               end
      end).
  { intros sep e. destruct m as [o|f|]; [|destruct NM; now exists f|]; destruct e; reflexivity. }
  destruct (N.eqb_spec x 61) as [->|NX].
  - unfold scan. cbn [explicit_of]. rewrite A, C. destruct r as [|y r]; [reflexivity|]. reflexivity.
  - unfold scan at 1. rewrite explicit_other by exact NX. rewrite A, C. cbn [orb]. destruct (x =? 45); [reflexivity|]. destruct (find_option [45; x]) as [a|]; [|reflexivity].
    unfold scan. destruct r as [|y r]; [destruct a; reflexivity|]. destruct (N.eq_dec y 61) as [->|NY].
    + cbn [explicit_of]. rewrite act_mean. reflexivity.
    + rewrite explicit_other by exact NY. rewrite act_mean. destruct y as [|y]; [reflexivity|]. do 6 (try (destruct y as [y|y|]; try reflexivity)). now destruct NY.
Qed.
Definition Ends (e : ending) (k : list step) (x : reason + (list why_event * option (str * (Z -> opt)))) : Prop :=
  match e with
  | E_done => x = inr (map tr k, None)
  | E_open t f => exists n, title n = t /\ x = inr (map tr k, Some (n, f))
  | E_needless t v => x = inl (R_ignored t v)
  end.
Lemma letters_scan cs k e : Letters cs k e -> forall c m r, cs = c :: r -> Short c m -> Ends e k (scan c m r).
Proof.
  induction 1 as [c m t L NN|c m t c' m' t' r l e L NN L' H IH|c m t s r L NN ST|c m t r L NN|c m t r L NN|c f t L|c f t x v st L NX G|c f t v st L G];
    intros c0 m0 r0 E S0; injection E as <- <-; apply letter_iff in L as [S1 ->].
  - assert (m0 = m) as -> by (eapply short_fun; eassumption). cbn. destruct m as [o|f|]; [reflexivity|destruct NN; now exists f|reflexivity].
  - assert (m0 = m) as -> by (eapply short_fun; eassumption). destruct (short_char _ _ S1) as [N1 _]. apply letter_iff in L' as [S2 ->]. destruct (short_char _ _ S2) as [N2 N3]. apply N.eqb_neq in N2, N3.
    rewrite scan_step, N3, N2 by assumption. rewrite (find_short _ _ S2), mean_act. specialize (IH c' m' r eq_refl S2). destruct e as [|t f|t v]; cbn [Ends] in *; [now rewrite IH| |now rewrite IH].
    destruct IH as (n & <- & ->). exists n. auto.
  - assert (m0 = m) as -> by (eapply short_fun; eassumption). destruct (short_char _ _ S1) as [N1 _]. apply stray_find in ST as [X F]. apply orb_false_iff in X as [X1 X2]. rewrite scan_step, X1, X2, F by assumption. reflexivity.
  - assert (m0 = m) as -> by (eapply short_fun; eassumption). destruct (short_char _ _ S1) as [N1 _]. rewrite scan_step by assumption. reflexivity.
  - assert (m0 = m) as -> by (eapply short_fun; eassumption). destruct (short_char _ _ S1) as [N1 _]. rewrite scan_step by assumption. reflexivity.
  - assert (m0 = Number f) as -> by (eapply short_fun; eassumption). exists [45; c]. split; reflexivity.
  - assert (m0 = Number f) as -> by (eapply short_fun; eassumption). unfold scan. rewrite explicit_other by exact NX. cbn [Ends act_of bundle_why map]. apply given_value in G. now rewrite G.
  - assert (m0 = Number f) as -> by (eapply short_fun; eassumption). unfold scan. cbn [explicit_of Ends act_of map]. apply given_value in G. rewrite G. now destruct v.
Qed.
Lemma letters_first cs k e : Letters cs k e -> exists c m r, cs = c :: r /\ Short c m.
Proof. intros [c m t L NN|c m t c' m' t' r l e' L NN L' H|c m t s r L NN ST|c m t r L NN|c m t r L NN|c f t L|c f t x v st L NX G|c f t v st L G]; apply letter_iff in L as [S0 _]; eauto. Qed.
Lemma letters_exist r : forall c m, Short c m -> exists k e, Letters (c :: r) k e.
Proof.
  induction r as [|x r IH]; intros c m S0; assert (L : Letter c m (title [45; c])) by (apply letter_iff; auto).
  - destruct m as [o|f|]; [|exists [], (E_open (title [45; c]) f); now apply Ls_open|]; do 2 eexists; (eapply Ls_last; [exact L|intros [f K]; discriminate]).
  - assert (D : takes_number m \/ ~ takes_number m) by (destruct m as [o|f|]; [right; intros [f K]; discriminate|left; now exists f|right; intros [f K]; discriminate]).
    destruct D as [[f ->]|NN].
    + destruct (N.eq_dec x 61) as [->|NX]; [destruct (given_exists [45; c] f r) as [st G]|destruct (given_exists [45; c] f (x :: r)) as [st G]]; do 2 eexists; [eapply Ls_equals_value|eapply Ls_value]; eauto.
    + destruct (N.eq_dec x 61) as [->|NX]; [do 2 eexists; eapply Ls_equals; eassumption|]. destruct (N.eq_dec x 45) as [->|NY]; [do 2 eexists; eapply Ls_dash; eassumption|].
      destruct (find_option [45; x]) as [a|] eqn:F.
      * apply find_short_inv in F; [|exact NY]. destruct (IH x _ F) as (k & e & H). do 2 eexists. eapply Ls_next; [exact L|exact NN|apply letter_iff; split; [exact F|reflexivity]|exact H].
      * do 2 eexists. eapply Ls_stray; [exact L|exact NN|]. apply stray_find. split; [|exact F]. apply N.eqb_neq in NX, NY. now rewrite NX, NY.
Qed.

(** * Lines *)
Lemma classify_why_cons s r l : s <> [45; 45] -> classify_why (s :: r) = inr l -> exists i l', parse_optional s = Some i /\ classify_why r = inr l' /\ l = (s, i) :: l'.
Proof.
  intros ND. cbn [classify_why]. destruct (eqb_list s [45; 45]) eqn:E; [apply eqb_list_spec in E; contradiction|]. destruct (parse_optional s) as [i|]; [|discriminate]. destruct (classify_why r) as [e|l']; [discriminate|].
  intros [= <-]. eauto.
Qed.
Lemma classify_why_dash r : classify_why ([45; 45] :: r) = inr (([45; 45], I_dash) :: map (fun v => (v, I_arg v)) r).
Proof. reflexivity. Qed.
Lemma events_args q : events_why true (map (fun v => (v, I_arg v)) q) = map tr (map S_surplus q).
Proof. induction q as [|v q IH]; [reflexivity|]. cbn [map events_why tr]. now rewrite IH. Qed.
Lemma events_scan u s c m r rest : events_why u ((s, I_opt (act_of m) [45; c] (explicit_of r)) :: rest) =
  match scan c m r with
  | inl x => [Y_fail x]
  | inr (l, None) => l ++ events_why u rest
  | inr (l, Some (n, f)) => match rest with (_, I_arg v) :: r' => l ++ take_value n f v :: events_why u r' | _ => [Y_fail (R_expected (title n))] end
  end.
Proof. unfold scan. destruct (explicit_of r) as [[sep e]|]; [destruct m; reflexivity|]. destruct m as [o|f|]; reflexivity. Qed.
Lemma scan_word u cs k e rest l : Letters cs k e -> classify_why ((45 :: cs) :: rest) = inr l -> exists l' x, classify_why rest = inr l' /\ Ends e k x /\
  events_why u l = match x with
  | inl x => [Y_fail x]
  | inr (l, None) => l ++ events_why u l'
  | inr (l, Some (n, f)) => match l' with (_, I_arg v) :: r' => l ++ take_value n f v :: events_why u r' | _ => [Y_fail (R_expected (title n))] end
  end.
Proof.
  intros L C. destruct (letters_first _ _ _ L) as (c & m & r & -> & S0). apply classify_why_cons in C as (i & l' & P & C & ->); [|now apply (short_not_dashes c m r)]. rewrite (parse_short c m r S0) in P. injection P as <-.
  exists l', (scan c m r). split; [exact C|]. split; [eapply letters_scan; eauto|]. apply events_scan.
Qed.
Lemma not_operand_head rest l : no_operand rest -> classify_why rest = inr l -> match l with (_, I_arg v) :: r' => False | _ => True end.
Proof.
  intros NO C. destruct l as [|[s [v| | |]] l]; try exact I. pose proof (classify_erase rest) as E. rewrite C in E. cbn [map snd] in E. apply classify_arg in E as (r & -> & O & _). now apply (NO v r).
Qed.
Lemma operand_head v rest l : Operand v -> classify_why (v :: rest) = inr l -> exists l', l = (v, I_arg v) :: l' /\ classify_why rest = inr l'.
Proof. intros O C. apply classify_why_cons in C as (i & l' & P & C & ->); [|now apply operand_not_dashes]. rewrite (parse_operand v O) in P. injection P as <-. eauto. Qed.
Lemma name_dashes p m t e : Name p m t -> 45 :: 45 :: p ++ tail_of e <> [45; 45].
Proof. intros [L _]. eapply long_not_dashes; eassumption. Qed.
Lemma named_head p m t rest l : Name p m t -> classify_why ((45 :: 45 :: p) :: rest) = inr l -> exists n l', title (45 :: 45 :: n) = t /\ l = (45 :: 45 :: p, I_opt (act_of m) (45 :: 45 :: n) None) :: l' /\ classify_why rest = inr l'.
Proof.
  intros H C. pose proof (name_dashes p m t None H) as ND. destruct (parse_named p m t None H) as (n & T & P). cbn [tail_of] in *. rewrite app_nil_r in *. apply classify_why_cons in C as (i & l' & P' & C & ->); [|exact ND]. rewrite P in P'. injection P' as <-. eauto.
Qed.
Lemma named_eq_head p m t v rest l : Name p m t -> classify_why ((45 :: 45 :: p ++ 61 :: v) :: rest) = inr l -> exists n l', title (45 :: 45 :: n) = t /\ l = (45 :: 45 :: p ++ 61 :: v, I_opt (act_of m) (45 :: 45 :: n) (Some (true, v))) :: l' /\ classify_why rest = inr l'.
Proof.
  intros H C. pose proof (name_dashes p m t (Some v) H) as ND. destruct (parse_named p m t (Some v) H) as (n & T & P). cbn [tail_of option_map] in *. apply classify_why_cons in C as (i & l' & P' & C & ->); [|exact ND]. rewrite P in P'. injection P' as <-. eauto.
Qed.
Lemma reads_events u argv k : Reads u argv k -> forall l, classify_why argv = inr l -> events_why u l = map tr k.
Proof.
  induction 1 as [u|u p m t rest k H NN _ IH|u p m t v rest H NN|u p f t v st rest k H G _ IH|u p f t v st rest k H O G _ IH|u p f t rest H NO
    |u cs k1 rest k H _ IH|u cs k1 t f v st rest k H O G _ IH|u cs k1 t f rest H NO|u cs k1 t v rest H
    |u s rest k UN _ IH|v rest k O ND _ IH|v rest k O _ IH|v r O| |v r|r]; intros l C.
  - injection C as <-. reflexivity.
  - apply (named_head p m t) in C as (n & l' & _ & -> & C); [|exact H]. destruct m as [o|f|]; [|destruct NN; now exists f|]; cbn [events_why act_of map tr here]; f_equal; now apply IH.
  - apply (named_eq_head p m t) in C as (n & l' & <- & -> & C); [|exact H]. destruct m as [o|f|]; [|destruct NN; now exists f|]; destruct v; reflexivity.
  - apply (named_eq_head p (Number f) t) in C as (n & l' & <- & -> & C); [|exact H]. apply given_value in G. cbn [map]. rewrite G, <- (IH _ C). destruct v; reflexivity.
  - apply (named_head p (Number f) t) in C as (n & l' & <- & -> & C); [|exact H]. apply operand_head in C as (l2 & -> & C); [|exact O]. apply given_value in G. cbn [map events_why act_of]. now rewrite G, <- (IH _ C).
  - apply (named_head p (Number f) t) in C as (n & l' & <- & -> & C); [|exact H]. pose proof (not_operand_head _ _ NO C) as K. cbn [events_why act_of map tr]. destruct l' as [|[s [v| | |]] l']; try reflexivity. destruct K.
  - destruct (scan_word u _ _ _ _ _ H C) as (l' & x & C' & E & ->). cbn [Ends] in E. rewrite E, map_app. now rewrite (IH _ C').
  - destruct (scan_word u _ _ _ _ _ H C) as (l' & x & C' & E & ->). cbn [Ends] in E. destruct E as (n & <- & ->). apply operand_head in C' as (l2 & -> & C'); [|exact O]. apply given_value in G. rewrite map_app. cbn [map]. now rewrite G, <- (IH _ C').
  - destruct (scan_word u _ _ _ _ _ H C) as (l' & x & C' & E & ->). cbn [Ends] in E. destruct E as (n & <- & ->). pose proof (not_operand_head _ _ NO C') as K. destruct l' as [|[s [v| | |]] l']; try reflexivity. destruct K.
  - destruct (scan_word u _ _ _ _ _ H C) as (l' & x & C' & E & ->). cbn [Ends] in E. now rewrite E.
  - destruct UN as (ND & NO & NP). apply classify_why_cons in C as (i & l' & P & C & ->); [|exact ND]. assert (P' : parse_optional s = Some I_unknown) by (apply parse_unknown; auto). rewrite P' in P. injection P as <-. cbn [events_why map tr]. f_equal. now apply IH.
  - apply operand_head in C as (l' & -> & C); [|exact O]. cbn [events_why map tr]. f_equal. rewrite <- (IH _ C). destruct l' as [|[s [v'| | |]] l']; try reflexivity. exfalso.
    destruct rest as [|s' rest]; [discriminate|]. assert (D : s' <> [45; 45]) by (intros ->; now apply (ND rest)). apply classify_why_cons in C as (i & l2 & P & C & E); [|exact D]. injection E as -> <- <-. apply parse_seen in P; [|exact D]. inversion P.
  - apply operand_head in C as (l' & -> & C); [|exact O]. cbn [events_why map tr]. f_equal. now apply IH.
  - apply operand_head in C as (l' & -> & C); [|exact O]. rewrite classify_why_dash in C. injection C as <-. cbn [events_why map tr]. f_equal. apply events_args.
  - injection C as <-. reflexivity.
  - rewrite classify_why_dash in C. injection C as <-. cbn [events_why map tr]. f_equal. apply events_args.
  - rewrite classify_why_dash in C. injection C as <-. cbn [events_why map tr]. f_equal. apply events_args.
Qed.
Lemma no_takes m : takes_number m \/ ~ takes_number m.
Proof. destruct m as [o|f|]; [right; intros [f K]; discriminate|left; now exists f|right; intros [f K]; discriminate]. Qed.
Lemma operand_or s r : Clear (s :: r) -> Operand s \/ ~ Operand s.
Proof.
  intros C. destruct (list_eq_dec N.eq_dec s [45; 45]) as [->|ND]; [right; intros O; now apply operand_not_dashes in O|].
  destruct (parse_optional s) as [[v| | |]|] eqn:P; try (right; intros O; rewrite (parse_operand s O) in P; discriminate). left.
  apply parse_seen in P; [|exact ND]. now inversion P.
Qed.
Lemma clear_tail s r : s <> [45; 45] -> Clear (s :: r) -> Clear r.
Proof. intros ND C. inversion C; subst; [congruence|assumption]. Qed.
Lemma rest_cases rest : Clear rest -> no_operand rest \/ exists v r, rest = v :: r /\ Operand v /\ Clear r.
Proof.
  intros C. destruct rest as [|v r]; [left; intros v r E; discriminate|]. destruct (operand_or v r C) as [O|NO].
  - right. exists v, r. split; [reflexivity|]. split; [exact O|]. eapply clear_tail; [|exact C]. now apply operand_not_dashes.
  - left. intros v' r' E. now injection E as -> ->.
Qed.
Lemma reads_exist n : forall u argv, (List.length argv <= n)%nat -> Clear argv -> exists k, Reads u argv k.
Proof.
  induction n as [|n IH]; intros u argv HN C; [destruct argv; [exists []; constructor|cbn in HN; lia]|].
  destruct argv as [|s rest]; [exists []; constructor|]. cbn [List.length] in HN.
  destruct (list_eq_dec N.eq_dec s [45; 45]) as [->|ND].
  { destruct u; [eexists; apply R_end_used|]. destruct rest as [|v r]; [eexists; apply R_end|eexists; apply R_end_file]. }
  pose proof (clear_tail _ _ ND C) as CR. assert (IR : forall u, exists k, Reads u rest k) by (intros; apply IH; [lia|exact CR]).
  assert (I2 : forall u v r, rest = v :: r -> Clear r -> exists k, Reads u r k) by (intros u' v r -> CR'; apply IH; [cbn in HN; lia|exact CR']).
  apply classify_clear in C as [l CL]. rewrite classify_cons in CL by exact ND. destruct (parse_optional s) as [i|] eqn:P; [|discriminate].
  assert (PU : i = I_unknown -> Unknown s) by (intros ->; split; [exact ND|]; now apply parse_unknown).
  pose proof (parse_seen _ _ ND P) as K. destruct K as [O|p m e nm -> L|c m r -> S0|].
  - destruct u; [destruct (IR true) as [k R]; eexists; now apply R_operand; eauto|].
    destruct rest as [|s' r]; [exists [S_opt (O_file s)]; apply R_file; [exact O|intros r; discriminate|constructor]|].
    destruct (list_eq_dec N.eq_dec s' [45; 45]) as [->|ND']; [eexists; now apply R_file_end|]. destruct (IR true) as [k R]. eexists. apply R_file; [exact O|intros r' E; injection E as E _; contradiction|exact R].
  - destruct (name_exists _ _ L) as [t H]. assert (TN : exists nn, t = title nn) by (apply name_iff in H as (_ & nn & _ & _ & ->); eauto). destruct TN as [nn ->].
    destruct e as [v|]; cbn [tail_of]; [|rewrite app_nil_r]; (destruct (no_takes m) as [[f ->]|NN]).
    + destruct (given_exists nn f v) as [st G]. destruct (IR u) as [k R]. eexists. eapply R_long_equals; eassumption.
    + eexists. eapply R_long_needless; eassumption.
    + destruct (rest_cases _ CR) as [NO|(v & r & -> & O & CV)]; [eexists; eapply R_long_missing; eassumption|]. destruct (given_exists nn f v) as [st G]. destruct (I2 u v r eq_refl CV) as [k R]. eexists. eapply R_long_value; eassumption.
    + destruct (IR u) as [k R]. eexists. eapply R_long; eassumption.
  - destruct (letters_exist r c m S0) as (k1 & e & LT). destruct e as [|t f|t v].
    + destruct (IR u) as [k R]. eexists. eapply R_letters; eassumption.
    + destruct (rest_cases _ CR) as [NO|(v & r' & -> & O & CV)]; [eexists; eapply R_letters_missing; eassumption|].
      assert (TN : exists nn, t = title nn) by (pose proof (letters_scan _ _ _ LT c m r eq_refl S0) as (nn & <- & _); eauto). destruct TN as [nn ->].
      destruct (given_exists nn f v) as [st G]. destruct (I2 u v r' eq_refl CV) as [k R]. eexists. eapply R_letters_value; eassumption.
    + eexists. eapply R_letters_needless. eassumption.
  - destruct (IR u) as [k R]. eexists. apply R_unknown; [now apply PU|exact R].
Qed.
Lemma tr_inj a b : map tr a = map tr b -> a = b.
Proof.
  revert b. induction a as [|x a IH]; intros [|y b] H; try discriminate; [reflexivity|]. cbn in H. injection H as H1 H2. f_equal; [|now apply IH]. destruct x, y; try discriminate H1; now injection H1 as -> -> || now injection H1 as -> || reflexivity.
Qed.
Lemma clear_why argv : Clear argv <-> exists l, classify_why argv = inr l.
Proof. rewrite classify_clear, classify_erase. destruct (classify_why argv) as [e|l]; split; intros [x H]; try discriminate; eauto. Qed.
Lemma reads_fun u argv a b : Clear argv -> Reads u argv a -> Reads u argv b -> a = b.
Proof. intros C R1 R2. apply clear_why in C as [l C]. apply tr_inj. rewrite <- (reads_events _ _ _ R1 _ C). now apply reads_events with (argv := argv). Qed.
