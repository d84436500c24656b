(** Templates: filling in *)
From Coq Require Import Ascii String.
From Coq Require Import List Arith NArith ZArith Bool Lia.
From Verif.Model Require Import Base Ansi Regex Filters Render Messages Args SgrNames Es7sTemplate.
From Verif.Spec Require Import Terminal Filtered CommandLine SgrNames TemplateText.
From Verif.Proof Require Import BaseFacts TokFacts FilterClaims ArgsInt SgrNamesClaims TemplateFacts.
Import ListNotations.
Local Open Scope N_scope.

(** ** Elements of a format *)
Lemma joined_cons2 sep x r : r <> [] -> joined sep (x :: r) = x ++ sep ++ joined sep r.
Proof. destruct r; [congruence|reflexivity]. Qed.
Lemma split_elements w : Elements w (split_on 59 w).
Proof.
  induction w as [|c w (NE & J & F)]; cbn [split_on].
  - split; [discriminate|]. split; [reflexivity|]. constructor; [intros []|constructor].
  - destruct (N.eqb_spec c 59) as [->|D].
    + split; [discriminate|]. split; [|constructor; [intros []|exact F]]. rewrite joined_cons2 by exact NE. cbn. now rewrite <- J.
    + destruct (split_on 59 w) as [|x l]; [now destruct NE|]. split; [discriminate|]. inversion F; subst. split.
      * rewrite joined_cons. now f_equal.
      * constructor; [|assumption]. intros [K|K]; [congruence|contradiction].
Qed.
Lemma elements_split w es : Elements w es -> es = split_on 59 w.
Proof.
  intros (NE & -> & F). induction es as [|x es IH]; [congruence|]. inversion F as [|? ? Fx Fe]; subst. destruct es as [|y es].
  - cbn [joined]. now rewrite split_on_none.
  - rewrite joined_cons2 by discriminate. cbn [app]. rewrite split_on_app by exact Fx. f_equal. apply IH; [discriminate|exact Fe].
Qed.

(** ** Numbers and names *)
Definition numeric (e : str) : bool := match e with [] => false | _ => forallb is_decimal e end.
Lemma decimal_iff c : is_decimal c = true <-> Digital c.
Proof.
  unfold is_decimal. destruct (digit_value c) as [d|] eqn:E.
  - split; [|reflexivity]. intros _. exists d. now apply digit_iff.
  - apply digit_none in E. split; [discriminate|contradiction].
Qed.
Lemma numeric_iff e : numeric e = true <-> Number e.
Proof.
  unfold numeric, Number. destruct e as [|c e]; [split; [discriminate|intros [H _]; congruence]|].
  rewrite forallb_forall, Forall_forall. split.
  - intros H. split; [discriminate|]. intros x I. now apply decimal_iff, H.
  - intros [_ H] x I. now apply decimal_iff, H.
Qed.
Lemma numeric_no e : numeric e = false <-> ~ Number e.
Proof. rewrite <- numeric_iff. destruct (numeric e); split; congruence. Qed.
Lemma digits_more e ds : Forall2 Digit e ds -> More_digits e ds.
Proof. induction 1; [constructor|now constructor]. Qed.
Lemma forall2_len {A B} (R : A -> B -> Prop) l l' : Forall2 R l l' -> List.length l = List.length l'.
Proof. induction 1; cbn; congruence. Qed.
Lemma number_digits e : Number e -> exists ds, Forall2 Digit e ds.
Proof.
  intros [_ F]. induction F as [|c e [d D] _ [ds IH]]; [now exists []|]. exists (d :: ds). now constructor.
Qed.
Lemma number_value e ds : e <> [] -> Forall2 Digit e ds -> N.of_nat (List.length e) <= 4300 -> unsigned_int e = Some (value ds).
Proof.
  intros NE F L. apply unsigned_iff. destruct F as [|c d e ds D F]; [congruence|].
  exists c, d, e, ds, []. rewrite app_nil_r. repeat split; auto; [now apply digits_more|]. cbn [List.length]. rewrite <- (forall2_len _ _ _ F). exact L.
Qed.
Lemma long_int s ds : Forall2 Digit s ds -> forall acc count, int_digits acc count false s = Some (fold_left (fun a d => a * 10 + d) ds acc, (count + List.length ds)%nat).
Proof. intros F acc count. rewrite <- (app_nil_r s) at 1. apply int_digits_complete; [now apply digits_more|constructor]. Qed.
Lemma number_endless e : Endless e -> unsigned_int e = None.
Proof.
  intros [N L]. destruct (number_digits e N) as [ds F]. destruct F as [|c d e ds D F]; [reflexivity|]. apply digit_iff in D.
  unfold unsigned_int. rewrite D, (long_int e ds F). cbn [List.length] in L. rewrite (forall2_len _ _ _ F) in L.
  unfold int_max_digits. destruct (N.leb_spec (N.of_nat (1 + List.length ds)) 4300); [lia|reflexivity].
Qed.
Lemma try_number e ds : e <> [] -> Forall2 Digit e ds -> N.of_nat (List.length e) <= 4300 -> try_int e = Ok (SA_int (Z.of_N (value ds))).
Proof.
  intros NE F L. pose proof (number_value e ds NE F L) as V.
  assert (X : numeric e = true).
  { apply numeric_iff. split; [exact NE|]. clear - F. induction F as [|c d e ds D _ IH]; constructor; [now exists d|exact IH]. }
  unfold try_int. destruct e as [|c e]; [congruence|]. unfold numeric in X. rewrite X, V. reflexivity.
Qed.
Lemma try_endless e : Endless e -> try_int e = Err ValueError.
Proof.
  intros E. pose proof (number_endless e E) as U. destruct E as [N _]. apply numeric_iff in N.
  unfold try_int. destruct e as [|c e]; [discriminate N|]. unfold numeric in N. now rewrite N, U.
Qed.
Lemma try_name e : ~ Number e -> try_int e = Ok (SA_name e).
Proof. intros N. apply numeric_no in N. unfold try_int. destruct e as [|c e]; [reflexivity|]. unfold numeric in N. now rewrite N. Qed.

Lemma collections_same : collections = list_names. Proof. reflexivity. Qed.
(** what an element gives *)
Definition element up e : result sgr := bind (try_int e) (arg_params up).
Lemma sequence_one up x : sequence_sgr up [x] = arg_params up x.
Proof. cbn [sequence_sgr bind]. destruct (arg_params up x); [cbn; now rewrite app_nil_r|reflexivity]. Qed.
Lemma code_given up e c : Code up e c -> exists x, try_int e = Ok x /\ arg_params up x = Ok [c].
Proof.
  intros [e' ds NE F L|e' n c' N H E].
  - exists (SA_int (Z.of_N (value ds))). split; [now apply try_number|]. cbn [arg_params]. do 2 f_equal. lia.
  - exists (SA_name e'). split; [now apply try_name|]. rewrite <- sequence_one. now apply (name_accepted up e' n).
Qed.
Lemma collective_given up e : Collective up e -> try_int e = Ok (SA_name e) /\ arg_params up (SA_name e) = Err ValueError.
Proof.
  intros (N & n & I & E). split; [now apply try_name|]. rewrite <- sequence_one. rewrite name_refused.
  - replace (existsb _ list_names) with true; [reflexivity|]. symmetry. apply existsb_exists. exists n. split; [exact I|]. rewrite E. apply eqb_list_refl.
  - intros n' c H K. assert (A : named (chars n) int_codes = Some (V_int c)) by (apply code_iff; exists n'; split; [exact H|congruence]).
    assert (B : exists l, named (chars n) int_codes = Some (V_list l)) by (apply list_iff; now exists n). destruct B as [l B]. congruence.
Qed.
Lemma unknown_given up e : Unknown up e -> try_int e = Ok (SA_name e) /\ arg_params up (SA_name e) = Err KeyError.
Proof.
  intros (N & H & L). split; [now apply try_name|]. rewrite <- sequence_one. rewrite name_refused by exact H.
  replace (existsb _ list_names) with false; [reflexivity|]. symmetry. apply not_true_iff_false. intros X. apply existsb_exists in X.
  destruct X as (n & I & X). apply eqb_list_spec in X. now apply (L n).
Qed.
Lemma element_kinds up e : Coded up e \/ Endless e \/ Collective up e \/ Unknown up e.
Proof.
  destruct (numeric e) eqn:N.
  - apply numeric_iff in N. destruct (N.leb_spec (N.of_nat (List.length e)) 4300) as [L|L].
    + left. destruct (number_digits e N) as [ds F]. exists (value ds). constructor; [apply N|exact F|exact L].
    + right; left. split; assumption.
  - apply numeric_no in N. destruct (named (capital up e) int_codes) as [[c|l]|] eqn:E.
    + apply code_iff in E. destruct E as (n & H & E). left. exists c. now apply (Code_name up e n c).
    + assert (X : exists l, named (capital up e) int_codes = Some (V_list l)) by now exists l. apply list_iff in X. destruct X as (n & I & X).
      right; right; left. split; [exact N|]. now exists n.
    + right; right; right. split; [exact N|]. split.
      * intros n c H K. assert (A : named (capital up e) int_codes = Some (V_int c)) by (apply code_iff; now exists n). congruence.
      * intros n I K. assert (A : exists l, named (capital up e) int_codes = Some (V_list l)) by (apply list_iff; now exists n). destruct A as [l A]. congruence.
Qed.

(** all elements *)
Definition elements_give up es : result sgr := bind (all_ok try_int es) (sequence_sgr up).
Lemma endless_dec e : {Endless e} + {~ Endless e}.
Proof.
  destruct (numeric e) eqn:N; [|right; intros [H _]; apply numeric_no in N; contradiction].
  destruct (4300 <? N.of_nat (List.length e)) eqn:L; [left|right].
  - split; [now apply numeric_iff|now apply N.ltb_lt].
  - intros [_ K]. apply N.ltb_lt in K. congruence.
Qed.
Lemma all_try_endless es : Exists Endless es -> all_ok try_int es = Err ValueError.
Proof.
  induction es as [|e es IH]; intros H; [inversion H|]. cbn [all_ok]. destruct (endless_dec e) as [E|E].
  - now rewrite try_endless.
  - assert (X : exists x, try_int e = Ok x).
    { destruct (numeric e) eqn:N.
      - apply numeric_iff in N. destruct (number_digits e N) as [ds F]. eexists. apply (try_number e ds); [apply N|exact F|].
        destruct (N.leb_spec (N.of_nat (List.length e)) 4300); [assumption|]. exfalso. apply E. now split.
      - eexists. apply try_name. now apply numeric_no. }
    destruct X as [x X]. rewrite X. cbn [bind]. rewrite IH; [reflexivity|]. inversion H; subst; [contradiction|assumption].
Qed.
Definition arg_of (e : str) : sgr_arg := match try_int e with Ok x => x | Err _ => SA_other end.
Lemma all_try es : Forall (fun e => ~ Endless e) es -> all_ok try_int es = Ok (map arg_of es).
Proof.
  induction 1 as [|e es E _ IH]; [reflexivity|]. cbn [all_ok map]. rewrite IH.
  assert (X : try_int e = Ok (arg_of e)); [|rewrite X; reflexivity]. unfold arg_of. destruct (numeric e) eqn:N.
  - apply numeric_iff in N. destruct (number_digits e N) as [ds F]. rewrite (try_number e ds); [reflexivity|apply N|exact F|].
    destruct (N.leb_spec (N.of_nat (List.length e)) 4300); [assumption|]. exfalso. apply E. now split.
  - apply numeric_no in N. now rewrite try_name.
Qed.
Lemma coded_not_endless up e : Coded up e -> ~ Endless e.
Proof. intros [c C] E. apply code_given in C. destruct C as (x & C & _). rewrite try_endless in C by exact E. discriminate C. Qed.
Lemma codes_give up es codes : Forall2 (Code up) es codes -> elements_give up es = Ok codes.
Proof.
  intros F. unfold elements_give. rewrite all_try.
  - cbn [bind]. induction F as [|e c es codes H _ IH]; [reflexivity|]. cbn [map sequence_sgr]. apply code_given in H. destruct H as (x & H & K).
    assert (X : arg_of e = x) by (unfold arg_of; now rewrite H). rewrite X, K, IH. reflexivity.
  - clear - F. induction F as [|e c es codes H _ IH]; constructor; [|exact IH]. apply (coded_not_endless up). now exists c.
Qed.
Lemma first_gives up (Q : list N -> Prop) er es : (forall e, Q e -> try_int e = Ok (SA_name e) /\ arg_params up (SA_name e) = Err er) ->
  First (Coded up) Q es -> sequence_sgr up (map arg_of es) = Err er.
Proof.
  intros HQ (a & e & b & -> & F & H). induction F as [|x a [c C] _ IH]; cbn [app map sequence_sgr].
  - destruct (HQ e H) as [T A]. assert (X : arg_of e = SA_name e) by (unfold arg_of; now rewrite T). now rewrite X, A.
  - apply code_given in C. destruct C as (y & C & K). assert (X : arg_of x = y) by (unfold arg_of; now rewrite C). rewrite X, K, IH. reflexivity.
Qed.
Lemma puzzling_gives up es : Forall (fun e => ~ Endless e) es -> First (Coded up) (Unknown up) es -> elements_give up es = Err KeyError.
Proof. intros N F. unfold elements_give. rewrite all_try by exact N. cbn [bind]. apply (first_gives up _ _ _ (unknown_given up) F). Qed.
Lemma endless_exists es : Exists Endless es \/ Forall (fun e => ~ Endless e) es.
Proof.
  induction es as [|e es [IH|IH]]; [right; constructor|left; now right|]. destruct (endless_dec e); [left; now left|right; now constructor].
Qed.
Lemma fatal_gives up es : Exists Endless es \/ First (Coded up) (Collective up) es -> elements_give up es = Err ValueError.
Proof.
  intros H. unfold elements_give. destruct (endless_exists es) as [E|E]; [now rewrite all_try_endless|].
  destruct H as [H|H]; [now rewrite all_try_endless|]. rewrite all_try by exact E. cbn [bind]. apply (first_gives up _ _ _ (collective_given up) H).
Qed.
Lemma elements_kinds up es : (exists codes, Forall2 (Code up) es codes) \/ (Forall (fun e => ~ Endless e) es /\ First (Coded up) (Unknown up) es) \/
  (Exists Endless es \/ First (Coded up) (Collective up) es).
Proof.
  destruct (endless_exists es) as [E|E]; [right; right; now left|].
  assert (H : (exists codes, Forall2 (Code up) es codes) \/ First (Coded up) (Unknown up) es \/ First (Coded up) (Collective up) es).
  { induction E as [|e es E _ IH]; [left; exists []; constructor|].
    destruct (element_kinds up e) as [[c C]|[C|[C|C]]].
    - destruct IH as [(codes & IH)|[(a & x & b & -> & F & H)|(a & x & b & -> & F & H)]].
      + left. exists (c :: codes). now constructor.
      + right; left. exists (e :: a), x, b. split; [reflexivity|]. split; [|exact H]. constructor; [now exists c|exact F].
      + right; right. exists (e :: a), x, b. split; [reflexivity|]. split; [|exact H]. constructor; [now exists c|exact F].
    - contradiction.
    - right; right. exists [], e, es. split; [reflexivity|]. split; [constructor|exact C].
    - right; left. exists [], e, es. split; [reflexivity|]. split; [constructor|exact C]. }
  destruct H as [H|[H|H]]; auto.
Qed.

(** ** A format *)
Lemma fmt_codes u w m codes : Codes (u_upper u) w codes -> resolve_fmt u w m = Ok (assemble codes, []).
Proof.
  intros [[-> ->]|(NE & es & E & F)]; [reflexivity|]. apply elements_split in E. subst es. apply codes_give in F. unfold elements_give in F.
  unfold resolve_fmt. destruct w as [|c w]; [congruence|]. destruct (all_ok try_int _); [|discriminate F]. cbn [bind] in *. now rewrite F.
Qed.
Lemma fmt_puzzling u w m : Puzzling (u_upper u) w -> resolve_fmt u w m = Ok (m, [format_warning w]).
Proof.
  intros (NE & es & E & N & F). apply elements_split in E. subst es. pose proof (puzzling_gives _ _ N F) as G. unfold elements_give in G.
  unfold resolve_fmt. destruct w as [|c w]; [congruence|]. rewrite (all_try _ N) in *. cbn [bind] in *. now rewrite G.
Qed.
Lemma fmt_fatal u w m : Fatal (u_upper u) w -> resolve_fmt u w m = Err ValueError.
Proof.
  intros (NE & es & E & F). apply elements_split in E. subst es. apply fatal_gives in F. unfold elements_give in F.
  unfold resolve_fmt. destruct w as [|c w]; [congruence|]. destruct (all_ok try_int _); cbn [bind] in *; [now rewrite F|injection F as ->; reflexivity].
Qed.
Lemma fmt_kinds up w : (exists codes, Codes up w codes) \/ Puzzling up w \/ Fatal up w.
Proof.
  destruct w as [|c w]; [left; exists [0]; left; now split|].
  destruct (elements_kinds up (split_on 59 (c :: w))) as [(codes & H)|[[N H]|H]].
  - left. exists codes. right. split; [discriminate|]. exists (split_on 59 (c :: w)). split; [apply split_elements|exact H].
  - right; left. split; [discriminate|]. exists (split_on 59 (c :: w)). split; [apply split_elements|now split].
  - right; right. split; [discriminate|]. exists (split_on 59 (c :: w)). split; [apply split_elements|exact H].
Qed.
Lemma codes_nonempty up w codes : Codes up w codes -> codes <> [].
Proof. intros [[_ ->]|(_ & es & (NE & _) & F)]; [discriminate|]. destruct F; [congruence|discriminate]. Qed.

(** ** A variable *)
Lemma lookup_some vars w v : NoDup (map fst vars) -> In (w, v) vars -> lookup w vars = Some v.
Proof.
  induction vars as [|[k x] vars IH]; intros N I; [destruct I|]. cbn [map fst] in N. inversion N as [|? ? Nk Nv]; subst. cbn [lookup].
  destruct (eqb_list w k) eqn:E.
  - apply eqb_list_spec in E. subst k. destruct I as [I|I]; [injection I as <-; reflexivity|]. exfalso. apply Nk. apply (in_map fst) in I. exact I.
  - destruct I as [I|I]; [|now apply IH]. injection I as -> ->. rewrite eqb_list_refl in E. discriminate E.
Qed.
Lemma lookup_in vars w v : lookup w vars = Some v -> In (w, v) vars.
Proof.
  induction vars as [|[k x] vars IH]; [discriminate|]. cbn [lookup]. destruct (eqb_list w k) eqn:E; [|intros H; right; now apply IH].
  apply eqb_list_spec in E. subst. intros [= ->]. now left.
Qed.
Lemma lookup_none vars w : (forall v, ~ In (w, v) vars) -> lookup w vars = None.
Proof. intros H. destruct (lookup w vars) as [v|] eqn:E; [|reflexivity]. apply lookup_in in E. now apply H in E. Qed.

(** ** Passes *)
Section Pass.
Variable u : unicode.
Hypothesis W : words (u_word u).
Let word := u_word u.
Let up := u_upper u.

Inductive FCut : list N -> list part -> Prop :=
| FC_nil : FCut [] []
| FC_format w m r l : Format word w m -> FCut r l -> FCut (m ++ r) (P_format w m :: l)
| FC_text c r l : (forall w m r', c :: r = m ++ r' -> ~ Format word w m) -> FCut r l -> FCut (c :: r) (P_text c :: l).
Fixpoint run_parts (f : str -> str -> answer) (ps : list part) : answer :=
  match ps with
  | [] => Ok ([], [])
  | P_text c :: l => bind (run_parts f l) (fun y => Ok (c :: fst y, snd y))
  | P_format w m :: l | P_variable w m :: l => bind (f w m) (fun x => bind (run_parts f l) (fun y => Ok (fst x ++ fst y, snd x ++ snd y)))
  end.
Lemma format_long w m : Format word w m -> exists m', m = 94 :: m' /\ ~ In 94 m' /\ ~ In 58 m'.
Proof.
  intros (m' & -> & B). exists m'. split; [reflexivity|]. split; apply (inner_no u _ w m' _ W B); try reflexivity; try discriminate; auto.
Qed.
Lemma variable_long w m : Variable_ word w m -> exists m', m = 58 :: m' /\ ~ In 94 m' /\ ~ In 58 m' /\ ~ In 27 m'.
Proof.
  intros (_ & m' & -> & B). exists m'. split; [reflexivity|]. repeat split; apply (inner_no u _ w m' _ W B); try reflexivity; try discriminate; auto.
Qed.
Lemma fcut_exists : forall n s, (List.length s <= n)%nat -> exists ps, FCut s ps.
Proof.
  induction n as [|n IH]; intros s L; (destruct s as [|c s]; [exists []; constructor|]); [cbn in L; lia|].
  destruct (fmt_at u (c :: s)) as [[[w m] r]|] eqn:E.
  - apply (fmt_iff u _ _ _ _ W) in E. destruct E as [E F]. destruct (format_long w m F) as (m' & M & _).
    destruct (IH r) as [ps H]. { rewrite M in E. injection E as _ E. subst s. cbn in L. rewrite app_length in L. lia. }
    rewrite E. exists (P_format w m :: ps). now constructor.
  - destruct (IH s) as [ps H]; [cbn in L; lia|]. exists (P_text c :: ps). constructor; [|exact H].
    intros w m r' K F. assert (X : fmt_at u (c :: s) = Some (w, m, r')) by (apply (fmt_iff u _ _ _ _ W); now split). congruence.
Qed.
Lemma sub_fcut f s ps : FCut s ps -> forall fuel, (List.length s <= fuel)%nat -> sub_with fuel (fmt_at u) f s = run_parts f ps.
Proof.
  induction 1 as [|w m r l F H IH|c r l N H IH]; intros fuel L.
  - now destruct fuel.
  - assert (E : fmt_at u (m ++ r) = Some (w, m, r)) by (apply (fmt_iff u _ _ _ _ W); now split).
    destruct (format_long w m F) as (m' & -> & _). destruct fuel as [|fuel]; [cbn in L; lia|]. cbn [app] in *. cbn [sub_with run_parts]. rewrite E.
    rewrite IH; [reflexivity|]. cbn in L. rewrite app_length in L. lia.
  - destruct fuel as [|fuel]; [cbn in L; lia|]. cbn [sub_with run_parts]. destruct (fmt_at u (c :: r)) as [[[w m] r']|] eqn:E.
    + apply (fmt_iff u _ _ _ _ W) in E. destruct E as [E F]. now destruct (N w m r' E).
    + rewrite IH; [reflexivity|]. cbn in L. lia.
Qed.

(** text after the formats *)
Inductive FFilled : list part -> list N -> list (list N) -> Prop :=
| FF_nil : FFilled [] [] []
| FF_text c l out fw : FFilled l out fw -> FFilled (P_text c :: l) (c :: out) fw
| FF_format w m codes l out fw : Codes up w codes -> FFilled l out fw -> FFilled (P_format w m :: l) (assemble codes ++ out) fw
| FF_puzzling w m l out fw : Puzzling up w -> FFilled l out fw -> FFilled (P_format w m :: l) (m ++ out) (format_warning w :: fw).
Definition formats_only (ps : list part) : Prop := forall w m, ~ In (P_variable w m) ps.
Lemma fcut_formats s ps : FCut s ps -> formats_only ps.
Proof. induction 1 as [|w m r l F H IH|c r l N H IH]; intros w' m' I; [destruct I|..]; (destruct I as [I|I]; [discriminate I|now apply (IH w' m')]). Qed.
Lemma run_kinds ps : formats_only ps ->
  (exists s2 fw, FFilled ps s2 fw /\ run_parts (resolve_fmt u) ps = Ok (s2, fw)) \/
  ((exists w m, In (P_format w m) ps /\ Fatal up w) /\ run_parts (resolve_fmt u) ps = Err ValueError).
Proof.
  induction ps as [|p ps IH]; intros O; [left; exists [], []; split; [constructor|reflexivity]|].
  assert (O' : formats_only ps) by (intros w m I; apply (O w m); now right). specialize (IH O').
  destruct p as [c|w m|w m]; cbn [run_parts].
  - destruct IH as [(s2 & fw & H & ->)|[(w & m & I & F) ->]].
    + left. exists (c :: s2), fw. split; [now constructor|reflexivity].
    + right. split; [|reflexivity]. exists w, m. split; [now right|exact F].
  - destruct (fmt_kinds up w) as [(codes & C)|[P|F]].
    + rewrite (fmt_codes u w m codes C). cbn [bind fst snd]. destruct IH as [(s2 & fw & H & ->)|[(w' & m' & I & F) ->]].
      * left. exists (assemble codes ++ s2), fw. split; [now constructor|reflexivity].
      * right. split; [|reflexivity]. exists w', m'. split; [now right|exact F].
    + rewrite (fmt_puzzling u w m P). cbn [bind fst snd]. destruct IH as [(s2 & fw & H & ->)|[(w' & m' & I & F) ->]].
      * left. exists (m ++ s2), (format_warning w :: fw). split; [now constructor|reflexivity].
      * right. split; [|reflexivity]. exists w', m'. split; [now right|exact F].
    + right. split; [exists w, m; split; [now left|exact F]|]. now rewrite (fmt_fatal u w m F).
  - exfalso. apply (O w m). now left.
Qed.

(** places of variables are places of plain text *)
Lemma assemble_head codes : codes <> [] -> exists r, assemble codes = 27 :: r /\ ~ In 58 r.
Proof.
  intros NE. unfold assemble. destruct codes as [|c codes]; [congruence|]. eexists. split; [reflexivity|].
  intros [K|K]; [discriminate K|]. apply in_app_iff in K. destruct K as [K|[K|[]]]; [|discriminate K].
  revert K. generalize (if eqb_list (c :: codes) [0] then [] else c :: codes). intros l.
  induction l as [|x [|y l] IH]; cbn [map join]; intros K; [exact K|..].
  - pose proof (dec_digits x) as D. rewrite Forall_forall in D. apply D in K. lia.
  - apply in_app_iff in K. destruct K as [K|[K|K]]; [|discriminate K|].
    + pose proof (dec_digits x) as D. rewrite Forall_forall in D. apply D in K. lia.
    + apply IH. exact K.
Qed.
Definition plain (k : list N) : Prop := ~ In 27 k /\ ~ In 94 k.
Definition well_formed (ps : list part) : Prop := formats_only ps /\ forall w m, In (P_format w m) ps -> Format word w m.
Lemma filled_text k : plain k -> forall ps r fw, well_formed ps -> FFilled ps (k ++ r) fw -> exists ps2, ps = map P_text k ++ ps2 /\ FFilled ps2 r fw.
Proof.
  induction k as [|c k IH]; intros [N27 N94] ps r fw WF H; [exists ps; now split|]. cbn [app] in H.
  remember (c :: k ++ r) as t eqn:T. destruct H as [|c' l out fw H|w m codes l out fw C H|w m l out fw P H].
  - discriminate T.
  - injection T as -> ->. destruct (IH) with (ps := l) (r := r) (fw := fw) as (ps2 & -> & H2); try exact H.
    + split; intros K; [apply N27|apply N94]; now right.
    + destruct WF as [A B]. split; [intros w m I; apply (A w m); now right|intros w m I; apply B; now right].
    + exists ps2. now split.
  - destruct (assemble_head codes (codes_nonempty _ _ _ C)) as (x & E & _). rewrite E in T. injection T as T _. exfalso. apply N27. left. now symmetry.
  - destruct (format_long w m) as (x & E & _); [apply WF; now left|]. rewrite E in T. injection T as T _. exfalso. apply N94. left. now symmetry.
Qed.
Lemma text_filled k ps s2 fw : FFilled (map P_text k ++ ps) s2 fw -> exists r, s2 = k ++ r /\ FFilled ps r fw.
Proof.
  revert s2. induction k as [|c k IH]; intros s2 H; [exists s2; now split|]. cbn [map app] in H. inversion H; subst.
  match goal with H : FFilled (map P_text k ++ ps) _ _ |- _ => destruct (IH _ H) as (r & -> & K) end. exists r. now split.
Qed.
Lemma cut_text k : ~ In 94 k -> forall ps r, FCut (k ++ r) ps -> exists ps2, ps = map P_text k ++ ps2 /\ FCut r ps2.
Proof.
  induction k as [|c k IH]; intros N94 ps r H; [exists ps; now split|]. cbn [app] in H.
  remember (c :: k ++ r) as t eqn:T. destruct H as [|w m r' l F H|c' r' l NF H].
  - discriminate T.
  - destruct (format_long w m F) as (x & E & _). rewrite E in T. injection T as T _. exfalso. apply N94. left. now symmetry.
  - injection T as -> ->. destruct (IH) with (ps := l) (r := r) as (ps2 & -> & H2); [intros K; apply N94; now right|exact H|].
    exists ps2. now split.
Qed.
Lemma text_cut k ps s : FCut s (map P_text k ++ ps) -> exists r, s = k ++ r /\ FCut r ps.
Proof.
  revert s. induction k as [|c k IH]; intros s H; [exists s; now split|]. cbn [map app] in H. inversion H; subst.
  match goal with H : FCut _ (map P_text k ++ ps) |- _ => destruct (IH _ H) as (r0 & -> & K) end. exists r0. now split.
Qed.
Lemma fcut_well s ps : FCut s ps -> well_formed ps.
Proof.
  intros H. split; [now apply (fcut_formats s)|]. induction H as [|w m r l F H IH|c r l N H IH]; intros w' m' I; [destruct I|..].
  - destruct I as [I|I]; [injection I as <- <-; exact F|now apply IH].
  - destruct I as [I|I]; [discriminate I|now apply IH].
Qed.

Inductive Merged : list part -> list part -> Prop :=
| Mg_nil : Merged [] []
| Mg_format w m ps l : Format word w m -> Merged ps l -> Merged (P_format w m :: ps) (P_format w m :: l)
| Mg_variable w m ps l : Variable_ word w m -> Merged ps l -> Merged (map P_text m ++ ps) (P_variable w m :: l)
| Mg_text c ps l : (forall w m ps', P_text c :: ps = map P_text m ++ ps' -> ~ Variable_ word w m) -> well_formed ps ->
    Merged ps l -> Merged (P_text c :: ps) (P_text c :: l).
Lemma merge : forall n s ps, (List.length s <= n)%nat -> FCut s ps -> exists l, Merged ps l /\ Cut word s l.
Proof.
  induction n as [|n IH]; intros s ps L H.
  - destruct s; [|cbn in L; lia]. remember [] as t eqn:T. destruct H as [|w m r l F H|c r l N H].
    + exists []. split; constructor.
    + destruct (format_long w m F) as (x & -> & _). discriminate T.
    + discriminate T.
  - destruct H as [|w m r l F H|c r l N H].
    + exists []. split; constructor.
    + destruct (IH r l) as (l' & M & C); [|exact H|].
      * destruct (format_long w m F) as (x & -> & _). cbn in L. rewrite app_length in L. lia.
      * exists (P_format w m :: l'). split; now constructor.
    + destruct (var_at u (c :: r)) as [[[w m] r']|] eqn:E.
      * apply (var_iff u _ _ _ _ W) in E. destruct E as [E V]. destruct (variable_long w m V) as (m' & M & N94 & _).
        assert (H' : FCut (m ++ r') (P_text c :: l)) by (rewrite <- E; now constructor).
        destruct (cut_text m) with (ps := P_text c :: l) (r := r') as (ps2 & P & C2); [rewrite M; intros [K|K]; [discriminate K|contradiction]|exact H'|].
        destruct (IH r' ps2) as (l' & Mg & C); [|exact C2|].
        { rewrite M in E. injection E as _ E. subst r. cbn in L. rewrite app_length in L. lia. }
        exists (P_variable w m :: l'). rewrite P, E. split; now constructor.
      * destruct (IH r l) as (l' & M & C); [cbn in L; lia|exact H|]. exists (P_text c :: l').
        assert (NV : forall w m r', c :: r = m ++ r' -> ~ Variable_ word w m).
        { intros w m r' K V. assert (X : var_at u (c :: r) = Some (w, m, r')) by (apply (var_iff u _ _ _ _ W); now split). congruence. }
        split.
        -- constructor; [|now apply (fcut_well r)|exact M]. intros w m ps' K V.
           assert (H' : FCut (c :: r) (map P_text m ++ ps')) by (rewrite <- K; now constructor).
           apply text_cut in H'. destruct H' as (r0 & H' & _). now apply (NV w m r0).
        -- constructor; [|exact C]. intros w m r' K. split; [now apply (N w m r')|now apply (NV w m r')].
Qed.
Lemma merged_formats ps l : Merged ps l -> forall w m, In (P_format w m) ps <-> In (P_format w m) l.
Proof.
  induction 1 as [|w m ps l F H IH|w m ps l V H IH|c ps l N WF H IH]; intros w' m'; cbn [In].
  - tauto.
  - rewrite IH. tauto.
  - rewrite in_app_iff, IH. split; [intros [I|I]; [|now right]|intros [I|I]; [discriminate I|now right]].
    apply in_map_iff in I. destruct I as (x & I & _). discriminate I.
  - rewrite IH. split; (intros [I|I]; [discriminate I|now right]).
Qed.
Lemma merged_well ps l : Merged ps l -> well_formed ps.
Proof.
  induction 1 as [|w m ps l F H IH|w m ps l V H IH|c ps l N WF H IH].
  - split; intros w m []; auto.
  - destruct IH as [A B]. split; [intros w' m' [I|I]; [discriminate I|now apply (A w' m')]|]. intros w' m' [I|I]; [injection I as <- <-; exact F|now apply B].
  - destruct IH as [A B]. split; intros w' m' I; apply in_app_iff in I; destruct I as [I|I].
    + apply in_map_iff in I. destruct I as (x & I & _). discriminate I.
    + now apply (A w' m').
    + apply in_map_iff in I. destruct I as (x & I & _). discriminate I.
    + now apply B.
  - destruct IH as [A B]. split; intros w' m' [I|I]; try discriminate I; [now apply (A w' m')|now apply B].
Qed.

Lemma pass_over f k : ~ In 58 k -> forall r fuel, (List.length (k ++ r) <= fuel)%nat ->
  exists fuel', (List.length r <= fuel')%nat /\ sub_with fuel (var_at u) f (k ++ r) = bind (sub_with fuel' (var_at u) f r) (fun y => Ok (k ++ fst y, snd y)).
Proof.
  induction k as [|c k IH]; intros N r fuel L.
  - exists fuel. split; [exact L|]. cbn [app]. destruct (sub_with fuel (var_at u) f r) as [[a b]|]; reflexivity.
  - destruct fuel as [|fuel]; [cbn in L; lia|]. cbn [app sub_with].
    assert (E : var_at u (c :: k ++ r) = None).
    { destruct (var_at u (c :: k ++ r)) as [[[w m] r']|] eqn:E; [|reflexivity]. apply (var_iff u _ _ _ _ W) in E. destruct E as [E V].
      destruct (variable_long w m V) as (m' & -> & _). injection E as E _. exfalso. apply N. left. exact E. }
    rewrite E. destruct (IH) with (r := r) (fuel := fuel) as (fuel' & L' & H'); [intros K; apply N; now right|cbn in L; lia|].
    exists fuel'. split; [exact L'|]. rewrite H'. destruct (sub_with fuel' (var_at u) f r) as [[a b]|]; reflexivity.
Qed.
Lemma pass_variables vars ps l : NoDup (map fst vars) -> Merged ps l -> forall s2 fw, FFilled ps s2 fw -> forall fuel, (List.length s2 <= fuel)%nat ->
  exists out vw, sub_with fuel (var_at u) (resolve_var vars) s2 = Ok (out, vw) /\ Filled assemble up vars l out fw vw.
Proof.
  intros ND. induction 1 as [|w m ps l F M IH|w m ps l V M IH|c ps l N WF M IH]; intros s2 fw H fuel L.
  - inversion H; subst. exists [], []. split; [now destruct fuel|constructor].
  - remember (P_format w m :: ps) as t eqn:T. destruct H as [|c' l' out fw H|w' m' codes l' out fw C H|w' m' l' out fw P H]; try discriminate T; injection T as -> -> ->.
    + destruct (assemble_head codes (codes_nonempty _ _ _ C)) as (x & E & NX).
      destruct (pass_over (resolve_var vars) (assemble codes)) with (r := out) (fuel := fuel) as (fuel' & L' & Q); [rewrite E; intros [K|K]; [discriminate K|contradiction]|exact L|].
      destruct (IH out fw H fuel' L') as (o & vw & R & G). rewrite Q, R. cbn [bind fst snd]. exists (assemble codes ++ o), vw. split; [reflexivity|]. now constructor.
    + destruct (format_long w m F) as (x & E & _ & NX).
      destruct (pass_over (resolve_var vars) m) with (r := out) (fuel := fuel) as (fuel' & L' & Q); [rewrite E; intros [K|K]; [discriminate K|contradiction]|exact L|].
      destruct (IH out fw H fuel' L') as (o & vw & R & G). rewrite Q, R. cbn [bind fst snd]. exists (m ++ o), vw. split; [reflexivity|]. now constructor.
  - apply text_filled in H. destruct H as (r & -> & H). destruct (variable_long w m V) as (m' & E & _).
    assert (X : var_at u (m ++ r) = Some (w, m, r)) by (apply (var_iff u _ _ _ _ W); now split).
    destruct fuel as [|fuel]; [subst m; cbn in L; lia|].
    destruct (IH r fw H fuel) as (o & vw & R & G); [subst m; cbn in L; rewrite app_length in L; lia|].
    destruct (m ++ r) as [|y t] eqn:Y; [subst m; discriminate Y|]. cbn [sub_with]. rewrite X.
    destruct (lookup w vars) as [v|] eqn:Lk;
      [assert (Q : resolve_var vars w m = Ok (v, [])) by (unfold resolve_var; now rewrite Lk)
      |assert (Q : resolve_var vars w m = Ok (m, [variable_warning w])) by (unfold resolve_var; now rewrite Lk)];
      rewrite Q; cbn [bind]; rewrite R; cbn [bind fst snd app].
    + exists (v ++ o), vw. split; [reflexivity|]. constructor; [now apply lookup_in|exact G].
    + exists (m ++ o), (variable_warning w :: vw). split; [reflexivity|]. constructor; [|exact G].
      intros v I. apply (lookup_some vars w v ND) in I. congruence.
  - remember (P_text c :: ps) as t eqn:T. destruct H as [|c' l' out fw H|w' m' codes l' out fw C H|w' m' l' out fw P H]; try discriminate T. injection T as -> ->.
    destruct fuel as [|fuel]; [cbn in L; lia|]. destruct (IH out fw H fuel) as (o & vw & R & G); [cbn in L; lia|].
    cbn [sub_with]. destruct (var_at u (c :: out)) as [[[w m] r]|] eqn:E.
    + exfalso. apply (var_iff u _ _ _ _ W) in E. destruct E as [E V]. destruct (variable_long w m V) as (m' & M' & N94 & N58 & N27).
      assert (H' : FFilled (P_text c :: ps) (m ++ r) fw) by (rewrite <- E; now constructor).
      apply filled_text in H'.
      * destruct H' as (ps2 & H' & _). now apply (N w m ps2).
      * rewrite M'. split; (intros [K|K]; [discriminate K|contradiction]).
      * destruct WF as [A B]. split; [intros w' q [I|I]; [discriminate I|now apply (A w' q)]|intros w' q [I|I]; [discriminate I|now apply B]].
    + rewrite R. cbn [bind fst snd]. exists (c :: o), vw. split; [reflexivity|]. now constructor.
Qed.

(** ** Uniqueness *)
Lemma cut_unique s l1 : Cut word s l1 -> forall l2, Cut word s l2 -> l1 = l2.
Proof.
  assert (FF : forall w m r w' m' r', Format word w m -> Format word w' m' -> m ++ r = m' ++ r' -> w = w' /\ m = m' /\ r = r').
  { intros w m r w' m' r' F F' E. assert (A : fmt_at u (m ++ r) = Some (w, m, r)) by (apply (fmt_iff u _ _ _ _ W); now split).
    assert (B : fmt_at u (m' ++ r') = Some (w', m', r')) by (apply (fmt_iff u _ _ _ _ W); now split). rewrite E, B in A. injection A as -> -> ->. auto. }
  assert (VV : forall w m r w' m' r', Variable_ word w m -> Variable_ word w' m' -> m ++ r = m' ++ r' -> w = w' /\ m = m' /\ r = r').
  { intros w m r w' m' r' F F' E. assert (A : var_at u (m ++ r) = Some (w, m, r)) by (apply (var_iff u _ _ _ _ W); now split).
    assert (B : var_at u (m' ++ r') = Some (w', m', r')) by (apply (var_iff u _ _ _ _ W); now split). rewrite E, B in A. injection A as -> -> ->. auto. }
  assert (FV : forall w m r w' m' r', Format word w m -> Variable_ word w' m' -> m ++ r = m' ++ r' -> False).
  { intros w m r w' m' r' F V E. destruct (format_long w m F) as (x & -> & _). destruct (variable_long w' m' V) as (y & -> & _). discriminate E. }
  induction 1 as [|w m r l F H IH|w m r l V H IH|c r l N H IH]; intros l2 H2.
  - remember [] as t eqn:T. destruct H2 as [|w m r l F H|w m r l V H|c r l N H]; [reflexivity|..].
    + destruct (format_long w m F) as (x & -> & _). discriminate T.
    + destruct (variable_long w m V) as (x & -> & _). discriminate T.
    + discriminate T.
  - remember (m ++ r) as t eqn:T. destruct H2 as [|w' m' r' l' F' H'|w' m' r' l' V' H'|c r' l' N H'].
    + destruct (format_long w m F) as (x & -> & _). discriminate T.
    + destruct (FF _ _ _ _ _ _ F' F T) as (-> & -> & ->). f_equal. now apply IH.
    + symmetry in T. now destruct (FV _ _ _ _ _ _ F V' T).
    + destruct (N w m r T) as [X _]. now destruct X.
  - remember (m ++ r) as t eqn:T. destruct H2 as [|w' m' r' l' F' H'|w' m' r' l' V' H'|c r' l' N H'].
    + destruct (variable_long w m V) as (x & -> & _). discriminate T.
    + now destruct (FV _ _ _ _ _ _ F' V T).
    + destruct (VV _ _ _ _ _ _ V' V T) as (-> & -> & ->). f_equal. now apply IH.
    + destruct (N w m r T) as [_ X]. now destruct X.
  - remember (c :: r) as t eqn:T. destruct H2 as [|w' m' r' l' F' H'|w' m' r' l' V' H'|c' r' l' N' H'].
    + discriminate T.
    + destruct (N w' m' r' eq_refl) as [X _]. now destruct X.
    + destruct (N w' m' r' eq_refl) as [_ X]. now destruct X.
    + injection T as -> ->. f_equal. now apply IH.
Qed.
Lemma filled_unique vars l : NoDup (map fst vars) -> forall o1 f1 v1, Filled assemble up vars l o1 f1 v1 -> forall o2 f2 v2, Filled assemble up vars l o2 f2 v2 ->
  o1 = o2 /\ f1 = f2 /\ v1 = v2.
Proof.
  intros ND. induction 1 as [|c l o1 f1 v1 H IH|w m codes l o1 f1 v1 C H IH|w m l o1 f1 v1 P H IH|w m v l o1 f1 v1 V H IH|w m l o1 f1 v1 V H IH]; intros o2 f2 v2 H2;
    try clear H; inversion H2; subst; clear H2;
    try match goal with X : Filled _ _ _ l ?o ?f ?v |- _ => destruct (IH o f v X) as (? & ? & ?); subst end; auto.
  - match goal with C2 : Codes up w ?k |- _ => lazymatch k with codes => fail | _ => pose proof (fmt_codes u w m _ C) as E1; pose proof (fmt_codes u w m _ C2) as E2 end end.
    rewrite E1 in E2. injection E2 as E2. rewrite E2. auto.
  - exfalso. match goal with P2 : Puzzling up w |- _ => pose proof (fmt_codes u w m _ C) as E1; pose proof (fmt_puzzling u w m P2) as E2 end. rewrite E1 in E2. discriminate E2.
  - exfalso. match goal with P2 : Codes up w _ |- _ => pose proof (fmt_codes u w m _ P2) as E1; pose proof (fmt_puzzling u w m P) as E2 end. rewrite E1 in E2. discriminate E2.
  - match goal with V2 : In (w, ?k) vars |- _ => lazymatch k with v => fail | _ => pose proof (lookup_some vars w v ND V) as E1; pose proof (lookup_some vars w k ND V2) as E2 end end.
    rewrite E1 in E2. injection E2 as E2. rewrite E2. auto.
  - exfalso. match goal with X : forall v, ~ In (w, v) vars |- _ => now apply (X v) end.
  - exfalso. match goal with X : In (w, ?k) vars |- _ => now apply (V k) end.
Qed.
Lemma filled_not_fatal vars l out fw vw : Filled assemble up vars l out fw vw -> forall w m, In (P_format w m) l -> ~ Fatal up w.
Proof.
  induction 1 as [|c l o1 f1 v1 H IH|w m codes l o1 f1 v1 C H IH|w m l o1 f1 v1 P H IH|w m v l o1 f1 v1 V H IH|w m l o1 f1 v1 V H IH]; intros w' m' I; [destruct I|..];
    (destruct I as [I|I]; [|now apply (IH w' m')]); try discriminate I; injection I as <- <-; intros F; apply (fmt_fatal u w m) in F.
  - rewrite (fmt_codes u w m codes C) in F. discriminate F.
  - rewrite (fmt_puzzling u w m P) in F. discriminate F.
Qed.

(** ** The whole *)
Lemma whole vars s : NoDup (map fst vars) -> exists s' l, Uncommented s s' /\ Cut word s' l /\
  ((exists out fw vw, Filled assemble up vars l out fw vw /\ substitute_template u vars s = Ok (out, fw ++ vw)) \/
   ((exists w m, In (P_format w m) l /\ Fatal up w) /\ substitute_template u vars s = Err ValueError)).
Proof.
  intros ND. pose proof (no_comments_spec s _ (le_n _)) as U. unfold substitute_template. set (s1 := no_comments (List.length s) s) in *.
  destruct (fcut_exists _ s1 (le_n _)) as [ps FC]. destruct (merge _ s1 ps (le_n _) FC) as (l & M & C). exists s1, l. split; [exact U|]. split; [exact C|].
  cbv zeta. rewrite (sub_fcut (resolve_fmt u) s1 ps FC _ (le_n _)). destruct (run_kinds ps (fcut_formats s1 ps FC)) as [(s2 & fw & F & ->)|[(w & m & I & F) ->]].
  - left. destruct (pass_variables vars ps l ND M s2 fw F _ (le_n _)) as (out & vw & R & G). exists out, fw, vw. split; [exact G|].
    cbn [bind]. rewrite R. reflexivity.
  - right. split; [|reflexivity]. exists w, m. split; [|exact F]. now apply (merged_formats ps l M).
Qed.
End Pass.

Theorem template_filled u vars s out ws : words (u_word u) -> NoDup (map fst vars) ->
  substitute_template u vars s = Ok (out, ws) <->
  exists s' l fw vw, Uncommented s s' /\ Cut (u_word u) s' l /\ Filled assemble (u_upper u) vars l out fw vw /\ ws = fw ++ vw.
Proof.
  intros W ND. destruct (whole u W vars s ND) as (s' & l & U & C & [(o & fw & vw & F & E)|[(w & m & I & F) E]]); rewrite E; split.
  - intros [= <- <-]. exists s', l, fw, vw. auto.
  - intros (s0 & l0 & fw0 & vw0 & U0 & C0 & F0 & ->). rewrite (uncommented_unique s s0 s' U0 U) in C0. rewrite (cut_unique u W s' l0 C0 l C) in F0.
    destruct (filled_unique u vars l ND _ _ _ F _ _ _ F0) as (-> & -> & ->). reflexivity.
  - discriminate.
  - intros (s0 & l0 & fw0 & vw0 & U0 & C0 & F0 & ->). rewrite (uncommented_unique s s0 s' U0 U) in C0. rewrite (cut_unique u W s' l0 C0 l C) in F0.
    now apply (filled_not_fatal u vars l _ _ _ F0 w m I) in F.
Qed.
Theorem template_stops u vars s e : words (u_word u) -> NoDup (map fst vars) ->
  substitute_template u vars s = Err e <->
  e = ValueError /\ exists s' l w m, Uncommented s s' /\ Cut (u_word u) s' l /\ In (P_format w m) l /\ Fatal (u_upper u) w.
Proof.
  intros W ND. destruct (whole u W vars s ND) as (s' & l & U & C & [(o & fw & vw & F & E)|[(w & m & I & F) E]]); rewrite E; split.
  - discriminate.
  - intros (-> & s0 & l0 & w & m & U0 & C0 & I & F0). rewrite (uncommented_unique s s0 s' U0 U) in C0. rewrite (cut_unique u W s' l0 C0 l C) in I.
    now apply (filled_not_fatal u vars l _ _ _ F w m I) in F0.
  - intros [= <-]. split; [reflexivity|]. now exists s', l, w, m.
  - intros (-> & _). reflexivity.
Qed.
