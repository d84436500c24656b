(** Filters with any replacement text *)
From Coq Require Import List Arith NArith ZArith Bool Lia.
From Verif.Model Require Import Base Regex Strip Trace Filters.
From Verif.Spec Require Import Numbers Terminal Lexical Filtered ReplacementText.
From Verif.Proof Require Import BaseFacts RegexFacts TermFacts FilterClaims.
Import ListNotations.
Local Open Scope N_scope.

Definition as_piece (i : titem) : piece := match i with TLit c => Char c | TGroup n => Part n end.
Lemma is_digit_iff c : is_digit c = true <-> digit c.
Proof. unfold is_digit, digit, rng. rewrite andb_true_iff, !N.leb_le. tauto. Qed.
Lemma is_octal_iff c : is_octal c = true <-> octal_digit c.
Proof. unfold is_octal, octal_digit, rng. rewrite andb_true_iff, !N.leb_le. tauto. Qed.
Lemma is_letter_iff c : is_letter c = true <-> ascii_letter c.
Proof. unfold is_letter, ascii_letter, rng. rewrite orb_true_iff, !andb_true_iff, !N.leb_le. tauto. Qed.
Lemma number_decimal l : number_of l = decimal l.
Proof.
  unfold number_of, decimal. generalize 0. induction l as [|c l IH]; intros a; [reflexivity|]. cbn [fold_left]. rewrite IH. f_equal. lia.
Qed.
Lemma octal_octal l : octal_of l = octal l.
Proof.
  unfold octal_of, octal. generalize 0. induction l as [|c l IH]; intros a; [reflexivity|]. cbn [fold_left]. rewrite IH. f_equal. lia.
Qed.
Lemma escape_iff c x : escape_char c = Some x <-> In (c, x) CONTROL_ESCAPES.
Proof.
  unfold escape_char, CONTROL_ESCAPES. cbn [In]. split.
  - intros H. repeat match type of H with (if ?a =? ?b then _ else _) = _ => destruct (N.eqb_spec a b) as [->|]; [injection H as <-; tauto|] end. discriminate.
  - intros H. repeat (destruct H as [H|H]; [injection H as <- <-; reflexivity|]). contradiction.
Qed.
Lemma until_gt_app ds r : ~ In 62 ds -> until_gt (ds ++ 62 :: r) = Some (ds, r).
Proof.
  induction ds as [|c ds IH]; intros H; [reflexivity|]. cbn [app until_gt]. destruct (N.eqb_spec c 62) as [->|]; [exfalso; apply H; now left|].
  rewrite IH by (intros K; apply H; now right). reflexivity.
Qed.
Lemma until_gt_inv : forall s a b, until_gt s = Some (a, b) -> s = a ++ 62 :: b.
Proof.
  induction s as [|c s IH]; intros a b H; [discriminate|]. cbn [until_gt] in H. destruct (N.eqb_spec c 62) as [->|]; [injection H as <- <-; reflexivity|].
  destruct (until_gt s) as [[a' b']|] eqn:E; [|discriminate]. injection H as <- <-. rewrite (IH _ _ eq_refl). reflexivity.
Qed.
Lemma digits_all l : forallb is_digit l = true <-> Forall digit l.
Proof. rewrite forallb_forall, Forall_forall. split; intros H c I; apply is_digit_iff, H, I. Qed.
Lemma add_group_some g n o l : add_group g n o = Some l <-> n <= g /\ exists l', o = Some l' /\ l = TGroup n :: l'.
Proof.
  unfold add_group. destruct (N.ltb_spec g n); split.
  - discriminate.
  - lia.
  - destruct o; intros K; inversion K; eauto.
  - intros (_ & l' & -> & ->). reflexivity.
Qed.
Lemma add_lit_some c o l : add_lit c o = Some l <-> exists l', o = Some l' /\ l = TLit c :: l'.
Proof. unfold add_lit. split; [destruct o; intros K; inversion K; eauto|]. intros (l' & -> & ->). reflexivity. Qed.

Lemma parse_means g : forall f s l, parse_template_fuel g f s = Some l -> Means g s (map as_piece l).
Proof.
  induction f as [|f IH]; intros s l H; [destruct s; [injection H as <-; constructor|discriminate]|].
  cbn [parse_template_fuel] in H. destruct s as [|b t]; [injection H as <-; constructor|].
  destruct (N.eqb_spec b 92) as [->|Nb]; cbn [negb] in H.
  2: { apply add_lit_some in H as (l' & E & ->). apply Me_char; [exact Nb|]. now apply IH. }
  destruct t as [|c t1]; [discriminate|]. destruct (N.eqb_spec c 103) as [->|Nc].
  { destruct t1 as [|x t2]; [discriminate|]. destruct (N.eqb_spec x 60) as [->|]; [|discriminate]. destruct (until_gt t2) as [[name t3]|] eqn:U; [|discriminate].
    destruct (Nat.ltb_spec 0 (length name)) as [L|]; [|discriminate]. cbn [andb] in H. destruct (forallb is_digit name) eqn:D; [|discriminate].
    apply add_group_some in H as (B & l' & E & ->). apply until_gt_inv in U as ->. rewrite number_decimal in *. cbn [map as_piece].
    apply Me_named; [destruct name; [cbn in L; lia|discriminate]|now apply digits_all|exact B|now apply IH]. }
  destruct (N.eqb_spec c 48) as [->|N0].
  { destruct t1 as [|d t2].
    - apply add_lit_some in H as (l' & E & ->). apply (Me_zero g [] [] _); [cbn; lia|constructor|right; cbn; tauto|now apply IH].
    - destruct (is_octal d) eqn:Od.
      + destruct t2 as [|e t3].
        * apply add_lit_some in H as (l' & E & ->). rewrite octal_octal. apply (Me_zero g [d] [] _); [cbn; lia|constructor; [now apply is_octal_iff|constructor]|right; cbn; tauto|now apply IH].
        * destruct (is_octal e) eqn:Oe; apply add_lit_some in H as (l' & E & ->); rewrite octal_octal.
          -- apply (Me_zero g [d; e] t3 _); [cbn; lia|repeat constructor; now apply is_octal_iff|now left|now apply IH].
          -- apply (Me_zero g [d] (e :: t3) _); [cbn; lia|constructor; [now apply is_octal_iff|constructor]|right; cbn; rewrite <- is_octal_iff; congruence|now apply IH].
      + apply add_lit_some in H as (l' & E & ->). apply (Me_zero g [] (d :: t2) _); [cbn; lia|constructor|right; cbn; rewrite <- is_octal_iff; congruence|now apply IH]. }
  destruct (is_digit c) eqn:Dc.
  { pose proof (proj1 (is_digit_iff c) Dc) as Dc'. destruct t1 as [|d t2].
    - apply add_group_some in H as (B & l' & E & ->). rewrite number_decimal in *. cbn [map as_piece]. apply (Me_one g c []); [exact Dc'|exact N0|cbn; tauto|exact B|now apply IH].
    - destruct (is_digit d) eqn:Dd.
      2: { apply add_group_some in H as (B & l' & E & ->). rewrite number_decimal in *. cbn [map as_piece]. apply (Me_one g c (d :: t2)); [exact Dc'|exact N0|cbn; rewrite <- is_digit_iff; congruence|exact B|now apply IH]. }
      pose proof (proj1 (is_digit_iff d) Dd) as Dd'. destruct t2 as [|e t3].
      + apply add_group_some in H as (B & l' & E & ->). rewrite number_decimal in *. cbn [map as_piece]. apply (Me_two g c d []); [exact Dc'|exact N0|exact Dd'|cbn; tauto|exact B|now apply IH].
      + destruct (is_octal c && is_octal d && is_octal e) eqn:O.
        * apply andb_true_iff in O as [O Oe]. apply andb_true_iff in O as [Oc Od]. destruct (N.ltb_spec 255 (octal_of [c; d; e])); [discriminate|].
          apply add_lit_some in H as (l' & E & ->). rewrite octal_octal in *. cbn [map as_piece].
          apply Me_octal; [now apply is_octal_iff|exact N0|now apply is_octal_iff|now apply is_octal_iff|assumption|now apply IH].
        * apply add_group_some in H as (B & l' & E & ->). rewrite number_decimal in *. cbn [map as_piece].
          apply (Me_two g c d (e :: t3)); [exact Dc'|exact N0|exact Dd'| |exact B|now apply IH].
          cbn [starts]. rewrite <- !is_octal_iff. intros (A1 & A2 & A3). rewrite A1, A2, A3 in O. discriminate. }
  destruct (escape_char c) as [x|] eqn:X.
  - apply add_lit_some in H as (l' & E & ->). cbn [map as_piece]. apply Me_escape; [now apply escape_iff|now apply IH].
  - destruct (is_letter c) eqn:L; [discriminate|]. destruct (parse_template_fuel g f t1) as [l'|] eqn:E; [|discriminate]. injection H as <-. cbn [map as_piece].
    apply Me_kept; [rewrite <- is_letter_iff; congruence|rewrite <- is_digit_iff; congruence|intros ->; discriminate|now apply IH].
Qed.
Lemma parse_step g f s : (length s <= f)%nat -> parse_template_fuel g f s = parse_template g s.
Proof. intros H. unfold parse_template. now apply template_fuel_enough. Qed.
Lemma octal_is_digit c : octal_digit c -> digit c.
Proof. unfold octal_digit, digit, rng. lia. Qed.
Lemma not_true b : b <> true -> b = false.
Proof. destruct b; congruence. Qed.

Lemma parse_up g b t : exists f, (length t <= f)%nat /\ parse_template g (b :: t) = parse_template_fuel g (S f) (b :: t).
Proof. exists (length t). split; [lia|reflexivity]. Qed.
Ltac fin E Hf := split; [rewrite parse_step by (cbn [length app] in *; lia); exact E|reflexivity].
Lemma means_parse g s l : Means g s l -> exists t, parse_template g s = Some t /\ map as_piece t = l.
Proof.
  induction 1 as [|c r l Nc M IH|ds r l NE D B M IH|ds r l L O S M IH|a b c r l Oa Na Ob Oc B M IH|a r l Da Na S B M IH|a b r l Da Na Db S B M IH|c x r l I M IH|c r l NL ND NB M IH].
  - exists []. auto.
  - destruct IH as (t & E & <-). exists (TLit c :: t). rewrite template_lit, E by assumption. auto.
  - destruct IH as (t & E & <-). exists (TGroup (decimal ds) :: t). split; [|reflexivity]. match goal with |- parse_template _ (?b :: ?u) = _ => destruct (parse_up g b u) as (f & Hf & ->) end. cbn [parse_template_fuel].
    change (92 =? 92) with true. change (103 =? 103) with true. change (60 =? 60) with true. cbn [negb].
    rewrite until_gt_app. 2: { intros K. rewrite Forall_forall in D. specialize (D _ K). unfold digit, rng in D. lia. }
    rewrite (proj2 (digits_all ds) D). assert (Z : (0 <? length ds)%nat = true) by (destruct ds; [congruence|reflexivity]). rewrite Z. cbn [andb].
    apply add_group_some. rewrite number_decimal. split; [exact B|]. exists t. split; [|reflexivity]. rewrite parse_step; [exact E|]. cbn [length] in Hf. rewrite app_length in Hf. cbn [length] in Hf. lia.
  - destruct IH as (t & E & <-). exists (TLit (octal ds) :: t). split; [|reflexivity]. match goal with |- parse_template _ (?b :: ?u) = _ => destruct (parse_up g b u) as (f & Hf & ->) end. cbn [parse_template_fuel].
    change (92 =? 92) with true. change (48 =? 103) with false. change (48 =? 48) with true. cbn [negb].
    destruct ds as [|d [|e [|? ?]]]; [| | |cbn in L; lia]; cbn [app].
    + destruct S as [S|S]; [discriminate|]. destruct r as [|d r].
      * apply add_lit_some. exists t. fin E Hf.
      * cbn [starts] in S. rewrite <- is_octal_iff in S. apply not_true in S. rewrite S. apply add_lit_some. exists t. fin E Hf.
    + inversion O as [|? ? O1 O2]; subst. apply is_octal_iff in O1. rewrite O1. destruct S as [S|S]; [discriminate|]. destruct r as [|e r].
      * apply add_lit_some. exists t. rewrite octal_octal. fin E Hf.
      * cbn [starts] in S. rewrite <- is_octal_iff in S. apply not_true in S. rewrite S. apply add_lit_some. exists t. rewrite octal_octal. fin E Hf.
    + inversion O as [|? ? O1 O2]; subst. inversion O2 as [|? ? O3 O4]; subst. apply is_octal_iff in O1, O3. rewrite O1, O3. apply add_lit_some. exists t. rewrite octal_octal. fin E Hf.
  - destruct IH as (t & E & <-). exists (TLit (octal [a; b; c]) :: t). split; [|reflexivity]. match goal with |- parse_template _ (?b :: ?u) = _ => destruct (parse_up g b u) as (f & Hf & ->) end. cbn [parse_template_fuel].
    change (92 =? 92) with true. cbn [negb]. assert (Z1 : (a =? 103) = false) by (apply N.eqb_neq; unfold octal_digit, rng in Oa; lia). rewrite Z1.
    apply N.eqb_neq in Na. rewrite Na. rewrite (proj2 (is_digit_iff a) (octal_is_digit a Oa)), (proj2 (is_digit_iff b) (octal_is_digit b Ob)).
    rewrite (proj2 (is_octal_iff a) Oa), (proj2 (is_octal_iff b) Ob), (proj2 (is_octal_iff c) Oc). cbn [andb]. rewrite octal_octal.
    destruct (N.ltb_spec 255 (octal [a; b; c])); [lia|]. apply add_lit_some. exists t. fin E Hf.
  - destruct IH as (t & E & <-). exists (TGroup (decimal [a]) :: t). split; [|reflexivity]. match goal with |- parse_template _ (?b :: ?u) = _ => destruct (parse_up g b u) as (f & Hf & ->) end. cbn [parse_template_fuel].
    change (92 =? 92) with true. cbn [negb]. assert (Z1 : (a =? 103) = false) by (apply N.eqb_neq; unfold digit, rng in Da; lia). rewrite Z1.
    apply N.eqb_neq in Na. rewrite Na. rewrite (proj2 (is_digit_iff a) Da). rewrite number_decimal. destruct r as [|d r].
    + apply add_group_some. split; [exact B|]. exists t. fin E Hf.
    + cbn [starts] in S. rewrite <- is_digit_iff in S. apply not_true in S. rewrite S. apply add_group_some. split; [exact B|]. exists t. fin E Hf.
  - destruct IH as (t & E & <-). exists (TGroup (decimal [a; b]) :: t). split; [|reflexivity]. match goal with |- parse_template _ (?b :: ?u) = _ => destruct (parse_up g b u) as (f & Hf & ->) end. cbn [parse_template_fuel].
    change (92 =? 92) with true. cbn [negb]. assert (Z1 : (a =? 103) = false) by (apply N.eqb_neq; unfold digit, rng in Da; lia). rewrite Z1.
    apply N.eqb_neq in Na. rewrite Na. rewrite (proj2 (is_digit_iff a) Da), (proj2 (is_digit_iff b) Db). rewrite number_decimal. destruct r as [|e r].
    + apply add_group_some. split; [exact B|]. exists t. fin E Hf.
    + cbn [starts] in S. rewrite <- !is_octal_iff in S.
      assert (Z : is_octal a && is_octal b && is_octal e = false) by (apply not_true; rewrite !andb_true_iff; tauto). rewrite Z.
      apply add_group_some. split; [exact B|]. exists t. fin E Hf.
  - destruct IH as (t & E & <-). exists (TLit x :: t). split; [|reflexivity]. match goal with |- parse_template _ (?b :: ?u) = _ => destruct (parse_up g b u) as (f & Hf & ->) end. cbn [parse_template_fuel].
    change (92 =? 92) with true. cbn [negb].
    assert (Z : (c =? 103) = false /\ (c =? 48) = false /\ is_digit c = false).
    { unfold CONTROL_ESCAPES in I. cbn [In] in I. repeat (destruct I as [I|I]; [injection I as <- <-; auto|]). contradiction. }
    destruct Z as (-> & -> & ->). rewrite (proj2 (escape_iff c x) I). apply add_lit_some. exists t. fin E Hf.
  - destruct IH as (t & E & <-). exists (TLit 92 :: TLit c :: t). split; [|reflexivity]. match goal with |- parse_template _ (?b :: ?u) = _ => destruct (parse_up g b u) as (f & Hf & ->) end. cbn [parse_template_fuel].
    change (92 =? 92) with true. cbn [negb].
    assert (Z1 : (c =? 103) = false) by (apply N.eqb_neq; unfold ascii_letter, rng in NL; lia).
    assert (Z2 : (c =? 48) = false) by (apply N.eqb_neq; unfold digit, rng in ND; lia).
    rewrite <- is_letter_iff in NL. rewrite <- is_digit_iff in ND. apply not_true in NL as NL', ND as ND'. rewrite Z1, Z2, ND', NL'.
    assert (X : escape_char c = None).
    { destruct (escape_char c) as [x|] eqn:X; [|reflexivity]. apply escape_iff in X. exfalso. rewrite is_letter_iff in NL. unfold CONTROL_ESCAPES in X. cbn [In] in X.
      unfold ascii_letter, rng in NL. repeat (destruct X as [X|X]; [injection X as <- <-; lia|]). contradiction. }
    rewrite X, parse_step, E by (cbn [length] in Hf; lia). reflexivity.
Qed.
Theorem template_means g s l : Means g s l <-> exists t, parse_template g s = Some t /\ map as_piece t = l.
Proof. split; [apply means_parse|]. intros (t & E & <-). eapply parse_means. exact E. Qed.
Lemma template_error g s : parse_template g s = None <-> forall l, ~ Means g s l.
Proof.
  split.
  - intros H l M. apply template_means in M as (t & E & _). congruence.
  - intros H. destruct (parse_template g s) as [t|] eqn:E; [|reflexivity]. exfalso. apply (H (map as_piece t)). apply template_means. eauto.
Qed.
(** a text has one meaning *)
Theorem means_unique g s l l' : Means g s l -> Means g s l' -> l = l'.
Proof. intros A B. apply template_means in A as (t & E & <-), B as (t' & E' & <-). congruence. Qed.
Lemma means_bounded g s l : Means g s l -> Forall (fun p => match p with Part n => n <= g | Char _ => True end) l.
Proof. induction 1; repeat constructor; assumption. Qed.

(** ** control sequences *)
Lemma expand_filled t g w part : Forall (fun p => match p with Part n => (if n =? 0 then w else match group (N.to_nat n) g with Some x => x | None => [] end) = part n | Char _ => True end) (map as_piece t) ->
  expand t g w = filled part (map as_piece t).
Proof.
  unfold expand, filled. induction t as [|i t IH]; intros H; [reflexivity|]. inversion H as [|? ? H1 H2]; subst. cbn [map flat_map concat].
  rewrite IH by exact H2. destruct i as [c|n]; cbn [as_piece] in *; [reflexivity|]. f_equal. exact H1.
Qed.
Lemma below_6 n : n <= 5 -> n = 0 \/ n = 1 \/ n = 2 \/ n = 3 \/ n = 4 \/ n = 5.
Proof. lia. Qed.
Lemma image_filled t p c : Forall (fun x => match x with Part n => n <= 5 | Char _ => True end) (map as_piece t) ->
  image t (seq_of p c) = filled (sequence_part (seq_of p c)) (map as_piece t).
Proof.
  intros B. rewrite image_seq. apply expand_filled. eapply Forall_impl; [|exact B]. intros [x|n]; [trivial|]. intros H.
  assert (Epar : removelast (skipn 2 (seq_of p c)) = p) by (unfold seq_of; cbn [skipn]; apply removelast_last).
  assert (Elast : last (seq_of p c) 0 = c) by (unfold seq_of; rewrite !app_comm_cons; apply last_last).
  unfold sequence_part. rewrite Epar, Elast. set (w := seq_of p c). clearbody w. clear Epar Elast.
  assert (G3 : group 3 [(5%nat, [c]); (3%nat, p); (2%nat, [91]); (1%nat, [27])] = Some p) by reflexivity.
  destruct p as [|x p _] using rev_ind.
  - apply below_6 in H as [->|[->|[->|[->|[->| ->]]]]]; reflexivity.
  - unfold with_last. rewrite G3, rev_unit, last_last. assert (Z : match p ++ [x] with [] => [] | _ :: _ => [x] end = [x]) by (destruct p; reflexivity). rewrite Z.
    apply below_6 in H as [->|[->|[->|[->|[->| ->]]]]]; reflexivity.
Qed.
Definition filter_of (P F : cls) (repl : list N) : string_filter := mkFilter (csi_re P F) 5 repl.
Lemma sequences_any P F (Q G : N -> Prop) repl : disjoint P F -> (forall b, in_cls P b = true <-> Q b) -> (forall b, in_cls F b = true <-> G b) ->
  forall s out, filter_apply (filter_of P F repl) s = Some out <->
    exists l, Means 5 repl l /\ Replaced (introduced Q G) (fun w => filled (sequence_part w) l) s out.
Proof.
  intros D HP HF s out. unfold filter_apply, filter_of. cbn [f_groups f_repl f_regex]. destruct (parse_template 5 repl) as [t|] eqn:E.
  - pose proof (parse_means _ _ _ _ E) as M. pose proof (means_bounded _ _ _ M) as B.
    rewrite (sequences_replaced P F Q G t D HP HF (fun w => filled (sequence_part w) (map as_piece t))).
    + split; [intros H; exists (map as_piece t); auto|]. intros (l & M' & H). now rewrite (means_unique _ _ _ _ M M').
    + intros w (p & c & -> & _). now apply image_filled.
  - split; [discriminate|]. intros (l & M & _). destruct (proj1 (template_error _ _) E l M).
Qed.
Theorem sgr_any repl s out : filter_apply (replace_sgr repl) s = Some out <->
  exists l, Means 5 repl l /\ Replaced sgr_sequence (fun w => filled (sequence_part w) l) s out.
Proof. exact (sequences_any SGR_P SGR_F _ _ repl sgr_disjoint sgr_p sgr_f s out). Qed.
Theorem csi_any repl s out : filter_apply (replace_csi repl) s = Some out <->
  exists l, Means 5 repl l /\ Replaced lettered_sequence (fun w => filled (sequence_part w) l) s out.
Proof. exact (sequences_any CSI_P CSI_F _ _ repl csi_disjoint csi_p csi_f s out). Qed.
(** errors do not depend on the text that is filtered *)
Theorem filter_error f s : filter_apply f s = None <-> forall l, ~ Means (f_groups f) (f_repl f) l.
Proof. rewrite <- template_error. unfold filter_apply. destruct (parse_template (f_groups f) (f_repl f)); split; congruence. Qed.

(** ** white space *)
Definition one_white (w : list N) : Prop := exists c, w = [c] /\ white c.
Lemma white_one_iff c : is_white c = true <-> one_white [c].
Proof. rewrite white_spec. split; [intros H; exists c; auto|]. intros (d & [= <-] & H). exact H. Qed.
Lemma one_white_unique f s x y : Replaced one_white f s x -> Replaced one_white f s y -> x = y.
Proof.
  apply Replaced_unique.
  - intros a b r r' (c & -> & _) (d & -> & _) [= -> ->]. auto.
  - intros (c & E & _). discriminate.
Qed.
Lemma white_filled t w g : Forall (fun x => match x with Part n => n <= 1 | Char _ => True end) (map as_piece t) ->
  (w = [10] /\ g = [(1%nat, [10])]) \/ (w <> [10] /\ g = []) ->
  expand t (with_last g) w = filled (white_part w) (map as_piece t).
Proof.
  intros B C. apply expand_filled. eapply Forall_impl; [|exact B]. intros [x|n]; [trivial|]. intros H.
  assert (N01 : n = 0 \/ n = 1) by lia. destruct N01 as [->| ->]; [reflexivity|]. destruct C as [(-> & ->)|(NE & ->)]; [reflexivity|].
  cbn [with_last group white_part N.eqb]. destruct w as [|c [|? ?]]; try reflexivity.
  - destruct (N.eq_dec c 10) as [->|N10]; [congruence|]. symmetry. destruct c as [|p]; [reflexivity|]. do 4 (try (destruct p as [p|p|]; try reflexivity)). congruence.
  - symmetry. destruct c as [|p]; [reflexivity|]. do 4 (try (destruct p as [p|p|]; try reflexivity)).
Qed.
Theorem white_any repl s out : filter_apply (visualize_whitespace repl) s = Some out <->
  exists l, Means 1 (repl ++ [92; 49]) l /\ Replaced one_white (fun w => filled (white_part w) l) s out.
Proof.
  unfold filter_apply, visualize_whitespace. cbn [f_groups f_repl f_regex]. destruct (parse_template 1 (repl ++ [92; 49])) as [t|] eqn:E.
  2: { split; [discriminate|]. intros (l & M & _). destruct (proj1 (template_error _ _) E l M). }
  pose proof (parse_means _ _ _ _ E) as M. pose proof (means_bounded _ _ _ M) as B. set (F := flat_map _).
  assert (K : Replaced one_white (fun w => filled (white_part w) (map as_piece t)) s (F (re_scan white_re s))).
  { clear E M. induction s as [|c s IH]; [constructor|]. pose proof (white_match c s) as W. destruct (N.eqb_spec c 10) as [->|Hc].
    - rewrite (scan_one _ _ _ _ W). unfold F in *. cbn [flat_map]. rewrite (white_filled t [10]) by auto.
      apply (Rp_part one_white (fun w => filled (white_part w) (map as_piece t)) [10]); [apply white_one_iff; reflexivity|exact IH].
    - destruct (is_white c) eqn:V.
      + rewrite (scan_one _ _ _ _ W). unfold F in *. cbn [flat_map]. rewrite (white_filled t [c]); [|exact B|right; split; [congruence|reflexivity]].
        apply (Rp_part one_white (fun w => filled (white_part w) (map as_piece t)) [c]); [apply white_one_iff; exact V|exact IH].
      + rewrite re_scan_unmatched by exact W. unfold F in *. cbn [flat_map app]. apply Rp_char; [|exact IH].
        intros w r' (d & -> & Hd) [= <- _]. apply white_spec in Hd. congruence. }
  fold white_re. split.
  - intros [= <-]. exists (map as_piece t). auto.
  - intros (l & M' & H). rewrite (means_unique _ _ _ _ M' M) in H. f_equal. eapply one_white_unique; eassumption.
Qed.

(** ** bytes above 127 *)
Definition high_byte (w : list N) : Prop := exists c, w = [c] /\ rng 128 255 c.
Theorem non_ascii_any repl s out : filter_apply (replace_non_ascii repl) s = Some out <->
  exists l, Means 0 repl l /\ Replaced high_byte (fun w => filled (fun _ => w) l) s out.
Proof.
  unfold filter_apply, replace_non_ascii. cbn [f_groups f_repl f_regex]. destruct (parse_template 0 repl) as [t|] eqn:E.
  2: { split; [discriminate|]. intros (l & M & _). destruct (proj1 (template_error _ _) E l M). }
  pose proof (parse_means _ _ _ _ E) as M. pose proof (means_bounded _ _ _ M) as B. set (F := flat_map _). set (R := RCls [(128, 255)]).
  assert (H1 : forall c, in_cls [(128, 255)] c = true <-> rng 128 255 c).
  { intros c. unfold in_cls, rng. cbn [existsb fst snd]. rewrite orb_false_r, andb_true_iff, !N.leb_le. tauto. }
  assert (K : Replaced high_byte (fun w => filled (fun _ => w) (map as_piece t)) s (F (re_scan R s))).
  { clear E M. induction s as [|c s IH]; [constructor|]. destruct (in_cls [(128, 255)] c) eqn:V.
    - rewrite (scan_one R c s []); [|unfold re_match, R; cbn [mt]; now rewrite V]. unfold F in *. cbn [flat_map].
      rewrite (expand_filled t _ [c] (fun _ => [c])).
      + apply (Rp_part high_byte (fun w => filled (fun _ => w) (map as_piece t)) [c]); [exists c; split; [reflexivity|now apply H1]|exact IH].
      + eapply Forall_impl; [|exact B]. intros [x|n]; [trivial|]. intros L. assert (n = 0) as -> by lia. reflexivity.
    - rewrite re_scan_unmatched; [|unfold re_match, R; cbn [mt]; now rewrite V]. unfold F in *. cbn [flat_map app]. apply Rp_char; [|exact IH].
      intros w r' (d & -> & Hd) [= <- _]. apply H1 in Hd. congruence. }
  split.
  - intros [= <-]. exists (map as_piece t). auto.
  - intros (l & M' & H). rewrite (means_unique _ _ _ _ M' M) in H. f_equal. eapply (Replaced_unique high_byte); [| |exact K|exact H].
    + intros a b r r' (c & -> & _) (d & -> & _) [= -> ->]. auto.
    + intros (c & X & _). discriminate.
Qed.
