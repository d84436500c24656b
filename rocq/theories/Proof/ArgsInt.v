(** Numbers on the command line *)
From Coq Require Import List Arith NArith ZArith Bool Lia.
From Verif.Model Require Import Base Args.
From Verif.Spec Require Import CommandLine.
Import ListNotations.
Local Open Scope N_scope.

Lemma zeros_ok : forallb (fun z => forallb (fun d => match digit_value (z + d) with Some e => e =? d | None => false end) [0; 1; 2; 3; 4; 5; 6; 7; 8; 9]) zeros = true.
Proof. vm_compute. reflexivity. Qed.
Lemma digit_iff c d : digit_value c = Some d <-> Digit c d.
Proof.
  split.
  - unfold digit_value. destruct (find _ zeros) as [z|] eqn:E; [|discriminate]. intros [= <-]. apply find_some in E as [I H]. apply andb_true_iff in H as [H1 H2]. apply N.leb_le in H1. apply N.ltb_lt in H2.
    exists z. split; [exact I|]. lia.
  - intros (z & I & L & ->). pose proof zeros_ok as Z. rewrite forallb_forall in Z. specialize (Z z I). rewrite forallb_forall in Z.
    assert (K : In d [0; 1; 2; 3; 4; 5; 6; 7; 8; 9]). { assert (d = 0 \/ d = 1 \/ d = 2 \/ d = 3 \/ d = 4 \/ d = 5 \/ d = 6 \/ d = 7 \/ d = 8 \/ d = 9) by lia. cbn. intuition auto. }
    specialize (Z d K). cbv beta in Z. destruct (digit_value (z + d)) as [e|]; [|discriminate]. apply N.eqb_eq in Z. now subst.
Qed.
Lemma digit_none c : digit_value c = None <-> ~ Digital c.
Proof.
  split.
  - intros E [d D]. apply digit_iff in D. congruence.
  - intros H. destruct (digit_value c) as [d|] eqn:E; [|reflexivity]. exfalso. apply H. exists d. now apply digit_iff.
Qed.
Lemma is_digit_iff c : is_digit c = true <-> Digital c.
Proof.
  unfold is_digit. destruct (digit_value c) as [d|] eqn:E.
  - split; [intros _; exists d; now apply digit_iff|reflexivity].
  - apply digit_none in E. split; [discriminate|contradiction].
Qed.
Lemma blank_iff c : int_space c = true <-> Blank c.
Proof.
  unfold int_space, Blank. rewrite orb_true_iff, andb_true_iff, !N.leb_le, existsb_exists. cbn [In].
  split.
  - intros [H|(x & H & E)]; [lia|]. apply N.eqb_eq in E. subst x. lia.
  - intros H. assert (K : 9 <= c <= 13 \/ ~ 9 <= c <= 13) by lia. destruct K as [K|K]; [now left|]. right. exists c. split; [lia|apply N.eqb_refl].
Qed.
(** blanks, signs, digits and underscores are different *)
Lemma blank_no_digit : forallb (fun c => negb (is_digit c)) [9; 10; 11; 12; 13; 0x20; 0x85; 0xa0; 0x1680; 0x2000; 0x2001; 0x2002; 0x2003; 0x2004; 0x2005; 0x2006; 0x2007; 0x2008; 0x2009; 0x200a;
     0x2028; 0x2029; 0x202f; 0x205f; 0x3000] = true.
Proof. vm_compute. reflexivity. Qed.
Lemma blank_digit c : Blank c -> digit_value c = None.
Proof.
  intros H. pose proof blank_no_digit as K. rewrite forallb_forall in K. specialize (K c).
  assert (I : is_digit c = false).
  { apply negb_true_iff, K. cbn [In]. unfold Blank in H. lia. }
  unfold is_digit in I. destruct (digit_value c); [discriminate|reflexivity].
Qed.
Lemma digit_facts c d : Digit c d -> ~ Blank c /\ c <> 43 /\ c <> 45 /\ c <> 95 /\ c <> 46 /\ c <> 61 /\ c <> 10 /\ c <> 32.
Proof.
  intros D. apply digit_iff in D.
  assert (F : forall x, digit_value x = None -> c <> x) by (intros x E ->; congruence).
  split; [intros B; apply blank_digit in B; congruence|]. repeat split; apply F; vm_compute; reflexivity.
Qed.

Lemma skip_space_spec l : exists a, l = a ++ skip_space l /\ Forall Blank a /\ (forall c r, skip_space l = c :: r -> ~ Blank c).
Proof.
  induction l as [|c r (a & E & F & K)]; [exists []; repeat split; [constructor|discriminate]|]. cbn [skip_space]. destruct (int_space c) eqn:S1.
  - exists (c :: a). split; [cbn; now rewrite E at 1|]. split; [constructor; [now apply blank_iff|exact F]|exact K].
  - exists []. split; [reflexivity|]. split; [constructor|]. intros c' r' [= <- <-]. rewrite <- blank_iff, S1. discriminate.
Qed.
Lemma skip_space_app a l : Forall Blank a -> (forall c r, l = c :: r -> ~ Blank c) -> skip_space (a ++ l) = l.
Proof.
  induction 1 as [|c a H _ IH]; intros K.
  - destruct l as [|c r]; [reflexivity|]. cbn. destruct (int_space c) eqn:E; [|reflexivity]. apply blank_iff in E. now destruct (K c r).
  - cbn. apply blank_iff in H. rewrite H. now apply IH.
Qed.

Lemma int_digits_sound l : forall acc count under n k, int_digits acc count under l = Some (n, k) ->
  (under = false -> exists s ds b, l = s ++ b /\ Forall Blank b /\ More_digits s ds /\ n = fold_left (fun a d => a * 10 + d) ds acc /\ k = (count + length ds)%nat) /\
  (under = true -> exists c d s ds b, l = c :: s ++ b /\ Forall Blank b /\ Digit c d /\ More_digits s ds /\ n = fold_left (fun a d => a * 10 + d) (d :: ds) acc /\ k = (count + length (d :: ds))%nat).
Proof.
  induction l as [|c r IH]; intros acc count under n k; cbn [int_digits].
  - destruct under; [discriminate|]. intros [= <- <-]. split; [intros _|discriminate]. exists [], [], []. repeat split; auto; constructor.
  - destruct (digit_value c) as [d|] eqn:D.
    + intros E. apply digit_iff in D. apply IH in E as [E _]. destruct (E eq_refl) as (s & ds & b & -> & B & M & -> & ->). split; intros _.
      * exists (c :: s), (d :: ds), b. repeat split; auto; [now constructor|cbn; lia].
      * exists c, d, s, ds, b. repeat split; auto. cbn. lia.
    + destruct (c =? 95) eqn:U.
      * destruct under; [discriminate|]. apply N.eqb_eq in U. subst c. intros E. apply IH in E as [_ E]. destruct (E eq_refl) as (c & d & s & ds & b & -> & B & Dg & M & -> & ->). split; [intros _|discriminate].
        exists (95 :: c :: s), (d :: ds), b. repeat split; auto. now constructor.
      * destruct under; [cbn [negb andb]; discriminate|]. cbn [negb andb]. destruct (forallb int_space (c :: r)) eqn:F; [|discriminate]. intros [= <- <-]. split; [intros _|discriminate].
        exists [], [], (c :: r). repeat split; auto; [|constructor]. apply Forall_forall. intros x I. rewrite forallb_forall in F. apply blank_iff. now apply F.
Qed.
Lemma int_digits_complete s ds b : More_digits s ds -> Forall Blank b -> forall acc count, int_digits acc count false (s ++ b) = Some (fold_left (fun a d => a * 10 + d) ds acc, (count + length ds)%nat).
Proof.
  intros M B. induction M as [|c d s ds D M IH|c d s ds D M IH]; intros acc count.
  - cbn [app fold_left length]. rewrite Nat.add_0_r. destruct b as [|c r]; [reflexivity|]. cbn [int_digits]. rewrite (blank_digit c) by now inversion B.
    assert (c <> 95) by (inversion B as [|? ? K]; subst; intros ->; unfold Blank in K; lia). apply N.eqb_neq in H. rewrite H. cbn [negb andb].
    assert (F : forallb int_space (c :: r) = true) by (apply forallb_forall; intros x I; rewrite Forall_forall in B; apply blank_iff; now apply B). now rewrite F.
  - cbn [app int_digits]. apply digit_iff in D. rewrite D, IH. f_equal. f_equal. cbn. lia.
  - cbn [app int_digits]. change (digit_value 95) with (@None N). cbn [N.eqb Pos.eqb]. apply digit_iff in D. rewrite D, IH. f_equal. f_equal. cbn. lia.
Qed.
Lemma unsigned_iff l n : unsigned_int l = Some n <->
  exists c d s ds b, l = c :: s ++ b /\ Forall Blank b /\ Digit c d /\ More_digits s ds /\ N.of_nat (length (d :: ds)) <= 4300 /\ n = value (d :: ds).
Proof.
  unfold unsigned_int, int_max_digits. split.
  - destruct l as [|c r]; [discriminate|]. destruct (digit_value c) as [d|] eqn:D; [|discriminate]. apply digit_iff in D.
    destruct (int_digits d 1 false r) as [[m k]|] eqn:E; [|discriminate]. destruct (N.leb_spec (N.of_nat k) 4300) as [L|L]; [|discriminate]. intros [= <-].
    apply int_digits_sound in E as [E _]. destruct (E eq_refl) as (s & ds & b & -> & B & M & -> & ->). exists c, d, s, ds, b. repeat split; auto. 
  - intros (c & d & s & ds & b & -> & B & D & M & L & ->). apply digit_iff in D. rewrite D, (int_digits_complete s ds b M B).
    change (1 + length ds)%nat with (length (d :: ds)). apply N.leb_le in L. rewrite L. reflexivity.
Qed.
Lemma int_of_other l : (forall r, l <> 43 :: r) -> (forall r, l <> 45 :: r) -> signed_int l = option_map Z.of_N (unsigned_int l).
Proof.
  intros H1 H2. destruct l as [|c r]; [reflexivity|]. destruct c as [|p]; [reflexivity|]. do 6 (try (destruct p as [p|p|]; try reflexivity)); first [now destruct (H2 r)|now destruct (H1 r)].
Qed.
Lemma int_of_iff v z : int_of v = Some z <-> Numeral v z.
Proof.
  unfold int_of. split.
  - destruct (skip_space_spec v) as (a & E & F & K). set (l := skip_space v) in *. clearbody l. subst v.
    assert (U : forall sg r (g : N -> Z), (forall n, Signed sg n (g n)) -> option_map g (unsigned_int r) = Some z -> Numeral (a ++ sg ++ r) z).
    { intros sg r g G H. destruct (unsigned_int r) as [n|] eqn:Q; [|discriminate]. cbn in H. injection H as <-. apply unsigned_iff in Q as (c & d & s & ds & b & -> & B & D & M & L & ->).
      exists a, sg, c, d, s, ds, b. split; [reflexivity|]. do 5 (split; [assumption|]). apply G. }
    intros H. destruct l as [|c r]; [discriminate|].
    destruct (N.eq_dec c 43) as [->|N1]; [apply (U [43] r Z.of_N); [intros n; left; auto|exact H]|].
    destruct (N.eq_dec c 45) as [->|N2]; [apply (U [45] r (fun n => - Z.of_N n)%Z); [intros n; right; auto|exact H]|].
    rewrite int_of_other in H by (intros r0 [= ? ?]; congruence). apply (U [] (c :: r) Z.of_N); [intros n; left; auto|exact H].
  - intros (a & sg & c & d & s & ds & b & -> & A & B & D & M & L & G).
    assert (Q : unsigned_int (c :: s ++ b) = Some (value (d :: ds))) by (apply unsigned_iff; exists c, d, s, ds, b; auto 10).
    destruct (digit_facts c d D) as (DB & D1 & D2 & _).
    destruct G as [[[-> | ->] ->]|[-> ->]].
    + rewrite skip_space_app; [|exact A|intros c' r' [= <- <-]; exact DB]. rewrite int_of_other; [cbn [app]; now rewrite Q|intros r [= ? ?]; congruence|intros r [= ? ?]; congruence].
    + rewrite skip_space_app; [|exact A|intros c' r' [= <- <-]; unfold Blank; lia]. cbn [app signed_int]. now rewrite Q.
    + rewrite skip_space_app; [|exact A|intros c' r' [= <- <-]; unfold Blank; lia]. cbn [app signed_int]. now rewrite Q.
Qed.

(** a number does not begin with '=', and is not empty *)
Lemma numeral_head v z : Numeral v z -> exists c r, v = c :: r /\ c <> 61.
Proof.
  intros (a & sg & c & d & s & ds & b & -> & A & B & D & M & L & G). destruct (digit_facts c d D) as (_ & _ & _ & _ & _ & D1 & _).
  destruct a as [|x a]; [|exists x, (a ++ sg ++ c :: s ++ b); split; [reflexivity|]; inversion A as [|? ? K]; subst; intros ->; unfold Blank in K; lia].
  destruct G as [[[-> | ->] _]|[-> _]]; cbn [app]; eexists _, _; (split; [reflexivity|]); auto; discriminate.
Qed.

(** * Negative numbers *)
Lemma forallb_digital l : forallb is_digit l = true <-> Forall Digital l.
Proof.
  rewrite forallb_forall, Forall_forall. split; intros H x I; apply is_digit_iff; auto.
Qed.
Lemma chomp_spec l : exists e, l = chomp l ++ e /\ (e = [] \/ e = [10]) /\ (e = [] -> forall r, l <> r ++ [10]).
Proof.
  unfold chomp. destruct (rev l) as [|c r] eqn:R.
  - exists []. rewrite app_nil_r. split; [reflexivity|]. split; [auto|]. intros _ r E. subst l. rewrite rev_unit in R. discriminate.
  - assert (L : l = rev r ++ [c]) by (rewrite <- (rev_involutive l), R; reflexivity).
    destruct (N.eq_dec c 10) as [->|N].
    + exists [10]. split; [exact L|]. split; [auto|discriminate].
    + exists []. assert (E : match c :: r with 10 :: r' => rev r' | _ => l end = l).
      { destruct c as [|p]; [reflexivity|]. do 4 (try (destruct p as [p|p|]; try reflexivity)). now destruct N. }
      rewrite E, app_nil_r. split; [reflexivity|]. split; [auto|]. intros _ r' Q. rewrite L in Q. apply app_inj_tail in Q as [_ Q]. contradiction.
Qed.
Lemma chomp_app l e : (forall r, l <> r ++ [10]) -> e = [] \/ e = [10] -> chomp (l ++ e) = l.
Proof.
  intros H [-> | ->].
  - rewrite app_nil_r. destruct (chomp_spec l) as (e & E & [-> | ->] & _); [now rewrite app_nil_r in E|]. now destruct (H (chomp l)).
  - unfold chomp. rewrite rev_unit. apply rev_involutive.
Qed.
Lemma skip_digits_spec l : exists ds, l = ds ++ skip_digits l /\ Forall Digital ds /\ (forall c r, skip_digits l = c :: r -> ~ Digital c).
Proof.
  induction l as [|c r (a & E & F & K)]; [exists []; repeat split; [constructor|discriminate]|]. cbn [skip_digits]. destruct (is_digit c) eqn:S1.
  - exists (c :: a). split; [cbn; now rewrite E at 1|]. split; [constructor; [now apply is_digit_iff|exact F]|exact K].
  - exists []. split; [reflexivity|]. split; [constructor|]. intros c' r' [= <- <-]. rewrite <- is_digit_iff, S1. discriminate.
Qed.
Lemma skip_digits_app ds l : Forall Digital ds -> (forall c r, l = c :: r -> ~ Digital c) -> skip_digits (ds ++ l) = l.
Proof.
  induction 1 as [|c a H _ IH]; intros K.
  - destruct l as [|c r]; [reflexivity|]. cbn. destruct (is_digit c) eqn:E; [|reflexivity]. apply is_digit_iff in E. now destruct (K c r).
  - cbn. apply is_digit_iff in H. rewrite H. now apply IH.
Qed.
Lemma digital_facts c : Digital c -> c <> 46 /\ c <> 10 /\ c <> 45.
Proof. intros [d D]. destruct (digit_facts c d D) as (_ & _ & H1 & _ & H2 & _ & H3 & _). auto. Qed.
Lemma digits_end ds : Forall Digital ds -> forall r, ds <> r ++ [10].
Proof.
  intros F r ->. apply Forall_app in F as [_ F]. inversion F as [|? ? K]; subst. now apply digital_facts in K as (_ & K & _).
Qed.
Lemma negative_iff v : negative_number v = true <-> Looks_negative v.
Proof.
  unfold negative_number. split.
  - destruct (chomp_spec v) as (e & E & He & _). set (l := chomp v) in *. clearbody l. subst v.
    destruct l as [|x l]; [discriminate|]. destruct x as [|p]; [discriminate|]. do 6 (try (destruct p as [p|p|]; try discriminate)). destruct l as [|c r]; [discriminate|].
    destruct (forallb is_digit (c :: r)) eqn:F.
    + intros _. exists (c :: r), e. split; [exact He|]. left. split; [reflexivity|]. split; [discriminate|]. now apply forallb_digital.
    + destruct (skip_digits_spec (c :: r)) as (ds & Q & FD & K). destruct (skip_digits (c :: r)) as [|x t]; [discriminate|].
      destruct x as [|p]; [discriminate|]. do 6 (try (destruct p as [p|p|]; try discriminate)). destruct t as [|d t]; [discriminate|]. intros H. apply forallb_digital in H.
      exists ds, e. split; [exact He|]. right. exists (d :: t). rewrite Q. split; [|repeat split; auto; discriminate]. cbn [app]. rewrite <- app_assoc. reflexivity.
  - intros (ds & e & He & [(-> & N & F)|(ds' & -> & N & F & F')]).
    + change (45 :: ds ++ e) with ((45 :: ds) ++ e). rewrite chomp_app; [|intros r Q; destruct r as [|y r]; [injection Q as Q; discriminate|]; injection Q as <- Q; now apply digits_end in Q|exact He].
      destruct ds as [|c r]; [now destruct N|]. apply forallb_digital in F. now rewrite F.
    + replace (45 :: ds ++ 46 :: ds' ++ e) with ((45 :: ds ++ 46 :: ds') ++ e) by (cbn; now rewrite <- app_assoc).
      rewrite chomp_app; [| |exact He].
      * assert (D46 : ~ Digital 46) by (intros K; apply digital_facts in K; tauto).
        assert (K : forall q, match ds ++ 46 :: ds' with [] => false | c :: r => if forallb is_digit (c :: r) then true else q (c :: r) end = q (ds ++ 46 :: ds')).
        { intros q. destruct (ds ++ 46 :: ds') as [|c r] eqn:Q; [now destruct ds|]. destruct (forallb is_digit (c :: r)) eqn:FB; [|reflexivity]. rewrite <- Q in FB. apply forallb_digital, Forall_app in FB as [_ FB]. inversion FB; contradiction. }
        change (match ds ++ 46 :: ds' with [] => false | c :: r => if forallb is_digit (c :: r) then true else (fun l => match skip_digits l with 46 :: d :: r0 => forallb is_digit (d :: r0) | _ => false end) (c :: r) end = true).
        rewrite K, skip_digits_app; [|exact F|intros c r [= <- <-]; exact D46]. destruct ds' as [|c r]; [now destruct N|]. now apply forallb_digital.
      * intros r Q. destruct r as [|y r]; [injection Q as Q; destruct ds; discriminate|]. injection Q as <- Q.
        assert (E : exists r', ds' = r' ++ [10]).
        { clear - Q N F. revert r Q. induction ds as [|x ds IH]; intros r Q.
          - destruct r as [|z r]; [injection Q as Q; subst; discriminate|]. injection Q as <- Q. now exists r.
          - destruct r as [|z r]; [injection Q as Q; destruct ds; discriminate|]. injection Q as <- Q. inversion F; subst. eapply IH; eauto. }
        destruct E as [r' E]. now apply digits_end in E.
Qed.
