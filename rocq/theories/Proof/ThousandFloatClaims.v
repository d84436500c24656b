(** Floats with groups of digits *)
From Coq Require Import List Arith NArith ZArith QArith Qabs Qround Qpower Qfield Bool Lia Lqa.
From Verif.Model Require Import Base Filters ThousandFloat TimeFloat.
From Verif.Spec Require Import Numbers Filtered Doubles DecimalText.
From Verif.Proof Require Import BaseFacts FilterClaims RoundFacts ReprClaims.
Import ListNotations.
Local Open Scope Q_scope.

(** ** digits *)
Lemma value_acc ds a : fold_left (fun a d => (a * 10 + Z.of_N d)%Z) ds a = (a * 10 ^ Z.of_nat (length ds) + whole_number ds)%Z.
Proof.
  unfold whole_number. revert a. induction ds as [|d ds IH]; intros a; [cbn; lia|]. cbn [fold_left length]. rewrite IH, (IH (0 * 10 + Z.of_N d)%Z).
  rewrite Nat2Z.inj_succ, Z.pow_succ_r by lia. lia.
Qed.
Lemma value_app a b : whole_number (a ++ b) = (whole_number a * 10 ^ Z.of_nat (length b) + whole_number b)%Z.
Proof. unfold whole_number at 1. rewrite fold_left_app. apply value_acc. Qed.
Lemma value_cons d ds : whole_number (d :: ds) = (Z.of_N d * 10 ^ Z.of_nat (length ds) + whole_number ds)%Z.
Proof. change (d :: ds) with ([d] ++ ds). rewrite value_app. unfold whole_number at 1. cbn [fold_left]. lia. Qed.
Lemma value_zeros n : whole_number (repeat 0%N n) = 0%Z.
Proof. induction n as [|n IH]; [reflexivity|]. cbn [repeat]. rewrite value_cons, IH. lia. Qed.
Lemma value_bounds ds : Forall (fun d => (d <= 9)%N) ds -> (0 <= whole_number ds < 10 ^ Z.of_nat (length ds))%Z.
Proof.
  induction 1 as [|d ds H _ IH]; [cbn; lia|]. rewrite value_cons. cbn [length]. rewrite Nat2Z.inj_succ, Z.pow_succ_r by lia. nia.
Qed.
Lemma value_low ds : digital ds -> hd 0%N ds <> 0%N -> (10 ^ (Z.of_nat (length ds) - 1) <= whole_number ds)%Z.
Proof.
  intros [E H] N. destruct H as [|d ds H0 H]; [easy|]. cbn [hd] in N. rewrite value_cons. cbn [length].
  replace (Z.of_nat (S (length ds)) - 1)%Z with (Z.of_nat (length ds)) by lia. pose proof (value_bounds ds H). nia.
Qed.
Lemma ten_pos e : 0 < ten e.
Proof. unfold ten. apply Qpower_0_lt. reflexivity. Qed.
Lemma ten_add a b : ten (a + b) == ten a * ten b.
Proof. unfold ten. apply Qpower_plus. discriminate. Qed.
Lemma ten_Z e : (0 <= e)%Z -> ten e == inject_Z (10 ^ e).
Proof. intros H. unfold ten. change (10 # 1) with (inject_Z 10). symmetry. now apply Zpower_Qpower. Qed.
Lemma ten_le a b : (a <= b)%Z -> ten a <= ten b.
Proof. intros H. unfold ten. apply Qpower_le_compat_l; [exact H|discriminate]. Qed.
Lemma inject_lt a b : (a < b)%Z -> inject_Z a < inject_Z b.
Proof. now rewrite <- Zlt_Qlt. Qed.
Lemma inject_le a b : (a <= b)%Z -> inject_Z a <= inject_Z b.
Proof. now rewrite <- Zle_Qle. Qed.

(** the range that the position of the point tells *)
Lemma denoted_range ds p : digital ds -> hd 0%N ds <> 0%N -> ten (p - 1) <= denoted ds p /\ denoted ds p < ten p.
Proof.
  intros D H. pose proof (value_low ds D H) as L. destruct D as [E D]. pose proof (value_bounds ds D) as U.
  set (n := Z.of_nat (length ds)) in *. assert (1 <= n)%Z by (subst n; destruct ds; [easy|cbn [length]; lia]).
  unfold denoted. fold n. split.
  - setoid_replace (ten (p - 1)) with (ten (n - 1) * ten (p - n)) by (rewrite <- ten_add; replace (n - 1 + (p - n))%Z with (p - 1)%Z by lia; reflexivity).
    apply Qmult_le_compat_r; [|apply Qlt_le_weak, ten_pos]. rewrite ten_Z by lia. now apply inject_le.
  - setoid_replace (ten p) with (ten n * ten (p - n)) by (rewrite <- ten_add; replace (n + (p - n))%Z with p by lia; reflexivity).
    apply Qmult_lt_compat_r; [apply ten_pos|]. rewrite ten_Z by lia. apply inject_lt. lia.
Qed.

(** ** the text *)
Lemma number_value ds : whole_number ds = Z.of_N (num_value 10 ds).
Proof.
  unfold whole_number, num_value. change 0%Z with (Z.of_N 0). generalize 0%N as a. induction ds as [|d ds IH]; intros a; [reflexivity|].
  cbn [fold_left]. rewrite <- IH. f_equal. lia.
Qed.
Lemma dec_text n : exists e, dec n = chars_of e /\ digital e /\ whole_number e = Z.of_N n.
Proof.
  exists (digits 10 n). split; [reflexivity|]. split; [split|].
  - apply digits_nonempty. lia.
  - eapply Forall_impl; [|apply (digits_bound 10 n); lia]. cbn. lia.
  - rewrite number_value. f_equal. apply digits_value. lia.
Qed.
Lemma exponent_shown e : exists sg t, exponent_text e = sg :: chars_of t /\ digital t /\ (2 <= length t)%nat /\
  ((sg = 43%N /\ e = whole_number t) \/ (sg = 45%N /\ e = (- whole_number t)%Z)).
Proof.
  unfold exponent_text. destruct (dec_text (Z.to_N (Z.abs e))) as (t & -> & D & V).
  assert (K : exists t', (if (length (chars_of t) <? 2)%nat then 48%N :: chars_of t else chars_of t) = chars_of t' /\ digital t' /\ (2 <= length t')%nat /\ whole_number t' = Z.abs e).
  { unfold chars_of. rewrite map_length. destruct D as [D1 D2]. destruct (Nat.ltb_spec (length t) 2) as [L|L].
    - exists (0%N :: t). split; [reflexivity|]. split; [split; [discriminate|constructor; [lia|exact D2]]|]. split; [destruct t; [easy|cbn; lia]|].
      rewrite value_cons. lia.
    - exists t. split; [reflexivity|]. split; [now split|]. split; [exact L|]. lia. }
  destruct K as (t' & -> & D' & L & V'). destruct (Z.ltb_spec e 0).
  - exists 45%N, t'. split; [reflexivity|]. split; [exact D'|]. split; [exact L|]. right. split; [reflexivity|lia].
  - exists 43%N, t'. split; [reflexivity|]. split; [exact D'|]. split; [exact L|]. left. split; [reflexivity|lia].
Qed.
Lemma map_zeros n : map (fun d => 48 + d)%N (repeat 0%N n) = repeat 48%N n.
Proof. induction n as [|n IH]; [reflexivity|]. cbn [repeat map]. now rewrite IH. Qed.
Lemma digital_app a b : digital a -> Forall (fun d => (d <= 9)%N) b -> digital (a ++ b).
Proof. intros [E H] K. split; [destruct a; [easy|discriminate]|]. apply Forall_app. now split. Qed.
Lemma zeros_digits n : Forall (fun d => (d <= 9)%N) (repeat 0%N n).
Proof. apply Forall_forall. intros c H. apply repeat_spec in H. subst. lia. Qed.

Definition far (p : Z) : bool := ((p <=? -4) || (16 <? p))%Z.
Lemma parts_read ds p : digital ds -> hd 0%N ds <> 0%N ->
  exists i, fst (float_parts ds p) = chars_of i /\
    if far p then Scientific i (snd (float_parts ds p)) (denoted ds p) else Plain i (snd (float_parts ds p)) (denoted ds p).
Proof.
  intros [E D] H. unfold float_parts, denoted. fold (far p). change (map digit_char ds) with (chars_of ds). destruct (far p) eqn:F; cbn [fst snd].
  - destruct ds as [|d f]; [easy|]. cbn [hd] in H. inversion D as [|? ? D1 D2]; subst. exists [d]. split; [reflexivity|].
    destruct (exponent_shown (p - 1)) as (sg & t & -> & Dt & Lt & Sg). exists f, sg, t, (p - 1)%Z.
    split; [reflexivity|]. split; [split; [split; [discriminate|now constructor]|now right]|]. split; [exact D2|]. split; [exact Dt|]. split; [exact Lt|].
    split; [exact Sg|]. split.
    + destruct f as [|f0 f]; [reflexivity|]. replace (1 <? Z.of_nat (length (d :: f0 :: f)))%Z with true by (symmetry; apply Z.ltb_lt; cbn [length]; lia). reflexivity.
    + rewrite value_cons. cbn [length]. rewrite inject_Z_plus, inject_Z_mult, <- ten_Z by lia.
      change (whole_number [d]) with (0 * 10 + Z.of_N d)%Z. replace (0 * 10 + Z.of_N d)%Z with (Z.of_N d) by lia.
      set (m := Z.of_nat (length f)). replace (p - Z.of_nat (S (length f)))%Z with (- m + (p - 1))%Z by lia. rewrite ten_add.
      assert (K : ten m * ten (- m) == 1) by (rewrite <- ten_add; now replace (m + - m)%Z with 0%Z by lia).
      setoid_replace ((inject_Z (Z.of_N d) * ten m + inject_Z (whole_number f)) * (ten (- m) * ten (p - 1))) with
        ((inject_Z (Z.of_N d) * (ten m * ten (- m)) + inject_Z (whole_number f) * ten (- m)) * ten (p - 1)) by ring. rewrite K. ring.
  - destruct (Z.leb_spec p 0) as [P|P].
    { exists [0%N]. split; [reflexivity|]. exists (repeat 0%N (Z.to_nat (- p)) ++ ds). split; [split; [split; [discriminate|repeat constructor; lia]|now left]|].
      split; [split; [destruct ds; [easy|]; destruct (repeat 0%N _); discriminate|apply Forall_app; split; [apply zeros_digits|exact D]]|].
      split; [cbn [snd]; unfold chars_of; rewrite map_app, map_zeros; reflexivity|].
      rewrite value_app, value_zeros. change (whole_number [0%N]) with 0%Z. rewrite app_length, repeat_length, Z.mul_0_l, Z.add_0_l.
      replace (- Z.of_nat (Z.to_nat (- p) + length ds))%Z with (p - Z.of_nat (length ds))%Z by lia. ring. }
    destruct (Z.ltb_spec p (Z.of_nat (length ds))) as [L|L]; cbn [fst snd].
    + set (k := Z.to_nat p). exists (firstn k ds). split; [unfold chars_of; apply firstn_map|]. exists (skipn k ds).
      assert (LF : length (firstn k ds) = k) by (rewrite firstn_length; lia). assert (LS : length (skipn k ds) = (length ds - k)%nat) by apply skipn_length.
      pose proof D as D0. rewrite <- (firstn_skipn k ds) in D. apply Forall_app in D as [DF DS].
      split; [split; [split; [intros K; rewrite K in LF; cbn in LF; lia|exact DF]|right; destruct ds as [|d ds]; [easy|]; destruct k eqn:K; [lia|exact H]]|].
      split; [split; [intros K; rewrite K in LS; cbn in LS; lia|exact DS]|]. split; [unfold chars_of; now rewrite skipn_map|].
      rewrite <- (firstn_skipn k ds) at 1. rewrite value_app, LS. rewrite inject_Z_plus, inject_Z_mult, <- ten_Z by lia.
      set (m := Z.of_nat (length ds - k)). replace (p - Z.of_nat (length ds))%Z with (- m)%Z by lia.
      assert (K : ten m * ten (- m) == 1) by (rewrite <- ten_add; now replace (m + - m)%Z with 0%Z by lia).
      setoid_replace ((inject_Z (whole_number (firstn k ds)) * ten m + inject_Z (whole_number (skipn k ds))) * ten (- m)) with
        (inject_Z (whole_number (firstn k ds)) * (ten m * ten (- m)) + inject_Z (whole_number (skipn k ds)) * ten (- m)) by ring. rewrite K. ring.
    + set (k := Z.to_nat (p - Z.of_nat (length ds))). exists (ds ++ repeat 0%N k). split; [unfold chars_of; now rewrite map_app, map_zeros|]. exists [0%N].
      split; [split; [apply digital_app; [now split|apply zeros_digits]|right; destruct ds; [easy|exact H]]|].
      split; [split; [discriminate|repeat constructor; lia]|]. split; [reflexivity|].
      rewrite value_app, value_zeros, repeat_length. change (whole_number [0%N]) with 0%Z. rewrite Z.add_0_r, inject_Z_mult, <- ten_Z by lia.
      replace (Z.of_nat k) with (p - Z.of_nat (length ds))%Z by lia. ring.
Qed.

(** ** with separators *)
Lemma chars_no_under ds : Forall (fun d => (d <= 9)%N) ds -> ~ In 95%N (chars_of ds).
Proof. intros D H. unfold chars_of in H. apply in_map_iff in H as (d & E & H). rewrite Forall_forall in D. apply D in H. lia. Qed.
Lemma replace_none sep s : ~ In 95%N s -> replace_char 95 sep s = s.
Proof.
  induction s as [|c s IH]; intros H; [reflexivity|]. unfold replace_char. cbn [flat_map]. destruct (N.eqb_spec c 95) as [->|_]; [destruct H; now left|].
  cbn [app]. f_equal. apply IH. intros K. apply H. now right.
Qed.
Lemma plain_clean i r q : Plain i r q -> ~ In 95%N r.
Proof. intros (f & _ & [_ F] & -> & _) [K|K]; [discriminate|]. now apply chars_no_under in K. Qed.
Lemma sci_clean i r q : Scientific i r q -> ~ In 95%N r.
Proof.
  intros (f & sg & e & z & _ & _ & F & [_ E] & _ & S & -> & _) K. apply in_app_iff in K as [K|[K|[K|K]]]; [|discriminate| |now apply chars_no_under in K].
  - destruct f; [easy|]. destruct K as [K|K]; [discriminate|]. now apply chars_no_under in K.
  - destruct S as [[-> _]|[-> _]]; discriminate.
Qed.
Definition minus (neg : bool) : list N := if neg then [45%N] else [].
Theorem float_text neg ds p sep : digital ds -> hd 0%N ds <> 0%N ->
  exists i g r, format_thousand_sep_float (Finite neg ds p) sep = minus neg ++ g ++ r /\ whole i /\ Grouped sep (chars_of i) g /\
    if far p then Scientific i r (denoted ds p) else Plain i r (denoted ds p).
Proof.
  intros D H. destruct (parts_read ds p D H) as (i & E & S). unfold format_thousand_sep_float, float_underscore.
  destruct (float_parts ds p) as [i0 r]. cbn [fst snd] in *. subst i0.
  assert (W : whole i) by (destruct (far p); [destruct S as (? & ? & ? & ? & _ & W & _); exact W|destruct S as (? & W & _); exact W]).
  assert (C : ~ In 95%N r) by (destruct (far p); [eapply sci_clean; exact S|eapply plain_clean; exact S]).
  exists i, (replace_char 95 sep (underscored (chars_of i))), r. rewrite !replace_app, (replace_none sep r C). split.
  - f_equal. destruct neg; reflexivity.
  - split; [exact W|]. split; [|exact S]. destruct W as [[W1 W2] _]. apply underscored_grouped; [now apply chars_no_under|]. destruct i; [easy|discriminate].
Qed.

(** ** different numbers, different texts *)
Lemma grouped_back sep i j g : Grouped sep i g -> Grouped sep j g -> i = j.
Proof.
  intros (f & m & -> & Lf & Gm & ->) (f' & m' & -> & Lf' & Gm' & E).
  assert (Len : forall (x : list N) (more : list (list N)), Forall (fun g => length g = 3%nat) more -> length (joined sep (x :: more)) = (length x + length more * (length sep + 3))%nat).
  { intros x more H. revert x. induction H as [|y more Hy H IH]; intros x; [cbn; lia|]. cbn [joined]. rewrite !app_length. specialize (IH y). cbn [joined] in IH. rewrite IH, Hy. cbn [length]. lia. }
  assert (M : length m = length m').
  { pose proof (f_equal (@length N) E) as K. rewrite !Len in K by assumption. destruct (lt_eq_lt_dec (length m) (length m')) as [[L|L]|L]; [exfalso|exact L|exfalso]; nia. }
  assert (F : length f = length f').
  { pose proof (f_equal (@length N) E) as K. rewrite !Len in K by assumption. rewrite M in K. lia. }
  clear Lf Lf'. revert f f' m' F Gm' M E. induction Gm as [|y m Hy Gm IH]; intros f f' [|y' m'] F Gm' M E; cbn [length] in M; try discriminate M.
  - cbn [joined] in E. cbn [concat]. now rewrite E.
  - cbn [joined] in E. inversion Gm' as [|? ? Hy' Gm'']; subst.
    assert (K : f = f' /\ joined sep (y :: m) = joined sep (y' :: m')).
    { assert (P : forall (a b c d : list N), length a = length b -> a ++ c = b ++ d -> a = b /\ c = d).
      { induction a as [|z a IHa]; intros [|z' b] c d Hab Q; cbn in Hab, Q; try discriminate Hab; [auto|]. injection Q as -> Q. destruct (IHa b c d ltac:(lia) Q) as [-> ->]. auto. }
      apply P in E as [E1 E2]; [|exact F]. apply app_inv_head in E2. now split. }
    destruct K as [-> K]. cbn [concat]. f_equal. apply (IH y y' m' ltac:(congruence) Gm'' ltac:(lia)). exact K.
Qed.
Lemma chars_inj a b : chars_of a = chars_of b -> a = b.
Proof. unfold chars_of. revert b. induction a as [|x a IH]; intros [|y b] E; cbn in E; try discriminate E; [reflexivity|]. injection E as E1 E2. f_equal; [lia|auto]. Qed.
Lemma chars_free c ds : (c < 48 \/ 57 < c)%N -> Forall (fun d => (d <= 9)%N) ds -> Forall (fun d => d <> c) (chars_of ds).
Proof. intros H D. unfold chars_of. apply Forall_map. eapply Forall_impl; [|exact D]. cbn. lia. Qed.
(** the last point *)
Lemma last_point (c : N) a b x y : Forall (fun d => d <> c) x -> Forall (fun d => d <> c) y -> a ++ c :: x = b ++ c :: y -> a = b /\ x = y.
Proof.
  intros X Y E. apply (f_equal (@rev N)) in E. rewrite !rev_app_distr in E. cbn [rev] in E. rewrite <- !app_assoc in E. cbn [app] in E.
  apply until_sep in E as [E1 E2]; [|now apply Forall_rev|now apply Forall_rev]. apply (f_equal (@rev N)) in E1, E2. now rewrite !rev_involutive in E1, E2.
Qed.
Lemma grouped_head sep i g : Forall (fun d => (d <= 9)%N) i -> Grouped sep (chars_of i) g -> exists c t, g = c :: t /\ c <> 45%N.
Proof.
  intros D (f & m & E & L & _ & ->). destruct f as [|c f]; [cbn in L; lia|]. exists c. destruct i as [|d i]; [discriminate|]. cbn in E. injection E as E _.
  inversion D; subst. destruct m; eexists; (split; [reflexivity|lia]).
Qed.
Lemma sci_rest_free f sg e : Forall (fun d => (d <= 9)%N) f -> (sg = 43%N \/ sg = 45%N) -> Forall (fun d => (d <= 9)%N) e -> Forall (fun d => d <> 46%N) (chars_of f ++ 101%N :: sg :: chars_of e).
Proof.
  intros F S E. apply Forall_app. split; [apply chars_free; [lia|exact F]|]. constructor; [discriminate|]. constructor; [destruct S as [->| ->]; discriminate|]. apply chars_free; [lia|exact E].
Qed.
Lemma grouped_one sep c g : Grouped sep [c] g -> g = [c].
Proof.
  intros (f & m & E & L & G & ->). destruct f as [|x f]; [cbn in L; lia|]. cbn [app] in E. injection E as <- E. destruct m as [|y m].
  - cbn [concat] in E. rewrite app_nil_r in E. now subst.
  - inversion G as [|? ? Y _]; subst. destruct f; [|discriminate]. destruct y; [discriminate Y|discriminate E].
Qed.
Lemma sci_det i r q q' : Scientific i r q -> Scientific i r q' -> q == q'.
Proof.
  intros (f & sg & e & z & _ & _ & F & _ & _ & S & -> & E) (f' & sg' & e' & z' & _ & _ & F' & _ & _ & S' & R & E').
  assert (U : forall f, Forall (fun d => (d <= 9)%N) f -> Forall (fun d => d <> 101%N) (if f then [] else 46%N :: chars_of f)).
  { intros h H. destruct h as [|x h]; constructor; [discriminate|]. apply chars_free; [lia|exact H]. }
  apply until_sep in R as [R1 R2]; [|now apply U|now apply U]. injection R2 as -> R2. apply chars_inj in R2. subst e'.
  assert (f = f') as <- by (destruct f, f'; [reflexivity|discriminate R1|discriminate R1|injection R1 as R1 R2; f_equal; [lia|now apply chars_inj]]).
  assert (z = z') as <- by (destruct S as [[-> ->]|[-> ->]], S' as [[K ->]|[K ->]]; congruence).
  now rewrite E, E'.
Qed.
Lemma plain_same sep i i' g g' r r' q q' : Grouped sep (chars_of i) g -> Grouped sep (chars_of i') g' -> Plain i r q -> Plain i' r' q' -> g ++ r = g' ++ r' -> q == q'.
Proof.
  intros G G' (f & _ & [_ F] & -> & E) (f' & _ & [_ F'] & -> & E') T.
  apply last_point in T as [-> T]; [|apply chars_free; [lia|exact F]|apply chars_free; [lia|exact F']]. apply chars_inj in T. subst f'.
  pose proof (grouped_back _ _ _ _ G G') as K. apply chars_inj in K. subst i'. now rewrite E, E'.
Qed.
Lemma sci_same sep i i' g g' r r' q q' : Grouped sep (chars_of i) g -> Grouped sep (chars_of i') g' -> Scientific i r q -> Scientific i' r' q' -> g ++ r = g' ++ r' -> q == q'.
Proof.
  intros G G' S S' T. pose proof S as (_ & _ & _ & _ & L & _). pose proof S' as (_ & _ & _ & _ & L' & _).
  destruct i as [|d [|? ?]]; try discriminate L. destruct i' as [|d' [|? ?]]; try discriminate L'.
  apply grouped_one in G, G'. subst g g'. cbn [app] in T. injection T as T1 T2. assert (d = d') as <- by lia. subst r'. eapply sci_det; eassumption.
Qed.
Lemma mixed sep i i' g g' r r' q q' : Grouped sep (chars_of i) g -> Grouped sep (chars_of i') g' -> Plain i r q -> Scientific i' r' q' -> g ++ r = g' ++ r' -> False.
Proof.
  intros _ G' (f & _ & [_ F] & -> & _) (f' & sg & e & z & L & [[_ W] _] & F' & [_ E] & _ & S & -> & _) T.
  assert (SG : sg = 43%N \/ sg = 45%N) by (destruct S as [[-> _]|[-> _]]; auto).
  destruct i' as [|d [|? ?]]; try discriminate L. apply grouped_one in G'. subst g'. inversion W; subst. cbn [app] in T.
  destruct f' as [|x f'].
  - assert (K : Forall (fun c => c <> 46%N) (g ++ 46%N :: chars_of f)).
    { rewrite T. constructor; [lia|]. exact (sci_rest_free [] sg e ltac:(constructor) SG E). }
    apply Forall_app in K as [_ K]. inversion K; subst. congruence.
  - cbn [app] in T. change (48 + d :: 46 :: chars_of (x :: f') ++ 101 :: sg :: chars_of e)%N with ([48 + d] ++ 46 :: (chars_of (x :: f') ++ 101 :: sg :: chars_of e))%N in T.
    apply last_point in T as [_ T]; [|apply chars_free; [lia|exact F]|now apply sci_rest_free].
    pose proof (chars_free 101 f ltac:(lia) F) as K. rewrite T in K. apply Forall_app in K as [_ K]. inversion K; subst. congruence.
Qed.
Lemma nearest_left q q' a : q == q' -> nearest q a -> nearest q' a.
Proof.
  intros E (D & C & T). split; [exact D|]. split; [intros z Z; rewrite <- E; auto|]. intros z Z. rewrite <- E. now apply T.
Qed.
Theorem text_apart neg ds p neg' ds' p' sep a b : Reads a ds p -> Reads b ds' p' ->
  format_thousand_sep_float (Finite neg ds p) sep = format_thousand_sep_float (Finite neg' ds' p') sep -> neg = neg' /\ a == b.
Proof.
  intros (D & H & _ & R) (D' & H' & _ & R') E.
  destruct (float_text neg ds p sep D H) as (i & g & r & E0 & W & G & X). rewrite E0 in E. clear E0.
  destruct (float_text neg' ds' p' sep D' H') as (i' & g' & r' & E0 & W' & G' & X'). rewrite E0 in E. clear E0.
  destruct W as [[_ W] _], W' as [[_ W'] _].
  assert (neg = neg' /\ g ++ r = g' ++ r') as [-> T].
  { destruct (grouped_head _ _ _ W G) as (c & t & -> & Hc). destruct (grouped_head _ _ _ W' G') as (c' & t' & -> & Hc').
    destruct neg, neg'; cbn [minus app] in E; [|injection E as E _; congruence|injection E as E _; congruence|]; (split; [reflexivity|]).
    - now injection E as E1 E2; subst; cbn [app]; f_equal.
    - exact E. }
  split; [reflexivity|].
  assert (Q : denoted ds p == denoted ds' p').
  { destruct (far p), (far p').
    - exact (sci_same _ _ _ _ _ _ _ _ _ G G' X X' T).
    - destruct (mixed _ _ _ _ _ _ _ _ _ G' G X' X (eq_sym T)).
    - destruct (mixed _ _ _ _ _ _ _ _ _ G G' X X' T).
    - exact (plain_same _ _ _ _ _ _ _ _ _ G G' X X' T). }
  apply (nearest_unique (denoted ds' p')); [eapply nearest_left; eassumption|exact R'].
Qed.
