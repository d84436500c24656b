From Coq Require Import List NArith ZArith Bool Lia Arith Sorting.Sorted Sorting.Permutation.
From Verif.Model Require Import Base Ansi Color Presets.
From Verif.Spec Require Import Palette.
From Verif.Proof Require Import ColorFacts.
Import ListNotations.
Local Open Scope Z_scope.

(** all numbers of an interval *)
Lemma in_range a n x : In x (map (fun k => a + Z.of_nat k) (seq 0 n)) <-> a <= x < a + Z.of_nat n.
Proof.
  rewrite in_map_iff. setoid_rewrite in_seq. split.
  - intros (k & <- & H). lia.
  - intros H. exists (Z.to_nat (x - a)). lia.
Qed.

Lemma presets256_eq : presets256 = map (fun n => c256 (xterm n) n) (map (fun k => 16 + Z.of_nat k) (seq 0 240)).
Proof. vm_compute. reflexivity. Qed.
Lemma presets16_eq : presets16 =
  map (fun n => c16 (basic n) (if n <? 8 then 30 + n else 82 + n) (if n <? 8 then 40 + n else 92 + n))
      (map (fun k => 0 + Z.of_nat k) (seq 0 16)).
Proof. vm_compute. reflexivity. Qed.

Lemma presets256_spec c : In c presets256 <-> exists n, 16 <= n <= 255 /\ c = c256 (xterm n) n.
Proof.
  rewrite presets256_eq, in_map_iff. setoid_rewrite in_range. split.
  - intros (n & <- & H). exists n. split; [lia|reflexivity].
  - intros (n & H & ->). exists n. split; [reflexivity|lia].
Qed.
Lemma presets16_spec c : In c presets16 <-> exists n, 0 <= n <= 15 /\
  c = c16 (basic n) (if n <? 8 then 30 + n else 82 + n) (if n <? 8 then 40 + n else 92 + n).
Proof.
  rewrite presets16_eq, in_map_iff. setoid_rewrite in_range. split.
  - intros (n & <- & H). exists n. split; [lia|reflexivity].
  - intros (n & H & ->). exists n. split; [reflexivity|lia].
Qed.

Lemma forall_range a n (P : Z -> bool) : forallb P (map (fun k => a + Z.of_nat k) (seq 0 n)) = true ->
  forall x, a <= x < a + Z.of_nat n -> P x = true.
Proof. intros H x Hx. rewrite forallb_forall in H. apply H. now apply in_range. Qed.

Lemma xterm_range n : 16 <= n <= 255 -> color24 (xterm n).
Proof.
  intros H. assert (B := forall_range 16 240 (fun n => (0 <=? xterm n) && (xterm n <? 16777216)) eq_refl n).
  cbn [Z.of_nat] in B. specialize (B ltac:(lia)). apply andb_prop in B as [B1 B2].
  apply Z.leb_le in B1. apply Z.ltb_lt in B2. split; assumption.
Qed.
Lemma basic_range n : 0 <= n <= 15 -> color24 (basic n).
Proof.
  intros H. assert (B := forall_range 0 16 (fun n => (0 <=? basic n) && (basic n <? 16777216)) eq_refl n).
  cbn [Z.of_nat] in B. specialize (B ltac:(lia)). apply andb_prop in B as [B1 B2].
  apply Z.leb_le in B1. apply Z.ltb_lt in B2. split; assumption.
Qed.

Lemma after_registers cs a : after (map Register cs) a = fold_left add_to_map cs a.
Proof. revert a. induction cs; intros; cbn; auto. Qed.

Lemma nodup_range a n : NoDup (map (fun k => a + Z.of_nat k) (seq 0 n)).
Proof. apply FinFun.Injective_map_NoDup; [intros x y; lia|apply seq_NoDup]. Qed.

(** values of different numbers differ *)
Lemma nodup_bool (l : list Z) : (fix nd l := match l with [] => true | x :: t => negb (existsb (Z.eqb x) t) && nd t end) l = true -> NoDup l.
Proof.
  induction l as [|x t IH]; intros H; [constructor|].
  apply andb_prop in H as [H1 H2]. constructor; [|auto]. intros I. apply negb_true_iff in H1.
  assert (E : existsb (Z.eqb x) t = true) by (apply existsb_exists; exists x; split; [assumption|apply Z.eqb_refl]). congruence.
Qed.
Lemma xterm_nodup : NoDup (map xterm (map (fun k => 16 + Z.of_nat k) (seq 0 240))).
Proof. apply nodup_bool. vm_compute. reflexivity. Qed.
Lemma basic_nodup : NoDup (map basic (map (fun k => 0 + Z.of_nat k) (seq 0 16))).
Proof. apply nodup_bool. vm_compute. reflexivity. Qed.

Lemma nodup_map_inj {A B} (f : A -> B) l x y : NoDup (map f l) -> In x l -> In y l -> f x = f y -> x = y.
Proof.
  induction l as [|z l IH]; intros N X Y E; [contradiction|]. cbn in N. inversion N as [|? ? NI N']; subst.
  destruct X as [->|X], Y as [->|Y]; auto.
  - elim NI. rewrite E. now apply in_map.
  - elim NI. rewrite <- E. now apply in_map.
Qed.
Lemma xterm_inj n m : 16 <= n <= 255 -> 16 <= m <= 255 -> xterm n = xterm m -> n = m.
Proof. intros. eapply nodup_map_inj; [exact xterm_nodup|apply in_range; lia|apply in_range; lia|assumption]. Qed.
Lemma basic_inj n m : 0 <= n <= 15 -> 0 <= m <= 15 -> basic n = basic m -> n = m.
Proof. intros. eapply nodup_map_inj; [exact basic_nodup|apply in_range; lia|apply in_range; lia|assumption]. Qed.

(** Which colors are known after registrations of presets and any lookups *)
Lemma known_registered evs n h c : KnownAt evs n h c -> In (Register c) evs /\ hex_value c = Some h.
Proof. intros (H & V & _). split; [eapply nth_error_In; exact H|exact V]. Qed.
Lemma registered_known evs c h : In (Register c) evs -> hex_value c = Some h -> exists n c', KnownAt evs n h c'.
Proof. intros H V. apply In_nth_error in H as [m H]. eapply first_known; eauto. Qed.

Definition history cs hs := map Register cs ++ looked_up hs.
Lemma in_history cs hs c : In (Register c) (history cs hs) <-> In c cs.
Proof.
  unfold history, looked_up. rewrite in_app_iff, !in_map_iff. split.
  - intros [(x & [= ->] & H)|(x & E & _)]; [assumption|discriminate].
  - intros H. left. eauto.
Qed.
Lemma history_state cs hs : after (history cs hs) approx_init = after (looked_up hs) (fold_left add_to_map cs approx_init).
Proof. unfold history. now rewrite after_app, after_registers. Qed.

Lemma closest256 hs h :
  exists n, 16 <= n <= 255 /\
    fst (find_closest (after (looked_up hs) table256) h) = Ok (c256 (xterm n) n) /\
    forall m, 16 <= m <= 255 ->
      sq_distance h (xterm n) <= sq_distance h (xterm m) /\
      (m < n -> sq_distance h (xterm n) < sq_distance h (xterm m)).
Proof.
  unfold table256. rewrite <- history_state.
  assert (R : registered_in_range (history presets256 hs)).
  { intros c k I V. apply in_history, presets256_spec in I as (n & N & ->). cbn in V. injection V as <-. now apply xterm_range. }
  pose proof (nearest (history presets256 hs) h R) as H.
  destruct (fst (find_closest (after (history presets256 hs) approx_init) h)) as [c|]; [|contradiction].
  assert (KN : forall m, 16 <= m <= 255 -> KnownAt (history presets256 hs) (Z.to_nat (m - 16)) (xterm m) (c256 (xterm m) m)).
  { intros m M. assert (NT : forall j, (j < 240)%nat -> nth_error (history presets256 hs) j = Some (Register (c256 (xterm (16 + Z.of_nat j)) (16 + Z.of_nat j)))).
    { intros j J. unfold history. rewrite nth_error_app1 by (rewrite map_length, presets256_eq, !map_length, seq_length; lia).
      rewrite presets256_eq. apply map_nth_error. apply (map_nth_error (fun n => c256 (xterm n) n)).
      apply (map_nth_error (fun k => 16 + Z.of_nat k)). rewrite nth_error_nth' with (d := 0%nat) by (rewrite seq_length; lia).
      now rewrite seq_nth by lia. }
    split; [|split; [reflexivity|]].
    - rewrite NT by lia. repeat f_equal; lia.
    - intros j c' J E V. rewrite NT in E by lia. assert (V2 : xterm (16 + Z.of_nat j) = xterm m) by (inversion E; subst c'; exact (f_equal (fun o => match o with Some z => z | None => 0 end) V)). apply xterm_inj in V2; lia. }
  destruct H as [[_ H]|(j & k & K & H)].
  { exfalso. apply (H _ _ _ (KN 16 ltac:(lia))). }
  destruct (known_registered _ _ _ _ K) as [I V]. apply in_history, presets256_spec in I as (n & N & ->).
  cbn in V. injection V as <-. exists n. split; [lia|]. split; [reflexivity|].
  intros m M. specialize (H _ _ _ (KN m M)). split; [tauto|]. intros L. apply H.
  destruct (Nat.lt_trichotomy j (Z.to_nat (n - 16))) as [A|[A|A]].
  - exfalso. destruct (KN n N) as (_ & _ & F). destruct K as (K1 & K2 & _). apply (F _ _ A K1 K2).
  - lia.
  - lia.
Qed.

Lemma closest16 hs h :
  exists n, 0 <= n <= 15 /\
    fst (find_closest (after (looked_up hs) table16) h)
      = Ok (c16 (basic n) (if n <? 8 then 30 + n else 82 + n) (if n <? 8 then 40 + n else 92 + n)) /\
    forall m, 0 <= m <= 15 -> sq_distance h (basic n) <= sq_distance h (basic m).
Proof.
  unfold table16. rewrite <- history_state.
  assert (R : registered_in_range (history presets16 hs)).
  { intros c k I V. apply in_history, presets16_spec in I as (n & N & ->). cbn in V. injection V as <-. now apply basic_range. }
  pose proof (nearest (history presets16 hs) h R) as H.
  destruct (fst (find_closest (after (history presets16 hs) approx_init) h)) as [c|]; [|contradiction].
  assert (KN : forall m, 0 <= m <= 15 -> exists j c', KnownAt (history presets16 hs) j (basic m) c').
  { intros m M. eapply registered_known; [apply in_history, presets16_spec; eauto|reflexivity]. }
  destruct H as [[_ H]|(j & k & K & H)].
  { exfalso. destruct (KN 0 ltac:(lia)) as (j & c' & K). apply (H _ _ _ K). }
  destruct (known_registered _ _ _ _ K) as [I V]. apply in_history, presets16_spec in I as (n & N & ->).
  cbn in V. injection V as <-. exists n. split; [lia|]. split; [reflexivity|].
  intros m M. destruct (KN m M) as (j' & c' & K'). apply (H _ _ _ K').
Qed.

Lemma insert_closer h (x : nat * (Z * pcolor)) (l : list ((nat * (Z * pcolor)) * Z)) :
  Forall (fun y => snd y = sq_distance h (fst (snd (fst y)))) l ->
  Forall (fun y => (fst x < fst (fst y))%nat) l ->
  StronglySorted (fun a b => closer h (fst a) (fst b)) l ->
  StronglySorted (fun a b => closer h (fst a) (fst b)) (insert_by (x, sq_distance h (fst (snd x))) l).
Proof.
  induction l as [|y l IH]; intros D L S; cbn [insert_by].
  - constructor; constructor.
  - inversion D as [|? ? Dy D']; subst. inversion L as [|? ? Ly L']; subst. inversion S as [|? ? S' F]; subst.
    cbn [snd]. rewrite Dy. destruct (Z.leb_spec (sq_distance h (fst (snd x))) (sq_distance h (fst (snd (fst y))))) as [E|E].
    + constructor; [assumption|]. constructor.
      * unfold closer. cbn [fst snd]. destruct (Z.lt_trichotomy (sq_distance h (fst (snd x))) (sq_distance h (fst (snd (fst y))))); [left; assumption|right; lia].
      * rewrite Forall_forall in *. intros z Z. specialize (F z Z). specialize (L' z Z). unfold closer in *. cbn [fst snd] in *.
        destruct F as [F|[F G]]; [left; lia|].
        destruct (Z.lt_trichotomy (sq_distance h (fst (snd x))) (sq_distance h (fst (snd (fst y))))); [left; lia|right; lia].
    + constructor; [apply IH; assumption|].
      assert (P : Permutation ((x, sq_distance h (fst (snd x))) :: l) (insert_by (x, sq_distance h (fst (snd x))) l)) by apply insert_perm.
      eapply Permutation_Forall; [exact P|]. constructor; [left; exact E|exact F].
Qed.
Lemma sort_closer h (tags : list (nat * (Z * pcolor))) :
  StronglySorted (fun x y => (fst x < fst y)%nat) tags ->
  StronglySorted (fun a b => closer h (fst a) (fst b)) (sort_by (map (fun t => (t, sq_distance h (fst (snd t)))) tags)).
Proof.
  induction tags as [|x tags IH]; intros S; cbn [map sort_by]; [constructor|].
  inversion S as [|? ? S' F]; subst.
  assert (P := sort_perm _ (map (fun t => (t, sq_distance h (fst (snd t)))) tags)).
  apply insert_closer; [| |apply IH; assumption].
  - eapply Permutation_Forall; [exact P|]. apply Forall_map. apply Forall_forall. reflexivity.
  - eapply Permutation_Forall; [exact P|]. apply Forall_map. exact F.
Qed.

Lemma approximate_nearest evs h k : 0 <= k ->
  exists order : list (nat * (Z * pcolor)),
    StronglySorted (closer h) order /\
    (forall n v c, In (n, (v, c)) order <-> KnownAt evs n v c) /\
    approximate (after evs approx_init) h k =
      match order with [] => Err LogicError | _ => Ok (map (fun x => snd (snd x)) (firstn (Z.to_nat k) order)) end.
Proof.
  intros K. destruct (table_listed evs) as (tags & Et & Hs & Hin).
  set (S := sort_by (map (fun t => (t, sq_distance h (fst (snd t)))) tags)).
  assert (P : Permutation (map (fun t => (t, sq_distance h (fst (snd t)))) tags) S) by apply sort_perm.
  exists (map fst S). split; [|split].
  - pose proof (sort_closer h tags Hs) as SC. fold S in SC. clear - SC. induction SC; cbn; constructor; auto. now apply Forall_map.
  - intros n v c. rewrite <- Hin. split; intros H.
    + apply in_map_iff in H as ([t d] & E & H). cbn in E. subst t. eapply Permutation_in in H; [|apply Permutation_sym, P].
      apply in_map_iff in H as (t & E & H). injection E as <- _. exact H.
    + apply in_map_iff. exists ((n, (v, c)), sq_distance h v). split; [reflexivity|]. eapply Permutation_in; [exact P|].
      apply in_map_iff. exists (n, (v, c)). auto.
  - destruct tags as [|t0 tags'] eqn:T.
    + unfold S. cbn. unfold approximate. rewrite Et. reflexivity.
    + rewrite approximate_eq by (rewrite Et; discriminate).
      assert (E : map (fun p => (snd p, distance_sq h (fst p))) (ap_lookup (after evs approx_init))
                  = map (fun p => (snd (snd (fst p)), snd p)) (map (fun t => (t, sq_distance h (fst (snd t)))) (t0 :: tags'))).
      { rewrite Et, !map_map. apply map_ext. intros [n [v c]]. cbn [fst snd]. now rewrite distance_spec. }
      rewrite E. rewrite (sort_map _ _ (fun t : nat * (Z * pcolor) => snd (snd t))). fold S.
      unfold py_take. destruct (Z.ltb_spec k 0); [lia|].
      rewrite firstn_map, !map_map. cbn [fst].
      destruct (map fst S) as [|o order] eqn:M.
      * apply map_eq_nil in M. rewrite M in P. apply Permutation_sym, Permutation_nil in P. discriminate.
      * rewrite <- M, firstn_map, map_map. reflexivity.
Qed.
