(** Facts about the matcher *)
From Coq Require Import List Arith NArith Bool Lia.
From Verif.Model Require Import Base Regex.
From Verif.Proof Require Import BaseFacts.
Import ListNotations.
Local Open Scope N_scope.

Fixpoint takew (f : N -> bool) (s : list N) : list N :=
  match s with b :: t => if f b then b :: takew f t else [] | [] => [] end.
Fixpoint dropw (f : N -> bool) (s : list N) : list N :=
  match s with b :: t => if f b then dropw f t else s | [] => [] end.

Lemma takew_dropw f s : takew f s ++ dropw f s = s.
Proof. induction s as [|b t IH]; [reflexivity|]. cbn. destruct (f b); cbn; congruence. Qed.
Lemma takew_forall f s : Forall (fun b => f b = true) (takew f s).
Proof. induction s as [|b t IH]; cbn; [constructor|]. destruct (f b) eqn:E; auto. Qed.
Lemma dropw_head f s : match dropw f s with b :: _ => f b = false | [] => True end.
Proof. induction s as [|b t IH]; cbn; [exact I|]. destruct (f b) eqn:E; auto. Qed.
Lemma dropw_length f s : (length (dropw f s) <= length s)%nat.
Proof. induction s as [|b t IH]; cbn; [lia|]. destruct (f b); cbn; lia. Qed.
Lemma takew_app_all f a b : Forall (fun x => f x = true) a -> takew f (a ++ b) = a ++ takew f b.
Proof. induction 1 as [|x a Hx H IH]; [reflexivity|]. cbn. now rewrite Hx, IH. Qed.
Lemma dropw_app_all f a b : Forall (fun x => f x = true) a -> dropw f (a ++ b) = dropw f b.
Proof. induction 1 as [|x a Hx H IH]; [reflexivity|]. cbn. now rewrite Hx, IH. Qed.
Lemma takew_stop f b t : f b = false -> takew f (b :: t) = [].
Proof. intros H. cbn. now rewrite H. Qed.
Lemma dropw_stop f b t : f b = false -> dropw f (b :: t) = b :: t.
Proof. intros H. cbn. now rewrite H. Qed.

Lemma firstn_minus_app {A} (a b : list A) : firstn (length (a ++ b) - length b) (a ++ b) = a.
Proof.
  rewrite app_length. replace (length a + length b - length b)%nat with (length a + 0)%nat by lia.
  rewrite firstn_app_2. cbn. apply app_nil_r.
Qed.

(** greedy repetition: the longest repetition is taken if the continuation accepts there *)
Lemma star_k_greedy {A} c s (k : bytes -> option A) x :
  k (dropw (in_cls c) s) = Some x -> star_k c s k = Some x.
Proof.
  induction s as [|b t IH]; cbn; [auto|]. destruct (in_cls c b); [|auto]. intros H. now rewrite (IH H).
Qed.
(** ... and no shorter one helps if the continuation cannot start with a member of the class *)
Lemma star_k_disjoint {A} c s (k : bytes -> option A) :
  (forall b t, in_cls c b = true -> k (b :: t) = None) -> star_k c s k = k (dropw (in_cls c) s).
Proof.
  intros H. induction s as [|b t IH]; cbn; [reflexivity|].
  destruct (in_cls c b) eqn:E; [|reflexivity]. rewrite IH.
  destruct (k (dropw (in_cls c) t)); [reflexivity|]. now apply H.
Qed.

Lemma re_scan_fuel_enough r f1 f2 s :
  (length s <= f1)%nat -> (length s <= f2)%nat -> re_scan_fuel f1 r s = re_scan_fuel f2 r s.
Proof.
  revert f2 s. induction f1 as [|f1 IH]; intros [|f2] s H1 H2.
  - reflexivity.
  - destruct s; [reflexivity | cbn in H1; lia].
  - destruct s; [reflexivity | cbn in H2; lia].
  - destruct s as [|b t]; [reflexivity|]. cbn [re_scan_fuel].
    destruct (re_match r (b :: t)) as [[g s']|] eqn:E.
    + destruct (length s' <? length (b :: t))%nat eqn:L.
      * apply Nat.ltb_lt in L. f_equal. apply IH; cbn in *; lia.
      * f_equal. apply IH; cbn in *; lia.
    + f_equal. apply IH; cbn in *; lia.
Qed.

Lemma re_scan_nil r : re_scan r [] = [].
Proof. reflexivity. Qed.

(** the scan consumes a match *)
Lemma re_scan_match r w s g :
  w <> [] -> re_match r (w ++ s) = Some (g, s) -> re_scan r (w ++ s) = Matched g w :: re_scan r s.
Proof.
  intros Hw H. unfold re_scan. destruct (w ++ s) as [|b t] eqn:E; [destruct w; [easy|discriminate]|].
  cbn [length re_scan_fuel]. rewrite H.
  assert (L : (length s < length (b :: t))%nat).
  { rewrite <- E, app_length. destruct w; [easy|cbn; lia]. }
  apply Nat.ltb_lt in L as L'. cbn [length] in L'. rewrite L'. f_equal.
  - f_equal. change (S (length t)) with (length (b :: t)). rewrite <- E. apply firstn_minus_app.
  - apply re_scan_fuel_enough; cbn in L; lia.
Qed.

(** the scan copies an unmatched unit *)
Lemma re_scan_unmatched r b t :
  re_match r (b :: t) = None -> re_scan r (b :: t) = Unmatched b :: re_scan r t.
Proof.
  intros H. unfold re_scan. cbn [length re_scan_fuel]. rewrite H. reflexivity.
Qed.

Lemma in_cls_single x b : in_cls [(x, x)] b = (b =? x).
Proof.
  unfold in_cls. cbn. rewrite orb_false_r.
  destruct (b =? x) eqn:E.
  - apply N.eqb_eq in E. subst. now rewrite N.leb_refl.
  - apply N.eqb_neq in E. apply andb_false_iff. rewrite !N.leb_gt. lia.
Qed.
