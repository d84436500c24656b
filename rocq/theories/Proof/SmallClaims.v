(** C49-C51 *)
From Coq Require Import List Arith NArith ZArith Bool Lia.
From Verif.Model Require Import Base Ansi Settings Segment.
From Verif.Spec Require Import Overrides Conditions.
Import ListNotations.

Lemma key_eqb_spec a b : mode_key_eqb a b = true <-> a = b.
Proof. destruct a as [[]|[]], b as [[]|[]]; cbn; split; congruence. Qed.
Lemma key_dec (a b : mode_key) : a = b \/ a <> b.
Proof. destruct (mode_key_eqb a b) eqn:E; [left; now apply key_eqb_spec|right; intros K; apply key_eqb_spec in K; congruence]. Qed.
Lemma dict_get_set {A} k k' (v : A) d : dict_get k (dict_set k' v d) = if mode_key_eqb k k' then Some v else dict_get k d.
Proof.
  induction d as [|[k2 v2] d IH]; [reflexivity|]. cbn [dict_set]. destruct (mode_key_eqb k' k2) eqn:E; cbn [dict_get].
  - apply key_eqb_spec in E as ->. destruct (mode_key_eqb k k2); reflexivity.
  - rewrite IH. destruct (mode_key_eqb k k2) eqn:E2; [|reflexivity]. apply key_eqb_spec in E2 as ->. destruct (mode_key_eqb k2 k') eqn:E3; [|reflexivity]. apply key_eqb_spec in E3 as ->.
    assert (mode_key_eqb k' k' = true) by now apply key_eqb_spec. congruence.
Qed.
Lemma get_latest {A} (d : A) h : forall k,
  (exists v, dict_get k (pov_override (set_all (mkPov d []) h)) = Some v /\ Latest h k v) \/
  (dict_get k (pov_override (set_all (mkPov d []) h)) = None /\ forall w, ~ In (k, w) h).
Proof.
  induction h as [|[k0 v0] h IH] using rev_ind; intros k; [right; split; [reflexivity|intros ? []]|].
  unfold set_all in *. rewrite fold_left_app. cbn [fold_left pov_override pov_set]. rewrite dict_get_set. destruct (mode_key_eqb k k0) eqn:E.
  - apply key_eqb_spec in E as <-. left. exists v0. split; [reflexivity|]. exists h, []. split; [reflexivity|]. intros w [].
  - assert (N : k <> k0) by (intros K; apply key_eqb_spec in K; congruence). destruct (IH k) as [(v & E1 & l & r & -> & Hr)|[E1 Hn]].
    + left. exists v. split; [exact E1|]. exists l, (r ++ [(k0, v0)]). split; [now rewrite <- app_assoc|]. intros w [K|[K|[]]]%in_app_or; [now apply (Hr w)|congruence].
    + right. split; [exact E1|]. intros w [K|[K|[]]]%in_app_or; [now apply (Hn w)|congruence].
Qed.
Lemma set_all_default {A} (d : A) h : pov_default (set_all (mkPov d []) h) = d.
Proof. unfold set_all. induction h as [|[k v] h IH] using rev_ind; [reflexivity|]. rewrite fold_left_app. cbn. exact IH. Qed.
Lemma overrides {A} (d : A) h keys : Chosen d h keys (pov_get (set_all (mkPov d []) h) keys).
Proof.
  induction keys as [|k keys IH].
  - cbn [pov_get]. rewrite set_all_default. apply Ch_none. intros k w [].
  - cbn [pov_get]. destruct (get_latest d h k) as [(v & E & L)|[E N]]; rewrite E.
    + apply (Ch_first d h [] k keys v); [intros ? ? []|exact L].
    + destruct IH as [keys H|l k2 r v H L].
      * apply Ch_none. intros k' w [<-|K]; auto.
      * apply (Ch_first d h (k :: l) k2 r v); [|exact L]. intros k' w [<-|K]; auto.
Qed.
Lemma latest_unique {A} (h : list (mode_key * A)) k v w : Latest h k v -> Latest h k w -> v = w.
Proof.
  intros (l & r & -> & H) (l' & r' & E & H'). revert l' E. induction l as [|x l IH]; intros [|y l'] E; cbn [app] in E.
  - now injection E.
  - injection E as _ E. exfalso. apply (H w). rewrite E. apply in_or_app. right. now left.
  - injection E as _ E. exfalso. apply (H' v). rewrite <- E. apply in_or_app. right. now left.
  - injection E as _ E. now apply (IH l').
Qed.
Lemma has_key {A} (d : A) h k : pov_has_key (set_all (mkPov d []) h) k = true <-> exists v, In (k, v) h.
Proof.
  unfold pov_has_key. destruct (get_latest d h k) as [(v & -> & l & r & -> & _)|[-> N]]; split; try discriminate; try reflexivity.
  - intros _. exists v. apply in_or_app. right. now left.
  - intros [v K]. now apply N in K.
Qed.

(** ** C49 *)
Lemma eqb_list_refl (a : list N) : eqb_list a a = true.
Proof. induction a as [|x a IH]; [reflexivity|]. cbn. now rewrite N.eqb_refl. Qed.
Lemma refs_all_equal a b : seqref_eqb a b = true.
Proof. apply eqb_list_refl. Qed.

(** ** C51 *)
Lemma explicit_empty o c hard : span_init_explicit o c hard = ([], if hard then [0%N] else []).
Proof. destruct o as [[]|], c as [[]|], hard; reflexivity. Qed.
