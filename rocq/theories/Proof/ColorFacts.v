(** Facts about colors and the nearest color search *)
From Coq Require Import List NArith ZArith Bool Lia Arith Permutation Sorted.
From Verif.Model Require Import Base Ansi Color.
From Verif.Spec Require Import Palette.
Import ListNotations.
Local Open Scope Z_scope.

Lemma channels_spec : forall h, hex_value_to_rgb_channels h = (red h, green h, blue h).
Proof.
  intros h. unfold hex_value_to_rgb_channels, red, green, blue.
  rewrite !Z.shiftr_land.
  change (Z.shiftr 0xff0000 16) with (Z.ones 8). change (Z.shiftr 0xff00 8) with (Z.ones 8).
  change 0xff with (Z.ones 8).
  rewrite !Z.land_ones by lia. rewrite !Z.shiftr_div_pow2 by lia. reflexivity.
Qed.

Lemma channel_range : forall h, 0 <= red h < 256 /\ 0 <= green h < 256 /\ 0 <= blue h < 256.
Proof. intros h. unfold red, green, blue. repeat split; apply Z.mod_pos_bound; lia. Qed.

Lemma hex_of_channels : forall h,
  rgb_channels_to_hex_value (red h) (green h) (blue h) = h mod 16777216.
Proof.
  intros h. unfold rgb_channels_to_hex_value, red, green, blue.
  rewrite !Z.shiftl_mul_pow2 by lia. change (2 ^ 16) with 65536. change (2 ^ 8) with 256.
  Z.div_mod_to_equations. lia.
Qed.

Lemma channels_of_hex : forall r g b, 0 <= r < 256 -> 0 <= g < 256 -> 0 <= b < 256 ->
  hex_value_to_rgb_channels (rgb_channels_to_hex_value r g b) = (r, g, b).
Proof.
  intros r g b Hr Hg Hb. rewrite channels_spec. unfold rgb_channels_to_hex_value, red, green, blue.
  rewrite !Z.shiftl_mul_pow2 by lia. change (2 ^ 16) with 65536. change (2 ^ 8) with 256.
  f_equal; [f_equal|]; Z.div_mod_to_equations; lia.
Qed.

Lemma rgb_roundtrip : forall h, 0 <= h < 16777216 ->
  (let '(r, g, b) := hex_value_to_rgb_channels h in rgb_channels_to_hex_value r g b) = h.
Proof. intros h H. rewrite channels_spec, hex_of_channels. apply Z.mod_small. exact H. Qed.

Lemma valid_channel : forall v, 0 <= v < 256 -> validate_extended_color v = Ok tt.
Proof.
  intros v H. unfold validate_extended_color.
  replace (v <? 0) with false by (symmetry; apply Z.ltb_ge; lia).
  replace (255 <? v) with false by (symmetry; apply Z.ltb_ge; lia). reflexivity.
Qed.

Lemma rgb_sgr : forall h bg,
  to_sgr (ColorRGB (Some h)) bg
  = Ok [(if bg then 48 else 38)%N; 2%N; Z.to_N (red h); Z.to_N (green h); Z.to_N (blue h)].
Proof.
  intros h bg. unfold to_sgr. rewrite channels_spec. unfold init_color_rgb.
  destruct (channel_range h) as (Hr & Hg & Hb).
  rewrite !valid_channel by assumption. reflexivity.
Qed.

(** ** The table *)

Lemma distance_spec : forall a b, distance_sq a b = sq_distance a b.
Proof.
  intros a b. unfold distance_sq, sq_distance. rewrite !channels_spec.
  rewrite !Z.pow_2_r. ring.
Qed.

Lemma zdict_get_app : forall (A : Type) k (d1 d2 : list (Z * A)),
  zdict_get k (d1 ++ d2) = match zdict_get k d1 with Some v => Some v | None => zdict_get k d2 end.
Proof.
  induction d1 as [|[k' v] d1 IH]; intros; cbn; [reflexivity|].
  destruct (k =? k'); [reflexivity|apply IH].
Qed.

Lemma zdict_set_new : forall (A : Type) k (v : A) d, zdict_get k d = None -> zdict_set k v d = d ++ [(k, v)].
Proof.
  induction d as [|[k' v'] d IH]; cbn; intros H; [reflexivity|].
  destruct (k =? k'); [discriminate|]. rewrite IH by exact H. reflexivity.
Qed.

Lemma zdict_get_set : forall (A : Type) k k' (v : A) d,
  zdict_get k (zdict_set k' v d) = if k =? k' then Some v else zdict_get k d.
Proof.
  induction d as [|[k2 v2] d IH]; cbn.
  - destruct (k =? k'); reflexivity.
  - destruct (k' =? k2) eqn:E2; cbn.
    + apply Z.eqb_eq in E2. subst. destruct (k =? k2); reflexivity.
    + destruct (k =? k2) eqn:E3.
      * apply Z.eqb_eq in E3. subst. rewrite Z.eqb_sym, E2. reflexivity.
      * exact IH.
Qed.

Lemma zdict_get_in : forall (A : Type) k (v : A) d, zdict_get k d = Some v -> In (k, v) d.
Proof.
  induction d as [|[k' v'] d IH]; cbn; [discriminate|].
  destruct (k =? k') eqn:E; intros H.
  - apply Z.eqb_eq in E. injection H as <-. subst. left. reflexivity.
  - right. apply IH. exact H.
Qed.

(** stable sort *)
Lemma insert_perm : forall (A : Type) (x : A * Z) l, Permutation (x :: l) (insert_by x l).
Proof.
  induction l as [|y l IH]; cbn; [apply Permutation_refl|].
  destruct (snd x <=? snd y); [apply Permutation_refl|].
  eapply perm_trans; [apply perm_swap|]. constructor. exact IH.
Qed.

Lemma sort_perm : forall (A : Type) (l : list (A * Z)), Permutation l (sort_by l).
Proof.
  induction l as [|x l IH]; cbn; [constructor|].
  eapply perm_trans; [constructor; exact IH|apply insert_perm].
Qed.

Definition key_le {A} (x y : A * Z) : Prop := snd x <= snd y.

Lemma insert_sorted : forall (A : Type) (x : A * Z) l,
  StronglySorted key_le l -> StronglySorted key_le (insert_by x l).
Proof.
  induction l as [|y l IH]; intros H; cbn.
  - constructor; constructor.
  - inversion H as [|? ? Hs Hf]; subst. destruct (snd x <=? snd y) eqn:E.
    + apply Z.leb_le in E. constructor; [exact H|]. constructor; [exact E|].
      eapply Forall_impl; [|exact Hf]. unfold key_le. intros. lia.
    + apply Z.leb_gt in E. constructor; [apply IH; exact Hs|].
      eapply Permutation_Forall; [apply insert_perm|].
      constructor; [unfold key_le; lia|exact Hf].
Qed.

Lemma sort_sorted : forall (A : Type) (l : list (A * Z)), StronglySorted key_le (sort_by l).
Proof. induction l as [|x l IH]; cbn; [constructor|]. apply insert_sorted. exact IH. Qed.

Lemma insert_filter : forall (A : Type) k (x : A * Z) l,
  filter (fun y => snd y =? k) (insert_by x l) = filter (fun y => snd y =? k) (x :: l).
Proof.
  induction l as [|y l IH]; [reflexivity|].
  cbn [insert_by]. destruct (snd x <=? snd y) eqn:E; [reflexivity|].
  cbn [filter] in *. rewrite IH. cbn.
  destruct (snd y =? k) eqn:Ey; destruct (snd x =? k) eqn:Ex; try reflexivity.
  apply Z.eqb_eq in Ey, Ex. apply Z.leb_gt in E. lia.
Qed.

Lemma sort_stable : forall (A : Type) k (l : list (A * Z)),
  filter (fun y => snd y =? k) (sort_by l) = filter (fun y => snd y =? k) l.
Proof.
  induction l as [|x l IH]; [reflexivity|]. cbn [sort_by]. rewrite insert_filter. cbn. rewrite IH. reflexivity.
Qed.

(** the head of the sorted list: first of the smallest *)
Lemma sort_head : forall (A : Type) (x : A * Z) l t,
  sort_by l = x :: t ->
  exists l1 l2, l = l1 ++ x :: l2 /\ Forall (fun y => snd x < snd y) l1 /\ Forall (fun y => snd x <= snd y) l.
Proof.
  intros A x l t H.
  assert (Hmin : Forall (fun y => snd x <= snd y) l).
  { pose proof (sort_sorted A l) as Hs. rewrite H in Hs. inversion Hs as [|? ? _ Hf]; subst.
    eapply Permutation_Forall; [apply Permutation_sym, sort_perm|]. rewrite H.
    constructor; [lia|]. exact Hf. }
  assert (Hst : exists rest, filter (fun y => snd y =? snd x) l = x :: rest).
  { rewrite <- sort_stable, H. cbn. rewrite Z.eqb_refl. eexists. reflexivity. }
  destruct Hst as (rest & Hst). clear H t.
  assert (Hgo : exists l1 l2, l = l1 ++ x :: l2 /\ Forall (fun y => snd x < snd y) l1).
  { revert rest Hmin Hst. induction l as [|y l IH]; cbn; intros rest Hmin Hst; [discriminate|].
    inversion Hmin; subst. destruct (snd y =? snd x) eqn:E.
    - injection Hst as -> _. exists [], l. split; [reflexivity|constructor].
    - apply Z.eqb_neq in E. destruct (IH _ H2 Hst) as (l1 & l2 & -> & Hl1).
      exists (y :: l1), l2. split; [reflexivity|]. constructor; [lia|exact Hl1]. }
  destruct Hgo as (l1 & l2 & E & Hl1). exists l1, l2. repeat split; assumption.
Qed.

(** ** The approximator *)

(** the answer as a function of the table *)
Definition best (table : list (Z * pcolor)) (h : Z) : option (Z * pcolor) :=
  match sort_by (map (fun p => (p, distance_sq h (fst p))) table) with
  | [] => None
  | (p, _) :: _ => Some p
  end.

Lemma sort_map : forall (A B : Type) (f : A -> B) (l : list (A * Z)),
  sort_by (map (fun p => (f (fst p), snd p)) l) = map (fun p => (f (fst p), snd p)) (sort_by l).
Proof.
  intros A B f. assert (Hi : forall x l, insert_by (f (fst x), snd x) (map (fun p => (f (fst p), snd p)) l)
    = map (fun p => (f (fst p), snd p)) (insert_by x l)).
  { induction l as [|y l IH]; cbn; [reflexivity|].
    destruct (snd x <=? snd y); cbn; [reflexivity|]. rewrite IH. reflexivity. }
  induction l as [|x l IH]; [reflexivity|]. cbn [map sort_by]. rewrite IH. apply Hi.
Qed.

Lemma approximate_eq : forall a h n, ap_lookup a <> [] ->
  approximate a h n = Ok (map fst (py_take n (sort_by (map (fun p => (snd p, distance_sq h (fst p))) (ap_lookup a))))).
Proof.
  intros a h n Hne. unfold approximate.
  replace (map (fun '(h0, c) => (c, distance_sq h h0)) (ap_lookup a))
    with (map (fun p => (snd p, distance_sq h (fst p))) (ap_lookup a))
    by (apply map_ext; intros []; reflexivity).
  destruct (ap_lookup a); [contradiction|]. reflexivity.
Qed.

Lemma py_take_1_hd : forall (A : Type) (l : list A), py_take 1 l = firstn 1 l.
Proof. reflexivity. Qed.

Lemma sort_nonempty : forall (A : Type) (l : list (A * Z)), l <> [] -> sort_by l <> [].
Proof.
  intros A l H E. pose proof (sort_perm A l) as P. rewrite E in P.
  apply H. apply Permutation_nil. apply Permutation_sym. exact P.
Qed.

Lemma approximate_best : forall a h, ap_lookup a <> [] ->
  exists p, best (ap_lookup a) h = Some p /\ approximate a h 1 = Ok [snd p].
Proof.
  intros a h Hne. unfold best. rewrite approximate_eq by exact Hne.
  rewrite py_take_1_hd.
  set (l := map (fun p => (p, distance_sq h (fst p))) (ap_lookup a)).
  replace (map (fun p => (snd p, distance_sq h (fst p))) (ap_lookup a))
    with (map (fun p : (Z * pcolor) * Z => (snd (fst p), snd p)) l)
    by (unfold l; rewrite map_map; reflexivity).
  rewrite (sort_map (Z * pcolor) pcolor snd).
  destruct (sort_by l) as [|[p d] t] eqn:E.
  - exfalso. eapply sort_nonempty; [|exact E]. unfold l. intros E2. apply map_eq_nil in E2. contradiction.
  - exists p. split; reflexivity.
Qed.

(** what [best] means *)
Lemma best_spec : forall t h p, best t h = Some p ->
  exists t1 t2, t = t1 ++ p :: t2 /\
    Forall (fun q => sq_distance h (fst p) < sq_distance h (fst q)) t1 /\
    Forall (fun q => sq_distance h (fst p) <= sq_distance h (fst q)) t.
Proof.
  intros t h p H. unfold best in H.
  destruct (sort_by (map (fun p => (p, distance_sq h (fst p))) t)) as [|[p' d] rest] eqn:E; [discriminate|].
  injection H as ->. destruct (sort_head _ _ _ _ E) as (l1 & l2 & El & Hlt & Hle).
  apply map_eq_app in El. destruct El as (t1 & t2' & -> & E1 & E2).
  destruct t2' as [|q t2]; [discriminate|]. injection E2 as -> <- E2.
  exists t1, t2. split; [reflexivity|]. split.
  - rewrite <- E1 in Hlt. rewrite Forall_map in Hlt. cbn in Hlt.
    eapply Forall_impl; [|exact Hlt]. cbn. intros x Hx. rewrite <- !distance_spec. exact Hx.
  - rewrite Forall_map in Hle. cbn in Hle.
    eapply Forall_impl; [|exact Hle]. cbn. intros x Hx. rewrite <- !distance_spec. exact Hx.
Qed.

Lemma best_none : forall t h, best t h = None <-> t = [].
Proof.
  intros t h. unfold best. split.
  - destruct (sort_by _) as [|[p d] r] eqn:E; [|discriminate]. intros _.
    destruct t; [reflexivity|]. exfalso. eapply sort_nonempty; [|exact E]. discriminate.
  - intros ->. reflexivity.
Qed.

Lemma sq_distance_nonneg : forall a b, 0 <= sq_distance a b.
Proof.
  intros. unfold sq_distance.
  pose proof (Z.square_nonneg (red a - red b)). pose proof (Z.square_nonneg (green a - green b)).
  pose proof (Z.square_nonneg (blue a - blue b)). lia.
Qed.

Lemma sq_distance_same : forall a, sq_distance a a = 0.
Proof. intros. unfold sq_distance. lia. Qed.

Lemma sq_distance_0 : forall a b, color24 a -> color24 b -> sq_distance a b = 0 -> a = b.
Proof.
  intros a b Ha Hb H. unfold sq_distance in H.
  assert (Hr : red a = red b /\ green a = green b /\ blue a = blue b).
  { pose proof (Z.square_nonneg (red a - red b)). pose proof (Z.square_nonneg (green a - green b)).
    pose proof (Z.square_nonneg (blue a - blue b)).
    assert ((red a - red b) * (red a - red b) = 0) by lia.
    assert ((green a - green b) * (green a - green b) = 0) by lia.
    assert ((blue a - blue b) * (blue a - blue b) = 0) by lia. nia. }
  destruct Hr as (E1 & E2 & E3).
  pose proof (hex_of_channels a) as Xa. pose proof (hex_of_channels b) as Xb.
  rewrite (Z.mod_small a) in Xa by exact Ha. rewrite (Z.mod_small b) in Xb by exact Hb. congruence.
Qed.

(** keys distinct and 24-bit *)
Definition good_table (t : list (Z * pcolor)) : Prop :=
  NoDup (map fst t) /\ Forall (fun p => color24 (fst p)) t.

Lemma best_registered : forall t k c, good_table t -> zdict_get k t = Some c -> best t k = Some (k, c).
Proof.
  intros t k c (Hnd & Hr) H. apply zdict_get_in in H.
  destruct (best t k) as [p|] eqn:E.
  - destruct (best_spec _ _ _ E) as (t1 & t2 & -> & _ & Hle).
    rewrite Forall_forall in Hle. specialize (Hle _ H). cbn [fst] in Hle. rewrite sq_distance_same in Hle.
    assert (Hk : color24 k) by (rewrite Forall_forall in Hr; apply (Hr _ H)).
    assert (Hp : color24 (fst p)) by (rewrite Forall_forall in Hr; apply Hr; apply in_elt).
    assert (k = fst p) by (apply sq_distance_0; [assumption..|pose proof (sq_distance_nonneg k (fst p)); lia]).
    subst k. f_equal.
    clear - Hnd H. revert Hnd H. induction t1 as [|q t1 IH]; cbn; intros Hnd H.
    + inversion Hnd as [|? ? Hni _]; subst. destruct H as [<-|H]; [reflexivity|].
      exfalso. apply Hni. apply (in_map fst) in H. exact H.
    + inversion Hnd as [|? ? Hni Hnd']; subst. destruct H as [->|H]; [|auto].
      exfalso. apply Hni. rewrite map_app. cbn. apply in_elt.
  - apply best_none in E. subst t. destruct H.
Qed.

(** cache coherence *)
Definition coherent (a : approximator) : Prop :=
  good_table (ap_lookup a) /\
  (ap_cache a = [] \/
   (ap_lookup a <> [] /\
    (forall k c, zdict_get k (ap_cache a) = Some c -> option_map snd (best (ap_lookup a) k) = Some c))).

Lemma find_coherent : forall a h, coherent a ->
  fst (find_closest a h)
  = Ok (match best (ap_lookup a) h with Some p => snd p | None => NOOP_COLOR_INDEXED end)
  /\ ap_lookup (snd (find_closest a h)) = ap_lookup a /\ coherent (snd (find_closest a h)).
Proof.
  intros a h (Hg & Hc). unfold find_closest.
  destruct (zdict_get h (ap_cache a)) as [c|] eqn:Eh.
  - cbn [fst snd]. split; [|split; [reflexivity|split; [exact Hg|exact Hc]]].
    destruct Hc as [Hc|(Hne & H1)]; [rewrite Hc in Eh; discriminate|].
    specialize (H1 _ _ Eh). destruct (best (ap_lookup a) h) as [p|]; [|discriminate].
    injection H1 as <-. reflexivity.
  - destruct (ap_lookup a) as [|e lk] eqn:El.
    + assert (Ec : ap_cache a = []) by (destruct Hc as [Hc|(Hne & _)]; [exact Hc|contradiction]).
      rewrite Ec. cbn. split; [reflexivity|]. split; [reflexivity|]. split; [exact Hg|]. left. reflexivity.
    + rewrite <- El in *. assert (Hne : ap_lookup a <> []) by (rewrite El; discriminate).
      set (cache := match ap_cache a with [] => ap_lookup a | c => c end).
      assert (Hcache : cache <> [] /\
        (forall k c, zdict_get k cache = Some c -> option_map snd (best (ap_lookup a) k) = Some c)).
      { unfold cache. destruct (ap_cache a) as [|e' ca] eqn:Eca.
        - split; [exact Hne|]. intros k c Hk. rewrite (best_registered _ _ _ Hg Hk). reflexivity.
        - split; [discriminate|]. destruct Hc as [Hc|(_ & H1)]; [discriminate|exact H1]. }
      destruct Hcache as (Hcne & H1).
      destruct (approximate_best (mkApprox (ap_lookup a) cache) h Hne) as (p & Hb & Ha). cbn [ap_lookup] in Hb.
      rewrite Ha, Hb.
      destruct cache as [|e' ca] eqn:Eca; [contradiction|]. rewrite <- Eca in *.
      cbn [fst snd ap_lookup ap_cache]. split; [reflexivity|]. split; [reflexivity|].
      split; [exact Hg|]. right. split; [exact Hne|]. intros k c Hk. cbn [ap_cache ap_lookup] in *.
      rewrite zdict_get_set in Hk. destruct (k =? h) eqn:E.
      * apply Z.eqb_eq in E. subst k. rewrite Hb. exact Hk.
      * apply H1. exact Hk.
Qed.

Lemma after_app : forall e1 e2 a, after (e1 ++ e2) a = after e2 (after e1 a).
Proof. induction e1 as [|[c|h] e1 IH]; intros; cbn; auto. Qed.

Lemma zdict_has_get : forall (A : Type) k (d : list (Z * A)), zdict_has k d = false -> zdict_get k d = None.
Proof. intros A k d. unfold zdict_has. destruct (zdict_get k d); [discriminate|reflexivity]. Qed.

Lemma zdict_none_notin : forall (A : Type) k (d : list (Z * A)), zdict_get k d = None -> ~ In k (map fst d).
Proof.
  induction d as [|[k' v] d IH]; cbn; [tauto|]. destruct (k =? k') eqn:E; [discriminate|].
  apply Z.eqb_neq in E. intros H [H1|H1]; [congruence|]. apply IH; assumption.
Qed.

Lemma add_coherent : forall a c, coherent a -> (forall h, hex_value c = Some h -> color24 h) -> coherent (add_to_map a c).
Proof.
  intros a c (Hg & Hc) Hr. unfold add_to_map. destruct (hex_value c) as [h|]; [|split; assumption].
  destruct (zdict_has h (ap_lookup a)) eqn:E; [split; assumption|].
  apply zdict_has_get in E. split; [|left; reflexivity].
  cbn. rewrite zdict_set_new by exact E. destruct Hg as (Hnd & Hf). split.
  - rewrite map_app. cbn. eapply Permutation_NoDup; [apply Permutation_cons_append|].
    constructor; [|exact Hnd]. apply zdict_none_notin. exact E.
  - apply Forall_app. split; [exact Hf|]. constructor; [|constructor]. apply Hr. reflexivity.
Qed.

Lemma init_coherent : coherent approx_init.
Proof. split; [split; constructor|left; reflexivity]. Qed.

Lemma after_coherent : forall evs a, registered_in_range evs -> coherent a -> coherent (after evs a).
Proof.
  induction evs as [|[c|h] evs IH]; intros a Hr Ha; cbn; [exact Ha| |].
  - apply IH; [intros c' h' Hi; apply Hr; right; exact Hi|].
    apply add_coherent; [exact Ha|]. intros h Hh. apply (Hr c h); [left; reflexivity|exact Hh].
  - apply IH; [intros c' h' Hi; apply Hr; right; exact Hi|]. apply find_coherent. exact Ha.
Qed.

(** the table lists the known colors in order of registration *)
Definition Listed (evs : list event) (t : list (Z * pcolor)) : Prop :=
  exists tags : list (nat * (Z * pcolor)),
    t = map snd tags /\ StronglySorted (fun x y => (fst x < fst y)%nat) tags /\
    forall n h c, In (n, (h, c)) tags <-> KnownAt evs n h c.

Lemma known_lt : forall evs n h c, KnownAt evs n h c -> (n < length evs)%nat.
Proof. intros evs n h c (H & _). apply nth_error_Some. congruence. Qed.

Lemma known_snoc : forall evs e n h c,
  KnownAt (evs ++ [e]) n h c <->
  KnownAt evs n h c \/
  (n = length evs /\ e = Register c /\ hex_value c = Some h /\
   forall m c', nth_error evs m = Some (Register c') -> hex_value c' <> Some h).
Proof.
  intros evs e n h c. unfold KnownAt. split.
  - intros (H1 & H2 & H3). destruct (Nat.lt_ge_cases n (length evs)) as [L|L].
    + left. rewrite nth_error_app1 in H1 by exact L. split; [exact H1|]. split; [exact H2|].
      intros m c' Hm Hn. apply (H3 m c' Hm). rewrite nth_error_app1 by lia. exact Hn.
    + right. rewrite nth_error_app2 in H1 by exact L.
      destruct (n - length evs)%nat as [|d] eqn:E; [|destruct d; discriminate].
      cbn in H1. injection H1 as ->. split; [lia|]. split; [reflexivity|]. split; [exact H2|].
      intros m c' Hm. assert (m < length evs)%nat by (apply nth_error_Some; congruence).
      apply (H3 m c'); [lia|]. rewrite nth_error_app1 by assumption. exact Hm.
  - intros [(H1 & H2 & H3)|(-> & -> & H2 & H3)].
    + assert (L : (n < length evs)%nat) by (apply nth_error_Some; congruence).
      split; [rewrite nth_error_app1 by exact L; exact H1|]. split; [exact H2|].
      intros m c' Hm Hn. rewrite nth_error_app1 in Hn by lia. apply (H3 m c' Hm Hn).
    + split; [rewrite nth_error_app2, Nat.sub_diag by lia; reflexivity|]. split; [exact H2|].
      intros m c' Hm Hn. rewrite nth_error_app1 in Hn by lia. apply (H3 m c' Hn).
Qed.

Lemma first_known : forall evs m c h, nth_error evs m = Some (Register c) -> hex_value c = Some h ->
  exists n c', KnownAt evs n h c'.
Proof.
  intros evs m. induction m as [m IH] using lt_wf_ind. intros c h Hm Hh.
  destruct (existsb (fun i => match nth_error evs i with
                              | Some (Register c') => match hex_value c' with Some h' => h =? h' | None => false end
                              | _ => false end) (seq 0 m)) eqn:E.
  - apply existsb_exists in E. destruct E as (i & Hi & Hc). apply in_seq in Hi.
    destruct (nth_error evs i) as [[c'|]|] eqn:Ei; try discriminate.
    destruct (hex_value c') as [h'|] eqn:Eh; [|discriminate]. apply Z.eqb_eq in Hc. subst h'.
    apply (IH i) with c'; [lia|assumption..].
  - exists m, c. split; [exact Hm|]. split; [exact Hh|]. intros i c' Hi Hn Hc'.
    assert (Ex : existsb (fun i => match nth_error evs i with
                              | Some (Register c') => match hex_value c' with Some h' => h =? h' | None => false end
                              | _ => false end) (seq 0 m) = true).
    { apply existsb_exists. exists i. split; [apply in_seq; lia|]. rewrite Hn, Hc'. apply Z.eqb_refl. }
    congruence.
Qed.

Lemma snoc_sorted : forall (A : Type) (l : list (nat * A)) n x,
  StronglySorted (fun x y => (fst x < fst y)%nat) l -> Forall (fun y => (fst y < n)%nat) l ->
  StronglySorted (fun x y => (fst x < fst y)%nat) (l ++ [(n, x)]).
Proof.
  induction l as [|y l IH]; intros n x Hs Hf; cbn.
  - constructor; constructor.
  - inversion Hs; subst. inversion Hf; subst. constructor; [apply IH; assumption|].
    apply Forall_app. split; [assumption|]. constructor; [assumption|constructor].
Qed.

Lemma find_table : forall a h, ap_lookup (snd (find_closest a h)) = ap_lookup a.
Proof.
  intros a h. unfold find_closest. destruct (zdict_get h (ap_cache a)); [reflexivity|].
  set (ca := match ap_cache a with [] => ap_lookup a | c => c end). clearbody ca.
  destruct ca; [reflexivity|]. destruct (approximate _ h 1) as [[|]|]; reflexivity.
Qed.

Lemma table_listed : forall evs, Listed evs (ap_lookup (after evs approx_init)).
Proof.
  induction evs as [|e evs IH] using rev_ind.
  - exists []. split; [reflexivity|]. split; [constructor|]. intros n h c. split; [intros []|].
    intros (H & _). destruct n; discriminate.
  - rewrite after_app. set (a := after evs approx_init) in *. destruct IH as (tags & Et & Hs & Hin).
    assert (Hsame : (forall n h c, KnownAt (evs ++ [e]) n h c <-> KnownAt evs n h c) ->
                    ap_lookup (after [e] a) = ap_lookup a -> Listed (evs ++ [e]) (ap_lookup (after [e] a))).
    { intros Hk El. exists tags. rewrite El. split; [exact Et|]. split; [exact Hs|].
      intros n h c. rewrite Hk. apply Hin. }
    destruct e as [c|h].
    + cbn [after] in *. unfold add_to_map in *. destruct (hex_value c) as [h|] eqn:Eh.
      * destruct (zdict_has h (ap_lookup a)) eqn:Ez.
        -- apply Hsame; [|reflexivity]. intros n h' c'. rewrite known_snoc. split; [|tauto].
           intros [H|(-> & Ec & Hh' & Hnone)]; [exact H|]. exfalso. injection Ec as <-.
           assert (h' = h) by congruence. subst h'.
           unfold zdict_has in Ez. destruct (zdict_get h (ap_lookup a)) as [c0|] eqn:Eg; [|discriminate].
           apply zdict_get_in in Eg. rewrite Et in Eg. apply in_map_iff in Eg.
           destruct Eg as ([n [h0 c1]] & E1 & E2). cbn in E1. injection E1 as -> ->.
           apply Hin in E2. destruct E2 as (N1 & N2 & _). apply (Hnone n c0 N1 N2).
        -- apply zdict_has_get in Ez. cbn [ap_lookup]. rewrite zdict_set_new by exact Ez.
           exists (tags ++ [(length evs, (h, c))]). split; [rewrite map_app; cbn; rewrite <- Et; reflexivity|].
           split.
           { apply snoc_sorted; [exact Hs|]. apply Forall_forall. intros [n [h' c']] Hx. cbn.
             apply Hin in Hx. apply known_lt in Hx. exact Hx. }
           intros n h' c'. rewrite in_app_iff, known_snoc. rewrite Hin. cbn [In].
           split; intros [H|H]; [left; exact H| |left; exact H|].
           ++ destruct H as [H|[]]. injection H as <- <- <-. right.
              split; [reflexivity|]. split; [reflexivity|]. split; [exact Eh|].
              intros m c' Hm Hh. destruct (first_known _ _ _ _ Hm Hh) as (n & c'' & Hk).
              apply Hin in Hk. apply (in_map snd) in Hk. rewrite <- Et in Hk. cbn in Hk.
              apply (zdict_none_notin _ _ _ Ez). apply (in_map fst) in Hk. exact Hk.
           ++ right. destruct H as (-> & Ec & Hh' & _). injection Ec as <-. left. congruence.
      * apply Hsame; [|reflexivity]. intros n h' c'. rewrite known_snoc. split; [|tauto].
        intros [H|(_ & Ec & Hh' & _)]; [exact H|]. injection Ec as <-. congruence.
    + apply Hsame; [|apply find_table]. intros n h' c'. rewrite known_snoc. split; [|tauto].
      intros [H|(_ & Ec & _)]; [exact H|discriminate].
Qed.

Lemma sorted_split : forall (tags t1 : list (nat * (Z * pcolor))) x t2,
  StronglySorted (fun x y => (fst x < fst y)%nat) tags -> tags = t1 ++ x :: t2 ->
  forall y, In y tags -> ((fst y < fst x)%nat <-> In y t1).
Proof.
  intros tags t1 x t2 Hs -> y Hy. revert Hs Hy. induction t1 as [|z t1 IH]; cbn; intros Hs Hy.
  - inversion Hs as [|? ? _ Hf]; subst. destruct Hy as [<-|Hy]; [lia|].
    rewrite Forall_forall in Hf. specialize (Hf _ Hy). lia.
  - inversion Hs as [|? ? Hs' Hf]; subst. rewrite Forall_forall in Hf.
    destruct Hy as [<-|Hy].
    + specialize (Hf x (in_elt _ _ _)). tauto.
    + specialize (IH Hs' Hy). split; [intros L; right; apply IH; exact L|].
      intros [<-|Hi]; [apply Hf; apply in_elt|apply IH; exact Hi].
Qed.

(** The whole story of one look-up *)
Lemma nearest : forall evs h, registered_in_range evs ->
  match fst (find_closest (after evs approx_init) h) with
  | Err _ => False
  | Ok c =>
      (c = NOOP_COLOR_INDEXED /\ forall n k c', ~ KnownAt evs n k c') \/
      exists n k, KnownAt evs n k c /\
        forall m k' c', KnownAt evs m k' c' ->
          sq_distance h k <= sq_distance h k' /\ ((m < n)%nat -> sq_distance h k < sq_distance h k')
  end.
Proof.
  intros evs h Hr. pose proof (after_coherent evs approx_init Hr init_coherent) as Hc.
  destruct (find_coherent _ h Hc) as (E & _). rewrite E.
  destruct (table_listed evs) as (tags & Et & Hs & Hin).
  destruct (best (ap_lookup (after evs approx_init)) h) as [[k c]|] eqn:Eb.
  - right. destruct (best_spec _ _ _ Eb) as (t1 & t2 & Esp & Hlt & Hle).
    rewrite Et in Esp. apply map_eq_app in Esp. destruct Esp as (g1 & g2' & Eg & E1 & E2).
    destruct g2' as [|[n p] g2]; [discriminate|]. cbn in E2. injection E2 as -> E2.
    exists n, k. cbn [snd fst] in *. split.
    + apply Hin. rewrite Eg. apply in_elt.
    + intros m k' c' Hk. apply Hin in Hk. split.
      * rewrite Et in Hle. rewrite Forall_map in Hle. rewrite Forall_forall in Hle.
        apply (Hle _ Hk).
      * intros Hm. rewrite <- E1 in Hlt. rewrite Forall_map, Forall_forall in Hlt.
        apply (Hlt (m, (k', c'))). apply (sorted_split tags g1 (n, (k, c)) g2 Hs Eg _ Hk). exact Hm.
  - left. split; [reflexivity|]. intros n k c' Hk. apply Hin in Hk. apply best_none in Eb.
    rewrite Eb in Et. destruct tags; [destruct Hk|discriminate].
Qed.

(** a registered value is answered by the color registered first under it *)
Lemma nearest_registered : forall evs n k c, registered_in_range evs -> KnownAt evs n k c ->
  fst (find_closest (after evs approx_init) k) = Ok c.
Proof.
  intros evs n k c Hr Hk. pose proof (after_coherent evs approx_init Hr init_coherent) as Hc.
  destruct (find_coherent _ k Hc) as (E & _). rewrite E. destruct Hc as (Hg & _).
  destruct (table_listed evs) as (tags & Et & Hs & Hin).
  pose proof Hk as Hk2. apply Hin in Hk2. apply (in_map snd) in Hk2. rewrite <- Et in Hk2. cbn in Hk2.
  rewrite (best_registered _ k c Hg); [reflexivity|].
  destruct Hg as (Hnd & _). clear - Hnd Hk2.
  induction (ap_lookup (after evs approx_init)) as [|[k' c'] t IH]; [destruct Hk2|].
  cbn in *. inversion Hnd as [|? ? Hni Hnd']; subst. destruct Hk2 as [E|Hk2].
  - injection E as -> ->. rewrite Z.eqb_refl. reflexivity.
  - destruct (k =? k') eqn:E; [|apply IH; assumption]. apply Z.eqb_eq in E. subst k'.
    exfalso. apply Hni. apply (in_map fst) in Hk2. exact Hk2.
Qed.

Lemma table_registers : forall evs a a', ap_lookup a = ap_lookup a' ->
  ap_lookup (after evs a) = ap_lookup (after (filter is_register evs) a').
Proof.
  induction evs as [|[c|h] evs IH]; intros a a' E; cbn; [exact E| |].
  - apply IH. unfold add_to_map. destruct (hex_value c); [|exact E]. rewrite E.
    destruct (zdict_has z (ap_lookup a')); [exact E|]. reflexivity.
  - apply IH. rewrite find_table. exact E.
Qed.

Lemma lookups_irrelevant : forall evs h, registered_in_range evs ->
  fst (find_closest (after evs approx_init) h)
  = fst (find_closest (after (filter is_register evs) approx_init) h).
Proof.
  intros evs h Hr.
  pose proof (after_coherent evs approx_init Hr init_coherent) as Hc.
  assert (Hr' : registered_in_range (filter is_register evs))
    by (intros c k Hi; apply Hr; apply filter_In in Hi; tauto).
  pose proof (after_coherent _ approx_init Hr' init_coherent) as Hc'.
  destruct (find_coherent _ h Hc) as (E & _). destruct (find_coherent _ h Hc') as (E' & _).
  rewrite E, E'. rewrite (table_registers evs approx_init approx_init eq_refl). reflexivity.
Qed.

(** with values beyond 24 bits they do *)
Lemma out_of_range_history : exists evs h c c',
  fst (find_closest (after evs approx_init) h) = Ok c /\
  fst (find_closest (after (filter is_register evs) approx_init) h) = Ok c' /\ c <> c'.
Proof.
  exists [Register (ColorIndexed256 (Some 0) (Some 16)); Register (ColorIndexed256 (Some 0x1000000) (Some 17)); Lookup 5],
         0x1000000, (ColorIndexed256 (Some 0x1000000) (Some 17)), (ColorIndexed256 (Some 0) (Some 16)).
  split; [reflexivity|]. split; [reflexivity|]. discriminate.
Qed.
