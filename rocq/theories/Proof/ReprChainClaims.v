(** Proofs about what [repr] shows of the elements of the chain and of tables of colors *)
From Coq Require Import Ascii String.
From Coq Require Import List Arith NArith ZArith Bool Lia.
From Verif.Model Require Import Base Ansi Segment Color Render Repr ReprChain.
From Verif.Spec Require Import Numbers Palette ReprText ReprChainText.
From Verif.Proof Require Import BaseFacts TokFacts BinClaims ColorFacts ReprClaims.
Import ListNotations.
Local Open Scope N_scope.

Lemma eqb_list_iff a b : eqb_list a b = true <-> a = b.
Proof.
  revert b. induction a as [|x a IH]; intros [|y b]; cbn [eqb_list]; try easy. rewrite andb_true_iff, N.eqb_eq, IH. split; [intros [-> ->]; reflexivity|intros E; injection E as -> ->; now split].
Qed.
Lemma seg_eq s t : seg_eqb s t = true <-> s = t.
Proof.
  unfold seg_eqb. rewrite !andb_true_iff, !eqb_list_iff. destruct s, t; cbn. split; [intros [[[-> ->] ->] ->]; reflexivity|intros E; injection E as -> -> -> ->; now repeat split].
Qed.
Lemma ref_eq a b : seqref_eqb a b = true.
Proof. unfold seqref_eqb. now apply eqb_list_iff. Qed.
Lemma elem_eq x y : elem_eqb x y = true <-> same_or_refs x y.
Proof. destruct x, y; cbn [elem_eqb same_or_refs]; rewrite ?seg_eq, ?ref_eq; easy. Qed.

Lemma split_join_hex raw : raw <> [] -> split_on 32 (join [32] (map (fmt_hex_lo 2) raw)) = map (fmt_hex_lo 2) raw.
Proof.
  assert (NO : forall n, ~ In 32 (fmt_hex_lo 2 n)) by (intros n H; pose proof (hex_free 32 n 2 ltac:(lia)) as D; rewrite Forall_forall in D; now apply D in H).
  induction raw as [|n p IH]; [easy|]. intros _. destruct p as [|m p]; [cbn [map join]; now rewrite split_on_none|].
  change (join [32] (map (fmt_hex_lo 2) (n :: m :: p))) with (fmt_hex_lo 2 n ++ 32 :: join [32] (map (fmt_hex_lo 2) (m :: p))). rewrite split_on_app by apply NO. rewrite IH by discriminate. reflexivity.
Qed.
Lemma bytes_text raw : is_bytes raw -> bytes_shown raw (join [32] (map (fmt_hex_lo 2) raw)).
Proof.
  intros B. unfold bytes_shown. destruct raw as [|b raw]; [reflexivity|]. rewrite split_join_hex by discriminate.
  revert B. generalize (b :: raw). intros l B. induction B as [|x l X _ IH]; cbn [map]; constructor; [|exact IH].
  split; [|apply read_hex_lo]. apply fmt_hex_lo_length; [lia|]. exact X.
Qed.
Lemma elem_text e : elem_ok e -> elem_shown e (repr_elem e).
Proof.
  destruct e as [s|r|r|r]; cbn [elem_ok elem_shown repr_elem]; intros H; try (exists (repr_seq r); split; [reflexivity|apply seq_text]).
  exists (join [32] (map (fmt_hex_lo 2) (seg_raw s))). split; [reflexivity|now apply bytes_text].
Qed.
Lemma join_hex_free raw : Forall (fun d => d <> 93) (join [32] (map (fmt_hex_lo 2) raw)).
Proof.
  induction raw as [|b raw IH]; [constructor|]. destruct raw as [|c raw]; [apply hex_free; lia|].
  change (join [32] (map (fmt_hex_lo 2) (b :: c :: raw))) with (fmt_hex_lo 2 b ++ 32 :: join [32] (map (fmt_hex_lo 2) (c :: raw))).
  apply Forall_app. split; [apply hex_free; lia|]. constructor; [discriminate|exact IH].
Qed.
Lemma hex_text_inj a b : join [32] (map (fmt_hex_lo 2) a) = join [32] (map (fmt_hex_lo 2) b) -> a = b.
Proof.
  assert (NE : forall n, fmt_hex_lo 2 n <> []). { intros n E. pose proof (read_hex_lo 2 n) as R. rewrite E in R. discriminate. }
  assert (NJ : forall x l, join [32] (map (fmt_hex_lo 2) (x :: l)) <> []). { intros x [|y l] E; cbn [map join] in E; [now apply NE in E|]. apply app_eq_nil in E. destruct E as [E _]. now apply NE in E. }
  destruct a as [|x a], b as [|y b]; intros E; [reflexivity| | |].
  - symmetry in E. now apply NJ in E.
  - now apply NJ in E.
  - apply (f_equal (split_on 32)) in E. rewrite !split_join_hex in E by discriminate. revert E. generalize (x :: a) (y :: b). clear.
    intros l. induction l as [|p l IH]; intros [|q k] E; try discriminate; [reflexivity|]. injection E as E1 E2. apply hex_inj in E1. now rewrite E1, (IH k E2).
Qed.
Lemma elems_apart x y : repr_elem x = repr_elem y <-> same_shown x y.
Proof.
  split.
  - destruct x as [s|r|r|r], y as [t|r'|r'|r']; cbn [repr_elem same_shown]; intros E; try (apply (f_equal (fun t => nth 2 t 0)) in E; discriminate E);
      try (do 2 apply app_inv_head in E; apply (proj1 (sequences _ _)) in E; now rewrite E).
    unfold repr_segment in E. do 2 apply app_inv_head in E. change (txt "]->[") with (93 :: txt "->[") in E. cbn [app] in E.
    apply until_sep in E; [|apply join_hex_free|apply join_hex_free]. destruct E as [E1 E2]. apply hex_text_inj in E1. apply app_inv_head in E2. apply app_inv_tail in E2. now split.
  - destruct x as [s|r|r|r], y as [t|r'|r'|r']; cbn [same_shown]; try (intros E; now rewrite E). intros [E1 E2]. cbn [repr_elem]. unfold repr_segment. now rewrite E1, E2.
Qed.
Lemma equal_shown x y : elem_eqb x y = true -> (exists s, x = ESeg s) -> repr_elem x = repr_elem y.
Proof. intros E [s ->]. apply elem_eq in E. destruct y; cbn in E; try contradiction. now subst. Qed.

(** ** Tables of colors *)
Definition keys {A} (d : list (Z * A)) : list Z := map fst d.
Lemma get_key {A} k (d : list (Z * A)) : zdict_get k d <> None <-> In k (keys d).
Proof.
  induction d as [|[k' v] d IH]; cbn [zdict_get keys map fst In]; [tauto|]. destruct (Z.eqb_spec k k') as [->|N]; [split; [now left|discriminate]|].
  rewrite IH. unfold keys. split; [tauto|]. intros [E|H]; [congruence|exact H].
Qed.
Lemma set_keys {A} k (v : A) d : NoDup (keys d) -> NoDup (keys (zdict_set k v d)) /\ forall j, In j (keys (zdict_set k v d)) <-> j = k \/ In j (keys d).
Proof.
  intros D. destruct (zdict_get k d) eqn:E.
  - assert (K : keys (zdict_set k v d) = keys d).
    { clear D. revert E. induction d as [|[k' v'] d IH]; cbn [zdict_get zdict_set]; [discriminate|]. destruct (Z.eqb_spec k k') as [->|N]; [reflexivity|]. intros E. cbn [keys map fst]. f_equal. now apply IH. }
    rewrite K. split; [exact D|]. intros j. split; [now right|]. intros [->|H]; [|exact H]. apply get_key. congruence.
  - rewrite zdict_set_new by exact E. unfold keys. rewrite map_app. cbn [map fst]. split.
    + apply NoDup_rev in D. rewrite <- (rev_involutive (map fst d ++ [k])). apply NoDup_rev. rewrite rev_app_distr. cbn [rev app]. constructor; [|exact D].
      rewrite <- in_rev. intros H. apply get_key in H. congruence.
    + intros j. rewrite in_app_iff. cbn [In]. intuition.
Qed.
Lemma registered_app a b k : registered (a ++ b) k <-> registered a k \/ registered b k.
Proof.
  unfold registered. split.
  - intros (c & H & E). apply in_app_or in H. destruct H; [left|right]; now exists c.
  - intros [(c & H & E)|(c & H & E)]; exists c; (split; [apply in_or_app; tauto|exact E]).
Qed.
Lemma registered_one c k : registered [Register c] k <-> hex_value c = Some k.
Proof. split; [intros (d & [E|[]] & H); congruence|intros H; exists c; split; [now left|exact H]]. Qed.
Lemma registered_lookup h k : ~ registered [Lookup h] k.
Proof. intros (c & [E|[]] & _). discriminate E. Qed.
Lemma snoc_split {A} (l e1 e2 : list A) x : l ++ [x] = e1 ++ e2 -> e2 <> [] -> exists e, e2 = e ++ [x] /\ l = e1 ++ e.
Proof.
  intros E N. destruct (exists_last N) as (e & y & ->). rewrite app_assoc in E. apply app_inj_tail in E. destruct E as [-> <-]. now exists e.
Qed.
(** a later event that registers nothing new keeps what is cached *)
Lemma cached_more evs e k : (forall j, registered [e] j -> registered evs j) -> cached evs k -> cached (evs ++ [e]) k.
Proof.
  intros NN (e1 & e2 & -> & N & R & (h & L) & K). exists e1, (e2 ++ [e]). split; [now rewrite app_assoc|]. split.
  - intros j RJ. apply registered_app in RJ. destruct RJ as [RJ|RJ]; [now apply N|]. apply NN, registered_app in RJ. destruct RJ as [RJ|RJ]; [exact RJ|now apply N].
  - split; [exact R|]. split; [exists h; apply in_or_app; now left|]. destruct K as [K|K]; [now left|right; apply in_or_app; now left].
Qed.
Lemma cached_registered evs j k : cached evs j -> registered evs k -> cached evs k.
Proof.
  intros (e1 & e2 & -> & N & R & L & _) RK. exists e1, e2. split; [reflexivity|]. split; [exact N|]. split; [exact R|]. split; [exact L|]. left.
  apply registered_app in RK. destruct RK as [RK|RK]; [exact RK|now apply N].
Qed.
Lemma cached_register evs c k : cached (evs ++ [Register c]) k -> cached evs k /\ forall j, hex_value c = Some j -> registered evs j.
Proof.
  intros (e1 & e2 & E & N & R & (h & L) & K). destruct (snoc_split evs e1 e2 _ E) as (e & -> & ->); [intros ->; destruct L|].
  assert (L' : In (Lookup h) e) by (apply in_app_or in L; destruct L as [L|[L|[]]]; [exact L|discriminate L]).
  split.
  - exists e1, e. split; [reflexivity|]. split; [intros j RJ; apply N, registered_app; now left|]. split; [exact R|]. split; [now exists h|]. destruct K as [K|K]; [now left|]. apply in_app_or in K. destruct K as [K|[K|[]]]; [now right|discriminate K].
  - intros j H. apply registered_app. left. apply N, registered_app. right. now apply registered_one.
Qed.
Lemma cached_lookup evs h k : cached (evs ++ [Lookup h]) k -> (exists j, registered evs j) /\ (cached evs k \/ registered evs k \/ k = h).
Proof.
  intros (e1 & e2 & E & N & R & (x & L) & K). destruct (snoc_split evs e1 e2 _ E) as (e & -> & ->); [intros ->; destruct L|].
  split; [destruct R as [j R]; exists j; apply registered_app; now left|].
  destruct K as [K|K]; [right; left; apply registered_app; now left|]. apply in_app_or in K. destruct K as [K|[K|[]]]; [left|right; right; congruence].
  exists e1, e. split; [reflexivity|]. split; [intros j RJ; apply N, registered_app; now left|]. split; [exact R|]. split; [now exists k|now right].
Qed.
Lemma now_cached evs h k : (exists j, registered evs j) -> registered evs k \/ k = h -> cached (evs ++ [Lookup h]) k.
Proof.
  intros R K. exists evs, [Lookup h]. split; [reflexivity|]. split; [intros j RJ; now apply registered_lookup in RJ|]. split; [exact R|]. split; [exists h; now left|].
  destruct K as [K|K]; [now left|right; left; congruence].
Qed.
Lemma table_counts evs : NoDup (keys (ap_lookup (after evs approx_init))) /\ (forall k, In k (keys (ap_lookup (after evs approx_init))) <-> registered evs k) /\
  NoDup (keys (ap_cache (after evs approx_init))) /\ (forall k, In k (keys (ap_cache (after evs approx_init))) <-> cached evs k).
Proof.
  induction evs as [|e evs IH] using rev_ind.
  - cbn. split; [constructor|]. split; [intros k; split; [easy|intros (c & [] & _)]|]. split; [constructor|]. intros k. split; [easy|].
    intros (e1 & e2 & E & _ & _ & (h & L) & _). symmetry in E. apply app_eq_nil in E. destruct E as [_ ->]. destruct L.
  - rewrite after_app. set (a := after evs approx_init) in *. destruct IH as (T1 & T2 & C1 & C2). destruct e as [c|h]; cbn [after].
    + unfold add_to_map. assert (RE : forall k, registered (evs ++ [Register c]) k <-> registered evs k \/ hex_value c = Some k) by (intros k; now rewrite registered_app, registered_one).
      assert (OLD : (forall j, hex_value c = Some j -> registered evs j) -> NoDup (keys (ap_lookup a)) /\ (forall k, In k (keys (ap_lookup a)) <-> registered (evs ++ [Register c]) k) /\
         NoDup (keys (ap_cache a)) /\ (forall k, In k (keys (ap_cache a)) <-> cached (evs ++ [Register c]) k)).
      { intros O. split; [exact T1|]. split; [intros k; rewrite RE, T2; split; [tauto|intros [H|H]; [exact H|now apply O]]|]. split; [exact C1|].
        intros k. rewrite C2. split; [apply cached_more; intros j RJ; apply O; now apply registered_one|intros H; now apply cached_register in H]. }
      destruct (hex_value c) as [v|] eqn:EV; [|apply OLD; discriminate]. unfold zdict_has. destruct (zdict_get v (ap_lookup a)) eqn:EG.
      * apply OLD. intros j EJ. injection EJ as <-. apply T2, get_key. congruence.
      * assert (NR : ~ registered evs v) by (intros H; apply T2, get_key in H; congruence). cbn [ap_lookup ap_cache]. destruct (set_keys v c (ap_lookup a) T1) as [S1 S2].
        split; [exact S1|]. split; [intros k; rewrite S2, T2, RE; split; [intros [->|H]; tauto|intros [H|H]; [tauto|left; congruence]]|]. split; [constructor|].
        intros k. split; [easy|]. intros H. apply cached_register in H. destruct H as [_ H]. exfalso. apply NR, H. exact EV.
    + assert (RE : forall k, registered (evs ++ [Lookup h]) k <-> registered evs k) by (intros k; rewrite registered_app; split; [intros [H|H]; [exact H|now apply registered_lookup in H]|now left]).
      assert (MORE : forall k, cached evs k -> cached (evs ++ [Lookup h]) k) by (intros k; apply cached_more; intros j RJ; now apply registered_lookup in RJ).
      rewrite find_table. split; [exact T1|]. split; [intros k; now rewrite RE|].
      unfold find_closest. destruct (zdict_get h (ap_cache a)) as [p|] eqn:EG.
      * cbn [snd]. assert (CH : cached evs h) by (apply C2, get_key; congruence). split; [exact C1|]. intros k. rewrite C2. split; [apply MORE|].
        intros H. apply cached_lookup in H. destruct H as [_ [H|[H| ->]]]; [exact H|now apply (cached_registered evs h)|exact CH].
      * set (ca := match ap_cache a with [] => ap_lookup a | c => c end).
        assert (CA : NoDup (keys ca) /\ forall k, In k (keys ca) <-> cached evs k \/ (registered evs k /\ ap_cache a = [])).
        { unfold ca. destruct (ap_cache a) as [|x l] eqn:EC.
          - split; [exact T1|]. intros k. rewrite T2, <- C2. cbn [keys map In]. tauto.
          - split; [exact C1|]. intros k. rewrite C2. split; [tauto|]. intros [H|[_ H]]; [exact H|discriminate H]. }
        destruct CA as [CA1 CA2]. destruct ca as [|x l] eqn:ECA.
        { assert (TE : ap_lookup a = []). { unfold ca in ECA. destruct (ap_cache a); [exact ECA|discriminate]. }
          cbn [snd ap_cache]. split; [constructor|]. intros k. split; [easy|]. intros H. apply cached_lookup in H. destruct H as [[j R] _]. apply T2 in R. rewrite TE in R. destruct R. }
        assert (TN : ap_lookup a <> []).
        { intros TE. assert (X : In (fst x) (keys (x :: l))) by (now left). apply CA2 in X. destruct X as [(e1 & e2 & -> & _ & (j & R) & _)|[R _]].
          - assert (R' : registered (e1 ++ e2) j) by (apply registered_app; now left). apply T2 in R'. rewrite TE in R'. destruct R'.
          - apply T2 in R. rewrite TE in R. destruct R. }
        destruct (approximate_best (mkApprox (ap_lookup a) (x :: l)) h TN) as (p & _ & AP). rewrite AP. cbn [snd ap_cache].
        destruct (set_keys h (snd p) (x :: l) CA1) as [S1 S2]. split; [exact S1|].
        assert (RX : exists j, registered evs j). { destruct (ap_lookup a) as [|y t]; [easy|]. exists (fst y). apply T2. now left. }
        intros k. rewrite S2, CA2. split.
        -- intros [->|[H|[H _]]]; [apply now_cached; [exact RX|now right]|now apply MORE|apply now_cached; [exact RX|now left]].
        -- intros H. apply cached_lookup in H. destruct H as [_ [H|[H|H]]]; [tauto| |tauto]. right. destruct (ap_cache a) as [|y t] eqn:EC; [tauto|]. left.
           apply (cached_registered evs (fst y)); [|exact H]. apply C2. now left.
Qed.
Lemma table_text evs : table_shown evs (repr_approximator (after evs approx_init)).
Proof.
  destruct (table_counts evs) as (T1 & T2 & C1 & C2).
  exists (dec (N.of_nat (List.length (ap_lookup (after evs approx_init))))), (dec (N.of_nat (List.length (ap_cache (after evs approx_init))))). split; [reflexivity|].
  split; eexists; (split; [apply read_dec|]).
  - exists (keys (ap_lookup (after evs approx_init))). split; [exact T1|]. split; [apply map_length|exact T2].
  - exists (keys (ap_cache (after evs approx_init))). split; [exact C1|]. split; [apply map_length|exact C2].
Qed.
Lemma refs_alike : exists x y, elem_eqb x y = true /\ repr_elem x <> repr_elem y.
Proof. exists (EStart [1]), (EStop [31]). split; [reflexivity|]. intros E. apply elems_apart in E. discriminate E. Qed.
Lemma segments_alike : exists s t, elem_eqb (ESeg s) (ESeg t) = false /\ repr_elem (ESeg s) = repr_elem (ESeg t).
Proof. exists (mkSeg [31] (txt "C") [7] (txt "x")), (mkSeg [32] (txt "C") [7] (txt "x")). split; reflexivity. Qed.
Lemma chain_example : repr_elem (ESeg (mkSeg [31] (txt "E") [27; 91] (txt "]->["))) = txt "Segment[1b 5b]->[]->[]" /\ elem_ok (ESeg (mkSeg [31] (txt "E") [27; 91] (txt "]->["))) /\
  repr_elem (EOnce []) = txt "OneUseSequenceRef::SGR[~]" /\
  repr_approximator (after [Register (ColorRGB (Some 255%Z)); Lookup 3; Register (ColorRGB (Some 1%Z)); Register (ColorRGB (Some 255%Z)); Lookup 7; Lookup 1; Lookup 7] approx_init) = txt "Approximator[lookup 2, cached 3]".
Proof. split; [reflexivity|]. split; [repeat constructor|]. split; reflexivity. Qed.
