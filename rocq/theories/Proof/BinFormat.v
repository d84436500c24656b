(** The binary formatter writes the rows of the specification *)
From Coq Require Import List Arith NArith ZArith Bool Lia.
From Verif.Model Require Import Base Ansi Strip Settings Segment Template Console Formatter Runner.
From Verif.Spec Require Import Numbers Terminal Sgr Lexical SgrParams Display Output.
From Verif.Proof Require Import BaseFacts TermFacts ClosingFacts LexFacts TokFacts PaintFacts DisplayFacts BinDisplay TextDisplay BufFacts BufHistory ConsoleFacts TextFormat.
Import ListNotations.
Local Open Scope N_scope.

Definition cells3 (segs : list segment) : list bcell := flat_map seg_cells3 segs.

Lemma skipn_add {A} n m (l : list A) : skipn n (skipn m l) = skipn (m + n) l.
Proof. revert l. induction m as [|m IH]; intros l; [reflexivity|]. destruct l; [now rewrite !skipn_nil|]. apply IH. Qed.
Lemma combine_app {A B} (a a' : list A) (b b' : list B) : length a = length b -> combine (a ++ a') (b ++ b') = combine a b ++ combine a' b'.
Proof. revert b. induction a as [|x a IH]; intros [|y b] H; cbn in *; try discriminate; [reflexivity|]. f_equal. apply IH. lia. Qed.

Lemma cells3_bytes g : good_bin g -> map (fun x => fst (fst x)) (seg_cells3 g) = seg_raw g.
Proof.
  intros (_ & _ & H & _). unfold seg_cells3. revert H. generalize (seg_raw g) (seg_proc g). intros r.
  induction r as [|b r IH]; intros [|c p] H; cbn in *; try discriminate; [reflexivity|]. f_equal. apply IH. lia.
Qed.
Lemma cells3_length g : good_bin g -> length (seg_cells3 g) = length (seg_raw g).
Proof. intros H. rewrite <- (cells3_bytes g H). now rewrite map_length. Qed.
Lemma cells3_all_bytes segs : Forall good_bin segs -> map (fun x => fst (fst x)) (cells3 segs) = raw_of segs.
Proof. induction 1 as [|g l Hg H IH]; [reflexivity|]. etransitivity; [apply (map_app _ (seg_cells3 g))|]. exact (f_equal2 (@app N) (cells3_bytes g Hg) IH). Qed.
Lemma cells3_all_length segs : Forall good_bin segs -> length (cells3 segs) = length (raw_of segs).
Proof. intros H. rewrite <- (cells3_all_bytes segs H), map_length. reflexivity. Qed.

(** ** cutting *)
Lemma split_cells3 g n l r : good_bin g -> (0 < n)%Z -> (n < data_len g)%Z -> seg_split g n = Ok (l, r) ->
  good_bin l /\ good_bin r /\ seg_cells3 l ++ seg_cells3 r = seg_cells3 g /\ zlen (seg_raw l) = n.
Proof.
  intros (H1 & H2 & H3 & H4) Hn Hl HS. unfold data_len, zlen in Hl. unfold seg_split in HS. destruct (is_consistent g); [|discriminate]. cbn [negb] in HS. injection HS as <- <-.
  unfold py_take, py_drop. destruct (Z.ltb_spec n 0); [lia|]. set (m := Z.to_nat n). assert (Hm : (0 < m < length (seg_raw g))%nat) by lia.
  assert (L1 : length (firstn m (seg_raw g)) = m) by (rewrite firstn_length; lia).
  assert (L2 : length (firstn m (seg_proc g)) = m) by (rewrite firstn_length; lia).
  split; [|split; [|split]].
  - repeat split; cbn [seg_open seg_raw seg_proc]; auto; try lia.
    + intros K. rewrite K in L1. cbn in L1. lia.
    + now apply firstn_Forall.
  - repeat split; cbn [seg_open seg_raw seg_proc]; auto.
    + intros K. apply (f_equal (@length N)) in K. rewrite skipn_length in K. cbn in K. lia.
    + rewrite !skipn_length. lia.
    + apply Forall_forall. intros x Hx. rewrite Forall_forall in H4. apply H4. rewrite <- (firstn_skipn m (seg_proc g)). apply in_or_app. now right.
  - unfold seg_cells3. cbn [seg_open seg_raw seg_proc]. set (a := sgr_apply (seg_open g) attrs0).
    transitivity (combine (combine (firstn m (seg_raw g) ++ skipn m (seg_raw g)) (firstn m (seg_proc g) ++ skipn m (seg_proc g)))
                    (repeat a (length (firstn m (seg_raw g))) ++ repeat a (length (skipn m (seg_raw g))))).
    + rewrite combine_app by lia. rewrite combine_app; [reflexivity|]. rewrite combine_length, repeat_length. lia.
    + rewrite !firstn_skipn, <- repeat_app, <- app_length, firstn_skipn. reflexivity.
  - unfold zlen. cbn [seg_raw]. lia.
Qed.

Lemma cut_cells3 segs n : Forall good_bin segs -> (0 <= n)%Z ->
  exists p r, cut n segs = Ok (p, r) /\ Forall good_bin p /\ Forall good_bin r /\
    cells3 p = firstn (Z.to_nat n) (cells3 segs) /\ cells3 r = skipn (Z.to_nat n) (cells3 segs).
Proof.
  intros H. revert n. induction H as [|g t Hg H IH]; intros n Hn.
  - exists [], []. cbn [cut cells3 flat_map]. rewrite firstn_nil, skipn_nil. auto.
  - cbn [cut]. destruct (Z.eqb_spec n 0) as [->|Hn0].
    + exists [], (g :: t). cbn [Z.to_nat firstn skipn]. auto.
    + pose proof (cells3_length g Hg) as LG. cbn [cells3 flat_map]. fold (cells3 t). destruct (Z.leb_spec (data_len g) n) as [Hle|Hlt].
      * destruct (IH (n - data_len g)%Z ltac:(lia)) as (p & r & -> & I1 & I2 & I3 & I4). cbn [bind].
        exists (g :: p), r. repeat split; auto.
        -- cbn [cells3 flat_map]. fold (cells3 p). rewrite I3. unfold data_len, zlen in *. rewrite firstn_app. rewrite (firstn_all2 (seg_cells3 g)) by lia. f_equal. f_equal. lia.
        -- rewrite I4. unfold data_len, zlen in *. rewrite skipn_app. rewrite (skipn_all2 (seg_cells3 g)) by lia. cbn [app]. f_equal. lia.
      * assert (IC : is_consistent g = true) by (apply Nat.eqb_eq; symmetry; apply Hg).
        destruct (seg_split g n) as [[l r]|x] eqn:SP; [|unfold seg_split in SP; rewrite IC in SP; discriminate]. cbn [bind].
        destruct (split_cells3 g n l r Hg ltac:(lia) Hlt SP) as (Gl & Gr & E & Ln). exists [l], (r :: t). repeat split; auto.
        -- cbn [cells3 flat_map]. rewrite app_nil_r. unfold data_len, zlen in *. rewrite <- E, <- app_assoc. pose proof (cells3_length l Gl).
           rewrite firstn_app. rewrite (firstn_all2 (seg_cells3 l)) by lia. replace (Z.to_nat n - length (seg_cells3 l))%nat with 0%nat by lia.
           cbn [firstn]. now rewrite app_nil_r.
        -- cbn [cells3 flat_map]. fold (cells3 t). unfold data_len, zlen in *. rewrite <- E, <- app_assoc. pose proof (cells3_length l Gl).
           rewrite skipn_app. rewrite (skipn_all2 (seg_cells3 l)) by lia. replace (Z.to_nat n - length (seg_cells3 l))%nat with 0%nat by lia. reflexivity.
Qed.

(** ** painting *)
Lemma wrap_good fn g : good_open (seg_open g) -> wrap fn g = assemble (seg_open g) ++ fn g ++ assemble (closing_seq (seg_open g)).
Proof.
  intros G. unfold wrap. destruct (no_formatting (seg_open g)) eqn:NF; [|reflexivity].
  rewrite (no_formatting_zeros _ NF G). cbn. now rewrite app_nil_r.
Qed.
Lemma wrap_painted fn g cells : good_open (seg_open g) -> Forall (fun c => c <> 27) (fn g) ->
  cells = styled (sgr_apply (seg_open g) attrs0) (fn g) ->
  Painted attrs0 (wrap fn g) attrs0 (map to_cell cells).
Proof.
  intros G H ->. rewrite wrap_good by exact G. change (assemble (seg_open g) ++ fn g ++ assemble (closing_seq (seg_open g))) with (span_wrap (seg_open g) (fn g)).
  now apply Painted_span.
Qed.
Lemma hex_painted g : good_bin g -> Painted attrs0 (wrap seg_raw_to_hex g) attrs0 (map to_cell (flat_map hex_cells (seg_cells3 g))).
Proof.
  intros (H1 & H2 & H3 & H4). apply wrap_painted; [exact H1| |].
  - unfold seg_raw_to_hex. apply Forall_forall. intros c Hc. apply in_flat_map in Hc as (b & _ & [<-|Hc]); [easy|].
    pose proof (hex_no27 2 b) as K. rewrite Forall_forall in K. auto.
  - unfold seg_cells3, seg_raw_to_hex. set (a := sgr_apply (seg_open g) attrs0). clearbody a. revert H3. generalize (seg_raw g) (seg_proc g). intros r.
    induction r as [|b r IH]; intros [|c p] H3; cbn [length] in *; try discriminate; [reflexivity|]. cbn [repeat combine flat_map]. rewrite styled_app, <- (IH p) by lia. reflexivity.
Qed.
Lemma chars_painted g : good_bin g -> Painted attrs0 (wrap seg_processed_noop g) attrs0 (map to_cell (map char_cell (seg_cells3 g))).
Proof.
  intros (H1 & H2 & H3 & H4). apply wrap_painted; [exact H1|exact H4|].
  unfold seg_cells3, seg_processed_noop. set (a := sgr_apply (seg_open g) attrs0). clearbody a. revert H3. generalize (seg_raw g) (seg_proc g). intros r.
  induction r as [|b r IH]; intros [|c p] H3; cbn [length] in *; try discriminate; [reflexivity|]. cbn [repeat combine map]. rewrite (IH p) by lia. reflexivity.
Qed.
Lemma all_painted fn (f : list bcell -> list tcell) segs :
  (forall a b, f (a ++ b) = f a ++ f b) -> f [] = [] ->
  (forall g, good_bin g -> Painted attrs0 (wrap fn g) attrs0 (map to_cell (f (seg_cells3 g)))) ->
  Forall good_bin segs -> Painted attrs0 (flat_map (wrap fn) segs) attrs0 (map to_cell (f (cells3 segs))).
Proof.
  intros Fa F0 Hp H. induction H as [|g l Hg H IH]; cbn [flat_map cells3]; [rewrite F0; constructor|].
  rewrite Fa, map_app. eapply Painted_app; [now apply Hp|exact IH].
Qed.

Lemma justify_spec n : justify_raw n = repeat 32 (3 * Z.to_nat n).
Proof.
  unfold justify_raw. generalize (Z.to_nat n). intros m.
  assert (K : forall k, flat_map (fun _ : nat => [32; 32; 32]) (seq k m) = repeat 32 (3 * m)).
  { induction m as [|m IH]; intros k; [reflexivity|]. cbn [seq flat_map]. rewrite IH. replace (3 * S m)%nat with (3 + 3 * m)%nat by lia. rewrite repeat_app. reflexivity. }
  apply K.
Qed.

Lemma row_painted s c els p off :
  format_elems seg_raw_to_hex els = flat_map (wrap seg_raw_to_hex) p ->
  format_elems seg_processed_noop els = flat_map (wrap seg_processed_noop) p ->
  Forall good_bin p ->
  Painted attrs0 (binary_row s (Z.of_nat c) (zlen (raw_of p)) els off) attrs0 (map to_cell (row_cells s c off (cells3 p))).
Proof.
  intros HH HC HG. unfold binary_row, write_with_offset, row_cells. rewrite with_offsets_spec, HH, HC, !to_cell_map_app.
  eapply Painted_app.
  { destruct (with_offsets s); [|constructor]. apply prefix_painted; try reflexivity. solve_good. }
  rewrite <- !app_assoc.
  eapply Painted_app; [apply (all_painted seg_raw_to_hex (flat_map hex_cells)); auto using hex_painted; intros; apply flat_map_app|].
  eapply Painted_app.
  { rewrite justify_spec, (cells3_all_length p HG). unfold zlen. replace (Z.to_nat (Z.of_nat c - Z.of_nat (length (raw_of p)))) with (c - length (raw_of p))%nat by lia.
    apply Painted_plain, repeat_no27. }
  cbn [app map]. apply Pt_chr; [easy|]. change (to_cell (if with_offsets s then bar s else (32, attrs0)) :: ?x) with ([to_cell (if with_offsets s then bar s else (32, attrs0))] ++ x).
  eapply Painted_app.
  { destruct (with_offsets s); [apply separator_painted|]. apply Pt_chr; [easy|constructor]. }
  eapply Painted_app; [apply (all_painted seg_processed_noop (map char_cell)); auto using chars_painted; intros; apply map_app|].
  apply Pt_chr; [easy|constructor].
Qed.

(** ** groups *)
Lemma grouped_fuel {A} c (l : list A) f1 f2 : (0 < c)%nat -> (length l <= f1)%nat -> (length l <= f2)%nat -> grouped f1 c l = grouped f2 c l.
Proof.
  intros Hc. revert l f2. induction f1 as [|f1 IH]; intros l [|f2] H1 H2; cbn [grouped]; try reflexivity.
  - destruct l; [reflexivity|cbn in H1; lia].
  - destruct l; [reflexivity|cbn in H2; lia].
  - destruct l as [|x l]; [reflexivity|]. f_equal. apply IH; rewrite skipn_length; cbn [length] in *; lia.
Qed.
Lemma groups_nil {A} c : groups c (@nil A) = [].
Proof. reflexivity. Qed.
Lemma groups_cons {A} c (l : list A) : (0 < c)%nat -> l <> [] -> groups c l = firstn c l :: groups c (skipn c l).
Proof.
  intros Hc Hl. unfold groups. destruct l as [|x l]; [easy|]. cbn [length grouped]. f_equal.
  apply grouped_fuel; [exact Hc| |lia]. rewrite skipn_length. cbn [length]. lia.
Qed.
Lemma groups_app {A} c (a b : list A) k : (0 < c)%nat -> length a = (k * c)%nat -> groups c (a ++ b) = groups c a ++ groups c b.
Proof.
  intros Hc. revert a. induction k as [|k IH]; intros a Ha.
  - destruct a; [reflexivity|cbn in Ha; lia].
  - assert (a <> []) by (intros ->; cbn in Ha; lia). assert (La : (c <= length a)%nat) by lia.
    rewrite (groups_cons c (a ++ b)) by (auto; intros K; apply app_eq_nil in K; easy).
    rewrite (groups_cons c a) by auto. rewrite firstn_app, skipn_app.
    replace (c - length a)%nat with 0%nat by lia. cbn [firstn skipn app]. rewrite app_nil_r. f_equal. apply IH. rewrite skipn_length. lia.
Qed.
Lemma groups_short {A} r c (l : list A) : (0 < r)%nat -> (0 < c)%nat -> (length l <= r)%nat -> (length l <= c)%nat -> groups r l = groups c l.
Proof.
  intros Hr Hc H1 H2. destruct l as [|x l]; [reflexivity|]. rewrite (groups_cons r), (groups_cons c) by easy.
  rewrite !firstn_all2, !skipn_all2 by assumption. reflexivity.
Qed.
Lemma groups_concat {A} c (l : list A) : (0 < c)%nat -> concat (groups c l) = l.
Proof.
  intros Hc. remember (length l) as n eqn:Hn. revert l Hn. induction n as [n IH] using lt_wf_ind. intros l ->.
  destruct l as [|x l]; [reflexivity|]. rewrite groups_cons by easy. cbn [concat]. rewrite (IH (length (skipn c (x :: l)))); [apply firstn_skipn| |reflexivity].
  rewrite skipn_length. cbn [length]. lia.
Qed.
Lemma rows_cells_app s c off a b : rows_cells s c off (a ++ b) = rows_cells s c off a ++ rows_cells s c (off + N.of_nat (length (concat a))) b.
Proof.
  revert off. induction a as [|r a IH]; intros off; cbn [app rows_cells concat length]; [now rewrite N.add_0_r|].
  rewrite IH. do 2 f_equal. rewrite app_length. f_equal. lia.
Qed.

(** complete rows *)
Definition whole {A} (closed : bool) (r : nat) (l : list A) : nat := if closed then length l else (length l / r * r)%nat.
Lemma whole_le {A} closed r (l : list A) : (0 < r)%nat -> (whole closed r l <= length l)%nat.
Proof. intros Hr. unfold whole. destruct closed; [lia|]. pose proof (Nat.mul_div_le (length l) r ltac:(lia)). lia. Qed.
Lemma whole_step {A} closed r (l : list A) : (0 < r)%nat -> (r <= length l)%nat -> whole closed r l = (r + whole closed r (skipn r l))%nat.
Proof.
  intros Hr Hl. unfold whole. rewrite skipn_length. destruct closed; [lia|].
  replace (length l) with (length l - r + 1 * r)%nat at 1 by lia. rewrite Nat.div_add by lia. lia.
Qed.

(** ** the loop *)
Lemma binary_loop_spec s c r closed : (0 < r)%nat -> forall n segs sb off w fuel,
  n = length (cells3 segs) -> Forall good_bin segs -> Rep sb segs -> (n < fuel)%nat ->
  exists out sb' segs', let m := whole closed r (cells3 segs) in
    binary_loop fuel s (Z.of_nat c) (Z.of_nat r) closed sb off w = Fin (w ++ out, sb', off + N.of_nat m) /\
    Rows out (rows_cells s c off (groups r (firstn m (cells3 segs)))) /\
    Forall good_bin segs' /\ Rep sb' segs' /\ cells3 segs' = skipn m (cells3 segs).
Proof.
  intros Hr. induction n as [n IH] using lt_wf_ind. intros segs sb off w fuel Hn HG HR Hf. cbv zeta.
  destruct fuel as [|fuel]; [lia|]. cbn [binary_loop].
  pose proof (cells3_all_length segs HG) as LG.
  assert (HC : Forall consistent segs) by (eapply Forall_impl; [|exact HG]; intros g (_ & _ & K & _); now symmetry).
  pose proof (detach_bytes_spec sb segs (Z.of_nat r) closed seg_raw_to_hex HR ltac:(lia) HC) as D1.
  pose proof (detach_bytes_spec sb segs (Z.of_nat r) closed seg_processed_noop HR ltac:(lia) HC) as D2.
  destruct ((Z.of_nat r <=? zlen (raw_of segs))%Z || closed)%bool eqn:EW.
  - destruct segs as [|g t].
    + rewrite D1. exists [], sb, []. rewrite app_nil_r. unfold whole, cells3. cbn [flat_map length firstn skipn].
      replace (if closed then 0%nat else (0 / r * r)%nat) with 0%nat by (destruct closed; [reflexivity|]; rewrite Nat.div_0_l by lia; reflexivity).
      rewrite N.add_0_r. repeat split; auto. apply Rows_nil.
    + set (segs := g :: t) in *.
      destruct D1 as (p & q & els & sb' & C1 & _ & _ & _ & E1 & R1 & _ & F1 & L1).
      destruct D2 as (p' & q' & els' & sb'' & C2 & _ & _ & _ & E2 & _ & _ & F2 & _).
      rewrite C1 in C2. injection C2 as <- <-. rewrite E1 in E2. injection E2 as <- <-. rewrite E1.
      destruct (cut_cells3 segs (Z.of_nat r) HG ltac:(lia)) as (p' & q' & C3 & Gp & Gq & P1 & P2). rewrite C1 in C3. injection C3 as <- <-.
      rewrite Nat2Z.id in P1, P2.
      assert (NE : (0 < length (cells3 segs))%nat).
      { subst segs. rewrite LG. inversion HG as [|x l Hx _]; subst. cbn [raw_of flat_map]. rewrite app_length. destruct Hx as (_ & Hx & _). destruct (seg_raw g); [easy|cbn [length]; lia]. }
      assert (Lp : length (raw_of p) = Nat.min r (length (cells3 segs))) by (rewrite <- (cells3_all_length p Gp), P1, firstn_length; reflexivity).
      destruct (IH (length (cells3 q)) ltac:(rewrite P2, skipn_length; lia) q sb' (off + Z.to_N (sb_last sb'))
                   (w ++ binary_row s (Z.of_nat c) (sb_last sb') els off) fuel eq_refl Gq R1 ltac:(rewrite P2, skipn_length; lia))
        as (out & sb2 & segs' & T1 & T2 & T3 & T4 & T5).
      exists (binary_row s (Z.of_nat c) (sb_last sb') els off ++ out), sb2, segs'. rewrite T1, L1. rewrite L1 in T2.
      set (l := cells3 segs) in *.
      assert (Ll : Z.to_N (zlen (raw_of p)) = N.of_nat (Nat.min r (length l))) by (unfold zlen; lia).
      (* either a complete row, or the last one *)
      assert (CaseL : (r <= length l)%nat \/ (closed = true /\ (length l < r)%nat)).
      { destruct (le_lt_dec r (length l)); [now left|right]. apply orb_true_iff in EW as [EW|EW]; [|auto]. apply Z.leb_le in EW. unfold zlen in EW. lia. }
      assert (Wm : whole closed r l = (Nat.min r (length l) + whole closed r (cells3 q))%nat).
      { destruct CaseL as [CL|[-> CL]]; [rewrite (whole_step closed r l Hr CL), P2; lia|]. unfold whole. rewrite P2, skipn_length. lia. }
      pose proof (whole_le closed r l Hr) as WL.
      split; [|split; [|split; [exact T3|split; [exact T4|]]]].
      * rewrite <- app_assoc, Ll, Wm. do 2 f_equal. lia.
      * rewrite (groups_cons r (firstn _ l)).
        2:exact Hr. 2:{ intros K. apply (f_equal (@length _)) in K. rewrite firstn_length in K. cbn [length] in K. lia. }
        cbn [rows_cells].
        assert (FF : firstn r (firstn (whole closed r l) l) = cells3 p).
        { rewrite P1, firstn_firstn. destruct CaseL as [CL|[-> CL]].
          - f_equal. lia.
          - rewrite !firstn_all2 by (unfold whole; lia). reflexivity. }
        assert (SS : skipn r (firstn (whole closed r l) l) = firstn (whole closed r (cells3 q)) (cells3 q)).
        { rewrite skipn_firstn_comm, P2, Wm, P2. destruct CaseL as [CL|[-> CL]].
          - f_equal. lia.
          - rewrite (skipn_all2 l) by lia. now rewrite !firstn_nil. }
        rewrite FF, SS. apply Rows_cons; [now apply row_painted|].
        rewrite (cells3_all_length p Gp). unfold zlen in T2. replace (off + N.of_nat (length (raw_of p))) with (off + Z.to_N (Z.of_nat (length (raw_of p)))) by lia. exact T2.
      * rewrite T5, P2, skipn_add, Wm, P2. destruct CaseL as [CL|[-> CL]].
        -- f_equal. lia.
        -- rewrite !skipn_all2 by lia. reflexivity.
  - rewrite D1. apply orb_false_iff in EW as [EW ->]. apply Z.leb_gt in EW. unfold zlen in EW.
    exists [], sb, segs. rewrite app_nil_r. unfold whole. rewrite Nat.div_small by lia. cbn [Nat.mul N.of_nat firstn skipn groups grouped length rows_cells map].
    rewrite N.add_0_r. repeat split; auto. apply Rows_nil.
Qed.

Lemma Rep_empty sb : Rep sb [] -> sb_chain sb = [].
Proof. intros [[_ H]|(g & t & H & _)]; [exact H|discriminate]. Qed.
Lemma Rep_chain sb segs : Rep sb segs -> (length segs <= length (sb_chain sb))%nat.
Proof.
  intros H. rewrite <- (Rep_segs sb segs H). unfold segs_of. induction (sb_chain sb) as [|e l IH]; [cbn; lia|].
  cbn [flat_map length]. rewrite app_length. destruct e; cbn [length]; lia.
Qed.

(** ** one call of the formatter *)
Definition rows_part (s : settings) (c : nat) (off : N) (closed : bool) (l : list bcell) : list (list tcell) :=
  rows_cells s c off (groups c (firstn (whole closed c l) l))
  ++ (if closed then total_cells s (off + N.of_nat (length l)) else []).

Lemma binary_format_spec s tc c closed sb segs off fuel :
  columns s tc = Z.of_nat c -> (0 < c)%nat ->
  Forall good_bin segs -> Rep sb segs -> (length (cells3 segs) < fuel)%nat ->
  exists out sb' segs', let m := whole closed c (cells3 segs) in
    binary_format fuel s tc closed sb off = Fin (out, sb', off + N.of_nat m) /\
    Rows out (rows_part s c off closed (cells3 segs)) /\
    Forall good_bin segs' /\ Rep sb' segs' /\ cells3 segs' = skipn m (cells3 segs).
Proof.
  intros HC Hc HG HR Hf. cbv zeta. unfold binary_format, rows_part. rewrite current_cols_spec, HC, with_offsets_spec.
  pose proof (cells3_all_length segs HG) as LG.
  destruct closed; cbn [andb].
  - assert (LC : chain_len (sb_chain sb) = Z.of_nat (length (cells3 segs))) by (rewrite (Rep_len sb segs HR), LG; reflexivity).
    rewrite LC.
    assert (LP : exists out sb' segs', binary_loop fuel s (Z.of_nat c) (Z.min (Z.of_nat (length (cells3 segs))) (Z.of_nat c)) true sb off [] = Fin (out, sb', off + N.of_nat (length (cells3 segs))) /\
      Rows out (rows_cells s c off (groups c (cells3 segs))) /\
      Forall good_bin segs' /\ Rep sb' segs' /\ cells3 segs' = []).
    { rewrite <- Nat2Z.inj_min. set (r := Nat.min (length (cells3 segs)) c). destruct (Nat.eq_dec r 0) as [Z0|Z0].
      - assert (length (cells3 segs) = 0%nat) as L0 by lia. destruct segs as [|g t].
        + exists [], sb, []. destruct fuel as [|fuel]; [cbn in Hf; lia|]. cbn [binary_loop]. unfold detach_bytes, detach.
          rewrite (Rep_empty sb HR). cbn. rewrite N.add_0_r. repeat split; auto. apply Rows_nil.
        + exfalso. inversion HG as [|x l Hx _]; subst. rewrite LG in L0. cbn [raw_of flat_map] in L0. rewrite app_length in L0. destruct Hx as (_ & Hx & _). destruct (seg_raw g); [easy|cbn [length] in L0; lia].
      - destruct (binary_loop_spec s c r true ltac:(lia) _ segs sb off [] fuel eq_refl HG HR Hf) as (out & sb' & segs' & T1 & T2 & T3 & T4 & T5).
        unfold whole in *. exists out, sb', segs'. rewrite T1. cbn [app]. rewrite firstn_all in T2. rewrite skipn_all in T5.
        repeat split; auto. assert (GE : groups r (cells3 segs) = groups c (cells3 segs)).
        { destruct (le_lt_dec (length (cells3 segs)) c); [apply groups_short; lia|]. replace r with c by lia. reflexivity. }
        now rewrite <- GE. }
    destruct LP as (out & sb' & segs' & T1 & T2 & T3 & T4 & T5). rewrite T1. unfold whole. rewrite firstn_all, skipn_all.
    unfold total_cells. destruct (with_offsets s) eqn:WO.
    + exists (out ++ write (format_total_size s (off + N.of_nat (length (cells3 segs))))), sb', segs'. split; [reflexivity|]. split; [|auto].
      apply Rows_app; [exact T2|]. apply Rows_one. unfold write, format_total_size. rewrite app_assoc, map_app. eapply Painted_app.
      * apply prefix_painted; try reflexivity. solve_good.
      * apply Pt_chr; [easy|constructor].
    + exists out, sb', segs'. rewrite app_nil_r. auto.
  - destruct (binary_loop_spec s c c false Hc _ segs sb off [] fuel eq_refl HG HR Hf) as (out & sb' & segs' & T1 & T2 & T3 & T4 & T5).
    exists out, sb', segs'. rewrite T1, app_nil_r. auto.
Qed.
