(** The offsets shown, however large they are. *)
From Coq Require Import List Arith NArith ZArith Bool Lia.
From Verif.Model Require Import Base Ansi Regex Settings Segment Template Parser Console Formatter Reader Runner Options.
From Verif.Spec Require Import Numbers Terminal Utf8 Lexical SgrParams Display Output Input Dump Fragments Compare.
From Verif.Proof Require Import BaseFacts LexFacts BinFormat RunMain LexClaims RunClaims BinClaims RunExtra ExampleFacts.
Import ListNotations.
Local Open Scope N_scope.

Lemma num_value_app b x y : num_value b (x ++ y) = num_value b x * b ^ N.of_nat (length y) + num_value b y.
Proof.
  revert x. induction y as [|d y IH] using rev_ind; intros x.
  - rewrite app_nil_r. cbn. lia.
  - rewrite app_assoc, !num_value_snoc, IH, app_length. cbn [length].
    replace (N.of_nat (length y + 1)) with (N.succ (N.of_nat (length y))) by lia. rewrite N.pow_succ_r'. lia.
Qed.
Lemma num_value_bound b x : 2 <= b -> Forall (fun d => d < b) x -> num_value b x < b ^ N.of_nat (length x).
Proof.
  intros Hb. induction x as [|d x IH] using rev_ind; intros H; [cbn; lia|].
  apply Forall_app in H as [H1 H2]. inversion H2; subst. rewrite num_value_snoc, app_length. cbn [length].
  replace (N.of_nat (length x + 1)) with (N.succ (N.of_nat (length x))) by lia. rewrite N.pow_succ_r'.
  specialize (IH H1). nia.
Qed.
Lemma digit_values_firstn m s ds : digit_values s = Some ds -> digit_values (firstn m s) = Some (firstn m ds).
Proof.
  revert s ds. induction m as [|m IH]; intros s ds H; [reflexivity|]. destruct s as [|c s]; cbn in H; [now injection H as <-|].
  destruct (digit_value c) as [d|] eqn:E; [|discriminate]. destruct (digit_values s) as [r|] eqn:F; [|discriminate]. injection H as <-.
  cbn. now rewrite E, (IH s r F).
Qed.
Lemma digit_values_length s ds : digit_values s = Some ds -> length ds = length s.
Proof.
  revert ds. induction s as [|c s IH]; intros ds H; cbn in H; [now injection H as <-|].
  destruct (digit_value c) as [d|]; [|discriminate]. destruct (digit_values s) as [r|]; [|discriminate]. injection H as <-.
  cbn. f_equal. now apply IH.
Qed.

(** the first digits of a numeral *)
Lemma read_number_firstn b s n m : 2 <= b -> (0 < m)%nat -> read_number b s = Some n ->
  read_number b (firstn m s) = Some (n / b ^ N.of_nat (length s - m)).
Proof.
  intros Hb Hm H. unfold read_number in *. destruct s as [|c s]; [discriminate|]. destruct m as [|m]; [lia|].
  destruct (digit_values (c :: s)) as [ds|] eqn:E; [|discriminate].
  destruct (forallb (fun d => d <? b) ds) eqn:F; [|discriminate]. injection H as <-.
  rewrite (digit_values_firstn (S m) _ _ E). cbn [firstn]. rewrite forallb_forall in F.
  assert (K : Forall (fun d => d < b) ds) by (apply Forall_forall; intros d Hd; apply N.ltb_lt; auto).
  rewrite <- (firstn_skipn (S m) ds) in K at 1. apply Forall_app in K as [K1 K2].
  rewrite forallb_lt by exact K1. f_equal. rewrite <- (firstn_skipn (S m) ds) at 2. rewrite num_value_app.
  rewrite skipn_length, (digit_values_length _ _ E).
  rewrite N.div_add_l by (apply N.pow_nonzero; lia).
  rewrite N.div_small; [now rewrite N.add_0_r|]. pose proof (num_value_bound b _ Hb K2) as B. now rewrite skipn_length, (digit_values_length _ _ E) in B.
Qed.

Lemma hex_length off : length (fmt_hex_lo (hex_width off) off) = hex_width off.
Proof.
  apply fmt_hex_lo_length; [unfold hex_width; lia|].
  assert (L : off < 10 ^ N.of_nat (length (dec off))).
  { apply dec_length; [|lia]. pose proof (dec_nonempty off). destruct (dec off); [easy|cbn; lia]. }
  eapply N.lt_le_trans; [exact L|]. eapply N.le_trans; [apply (N.pow_le_mono_l 10 16); lia|]. apply N.pow_le_mono_r; [lia|].
  unfold hex_width. pose proof (Nat.div_mod (length (dec off) + 1) 2 ltac:(lia)). pose proof (Nat.mod_upper_bound (length (dec off) + 1) 2 ltac:(lia)). lia.
Qed.
Lemma dec_length_exact off k : (1 < k)%nat -> off < 10 ^ N.of_nat k -> 10 ^ N.of_nat (k - 1) <= off -> length (dec off) = k.
Proof.
  intros Hk H1 H2. apply dec_length in H1; [|lia].
  assert (~ (length (dec off) <= k - 1)%nat) by (intros H; apply dec_length in H; lia). lia.
Qed.

Lemma shown_cells s a off v rest : Shown_offset s off v -> read_offset s (map fst (offset_cells s a off) ++ rest) = Some v.
Proof.
  intros (k & H). unfold read_offset. rewrite firstn_app.
  rewrite firstn_all2 by (rewrite map_length, offset_cells_length; lia).
  rewrite map_length, offset_cells_length. cbn [Nat.sub firstn]. rewrite app_nil_r.
  unfold offset_cells. destruct (s_decimal_offsets s).
  - destruct H as (H1 & H2 & ->). rewrite map_fst_styled. unfold aligned.
    rewrite skip_blanks_aligned.
    2:{ destruct (dec_head off) as (c & t & E & N). rewrite E. cbn [firstn]. eauto. }
    rewrite (read_number_firstn 10 _ off 8) by (try lia; apply read_dec). f_equal. f_equal. f_equal.
    assert (U : (length (dec off) <= 8 + N.to_nat k)%nat) by (apply dec_length; [lia|]; replace (N.of_nat (8 + N.to_nat k)) with (8 + k) by lia; exact H1).
    destruct H2 as [->|H2]; [lia|].
    assert (~ (length (dec off) <= 7 + N.to_nat k)%nat).
    { intros H. apply dec_length in H; [|lia]. replace (N.of_nat (7 + N.to_nat k)) with (7 + k) in H by lia. lia. }
    lia.
  - destruct H as (H1 & H2 & ->). cbv zeta. rewrite !map_app, !map_fst_styled.
    rewrite skip_blanks_aligned by (do 2 eexists; split; [reflexivity|easy]). cbn [app].
    rewrite (read_number_firstn 16 _ off 6) by (try lia; apply read_hex_lo). f_equal. rewrite hex_length.
    change 256 with (16 ^ 2). rewrite <- N.pow_mul_r. f_equal. f_equal.
    assert (U : (length (dec off) <= 6 + 2 * N.to_nat k)%nat) by (apply dec_length; [lia|]; replace (N.of_nat (6 + 2 * N.to_nat k)) with (6 + 2 * k) by lia; exact H1).
    unfold hex_width.
    pose proof (Nat.div_mod (length (dec off) + 1) 2 ltac:(lia)). pose proof (Nat.mod_upper_bound (length (dec off) + 1) 2 ltac:(lia)).
    destruct H2 as [->|H2]; [lia|].
    assert (~ (length (dec off) <= 4 + 2 * N.to_nat k)%nat).
    { intros H3. apply dec_length in H3; [|lia]. replace (N.of_nat (4 + 2 * N.to_nat k)) with (4 + 2 * k) in H3 by lia. lia. }
    lia.
Qed.

Lemma shown_exists s off : exists v, Shown_offset s off v.
Proof.
  unfold Shown_offset. assert (L : off < 10 ^ N.of_nat (length (dec off))).
  { apply dec_length; [|lia]. pose proof (dec_nonempty off). destruct (dec off); [easy|cbn; lia]. }
  assert (G : forall m, (m < length (dec off))%nat -> (0 < m)%nat -> 10 ^ N.of_nat m <= off).
  { intros m Hm Hp. apply N.nlt_ge. intros K. apply dec_length in K; lia. }
  destruct (s_decimal_offsets s).
  - set (k := N.of_nat (length (dec off) - 8)). exists (off / 10 ^ k), k. split; [|split; [|reflexivity]].
    + eapply N.lt_le_trans; [exact L|]. apply N.pow_le_mono_r; unfold k; lia.
    + destruct (Nat.le_gt_cases (length (dec off)) 8); [left; unfold k; lia|right].
      replace (7 + k) with (N.of_nat (length (dec off) - 1)) by (unfold k; lia). apply G; lia.
  - pose proof (Nat.div_mod (length (dec off) + 1) 2 ltac:(lia)). pose proof (Nat.mod_upper_bound (length (dec off) + 1) 2 ltac:(lia)).
    set (h := ((length (dec off) + 1) / 2)%nat) in *. set (k := N.of_nat (h - 3)). exists (off / 256 ^ k), k. split; [|split; [|reflexivity]].
    + eapply N.lt_le_trans; [exact L|]. apply N.pow_le_mono_r; unfold k; lia.
    + destruct (Nat.le_gt_cases h 3); [left; unfold k; lia|right].
      replace (4 + 2 * k) with (N.of_nat (2 * h - 2)) by (unfold k; lia). apply G; lia.
Qed.

(** the true offset is shown below the bound only *)
Lemma div_self_small off b k : 1 < b -> 0 < off -> off = off / b ^ k -> k = 0.
Proof.
  intros Hb Ho E. destruct (N.eq_dec k 0) as [|Hk]; [assumption|]. exfalso.
  assert (1 < b ^ k) by (rewrite <- (N.pow_0_r b); apply N.pow_lt_mono_r; lia).
  pose proof (N.div_lt off (b ^ k) Ho H). lia.
Qed.
Lemma pow_pos b k : 0 < b -> 0 < b ^ k.
Proof. intros H. apply N.neq_0_lt_0, N.pow_nonzero. lia. Qed.
Lemma shown_true s off : Shown_offset s off off <-> off < offset_bound s.
Proof.
  unfold Shown_offset, offset_bound. destruct (s_decimal_offsets s); split.
  - intros (k & H1 & [->|H2] & E); [exact H1|]. apply div_self_small in E; [subst k; exact H1|lia|].
    pose proof (pow_pos 10 (7 + k) ltac:(lia)). lia.
  - intros H. exists 0. split; [exact H|]. split; [now left|]. now rewrite N.div_1_r.
  - intros (k & H1 & [->|H2] & E); [exact H1|]. apply div_self_small in E; [subst k; exact H1|lia|].
    pose proof (pow_pos 10 (4 + 2 * k) ltac:(lia)). lia.
  - intros H. exists 0. split; [exact H|]. split; [now left|]. now rewrite N.div_1_r.
Qed.

(** ** runs *)
Lemma shown_column s c chunks toks out i line v : (0 < c)%nat -> Tokens chunks toks -> with_offsets s = true ->
  displays out (binary_rows s c (byte_cells s toks)) ->
  nth_error (data_lines s (visible out)) i = Some line -> Shown_offset s (N.of_nat (i * c)) v ->
  read_offset s line = Some v.
Proof.
  intros Hc HT HW HD HN HB. rewrite (displays_visible _ _ HD) in HN.
  rewrite data_lines_rows in HN by (auto; eapply byte_cells_chars; exact HT).
  rewrite nth_error_map in HN. unfold tcell in HN. destruct (@nth_error (list (N * attrs)) (rows_cells s c 0 (groups c (byte_cells s toks))) i) as [r|] eqn:E; [|discriminate]. cbn [option_map] in HN.
  injection HN as <-. apply rows_cells_nth in E as (g & E & ->). rewrite (groups_prefix _ _ _ _ Hc E). cbn [N.add].
  unfold row_cells. rewrite HW. rewrite <- !app_assoc, map_app. rewrite removelast_app by (cbn [app map]; easy).
  now apply shown_cells.
Qed.
Lemma shown_offset_run s tc c src evs chunks toks : opens src -> binary_ok s tc c -> Processed s evs chunks -> Finishes s evs -> Tokens chunks toks -> with_offsets s = true ->
  exists p acts, byteio_run s tc src evs = (p, acts, REnd) /\
    forall i line, nth_error (data_lines s (visible (pr_out p))) i = Some line ->
      exists v, Shown_offset s (N.of_nat (i * c)) v /\ read_offset s line = Some v.
Proof.
  intros HS HO HP HF HT HW. destruct (bin_eof s tc c src evs chunks toks HS HO HP HF HT) as (p & acts & E & D). exists p, acts. split; [exact E|].
  intros i line Hn. destruct (shown_exists s (N.of_nat (i * c))) as (v & V). exists v. split; [exact V|]. apply (shown_column s c chunks toks (pr_out p) i); auto. apply HO.
Qed.
Lemma shown_total_run s tc c src evs chunks toks : opens src -> binary_ok s tc c -> Processed s evs chunks -> Finishes s evs -> Tokens chunks toks -> with_offsets s = true ->
  exists p acts v, byteio_run s tc src evs = (p, acts, REnd) /\
    Shown_offset s (N.of_nat (length (concat chunks))) v /\
    read_offset s (last (text_lines (visible (pr_out p))) []) = Some v.
Proof.
  intros HS HO HP HF HT HW. destruct (bin_eof s tc c src evs chunks toks HS HO HP HF HT) as (p & acts & E & D).
  destruct (shown_exists s (N.of_nat (length (concat chunks)))) as (v & V). exists p, acts, v. split; [exact E|]. split; [exact V|].
  destruct (total_row s c chunks toks (pr_out p) ltac:(apply HO) HT HW D) as (lines & ->). rewrite last_last, map_app. now apply shown_cells.
Qed.
(** what is shown of an offset is one number *)
Lemma shown_unique s off v w : Shown_offset s off v -> Shown_offset s off w -> v = w.
Proof. intros H K. apply (shown_cells s attrs0 off v []) in H. apply (shown_cells s attrs0 off w []) in K. congruence. Qed.

(** ** the dump does not depend on how the input comes *)
Definition byte_of (x : bcell) : N := fst (fst x).
Lemma grouped_map {A B} (h : A -> B) f c l : grouped f c (map h l) = map (map h) (grouped f c l).
Proof.
  revert l. induction f as [|f IH]; intros l; [reflexivity|]. destruct l as [|x l]; [reflexivity|].
  cbn [grouped map]. change (h x :: map h l) with (map h (x :: l)). rewrite firstn_map, skipn_map, IH. reflexivity.
Qed.
Lemma groups_map {A B} (h : A -> B) c l : groups c (map h l) = map (map h) (groups c l).
Proof. unfold groups. rewrite map_length. apply grouped_map. Qed.

(** offset and hexadecimal columns *)
Definition left_part (s : settings) (c : nat) (off : N) (bs : list N) : list N :=
  map fst (if with_offsets s then offset_cells s green off ++ [bar s] else [])
  ++ flat_map (fun b => 32 :: fmt_hex_lo 2 b) bs ++ repeat 32 (3 * (c - length bs)).
Lemma left_row s c off row : exists r, map fst (row_cells s c off row) = left_part s c off (map byte_of row) ++ r ++ [10].
Proof.
  exists (map fst ([(32, attrs0); if with_offsets s then bar s else (32, attrs0)] ++ map char_cell row)).
  unfold row_cells, left_part. rewrite !map_app, map_fst_styled, map_length, <- !app_assoc. f_equal. f_equal.
  clear. induction row as [|[[b x] a] row IH]; [reflexivity|]. cbn [flat_map map]. unfold hex_cells at 1. rewrite map_app, IH, map_fst_styled. reflexivity.
Qed.
Lemma left_length s c off bs : Forall (fun b => b < 256) bs -> (length bs <= c)%nat -> length (left_part s c off bs) = (offset_width s + 3 * c)%nat.
Proof.
  intros H L. unfold left_part, offset_width. rewrite !app_length, map_length, repeat_length.
  assert (E : (length (flat_map (fun b => 32%N :: fmt_hex_lo 2 b) bs) = 3 * length bs)%nat).
  { clear L. induction H as [|b bs Hb H IH]; [reflexivity|]. cbn [flat_map app length]. rewrite app_length, IH, fmt_hex_lo_length; [lia|lia|exact Hb]. }
  rewrite E. destruct (with_offsets s); [rewrite app_length, offset_cells_length; cbn [length]; lia|cbn [length]; lia].
Qed.
Lemma left_line s c off row : Forall (fun x : bcell => fst (fst x) < 256) row -> (length row <= c)%nat ->
  firstn (offset_width s + 3 * c) (removelast (map fst (row_cells s c off row))) = left_part s c off (map byte_of row).
Proof.
  intros H L. destruct (left_row s c off row) as (r & ->). rewrite app_assoc, removelast_last.
  rewrite <- (left_length s c off (map byte_of row)); [|now apply Forall_map|now rewrite map_length].
  rewrite firstn_app, firstn_all, Nat.sub_diag. cbn [firstn]. apply app_nil_r.
Qed.
Fixpoint left_parts (s : settings) (c : nat) (off : N) (rows : list (list N)) : list (list N) :=
  match rows with
  | [] => []
  | r :: rest => left_part s c off r :: left_parts s c (off + N.of_nat (length r)) rest
  end.
Lemma left_lines s c off rows : Forall (Forall (fun x : bcell => fst (fst x) < 256)) rows -> Forall (fun r => (0 < length r <= c)%nat) rows ->
  map (fun r => firstn (offset_width s + 3 * c) (removelast (map fst r))) (rows_cells s c off rows) = left_parts s c off (map (map byte_of) rows).
Proof.
  intros H. revert off. induction H as [|r rows Hr H IH]; intros off L; [reflexivity|]. inversion L; subst.
  cbn [rows_cells map left_parts]. rewrite map_length. f_equal; [apply left_line; [exact Hr|lia]|now apply IH].
Qed.
Lemma left_lines_all s c l : (0 < c)%nat -> Forall (fun x : bcell => snd (fst x) <> 10) l -> Forall (fun x : bcell => fst (fst x) < 256) l ->
  map (firstn (offset_width s + 3 * c)) (text_lines (map fst (concat (binary_rows s c l))))
  = left_parts s c 0 (groups c (map byte_of l)) ++ map (firstn (offset_width s + 3 * c)) (map (fun r => removelast (map fst r)) (total_cells s (N.of_nat (length (map byte_of l))))).
Proof.
  intros Hc H1 H2. rewrite lines_of_rows by now apply binary_rows_form. rewrite map_map. unfold binary_rows. rewrite map_app, map_length. f_equal.
  - rewrite left_lines; [now rewrite groups_map|now apply groups_Forall|now apply groups_length].
  - now rewrite map_map.
Qed.

Lemma dump_same s tc c src1 src2 evs1 evs2 cs1 cs2 toks1 toks2 : opens src1 -> opens src2 -> binary_ok s tc c ->
  Processed s evs1 cs1 -> Processed s evs2 cs2 -> Finishes s evs1 -> Finishes s evs2 -> Tokens cs1 toks1 -> Tokens cs2 toks2 ->
  concat cs1 = concat cs2 ->
  exists p1 p2 a1 a2, byteio_run s tc src1 evs1 = (p1, a1, REnd) /\ byteio_run s tc src2 evs2 = (p2, a2, REnd) /\
    map (firstn (offset_width s + 3 * c)) (text_lines (visible (pr_out p1))) = map (firstn (offset_width s + 3 * c)) (text_lines (visible (pr_out p2))).
Proof.
  intros S1 S2 HO P1 P2 F1 F2 T1 T2 EQ.
  destruct (bin_eof s tc c src1 evs1 cs1 toks1 S1 HO P1 F1 T1) as (p1 & a1 & E1 & D1).
  destruct (bin_eof s tc c src2 evs2 cs2 toks2 S2 HO P2 F2 T2) as (p2 & a2 & E2 & D2).
  exists p1, p2, a1, a2. split; [exact E1|]. split; [exact E2|].
  rewrite (displays_visible _ _ D1), (displays_visible _ _ D2).
  assert (Hc : (0 < c)%nat) by apply HO.
  pose proof (is_bytes_cells s cs1 toks1 (processed_bytes _ _ _ P1) T1) as B1. pose proof (is_bytes_cells s cs2 toks2 (processed_bytes _ _ _ P2) T2) as B2.
  pose proof (byte_cells_chars s cs1 toks1 T1) as C1. pose proof (byte_cells_chars s cs2 toks2 T2) as C2.
  rewrite (left_lines_all s c _ Hc C1 B1), (left_lines_all s c _ Hc C2 B2).
  replace (map byte_of (byte_cells s toks1)) with (map byte_of (byte_cells s toks2)); [reflexivity|].
  transitivity (concat cs2); [exact (byte_cells_bytes s cs2 toks2 T2)|]. rewrite <- EQ. symmetry. exact (byte_cells_bytes s cs1 toks1 T1).
Qed.

Lemma shown_offset_exact s tc c src evs chunks toks : opens src -> binary_ok s tc c -> Processed s evs chunks -> Finishes s evs -> Tokens chunks toks -> with_offsets s = true ->
  exists p acts, byteio_run s tc src evs = (p, acts, REnd) /\
    forall i line, nth_error (data_lines s (visible (pr_out p))) i = Some line ->
      (read_offset s line = Some (N.of_nat (i * c)) <-> N.of_nat (i * c) < offset_bound s).
Proof.
  intros HS HO HP HF HT HW. destruct (shown_offset_run s tc c src evs chunks toks HS HO HP HF HT HW) as (p & acts & E & H). exists p, acts. split; [exact E|].
  intros i line Hn. destruct (H i line Hn) as (v & V & R). rewrite R. rewrite <- shown_true. split; [intros [= ->]; exact V|]. intros K. f_equal. eapply shown_unique; eassumption.
Qed.
Lemma shown_total_exact s tc c src evs chunks toks : opens src -> binary_ok s tc c -> Processed s evs chunks -> Finishes s evs -> Tokens chunks toks -> with_offsets s = true ->
  exists p acts, byteio_run s tc src evs = (p, acts, REnd) /\
    (read_offset s (last (text_lines (visible (pr_out p))) []) = Some (N.of_nat (length (concat chunks))) <-> N.of_nat (length (concat chunks)) < offset_bound s).
Proof.
  intros HS HO HP HF HT HW. destruct (shown_total_run s tc c src evs chunks toks HS HO HP HF HT HW) as (p & acts & v & E & V & R). exists p, acts. split; [exact E|].
  rewrite R. rewrite <- shown_true. split; [intros [= ->]; exact V|]. intros K. f_equal. eapply shown_unique; eassumption.
Qed.

Lemma C06_dump_case : let s := bin_columns 4 in let one := [RData [195; 169; 27; 91; 109]] in let two := [RData [195]; RData [169; 27]; RData [91; 109]] in
  binary_ok s 80 4 /\ Processed s one (provided one) /\ Processed s two (provided two) /\ concat (provided one) = concat (provided two) /\
  visible (pr_out (fst (fst (byteio_run s 80 SrcStdin one)))) <> visible (pr_out (fst (fst (byteio_run s 80 SrcStdin two)))) /\
  map (firstn (offset_width s + 3 * 4)) (text_lines (visible (pr_out (fst (fst (byteio_run s 80 SrcStdin one)))))) =
  map (firstn (offset_width s + 3 * 4)) (text_lines (visible (pr_out (fst (fst (byteio_run s 80 SrcStdin two)))))).
Proof.
  cbv zeta. split; [repeat split; lia|].
  split; [split; [repeat constructor|]; eexists; split; [apply Lim_none; now left|reflexivity]|].
  split; [split; [repeat constructor|]; eexists; split; [apply Lim_none; now left|reflexivity]|].
  split; [reflexivity|]. split; [vm_compute; discriminate|vm_compute; reflexivity].
Qed.
