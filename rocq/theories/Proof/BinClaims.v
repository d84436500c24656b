(** C22-C26: the dump of binary mode *)
From Coq Require Import List Arith NArith ZArith Bool Lia.
From Verif.Model Require Import Base Ansi Regex Settings Segment Template Parser Console Formatter Reader Runner.
From Verif.Spec Require Import Numbers Terminal Utf8 Lexical SgrParams Display Output Input Dump.
From Verif.Proof Require Import BaseFacts RegexFacts LexFacts TokFacts PaintFacts DisplayFacts BinFormat RunFacts ReaderFacts RunMain LexClaims RunClaims.
Import ListNotations.
Local Open Scope N_scope.

Lemma shows_visible out cells : shows out cells -> visible out = map fst cells.
Proof.
  intros [H _]. unfold visible. rewrite H, map_map. apply map_ext. intros [c a]. unfold to_cell. cbn. now destruct (displayable c).
Qed.
Lemma displays_visible out rows : displays out rows -> visible out = map fst (concat rows).
Proof. intros [H _]. now apply shows_visible. Qed.

(** ** bytes and characters of a token *)
Lemma combine_fst {A B} (l : list A) (m : list B) : length l = length m -> map fst (combine l m) = l.
Proof. revert m. induction l as [|x l IH]; intros [|y m] H; cbn in *; try discriminate; [reflexivity|]. f_equal. apply IH. lia. Qed.
Lemma combine_snd {A B} (l : list A) (m : list B) : length l = length m -> map snd (combine l m) = m.
Proof. revert m. induction l as [|x l IH]; intros [|y m] H; cbn in *; try discriminate; [reflexivity|]. f_equal. apply IH. lia. Qed.

Lemma binary_cells_bytes s k w codes : w <> [] -> map (fun x => fst (fst x)) (binary_cells s k w codes) = w.
Proof.
  intros Hw. unfold binary_cells.
  assert (M : forall (f : N -> N) (a : attrs) l, map (fun x : bcell => fst (fst x)) (map (fun b => (b, f b, a)) l) = l) by (intros; rewrite map_map; apply map_id).
  destruct (s_ignore s (class_of k)); [apply M|].
  destruct (is_escape_seq k); [destruct w; [easy|]; cbn [map fst]; f_equal; apply (M (fun c => c))|].
  destruct k as [cp| |p i f| | | | | | |r]; try apply (M (fun _ => marker s _)).
  - destruct (decoding s); [|apply (M (fun _ => marker s _))].
    assert (L : length w = length (repeat 95 (length w - 1) ++ [cp])) by (rewrite app_length, repeat_length; destruct w; [easy|]; cbn [length]; lia).
    rewrite <- map_map with (f := fst). rewrite combine_fst.
    + now apply combine_fst.
    + rewrite combine_length, repeat_length, <- L. lia.
  - destruct r; try apply (M (fun _ => marker s _)). apply (M (fun b => b)).
Qed.

Lemma escape_chars k w rest : Token k w rest -> is_escape_seq k = true -> Forall (fun b => b <> 10) (tl w).
Proof.
  intros T H. destruct T; try discriminate; cbn [tl].
  - destruct H0 as (A & B & C). unfold rng in *. constructor; [easy|]. rewrite !Forall_app. split; [|split; [|constructor; [lia|constructor]]];
      (eapply Forall_impl; [|eassumption]; cbn beta; intros; lia).
  - destruct H0 as (_ & A & B). unfold rng in *. rewrite Forall_app. split; [|constructor; [lia|constructor]]. eapply Forall_impl; [|eassumption]; cbn beta; intros; lia.
  - unfold rng in *. constructor; [lia|constructor].
  - unfold rng in *. constructor; [lia|constructor].
  - unfold rng in *. constructor; [lia|constructor].
Qed.

Lemma marker_no10 s k : marker s k <> 10.
Proof.
  destruct k as [cp| |p i f| | | | | | |r]; cbn [marker]; try easy.
  - now destruct (binary_mode s).
  - now destruct (csi_sort p f).
  - destruct r; try easy. now destruct (s_focus s CC_space).
Qed.

Lemma binary_cells_chars s k w rest codes : Token k w rest -> Forall (fun x => snd (fst x) <> 10) (binary_cells s k w codes).
Proof.
  intros T. unfold binary_cells. pose proof (escape_chars k w rest T) as HE.
  assert (M : forall c (a : attrs) l, c <> 10 -> Forall (fun x : bcell => snd (fst x) <> 10) (map (fun b => (b, c, a)) l)).
  { intros c a l Hc. apply Forall_forall. intros x Hx. apply in_map_iff in Hx as (b & <- & _). exact Hc. }
  assert (I : forall (a : attrs) l, Forall (fun b => b <> 10) l -> Forall (fun x : bcell => snd (fst x) <> 10) (map (fun b => (b, b, a)) l)).
  { intros a l Hl. apply Forall_forall. intros x Hx. apply in_map_iff in Hx as (b & <- & Hb). rewrite Forall_forall in Hl. now apply Hl. }
  destruct (s_ignore s (class_of k)); [now apply M|].
  destruct (is_escape_seq k) eqn:E.
  - destruct w as [|b w]; [constructor|]. constructor; [apply marker_no10|]. apply I. now apply HE.
  - destruct k as [cp| |p i f| | | | | | |r]; try (apply M; apply marker_no10).
    + destruct (decoding s); [|apply M; apply marker_no10]. inversion T; subst.
      apply Forall_forall. intros [[b c] a] Hx. apply in_combine_l, in_combine_r in Hx. cbn.
      apply in_app_or in Hx as [Hx|[<-|[]]]; [apply repeat_spec in Hx; subst; easy|]. lia.
    + destruct r; try (apply M; apply marker_no10). inversion T; subst. apply I. eapply Forall_impl; [|eassumption].
      cbn [run_member]. unfold rng. intros; lia.
Qed.

Lemma coded_tokens chunks toks : Tokens chunks toks ->
  Forall (fun t => exists rest, Token (tok_kind t) (tok_bytes t) rest) toks /\ concat (map tok_bytes toks) = concat chunks.
Proof.
  revert toks. induction chunks as [|c cs IH]; intros toks H.
  - destruct H as (tss & A & B). inversion A; subst. inversion B; subst. split; [constructor|reflexivity].
  - apply tokens_cons_inv in H as (lx & t1 & t2 & HL & HC & HT & ->). destruct (IH _ HT) as [A B]. rewrite Forall_app, map_app, concat_app, B. cbn [concat].
    clear -HL HC A. split.
    + split; [|exact A]. clear A. revert t1 HC. induction HL as [|k w rest ts T L IH]; intros t1 HC; inversion HC as [|x [[k' w'] cc] l l' [E1 E2] HC']; subst; constructor; auto.
      cbn in E1. injection E1 as <- <-. exists rest. exact T.
    + f_equal. rewrite (lexes_concat c lx HL). f_equal. clear -HC. induction HC as [|x y l l' [E _] H IH]; [reflexivity|]. cbn [map]. f_equal; [|exact IH]. subst x. now destruct y as [[? ?] ?].
Qed.

Lemma byte_cells_bytes s chunks toks : Tokens chunks toks -> map (fun x => fst (fst x)) (byte_cells s toks) = concat chunks.
Proof.
  intros H. apply coded_tokens in H as [A <-]. unfold byte_cells. clear chunks. induction A as [|t toks [rest T] A IH]; [reflexivity|].
  cbn [flat_map map concat]. etransitivity; [apply (map_app _ (binary_cells _ _ _ _))|]. refine (f_equal2 (@app N) _ IH).
  apply binary_cells_bytes. eapply token_nonempty. exact T.
Qed.
Lemma byte_cells_chars s chunks toks : Tokens chunks toks -> Forall (fun x => snd (fst x) <> 10) (byte_cells s toks).
Proof.
  intros H. apply coded_tokens in H as [A _]. unfold byte_cells. induction A as [|t toks [rest T] A IH]; [constructor|].
  cbn [flat_map]. apply Forall_app. split; [|exact IH]. eapply binary_cells_chars. exact T.
Qed.
Lemma byte_cells_length s chunks toks : Tokens chunks toks -> length (byte_cells s toks) = length (concat chunks).
Proof. intros H. rewrite <- (byte_cells_bytes s chunks toks H). now rewrite map_length. Qed.

(** ** characters of a row *)
Lemma map_fst_styled a l : map fst (styled a l) = l.
Proof. unfold styled. rewrite map_map. apply map_id. Qed.
Lemma aligned_length w l : (length l <= w)%nat -> length (aligned w l) = w.
Proof. intros H. unfold aligned. rewrite app_length, repeat_length. lia. Qed.
Lemma offset_cells_length s a off : length (offset_cells s a off) = 8%nat.
Proof.
  unfold offset_cells, styled. destruct (s_decimal_offsets s).
  - rewrite map_length, aligned_length; [reflexivity|]. rewrite firstn_length. lia.
  - cbv zeta. rewrite !app_length, !map_length, repeat_length. pose proof (firstn_le_length 6 (fmt_hex_lo (hex_width off) off)). cbn [length]. lia.
Qed.
Lemma dec_no10 n : Forall (fun c => c <> 10) (dec n).
Proof. unfold dec. apply Forall_forall. intros c H. apply in_map_iff in H as (d & <- & _). lia. Qed.
Lemma hex_no10 w n : Forall (fun c => c <> 10) (fmt_hex_lo w n).
Proof. eapply Forall_impl; [|apply fmt_hex_lo_chars]. cbn beta. intros; lia. Qed.
Lemma repeat_no10 n : Forall (fun c => c <> 10) (repeat 32 n).
Proof. apply Forall_forall. intros c H. apply repeat_spec in H. now subst. Qed.
Lemma firstn_Forall' {A} (P : A -> Prop) n l : Forall P l -> Forall P (firstn n l).
Proof. intros H. revert n. induction H; intros [|n]; cbn; constructor; auto. Qed.
Lemma offset_no10 s a off : Forall (fun c => c <> 10) (map fst (offset_cells s a off)).
Proof.
  unfold offset_cells. destruct (s_decimal_offsets s).
  - rewrite map_fst_styled. unfold aligned. apply Forall_app. split; [apply repeat_no10|apply firstn_Forall', dec_no10].
  - cbv zeta. rewrite !map_app, !map_fst_styled, !Forall_app. split; [apply repeat_no10|]. split; [repeat constructor; easy|apply firstn_Forall', hex_no10].
Qed.

Lemma lines_one a b : Forall (fun c => c <> 10) a -> text_lines (a ++ 10 :: b) = a :: text_lines b.
Proof.
  induction 1 as [|c a Hc H IH]; [reflexivity|]. cbn [app text_lines]. rewrite IH. now destruct (N.eqb_spec c 10).
Qed.

Lemma hex2 b : b < 256 -> exists h d, fmt_hex_lo 2 b = [h; d] /\ read_number 16 [h; d] = Some b.
Proof.
  intros H. pose proof (fmt_hex_lo_length 2 b ltac:(lia) ltac:(exact H)) as L. pose proof (read_hex_lo 2 b) as R.
  destruct (fmt_hex_lo 2 b) as [|h [|d [|]]]; try discriminate. eauto.
Qed.
Lemma read_columns_row row n x : Forall (fun y : bcell => fst (fst y) < 256) row -> (length row <= n)%nat ->
  (exists m y, x = repeat 32 (3 * (n - length row)) ++ 32 :: m :: y) ->
  read_columns n (flat_map (fun y => map fst (hex_cells y)) row ++ x) = map (fun y => fst (fst y)) row.
Proof.
  revert n. induction row as [|[[b c] a] row IH]; intros n H Hn Hx.
  - cbn [flat_map app map length] in *. destruct Hx as (m & y & ->). rewrite Nat.sub_0_r. destruct n as [|n]; [reflexivity|].
    replace (3 * S n)%nat with (S (S (S (3 * n)))) by lia. cbn [repeat app read_columns]. reflexivity.
  - inversion H; subst. cbn [length] in *. destruct n as [|n]; [lia|]. cbn [fst] in *. destruct (hex2 b ltac:(assumption)) as (h & d & E & R).
    cbn [flat_map]. unfold hex_cells at 1. rewrite map_fst_styled, E. cbn [app read_columns map fst]. rewrite R. f_equal. apply IH; auto; lia.
Qed.

(** the characters of a row *)
Lemma row_chars s c off row : exists pre t, map fst (row_cells s c off row) = pre ++ flat_map (fun y => map fst (hex_cells y)) row ++ repeat 32 (3 * (c - length row)) ++ 32 :: t ++ map (fun y => snd (fst y)) row ++ [10]
  /\ length pre = offset_width s /\ (length t = 1)%nat /\ Forall (fun c => c <> 10) pre /\ Forall (fun c => c <> 10) t.
Proof.
  unfold row_cells, offset_width.
  exists (map fst (if with_offsets s then offset_cells s green off ++ [bar s] else [])), (map fst [if with_offsets s then bar s else (32, attrs0)]).
  split; [|split; [|split; [reflexivity|split]]].
  - rewrite !map_app, map_fst_styled. f_equal. f_equal; [|f_equal].
    + clear. induction row as [|x row IH]; [reflexivity|]. cbn [flat_map]. now rewrite map_app, IH.
    + cbn [map fst app]. f_equal. f_equal. f_equal. rewrite map_map. apply map_ext. now intros [[b x] a].
  - rewrite map_length. destruct (with_offsets s); [|reflexivity]. rewrite app_length, offset_cells_length. reflexivity.
  - destruct (with_offsets s); [|constructor]. rewrite map_app, Forall_app. split; [apply offset_no10|]. constructor; [easy|constructor].
  - destruct (with_offsets s); repeat constructor; easy.
Qed.

Lemma row_line s c off row rest : Forall (fun x : bcell => snd (fst x) <> 10) row -> Forall (fun y : bcell => fst (fst y) < 256) row -> (length row <= c)%nat ->
  exists line, text_lines (map fst (row_cells s c off row) ++ rest) = line :: text_lines rest /\
     map fst (row_cells s c off row) = line ++ [10] /\
     read_columns c (skipn (offset_width s) line) = map (fun y => fst (fst y)) row.
Proof.
  intros H1 H2 H3. destruct (row_chars s c off row) as (pre & t & E & L & Lt & P & T).
  set (line := pre ++ flat_map (fun y => map fst (hex_cells y)) row ++ repeat 32 (3 * (c - length row)) ++ 32 :: t ++ map (fun y => snd (fst y)) row).
  assert (E' : map fst (row_cells s c off row) = line ++ [10]) by (rewrite E; unfold line; rewrite <- !app_assoc; cbn [app]; now rewrite <- !app_assoc).
  exists line. split; [|split; [exact E'|]].
  - rewrite E', <- app_assoc. cbn [app]. apply lines_one. unfold line. rewrite !Forall_app. split; [exact P|]. split; [|split].
    + apply Forall_flat_map. apply Forall_forall. intros [[b x] a] _. unfold hex_cells. rewrite map_fst_styled. constructor; [easy|apply hex_no10].
    + apply repeat_no10.
    + constructor; [easy|]. rewrite Forall_app. split; [exact T|]. apply Forall_forall. intros x Hx. apply in_map_iff in Hx as (y & <- & Hy). rewrite Forall_forall in H1. auto.
  - unfold line. rewrite skipn_app, <- L, skipn_all, Nat.sub_diag. cbn [app skipn]. apply read_columns_row; auto.
    destruct t as [|m [|]]; try discriminate. exists m. eexists. reflexivity.
Qed.

Lemma groups_length {A} c (l : list A) : (0 < c)%nat -> Forall (fun r => (0 < length r <= c)%nat) (groups c l).
Proof.
  intros Hc. remember (length l) as n eqn:Hn. revert l Hn. induction n as [n IH] using lt_wf_ind. intros l ->.
  destruct l as [|x l]; [constructor|]. rewrite groups_cons by easy. constructor.
  - rewrite firstn_length. cbn [length]. lia.
  - apply (IH (length (skipn c (x :: l)))); [|reflexivity]. rewrite skipn_length. cbn [length]. lia.
Qed.
Lemma concat_Forall {A} (P : A -> Prop) ls : Forall P (concat ls) -> Forall (Forall P) ls.
Proof. induction ls as [|l ls IH]; cbn [concat]; [constructor|]. rewrite Forall_app. intros [? ?]. constructor; auto. Qed.
Lemma groups_Forall {A} (P : A -> Prop) c (l : list A) : (0 < c)%nat -> Forall P l -> Forall (Forall P) (groups c l).
Proof. intros Hc H. apply concat_Forall. now rewrite groups_concat. Qed.

Lemma rows_lines s c rows off rest :
  Forall (fun r => (0 < length r <= c)%nat) rows -> Forall (Forall (fun x : bcell => snd (fst x) <> 10)) rows -> Forall (Forall (fun y : bcell => fst (fst y) < 256)) rows ->
  exists lines, text_lines (map fst (concat (rows_cells s c off rows)) ++ rest) = lines ++ text_lines rest /\
    flat_map (fun l => read_columns c (skipn (offset_width s) l)) lines = map (fun y => fst (fst y)) (concat rows).
Proof.
  intros H. revert off. induction H as [|r rows Hr H IH]; intros off HA HB.
  - exists []. split; reflexivity.
  - inversion HA; inversion HB; subst. cbn [rows_cells concat]. rewrite map_app, <- app_assoc.
    destruct (IH (off + N.of_nat (length r))) as (lines & E & K); auto.
    destruct (row_line s c off r (map fst (concat (rows_cells s c (off + N.of_nat (length r)) rows)) ++ rest)) as (line & E1 & _ & K1); auto; [lia|].
    exists (line :: lines). split.
    + etransitivity; [exact E1|]. cbn [app]. f_equal. exact E.
    + cbn [flat_map]. etransitivity; [exact (f_equal2 (@app N) K1 K)|]. symmetry. apply (map_app (fun y : bcell => fst (fst y))).
Qed.

Lemma total_line s n : text_lines (map fst (concat (total_cells s n))) = (if with_offsets s then [map fst (offset_cells s cyan n ++ [bar s])] else []).
Proof.
  unfold total_cells. destruct (with_offsets s); [|reflexivity]. cbn [concat]. rewrite app_nil_r, app_assoc, map_app. cbn [map fst].
  rewrite lines_one; [reflexivity|]. rewrite map_app, Forall_app. split; [apply offset_no10|constructor; [easy|constructor]].
Qed.

Lemma is_bytes_cells s chunks toks : Forall is_bytes chunks -> Tokens chunks toks -> Forall (fun y : bcell => fst (fst y) < 256) (byte_cells s toks).
Proof.
  intros HB H. pose proof (byte_cells_bytes s chunks toks H) as E.
  assert (B : is_bytes (concat chunks)) by (clear -HB; induction HB as [|c cs Hc HB IH]; [constructor|]; cbn; apply Forall_app; now split).
  rewrite <- E in B. unfold is_bytes in B. apply Forall_forall. intros y Hy. rewrite Forall_forall in B. apply B. apply in_map_iff. now exists y.
Qed.

(** the dump can be read back *)
Lemma dump_back s c chunks toks out : (0 < c)%nat -> Forall is_bytes chunks -> Tokens chunks toks ->
  displays out (binary_rows s c (byte_cells s toks)) -> read_dump s c (visible out) = concat chunks.
Proof.
  intros Hc HB HT HD. rewrite (displays_visible _ _ HD). unfold binary_rows. rewrite concat_app, map_app.
  unfold read_dump, data_lines.
  destruct (rows_lines s c (groups c (byte_cells s toks)) 0 (map fst (concat (total_cells s (N.of_nat (length (byte_cells s toks))))))) as (lines & E & K).
  - now apply groups_length.
  - apply groups_Forall; [exact Hc|]. eapply byte_cells_chars. exact HT.
  - apply groups_Forall; [exact Hc|]. eapply is_bytes_cells; eassumption.
  - unfold tcell in *. rewrite E, total_line. rewrite groups_concat in K by exact Hc. rewrite <- (byte_cells_bytes s chunks toks HT). rewrite <- K.
    destruct (with_offsets s); [now rewrite removelast_last|now rewrite app_nil_r].
Qed.

(** ** offsets *)
Lemma skip_blanks_aligned n l : (exists c t, l = c :: t /\ c <> 32) -> skip_blanks (repeat 32 n ++ l) = l.
Proof.
  intros (c & t & -> & Hc). induction n as [|n IH]; [|exact IH]. cbn [repeat app skip_blanks].
  destruct c as [|p]; [reflexivity|]. repeat (destruct p as [p|p|]; try reflexivity; try congruence).
Qed.
Lemma dec_head n : exists c t, dec n = c :: t /\ c <> 32.
Proof.
  unfold dec. pose proof (digits_nonempty 10 n ltac:(lia)). destruct (digits 10 n) as [|d l]; [easy|].
  exists (48 + d), (map (fun d => 48 + d) l). split; [reflexivity|lia].
Qed.


Lemma dec_length n k : (0 < k)%nat -> (length (dec n) <= k)%nat <-> n < 10 ^ N.of_nat k.
Proof. intros Hk. unfold dec. rewrite map_length. apply digits_length; [lia|exact Hk]. Qed.

Lemma hex_width_small off : off < 1000000 -> (length (fmt_hex_lo (hex_width off) off) <= 6)%nat.
Proof.
  intros H. assert (L : (length (dec off) <= 6)%nat) by (apply (dec_length off 6); [lia|exact H]).
  assert (W : (4 <= hex_width off <= 6)%nat).
  { unfold hex_width. assert ((length (dec off) + 1) / 2 <= 3)%nat by (change 3%nat with (7 / 2)%nat; apply Nat.div_le_mono; lia). lia. }
  assert (D : (length (digits 16 off) <= 6)%nat) by (apply digits_length; [lia|lia|change (16 ^ N.of_nat 6) with 16777216; lia]).
  unfold fmt_hex_lo, rjust. rewrite app_length, repeat_length, map_length. lia.
Qed.

Lemma read_offset_back s a off rest : off < offset_bound s -> read_offset s (map fst (offset_cells s a off) ++ rest) = Some off.
Proof.
  intros H. unfold read_offset. rewrite firstn_app.
  rewrite firstn_all2 by (rewrite map_length, offset_cells_length; lia).
  rewrite map_length, offset_cells_length. cbn [Nat.sub firstn]. rewrite app_nil_r.
  unfold offset_bound in H. unfold offset_cells. destruct (s_decimal_offsets s).
  - rewrite map_fst_styled. rewrite firstn_all2 by (apply (dec_length off 8); [lia|exact H]).
    unfold aligned. rewrite skip_blanks_aligned by apply dec_head. apply read_dec.
  - cbv zeta. rewrite firstn_all2 by now apply hex_width_small. rewrite !map_app, !map_fst_styled.
    rewrite skip_blanks_aligned by (do 2 eexists; split; [reflexivity|easy]). cbn [app]. apply read_hex_lo.
Qed.

(** lines of the screen are the rows *)
Lemma lines_of_rows (rows : list (list tcell)) : Forall (fun r => exists l, map fst r = l ++ [10] /\ Forall (fun c => c <> 10) l) rows ->
  text_lines (map fst (concat rows)) = map (fun r => removelast (map fst r)) rows.
Proof.
  unfold tcell in *. induction 1 as [|r rows (l & E & H) HF IH]; [reflexivity|]. cbn [concat map]. rewrite map_app, E, <- app_assoc. cbn [app].
  rewrite lines_one by exact H. rewrite removelast_last. now f_equal.
Qed.

Lemma row_form s c off row : Forall (fun x : bcell => snd (fst x) <> 10) row ->
  exists l, map fst (row_cells s c off row) = l ++ [10] /\ Forall (fun c => c <> 10) l.
Proof.
  intros H1. destruct (row_chars s c off row) as (pre & t & E & L & Lt & P & T).
  exists (pre ++ flat_map (fun y => map fst (hex_cells y)) row ++ repeat 32 (3 * (c - length row)) ++ 32 :: t ++ map (fun y => snd (fst y)) row).
  split; [rewrite E; rewrite <- !app_assoc; cbn [app]; now rewrite <- !app_assoc|].
  rewrite !Forall_app. split; [exact P|]. split; [|split].
  + apply Forall_flat_map. apply Forall_forall. intros [[b x] a] _. unfold hex_cells. rewrite map_fst_styled. constructor; [easy|apply hex_no10].
  + apply repeat_no10.
  + constructor; [easy|]. rewrite Forall_app. split; [exact T|]. apply Forall_forall. intros x Hx. apply in_map_iff in Hx as (y & <- & Hy). rewrite Forall_forall in H1. auto.
Qed.

Lemma rows_form s c rows off : Forall (Forall (fun x : bcell => snd (fst x) <> 10)) rows ->
  Forall (fun r : list tcell => exists l, map fst r = l ++ [10] /\ Forall (fun c => c <> 10) l) (rows_cells s c off rows).
Proof. intros H. revert off. induction H as [|r rows Hr H IH]; intros off; [constructor|]. cbn [rows_cells]. constructor; [now apply row_form|apply IH]. Qed.
Lemma total_form s n : Forall (fun r : list tcell => exists l, map fst r = l ++ [10] /\ Forall (fun c => c <> 10) l) (total_cells s n).
Proof.
  unfold total_cells. destruct (with_offsets s); [|constructor]. constructor; [|constructor].
  exists (map fst (offset_cells s cyan n ++ [bar s])). split; [rewrite app_assoc, map_app; reflexivity|].
  rewrite map_app, Forall_app. split; [apply offset_no10|constructor; [easy|constructor]].
Qed.
Lemma binary_rows_form s c l : (0 < c)%nat -> Forall (fun x : bcell => snd (fst x) <> 10) l ->
  Forall (fun r : list tcell => exists x, map fst r = x ++ [10] /\ Forall (fun c => c <> 10) x) (binary_rows s c l).
Proof. intros Hc H. unfold binary_rows. apply Forall_app. split; [apply rows_form; now apply groups_Forall|apply total_form]. Qed.

(** row number i *)
Lemma rows_cells_nth s c rows off i r : nth_error (rows_cells s c off rows) i = Some r ->
  exists g, nth_error rows i = Some g /\ r = row_cells s c (off + N.of_nat (length (concat (firstn i rows)))) g.
Proof.
  revert off i. induction rows as [|g rows IH]; intros off i H; [destruct i; discriminate|].
  destruct i as [|i]; cbn [rows_cells nth_error firstn concat] in *.
  - injection H as <-. exists g. split; [reflexivity|]. cbn [length]. now rewrite N.add_0_r.
  - apply IH in H as (g' & E & ->). exists g'. split; [exact E|]. f_equal. rewrite app_length. lia.
Qed.
Lemma groups_prefix {A} c (l : list A) i g : (0 < c)%nat -> nth_error (groups c l) i = Some g -> length (concat (firstn i (groups c l))) = (i * c)%nat.
Proof.
  intros Hc. revert l. induction i as [|i IH]; intros l H; [reflexivity|].
  destruct l as [|x l]; [destruct i; discriminate|]. rewrite groups_cons in * by easy. cbn [nth_error firstn concat] in *.
  rewrite app_length, IH by exact H. rewrite firstn_length.
  assert (length (skipn c (x :: l)) <> 0)%nat.
  { intros K. apply length_zero_iff_nil in K. rewrite K in H. destruct i; discriminate. }
  rewrite skipn_length in *. lia.
Qed.

Lemma data_lines_rows s c l : (0 < c)%nat -> Forall (fun x : bcell => snd (fst x) <> 10) l ->
  data_lines s (map fst (concat (binary_rows s c l))) = map (fun r => removelast (map fst r)) (rows_cells s c 0 (groups c l)).
Proof.
  intros Hc H. unfold data_lines. rewrite lines_of_rows by now apply binary_rows_form. unfold binary_rows. rewrite map_app.
  unfold total_cells. destruct (with_offsets s); [cbn [map]; now rewrite removelast_last|]. cbn [map]. now rewrite app_nil_r.
Qed.

Lemma offset_column s c chunks toks out i line : (0 < c)%nat -> Tokens chunks toks -> with_offsets s = true ->
  displays out (binary_rows s c (byte_cells s toks)) ->
  nth_error (data_lines s (visible out)) i = Some line -> N.of_nat (i * c) < offset_bound s ->
  read_offset s line = Some (N.of_nat (i * c)).
Proof.
  intros Hc HT HW HD HN HB. rewrite (displays_visible _ _ HD) in HN.
  rewrite data_lines_rows in HN by (auto; eapply byte_cells_chars; exact HT).
  rewrite nth_error_map in HN. unfold tcell in HN. destruct (@nth_error (list (N * attrs)) (rows_cells s c 0 (groups c (byte_cells s toks))) i) as [r|] eqn:E; [|discriminate]. cbn [option_map] in HN.
  injection HN as <-. apply rows_cells_nth in E as (g & E & ->). rewrite (groups_prefix _ _ _ _ Hc E). cbn [N.add].
  unfold row_cells. rewrite HW. rewrite <- !app_assoc, map_app. rewrite removelast_app by (cbn [app map]; easy).
  now apply read_offset_back.
Qed.

(** last row *)
Lemma total_row s c chunks toks out : (0 < c)%nat -> Tokens chunks toks -> with_offsets s = true ->
  displays out (binary_rows s c (byte_cells s toks)) ->
  exists lines, text_lines (visible out) = lines ++ [map fst (offset_cells s cyan (N.of_nat (length (concat chunks))) ++ [bar s])].
Proof.
  intros Hc HT HW HD. rewrite (displays_visible _ _ HD).
  rewrite lines_of_rows by (apply binary_rows_form; [exact Hc|eapply byte_cells_chars; exact HT]).
  unfold binary_rows. rewrite map_app. unfold total_cells. rewrite HW, (byte_cells_length s chunks toks HT). cbn [map].
  eexists. f_equal. f_equal. rewrite app_assoc, map_app. cbn [map]. now rewrite removelast_last.
Qed.
Lemma total_back s c chunks toks out : (0 < c)%nat -> Tokens chunks toks -> with_offsets s = true ->
  displays out (binary_rows s c (byte_cells s toks)) -> N.of_nat (length (concat chunks)) < offset_bound s ->
  read_offset s (last (text_lines (visible out)) []) = Some (N.of_nat (length (concat chunks))).
Proof.
  intros Hc HT HW HD HB. destruct (total_row s c chunks toks out Hc HT HW HD) as (lines & ->). rewrite last_last, map_app. now apply read_offset_back.
Qed.

(** ** width *)
Lemma row_length s c off row : (length row <= c)%nat -> Forall (fun y : bcell => fst (fst y) < 256) row ->
  length (row_cells s c off row) = (offset_width s + 3 * c + 2 + length row + 1)%nat.
Proof.
  intros H HB. unfold row_cells, offset_width. rewrite !app_length, map_length. unfold styled. rewrite map_length, repeat_length. cbn [length].
  assert (L : length (flat_map hex_cells row) = (3 * length row)%nat).
  { clear H. induction HB as [|[[b x] a] row Hb HB IH]; [reflexivity|]. cbn [flat_map length]. rewrite app_length, IH. unfold hex_cells, styled. rewrite map_length.
    cbn [length fst] in *. destruct (hex2 b Hb) as (h & d & -> & _). cbn [length]. lia. }
  rewrite L. assert (length (if with_offsets s then offset_cells s green off ++ [bar s] else []) = if with_offsets s then 9 else 0)%nat as ->.
  { destruct (with_offsets s); [|reflexivity]. rewrite app_length, offset_cells_length. reflexivity. }
  lia.
Qed.
Lemma rows_length s c off rows : Forall (fun r => (0 < length r <= c)%nat) rows -> Forall (Forall (fun y : bcell => fst (fst y) < 256)) rows ->
  Forall (fun r : list tcell => (length r <= offset_width s + 4 * c + 3)%nat) (rows_cells s c off rows).
Proof.
  intros H. revert off. induction H as [|r rows Hr H IH]; intros off HB; [constructor|]. inversion HB; subst. cbn [rows_cells]. constructor; auto.
  rewrite row_length by (auto; lia). lia.
Qed.
Lemma binary_rows_length s c chunks toks : (0 < c)%nat -> Forall is_bytes chunks -> Tokens chunks toks ->
  Forall (fun r : list tcell => (length r <= offset_width s + 4 * c + 3)%nat) (binary_rows s c (byte_cells s toks)).
Proof.
  intros Hc HB HT. unfold binary_rows. apply Forall_app. split.
  - apply rows_length; [now apply groups_length|]. apply groups_Forall; [exact Hc|]. eapply is_bytes_cells; eassumption.
  - unfold total_cells, offset_width. destruct (with_offsets s); [|constructor]. constructor; [|constructor]. rewrite !app_length, offset_cells_length. cbn [length]. lia.
Qed.
Lemma auto_width s tc c : s_columns s = None -> columns s tc = Z.of_nat c -> (0 < c)%nat -> (Z.of_nat (offset_width s + 4 * c + 2) <= tc)%Z.
Proof.
  intros HN HC Hc. unfold columns in HC. rewrite HN in HC. unfold offset_width.
  assert (K : forall k, ((tc - k) / 17 * 4 = Z.of_nat c -> 22 <= k -> Z.of_nat (9 + 4 * c + 2) <= tc)%Z).
  { intros k Hk H22. pose proof (Z.mul_div_le (tc - k) 17 ltac:(lia)). set (q := ((tc - k) / 17)%Z) in *. lia. }
  destruct (s_decimal_offsets s); apply K in HC; try lia; destruct (with_offsets s); lia.
Qed.

Lemma lines_width s tc c chunks toks out : s_columns s = None -> binary_ok s tc c -> Forall is_bytes chunks -> Tokens chunks toks ->
  displays out (binary_rows s c (byte_cells s toks)) -> Forall (fun l => (Z.of_nat (length l) <= tc)%Z) (text_lines (visible out)).
Proof.
  intros HN (_ & HC & Hc) HB HT HD. rewrite (displays_visible _ _ HD).
  rewrite lines_of_rows by (apply binary_rows_form; [exact Hc|eapply byte_cells_chars; exact HT]).
  pose proof (auto_width s tc c HN HC Hc) as W. pose proof (binary_rows_length s c chunks toks Hc HB HT) as L.
  pose proof (binary_rows_form s c (byte_cells s toks) Hc (byte_cells_chars s chunks toks HT)) as F.
  apply Forall_forall. intros l Hl. apply in_map_iff in Hl as (r & <- & Hr). rewrite Forall_forall in L, F. specialize (L r Hr). destruct (F r Hr) as (x & E & _).
  unfold tcell in *. rewrite E, removelast_last. assert (length (map fst r) = length (x ++ [10])) as K by now rewrite E. rewrite map_length, app_length in K. cbn [length] in K. lia.
Qed.
