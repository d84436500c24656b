(** Prefixes of lines and rows *)
From Coq Require Import List Arith NArith ZArith Bool Lia.
From Verif.Model Require Import Base Ansi Strip Settings Segment Console Formatter.
From Verif.Spec Require Import Numbers Terminal Sgr Lexical SgrParams Display Output.
From Verif.Proof Require Import BaseFacts TermFacts ClosingFacts PaintFacts.
Import ListNotations.
Local Open Scope N_scope.

Definition nox (c : N) : Prop := c <> 120.

Lemma join_nox sep l : Forall nox sep -> Forall (Forall nox) l -> Forall nox (join sep l).
Proof.
  intros Hs H. induction H as [|x l Hx H IH]; [constructor|]. destruct l as [|y l]; [exact Hx|].
  cbn [join]. apply Forall_app. split; [exact Hx|]. apply Forall_app. auto.
Qed.
Lemma dec_nox n : Forall nox (dec n).
Proof. eapply Forall_impl; [|apply dec_digits]. unfold nox. cbn beta. intros; lia. Qed.
Lemma assemble_nox p : Forall nox (assemble p).
Proof.
  unfold assemble. destruct p as [|x p]; [constructor|]. repeat constructor; try easy. apply Forall_app. split.
  - apply join_nox; [repeat constructor; easy|]. apply Forall_map. apply Forall_forall. intros n _. apply dec_nox.
  - repeat constructor; easy.
Qed.
Lemma hex_nox w n : Forall nox (fmt_hex_lo w n).
Proof. eapply Forall_impl; [|apply fmt_hex_lo_chars]. unfold nox. cbn beta. intros; lia. Qed.
Lemma firstn_nox n l : Forall nox l -> Forall nox (firstn n l).
Proof. intros H. apply Forall_forall. intros x Hx. rewrite Forall_forall in H. apply H. rewrite <- (firstn_skipn n l). apply in_or_app. now left. Qed.
Lemma repeat_nox n : Forall nox (repeat 32 n).
Proof. apply Forall_forall. intros x Hx. apply repeat_spec in Hx. subst. easy. Qed.

Lemma dim_0x_cons c t : c <> 48 \/ (match t with 120 :: _ => False | _ => True end) -> dim_0x (c :: t) = c :: dim_0x t.
Proof.
  intros H. destruct (N.eq_dec c 48) as [->|Hc].
  - destruct H as [H|H]; [easy|]. destruct t as [|x t]; [reflexivity|].
    destruct (N.eq_dec x 120) as [->|Hx]; [easy|]. clear H.
    destruct x as [|x]; [reflexivity|]. repeat (destruct x as [x|x|]; try reflexivity; try easy).
  - clear H. destruct c as [|c]; [reflexivity|]. repeat (destruct c as [c|c|]; try reflexivity; try easy).
Qed.
Lemma dim_0x_id s : Forall nox s -> dim_0x s = s.
Proof.
  induction 1 as [|c s Hc H IH]; [reflexivity|]. rewrite dim_0x_cons; [now rewrite IH|]. right.
  destruct H as [|x s Hx H]; [easy|]. unfold nox in Hx. destruct x as [|x]; [easy|]. repeat (destruct x as [x|x|]; try easy).
Qed.
Lemma nox_head t : Forall nox t -> match t with 120 :: _ => False | _ => True end.
Proof. intros [|x s Hx H]; [easy|]. unfold nox in Hx. destruct x as [|x]; [easy|]. repeat (destruct x as [x|x|]; try easy). Qed.
Lemma dim_0x_mid a b : Forall nox a -> Forall nox b -> dim_0x (a ++ 48 :: 120 :: b) = a ++ span_wrap [c_DIM] [48; 120] ++ b.
Proof.
  intros Ha Hb. induction Ha as [|c a Hc Ha IH].
  - cbn [app]. change (dim_0x (48 :: 120 :: b)) with (span_wrap [c_DIM] [48; 120] ++ dim_0x b). now rewrite (dim_0x_id b Hb).
  - cbn [app]. rewrite dim_0x_cons; [now rewrite IH|]. right. destruct a as [|x a]; [cbn [app]; easy|].
    cbn [app]. pose proof (nox_head _ Ha) as K. destruct x as [|x]; [easy|]. repeat (destruct x as [x|x|]; try easy).
Qed.

Lemma span_nox f t : Forall nox t -> Forall nox (span_wrap f t).
Proof. intros H. unfold span_wrap. apply Forall_app. split; [apply assemble_nox|]. apply Forall_app. split; [exact H|apply assemble_nox]. Qed.
Lemma get_separator_nox s : Forall nox (get_separator s).
Proof. unfold get_separator. destruct (0 <? s_debug s)%nat; apply span_nox; repeat constructor; easy. Qed.

(** ** what they paint *)
Lemma Painted_span o text : good_open o -> Forall (fun c => c <> 27) text ->
  Painted attrs0 (span_wrap o text) attrs0 (map to_cell (styled (sgr_apply o attrs0) text)).
Proof.
  intros G H. unfold span_wrap. apply Pt_sgr. rewrite <- (app_nil_r (map to_cell _)). eapply Painted_app; [now apply Painted_plain|].
  rewrite <- (good_closing o G) at 2. apply Painted_assemble.
Qed.
Lemma debugging_spec s : (0 <? s_debug s)%nat = debugging s.
Proof. unfold debugging. destruct (s_debug s); reflexivity. Qed.
Lemma with_offsets_spec s : effective_print_offsets s = with_offsets s.
Proof. unfold effective_print_offsets, with_offsets. rewrite debugging_spec. destruct (debugging s); reflexivity. Qed.

Lemma separator_painted s : Painted attrs0 (get_separator s) attrs0 (map to_cell [bar s]).
Proof.
  unfold get_separator, bar. rewrite debugging_spec. destruct (debugging s).
  - exact (Painted_span [c_GRAY] [SEPARATOR_CHAR] ltac:(solve_good) ltac:(repeat constructor; easy)).
  - exact (Painted_span [c_CYAN] [SEPARATOR_CHAR] ltac:(solve_good) ltac:(repeat constructor; easy)).
Qed.

Lemma to_cell_map_app a b : map to_cell (a ++ b) = map to_cell a ++ map to_cell b.
Proof. apply map_app. Qed.

Lemma dec_no27 n : Forall (fun c => c <> 27) (dec n).
Proof. eapply Forall_impl; [|apply dec_digits]. cbn beta. intros; lia. Qed.
Lemma firstn_Forall {A} (P : A -> Prop) n l : Forall P l -> Forall P (firstn n l).
Proof. intros H. apply Forall_forall. intros x Hx. rewrite Forall_forall in H. apply H. rewrite <- (firstn_skipn n l). apply in_or_app. now left. Qed.
Lemma repeat_no27 n : Forall (fun c => c <> 27) (repeat 32 n).
Proof. apply Forall_forall. intros x Hx. apply repeat_spec in Hx. subst. easy. Qed.
Lemma aligned_no27 w l : Forall (fun c => c <> 27) l -> Forall (fun c => c <> 27) (aligned w l).
Proof. intros H. apply Forall_app. split; [apply repeat_no27|exact H]. Qed.
Lemma hex_no27 w n : Forall (fun c => c <> 27) (fmt_hex_lo w n).
Proof. eapply Forall_impl; [|apply fmt_hex_lo_chars]. cbn beta. intros; lia. Qed.

Lemma line_number_painted s n text cells a' :
  Painted attrs0 text a' (map to_cell cells) ->
  Painted attrs0 (write_with_line_num s text n) a' (map to_cell (line_number_cells s n ++ cells)).
Proof.
  intros H. unfold write_with_line_num, line_number_cells. rewrite debugging_spec, to_cell_map_app.
  eapply Painted_app; [|exact H]. destruct (debugging s).
  - unfold format_prefix. rewrite dim_0x_id.
    + rewrite to_cell_map_app. eapply Painted_app; [|apply separator_painted].
      exact (Painted_span [c_GREEN] (aligned 8 (firstn 8 (dec n))) ltac:(solve_good) (aligned_no27 8 _ (firstn_Forall _ _ _ (dec_no27 n)))).
    + apply Forall_app. split; [|apply get_separator_nox]. apply span_nox. unfold rjust. apply Forall_app. split; [apply repeat_nox|apply firstn_nox, dec_nox].
  - destruct (s_no_line_numbers s); [constructor|]. rewrite to_cell_map_app. eapply Painted_app; [|apply separator_painted].
    exact (Painted_span [c_GREEN] (aligned 2 (dec n)) ltac:(solve_good) (aligned_no27 2 _ (dec_no27 n))).
Qed.

(** the prefix of rows, with the opening sequence of its span *)
Lemma prefix_string s off f :
  format_prefix_with_offset s off f =
  if s_decimal_offsets s then span_wrap f (aligned 8 (firstn 8 (dec off))) ++ get_separator s
  else let l := firstn 6 (fmt_hex_lo (hex_width off) off) in
       assemble f ++ repeat 32 (6 - length l) ++ span_wrap [c_DIM] [48; 120] ++ l ++ assemble (closing_seq f) ++ get_separator s.
Proof.
  unfold format_prefix_with_offset, format_prefix, offset_str. destruct (s_decimal_offsets s).
  - rewrite dim_0x_id; [reflexivity|]. apply Forall_app. split; [|apply get_separator_nox].
    apply span_nox. unfold rjust. apply Forall_app. split; [apply repeat_nox|apply firstn_nox, dec_nox].
  - cbv zeta. fold (hex_width off). set (h := fmt_hex_lo (hex_width off) off).
    assert (Hh : Forall nox h) by apply hex_nox.
    change (firstn MAIN_PREFIX_LEN ([48; 120] ++ h)) with (48 :: 120 :: firstn 6 h). set (l := firstn 6 h).
    unfold span_wrap at 1, rjust. change (MAIN_PREFIX_LEN - length (48%N :: 120%N :: l))%nat with (6 - length l)%nat.
    set (c := assemble (closing_seq f)).
    replace ((assemble f ++ (repeat 32 (6 - length l) ++ 48 :: 120 :: l) ++ c) ++ get_separator s)
      with ((assemble f ++ repeat 32 (6 - length l)) ++ 48 :: 120 :: (l ++ c ++ get_separator s)) by (rewrite <- !app_assoc; reflexivity).
    rewrite dim_0x_mid.
    + rewrite <- !app_assoc. reflexivity.
    + apply Forall_app. split; [apply assemble_nox|apply repeat_nox].
    + apply Forall_app; split; [apply firstn_nox, Hh|]. apply Forall_app; split; [apply assemble_nox|apply get_separator_nox].
Qed.

Lemma prefix_painted s off f a : good_open f -> sgr_apply f attrs0 = a -> a_bold a = false -> a_dim a = false ->
  Painted attrs0 (format_prefix_with_offset s off f) attrs0 (map to_cell (offset_cells s a off ++ [bar s])).
Proof.
  intros G A B D. rewrite prefix_string, to_cell_map_app. unfold offset_cells. destruct (s_decimal_offsets s).
  - eapply Painted_app; [|apply separator_painted]. rewrite <- A.
    apply Painted_span; [exact G|]. apply aligned_no27, firstn_Forall, dec_no27.
  - cbv zeta. set (l := firstn 6 (fmt_hex_lo (hex_width off) off)).
    apply Pt_sgr. rewrite A, !to_cell_map_app, <- !app_assoc.
    eapply Painted_app; [apply Painted_plain, repeat_no27|].
    unfold span_wrap. rewrite <- app_assoc. apply Pt_sgr. rewrite <- app_assoc.
    change (sgr_apply [c_DIM] a) with (set_dim true a).
    eapply Painted_app; [apply (Painted_plain (set_dim true a) [48; 120]); repeat constructor; easy|].
    apply Pt_sgr. change (sgr_apply (closing_seq [c_DIM]) (set_dim true a)) with (set_bold false (set_dim false (set_dim true a))).
    assert (E : set_bold false (set_dim false (set_dim true a)) = a) by (destruct a; cbn in B, D; subst; reflexivity). rewrite E.
    eapply Painted_app; [apply Painted_plain, firstn_Forall, hex_no27|]. apply Pt_sgr.
    rewrite <- A, (good_closing f G). apply separator_painted.
Qed.

(** its length does not depend on the offset *)
Lemma prefix_length s off : length (format_prefix_with_offset s off []) = if s_decimal_offsets s then 19%nat else 28%nat.
Proof.
  rewrite prefix_string. assert (S : length (get_separator s) = 11%nat) by (unfold get_separator; destruct (0 <? s_debug s)%nat; reflexivity).
  destruct (s_decimal_offsets s).
  - unfold span_wrap, aligned. rewrite !app_length, S, repeat_length, firstn_length. change (length (assemble [])) with 0%nat.
    change (length (assemble (closing_seq []))) with 0%nat. lia.
  - cbv zeta. set (l := firstn 6 (fmt_hex_lo (hex_width off) off)).
    assert ((length l <= 6)%nat) by (unfold l; rewrite firstn_length; lia). rewrite !app_length, S, repeat_length.
    change (length (assemble [])) with 0%nat. change (length (assemble (closing_seq []))) with 0%nat.
    change (length (span_wrap [c_DIM] [48; 120])) with 11%nat. lia.
Qed.

Lemma current_cols_spec s tc off : current_cols s tc off = columns s tc.
Proof.
  unfold current_cols, columns. destruct (s_columns s); [reflexivity|]. unfold compute_cols_num, get_terminal_width, zlen.
  rewrite prefix_length. destruct (s_decimal_offsets s); (f_equal; f_equal; lia).
Qed.
