(** The visible text of debug messages *)
From Coq Require Import Ascii String.
From Coq Require Import List Arith NArith ZArith Bool Lia.
From Verif.Model Require Import Base Ansi Regex Strip Settings Segment Template Parser Console Formatter Reader Runner Trace.
From Verif.Spec Require Import Numbers Terminal Sgr Lexical SgrParams Display Output Input Weave TraceText.
From Verif.Proof Require Import BaseFacts RegexFacts TermFacts ClosingFacts TokFacts PaintFacts ConsoleFacts BufFacts BufHistory TraceFacts TraceRun TraceClaims.
Import ListNotations.
Local Open Scope N_scope.

Lemma spoken_app a b : spoken (a ++ b) = spoken a ++ spoken b.
Proof. apply flat_map_app. Qed.
Lemma told_app w a b : told w (a ++ b) = told w a ++ told w b.
Proof. unfold told. now rewrite spoken_app, flat_map_app. Qed.
Lemma told_at_app w a b : told_at w (a ++ b) = told_at w a ++ told_at w b.
Proof. unfold told_at. now rewrite spoken_app, flat_map_app. Qed.
Lemma told_one w e l : told w (e :: l) = told w [e] ++ told w l.
Proof. apply (told_app w [e]). Qed.
Lemma told_at_one w e l : told_at w (e :: l) = told_at w [e] ++ told_at w l.
Proof. apply (told_at_app w [e]). Qed.

(** ** the part of a text that is surely visible *)
Lemma trun_app_cells st a s t : exists st1 a1 l1, trun st a s = (st1, a1, l1) /\
  trun st a (s ++ t) = (fst (fst (trun st1 a1 t)), snd (fst (trun st1 a1 t)), l1 ++ snd (trun st1 a1 t)).
Proof.
  revert st a. induction s as [|c s IH]; intros st a; cbn [app trun].
  - exists st, a, []. split; [reflexivity|]. destruct (trun st a t) as [[? ?] ?]. reflexivity.
  - destruct (tstep st a c) as [[st1 a1] l1]. destruct (IH st1 a1) as (st2 & a2 & l2 & E1 & E2). rewrite E1, E2.
    exists st2, a2, (l1 ++ l2). split; [reflexivity|]. now rewrite app_assoc.
Qed.
Lemma visible_begins p t a cs : Painted attrs0 p a cs -> exists tail, visible (p ++ t) = map cell_char cs ++ tail.
Proof.
  intros H. apply Painted_paints in H. unfold paints in H. unfold visible, screen.
  destruct (trun_app_cells Ground attrs0 p t) as (st & a1 & l1 & E1 & E2). rewrite E2. rewrite H in E1. injection E1 as <- <- <-.
  destruct (trun Ground a t) as [[st2 a2] l2]. cbn [fst snd]. destruct st2; rewrite ?map_app, <- ?app_assoc; eauto.
Qed.

(** ** columns *)
Definition column (d : dbuf) : str := match db_key d with Some k => rjust 32 MAIN_PREFIX_LEN (firstn MAIN_PREFIX_LEN k) | None => [] end.
Definition keyed (d : dbuf) : Prop := In d [READER; PARSER; PARSBUF; CHAINBUF; BINFMT; TXTFMT].
Lemma key_painted s d : keyed d -> exists k, db_key d = Some k /\
  Tidy attrs0 (format_prefix s k (sgr_add [c_GRAY] [c_BG_BLACK])) (column d ++ [0x2502]).
Proof.
  intros D. assert (S1 : Tidy attrs0 (get_separator s) [0x2502]).
  { unfold get_separator. destruct (0 <? s_debug s)%nat; (apply Tidy_span; [reflexivity|apply Tidy_plain, inline_all; reflexivity]). }
  repeat (destruct D as [<-|D]; [eexists; split; [reflexivity|]; cbn [column db_key READER PARSER PARSBUF CHAINBUF BINFMT TXTFMT]|]); try contradiction.
  1-5: unfold format_prefix; rewrite dim_0x_id;
       [apply Tidy_app; [apply Tidy_span; [reflexivity|apply Tidy_plain, inline_all; reflexivity]|exact S1]
       |apply Forall_app; split; [apply span_nox; repeat constructor; easy|apply get_separator_nox]].
  - unfold format_prefix, get_separator in *. destruct (0 <? s_debug s)%nat.
    all: match goal with |- Tidy _ (dim_0x (span_wrap ?o ?t ++ ?x)) _ => change (Tidy attrs0 (span_wrap o t ++ x) (rjust 32 MAIN_PREFIX_LEN (firstn MAIN_PREFIX_LEN (lit "txtfmt")) ++ [0x2502])) end.
    all: apply Tidy_app; (apply Tidy_span; [reflexivity|apply Tidy_plain, inline_all; reflexivity]).
Qed.
Lemma dbg_visible s d k m v : keyed d -> Tidy attrs0 m v -> spoken [dbg s d k m] = [(k, column d ++ [0x2502] ++ v ++ [10])].
Proof.
  intros D (cm & Pm & Em & _). destruct (key_painted s d D) as (key & K & cs & P & E & _). unfold dbg. rewrite K. cbn [spoken flat_map app].
  f_equal. f_equal. erewrite Painted_visible.
  2: { eapply Painted_app; [exact P|]. eapply Painted_app; [exact Pm|]. apply Pt_chr; [easy|apply Pt_nil]. }
  rewrite !map_app, E, Em, <- app_assoc. reflexivity.
Qed.
Lemma dbg_begins s d k p t v : keyed d -> Tidy attrs0 p v -> exists tail, spoken [dbg s d k (p ++ t)] = [(k, column d ++ [0x2502] ++ v ++ tail)].
Proof.
  intros D (cm & Pm & Em & _). destruct (key_painted s d D) as (key & K & cs & P & E & _). unfold dbg. rewrite K. cbn [spoken flat_map app].
  destruct (visible_begins (format_prefix s key (sgr_add [c_GRAY] [c_BG_BLACK]) ++ p) (t ++ [10]) attrs0 (cs ++ cm)) as (tail & V);
    [eapply Painted_app; eassumption|]. exists tail. rewrite <- !app_assoc in *. rewrite V, map_app, E, Em, <- !app_assoc. reflexivity.
Qed.
Lemma dbg_at_begins s d k p t v off : keyed d -> Tidy attrs0 p v ->
  exists tail, spoken [dbg_at s d k (p ++ t) off] = [(k, offset_text s off ++ [0x2502] ++ v ++ tail)].
Proof.
  intros D (cm & Pm & Em & _).
  assert (X : Tidy attrs0 (format_prefix_with_offset s off (sgr_add (db_color d) [c_BG_BLACK])) (offset_text s off ++ [0x2502])).
  { rewrite <- (offset_text_any s (sgr_apply (sgr_add (db_color d) [c_BG_BLACK]) attrs0)).
    repeat (destruct D as [<-|D]; [apply prefix_tidy; [solve_good|reflexivity|reflexivity]|]). contradiction. }
  destruct X as (cs & P & E & _). unfold dbg_at. cbn [spoken flat_map app].
  destruct (visible_begins (format_prefix_with_offset s off (sgr_add (db_color d) [c_BG_BLACK]) ++ p) (t ++ [10]) attrs0 (cs ++ cm)) as (tail & V);
    [eapply Painted_app; eassumption|]. exists tail. rewrite <- !app_assoc in *. rewrite V, map_app, E, Em, <- !app_assoc. reflexivity.
Qed.
Lemma dbg_at_spoken s d k m v off : keyed d -> Tidy attrs0 m v -> spoken [dbg_at s d k m off] = [(k, offset_text s off ++ [0x2502] ++ v ++ [10])].
Proof.
  intros D (cm & Pm & Em & _).
  assert (X : Tidy attrs0 (format_prefix_with_offset s off (sgr_add (db_color d) [c_BG_BLACK])) (offset_text s off ++ [0x2502])).
  { rewrite <- (offset_text_any s (sgr_apply (sgr_add (db_color d) [c_BG_BLACK]) attrs0)).
    repeat (destruct D as [<-|D]; [apply prefix_tidy; [solve_good|reflexivity|reflexivity]|]). contradiction. }
  destruct X as (cs & P & E & _). unfold dbg_at. cbn [spoken flat_map app]. f_equal. f_equal. erewrite Painted_visible.
  2: { eapply Painted_app; [exact P|]. eapply Painted_app; [exact Pm|]. apply Pt_chr; [easy|apply Pt_nil]. }
  rewrite !map_app, E, Em, <- app_assoc. reflexivity.
Qed.

(** ** who speaks *)
Lemma offset_text_length s off : length (offset_text s off) = 8%nat.
Proof.
  unfold offset_text, offset_cells. cbv zeta. destruct (s_decimal_offsets s); unfold styled; rewrite ?map_app, ?map_map; cbn [fst]; rewrite ?map_id.
  - unfold aligned. rewrite app_length, repeat_length, firstn_length. lia.
  - rewrite !app_length, repeat_length, firstn_length. cbn [length]. lia.
Qed.
(** no character of an offset is an [n], [p] or [r], nor any letter beyond [f] except [x] *)
Lemma offset_text_chars s off : Forall (fun c => c <= 102 \/ c = 120) (offset_text s off).
Proof.
  assert (D : Forall (fun c => c <= 102 \/ c = 120) (dec off)) by (eapply Forall_impl; [|apply dec_digits]; cbn beta; lia).
  assert (H : forall w n, Forall (fun c => c <= 102 \/ c = 120) (fmt_hex_lo w n)) by (intros w n; eapply Forall_impl; [|apply fmt_hex_lo_chars]; cbn beta; lia).
  assert (R : forall n, Forall (fun c => c <= 102 \/ c = 120) (repeat 32 n)) by (intros n; apply Forall_forall; intros x Hx; apply repeat_spec in Hx; lia).
  unfold offset_text, offset_cells. cbv zeta. destruct (s_decimal_offsets s); unfold styled; rewrite ?map_app, ?map_map; cbn [fst]; rewrite ?map_id.
  - unfold aligned. apply Forall_app. split; [apply R|]. now apply firstn_Forall.
  - apply Forall_app. split; [apply R|]. apply Forall_app. split; [repeat constructor; lia|]. apply firstn_Forall, H.
Qed.
Definition far (c : N) : bool := (102 <? c) && negb (c =? 120).
Lemma offset_text_not s off w : existsb far w = true -> eqb_list (offset_text s off) w = false.
Proof.
  intros H. destruct (eqb_list (offset_text s off) w) eqn:E; [|reflexivity]. apply eqb_list_spec in E. subst w.
  apply existsb_exists in H as (c & I & F). pose proof (offset_text_chars s off) as K. rewrite Forall_forall in K. specialize (K c I).
  unfold far in F. apply andb_prop in F as [F1 F2]. apply N.ltb_lt in F1. apply negb_true_iff, N.eqb_neq in F2. lia.
Qed.
Lemma offset_text_named s off names : forallb (existsb far) names = true -> existsb (eqb_list (offset_text s off)) names = false.
Proof.
  induction names as [|w names IH]; [reflexivity|]. cbn [forallb existsb]. intros H. apply andb_prop in H as [H1 H2]. now rewrite offset_text_not, IH.
Qed.
Lemma firstn_eight {A} (a b : list A) : length a = 8%nat -> firstn 8 (a ++ b) = a.
Proof. intros H. rewrite <- H. rewrite firstn_app, Nat.sub_diag, firstn_all. cbn [firstn]. apply app_nil_r. Qed.
Lemma skipn_eight {A} (a b : list A) : length a = 8%nat -> skipn 8 (a ++ b) = b.
Proof. intros H. rewrite <- H. rewrite skipn_app, Nat.sub_diag, skipn_all. reflexivity. Qed.

(** messages with an offset are not among those of the names *)
Lemma told_offset names k off s v rest : forallb (existsb far) names = true ->
  flat_map (fun '(k, v) => if existsb (eqb_list (firstn 8 v)) names then
     match after [0x2502] (skipn 8 v) with Some t => [(firstn 8 v, k, t)] | None => [] end else []) ((k : nat, offset_text s off ++ v) :: rest) =
  flat_map (fun '(k, v) => if existsb (eqb_list (firstn 8 v)) names then
     match after [0x2502] (skipn 8 v) with Some t => [(firstn 8 v, k, t)] | None => [] end else []) rest.
Proof. intros H. cbn [flat_map]. rewrite firstn_eight by apply offset_text_length. now rewrite offset_text_named. Qed.
Lemma told_dbg_at names s d k m off : forallb (existsb far) names = true -> keyed d -> told names [dbg_at s d k m off] = [].
Proof.
  intros H D. destruct (dbg_at_begins s d k [] m [] off D (Tidy_nil _)) as (tail & E). cbn [app] in E. unfold told. rewrite E. now rewrite told_offset.
Qed.
Lemma told_dbg names s d k m v : keyed d -> Tidy attrs0 m v ->
  told names [dbg s d k m] = if existsb (eqb_list (column d)) names then [(column d, k, v ++ [10])] else [].
Proof.
  intros D T. unfold told. rewrite (dbg_visible s d k m v D T). assert (L : length (column d) = 8%nat) by (clear - D; repeat (destruct D as [<-|D]; [reflexivity|]); contradiction).
  cbn [flat_map]. rewrite firstn_eight, skipn_eight by exact L. destruct (existsb _ names); reflexivity.
Qed.
Lemma told_dbg_begins names s d k p t v : keyed d -> Tidy attrs0 p v -> exists tail,
  told names [dbg s d k (p ++ t)] = if existsb (eqb_list (column d)) names then [(column d, k, v ++ tail)] else [].
Proof.
  intros D T. destruct (dbg_begins s d k p t v D T) as (tail & E). exists tail. unfold told. rewrite E.
  assert (L : length (column d) = 8%nat) by (clear - D; repeat (destruct D as [<-|D]; [reflexivity|]); contradiction).
  cbn [flat_map]. rewrite firstn_eight, skipn_eight by exact L. destruct (existsb _ names); reflexivity.
Qed.
(** nor are those of others *)
Lemma told_dbg_other names s d k m : keyed d -> existsb (eqb_list (column d)) names = false -> told names [dbg s d k m] = [].
Proof. intros D H. destruct (told_dbg_begins names s d k [] m [] D (Tidy_nil _)) as (tail & E). cbn [app] in E. now rewrite E, H. Qed.

(** a message that starts otherwise *)
Lemma told_at_offset start s d k p t v off : keyed d -> Tidy attrs0 p v -> (forall tail, after start (v ++ tail) = None) -> told_at start [dbg_at s d k (p ++ t) off] = [].
Proof.
  intros D T H. destruct (dbg_at_begins s d k p t v off D T) as (tail & E). unfold told_at. rewrite E. cbn [flat_map].
  rewrite skipn_eight by apply offset_text_length. cbn [app after]. rewrite N.eqb_refl, H. reflexivity.
Qed.
Lemma told_at_said start s d k m v off : keyed d -> Tidy attrs0 m v ->
  told_at start [dbg_at s d k m off] = match after start (v ++ [10]) with Some t => [(offset_text s off, k, t)] | None => [] end.
Proof.
  intros D T. unfold told_at. rewrite (dbg_at_spoken s d k m v off D T). cbn [flat_map].
  rewrite skipn_eight, firstn_eight by apply offset_text_length. cbn [app after]. rewrite N.eqb_refl. destruct (after start _); reflexivity.
Qed.
Lemma told_at_dbg start s d k p t v : keyed d -> Tidy attrs0 p v -> (forall tail, after start (v ++ tail) = None) -> told_at start [dbg s d k (p ++ t)] = [].
Proof.
  intros D T H. destruct (dbg_begins s d k p t v D T) as (tail & E). unfold told_at. rewrite E.
  assert (L : length (column d) = 8%nat) by (clear - D; repeat (destruct D as [<-|D]; [reflexivity|]); contradiction).
  cbn [flat_map]. rewrite skipn_eight by exact L. cbn [app after]. rewrite N.eqb_refl, H. reflexivity.
Qed.

(** lines between chunks *)
Lemma runner_spoken s k cols c : c <> 27 -> exists tail, spoken [dbg s RUNNER k (separator_line s cols c)] = [(k, repeat 0x2500 8 ++ c :: tail)].
Proof.
  intros HC. cbn [dbg db_key RUNNER app spoken flat_map]. unfold separator_line. cbv zeta.
  match goal with |- context [span_wrap [c_GRAY] ?l] => set (line := l) end.
  assert (X : forall o, exists tail, visible (span_wrap o line ++ [10]) = repeat 0x2500 8 ++ c :: tail).
  { intros o. unfold span_wrap, line, MAIN_PREFIX_LEN. unfold span_wrap.
    set (a := sgr_apply [c_BG_BLACK] (sgr_apply o attrs0)). set (b := sgr_apply (closing_seq [c_BG_BLACK]) a).
    destruct (visible_begins (assemble o ++ assemble [c_BG_BLACK] ++ repeat 0x2500 8 ++ assemble (closing_seq [c_BG_BLACK]) ++ [c])
      (repeat 0x2500 (Z.to_nat (cols - zlen (strip_sgr ((assemble [c_BG_BLACK] ++ repeat 0x2500 8 ++ assemble (closing_seq [c_BG_BLACK])) ++ [c]))))
       ++ assemble (closing_seq o) ++ [10]) b (map to_cell (styled a (repeat 0x2500 8)) ++ map to_cell (styled b [c]))) as (tail & V).
    { apply Pt_sgr, Pt_sgr. eapply Painted_app; [apply Painted_plain; repeat constructor; easy|]. apply Pt_sgr. apply Painted_plain. repeat constructor; exact HC. }
    exists tail. rewrite map_app, !map_to_cell_char in V. unfold styled in V. rewrite !map_map in V. cbn [fst] in V. rewrite !map_id in V.
    rewrite <- !app_assoc in V. cbn [app] in V. rewrite <- !app_assoc. cbn [app]. exact V. }
  destruct (0 <? s_debug s)%nat; [destruct (X [c_GRAY]) as (tail & E)|destruct (X [c_CYAN]) as (tail & E)]; exists tail; f_equal; f_equal; exact E.
Qed.
Definition crossing (c : N) : Prop := In c [CROSS; CROSS_OPEN; CROSS_CLOSE].
Lemma told_runner names s k cols c : crossing c -> existsb (eqb_list (repeat 0x2500 8)) names = false -> told names [dbg s RUNNER k (separator_line s cols c)] = [].
Proof.
  intros C H. destruct (runner_spoken s k cols c) as (tail & E); [repeat (destruct C as [<-|C]; [easy|]); contradiction|].
  unfold told. rewrite E. cbn [flat_map]. rewrite firstn_eight by reflexivity. now rewrite H.
Qed.
Lemma told_at_runner start s k cols c : crossing c -> told_at start [dbg s RUNNER k (separator_line s cols c)] = [].
Proof.
  intros C. destruct (runner_spoken s k cols c) as (tail & E); [repeat (destruct C as [<-|C]; [easy|]); contradiction|].
  unfold told_at. rewrite E. cbn [flat_map]. rewrite skipn_eight by reflexivity. repeat (destruct C as [<-|C]; [reflexivity|]). contradiction.
Qed.

(** ** descriptions of data *)
Lemma spaced_join v : join [32] (map (fmt_hex_lo 2) v) = spaced v.
Proof.
  destruct v as [|b v]; [reflexivity|]. cbn [spaced]. revert b. induction v as [|c v IH]; intros b; [cbn; now rewrite app_nil_r|].
  change (join [32] (map (fmt_hex_lo 2) (b :: c :: v))) with (fmt_hex_lo 2 b ++ [32] ++ join [32] (map (fmt_hex_lo 2) (c :: v))). rewrite IH. reflexivity.
Qed.
Lemma hex2_length b : b < 256 -> length (fmt_hex_lo 2 b) = 2%nat.
Proof.
  intros H. assert (K : forallb (fun n => (length (fmt_hex_lo 2 (N.of_nat n)) =? 2)%nat) (seq 0 256) = true) by (vm_compute; reflexivity).
  rewrite forallb_forall in K. specialize (K (N.to_nat b)). rewrite N2Nat.id in K. apply Nat.eqb_eq, K, in_seq. lia.
Qed.
Lemma spaced_length v : is_bytes v -> v <> [] -> (S (length (spaced v)) = 3 * length v)%nat.
Proof.
  intros B NE. destruct v as [|b v]; [congruence|]. clear NE. inversion B as [|? ? B1 B2]; subst. cbn [spaced]. rewrite app_length, (hex2_length b B1). cbn [length].
  clear - B2. induction B2 as [|x v Bx B IH]; [reflexivity|]. cbn [flat_map app length]. rewrite app_length, hex2_length by exact Bx. cbn [length] in *. lia.
Qed.
Lemma spaced_app a b : a <> [] -> b <> [] -> spaced (a ++ b) = spaced a ++ 32 :: spaced b.
Proof.
  intros A B. destruct a as [|x a]; [congruence|]. destruct b as [|y b]; [congruence|]. cbn [app spaced]. rewrite flat_map_app, <- app_assoc. reflexivity.
Qed.
Lemma last_two v : is_bytes v -> v <> [] -> py_drop (-2) (spaced v) = fmt_hex_lo 2 (last v 0).
Proof.
  intros B NE. destruct (exists_last NE) as (a & x & ->). apply Forall_app in B as [B1 B2]. inversion B2 as [|? ? Bx _]; subst.
  rewrite last_last. assert (E : exists u, spaced (a ++ [x]) = u ++ fmt_hex_lo 2 x).
  { destruct a as [|y a]; [exists []; cbn; now rewrite app_nil_r|]. rewrite spaced_app by discriminate. exists (spaced (y :: a) ++ [32]). rewrite <- app_assoc. cbn. now rewrite app_nil_r. }
  destruct E as (u & ->). unfold py_drop. cbn [Z.ltb Z.compare]. pose proof (hex2_length x Bx) as L.
  rewrite app_length, L. replace (length u + 2 - Z.to_nat (- -2))%nat with (length u) by lia. rewrite skipn_app, Nat.sub_diag, skipn_all. reflexivity.
Qed.
Lemma printd_described s v : is_bytes v -> Tidy attrs0 (printd s v) (described (s_debug s) v).
Proof.
  intros B. unfold printd, described. cbv zeta. match goal with |- Tidy _ _ (?a ++ ?b ++ ?c) => rewrite (app_assoc a b c) end.
  assert (R : Tidy attrs0 (lit "len " ++ bold_num (zlen v)) (lit "len " ++ dec (N.of_nat (length v)))).
  { apply Tidy_app; [apply Tidy_plain, inline_all; reflexivity|]. unfold zlen. rewrite <- nat_N_Z, <- zdec_of. apply bold_num_visible. }
  set (r := (lit "len " ++ bold_num (zlen v))%list) in *. clearbody r.
  unfold debug_buffer_contents, debug_buffer_contents_full. rewrite (Nat.ltb_antisym 3).
  destruct (3 <=? s_debug s)%nat; cbn [negb]; [|rewrite app_nil_r; exact R].
  assert (HI : Forall inline (spaced v)).
  { rewrite <- spaced_join. apply join_inline; [repeat constructor; easy|]. apply Forall_forall. intros x Hx. apply in_map_iff in Hx as (y & <- & _). apply hex_inline. }
  destruct v as [|b v].
  - cbn [length Nat.leb]. rewrite orb_true_r. apply Tidy_app; [exact R|].
    change (Tidy attrs0 ([32] ++ span_wrap [c_GRAY] (lit "[]")) ([32] ++ lit "[]")).
    apply Tidy_app; [apply Tidy_plain, inline_all; reflexivity|apply Tidy_span; [reflexivity|apply Tidy_plain, inline_all; reflexivity]].
  - rewrite spaced_join.
    set (m := if (4 <=? s_debug s)%nat then spaced (b :: v) else _).
    set (m' := if ((4 <=? s_debug s) || _)%nat then spaced (b :: v) else _).
    assert (M : m = m').
    { unfold m, m'. destruct (4 <=? s_debug s)%nat; [reflexivity|]. cbn [orb].
      pose proof (spaced_length (b :: v) B ltac:(discriminate)) as L.
      destruct (Nat.leb_spec (length (b :: v)) 3) as [K|K].
      - destruct (Nat.ltb_spec 8 (length (spaced (b :: v)))); [lia|]. rewrite app_nil_r. apply firstn_all2. lia.
      - destruct (Nat.ltb_spec 8 (length (spaced (b :: v)))); [|lia]. rewrite last_two by (exact B || discriminate). f_equal.
        rewrite <- (firstn_skipn 3 (b :: v)) at 1. assert (L3 : length (firstn 3 (b :: v)) = 3%nat) by (rewrite firstn_length; lia).
        assert (B3 : is_bytes (firstn 3 (b :: v))) by (unfold is_bytes in *; now apply firstn_Forall).
        assert (LS : length (skipn 3 (b :: v)) <> 0%nat) by (rewrite skipn_length; lia).
        pose proof (spaced_length _ B3) as L8. set (x := firstn 3 (b :: v)) in *. set (y := skipn 3 (b :: v)) in *. clearbody x y.
        assert (x <> []) by (intros ->; discriminate). assert (y <> []) by (intros ->; now apply LS). rewrite spaced_app by assumption.
        specialize (L8 ltac:(assumption)). rewrite L3 in L8. replace 8%nat with (length (spaced x)) by lia. rewrite firstn_app, Nat.sub_diag, firstn_all. cbn [firstn]. apply app_nil_r. }
    clearbody m'. subst m'.
    assert (HM : Forall inline m).
    { unfold m. destruct (4 <=? s_debug s)%nat; [exact HI|]. apply Forall_app. split; [now apply firstn_inline|].
      destruct (8 <? _)%nat; [|constructor]. apply Forall_app. split; [apply inline_all; reflexivity|]. unfold py_drop. destruct (_ <? _)%Z; now apply skipn_inline. }
    clearbody m. apply Tidy_app; [exact R|].
    match goal with |- Tidy _ ?x ?y => change (Tidy attrs0 ([32] ++ (assemble [c_GRAY] ++ ([91] ++ m ++ [93] ++ assemble [c_COLOR_OFF]))) ([32] ++ ([91] ++ m ++ [93]))) end.
    apply Tidy_app; [apply Tidy_plain, inline_all; reflexivity|].
    replace (assemble [c_GRAY] ++ ([91] ++ m ++ [93] ++ assemble [c_COLOR_OFF])) with (span_wrap [c_GRAY] ([91] ++ m ++ [93])) by (unfold span_wrap; rewrite <- !app_assoc; reflexivity).
    apply Tidy_span; [reflexivity|]. apply Tidy_plain. apply Forall_app. split; [apply inline_all; reflexivity|]. apply Forall_app. split; [exact HM|apply inline_all; reflexivity].
Qed.
