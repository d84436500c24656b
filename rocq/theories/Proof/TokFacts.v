(** The parser at the level of tokens *)
From Coq Require Import List Arith NArith ZArith Bool Lia.
From Verif.Model Require Import Base Ansi Regex Settings Segment Template Parser.
From Verif.Spec Require Import Numbers Utf8 Lexical SgrParams.
From Verif.Proof Require Import BaseFacts RegexFacts LexFacts.
Import ListNotations.
Local Open Scope N_scope.

Definition csi_is_sgr (p : bytes) (f : N) : bool :=
  (f =? 109) && negb (eqb_list p [] || eqb_list p [48]).

Definition tok_tpl (k : kind) : template :=
  match k with
  | K_utf8 _ => T_UTF_8_SEQ
  | K_binary => T_BINARY_DATA
  | K_csi p _ f =>
      if f =? 109 then if (eqb_list p [] || eqb_list p [48])%bool then T_ESCAPE_SEQ_SGR_0 else T_ESCAPE_SEQ_SGR
      else T_ESCAPE_SEQ_CSI
  | K_nF => T_ESCAPE_SEQ_NF
  | K_Fp => T_ESCAPE_SEQ_FP
  | K_Fe => T_ESCAPE_SEQ_FE
  | K_Fs => T_ESCAPE_SEQ_FS
  | K_escape => T_CONTROL_CHAR_ESCAPE
  | K_newline => T_WHITESPACE_NEWLINE
  | K_run R_control => T_CONTROL_CHAR
  | K_run R_null => T_CONTROL_CHAR_NULL
  | K_run R_backspace => T_CONTROL_CHAR_BACKSPACE
  | K_run R_delete => T_CONTROL_CHAR_DELETE
  | K_run R_tab => T_WHITESPACE_TAB
  | K_run R_vtab => T_WHITESPACE_VERT_TAB
  | K_run R_ff => T_WHITESPACE_FORM_FEED
  | K_run R_cr => T_WHITESPACE_CARR_RETURN
  | K_run R_space => T_WHITESPACE_SPACE
  | K_run R_printable => T_PRINTABLE_CHAR
  end.

Definition tok_state (k : kind) (ss : sgr_state) : result sgr_state :=
  match k with
  | K_csi p _ f => if csi_is_sgr p f then set_details_fmt_str p else Ok ss
  | _ => Ok ss
  end.

Definition tok_handle (e : tenv) (k : kind) (w : bytes) (ss : sgr_state) : result (list segment * sgr_state) :=
  bind (tok_state k ss) (fun ss' => bind (substitute e (tok_tpl k) ss' w) (fun segs => Ok (segs, ss'))).

Lemma handle_view e k w g ss : view k w g -> handle_match e g ss = tok_handle e k w ss.
Proof.
  intros (V & G & X). unfold handle_match, tok_handle. rewrite V, G. unfold resolve_match.
  destruct k as [cp| |p i f| | | | | | |r]; try reflexivity; [|destruct r; reflexivity].
  cbn [mgroup_of MGROUP_TO_TPL_MAP]. destruct X as [X1 X2]. unfold resolve_csi, group_is.
  rewrite X1, X2. unfold tok_state, tok_tpl, csi_is_sgr. cbn [eqb_list]. rewrite andb_true_r.
  destruct (f =? 109); [|reflexivity]. destruct (eqb_list p [] || eqb_list p [48])%bool; [reflexivity|].
  cbn [andb negb]. destruct (set_details_fmt_str p); reflexivity.
Qed.

(** segments of one token; only SGR tokens look at the template's state, and they have just set it *)
Definition tok_segs (e : tenv) (k : kind) (w : bytes) : result (list segment) :=
  bind (tok_state k sgr_state_init) (fun ss => substitute e (tok_tpl k) ss w).

Lemma substitute_ss e t ss ss' raw : t_kind t <> T_esc_sgr -> substitute e t ss raw = substitute e t ss' raw.
Proof.
  intros H. unfold substitute. destruct (t_kind t) eqn:K; try reflexivity.
  - destruct (te_details e) eqn:D; try reflexivity.
    + induction raw as [|b r IH]; [reflexivity|]. cbn [control_loop]. rewrite IH. f_equal.
      unfold control_details. rewrite D. destruct (is_ignored _); [reflexivity|]. unfold details_opening_seq. now rewrite K.
    + induction raw as [|b r IH]; [reflexivity|]. cbn [control_loop]. rewrite IH. f_equal.
      unfold control_details. rewrite D. destruct (is_ignored _); [reflexivity|]. unfold details_opening_seq. now rewrite K.
  - unfold label_opening_seq, esc_details, brief_details_processed, details_opening_seq. rewrite K. reflexivity.
  - easy.
Qed.

Lemma tok_tpl_sgr k : (exists p i f, k = K_csi p i f /\ csi_is_sgr p f = true) \/ t_kind (tok_tpl k) <> T_esc_sgr /\ forall ss, tok_state k ss = Ok ss.
Proof.
  destruct k as [cp| |p i f| | | | | | |r]; try (right; split; [easy|reflexivity]).
  - destruct (csi_is_sgr p f) eqn:E; [left; eauto|right]. unfold tok_state. rewrite E. split; [|reflexivity].
    unfold tok_tpl, csi_is_sgr in *. destruct (f =? 109); [|easy]. destruct (_ || _)%bool; [easy|discriminate].
  - right. split; [destruct r; easy|reflexivity].
Qed.

Lemma tok_handle_segs e k w ss :
  match tok_segs e k w with
  | Ok segs => exists ss', tok_handle e k w ss = Ok (segs, ss')
  | Err x => tok_handle e k w ss = Err x
  end.
Proof.
  unfold tok_segs, tok_handle. destruct (tok_tpl_sgr k) as [(p & i & f & -> & E)|[H1 H2]].
  - unfold tok_state. rewrite E. destruct (set_details_fmt_str p) as [ss'|x]; [|reflexivity]. cbn [bind].
    destruct (substitute e _ _ w); [eexists; reflexivity|reflexivity].
  - rewrite !H2. cbn [bind]. rewrite (substitute_ss e _ sgr_state_init ss w H1).
    destruct (substitute e _ _ w); [eexists; reflexivity|reflexivity].
Qed.

Fixpoint toks_segs (e : tenv) (ts : list (kind * bytes)) : result (list segment) :=
  match ts with
  | [] => Ok []
  | (k, w) :: t => bind (tok_segs e k w) (fun a => bind (toks_segs e t) (fun b => Ok (a ++ b)))
  end.

Lemma toks_segs_app e a b :
  toks_segs e (a ++ b) = bind (toks_segs e a) (fun x => bind (toks_segs e b) (fun y => Ok (x ++ y))).
Proof.
  induction a as [|[k w] a IH]; cbn [app toks_segs].
  - cbn [bind]. destruct (toks_segs e b); reflexivity.
  - destruct (tok_segs e k w) as [x|]; [|reflexivity]. cbn [bind]. rewrite IH.
    destruct (toks_segs e a) as [y|]; [|reflexivity]. cbn [bind]. destruct (toks_segs e b); [|reflexivity].
    cbn [bind]. now rewrite app_assoc.
Qed.

Lemma run_scan_toks e ts evs ss :
  Forall2 tok_view ts evs ->
  match toks_segs e ts with
  | Ok segs => exists ss', run_scan e evs ss = Ok ([], segs, ss')
  | Err x => run_scan e evs ss = Err x
  end.
Proof.
  intros H. revert ss. induction H as [|[k w] ev ts evs Ht H IH]; intros ss; cbn [toks_segs].
  - exists ss. reflexivity.
  - destruct Ht as (g & -> & V). cbn [fst snd] in V. cbn [run_scan snd]. rewrite (handle_view e k w g ss V).
    pose proof (tok_handle_segs e k w ss) as K. destruct (tok_segs e k w) as [a|x]; cbn [bind].
    + destruct K as [ss1 K]. rewrite K. cbn [bind]. specialize (IH ss1).
      destruct (toks_segs e ts) as [b|x]; cbn [bind].
      * destruct IH as [ss2 IH]. rewrite IH. cbn [bind]. eauto.
      * now rewrite IH.
    + now rewrite K.
Qed.

(** the parser, as a function of the tokens of the raw buffer *)
Lemma parse_toks e p sb ss ts :
  is_bytes (pb_raw p) -> Lexes (pb_raw p) ts ->
  match toks_segs e ts with
  | Ok segs => exists ss', parse e p sb ss = Ok (mkPbuf [] (pb_closed p), attach sb segs, ss')
  | Err x => parse e p sb ss = Err x
  end.
Proof.
  intros Hb HL. pose proof (run_scan_toks e ts _ ss (scan_tokens _ _ Hb HL)) as K. unfold parse.
  destruct (toks_segs e ts) as [segs|x].
  - destruct K as [ss' K]. rewrite K. cbn [bind]. exists ss'. reflexivity.
  - now rewrite K.
Qed.

(** * failures *)
Lemma py_int_ok s : s <> [] -> Forall ascii_digit s -> N.of_nat (length s) <= 4300 -> py_int s = Ok (num_value 10 (map (fun c => c - 48) s)).
Proof.
  intros Hs H HL. unfold py_int. destruct s as [|x s]; [easy|]. apply N.leb_le in HL. rewrite HL, andb_true_r.
  replace (forallb is_digit (x :: s)) with true.
  2:{ symmetry. apply forallb_forall. rewrite Forall_forall in H. intros c Hc. specialize (H c Hc).
      unfold is_digit, ascii_digit in *. apply andb_true_iff. rewrite !N.leb_le. lia. }
  f_equal. unfold num_value. clear. generalize 0. induction (x :: s) as [|c l IH]; intros a; [reflexivity|].
  cbn [map fold_left]. apply IH.
Qed.
Lemma py_int_inv s n : py_int s = Ok n -> s <> [] /\ Forall ascii_digit s /\ N.of_nat (length s) <= 4300 /\ n = num_value 10 (map (fun c => c - 48) s).
Proof.
  intros H. assert (s <> []) by (intros ->; discriminate).
  assert (HF : Forall ascii_digit s /\ N.of_nat (length s) <= 4300).
  { unfold py_int in H. destruct s as [|x s]; [easy|]. destruct (forallb is_digit (x :: s) && _) eqn:E; [|discriminate].
    apply andb_true_iff in E as [E E1]. apply N.leb_le in E1. split; [|exact E1].
    rewrite forallb_forall in E. apply Forall_forall. intros c Hc. specialize (E c Hc).
    unfold is_digit, ascii_digit in *. apply andb_true_iff in E. rewrite !N.leb_le in E. lia. }
  destruct HF as [HF HL]. repeat split; auto. rewrite py_int_ok in H by assumption. now injection H as <-.
Qed.
Lemma py_int_err s x : py_int s = Err x -> x = ValueError.
Proof. unfold py_int. destruct s; [congruence|]. destruct (forallb is_digit _ && _); congruence. Qed.

Lemma split_on_none c s : ~ In c s -> split_on c s = [s].
Proof.
  induction s as [|x s IH]; intros H; [reflexivity|]. cbn. destruct (x =? c) eqn:E.
  - apply N.eqb_eq in E. subst. destruct H. now left.
  - rewrite IH; [reflexivity|]. intros K. apply H. now right.
Qed.
Lemma split_on_app c a b : ~ In c a -> split_on c (a ++ c :: b) = a :: split_on c b.
Proof.
  induction a as [|x a IH]; intros H; cbn.
  - now rewrite N.eqb_refl.
  - destruct (x =? c) eqn:E.
    + apply N.eqb_eq in E. subst. destruct H. now left.
    + rewrite IH; [reflexivity|]. intros K. apply H. now right.
Qed.
(** first occurrence *)
Lemma split_first (c : N) s : ~ In c s \/ exists a b, s = a ++ c :: b /\ ~ In c a.
Proof.
  induction s as [|x s [IH|(a & b & -> & IH)]].
  - left. easy.
  - destruct (N.eq_dec x c) as [->|H].
    + right. exists [], s. split; [reflexivity|easy].
    + left. intros [K|K]; [easy|]. auto.
  - destruct (N.eq_dec x c) as [->|H].
    + right. exists [], (a ++ c :: b). split; [reflexivity|easy].
    + right. exists (x :: a), b. split; [reflexivity|]. intros [K|K]; [easy|]. auto.
Qed.

Definition part_code (p : str) : result (list N) :=
  match p with
  | [] => Ok []
  | _ => bind (py_int (hd [] (split_on 58 p))) (fun n => Ok [n])
  end.
Lemma part_code_spec p c : part_code p = Ok c <-> PartCode p c.
Proof.
  split.
  - destruct p as [|x p]; intros H.
    + injection H as <-. constructor.
    + unfold part_code in H. destruct (py_int _) as [n|] eqn:E; [|discriminate]. injection H as <-.
      apply py_int_inv in E as (H1 & H2 & HL & ->).
      destruct (split_first 58 (x :: p)) as [K|(a & b & E & K)].
      * rewrite (split_on_none 58) in * by exact K. cbn [hd] in *.
        pose proof (Part_number (x :: p) [] H1 H2 HL (or_introl eq_refl)) as Q. now rewrite app_nil_r in Q.
      * rewrite E in *. rewrite (split_on_app 58) in * by exact K. cbn [hd] in *. constructor; eauto.
  - intros H. destruct H as [|ds sub H1 H2 HL H3]; [reflexivity|].
    assert (E : hd [] (split_on 58 (ds ++ sub)) = ds).
    { assert (~ In 58 ds). { intros K. rewrite Forall_forall in H2. apply H2 in K. unfold ascii_digit in K. lia. }
      destruct H3 as [->|[r ->]].
      - rewrite app_nil_r, split_on_none by assumption. reflexivity.
      - rewrite split_on_app by assumption. reflexivity. }
    unfold part_code. rewrite E, py_int_ok by assumption. destruct ds as [|x ds]; [easy|]. reflexivity.
Qed.
Lemma part_code_err p x : part_code p = Err x -> x = ValueError.
Proof.
  destruct p as [|y p]; [discriminate|]. unfold part_code. destruct (py_int _) eqn:E; [discriminate|].
  cbn [bind]. intros H. injection H as <-. now apply py_int_err in E.
Qed.

Lemma parse_pcodes_last p : ~ In 59 p -> parse_pcodes p = part_code p.
Proof.
  intros H. unfold parse_pcodes. rewrite split_on_none by exact H. destruct p as [|x p]; [reflexivity|].
  cbn [filter map_result part_code]. destruct (py_int _); reflexivity.
Qed.
Lemma parse_pcodes_more p rest : ~ In 59 p ->
  parse_pcodes (p ++ 59 :: rest) = bind (part_code p) (fun c => bind (parse_pcodes rest) (fun cs => Ok (c ++ cs))).
Proof.
  intros H. unfold parse_pcodes. rewrite split_on_app by exact H. destruct p as [|x p].
  - cbn [filter part_code bind app]. destruct (map_result _ _); reflexivity.
  - cbn [filter map_result part_code]. destruct (py_int _); reflexivity.
Qed.

Lemma length_ind {A} (P : list A -> Prop) :
  (forall s, (forall t, (length t < length s)%nat -> P t) -> P s) -> forall s, P s.
Proof.
  intros H s. remember (length s) as n eqn:E. revert s E.
  induction n as [n IH] using (well_founded_induction lt_wf). intros s ->. apply H. intros t Ht. now apply (IH (length t)).
Qed.

Lemma parse_pcodes_spec p c : parse_pcodes p = Ok c <-> ParamCodes p c.
Proof.
  split.
  - revert c. induction p as [p IH] using (@length_ind N). intros c H.
    destruct (split_first 59 p) as [K|(a & b & E & K)].
    + rewrite parse_pcodes_last in H by exact K. constructor; [exact K|]. now apply part_code_spec.
    + rewrite E in H. rewrite parse_pcodes_more in H by exact K.
      destruct (part_code a) as [c1|] eqn:E1; [|discriminate]. cbn [bind] in H.
      destruct (parse_pcodes b) as [cs|] eqn:E2; [|discriminate]. cbn [bind] in H. injection H as <-. subst p.
      constructor; [exact K| now apply part_code_spec|]. apply IH; [|exact E2].
      rewrite app_length. cbn [length]. lia.
  - induction 1 as [p c H1 H2|p c rest cs H1 H2 H IH].
    + rewrite parse_pcodes_last by exact H1. now apply part_code_spec.
    + rewrite parse_pcodes_more by exact H1. apply part_code_spec in H2. now rewrite H2, IH.
Qed.
Lemma parse_pcodes_err p x : parse_pcodes p = Err x -> x = ValueError.
Proof.
  induction p as [p IH] using (@length_ind N). intros H.
  destruct (split_first 59 p) as [K|(a & b & E & K)].
  - rewrite parse_pcodes_last in H by exact K. now apply part_code_err in H.
  - rewrite E in H. rewrite parse_pcodes_more in H by exact K.
    destruct (part_code a) as [c1|] eqn:E1; cbn [bind] in H; [|injection H as ->; now apply part_code_err in E1].
    destruct (parse_pcodes b) as [cs|] eqn:E2; cbn [bind] in H; [discriminate|]. injection H as ->.
    apply (IH b); [|exact E2]. subst p. rewrite app_length. cbn [length]. lia.
Qed.

(** tokens the program chokes on: SGR sequences with something else than numbers in their parameters *)
Definition bad_tok (k : kind) : Prop :=
  match k with
  | K_csi p _ f => f = 109 /\ p <> [] /\ p <> [48] /\ ~ exists c, ParamCodes p c
  | _ => False
  end.
Lemma csi_is_sgr_spec p f : csi_is_sgr p f = true <-> f = 109 /\ p <> [] /\ p <> [48].
Proof.
  unfold csi_is_sgr. rewrite andb_true_iff, negb_true_iff, orb_false_iff, N.eqb_eq.
  rewrite <- !not_true_iff_false, !eqb_list_spec. tauto.
Qed.

Lemma control_loop_ok e t ss raw :
  t_kind t = T_control -> Forall (run_member R_control) raw -> exists segs, control_loop e t ss raw = Ok segs.
Proof.
  intros Hk H. induction H as [|b raw Hb H [more IH]]; [cbn; eauto|]. cbn [control_loop].
  assert (exists det, control_details e t ss b = Ok det) as [det E].
  { unfold control_details, details_opening_seq. rewrite Hk. destruct (is_ignored _); [eauto|].
    destruct (te_details e); try (eexists; reflexivity).
    assert (exists c, assoc b brief_label_map = Some c) as [c ->]; [|eexists; reflexivity].
    assert (K : In b (map fst brief_label_map)).
    { cbn [run_member] in Hb. unfold rng in Hb. unfold brief_label_map. cbn [map fst].
      destruct (N.lt_ge_cases b 14); [|destruct (N.lt_ge_cases b 28)].
      - assert (b = 1 \/ b = 2 \/ b = 3 \/ b = 4 \/ b = 5 \/ b = 6 \/ b = 7) by lia. cbn [In]. intuition.
      - assert (b = 14 \/ b = 15 \/ b = 16 \/ b = 17 \/ b = 18 \/ b = 19 \/ b = 20 \/ b = 21 \/ b = 22 \/ b = 23 \/ b = 24 \/ b = 25 \/ b = 26) by lia. cbn [In]. intuition.
      - assert (b = 28 \/ b = 29 \/ b = 30 \/ b = 31) by lia. cbn [In]. intuition. }
    revert K. generalize brief_label_map. induction l as [|[x y] l IHl]; [easy|]. cbn [map fst In assoc].
    intros [->|K]; [rewrite N.eqb_refl; eauto|]. destruct (b =? x); eauto. }
  rewrite E, IH. cbn [bind]. eauto.
Qed.

(** a token is processed without an exception unless it is a bad SGR *)
Lemma tok_segs_result e k w rest :
  Token k w rest ->
  (bad_tok k /\ tok_segs e k w = Err ValueError) \/ (~ bad_tok k /\ exists segs, tok_segs e k w = Ok segs).
Proof.
  intros HT. unfold tok_segs.
  assert (Plain : forall t ss, t_kind t <> T_control -> t_kind t <> T_esc_sgr -> exists segs, substitute e t ss w = Ok segs).
  { intros t ss H1 H2. unfold substitute, label_opening_seq, esc_details, brief_details_processed, details_opening_seq.
    destruct (t_kind t); try easy; try (eexists; reflexivity).
    destruct (is_ignored _); [eexists; reflexivity|]. cbn [bind]. destruct (te_details e); eexists; reflexivity. }
  destruct k as [cp| |p i f| | | | | | |r]; try (right; split; [easy|]; cbn [tok_state bind tok_tpl]; apply Plain; easy).
  - cbn [tok_state bad_tok]. destruct (csi_is_sgr p f) eqn:E.
    + apply csi_is_sgr_spec in E as (E1 & E2 & E3). unfold set_details_fmt_str.
      destruct (parse_pcodes p) as [codes|x] eqn:P.
      * right. split; [intros (_ & _ & _ & K); apply K; exists codes; now apply parse_pcodes_spec|].
        cbn [bind]. destruct (brief_loop codes) as [al nm].
        cbn [bind]. replace (tok_tpl (K_csi p i f)) with T_ESCAPE_SEQ_SGR.
        2:{ unfold tok_tpl. subst f. change (109 =? 109) with true. cbn iota.
            replace (eqb_list p []) with false by (symmetry; apply not_true_iff_false; now rewrite eqb_list_spec).
            replace (eqb_list p [48]) with false by (symmetry; apply not_true_iff_false; now rewrite eqb_list_spec).
            reflexivity. }
        unfold substitute. cbn [t_kind T_ESCAPE_SEQ_SGR mkTemplate].
        destruct (is_ignored _); [eexists; reflexivity|].
        unfold label_opening_seq, esc_details, brief_details_processed, details_opening_seq.
        cbn [t_kind T_ESCAPE_SEQ_SGR mkTemplate ss_opening ss_brief].
        destruct (te_color_markers e), (te_details e); cbn [bind negb]; eexists; reflexivity.
      * left. split; [|cbn [bind]; f_equal; now apply parse_pcodes_err in P].
        repeat split; auto. intros [c K]. apply parse_pcodes_spec in K. congruence.
    + right. split.
      * intros (E1 & E2 & E3 & _). assert (csi_is_sgr p f = true) by (apply csi_is_sgr_spec; auto). congruence.
      * cbn [bind]. unfold csi_is_sgr in E. unfold tok_tpl.
        destruct (f =? 109); [|apply Plain; easy]. destruct (_ || _)%bool; [apply Plain; easy|discriminate].
  - right. split; [easy|]. destruct r; cbn [tok_state bind tok_tpl]; try (apply Plain; easy).
    inversion HT as [| | | | | | | | |k0 w0 r0 H1 H2 H3]; subst.
    unfold substitute. cbn [t_kind T_CONTROL_CHAR mkTemplate].
    destruct (te_details e); try (eexists; reflexivity); now apply control_loop_ok.
Qed.
