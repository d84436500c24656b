(** The whole run: reader, parser, templates, buffer, formatter *)
From Coq Require Import List Arith NArith ZArith Bool Lia.
From Verif.Model Require Import Base Ansi Strip Settings Segment Template Parser Console Formatter Reader Runner.
From Verif.Spec Require Import Numbers Terminal Sgr Lexical SgrParams Display Output Input.
From Verif.Proof Require Import BaseFacts TermFacts ClosingFacts LexFacts TokFacts PaintFacts DisplayFacts BinDisplay TextDisplay BufFacts BufHistory ConsoleFacts TextFormat BinFormat RunFacts ReaderFacts.
Import ListNotations.
Local Open Scope N_scope.

Lemma shows_of out cells : Painted attrs0 out attrs0 (map to_cell cells) -> shows out cells.
Proof. intros H. split; [eapply Painted_screen; exact H|eapply Painted_final; exact H]. Qed.
Lemma displays_of out rows : Rows out rows -> displays out rows.
Proof.
  intros H. split; [now apply shows_of, Rows_painted|]. destruct H as (parts & -> & H). exists parts. split; [reflexivity|].
  induction H; constructor; auto using shows_of.
Qed.

(** ** tokens of chunks *)
Definition good_chunk (c : list N) : Prop := is_bytes c /\ exists lx toks, Lexes c lx /\ Forall2 Coded lx toks.

Lemma good_chunk_dec c : is_bytes c -> good_chunk c \/ ~ good_chunk c.
Proof.
  intros H. destruct (lexes_total c H) as [lx HL]. destruct (coded_dec lx) as [[toks HC]|HN]; [left; split; eauto|right].
  intros (_ & lx' & toks & HL' & HC). rewrite (lexes_det c lx lx' H HL HL') in HN. eauto.
Qed.
Lemma good_chunk_nil : good_chunk [].
Proof. split; [constructor|]. exists [], []. split; constructor. Qed.

Lemma tokens_nil : Tokens [] [].
Proof. exists []. split; constructor. Qed.
Lemma tokens_app c1 t1 c2 t2 : Tokens c1 t1 -> Tokens c2 t2 -> Tokens (c1 ++ c2) (t1 ++ t2).
Proof.
  intros (x1 & H1 & K1) (x2 & H2 & K2). exists (x1 ++ x2). split; [now apply Forall2_app|]. rewrite concat_app. now apply Forall2_app.
Qed.
Lemma tokens_one c lx toks : Lexes c lx -> Forall2 Coded lx toks -> Tokens [c] toks.
Proof. intros H K. exists [lx]. split; [now constructor|]. cbn. now rewrite app_nil_r. Qed.
Lemma tokens_cons_inv c cs toks : Tokens (c :: cs) toks -> exists lx t1 t2, Lexes c lx /\ Forall2 Coded lx t1 /\ Tokens cs t2 /\ toks = t1 ++ t2.
Proof.
  intros (tss & H & K). inversion H as [|x lx l tss' HL H']; subst. cbn [concat] in K. apply Forall2_app_inv_l in K as (t1 & t2 & K1 & K2 & ->).
  exists lx, t1, t2. repeat split; auto. exists tss'. auto.
Qed.
Lemma lexes_nil ts : Lexes [] ts -> ts = [].
Proof. intros H. apply (lexes_det [] ts []); [constructor|exact H|constructor]. Qed.
Lemma tokens_nonempty cs toks : Tokens cs toks <-> Tokens (nonempty cs) toks.
Proof.
  revert toks. induction cs as [|c cs IH]; intros toks; [reflexivity|]. destruct c as [|b c].
  - cbn [nonempty filter]. rewrite <- IH. split.
    + intros H. apply tokens_cons_inv in H as (lx & t1 & t2 & H1 & H2 & H3 & ->). apply lexes_nil in H1. subst lx. inversion H2; subst. exact H3.
    + intros H. apply (tokens_app [[]] [] cs toks); [|exact H]. apply (tokens_one [] []); constructor.
  - cbn [nonempty filter]. split; intros H; apply tokens_cons_inv in H as (lx & t1 & t2 & H1 & H2 & H3 & ->).
    + apply (tokens_app [b :: c] t1 (nonempty cs) t2); [now apply (tokens_one _ lx)|]. now apply IH.
    + apply (tokens_app [b :: c] t1 cs t2); [now apply (tokens_one _ lx)|]. now apply IH.
Qed.
Lemma coded_det ts t1 t2 : Forall2 Coded ts t1 -> Forall2 Coded ts t2 -> t1 = t2.
Proof.
  intros H. revert t2. induction H as [|x [[k w] c] ts t1 [E1 C1] H IH]; intros t2 H2; inversion H2 as [|x' [[k' w'] c'] l l' [E2 C2] H2']; subst; [reflexivity|].
  cbn in E2. injection E2 as -> ->. cbn in C1, C2. rewrite (TokCodes_det _ _ _ C1 C2). f_equal. now apply IH.
Qed.
Lemma tokens_det cs t1 t2 : Forall is_bytes cs -> Tokens cs t1 -> Tokens cs t2 -> t1 = t2.
Proof.
  intros HB. revert t1 t2. induction HB as [|c cs Hc HB IH]; intros t1 t2 H1 H2.
  - destruct H1 as (x1 & A1 & B1), H2 as (x2 & A2 & B2). inversion A1; inversion A2; subst. inversion B1; inversion B2; reflexivity.
  - apply tokens_cons_inv in H1 as (lx & a1 & b1 & H1 & K1 & J1 & ->), H2 as (lx' & a2 & b2 & H2 & K2 & J2 & ->).
    rewrite <- (lexes_det c lx lx' Hc H1 H2) in K2. f_equal; [now apply (coded_det lx)|now apply IH].
Qed.
Lemma good_tokens cs : Forall is_bytes cs -> (Forall good_chunk cs <-> exists toks, Tokens cs toks).
Proof.
  intros HB. split.
  - induction 1 as [|c cs (_ & lx & t & HL & HC) H IH]; [exists []; apply tokens_nil|]. inversion HB; subst. destruct IH as [t2 IH]; [assumption|].
    exists (t ++ t2). apply (tokens_app [c]); [now apply (tokens_one c lx)|exact IH].
  - induction HB as [|c cs Hc HB IH]; intros [toks H]; constructor.
    + apply tokens_cons_inv in H as (lx & a & b & H1 & K1 & J1 & ->). split; [exact Hc|]. eauto.
    + apply IH. apply tokens_cons_inv in H as (lx & a & b & H1 & K1 & J1 & ->). eauto.
Qed.

(** ** limits *)
Lemma limited_within mb ml data d : Limited mb ml data d ->
  exists rb rn, Remains mb 0 rb /\ Remains ml 0 rn /\ d = within rb rn data.
Proof.
  assert (L : forall l n, limit_is l n -> Remains l 0 (Some n)).
  { intros l n [-> H]. exists (Z.of_nat n). repeat split; lia. }
  intros H. destruct H as [mb ml data H1 H2|mb ml b data H1 H2|mb ml l data H1 H2|mb ml b l data H1 H2].
  - exists None, None. auto.
  - exists (Some b), None. auto.
  - exists None, (Some l). auto.
  - exists (Some b), (Some l). auto.
Qed.
Lemma feeds_filter l : feeds l = length (filter (N.eqb 10) l).
Proof. induction l as [|b l IH]; [reflexivity|]. cbn [feeds filter]. rewrite (N.eqb_sym 10 b). destruct (b =? 10)%N; cbn [length]; lia. Qed.
Lemma reached_stops mb ml rb rn data : Remains mb 0 rb -> Remains ml 0 rn -> reached rb rn data <-> Stops mb ml data.
Proof.
  assert (L : forall l n, Remains l 0 (Some n) -> limit_is l n).
  { intros l n (m & -> & H1 & H2 & ->). split; [f_equal|]; lia. }
  assert (L' : forall l r n, Remains l 0 r -> limit_is l n -> r = Some n).
  { intros l [k|] n HR [-> Hn]; cbn in HR; [|destruct HR as [K|K]; [discriminate|]; injection K; lia].
    destruct HR as (m & E & H1 & H2 & ->). injection E as <-. f_equal. lia. }
  intros HB HN. split.
  - intros [(b & -> & K)|(l & -> & K)].
    + apply (Stop_bytes _ _ _ b (within (Some b) rn data)); [now apply L| |].
      * destruct rn as [l|]; [apply Lim_both|apply Lim_bytes]; auto.
      * unfold within in *. rewrite firstn_length in *. lia.
    + apply (Stop_lines _ _ _ l); [now apply L|]. now rewrite <- feeds_filter.
  - intros [b d H1 H2 H3|l H1 H2].
    + left. exists b. rewrite (L' _ _ _ HB H1). split; [reflexivity|]. rewrite <- H3 at 1.
      destruct H2 as [mb ml data H2 H4|mb ml b' data H2 H4|mb ml l data H2 H4|mb ml b' l data H2 H4].
      * destruct H1 as [-> H1]. destruct H2 as [H2|H2]; [discriminate|]. injection H2. lia.
      * assert (b' = b) as -> by (destruct H1 as [-> ?], H2 as [H2 ?]; injection H2; lia). destruct rn as [l|]; [|cbn; lia].
        exfalso. apply L in HN as [-> HN]. destruct H4 as [H4|H4]; [discriminate|]. injection H4. lia.
      * destruct H1 as [-> H1]. destruct H2 as [H2|H2]; [discriminate|]. injection H2. lia.
      * assert (b' = b) as -> by (destruct H1 as [-> ?], H2 as [H2 ?]; injection H2; lia). rewrite (L' _ _ _ HN H4). cbn. lia.
    + right. exists l. rewrite (L' _ _ _ HN H1). split; [reflexivity|]. now rewrite feeds_filter.
Qed.
Lemma no_stops mb ml data : no_limit mb -> no_limit ml -> ~ Stops mb ml data.
Proof.
  intros H1 H2 [b d [-> K] _ _|l [-> K] _].
  - destruct H1 as [H1|H1]; [discriminate|]. injection H1. lia.
  - destruct H2 as [H2|H2]; [discriminate|]. injection H2. lia.
Qed.
Lemma limited_whole mb ml data : no_limit mb -> no_limit ml -> Limited mb ml data data.
Proof. intros. now constructor. Qed.
(** limits that are not negative *)
Lemma limited_exists mb ml data : (forall n, mb = Some n -> (0 <= n)%Z) -> (forall n, ml = Some n -> (0 <= n)%Z) -> exists d, Limited mb ml data d.
Proof.
  intros H1 H2.
  assert (C : forall l, (forall n, l = Some n -> (0 <= n)%Z) -> no_limit l \/ exists n, limit_is l n).
  { intros [n|] H; [|left; now left]. specialize (H n eq_refl). destruct (Z.eq_dec n 0) as [->|Hn]; [left; now right|right].
    exists (Z.to_nat n). split; [f_equal; lia|lia]. }
  destruct (C mb H1) as [?|[b ?]], (C ml H2) as [?|[l ?]].
  - eexists. now apply Lim_none.
  - eexists. now apply (Lim_lines _ _ l).
  - eexists. now apply (Lim_bytes _ _ b).
  - eexists. now apply (Lim_both _ _ b l).
Qed.
Lemma first_bytes_bytes n cs : Forall is_bytes cs -> Forall is_bytes (first_bytes n cs).
Proof.
  intros H. revert n. induction H as [|c cs Hc H IH]; intros n; [constructor|]. cbn [first_bytes].
  destruct (length c <=? n)%nat; constructor; auto. now apply firstn_Forall.
Qed.
Lemma nonempty_bytes cs : Forall is_bytes cs -> Forall is_bytes (nonempty cs).
Proof. intros H. induction H as [|c cs Hc H IH]; [constructor|]. cbn [nonempty filter]. destruct c; [exact IH|now constructor]. Qed.

(** ** the run *)
Lemma opens_tell src : opens src -> tell_fails src = false.
Proof. intros [->| ->]; reflexivity. Qed.

Lemma resolved_limits s : s_max_bytes (resolved s) = s_max_bytes s /\ s_max_lines (resolved s) = s_max_lines s.
Proof. destruct s as [[] [] ? ? ? ? ? ? ? ? ? ? ? ? ? ? ? ? ? ? ?]; split; reflexivity. Qed.

Lemma read_loop_ext {St} cb1 cb2 mb ml src : (forall st raw off fin, cb1 st raw off fin = cb2 st raw off fin) ->
  forall evs off lines (st : St), read_loop cb1 mb ml src evs off lines st = read_loop cb2 mb ml src evs off lines st.
Proof.
  intros E. assert (EF : forall raw off st, read_finish cb1 raw off st = read_finish cb2 raw off st) by (intros; unfold read_finish; now rewrite E).
  induction evs as [|ev evs IH]; intros off lines st; cbn [read_loop]; [now rewrite EF|].
  destruct ev as [[|b raw]| |]; try reflexivity; [now rewrite EF|]. destruct (tell_fails src); [reflexivity|].
  destruct (apply_max_lines ml (b :: raw) lines) as [raw1 lines1]. rewrite !EF, E. destruct (cb2 st raw1 off false) as [st1 []]; try reflexivity.
  now rewrite EF, IH.
Qed.

Lemma run_read s tc src evs :
  byteio_run s tc src evs = read (process_chunk s (update_settings s) tc) (s_max_bytes s) (s_max_lines s) src evs proc_init.
Proof.
  unfold byteio_run. destruct (get_read_mode s) as [rm s1] eqn:E. assert (s1 = resolved s) as -> by (unfold resolved; now rewrite E).
  destruct (resolved_limits s) as [-> ->]. unfold read. destruct src; [| |reflexivity]; (rewrite (read_loop_ext _ (process_chunk s (update_settings s) tc)); [reflexivity|]; intros; apply resolved_chunk).
Qed.

(** what a run shows; [so_far] and [all] are the rows for the tokens received so far and for
    all tokens *)
Inductive Result (so_far all : list token -> list (list tcell)) (evs : list read_ev) (fb : list (list N)) (complete : Prop) (p : proc) : reader_end -> Prop :=
| Res_all toks : Tokens fb toks -> Rows (pr_out p) (all toks) -> (ending_of evs = At_eof \/ complete) -> Result so_far all evs fb complete p REnd
| Res_bad cs c rest toks : nonempty fb = cs ++ c :: rest -> ~ good_chunk c -> Tokens cs toks -> Rows (pr_out p) (so_far toks) -> Result so_far all evs fb complete p (RError ValueError)
| Res_interrupt toks : ending_of evs = At_interrupt -> ~ complete -> Tokens fb toks -> Rows (pr_out p) (so_far toks) -> Result so_far all evs fb complete p REnd
| Res_failure toks : ending_of evs = At_failure -> ~ complete -> Tokens fb toks -> Rows (pr_out p) (so_far toks) -> Result so_far all evs fb complete p (RError OSError).

Section Run.
  Variable s : settings.
  Variable tc : Z.
  Variable src : source.
  Hypothesis Hsrc : opens src.
  Variable St : proc -> list token -> Prop.
  Variable so_far all : list token -> list (list tcell).
  Hypothesis st_init : St proc_init [].
  Hypothesis st_raw : forall p ts, St p ts -> pb_raw (pr_pb p) = [].
  Hypothesis st_rows : forall p ts, St p ts -> Rows (pr_out p) (so_far ts).
  Hypothesis st_chunk : forall p ts raw off fin lx toks, St p ts -> is_bytes raw -> Lexes raw lx -> Forall2 Coded lx toks ->
    exists p', process_chunk s (update_settings s) tc p raw off fin = (p', CbOk) /\
      if fin then Rows (pr_out p') (all (ts ++ toks)) else St p' (ts ++ toks).

  Lemma run_result evs d :
    Forall is_bytes (provided evs) -> Limited (s_max_bytes s) (s_max_lines s) (concat (provided evs)) d ->
    exists p acts en, byteio_run s tc src evs = (p, acts, en) /\
      Result so_far all evs (first_bytes (length d) (provided evs)) (Stops (s_max_bytes s) (s_max_lines s) (concat (provided evs))) p en.
  Proof.
    intros HB HL. destruct (limited_within _ _ _ _ HL) as (rb & rn & R1 & R2 & ->).
    set (Inv := fun p done => exists toks, Tokens done toks /\ St p toks).
    set (Fin := fun p done => exists toks, Tokens done toks /\ Rows (pr_out p) (all toks)).
    set (Bad := fun p done => exists toks, Tokens done toks /\ Rows (pr_out p) (so_far toks)).
    assert (VP : forall a b : list N, is_bytes (a ++ b) -> is_bytes a) by (intros a b H; apply Forall_app in H; tauto).
    assert (CG : forall p done c off fin, Inv p done -> good_chunk c ->
      exists p', process_chunk s (update_settings s) tc p c off fin = (p', CbOk) /\ if fin then Fin p' (done ++ [c]) else Inv p' (done ++ [c])).
    { intros p done c off fin (toks & HT & HS) (Hb & lx & t & Hlx & HC). destruct (st_chunk p toks c off fin lx t HS Hb Hlx HC) as (p' & E & K).
      exists p'. split; [exact E|]. destruct fin; exists (toks ++ t); (split; [apply tokens_app; [exact HT|now apply (tokens_one c lx)]|exact K]). }
    assert (CB : forall p done c off fin, Inv p done -> is_bytes c -> ~ good_chunk c ->
      exists p', process_chunk s (update_settings s) tc p c off fin = (p', CbErr ValueError) /\ Bad p' done).
    { intros p done c off fin (toks & HT & HS) Hb HN. destruct (lexes_total c Hb) as [lx Hlx].
      destruct (bad_chunk s (update_settings s) tc p c off fin lx (st_raw _ _ HS) Hb Hlx) as (p' & E & K).
      - intros [t HC]. apply HN. split; eauto.
      - exists p'. split; [exact E|]. exists toks. split; [exact HT|]. rewrite K. now apply st_rows. }
    destruct (loop_forward (process_chunk s (update_settings s) tc) (s_max_bytes s) (s_max_lines s) src Inv Fin Bad is_bytes good_chunk ValueError
                VP good_chunk_dec good_chunk_nil CG CB (opens_tell src Hsrc) evs HB rb rn 0%Z 0%Z proc_init [] R1 R2) as (p & acts & en & E & K).
    { exists []. split; [apply tokens_nil|exact st_init]. }
    exists p, (AOpen :: acts), en. split.
    - rewrite run_read. unfold read. destruct Hsrc as [->| ->]; rewrite E; reflexivity.
    - pose proof (reached_stops _ _ _ _ (concat (provided evs)) R1 R2) as RS. set (fb := first_bytes _ _) in *.
      assert (NT : forall cs toks, nonempty cs = nonempty fb -> Tokens cs toks -> Tokens fb toks).
      { intros cs toks EN HT. apply tokens_nonempty. rewrite <- EN. now apply tokens_nonempty in HT. }
      inversion K as [cs G1 G2 (toks & G3 & G3') G4|cs c rest G1 G2 G3 (toks & G4 & G4')|cs G1 G0 G2 G3 (toks & G4 & G4')|cs G1 G0 G2 G3 (toks & G4 & G4')]; subst en; cbn [app] in *.
      + eapply Res_all; [eapply NT; [exact G2|exact G3]|exact G3'|now rewrite <- RS].
      + eapply (Res_bad _ _ _ _ _ _ (nonempty cs)); [exact G3|exact G2|apply tokens_nonempty in G4; exact G4|exact G4'].
      + eapply Res_interrupt; [exact G1|now rewrite <- RS|eapply NT; [exact G3|exact G4]|now apply st_rows].
      + eapply Res_failure; [exact G1|now rewrite <- RS|eapply NT; [exact G3|exact G4]|now apply st_rows].
  Qed.
End Run.

Definition text_run_result s tc src (H : opens src) (B : binary_mode s = false) evs d :=
  run_result s tc src H (TState s) (text_rows_so_far s) (text_rows s) (tstate_init s)
    (fun p ts K => proj1 K) (fun p ts K => proj2 (proj2 (proj2 (proj2 K))))
    (fun p ts raw off fin lx toks K1 K2 K3 K4 => text_chunk s (update_settings s) tc p ts raw off fin lx toks (env_of s) B K1 K2 K3 K4) evs d.

Lemma binary_run_result s tc c src : opens src -> binary_mode s = true -> columns s tc = Z.of_nat c -> (0 < c)%nat -> forall evs d,
    Forall is_bytes (provided evs) -> Limited (s_max_bytes s) (s_max_lines s) (concat (provided evs)) d ->
    exists p acts en, byteio_run s tc src evs = (p, acts, en) /\
      Result (fun t => binary_rows_so_far s c (byte_cells s t)) (fun t => binary_rows s c (byte_cells s t)) evs (first_bytes (length d) (provided evs)) (Stops (s_max_bytes s) (s_max_lines s) (concat (provided evs))) p en.
Proof.
  intros H B HC Hc. apply (run_result s tc src H (fun p t => BState s c p (byte_cells s t))).
  - now apply bstate_init.
  - intros p ts K. apply K.
  - intros p ts K. apply K.
  - intros p ts raw off fin lx toks K1 K2 K3 K4.
    destruct (binary_chunk s (update_settings s) tc c p (byte_cells s ts) raw off fin lx toks (env_of s) B HC Hc K1 K2 K3 K4) as (p' & E & K).
    exists p'. split; [exact E|]. unfold byte_cells in *. rewrite flat_map_app. exact K.
Qed.
