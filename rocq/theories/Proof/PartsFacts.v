(** Lemmas for C114: parts of the input are shown independently of each other *)
From Coq Require Import List Arith NArith ZArith Bool Lia.
From Verif.Model Require Import Base Ansi Settings Segment Template Parser Console Formatter Reader Runner Options.
From Verif.Spec Require Import Numbers Terminal Utf8 Lexical SgrParams Display Output Input Parts.
From Verif.Proof Require Import LexFacts BaseFacts RunMain RunClaims BinFormat BinClaims ShowClaims LookClaims MoreClaims ExampleFacts RunExtra UnderlineFacts TextFormat.
Import ListNotations.
Local Open Scope N_scope.

(** * A line feed ends a piece *)
Lemma prefix_before (x y r v : list N) : ~ In 10 x -> x ++ y = (r ++ [10]) ++ v -> exists y', r ++ [10] = x ++ y'.
Proof.
  revert r. induction x as [|b x IH]; intros r H E; [exists (r ++ [10]); reflexivity|].
  destruct r as [|b' r]; cbn in E; injection E as -> E.
  - exfalso. apply H. now left.
  - destruct (IH r) as [y' Y]; [intros K; apply H; now right|exact E|]. exists y'. cbn. now rewrite Y.
Qed.
Lemma not_in_rng lo hi l : 10 < lo -> Forall (rng lo hi) l -> ~ In 10 l.
Proof. intros H F I. rewrite Forall_forall in F. specialize (F 10 I). unfold rng in F. lia. Qed.
Lemma starts_app P (r : list N) v : starts P ((r ++ [10]) ++ v) -> starts P (r ++ [10]).
Proof. intros (b & t & E & H). destruct r as [|b' r]; cbn in E; injection E as -> _; eexists; eexists; (split; [reflexivity|exact H]). Qed.
Lemma token_before k w r v : Token k w (r ++ [10]) -> Token k w ((r ++ [10]) ++ v).
Proof.
  intros T. inversion T; subst; try (now constructor).
  - constructor; auto.
    + intros K. match goal with H : ~ starts high _ |- _ => apply H end. now apply starts_app in K.
    + intros cp x S C E. rewrite app_assoc, app_assoc in E. symmetry in E. rewrite <- (app_assoc w r) in E.
      assert (E' : utf8_encode cp ++ x = ((w ++ r) ++ [10]) ++ v) by (rewrite E; now rewrite <- !app_assoc).
      apply prefix_before in E' as (y & Y).
      * match goal with H : forall cp r, _ -> _ -> _ <> _ |- _ => apply (H cp y S C) end. rewrite <- Y. now rewrite app_assoc.
      * intros I. pose proof (utf8_high cp S C) as F. rewrite Forall_forall in F. specialize (F 10 I). unfold high, rng in F. lia.
  - constructor; auto. intros Hc p i f x (P & I & F) E. assert (E' : (p ++ i ++ [f]) ++ x = (r ++ [10]) ++ v) by (rewrite E, <- !app_assoc; reflexivity).
    apply prefix_before in E' as (y & Y).
    + match goal with H : c = 91 -> _ |- _ => apply (H Hc p i f y) end; [exact (conj P (conj I F))|]. rewrite Y, <- !app_assoc. reflexivity.
    + rewrite !in_app_iff. intros [K|[K|[K|[]]]]; [exact (not_in_rng 48 63 p eq_refl P K)|exact (not_in_rng 32 47 i eq_refl I K)|]. unfold rng in F. lia.
  - constructor; auto.
    + intros K. match goal with H : ~ starts _ _ |- _ => apply H end. now apply starts_app in K.
    + intros i f x (NE & I & F) E. assert (E' : (i ++ [f]) ++ x = (r ++ [10]) ++ v) by (rewrite E, <- !app_assoc; reflexivity).
      apply prefix_before in E' as (y & Y).
      * match goal with H : forall i f r, nf_tail i f -> _ |- _ => apply (H i f y) end; [exact (conj NE (conj I F))|]. rewrite Y, <- !app_assoc. reflexivity.
      * rewrite !in_app_iff. intros [K|[K|[]]]; [exact (not_in_rng 32 47 i eq_refl I K)|]. unfold rng in F. lia.
  - constructor; auto. intros K. match goal with H : ~ starts _ _ |- _ => apply H end. now apply starts_app in K.
Qed.
Lemma token_last k w rest : Token k w rest -> ends_line w -> k = K_newline /\ w = [10].
Proof.
  assert (L : forall (x l : list N) b, l ++ [b] = x ++ [10] -> b = 10) by (intros x l b H; now apply app_inj_tail in H).
  assert (LF : forall P (w : list N), Forall P w -> ends_line w -> P 10) by (intros P w0 F [x ->]; apply Forall_app in F as [_ F]; now inversion F).
  intros T E. inversion T; subst; auto; exfalso.
  - match goal with H : scalar cp |- _ => pose proof (LF _ _ (utf8_high cp H ltac:(assumption)) E) as K end. unfold high, rng in K. lia.
  - match goal with H : Forall high w |- _ => pose proof (LF _ _ H E) as K end. unfold high, rng in K. lia.
  - match goal with H : csi_tail _ _ _ |- _ => destruct H as (_ & _ & F) end. destruct E as [x E].
    assert (f = 10) by (apply (L x (27 :: 91 :: p ++ i)); rewrite <- E; cbn; now rewrite app_assoc). unfold rng in F. lia.
  - match goal with H : nf_tail _ _ |- _ => destruct H as (_ & _ & F) end. destruct E as [x E]. assert (f = 10) by (apply (L x (27 :: i)); exact E). unfold rng in F. lia.
  - destruct E as [x E]. assert (c = 10) by (apply (L x [27]); exact E). unfold rng in *. lia.
  - destruct E as [x E]. assert (c = 10) by (apply (L x [27]); exact E). unfold rng in *. lia.
  - destruct E as [x E]. assert (c = 10) by (apply (L x [27]); exact E). unfold rng in *. lia.
  - destruct E as [x E]. assert (27 = 10) by (apply (L x []); exact E). discriminate.
  - match goal with H : Forall (run_member ?k) w |- _ => pose proof (LF _ _ H E) as K; destruct k; cbn in K; unfold rng in K; lia end.
Qed.
Lemma lexes_join a ta v tv : Lexes a ta -> ends_line a -> Lexes v tv -> Lexes (a ++ v) (ta ++ tv).
Proof.
  intros L E Lv. revert E. induction L as [|k w rest ts T L IH]; intros E; [exact Lv|].
  rewrite <- app_assoc. cbn [app].
  destruct (rest) as [|b rest'] eqn:R.
  - rewrite app_nil_r in E. destruct (token_last k w _ T E) as [-> ->].
    assert (ts = []) as -> by (inversion L as [|? w' ? ? T' ? X]; [reflexivity|]; apply app_eq_nil in X as [-> _]; exfalso; inversion T'; subst; try discriminate; try congruence;
       match goal with H : utf8_encode ?c = [] |- _ => destruct (LexClaims.enc_cons c) as (? & ? & K & _); auto; rewrite K in H; discriminate end).
    constructor; [constructor|exact Lv].
  - rewrite <- R in *. assert (E' : ends_line rest).
    { destruct E as [x E]. destruct (exists_last (l := rest)) as (r' & l & K); [rewrite R; discriminate|]. rewrite K in E. rewrite app_assoc in E. apply app_inj_tail in E as [_ ->]. exists r'. exact K. }
    constructor; [|now apply IH]. destruct E' as [r' ->]. now apply token_before.
Qed.

(** * Pieces of joined inputs *)
Lemma tokens_split c1 c2 toks : Tokens (c1 ++ c2) toks -> exists t1 t2, Tokens c1 t1 /\ Tokens c2 t2 /\ toks = t1 ++ t2.
Proof.
  revert toks. induction c1 as [|c c1 IH]; intros toks H; [exists [], toks; repeat split; auto; apply tokens_nil|].
  cbn [app] in H. apply tokens_cons_inv in H as (lx & t1 & t2 & L & C & T & ->). destruct (IH t2 T) as (u1 & u2 & U1 & U2 & ->).
  exists (t1 ++ u1), u2. split; [|split; [exact U2|now rewrite app_assoc]]. apply (tokens_app [c] t1 c1 u1); [now apply (tokens_one c lx)|exact U1].
Qed.
Lemma tokens_joined a b c ta tb : Joined a b c -> Tokens a ta -> Tokens b tb -> Tokens c (ta ++ tb).
Proof.
  intros J. destruct J as [a b|cs u v ds E]; intros A B; [now apply tokens_app|].
  apply tokens_split in A as (t1 & t2 & A1 & A2 & ->). apply tokens_cons_inv in A2 as (lu & tu & t0 & Lu & Cu & A3 & ->).
  apply tokens_cons_inv in B as (lv & tv & t3 & Lv & Cv & B & ->).
  assert (t0 = []) as -> by (destruct A3 as (tss & X & Y); inversion X; subst; cbn in Y; now inversion Y).
  rewrite app_nil_r, <- app_assoc. apply tokens_app; [exact A1|]. rewrite app_assoc.
  apply (tokens_app [u ++ v] (tu ++ tv) ds t3); [|exact B]. apply (tokens_one (u ++ v) (lu ++ lv)); [now apply lexes_join|]. now apply Forall2_app.
Qed.
Lemma joined_concat a b c : Joined a b c -> concat c = concat a ++ concat b.
Proof. intros J. destruct J; [apply concat_app|]. rewrite !concat_app. cbn. rewrite app_nil_r, <- !app_assoc. reflexivity. Qed.

Lemma numbered_cells s ls : forall n, numbered s n ls = with_numbers s n (map (line_cells s) ls).
Proof. induction ls as [|l ls IH]; intros n; [reflexivity|]. cbn. now rewrite IH. Qed.
Lemma token_lines_after a t b : is_line_break t = true -> token_lines ((a ++ [t]) ++ b) = token_lines (a ++ [t]) ++ token_lines b.
Proof.
  intros H. induction a as [|x a IH]; cbn [app token_lines]; [now rewrite H|]. destruct (is_line_break x); [now rewrite IH|].
  rewrite IH. destruct (token_lines (a ++ [t])) as [|l ls] eqn:E; [|reflexivity]. destruct a as [|y a]; cbn in E; [rewrite H in E; discriminate|].
  destruct (is_line_break y); [discriminate|]. destruct (token_lines (a ++ [t])); discriminate.
Qed.
Lemma last_break chunks toks : Tokens chunks toks -> ends_line (concat chunks) -> exists a t, toks = a ++ [t] /\ is_line_break t = true.
Proof.
  intros T E.
  assert (P : Forall (fun t => exists rest, Token (tok_kind t) (tok_bytes t) rest) toks) by exact (tokens_pieces chunks toks T).
  assert (B : concat chunks = flat_map tok_bytes toks).
  { destruct T as (tss & L & C). assert (A : flat_map snd (concat tss) = concat chunks).
    { clear -L. induction L as [|c ts cs tss' H _ IH]; [reflexivity|]. simpl. rewrite flat_map_app, IH. f_equal.
      clear -H. induction H as [|k w rest ts T _ IH]; [reflexivity|]. simpl. now rewrite IH. }
    rewrite <- A. clear -C. induction C as [|t x ts xs [-> _] _ IH]; [reflexivity|]. simpl. now rewrite IH. }
  rewrite B in E. clear B T. destruct toks as [|t0 toks0] using rev_ind; [destruct E as [x E]; destruct x; discriminate|]. clear IHtoks0.
  exists toks0, t0. split; [reflexivity|]. apply Forall_app in P as [_ P]. inversion P as [|? ? [rest K] _]; subst.
  rewrite flat_map_app in E. cbn in E. rewrite app_nil_r in E. destruct E as [x E].
  assert (NE : tok_bytes t0 <> []) by (apply piece_nonempty; now exists rest).
  assert (E' : ends_line (tok_bytes t0)).
  { destruct (exists_last NE) as (l & w0 & W). rewrite W in E. rewrite app_assoc in E. apply app_inj_tail in E as [_ ->]. now exists l. }
  unfold is_line_break. now destruct (token_last _ _ _ K E') as [-> _].
Qed.

(** * Runs *)
Lemma text_parts s tc src1 evs1 a ta src2 evs2 b tb src evs c :
  binary_mode s = false -> Joined a b c -> ends_line (concat a) ->
  opens src1 -> Processed s evs1 a -> Finishes s evs1 -> Tokens a ta ->
  opens src2 -> Processed s evs2 b -> Finishes s evs2 -> Tokens b tb ->
  opens src -> Processed s evs c -> Finishes s evs ->
  exists p1 x1 p2 x2 p x la lb,
    byteio_run s tc src1 evs1 = (p1, x1, REnd) /\ displays (pr_out p1) (with_numbers s 1 la) /\
    byteio_run s tc src2 evs2 = (p2, x2, REnd) /\ displays (pr_out p2) (with_numbers s 1 lb) /\
    byteio_run s tc src evs = (p, x, REnd) /\ displays (pr_out p) (with_numbers s 1 (la ++ lb)).
Proof.
  intros M J E O1 P1 F1 T1 O2 P2 F2 T2 O P F. pose proof (tokens_joined a b c ta tb J T1 T2) as T.
  destruct (text_eof s tc src1 evs1 a ta O1 M P1 F1 T1) as (p1 & x1 & R1 & D1).
  destruct (text_eof s tc src2 evs2 b tb O2 M P2 F2 T2) as (p2 & x2 & R2 & D2).
  destruct (text_eof s tc src evs c (ta ++ tb) O M P F T) as (p & x & R & D).
  exists p1, x1, p2, x2, p, x, (map (line_cells s) (token_lines ta)), (map (line_cells s) (token_lines tb)).
  unfold text_rows in *. rewrite numbered_cells in D1, D2, D. repeat split; try assumption; try apply D1; try apply D2.
  all: destruct (last_break a ta T1 E) as (t1 & t & -> & B); rewrite (token_lines_after t1 t tb B), map_app in D; apply D.
Qed.

Lemma binary_parts s tc n src1 evs1 a ta src2 evs2 b tb src evs c k :
  binary_ok s tc n -> Joined a b c -> length (concat a) = (k * n)%nat ->
  opens src1 -> Processed s evs1 a -> Finishes s evs1 -> Tokens a ta ->
  opens src2 -> Processed s evs2 b -> Finishes s evs2 -> Tokens b tb ->
  opens src -> Processed s evs c -> Finishes s evs ->
  exists p1 x1 p2 x2 p x ra rb,
    byteio_run s tc src1 evs1 = (p1, x1, REnd) /\ displays (pr_out p1) (with_offsets_from s n ra) /\
    byteio_run s tc src2 evs2 = (p2, x2, REnd) /\ displays (pr_out p2) (with_offsets_from s n rb) /\
    byteio_run s tc src evs = (p, x, REnd) /\ displays (pr_out p) (with_offsets_from s n (ra ++ rb)).
Proof.
  intros M J E O1 P1 F1 T1 O2 P2 F2 T2 O P F. pose proof (tokens_joined a b c ta tb J T1 T2) as T.
  destruct (bin_eof s tc n src1 evs1 a ta O1 M P1 F1 T1) as (p1 & x1 & R1 & D1).
  destruct (bin_eof s tc n src2 evs2 b tb O2 M P2 F2 T2) as (p2 & x2 & R2 & D2).
  destruct (bin_eof s tc n src evs c (ta ++ tb) O M P F T) as (p & x & R & D).
  destruct M as (_ & _ & N0).
  assert (W : forall t, binary_rows s n (byte_cells s t) = with_offsets_from s n (groups n (byte_cells s t))).
  { intros t. unfold with_offsets_from, binary_rows. now rewrite groups_concat. }
  rewrite W in D1, D2, D. exists p1, x1, p2, x2, p, x, (groups n (byte_cells s ta)), (groups n (byte_cells s tb)).
  repeat split; try assumption; try apply D1; try apply D2.
  all: unfold byte_cells in D at 1; rewrite flat_map_app in D; fold (byte_cells s ta) in D; fold (byte_cells s tb) in D;
    rewrite (groups_app n (byte_cells s ta) (byte_cells s tb) k N0) in D by (now rewrite (BinClaims.byte_cells_length s a ta T1)); apply D.
Qed.

(** * One line among others *)
Lemma no_newline_lines x tx toks : ~ In 10 x -> Lexes (x ++ [10]) tx -> Forall2 Coded tx toks -> token_lines toks = [toks].
Proof.
  intros NI L C.
  assert (K : exists a t, tx = a ++ [t] /\ Forall (fun p => fst p <> K_newline) a /\ fst t = K_newline).
  { remember (x ++ [10]) as y eqn:E. revert x NI E. clear C. induction L as [|k w rest ts T L IH]; intros x NI E; [destruct x; discriminate|].
    destruct rest as [|b rest'] eqn:R.
    - rewrite app_nil_r in E. destruct (token_last k w _ T (ex_intro _ x E)) as [-> ->].
      assert (ts = []) as -> by (inversion L as [|? w' ? ? T' ? X]; [reflexivity|]; apply app_eq_nil in X as [-> _]; exfalso; inversion T'; subst; try discriminate; try congruence;
       match goal with H : utf8_encode ?c = [] |- _ => destruct (LexClaims.enc_cons c) as (? & ? & K & _); auto; rewrite K in H; discriminate end).
      exists [], (K_newline, [10]). repeat split; auto.
    - rewrite <- R in *. destruct (exists_last (l := rest)) as (r' & l & K); [rewrite R; discriminate|]. rewrite K in E. rewrite app_assoc in E.
      apply app_inj_tail in E as [E ->].
      destruct (IH r') as (a & t & -> & F & Kt); [intros I; apply NI; rewrite <- E; apply in_or_app; now right|exact K|].
      exists ((k, w) :: a), t. repeat split; auto. constructor; [|exact F]. cbn. intros ->. inversion T; subst. apply NI. now left. }
  destruct K as (a & t & -> & F & Kt). apply Forall2_app_inv_l in C as (ca & ct & Ca & Ct & ->). inversion Ct as [|? z ? ? [Z _] Q]; subst. inversion Q; subst.
  clear Ct Q L NI. induction Ca as [|p q a ca [-> _] _ IH]; cbn [app token_lines].
  - unfold is_line_break, tok_kind. rewrite Kt. reflexivity.
  - inversion F as [|? ? Fp Fa]; subst. rewrite (IH Fa). unfold is_line_break, tok_kind. destruct (fst (fst q)); congruence || reflexivity.
Qed.
Lemma one_chunk c toks : Tokens [c] toks <-> exists lx, Lexes c lx /\ Forall2 Coded lx toks.
Proof.
  split.
  - intros H. apply tokens_cons_inv in H as (lx & t1 & t2 & L & C & T & ->). assert (t2 = []) as -> by (destruct T as (tss & X & Y); inversion X; subst; cbn in Y; now inversion Y).
    rewrite app_nil_r. eauto.
  - intros (lx & L & C). now apply (tokens_one c lx).
Qed.
Lemma line_pieces a x b toks : is_bytes (a ++ x ++ 10 :: b) -> a = [] \/ ends_line a -> ~ In 10 x -> Tokens [a ++ x ++ 10 :: b] toks ->
  exists la lx lb, Tokens [a] la /\ Tokens [b] lb /\ token_lines toks = token_lines la ++ [lx] ++ token_lines lb.
Proof.
  intros HB HA NI HT. assert (E : a ++ x ++ 10 :: b = a ++ (x ++ [10]) ++ b) by (now rewrite <- !app_assoc). rewrite E in *. clear E.
  apply Forall_app in HB as [B1 B2]. apply Forall_app in B2 as [B2 B3].
  destruct (lexes_total a B1) as [ta La]. destruct (lexes_total _ B2) as [tx Lx]. destruct (lexes_total b B3) as [tb Lb].
  pose proof (lexes_join _ _ _ _ Lx (ex_intro _ x eq_refl) Lb) as L1.
  assert (L : Lexes (a ++ (x ++ [10]) ++ b) (ta ++ tx ++ tb)).
  { destruct HA as [-> | HA]; [|now apply lexes_join]. assert (ta = []) as -> by (apply (lexes_det []); [constructor|exact La|constructor]). exact L1. }
  apply one_chunk in HT as (lx & L' & C). rewrite (lexes_det _ _ _ (proj2 (Forall_app _ _ _) (conj B1 (proj2 (Forall_app _ _ _) (conj B2 B3)))) L' L) in C.
  apply Forall2_app_inv_l in C as (ca & c2 & Ca & C2 & ->). apply Forall2_app_inv_l in C2 as (cx & cb & Cx & Cb & ->).
  exists ca, cx, cb. split; [apply one_chunk; eauto|]. split; [apply one_chunk; eauto|].
  assert (Tx : Tokens [x ++ [10]] cx) by (apply one_chunk; eauto). assert (Ta : Tokens [a] ca) by (apply one_chunk; eauto).
  assert (S2 : token_lines (cx ++ cb) = [cx] ++ token_lines cb).
  { destruct (last_break _ _ Tx) as (u & t & -> & B); [exists x; cbn; now rewrite app_nil_r|]. rewrite (token_lines_after _ _ _ B). now rewrite (no_newline_lines x tx _ NI Lx Cx). }
  destruct HA as [-> | HA].
  - assert (ta = []) as -> by (apply (lexes_det []); [constructor|exact La|constructor]). inversion Ca; subst. exact S2.
  - destruct (last_break _ _ Ta) as (u & t & -> & B); [cbn; now rewrite app_nil_r|]. now rewrite (token_lines_after _ _ _ B), S2.
Qed.
Lemma one_line s tc src evs src' evs' a x y b toks toks' :
  binary_mode s = false -> a = [] \/ ends_line a -> ~ In 10 x -> ~ In 10 y ->
  opens src -> Processed s evs [a ++ x ++ 10 :: b] -> Finishes s evs -> Tokens [a ++ x ++ 10 :: b] toks ->
  opens src' -> Processed s evs' [a ++ y ++ 10 :: b] -> Finishes s evs' -> Tokens [a ++ y ++ 10 :: b] toks' ->
  exists p acts p' acts' la lx ly lb,
    byteio_run s tc src evs = (p, acts, REnd) /\ displays (pr_out p) (with_numbers s 1 (la ++ lx :: lb)) /\
    byteio_run s tc src' evs' = (p', acts', REnd) /\ displays (pr_out p') (with_numbers s 1 (la ++ ly :: lb)).
Proof.
  intros M HA X Y O P F T O' P' F' T'.
  pose proof (processed_bytes _ _ _ P) as B. pose proof (processed_bytes _ _ _ P') as B'. inversion B as [|? ? B1 _]; subst. inversion B' as [|? ? B1' _]; subst.
  destruct (line_pieces a x b toks B1 HA X T) as (ta & tx & tb & Ta & Tb & E). destruct (line_pieces a y b toks' B1' HA Y T') as (ta' & ty & tb' & Ta' & Tb' & E').
  assert (Ba : Forall is_bytes [a]) by (constructor; [apply Forall_app in B1; apply B1|constructor]).
  assert (Bb : Forall is_bytes [b]) by (constructor; [apply Forall_app in B1 as [_ B1]; apply Forall_app in B1 as [_ B1]; now inversion B1|constructor]).
  rewrite (tokens_det [a] ta' ta Ba Ta' Ta) in E'. rewrite (tokens_det [b] tb' tb Bb Tb' Tb) in E'.
  destruct (text_eof s tc src evs _ _ O M P F T) as (p & acts & R & D). destruct (text_eof s tc src' evs' _ _ O' M P' F' T') as (p' & acts' & R' & D').
  unfold text_rows in D, D'. rewrite numbered_cells in D, D'. rewrite E in D. rewrite E' in D'. rewrite map_app in D, D'. cbn [map app] in D, D'.
  exists p, acts, p', acts', (map (line_cells s) (token_lines ta)), (line_cells s tx), (line_cells s ty), (map (line_cells s) (token_lines tb)). auto.
Qed.
