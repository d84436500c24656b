(** C06: which fragmentations of the input do not matter *)
From Coq Require Import List Arith NArith ZArith Bool Lia.
From Verif.Model Require Import Base Ansi Regex Settings Segment Template Parser Console Formatter Reader Runner.
From Verif.Spec Require Import Numbers Terminal Utf8 Lexical SgrParams Display Output Input Dump Fragments.
From Verif.Proof Require Import BaseFacts RegexFacts LexFacts TokFacts PaintFacts DisplayFacts TextFormat RunFacts ReaderFacts RunMain LexClaims RunClaims BinClaims TextClaims.
Import ListNotations.
Local Open Scope N_scope.

Lemma starts_cut P a b : ~ starts P (a ++ b) -> ~ starts P a.
Proof. intros H (x & t & -> & Hx). apply H. exists x, (t ++ b). auto. Qed.

(** cutting off what follows does not change a piece *)
Lemma token_cut k w rest x : Token k w (rest ++ x) -> Token k w rest.
Proof.
  intros T. remember (rest ++ x) as rx eqn:E. destruct T as [cp r Hs Hc|w r Hw Hf Hr Hu|p i f r Hc|i f r Hn|c r Hc|c r Hc Hn|c r Hc|r Hr Hn|r|k w r Hw Hm Hr]; subst r; try (constructor; auto; fail).
  - constructor; auto; [eapply starts_cut; exact Hr|]. intros cp r Hs Hc E. apply (Hu cp (r ++ x) Hs Hc). rewrite app_assoc, E. now rewrite <- app_assoc.
  - constructor; auto. intros Ec p i f r Ht E. apply (Hn Ec p i f (r ++ x) Ht). rewrite E, <- !app_assoc. reflexivity.
  - constructor; [eapply starts_cut; exact Hr|]. intros i f r Ht E. apply (Hn i f (r ++ x) Ht). rewrite E, <- app_assoc. reflexivity.
  - constructor; auto. eapply starts_cut; exact Hr.
Qed.

Lemma lexes_app_inv s a b : Lexes s (a ++ b) -> exists s2, s = concat (map snd a) ++ s2 /\ Lexes (concat (map snd a)) a /\ Lexes s2 b.
Proof.
  revert s. induction a as [|[k w] a IH]; intros s H; [exists s; repeat split; [constructor|exact H]|].
  cbn [app] in H. inversion H as [|k' w' rest ts T L]; subst. apply IH in L as (s2 & -> & L1 & L2).
  exists s2. cbn [map concat snd]. rewrite <- app_assoc. repeat split; auto. constructor; [|exact L1]. eapply token_cut. exact T.
Qed.

Lemma run_split r w1 w2 rest : w1 <> [] -> w2 <> [] -> Token (K_run r) (w1 ++ w2) rest -> Token (K_run r) w1 [] /\ Token (K_run r) w2 rest.
Proof.
  intros H1 H2 T. inversion T as [| | | | | | | | |k w r' Hw Hm Hr]; subst. apply Forall_app in Hm as [M1 M2]. split; constructor; auto.
  intros (? & ? & ? & _). discriminate.
Qed.

Lemma lexes_snoc s a r w1 w2 b : w1 <> [] -> w2 <> [] -> Lexes s (a ++ (K_run r, w1 ++ w2) :: b) ->
  exists s2, s = (concat (map snd a) ++ w1) ++ s2 /\ Lexes (concat (map snd a) ++ w1) (a ++ [(K_run r, w1)]) /\ Lexes s2 ((K_run r, w2) :: b).
Proof.
  intros H1 H2. revert s. induction a as [|[k w] a IH]; intros s H; cbn [app] in H; inversion H as [|k' w' rest ts T L]; subst.
  - destruct (run_split r w1 w2 rest H1 H2 T) as [T1 T2]. exists (w2 ++ rest). cbn [map concat app]. rewrite <- app_assoc. split; [reflexivity|]. split.
    + rewrite <- (app_nil_r w1) at 1. constructor; [exact T1|constructor].
    + now constructor.
  - apply IH in L as (s2 & -> & L1 & L2). exists s2. cbn [map concat snd app]. rewrite <- !app_assoc. repeat split; auto.
    constructor; [|exact L1]. eapply token_cut. exact T.
Qed.

(** ** pieces up to splitting of runs *)
Inductive Finer : list token -> list token -> Prop :=
| Finer_nil : Finer [] []
| Finer_same t l l' : Finer l l' -> Finer (t :: l) (t :: l')
| Finer_split r w1 w2 c l l' : w1 <> [] -> w2 <> [] -> Finer ((K_run r, w2, c) :: l) l' -> Finer ((K_run r, w1 ++ w2, c) :: l) ((K_run r, w1, c) :: l').

Lemma Finer_app a b b' : Finer b b' -> Finer (a ++ b) (a ++ b').
Proof. intros H. induction a as [|t a IH]; [exact H|]. now constructor. Qed.

Lemma tokens_cons c cs lx t1 t2 : Lexes c lx -> Forall2 Coded lx t1 -> Tokens cs t2 -> Tokens (c :: cs) (t1 ++ t2).
Proof. intros H1 H2 H3. apply (tokens_app [c] t1 cs t2); [now apply (tokens_one c lx)|exact H3]. Qed.

Lemma cuts_tokens ts cs : Cuts ts cs -> forall s toks, Lexes s ts -> Forall2 Coded ts toks ->
  s = concat cs /\ exists toks', Tokens cs toks' /\ Finer toks toks'.
Proof.
  induction 1 as [|a b cs HC IH|a r w1 w2 b cs H1 H2 HC IH]; intros s toks HL HK.
  - inversion HL; subst. inversion HK; subst. split; [reflexivity|]. exists []. split; [apply tokens_nil|constructor].
  - apply lexes_app_inv in HL as (s2 & -> & L1 & L2). apply Forall2_app_inv_l in HK as (ta & tb & Ka & Kb & ->).
    destruct (IH s2 tb L2 Kb) as (-> & tb' & T & F). split; [reflexivity|]. exists (ta ++ tb'). split; [eapply tokens_cons; eassumption|now apply Finer_app].
  - apply lexes_snoc in HL as (s2 & -> & L1 & L2); auto. apply Forall2_app_inv_l in HK as (ta & tb & Ka & Kb & ->).
    inversion Kb as [|x [[k w] c] l tb2 [E1 E2] Kb']; subst. cbn in E1. injection E1 as <- <-.
    destruct (IH s2 ((K_run r, w2, c) :: tb2) L2) as (-> & tb' & T & F); [constructor; [split; [reflexivity|exact E2]|exact Kb']|].
    split; [reflexivity|]. exists ((ta ++ [(K_run r, w1, c)]) ++ tb'). split.
    + eapply tokens_cons; [exact L1| |exact T]. apply Forall2_app; [exact Ka|]. constructor; [split; [reflexivity|exact E2]|constructor].
    + rewrite <- app_assoc. apply Finer_app. cbn [app]. now constructor.
Qed.

(** ** they look the same *)
Lemma bin_split s r w1 w2 c : binary_cells s (K_run r) (w1 ++ w2) c = binary_cells s (K_run r) w1 c ++ binary_cells s (K_run r) w2 c.
Proof. unfold binary_cells. cbn [is_escape_seq]. destruct (s_ignore s _); [apply map_app|]. destruct r; apply map_app. Qed.
Lemma finer_bytes s l l' : Finer l l' -> byte_cells s l = byte_cells s l'.
Proof.
  induction 1 as [|t l l' H IH|r w1 w2 c l l' H1 H2 H IH]; [reflexivity| |]; unfold byte_cells in *; cbn [flat_map] in *.
  - now rewrite IH.
  - rewrite <- IH. cbn [tok_kind tok_bytes tok_codes fst snd]. rewrite bin_split. now rewrite <- app_assoc.
Qed.

Lemma last_app {A} (a b : list A) d : b <> [] -> last (a ++ b) d = last b d.
Proof. intros H. induction a as [|x a IH]; [reflexivity|]. cbn [app last]. destruct (a ++ b) eqn:E; [apply app_eq_nil in E as [_ E]; contradiction|]. rewrite <- E in *. now destruct (a ++ b). Qed.

Lemma text_split s r w1 w2 c : w1 <> [] -> w2 <> [] ->
  fst (text_cells s (K_run r) (w1 ++ w2) c) = fst (text_cells s (K_run r) w1 c) ++ snd (text_cells s (K_run r) w1 c) ++ fst (text_cells s (K_run r) w2 c) /\
  snd (text_cells s (K_run r) (w1 ++ w2) c) = snd (text_cells s (K_run r) w2 c).
Proof.
  intros H1 H2. unfold text_cells. cbn [is_escape_seq]. destruct (s_ignore s _); [cbn [fst snd app]; split; [apply flat_map_app|reflexivity]|].
  destruct r; cbn [fst snd app]; try (split; [unfold styled; rewrite !map_app; reflexivity|reflexivity]); try (split; [apply flat_map_app|reflexivity]).
  rewrite removelast_app by exact H2. rewrite last_app by exact H2. split; [|reflexivity].
  rewrite (app_removelast_last 0 H1) at 1. rewrite !flat_map_app. cbn [flat_map]. rewrite app_nil_r, <- !app_assoc. reflexivity.
Qed.

(** lines: same pieces up to splitting *)
Inductive FLine : list token -> list token -> Prop :=
| FL_one t : FLine [t] [t]
| FL_same t l l' : FLine l l' -> FLine (t :: l) (t :: l')
| FL_split r w1 w2 c l l' : w1 <> [] -> w2 <> [] -> FLine ((K_run r, w2, c) :: l) l' -> FLine ((K_run r, w1 ++ w2, c) :: l) ((K_run r, w1, c) :: l').

Lemma FLine_cons l l' : FLine l l' -> exists t r t' r', l = t :: r /\ l' = t' :: r'.
Proof. destruct 1; eauto 8. Qed.
Lemma finer_lines l l' : Finer l l' -> Forall2 FLine (token_lines l) (token_lines l').
Proof.
  induction 1 as [|t l l' H IH|r w1 w2 c l l' H1 H2 H IH]; [constructor| |].
  - cbn [token_lines]. destruct (is_line_break t); [constructor; [constructor|exact IH]|].
    inversion IH as [|a a' b b' Ha Hb Ea Eb]; [repeat constructor|]. constructor; [|exact Hb]. now constructor.
  - cbn [token_lines is_line_break tok_kind fst] in *.
    set (L := match token_lines l with [] => [[(K_run r, w2, c)]] | x :: ls => ((K_run r, w2, c) :: x) :: ls end) in *.
    inversion IH as [Ea Eb|a a' b b' Ha Hb Ea Eb]; [unfold L in *; destruct (token_lines l); discriminate|].
    rewrite <- Eb in *. clear Eb. unfold L in *. clear L.
    destruct (token_lines l) as [|x ls]; injection Ea as Ea Ea'; subst a b; (constructor; [|exact Hb]); now apply FL_split.
Qed.

Lemma FLine_terminated l l' : FLine l l' -> terminated l = terminated l'.
Proof. induction 1 as [t|t l l' H IH|r w1 w2 c l l' H1 H2 H IH]; [reflexivity| |]; unfold terminated in *; cbn [existsb] in *; [now rewrite IH|]. cbn [is_line_break tok_kind fst orb] in *. exact IH. Qed.
Lemma pieces_cons s t r : r <> [] -> pieces_cells s (t :: r) = fst (tok_cells s t) ++ snd (tok_cells s t) ++ pieces_cells s r.
Proof. destruct r; [easy|reflexivity]. Qed.
Lemma FLine_pieces s l l' : FLine l l' -> pieces_cells s l = pieces_cells s l'.
Proof.
  induction 1 as [t|t l l' H IH|r w1 w2 c l l' H1 H2 H IH]; [reflexivity| |].
  - destruct (FLine_cons l l' H) as (a & b & a' & b' & -> & ->). rewrite (pieces_cons s t), (pieces_cons s t) by easy. now rewrite IH.
  - destruct (FLine_cons _ _ H) as (a & b & a' & b' & _ & ->). rewrite (pieces_cons s _ (a' :: b')) by easy. rewrite <- IH. clear IH H.
    unfold tok_cells. destruct (text_split s r w1 w2 c H1 H2) as [E1 E2].
    destruct l as [|t l].
    + cbn [pieces_cells tok_cells]. unfold tok_cells. cbn [tok_kind tok_bytes tok_codes fst snd]. exact E1.
    + rewrite !(pieces_cons s _ (t :: l)) by easy. unfold tok_cells. cbn [tok_kind tok_bytes tok_codes fst snd]. rewrite E1, E2, <- !app_assoc. reflexivity.
Qed.
Lemma finer_text s l l' : Finer l l' -> text_rows s l = text_rows s l'.
Proof.
  intros H. apply finer_lines in H. unfold text_rows. generalize 1. induction H as [|a a' b b' Ha H IH]; intros n; [reflexivity|]. cbn [numbered]. rewrite IH. f_equal.
  unfold line_cells. now rewrite (FLine_pieces s a a' Ha), (FLine_terminated a a' Ha).
Qed.

(** fragmentations which do not matter *)
Lemma cuts_same s cs1 cs2 ts toks1 : is_bytes (concat cs1) -> Lexes (concat cs1) ts -> Cuts ts cs1 -> Cuts ts cs2 -> Tokens cs1 toks1 ->
  concat cs2 = concat cs1 /\ exists toks2, Tokens cs2 toks2 /\ text_rows s toks1 = text_rows s toks2 /\ byte_cells s toks1 = byte_cells s toks2.
Proof.
  intros HB HL C1 C2 HT.
  assert (HC : exists toks, Forall2 Coded ts toks).
  { clear C2. revert toks1 HB HL HT. induction C1 as [|a b cs HC IH|a r w1 w2 b cs H1 H2 HC IH]; intros toks1 HB HL HT.
    - exists []. constructor.
    - apply lexes_app_inv in HL as (s2 & E & L1 & L2). cbn [concat] in *. apply app_inv_head in E. subst s2. apply is_bytes_app in HB as [HB1 HB2].
      apply tokens_cons_inv in HT as (lx & t1 & t2 & L & K & T & ->). rewrite (lexes_det _ _ _ HB1 L L1) in K.
      destruct (IH t2 HB2 L2 T) as [tb Kb]. exists (t1 ++ tb). now apply Forall2_app.
    - apply lexes_snoc in HL as (s2 & E & L1 & L2); auto. cbn [concat] in *. apply app_inv_head in E. subst s2. apply is_bytes_app in HB as [HB1 HB2].
      apply tokens_cons_inv in HT as (lx & t1 & t2 & L & K & T & ->). rewrite (lexes_det _ _ _ HB1 L L1) in K.
      destruct (IH t2 HB2 L2 T) as [tb Kb]. apply Forall2_app_inv_l in K as (ta & tr & Ka & Kr & _).
      inversion Kb as [|x [[k w] c] l tb' [E1 E2] Kb']; subst. cbn in E1. injection E1 as <- <-.
      exists (ta ++ (K_run r, w1 ++ w2, c) :: tb'). apply Forall2_app; [exact Ka|]. constructor; [split; [reflexivity|exact E2]|exact Kb']. }
  destruct HC as [toks HC].
  destruct (cuts_tokens ts cs1 C1 _ toks HL HC) as (_ & t1 & T1 & F1). destruct (cuts_tokens ts cs2 C2 _ toks HL HC) as (E2 & t2 & T2 & F2).
  split; [now symmetry|]. exists t2. split; [exact T2|].
  assert (B1 : Forall is_bytes cs1) by (clear -HB; induction cs1 as [|c cs IH]; [constructor|]; cbn in HB; apply is_bytes_app in HB as [? ?]; constructor; auto).
  rewrite (tokens_det cs1 toks1 t1 B1 HT T1). split.
  - now rewrite <- (finer_text s _ _ F1), (finer_text s _ _ F2).
  - now rewrite <- (finer_bytes s _ _ F1), (finer_bytes s _ _ F2).
Qed.
