(** The run theorems in the form of the claims *)
From Coq Require Import List Arith NArith ZArith Bool Lia.
From Verif.Model Require Import Base Ansi Regex Settings Segment Template Parser Console Formatter Reader Runner.
From Verif.Spec Require Import Numbers Terminal Utf8 Lexical SgrParams Display Output Input.
From Verif.Proof Require Import BaseFacts RegexFacts LexFacts TokFacts PaintFacts DisplayFacts RunFacts ReaderFacts RunMain LexClaims.
Import ListNotations.
Local Open Scope N_scope.

Lemma Result_good so_far all evs fb complete p en toks :
  Forall is_bytes fb -> Tokens fb toks -> Result so_far all evs fb complete p en ->
  (en = REnd /\ Rows (pr_out p) (all toks) /\ (ending_of evs = At_eof \/ complete)) \/
  (en = REnd /\ ending_of evs = At_interrupt /\ ~ complete /\ Rows (pr_out p) (so_far toks)) \/
  (en = RError OSError /\ ending_of evs = At_failure /\ ~ complete /\ Rows (pr_out p) (so_far toks)).
Proof.
  intros HB HT R. destruct R as [t K1 K2 K3|cs c rest t K1 K2 K3 K4|t K1 K0 K2 K3|t K1 K0 K2 K3].
  - left. rewrite (tokens_det fb toks t HB HT K1). auto.
  - exfalso. apply K2. apply nonempty_bytes in HB as HB'. rewrite K1 in HB'.
    assert (G : exists toks, Tokens (nonempty fb) toks) by (exists toks; now apply tokens_nonempty in HT).
    apply good_tokens in G; [|rewrite K1; exact HB']. rewrite K1 in G. apply Forall_app in G as [_ G]. now inversion G.
  - right. left. rewrite (tokens_det fb toks t HB HT K2). auto.
  - right. right. rewrite (tokens_det fb toks t HB HT K2). auto.
Qed.

Lemma Result_bad so_far all evs fb complete p en :
  Forall is_bytes fb -> (~ exists toks, Tokens fb toks) -> Result so_far all evs fb complete p en ->
  en = RError ValueError /\ exists cs c rest toks, nonempty fb = cs ++ c :: rest /\ Tokens cs toks /\ Rows (pr_out p) (so_far toks).
Proof.
  intros HB HT R. destruct R as [t K1 K2 K3|cs c rest t K1 K2 K3 K4|t K1 K2 K3|t K1 K2 K3]; try (destruct HT; eauto; fail).
  split; [reflexivity|]. exists cs, c, rest, t. auto.
Qed.


Lemma processed_bytes s evs chunks : Processed s evs chunks -> Forall is_bytes chunks.
Proof. intros (H & d & _ & ->). now apply first_bytes_bytes. Qed.

Section Both.
  Variable s : settings.
  Variable tc : Z.
  Variable src : source.
  Variable so_far all : list token -> list (list tcell).
  Hypothesis run_res : forall evs d, Forall is_bytes (provided evs) -> Limited (s_max_bytes s) (s_max_lines s) (concat (provided evs)) d ->
    exists p acts en, byteio_run s tc src evs = (p, acts, en) /\
      Result so_far all evs (first_bytes (length d) (provided evs)) (Stops (s_max_bytes s) (s_max_lines s) (concat (provided evs))) p en.

  Lemma both_eof evs chunks toks : Processed s evs chunks -> Finishes s evs -> Tokens chunks toks ->
    exists p acts, byteio_run s tc src evs = (p, acts, REnd) /\ displays (pr_out p) (all toks).
  Proof.
    intros HP HE HT. pose proof (processed_bytes _ _ _ HP) as HB. destruct HP as (H & d & HL & ->).
    destruct (run_res evs d H HL) as (p & acts & en & E & R).
    destruct (Result_good _ _ _ _ _ _ _ _ HB HT R) as [(-> & K & _)|[(_ & K & K' & _)|(_ & K & K' & _)]]; [|destruct HE; congruence|destruct HE; congruence].
    exists p, acts. split; [exact E|now apply displays_of].
  Qed.
  Lemma both_stop evs chunks toks : Processed s evs chunks -> ~ Stops (s_max_bytes s) (s_max_lines s) (concat (provided evs)) -> Tokens chunks toks ->
    (ending_of evs = At_interrupt -> exists p acts, byteio_run s tc src evs = (p, acts, REnd) /\ displays (pr_out p) (so_far toks)) /\
    (ending_of evs = At_failure -> exists p acts, byteio_run s tc src evs = (p, acts, RError OSError) /\ displays (pr_out p) (so_far toks)).
  Proof.
    intros HP NR HT. pose proof (processed_bytes _ _ _ HP) as HB. destruct HP as (H & d & HL & ->).
    destruct (run_res evs d H HL) as (p & acts & en & E & R).
    split; intros HE; destruct (Result_good _ _ _ _ _ _ _ _ HB HT R) as [(-> & K & [K'|K'])|[(-> & K & _ & K')|(-> & K & _ & K')]]; try congruence; try contradiction;
      exists p, acts; (split; [exact E|now apply displays_of]).
  Qed.
  Lemma both_bad evs chunks : Processed s evs chunks -> (~ exists toks, Tokens chunks toks) ->
    exists p acts, byteio_run s tc src evs = (p, acts, RError ValueError) /\
      exists cs c rest toks, filter (fun c => match c with [] => false | _ => true end) chunks = cs ++ c :: rest /\ Tokens cs toks /\ displays (pr_out p) (so_far toks).
  Proof.
    intros HP HT. pose proof (processed_bytes _ _ _ HP) as HB. destruct HP as (H & d & HL & ->).
    destruct (run_res evs d H HL) as (p & acts & en & E & R).
    destruct (Result_bad _ _ _ _ _ _ _ HB HT R) as (-> & cs & c & rest & toks & K1 & K2 & K3).
    exists p, acts. split; [exact E|]. exists cs, c, rest, toks. split; [exact K1|]. split; [exact K2|now apply displays_of].
  Qed.
  (** every outcome *)
  Lemma both_any evs chunks : Processed s evs chunks ->
    exists p acts en, byteio_run s tc src evs = (p, acts, en) /\ (en = REnd \/ en = RError ValueError \/ en = RError OSError) /\
      exists rows, displays (pr_out p) rows.
  Proof.
    intros (H & d & HL & ->). destruct (run_res evs d H HL) as (p & acts & en & E & R).
    exists p, acts, en. split; [exact E|]. destruct R; (split; [auto|eexists; apply displays_of; eassumption]).
  Qed.
  Lemma both_rows evs chunks : Processed s evs chunks ->
    exists p acts en cs toks rows rest, byteio_run s tc src evs = (p, acts, en) /\ Tokens cs toks /\ (rows = so_far toks \/ rows = all toks) /\
      concat chunks = concat cs ++ rest /\ displays (pr_out p) rows.
  Proof.
    intros (H & d & HL & ->). destruct (run_res evs d H HL) as (p & acts & en & E & R).
    set (fb := first_bytes _ _) in *. exists p, acts, en.
    destruct R as [t K1 K2 K3|cs c rest t K1 K2 K3 K4|t K1 K0 K2 K3|t K1 K0 K2 K3].
    - exists fb, t, (all t), []. split; [exact E|]. split; [assumption|]. split; [auto|]. split; [symmetry; apply app_nil_r|now apply displays_of].
    - exists cs, t, (so_far t), (concat (c :: rest)). rewrite <- concat_app, <- K1.
      split; [exact E|]. split; [exact K3|]. split; [auto|]. split; [|now apply displays_of].
      clear. induction fb as [|x l IH]; [reflexivity|]. cbn [nonempty filter concat]. destruct x; [exact IH|]. cbn [concat]. now rewrite IH.
    - exists fb, t, (so_far t), []. split; [exact E|]. split; [assumption|]. split; [auto|]. split; [symmetry; apply app_nil_r|now apply displays_of].
    - exists fb, t, (so_far t), []. split; [exact E|]. split; [assumption|]. split; [auto|]. split; [symmetry; apply app_nil_r|now apply displays_of].
  Qed.
End Both.

Definition text_eof s tc src evs chunks toks (H : opens src) (B : binary_mode s = false) :=
  both_eof s tc src _ _ (text_run_result s tc src H B) evs chunks toks.
Definition text_stop s tc src evs chunks toks (H : opens src) (B : binary_mode s = false) :=
  both_stop s tc src _ _ (text_run_result s tc src H B) evs chunks toks.
Definition text_bad s tc src evs chunks (H : opens src) (B : binary_mode s = false) :=
  both_bad s tc src _ _ (text_run_result s tc src H B) evs chunks.
Definition bin_eof s tc c src evs chunks toks (H : opens src) (B : binary_ok s tc c) :=
  both_eof s tc src _ _ (binary_run_result s tc c src H (proj1 B) (proj1 (proj2 B)) (proj2 (proj2 B))) evs chunks toks.
Definition bin_stop s tc c src evs chunks toks (H : opens src) (B : binary_ok s tc c) :=
  both_stop s tc src _ _ (binary_run_result s tc c src H (proj1 B) (proj1 (proj2 B)) (proj2 (proj2 B))) evs chunks toks.
Definition bin_bad s tc c src evs chunks (H : opens src) (B : binary_ok s tc c) :=
  both_bad s tc src _ _ (binary_run_result s tc c src H (proj1 B) (proj1 (proj2 B)) (proj2 (proj2 B))) evs chunks.
Definition text_any s tc src evs chunks (H : opens src) (B : binary_mode s = false) :=
  both_rows s tc src _ _ (text_run_result s tc src H B) evs chunks.
Definition bin_any s tc c src evs chunks (H : opens src) (B : binary_ok s tc c) :=
  both_rows s tc src _ _ (binary_run_result s tc c src H (proj1 B) (proj1 (proj2 B)) (proj2 (proj2 B))) evs chunks.
