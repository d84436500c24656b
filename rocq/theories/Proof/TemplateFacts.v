(** Templates: comments, formats and variables found *)
From Coq Require Import Ascii String.
From Coq Require Import List Arith NArith ZArith Bool Lia.
From Verif.Model Require Import Base Ansi Regex Filters Render Messages Args SgrNames Es7sTemplate.
From Verif.Spec Require Import Terminal Filtered CommandLine SgrNames TemplateText.
From Verif.Proof Require Import BaseFacts TokFacts FilterClaims ArgsInt SgrNamesClaims.
Import ListNotations.
Local Open Scope N_scope.

(** ** Comments *)
Lemma closing_dec s : {r | s = CLOSING ++ r} + {forall r, s <> CLOSING ++ r}.
Proof.
  destruct s as [|a [|b [|c r]]]; try (right; intros r0 H; discriminate H).
  destruct (N.eq_dec a 123) as [->|]; [|right; intros r0 H; cbv in H; congruence].
  destruct (N.eq_dec b 125) as [->|]; [|right; intros r0 H; cbv in H; congruence].
  destruct (N.eq_dec c 35) as [->|]; [|right; intros r0 H; cbv in H; congruence].
  left. now exists r.
Qed.
Lemma comment_end_here r : comment_end (CLOSING ++ r) = Some r.
Proof. reflexivity. Qed.
Lemma comment_end_later c t : (forall r, c :: t <> CLOSING ++ r) -> comment_end (c :: t) = if c =? 10 then None else comment_end t.
Proof.
  intros H. cbn [comment_end].
  destruct t as [|b [|d r]]; try (destruct c as [|p]; [reflexivity|]; do 7 (try (destruct p as [p|p|]; try reflexivity)); fail).
  - destruct c as [|p]; [reflexivity|]. do 7 (try (destruct p as [p|p|]; try reflexivity)). destruct b as [|q]; [reflexivity|]. do 7 (try (destruct q as [q|q|]; try reflexivity)).
  - destruct (N.eq_dec c 123) as [->|]; [|destruct c as [|p]; [reflexivity|]; do 7 (try (destruct p as [p|p|]; try reflexivity)); congruence].
    destruct (N.eq_dec b 125) as [->|]; [|destruct b as [|p]; [reflexivity|]; do 7 (try (destruct p as [p|p|]; try reflexivity)); congruence].
    destruct (N.eq_dec d 35) as [->|]; [|destruct d as [|p]; [reflexivity|]; do 7 (try (destruct p as [p|p|]; try reflexivity)); congruence].
    now specialize (H r).
Qed.
Lemma comment_end_iff s r : comment_end s = Some r <-> exists t, Ends t r s.
Proof.
  split.
  - revert r. induction s as [|c s IH]; intros r H; [discriminate H|].
    destruct (closing_dec (c :: s)) as [[r' E]|E].
    + rewrite E in H |- *. rewrite comment_end_here in H. injection H as <-. exists []. split; [reflexivity|]. split; [intros []|].
      intros a b K. cbn [app] in K. assert (L := f_equal (@List.length N) K). rewrite !app_length in L. destruct b; [reflexivity|cbn in L; lia].
    + rewrite (comment_end_later c s E) in H. destruct (N.eqb_spec c 10) as [|N10]; [discriminate H|].
      destruct (IH r H) as (t & -> & N & F). exists (c :: t). split; [reflexivity|]. split; [intros [K|K]; auto|].
      intros [|a0 a] b K; cbn [app] in K.
      * exfalso. apply (E (b ++ r)). transitivity ((c :: t ++ CLOSING) ++ r); [cbn [app]; now rewrite <- app_assoc|]. rewrite K. now rewrite <- app_assoc.
      * injection K as -> K. now apply (F a b).
  - intros (t & -> & N & F). revert N F. induction t as [|c t IH]; intros N F; [reflexivity|].
    cbn [app]. rewrite comment_end_later.
    + destruct (N.eqb_spec c 10) as [->|]; [exfalso; apply N; now left|]. apply IH; [intros K; apply N; now right|].
      intros a b K. apply (F (c :: a) b). cbn [app]. now rewrite K.
    + intros x K. assert (L : exists b, (c :: t) ++ CLOSING = CLOSING ++ b /\ b <> []).
      { destruct t as [|d [|e t]]; cbn in K; injection K; intros; subst.
        - discriminate.
        - discriminate.
        - exists (t ++ CLOSING). split; [reflexivity|]. destruct t; discriminate. }
      destruct L as (b & L & B). apply B. apply (F [] b). exact L.
Qed.
Lemma comment_at_iff s r : comment_at s = Some r <-> exists t s', s = OPENING ++ s' /\ Ends t r s'.
Proof.
  assert (D : (exists s', s = OPENING ++ s') \/ (comment_at s = None /\ forall s', s <> OPENING ++ s')).
  { destruct s as [|a [|b [|c s]]]; try (right; split; [|intros s' H; discriminate H]).
    - reflexivity.
    - destruct a as [|p]; [reflexivity|]. do 7 (try (destruct p as [p|p|]; try reflexivity)).
    - destruct a as [|p]; [reflexivity|]. do 7 (try (destruct p as [p|p|]; try reflexivity)). destruct b as [|p]; [reflexivity|]. do 7 (try (destruct p as [p|p|]; try reflexivity)).
    - destruct (N.eq_dec a 35) as [->|]; [|right; split; [destruct a as [|p]; [reflexivity|]; do 7 (try (destruct p as [p|p|]; try reflexivity)); congruence|intros s0 H; cbv in H; congruence]].
      destruct (N.eq_dec b 123) as [->|]; [|right; split; [destruct b as [|p]; [reflexivity|]; do 7 (try (destruct p as [p|p|]; try reflexivity)); congruence|intros s0 H; cbv in H; congruence]].
      destruct (N.eq_dec c 125) as [->|]; [|right; split; [destruct c as [|p]; [reflexivity|]; do 7 (try (destruct p as [p|p|]; try reflexivity)); congruence|intros s0 H; cbv in H; congruence]].
      left. now exists s. }
  destruct D as [(s' & ->)|[E D]].
  - change (comment_at (OPENING ++ s')) with (comment_end s'). rewrite comment_end_iff. split.
    + intros (t & H). now exists t, s'.
    + intros (t & s'' & H & K). apply app_inv_head in H. subst. now exists t.
  - rewrite E. split; [discriminate|]. intros (t & s' & H & _). now apply D in H.
Qed.
Lemma comment_shorter s r : comment_at s = Some r -> (List.length r < List.length s)%nat.
Proof. intros H. apply comment_at_iff in H. destruct H as (t & s' & -> & -> & _). rewrite !app_length. cbn. lia. Qed.
Lemma no_comments_spec s : forall fuel, (List.length s <= fuel)%nat -> Uncommented s (no_comments fuel s).
Proof.
  intros fuel. revert s. induction fuel as [|fuel IH]; intros [|c s] L; cbn [List.length] in L; try lia; try constructor. cbn [no_comments].
  destruct (comment_at (c :: s)) as [r|] eqn:E.
  - pose proof (comment_shorter _ _ E) as L2. cbn [List.length] in L2. apply comment_at_iff in E. destruct E as (t & s' & E & H). rewrite E.
    apply (Un_comment t r s' _ H). apply IH. lia.
  - apply Un_char.
    + intros t r s' K H. assert (X : comment_at (c :: s) = Some r) by (apply comment_at_iff; now exists t, s'). congruence.
    + apply IH. lia.
Qed.
Lemma no_comments_unique s out : Uncommented s out -> forall fuel, (List.length s <= fuel)%nat -> no_comments fuel s = out.
Proof.
  induction 1 as [|t r s out H U IH|c s out H U IH]; intros fuel L.
  - now destruct fuel.
  - assert (E : comment_at (OPENING ++ s) = Some r) by (apply comment_at_iff; now exists t, s).
    pose proof (comment_shorter _ _ E) as L2. destruct fuel as [|fuel]; [cbn in L; lia|].
    change (OPENING ++ s) with (35 :: (123 :: 125 :: s)) in *. cbn [no_comments]. rewrite E. apply IH. cbn [List.length] in *. lia.
  - destruct fuel as [|fuel]; [cbn in L; lia|]. cbn [no_comments]. destruct (comment_at (c :: s)) as [r|] eqn:E.
    + apply comment_at_iff in E. destruct E as (t & s' & E & K). now apply H in K.
    + f_equal. apply IH. cbn in L. lia.
Qed.
Lemma uncommented_unique s a b : Uncommented s a -> Uncommented s b -> a = b.
Proof. intros A B. rewrite <- (no_comments_unique s a A _ (le_n _)). now apply no_comments_unique. Qed.

(** ** Braces *)
Lemma is_space_iff c : is_space c = true <-> white c.
Proof. exact (white_spec c). Qed.
Definition stops_at (p : N -> bool) (t : str) : Prop := match t with [] => True | c :: _ => p c = false end.
Lemma drop_over p a t : Forall (fun c => p c = true) a -> stops_at p t -> drop_while p (a ++ t) = t.
Proof.
  induction 1 as [|c a H _ IH]; intros S; cbn [app drop_while].
  - destruct t as [|c t]; [reflexivity|]. cbn in S |- *. now rewrite S.
  - rewrite H. now apply IH.
Qed.
Lemma take_over p a t : Forall (fun c => p c = true) a -> stops_at p t -> take_while p (a ++ t) = a.
Proof.
  induction 1 as [|c a H _ IH]; intros S; cbn [app take_while].
  - destruct t as [|c t]; [reflexivity|]. cbn in S |- *. now rewrite S.
  - rewrite H. f_equal. now apply IH.
Qed.
Lemma take_drop p s : s = take_while p s ++ drop_while p s.
Proof. induction s as [|c s IH]; [reflexivity|]. cbn [take_while drop_while]. destruct (p c); [cbn; now f_equal|reflexivity]. Qed.
Lemma take_all p s : Forall (fun c => p c = true) (take_while p s).
Proof. induction s as [|c s IH]; [constructor|]. cbn [take_while]. destruct (p c) eqn:E; [now constructor|constructor]. Qed.
Lemma firstn_diff {A} (a b : list A) : firstn (List.length (a ++ b) - List.length b) (a ++ b) = a.
Proof. rewrite app_length. replace (_ - _)%nat with (List.length a + 0)%nat by lia. rewrite firstn_app_2. cbn. apply app_nil_r. Qed.

Definition apart (x : N -> bool) : Prop := (forall c, x c = true -> ~ white c) /\ x 125 = false.
Lemma braces_sound x s w m r : braces x s = Some (w, m, r) -> s = m ++ r /\ Braced (fun c => x c = true) w m.
Proof.
  unfold braces. destruct s as [|c t]; [discriminate|]. destruct (N.eq_dec c 123) as [->|D].
  2:{ intros H. exfalso. destruct c as [|p]; [discriminate H|]. do 7 (try (destruct p as [p|p|]; try discriminate H)). congruence. }
  pose proof (take_drop is_space t) as E1. set (t1 := drop_while is_space t) in *.
  pose proof (take_drop x t1) as E2. set (t2 := drop_while x t1) in *.
  pose proof (take_drop is_space t2) as E3. set (t3 := drop_while is_space t2) in *.
  pose proof (take_all is_space t) as A1. pose proof (take_all x t1) as A2. pose proof (take_all is_space t2) as A3.
  revert E1 E2 E3 A1 A2 A3. generalize (take_while is_space t), (take_while x t1), (take_while is_space t2). intros a w' b E1 E2 E3 A1 A2 A3.
  destruct t3 as [|d r']; [discriminate|]. destruct (N.eq_dec d 125) as [->|D].
  2:{ intros H. exfalso. destruct d as [|p]; [discriminate H|]. do 7 (try (destruct p as [p|p|]; try discriminate H)). congruence. }
  intros H. assert (H1 : w' = w) by congruence. assert (H3 : r' = r) by congruence.
  assert (H2 : firstn (List.length (123 :: t) - List.length r) (123 :: t) = m) by congruence. clear H. subst w' r'.
  assert (E : 123 :: t = (123 :: a ++ w ++ b ++ [125]) ++ r).
  { rewrite E1, E2, E3. cbn [app]. repeat rewrite <- app_assoc. reflexivity. }
  rewrite E, firstn_diff in H2. subst m. split; [exact E|].
  exists a, b. split; [reflexivity|]. repeat split; try assumption.
  - eapply Forall_impl; [|exact A1]. intros k. apply is_space_iff.
  - eapply Forall_impl; [|exact A3]. intros k. apply is_space_iff.
Qed.
Lemma white_not_brace : is_space 125 = false. Proof. reflexivity. Qed.
Lemma braces_complete x w m r : apart x -> Braced (fun c => x c = true) w m -> braces x (m ++ r) = Some (w, m, r).
Proof.
  intros [X B] (a & b & -> & A & Bb & W).
  assert (A' : Forall (fun c => is_space c = true) a) by (eapply Forall_impl; [|exact A]; intros k; apply is_space_iff).
  assert (B' : Forall (fun c => is_space c = true) b) by (eapply Forall_impl; [|exact Bb]; intros k; apply is_space_iff).
  cbn [app]. repeat rewrite <- app_assoc. cbn [app]. unfold braces.
  assert (E : let t1 := drop_while is_space (a ++ w ++ b ++ 125 :: r) in take_while x t1 = w /\ drop_while is_space (drop_while x t1) = 125 :: r).
  { destruct w as [|c w].
    - cbn [app]. cbv zeta. rewrite app_assoc, drop_over; [|now apply Forall_app|exact white_not_brace]. cbn [take_while drop_while]. rewrite B. split; reflexivity.
    - assert (S : stops_at x (b ++ 125 :: r)).
      { destruct b as [|k b]; [exact B|]. cbn. destruct (x k) eqn:K; [|reflexivity]. exfalso. apply (X k K). now inversion Bb. }
      cbv zeta. rewrite drop_over; [|exact A'|].
      + rewrite take_over, drop_over by (assumption || exact W). split; [reflexivity|]. apply drop_over; [exact B'|reflexivity].
      + cbn [app stops_at]. inversion W; subst. destruct (is_space c) eqn:K; [|reflexivity]. exfalso. apply is_space_iff in K. now apply (X c). }
  destruct E as [E1 E2]. rewrite E1, E2. do 2 f_equal. f_equal.
  replace (123 :: a ++ w ++ b ++ 125 :: r) with ((123 :: a ++ w ++ b ++ [125]) ++ r); [apply firstn_diff|].
  cbn [app]. repeat rewrite <- app_assoc. reflexivity.
Qed.

Lemma words_fmt u : words (u_word u) -> apart (fun c => u_word u c || (c =? 59)).
Proof.
  intros [A W]. split.
  - intros c H. apply orb_true_iff in H as [H|H]; [now apply W|]. apply N.eqb_eq in H as ->. intros K. apply is_space_iff in K. discriminate K.
  - rewrite A by lia. reflexivity.
Qed.
Lemma words_var u : words (u_word u) -> apart (u_word u).
Proof. intros [A W]. split; [exact W|]. rewrite A by lia. reflexivity. Qed.
Lemma fmt_iff u s w m r : words (u_word u) -> fmt_at u s = Some (w, m, r) <-> s = m ++ r /\ Format (u_word u) w m.
Proof.
  intros W. split.
  - unfold fmt_at. destruct s as [|c t]; [discriminate|]. destruct (N.eq_dec c 94) as [->|D].
    2:{ intros H. exfalso. destruct c as [|p]; [discriminate H|]. do 7 (try (destruct p as [p|p|]; try discriminate H)). congruence. }
    destruct (braces _ t) as [[[w' m'] r']|] eqn:E; [|discriminate]. intros H. injection H as -> <- ->.
    apply braces_sound in E. destruct E as [-> (a & b & -> & A & B & F)]. split; [reflexivity|].
    eexists. split; [reflexivity|]. exists a, b. repeat split; try assumption. eapply Forall_impl; [|exact F].
    intros k H. apply orb_true_iff in H as [H|H]; [now left|right; now apply N.eqb_eq].
  - intros [-> (m' & -> & a & b & -> & A & B & F)]. cbn [app]. unfold fmt_at.
    change (123 :: (a ++ w ++ b ++ [125]) ++ r) with ((123 :: a ++ w ++ b ++ [125]) ++ r).
    rewrite (braces_complete _ w _ r (words_fmt u W)); [reflexivity|]. exists a, b. repeat split; try assumption.
    eapply Forall_impl; [|exact F]. intros k [H|H]; apply orb_true_iff; [now left|right; now apply N.eqb_eq].
Qed.
Lemma var_iff u s w m r : words (u_word u) -> var_at u s = Some (w, m, r) <-> s = m ++ r /\ Variable_ (u_word u) w m.
Proof.
  intros W. split.
  - unfold var_at. destruct s as [|c t]; [discriminate|]. destruct (N.eq_dec c 58) as [->|D].
    2:{ intros H. exfalso. destruct c as [|p]; [discriminate H|]. do 7 (try (destruct p as [p|p|]; try discriminate H)). congruence. }
    destruct (braces _ t) as [[[w' m'] r']|] eqn:E; [|discriminate]. destruct w' as [|x w']; [discriminate|]. intros H. injection H as <- <- ->.
    apply braces_sound in E. destruct E as [-> E]. split; [reflexivity|]. split; [discriminate|]. now exists m'.
  - intros [-> [V (m' & -> & H)]]. cbn [app]. unfold var_at. rewrite (braces_complete _ w _ r (words_var u W) H). destruct w; [congruence|reflexivity].
Qed.
(** what is inside of them *)
Lemma inner_no u ok w m c : words (u_word u) -> Braced ok w m -> (forall k, ok k -> u_word u k = true \/ k = 59) ->
  c < 128 -> ascii_word c = false -> is_space c = false -> c <> 59 -> c <> 123 -> c <> 125 -> ~ In c m.
Proof.
  intros [A _] (a & b & -> & Wa & Wb & F) O C W S N1 N2 N3 I.
  assert (X : forall l, Forall white l -> ~ In c l).
  { intros l Fl Il. rewrite Forall_forall in Fl. apply Fl in Il. apply is_space_iff in Il. congruence. }
  destruct I as [I|I]; [congruence|]. rewrite !in_app_iff in I. destruct I as [I|[I|[I|[I|[]]]]]; [now apply (X a)| |now apply (X b)|congruence].
  rewrite Forall_forall in F. apply F in I. apply O in I. destruct I as [I|I]; [|congruence]. rewrite A in I by exact C. congruence.
Qed.
