(** Lemmas for C116 *)
From Coq Require Import List Arith NArith Bool Lia.
From Verif.Model Require Import Base WaitKey.
From Verif.Spec Require Import WaitKey.
Import ListNotations.
Local Open Scope N_scope.

Lemma raw_mode_reads t : reads_keys t (raw_mode t).
Proof.
  repeat split. intros n. unfold raw_mode, ICANON, ECHO. cbn [t_lflag]. rewrite !N.ldiff_spec. change 2 with (2 ^ 1). change 8 with (2 ^ 3). rewrite !N.pow2_bits_eqb.
  rewrite (N.eqb_sym 1), (N.eqb_sym 3). destruct (n =? 1), (n =? 3), (N.testbit (t_lflag t) n); reflexivity.
Qed.

Lemma restored a t : wa_set2 a = None -> no_gap a -> snd (fst (wait_key a t)) = t.
Proof.
  intros S [G4 G6]. unfold wait_key, step. rewrite G4.
  destruct (wa_ctrl_c a 0); [reflexivity|]. destruct (wa_fileno a); [reflexivity|].
  destruct (wa_ctrl_c a 1); [reflexivity|]. destruct (wa_get1 a); [reflexivity|].
  destruct (wa_ctrl_c a 2); [reflexivity|]. destruct (wa_get2 a); [reflexivity|].
  destruct (wa_ctrl_c a 3); [reflexivity|]. destruct (wa_set1 a); [reflexivity|].
  unfold finally, step. rewrite G6, S. destruct (wa_ctrl_c a 5); [reflexivity|]. destruct (wa_read a) as [c|[]]; reflexivity.
Qed.

Lemma read_mode a t u : In (WK_read u) (snd (wait_key a t)) -> reads_keys t u.
Proof.
  unfold wait_key, step. intros H.
  destruct (wa_ctrl_c a 0); [destruct H|]. destruct (wa_fileno a); [destruct H|].
  destruct (wa_ctrl_c a 1); [destruct H|]. destruct (wa_get1 a); [destruct H|].
  destruct (wa_ctrl_c a 2); [destruct H|]. destruct (wa_get2 a); [destruct H|].
  destruct (wa_ctrl_c a 3); [destruct H|]. destruct (wa_set1 a); [destruct H|].
  destruct (wa_ctrl_c a 4); [cbn in H; destruct H as [H|[]]; discriminate|].
  unfold finally, step in H. destruct (wa_ctrl_c a 5), (wa_read a) as [c|[]], (wa_ctrl_c a 6), (wa_set2 a); cbn [snd app In] in H;
    repeat (destruct H as [H|H]; [try discriminate; injection H as <-; apply raw_mode_reads|]); destruct H.
Qed.

Lemma key_result a t : undisturbed a -> fst (fst (wait_key a t)) =
  match wa_read a with inl c => WK_value (Some c) | inr WK_os => WK_value None | inr e => WK_raised e end.
Proof.
  intros (H0 & H1 & H2 & H3 & H4 & HC). unfold wait_key, finally, step. rewrite !HC, H0, H1, H2, H3, H4. destruct (wa_read a) as [c|[]]; reflexivity.
Qed.

Lemma nothing_swallowed a t v : fst (fst (wait_key a t)) = WK_value v ->
  wa_ctrl_c a 5%nat = false /\ ((exists c, v = Some c /\ wa_read a = inl c) \/ (v = None /\ wa_read a = inr WK_os)).
Proof.
  unfold wait_key, step. intros H.
  destruct (wa_ctrl_c a 0); [discriminate|]. destruct (wa_fileno a); [discriminate|].
  destruct (wa_ctrl_c a 1); [discriminate|]. destruct (wa_get1 a); [discriminate|].
  destruct (wa_ctrl_c a 2); [discriminate|]. destruct (wa_get2 a); [discriminate|].
  destruct (wa_ctrl_c a 3); [discriminate|]. destruct (wa_set1 a); [discriminate|].
  destruct (wa_ctrl_c a 4); [discriminate|].
  unfold finally, step in H. destruct (wa_ctrl_c a 5), (wa_read a) as [c|[]], (wa_ctrl_c a 6), (wa_set2 a), (wa_ctrl_c a 7); cbn [fst] in H; try discriminate;
    injection H as <-; split; eauto.
Qed.

Definition calm (read : str + wk_exn) (gap : nat) : wk_answers := mkAnswers None None None None read None (Nat.eqb gap).
Definition some_tty : tty := mkTty 1280 5 191 35387 15 15 [3; 28; 127; 21; 4].
Lemma not_restored : forall t i, i = 4%nat \/ i = 6%nat -> N.testbit (t_lflag t) 3 = true ->
  exists a u, wa_fileno a = None /\ wa_get1 a = None /\ wa_get2 a = None /\ wa_set1 a = None /\ wa_set2 a = None /\ (forall j, wa_ctrl_c a j = true <-> j = i) /\
    fst (wait_key a t) = (WK_raised WK_interrupt, u) /\ reads_keys t u /\ u <> t.
Proof.
  intros t i I E. exists (calm (inl [97]) i), (raw_mode t).
  do 5 (split; [reflexivity|]). split; [|split; [|split]].
  - intros j. cbn [calm wa_ctrl_c]. rewrite Nat.eqb_eq. split; congruence.
  - destruct I as [-> | ->]; reflexivity.
  - apply raw_mode_reads.
  - intros H. rewrite <- H in E. unfold raw_mode, ICANON, ECHO in E. cbn [t_lflag] in E. rewrite !N.ldiff_spec in E. change (N.testbit 8 3) with true in E. rewrite andb_false_r in E. discriminate.
Qed.
Lemma wait_case : no_gap (calm (inr WK_other) 5) /\ wait_key (calm (inl [97]) 8) some_tty =
    (WK_value (Some [97]), some_tty, [WK_set (raw_mode some_tty); WK_read (raw_mode some_tty); WK_set some_tty]) /\
  wait_key (calm (inl [97]) 5) some_tty = (WK_raised WK_interrupt, some_tty, [WK_set (raw_mode some_tty); WK_set some_tty]) /\
  t_lflag (raw_mode some_tty) = 35377.
Proof. repeat split. Qed.
