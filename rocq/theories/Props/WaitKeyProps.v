(** C116: waiting for a key *)
From Coq Require Import List NArith Bool.
From Verif.Model Require Import Base WaitKey.
From Verif.Spec Require Import WaitKey.
From Verif.Proof Require Import WaitKeyFacts.
Import ListNotations.
Local Open Scope N_scope.

(** Whatever happens, also in case of errors and Ctrl+C during the read, the terminal has its former
    settings afterwards, unless Ctrl+C is pressed right after they were changed or right before they are restored. *)
Theorem C116_restored_partial : forall a t, wa_set2 a = None -> no_gap a -> snd (fst (wait_key a t)) = t.
Proof. exact restored. Qed.
Print Assumptions C116_restored_partial.

(** At these two moments it has not, although every call succeeds and Ctrl+C is pressed once: a terminal
    that showed what is typed does not any more. *)
Theorem C116_restored_refuted : forall t i, i = 4%nat \/ i = 6%nat -> N.testbit (t_lflag t) 3 = true ->
  exists a u, wa_fileno a = None /\ wa_get1 a = None /\ wa_get2 a = None /\ wa_set1 a = None /\ wa_set2 a = None /\ (forall j, wa_ctrl_c a j = true <-> j = i) /\
    fst (wait_key a t) = (WK_raised WK_interrupt, u) /\ reads_keys t u /\ u <> t.
Proof. exact not_restored. Qed.
Print Assumptions C116_restored_refuted.

(** A key is read without echo and without waiting for the end of the line, all other settings being the same. *)
Theorem C116_during : forall a t u, In (WK_read u) (snd (wait_key a t)) -> reads_keys t u.
Proof. exact read_mode. Qed.
Print Assumptions C116_during.

(** The result is the key, or nothing if it could not be read; *)
Theorem C116_result : forall a t, undisturbed a -> fst (fst (wait_key a t)) =
  match wa_read a with inl c => WK_value (Some c) | inr WK_os => WK_value None | inr e => WK_raised e end.
Proof. exact key_result. Qed.
Print Assumptions C116_result.

(** nothing but a failed read is taken for nothing. *)
Theorem C116_nothing_swallowed : forall a t v, fst (fst (wait_key a t)) = WK_value v ->
  wa_ctrl_c a 5%nat = false /\ ((exists c, v = Some c /\ wa_read a = inl c) \/ (v = None /\ wa_read a = inr WK_os)).
Proof. exact nothing_swallowed. Qed.
Print Assumptions C116_nothing_swallowed.

Example C116_example : no_gap (calm (inr WK_other) 5) /\ wait_key (calm (inl [97]) 8) some_tty =
    (WK_value (Some [97]), some_tty, [WK_set (raw_mode some_tty); WK_read (raw_mode some_tty); WK_set some_tty]) /\
  wait_key (calm (inl [97]) 5) some_tty = (WK_raised WK_interrupt, some_tty, [WK_set (raw_mode some_tty); WK_set some_tty]) /\
  t_lflag (raw_mode some_tty) = 35377.
Proof. exact wait_case. Qed.
