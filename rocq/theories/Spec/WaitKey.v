(** Waiting for a key *)
From Coq Require Import List NArith Bool.
From Verif.Model Require Import Base WaitKey.
Import ListNotations.
Local Open Scope N_scope.

(** Settings under which a key is delivered at once and not shown: bits 1 (canonical mode) and 3
    (echo) of the local flags are off, everything else is as before *)
Definition reads_keys (before now : tty) : Prop :=
  t_iflag now = t_iflag before /\ t_oflag now = t_oflag before /\ t_cflag now = t_cflag before /\
  t_ispeed now = t_ispeed before /\ t_ospeed now = t_ospeed before /\ t_cc now = t_cc before /\
  forall n, N.testbit (t_lflag now) n = if (n =? 1) || (n =? 3) then false else N.testbit (t_lflag before) n.

(** every call succeeds, and nobody presses Ctrl+C *)
Definition undisturbed (a : wk_answers) : Prop :=
  wa_fileno a = None /\ wa_get1 a = None /\ wa_get2 a = None /\ wa_set1 a = None /\ wa_set2 a = None /\ forall i, wa_ctrl_c a i = false.
(** Ctrl+C is pressed neither right after the settings have been changed nor right before they are restored *)
Definition no_gap (a : wk_answers) : Prop := wa_ctrl_c a 4%nat = false /\ wa_ctrl_c a 6%nat = false.
