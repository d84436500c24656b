(** pytermor/common.py:46-69 [wait_key], on systems other than Windows *)
From Coq Require Import List NArith Bool.
From Verif.Model Require Import Base.
Import ListNotations.
Local Open Scope N_scope.

(** the list [tcgetattr] returns: [iflag, oflag, cflag, lflag, ispeed, ospeed, cc] *)
Record tty := mkTty { t_iflag : N; t_oflag : N; t_cflag : N; t_lflag : N; t_ispeed : N; t_ospeed : N; t_cc : list N }.
(** termios.ICANON, termios.ECHO (Linux) *)
Definition ICANON : N := 2.
Definition ECHO : N := 8.

(** Exceptions: OSError (of which IOError is another name), termios.error (no OSError),
    KeyboardInterrupt, anything else *)
Inductive wk_exn := WK_os | WK_termios | WK_interrupt | WK_other.
Inductive wk_result := WK_value (v : option str) | WK_raised (e : wk_exn).

(** What the system answers: an exception or success for each call, and before which of the
    steps below the user presses Ctrl+C (Python raises KeyboardInterrupt between two steps) *)
Record wk_answers := mkAnswers {
  wa_fileno : option wk_exn;
  wa_get1 : option wk_exn;
  wa_get2 : option wk_exn;
  wa_set1 : option wk_exn;
  wa_read : str + wk_exn;
  wa_set2 : option wk_exn;
  wa_ctrl_c : nat -> bool
}.

(** calls that have succeeded; a read with the settings under which it took place *)
Inductive wk_call := WK_set (t : tty) | WK_read (t : tty).

Definition step {A} (a : wk_answers) (i : nat) (answer : option wk_exn) (fail : wk_exn -> A) (go : A) : A :=
  if wa_ctrl_c a i then fail WK_interrupt else match answer with Some e => fail e | None => go end.

(** L59 *)
Definition raw_mode (t : tty) : tty :=
  mkTty (t_iflag t) (t_oflag t) (t_cflag t) (N.ldiff (N.ldiff (t_lflag t) ICANON) ECHO) (t_ispeed t) (t_ospeed t) (t_cc t).

(** L67-68, [finally]: an exception raised here replaces the one on its way *)
Definition finally (a : wk_answers) (old cur : tty) (r : wk_result) : wk_result * tty * list wk_call :=
  step a 6 (wa_set2 a) (fun e => (WK_raised e, cur, [])) (r, old, [WK_set old]).

(** L55-69.  The steps: 0 fileno, 1 and 2 tcgetattr, 3 tcsetattr, 4 [result = None], 5 read,
    6 tcsetattr in [finally], 7 return. *)
Definition wait_key (a : wk_answers) (t : tty) : wk_result * tty * list wk_call :=
  let stop e := (WK_raised e, t, []) in
  step a 0 (wa_fileno a) stop (
  step a 1 (wa_get1 a) stop (
  step a 2 (wa_get2 a) stop (
  step a 3 (wa_set1 a) stop (
    let new := raw_mode t in
    step a 4 None (fun e => (WK_raised e, new, [WK_set new])) (
      let '(r, reads) :=
        if wa_ctrl_c a 5 then (WK_raised WK_interrupt, [])
        else match wa_read a with
             | inl c => (WK_value (Some c), [WK_read new])
             | inr WK_os => (WK_value None, [])
             | inr e => (WK_raised e, [])
             end in
      let '(r, cur, sets) := finally a t new r in
      let r := match r with WK_value v => if wa_ctrl_c a 7 then WK_raised WK_interrupt else r | _ => r end in
      (r, cur, WK_set new :: reads ++ sets)))))).
