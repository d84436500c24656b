(** Specification side: how messages look *)
From Coq Require Import List NArith ZArith Bool.
From Verif.Spec Require Import Terminal Display Output.
Import ListNotations.
Local Open Scope N_scope.

Definition bright_red : attrs := set_fg (ColIdx 9) attrs0.
Definition dark_red : attrs := set_fg (ColIdx 1) attrs0.
Definition yellow : attrs := set_fg (ColIdx 3) attrs0.
(** a headline in bold, then the message, then the end of the line *)
Definition message_cells (a : attrs) (headline message : list N) : list tcell :=
  styled (set_bold true a) headline ++ styled a message ++ [(10, attrs0)].
(** [Run the app with '<option>' argument to <purpose>]: the option is bold *)
Definition hint_cells (before option after : list N) : list tcell :=
  styled attrs0 before ++ styled (set_bold true attrs0) option ++ styled attrs0 after.
