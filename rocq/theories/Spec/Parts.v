(** Inputs put together of two parts, and outputs likewise *)
From Coq Require Import List NArith ZArith Bool.
From Verif.Model Require Import Base Settings.
From Verif.Spec Require Import Display Output.
Import ListNotations.
Local Open Scope N_scope.

Definition ends_line (l : list N) : Prop := exists x, l = x ++ [10].

(** [Joined a b c]: [c] is [a] followed by [b]; the last chunk of [a] and the first one of [b] are
    two chunks, or one if the former ends with a line feed *)
Inductive Joined : list (list N) -> list (list N) -> list (list N) -> Prop :=
| J_border a b : Joined a b (a ++ b)
| J_inside cs u v ds : ends_line u -> Joined (cs ++ [u]) (v :: ds) (cs ++ (u ++ v) :: ds).

(** lines and what is shown before them, which depends on the number of the line only *)
Fixpoint with_numbers (s : settings) (n : N) (ls : list (list tcell)) : list (list tcell) :=
  match ls with
  | [] => []
  | l :: r => (line_number_cells s n ++ l) :: with_numbers s (n + 1) r
  end.
(** rows of bytes and the total *)
Definition with_offsets_from (s : settings) (c : nat) (rows : list (list bcell)) : list (list tcell) :=
  rows_cells s c 0 rows ++ total_cells s (N.of_nat (length (concat rows))).
