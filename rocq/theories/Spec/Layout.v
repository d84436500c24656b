(** Specification side: values laid out on a line of fixed width *)
From Coq Require Import List NArith Bool Arith.
Import ListNotations.

Definition blanks (n : nat) : list N := repeat 32%N n.

(** the values in order, the n-th gap after the n-th value, nothing after the last one *)
Fixpoint interleave (values : list (list N)) (gaps : list nat) : list N :=
  match values with
  | [] => []
  | [v] => v
  | v :: rest => v ++ blanks (hd 0 gaps) ++ interleave rest (tl gaps)
  end.

Definition total_length (values : list (list N)) : nat := list_sum (map (@length N) values).

(** no two gaps differ by more than one *)
Definition even (gaps : list nat) : Prop := forall g h, In g gaps -> In h gaps -> g <= h + 1.
