(** Common vocabulary of the model: bytes, strings, exceptions, Python slices,
    integer formatting.  Nothing here is specific to kolombos. *)
From Coq Require Import List NArith ZArith Bool Lia.
Import ListNotations.
Local Open Scope N_scope.

(** A Python [bytes] object: list of numbers below 256 (the bound is a
    hypothesis [is_bytes] of the theorems, not part of the type). *)
Definition bytes := list N.
(** A Python [str]: list of Unicode code points. *)
Definition str := list N.

Definition is_bytes (l : bytes) : Prop := Forall (fun b => b < 256) l.

(** Exceptions that can be raised by the modelled code. *)
Inductive exn :=
| ValueError | TypeError | KeyError | RuntimeError | BufferError
| EOFError | WaitRequest | OSError | OverflowError | AttributeError | LogicError
| IndexError | RecursionError | ZeroDivisionError.

Inductive result (A : Type) :=
| Ok (a : A)
| Err (e : exn).
Arguments Ok {A} a.
Arguments Err {A} e.

Definition bind {A B} (r : result A) (f : A -> result B) : result B :=
  match r with Ok a => f a | Err e => Err e end.

(** Python slice [l[:n]] for any integer [n]. *)
Definition py_take {A} (n : Z) (l : list A) : list A :=
  if (n <? 0)%Z then firstn (length l - Z.to_nat (- n)) l else firstn (Z.to_nat n) l.

(** Python slice [l[n:]] for any integer [n]. *)
Definition py_drop {A} (n : Z) (l : list A) : list A :=
  if (n <? 0)%Z then skipn (length l - Z.to_nat (- n)) l else skipn (Z.to_nat n) l.

Definition zlen {A} (l : list A) : Z := Z.of_nat (length l).

(** Digits of [n] in base [b], most significant first ([str(int)], [format(int,'x')]). *)
Fixpoint digits_fuel (b : N) (fuel : nat) (n : N) : list N :=
  match fuel with
  | O => []
  | S f => if n <? b then [n] else digits_fuel b f (n / b) ++ [n mod b]
  end.
Definition digits (b n : N) : list N := digits_fuel b (S (N.size_nat n)) n.

(** [str(n)] for a non-negative int. *)
Definition dec (n : N) : str := map (fun d => 48 + d) (digits 10 n).

(** lower/upper case hexadecimal digit *)
Definition hexdig_lo (d : N) : N := if d <? 10 then 48 + d else 87 + d.
Definition hexdig_up (d : N) : N := if d <? 10 then 48 + d else 55 + d.

(** left padding with a fill character to a minimal width: [s.rjust(w, c)], [f'{s:>w}'] *)
Definition rjust (c : N) (w : nat) (s : str) : str := repeat c (w - length s) ++ s.

(** [f'{n:0wx}'] and [f'{n:0wX}'] for a non-negative int *)
Definition fmt_hex_lo (w : nat) (n : N) : str := rjust 48 w (map hexdig_lo (digits 16 n)).
Definition fmt_hex_up (w : nat) (n : N) : str := rjust 48 w (map hexdig_up (digits 16 n)).

(** [sep.join(parts)] *)
Fixpoint join (sep : str) (parts : list str) : str :=
  match parts with
  | [] => []
  | [p] => p
  | p :: rest => p ++ sep ++ join sep rest
  end.

(** [s.split(c)] for a one-character separator: always at least one part. *)
Fixpoint split_on (c : N) (s : str) : list str :=
  match s with
  | [] => [[]]
  | x :: t =>
      if x =? c then [] :: split_on c t
      else match split_on c t with
           | [] => [[x]]
           | p :: ps => (x :: p) :: ps
           end
  end.

(** list equality on [N] *)
Fixpoint eqb_list (a b : list N) : bool :=
  match a, b with
  | [], [] => true
  | x :: a', y :: b' => (x =? y) && eqb_list a' b'
  | _, _ => false
  end.

(** association lookup *)
Fixpoint assoc {A} (k : N) (l : list (N * A)) : option A :=
  match l with
  | [] => None
  | (k', v) :: t => if k =? k' then Some v else assoc k t
  end.
