(** Specification side: ways to fragment an input that do not matter. *)
From Coq Require Import List NArith.
From Verif.Spec Require Import Lexical.
Import ListNotations.

(** [Cuts ts chunks]: the text consisting of the pieces [ts] comes in [chunks], each of which
    ends between two pieces or within a run of characters of the same class *)
Inductive Cuts : list (kind * list N) -> list (list N) -> Prop :=
| Cuts_nil : Cuts [] []
| Cuts_between a b cs : Cuts b cs -> Cuts (a ++ b) (concat (map snd a) :: cs)
| Cuts_within a r w1 w2 b cs :
    w1 <> [] -> w2 <> [] -> Cuts ((K_run r, w2) :: b) cs ->
    Cuts (a ++ (K_run r, w1 ++ w2) :: b) ((concat (map snd a) ++ w1) :: cs).
