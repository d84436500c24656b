(** Specification side: parameter strings of SGR sequences in the input *)
From Coq Require Import List NArith Bool.
From Verif.Spec Require Import Numbers.
Import ListNotations.
Local Open Scope N_scope.

Definition ascii_digit (c : N) : Prop := 48 <= c /\ c <= 57.

(** One parameter: empty (contributes nothing), or a decimal number of no more than 4300 digits
    (Python refuses to read longer ones), possibly followed by sub-parameters introduced by a
    colon (which are not looked at). *)
Inductive PartCode : list N -> list N -> Prop :=
| Part_empty : PartCode [] []
| Part_number ds sub :
    ds <> [] -> Forall ascii_digit ds -> N.of_nat (length ds) <= 4300 -> (sub = [] \/ exists r, sub = 58 :: r) ->
    PartCode (ds ++ sub) [num_value 10 (map (fun c => c - 48) ds)].

(** parameters separated by semicolons *)
Inductive ParamCodes : list N -> list N -> Prop :=
| PC_last p c : ~ In 59 p -> PartCode p c -> ParamCodes p c
| PC_more p c rest cs :
    ~ In 59 p -> PartCode p c -> ParamCodes rest cs -> ParamCodes (p ++ 59 :: rest) (c ++ cs).
