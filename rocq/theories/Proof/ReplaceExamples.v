(** Replacement texts, concretely *)
From Coq Require Import List NArith.
From Verif.Model Require Import Base Filters.
From Verif.Spec Require Import ReplacementText.
From Verif.Proof Require Import ReplaceClaims.
Import ListNotations.
Local Open Scope N_scope.
Lemma meanings :
  (forall l, ~ Means 5 [92; 51; 92; 120] l) /\ (forall l, ~ Means 5 [92; 54] l) /\ (forall l, ~ Means 5 [92; 52; 48; 48] l) /\
  Means 5 [92; 103; 60; 51; 62; 92; 48; 54; 53; 59; 92; 53; 92; 46] [Part 3; Char 53; Char 59; Part 5; Char 92; Char 46] /\
  filled (sequence_part [27; 91; 49; 109]) [Part 3; Char 53; Char 59; Part 5] = [49; 53; 59; 109].
Proof.
  repeat split; try (apply template_error; reflexivity). apply template_means.
  exists [TGroup 3; TLit 53; TLit 59; TGroup 5; TLit 92; TLit 46]. split; reflexivity.
Qed.
