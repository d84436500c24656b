(** Specification side: ints as numbers to be formatted *)
From Coq Require Import ZArith QArith.
From Verif.Spec Require Import FloatText.
Local Open Scope Z_scope.

(** There is a nearest double: below the middle between the largest one and 2^1024; from there on
    IEEE 754 rounds to infinity. *)
Definition has_float (z : Z) : Prop := Z.abs z < 2 ^ 1024 - 2 ^ 970.
(** the decimal magnitude, except for numbers next to a power of ten *)
Definition magnitude_about (x : Q) (e : Z) : Prop :=
  ((1 - (1 # 549755813888)) * p10 e <= x /\ x < (1 + (1 # 17592186044416)) * p10 (e + 1))%Q.
(** [lgb] is right about an int that has no float *)
Definition known_log (lgb : Z -> Z) (z : Z) : Prop := has_float z \/ magnitude_about (inject_Z (Z.abs z)) (lgb (Z.abs z)).
