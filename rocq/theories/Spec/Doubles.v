(** Specification side: the numbers a double can hold (IEEE 754 binary64) *)
From Coq Require Import ZArith QArith Qabs.
Local Open Scope Q_scope.

(** 53 binary digits, exponents of two from -1074 to 971 *)
Definition double (x : Q) : Prop :=
  exists m e : Z, (Z.abs m < 2 ^ 53)%Z /\ (-1074 <= e <= 971)%Z /\ x == inject_Z m * (2 # 1) ^ e.
(** a nearest one; of two, the one that is an even multiple of their distance *)
Definition nearest (x y : Q) : Prop :=
  double y /\ (forall z, double z -> Qabs (x - y) <= Qabs (x - z)) /\
  forall z, double z -> Qabs (x - z) == Qabs (x - y) -> ~ z == y ->
    exists m e : Z, y == inject_Z (2 * m) * (2 # 1) ^ e /\
      (z == inject_Z (2 * m + 1) * (2 # 1) ^ e \/ z == inject_Z (2 * m - 1) * (2 # 1) ^ e).
