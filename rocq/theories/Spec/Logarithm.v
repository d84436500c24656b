(** Specification side: what is expected of the logarithm and the powers of the C library *)
From Coq Require Import ZArith QArith Qabs.
From Verif.Spec Require Import Doubles FloatText.
Local Open Scope Q_scope.

(** [x] is below [p], by less than one part in 2^40 *)
Definition just_below (x p : Q) : Prop := (1 - (1 # 1099511627776)) * p <= x /\ x < p.

(** [floor(log10(x))] is the decimal magnitude, but may be one more right below a power of ten *)
Definition accurate (lg : Q -> Z) : Prop :=
  forall x e, double x -> magnitude x e -> lg x = e \/ (lg x = (e + 1)%Z /\ just_below x (p10 (e + 1))).
(** powers are within 2^-50, if they are not subnormal numbers *)
Definition close_powers (pw : Z -> Q) : Prop :=
  forall e, (-307 <= e < 0)%Z -> Qabs (pw e - p10 e) <= (1 # 1125899906842624) * p10 e.

(** [log10 x > s] *)
Definition log_above (x s : Q) : Prop := p10 (Qnum s) < x ^ Zpos (Qden s).
(** the double nearest to [log10 x] is at least [e]: all doubles below [e] are farther away *)
Definition log_rounds_from (x : Q) (e : Z) : Prop :=
  forall r, double r -> r < inject_Z e -> log_above x ((r + inject_Z e) / 2).
(** [floor(log10(x))] with a correctly rounded logarithm *)
Definition correct_log (lg : Q -> Z) : Prop :=
  forall x e, double x -> 0 < x -> (lg x = e <-> log_rounds_from x e /\ ~ log_rounds_from x (e + 1)).
