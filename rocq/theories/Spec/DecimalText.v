(** Specification side: decimal notations of doubles, and what they mean *)
From Coq Require Import List NArith ZArith QArith.
From Verif.Spec Require Import Doubles.
Import ListNotations.

(** the number that decimal digits denote *)
Definition whole_number (ds : list N) : Z := fold_left (fun a d => (a * 10 + Z.of_N d)%Z) ds 0%Z.
Definition digital (ds : list N) : Prop := ds <> [] /\ Forall (fun d => (d <= 9)%N) ds.
Definition ten (e : Z) : Q := Qpower (10 # 1) e.

(** [q], read as a double, is [a]; what exceeds the largest double by half of a unit is read as infinity *)
Definition read_as (q a : Q) : Prop := (q < (2 # 1) ^ 1024 - (2 # 1) ^ 970)%Q /\ nearest q a.
(** [0.d1d2...dn * 10^p] is read as [a] *)
Definition denoted (ds : list N) (p : Z) : Q := (inject_Z (whole_number ds) * ten (p - Z.of_nat (length ds)))%Q.
Definition Reads (a : Q) (ds : list N) (p : Z) : Prop := digital ds /\ hd 0%N ds <> 0%N /\ read_as (denoted ds p) a.
(** with as few digits as possible: what [repr] of Python shows (PEP 3101, "What's new in Python 3.1") *)
Definition Shortest (a : Q) (ds : list N) (p : Z) : Prop :=
  Reads a ds p /\ forall ds' p', Reads a ds' p' -> (length ds <= length ds')%nat.

(** Texts: characters of digits; an integer part without superfluous zeros *)
Definition chars_of (ds : list N) : list N := map (fun d => 48 + d)%N ds.
Definition whole (ds : list N) : Prop := digital ds /\ (ds = [0%N] \/ hd 0%N ds <> 0%N).
(** [Plain i r q]: digits [i], then the text [r], which is a point and digits, mean [q] *)
Definition Plain (i : list N) (r : list N) (q : Q) : Prop :=
  exists f, whole i /\ digital f /\ r = 46%N :: chars_of f /\
    (q == inject_Z (whole_number i) + inject_Z (whole_number f) * ten (- Z.of_nat (length f)))%Q.
(** one digit, a fraction if needed, and a power of ten with a sign and at least two digits *)
Definition Scientific (i : list N) (r : list N) (q : Q) : Prop :=
  exists f sg e z, length i = 1%nat /\ whole i /\ Forall (fun d => (d <= 9)%N) f /\ digital e /\ (2 <= length e)%nat /\
    ((sg = 43%N /\ z = whole_number e) \/ (sg = 45%N /\ z = (- whole_number e)%Z)) /\
    r = (if f then [] else 46%N :: chars_of f) ++ 101%N :: sg :: chars_of e /\
    (q == (inject_Z (whole_number i) + inject_Z (whole_number f) * ten (- Z.of_nat (length f))) * ten z)%Q.
