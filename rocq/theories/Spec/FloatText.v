(** Specification side: numerals with decimals and exponents *)
From Coq Require Import List NArith ZArith QArith Qabs Bool.
From Verif.Model Require Import Base.
From Verif.Spec Require Import Numbers.
Import ListNotations.
Local Open Scope Z_scope.

Definition p10 (e : Z) : Q := Qpower (10 # 1) e.
(** decimal magnitude of a positive number *)
Definition magnitude (x : Q) (e : Z) : Prop := (p10 e <= x /\ x < p10 (e + 1))%Q.

(** reading numerals as Python's [float] does: blanks, sign, digits, point, digits, e, exponent *)
Definition read_fixed (s : list N) : option Q :=
  match split_on 46 s with
  | [i] => option_map (fun a => inject_Z (Z.of_N a)) (read_number 10 i)
  | [i; f] => match read_number 10 i, read_number 10 f with
              | Some a, Some b => Some (inject_Z (Z.of_N a) + inject_Z (Z.of_N b) * p10 (- Z.of_nat (length f)))%Q
              | _, _ => None
              end
  | _ => None
  end.
Definition read_int (s : list N) : option Z :=
  match s with
  | 45%N :: t => option_map (fun a => - Z.of_N a) (read_number 10 t)
  | _ => option_map Z.of_N (read_number 10 s)
  end.
Definition read_unsigned (s : list N) : option Q :=
  match split_on 101 s with
  | [m] => read_fixed m
  | [m; x] => match read_fixed m, read_int x with
              | Some q, Some e => Some (q * p10 e)%Q
              | _, _ => None
              end
  | _ => None
  end.
Definition read_float (s : list N) : option Q :=
  match skip_blanks s with
  | 45%N :: t => option_map Qopp (read_unsigned t)
  | t => read_unsigned t
  end.

(** How a number is to be written in a given number of characters (sign not counted). *)

(** without exponent: if there are not more digits before the point than there is room, and (if
    exponents are allowed) the number is not below 0.01 *)
Definition written_plain (allow_exponent : bool) (room e : Z) : Prop :=
  e < room /\ (allow_exponent = true -> -2 <= e).
(** digits before the point *)
Definition int_digits (e : Z) : Z := Z.max 1 (e + 1).
(** length of "e" and the exponent *)
Definition exponent_len (e : Z) : Z := (if e <? 0 then 2 else 1) + Z.of_nat (length (digits 10 (Z.to_N (Z.abs e)))).

(** a number of magnitude [e] gets one more digit by rounding it to [d >= 1] decimals *)
Definition rounds_up (x : Q) (e d : Z) : Prop := 1 <= d /\ (p10 (e + 1) - (1 # 2) * p10 (- d) <= x)%Q.
Definition carries (v : Q) (room : Z) (allow_exponent : bool) : Prop :=
  exists e, magnitude (Qabs v) e /\
    ((written_plain allow_exponent room e /\ 0 <= e /\ rounds_up (Qabs v) e (room - e - 2)) \/
     (allow_exponent = true /\ ~ written_plain true room e /\ rounds_up (Qabs v / p10 e) 0 (room - exponent_len e - 2))).
(** room for the digits of a number *)
Definition room_of (v : Q) (len : Z) : Z := if Qlt_le_dec v 0 then len - 1 else len.

(** how close the shown number is to the (positive) number of magnitude [e]: the integer part
    alone or rounded to the decimals there is room for *)
Definition shown_near (q a : Q) (room e : Z) : Prop :=
  (int_digits e = room -> (Qabs (q - a) < 1)%Q) /\
  (int_digits e <> room -> (Qabs (q - a) <= (1 # 2) * p10 (- (room - int_digits e - 1)))%Q).
(** the same with an exponent *)
Definition shown_near_exp (q a : Q) (room e : Z) : Prop :=
  (room = exponent_len e + 1 -> (Qabs (q - a) < p10 e)%Q) /\
  (room <> exponent_len e + 1 -> (Qabs (q - a) <= (1 # 2) * p10 (e - (room - exponent_len e - 2)))%Q).
Definition minus_sign (v : Q) : list N := if Qlt_le_dec v 0 then [45%N] else [].

(** white space *)
Definition white (c : N) : Prop :=
  In c [32; 133; 160; 5760; 8232; 8233; 8239; 8287; 12288]%N \/ (9 <= c <= 13 \/ 28 <= c <= 31 \/ 8192 <= c <= 8202)%N.
Definition tidy (u : list N) : Prop := (forall c t, u = c :: t -> ~ white c) /\ (forall c t, u = t ++ [c] -> ~ white c).

(** * Numbers with prefixed units *)
(** how a family of prefixes is described: multiplier between neighbours, the prefixes from the
    smallest on, how many there are below the plain unit *)
Definition scaled (m : Q) (k : Z) (v : Q) : Q := (Qabs v / Qpower m k)%Q.
(** the SI prefix for the [k]-th power of 1000 *)
Definition si_letter (k : Z) : list N :=
  nth (Z.to_nat (k + 8)) [[121]; [122]; [97]; [102]; [112]; [110]; [956]; [109]; []; [107]; [77]; [71]; [84]; [80]; [69]; [90]; [89]]%N [].
