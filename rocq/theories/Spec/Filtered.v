(** Specification side: replacing parts of a text, whitespace, groups of digits *)
From Coq Require Import List Arith NArith ZArith Bool.
From Verif.Spec Require Import Lexical.
Import ListNotations.
Local Open Scope N_scope.

(** [Replaced M f s out]: going from left to right, every part of [s] in [M] is replaced by its
    image, everything else is kept *)
Inductive Replaced (M : list N -> Prop) (f : list N -> list N) : list N -> list N -> Prop :=
| Rp_nil : Replaced M f [] []
| Rp_part w r out : M w -> Replaced M f r out -> Replaced M f (w ++ r) (f w ++ out)
| Rp_char c r out : (forall w r', M w -> c :: r <> w ++ r') -> Replaced M f r out -> Replaced M f (c :: r) (c :: out).

(** sequences introduced by ESC [ *)
Definition introduced (P F : N -> Prop) (w : list N) : Prop := exists p c, w = 27 :: 91 :: p ++ [c] /\ Forall P p /\ F c.
Definition sgr_sequence : list N -> Prop := introduced (fun c => rng 48 57 c \/ c = 59) (eq 109).
(** control sequences without intermediate characters that end with a letter or @ *)
Definition lettered_sequence : list N -> Prop := introduced (rng 48 63) (fun c => rng 64 90 c \/ rng 97 122 c).
(** all control sequences *)
Definition control_sequence (w : list N) : Prop := exists p i f, w = 27 :: 91 :: p ++ i ++ [f] /\ csi_tail p i f.

(** the white space of Unicode, and the separators of ASCII *)
Definition white (c : N) : Prop :=
  In c [9; 10; 11; 12; 13; 28; 29; 30; 31; 32; 0x85; 0xA0; 0x1680; 0x2000; 0x2001; 0x2002; 0x2003; 0x2004; 0x2005; 0x2006; 0x2007; 0x2008; 0x2009; 0x200A;
        0x2028; 0x2029; 0x202F; 0x205F; 0x3000].
(** every white character but a line break is replaced, line breaks are kept behind the replacement *)
Inductive Marked (repl : list N) : list N -> list N -> Prop :=
| Mk_nil : Marked repl [] []
| Mk_break s out : Marked repl s out -> Marked repl (10 :: s) (repl ++ 10 :: out)
| Mk_white c s out : white c -> c <> 10 -> Marked repl s out -> Marked repl (c :: s) (repl ++ out)
| Mk_other c s out : ~ white c -> Marked repl s out -> Marked repl (c :: s) (c :: out).

Definition no_backslash (s : list N) : Prop := ~ In 92 s.

(** digits in groups of three, counted from the right *)
Fixpoint joined (sep : list N) (l : list (list N)) : list N :=
  match l with
  | [] => []
  | [x] => x
  | x :: r => x ++ sep ++ joined sep r
  end.
Definition Grouped (sep digits out : list N) : Prop :=
  exists first more, digits = first ++ concat more /\ (1 <= length first <= 3)%nat /\ Forall (fun g => length g = 3%nat) more /\
    out = joined sep (first :: more).
