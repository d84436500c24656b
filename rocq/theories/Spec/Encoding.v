(** Text streams with strict error handling, as the standard output of Python is: a character
    without an encoding is an error *)
From Coq Require Import List NArith Bool.
From Verif.Spec Require Import Utf8.
Import ListNotations.
Local Open Scope N_scope.

(** some encoding of single characters; [None]: [UnicodeEncodeError] *)
Definition codec := N -> option (list N).
Fixpoint encoded (e : codec) (text : list N) : option (list N) :=
  match text with
  | [] => Some []
  | c :: r => match e c, encoded e r with Some a, Some b => Some (a ++ b) | _, _ => None end
  end.

Definition utf_8 : codec := fun c => if (c <? 0xD800) || ((0xE000 <=? c) && (c <? 0x110000)) then Some (utf8_encode c) else None.
Definition latin_1 : codec := fun c => if c <? 0x100 then Some [c] else None.

(** Arguments that are not UTF-8: Python keeps the byte [b] as the lone surrogate [0xDC00 + b] *)
Definition from_bytes (c : N) : Prop := scalar c \/ (0xDC80 <= c /\ c <= 0xDCFF).
