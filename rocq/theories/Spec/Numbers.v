(** Reading numbers back: positional notation, independent of how they are printed. *)
From Coq Require Import List NArith Bool.
Import ListNotations.
Local Open Scope N_scope.

(** value of a digit sequence, most significant first *)
Definition num_value (base : N) (ds : list N) : N := fold_left (fun a d => a * base + d) ds 0.

(** value of an ASCII digit: 0-9, a-f, A-F *)
Definition digit_value (c : N) : option N :=
  if (48 <=? c) && (c <=? 57) then Some (c - 48)
  else if (97 <=? c) && (c <=? 102) then Some (c - 87)
  else if (65 <=? c) && (c <=? 70) then Some (c - 55)
  else None.

Fixpoint digit_values (s : list N) : option (list N) :=
  match s with
  | [] => Some []
  | c :: t => match digit_value c, digit_values t with
              | Some d, Some ds => Some (d :: ds)
              | _, _ => None
              end
  end.

(** reads a numeral; [None] if empty, not a numeral, or a digit is too big for the base *)
Definition read_number (base : N) (s : list N) : option N :=
  match s with
  | [] => None
  | _ => match digit_values s with
         | Some ds => if forallb (fun d => d <? base) ds then Some (num_value base ds) else None
         | None => None
         end
  end.

(** drop leading blanks *)
Fixpoint skip_blanks (s : list N) : list N :=
  match s with
  | 32 :: t => skip_blanks t
  | _ => s
  end.
