(** Specification side: replacement texts of regular expressions in Python (the documentation of
    [re.sub]), for a pattern with [g] groups *)
From Coq Require Import List NArith.
From Verif.Spec Require Import Lexical.
Import ListNotations.
Local Open Scope N_scope.

Inductive piece := Char (c : N) | Part (n : N).
Definition digit (c : N) : Prop := rng 48 57 c.
Definition octal_digit (c : N) : Prop := rng 48 55 c.
Definition ascii_letter (c : N) : Prop := rng 65 90 c \/ rng 97 122 c.
Definition decimal (ds : list N) : N := fold_left (fun v d => 10 * v + (d - 48)) ds 0.
Definition octal (ds : list N) : N := fold_left (fun v d => 8 * v + (d - 48)) ds 0.
(** \a \b \f \n \r \t \v \\ *)
Definition CONTROL_ESCAPES : list (N * N) := [(97, 7); (98, 8); (102, 12); (110, 10); (114, 13); (116, 9); (118, 11); (92, 92)].
Definition starts (P : N -> Prop) (s : list N) : Prop := match s with c :: _ => P c | [] => False end.

(** [Means g text pieces]: a text stands for the pieces; a text that stands for nothing is an error *)
Inductive Means (g : N) : list N -> list piece -> Prop :=
| Me_nil : Means g [] []
| Me_char c r l : c <> 92 -> Means g r l -> Means g (c :: r) (Char c :: l)
(** \g<number> *)
| Me_named ds r l : ds <> [] -> Forall digit ds -> decimal ds <= g -> Means g r l -> Means g (92 :: 103 :: 60 :: ds ++ 62 :: r) (Part (decimal ds) :: l)
(** \0 and up to two octal digits, as many as there are *)
| Me_zero ds r l : (length ds <= 2)%nat -> Forall octal_digit ds -> (length ds = 2%nat \/ ~ starts octal_digit r) -> Means g r l ->
    Means g (92 :: 48 :: ds ++ r) (Char (octal ds) :: l)
(** three octal digits *)
| Me_octal a b c r l : octal_digit a -> a <> 48 -> octal_digit b -> octal_digit c -> octal [a; b; c] <= 255 -> Means g r l ->
    Means g (92 :: a :: b :: c :: r) (Char (octal [a; b; c]) :: l)
(** otherwise one or two digits are the number of a group *)
| Me_one a r l : digit a -> a <> 48 -> ~ starts digit r -> decimal [a] <= g -> Means g r l -> Means g (92 :: a :: r) (Part (decimal [a]) :: l)
| Me_two a b r l : digit a -> a <> 48 -> digit b -> ~ (octal_digit a /\ octal_digit b /\ starts octal_digit r) -> decimal [a; b] <= g -> Means g r l ->
    Means g (92 :: a :: b :: r) (Part (decimal [a; b]) :: l)
| Me_escape c x r l : In (c, x) CONTROL_ESCAPES -> Means g r l -> Means g (92 :: c :: r) (Char x :: l)
(** before any other character that is no letter a backslash is kept *)
| Me_kept c r l : ~ ascii_letter c -> ~ digit c -> c <> 92 -> Means g r l -> Means g (92 :: c :: r) (Char 92 :: Char c :: l).

(** pieces put together, for the parts of what is replaced *)
Definition filled (part : N -> list N) (l : list piece) : list N := concat (map (fun p => match p with Char c => [c] | Part n => part n end) l).

(** the parts of a sequence ESC [ parameters final: the whole, ESC, the bracket, the parameters, the
    last character of the parameters, the final character *)
Definition sequence_part (w : list N) (n : N) : list N :=
  let params := removelast (skipn 2 w) in
  nth (N.to_nat n) [w; [27]; [91]; params; match params with [] => [] | _ => [last params 0] end; [last w 0]] [].
(** the parts of a white character: itself, the line break if it is one *)
Definition white_part (w : list N) (n : N) : list N :=
  match n with 0 => w | 1 => match w with [10] => w | _ => [] end | _ => [] end.
