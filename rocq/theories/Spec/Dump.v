(** Specification side: reading a dump.  What a person can reconstruct from the characters of
    the rows shown in binary mode, by position. *)
From Coq Require Import List NArith ZArith Bool.
From Verif.Model Require Import Base Settings.
From Verif.Spec Require Import Numbers Terminal Display Output.
Import ListNotations.
Local Open Scope N_scope.

(** lines of a text, without the line feeds *)
Fixpoint text_lines (l : list N) : list (list N) :=
  match l with
  | [] => []
  | c :: t => if c =? 10 then [] :: text_lines t
              else match text_lines t with
                   | [] => [[c]]
                   | x :: r => (c :: x) :: r
                   end
  end.

(** hexadecimal columns: three characters each, a blank one ends the row *)
Fixpoint read_columns (n : nat) (l : list N) : list N :=
  match n, l with
  | S m, _ :: h :: d :: r => match read_number 16 [h; d] with
                             | Some b => b :: read_columns m r
                             | None => []
                             end
  | _, _ => []
  end.
(** width of the offset column with its separator *)
Definition offset_width (s : settings) : nat := if with_offsets s then 9%nat else 0%nat.
(** the rows holding data: the last one shows the total size *)
Definition data_lines (s : settings) (text : list N) : list (list N) :=
  if with_offsets s then removelast (text_lines text) else text_lines text.
Definition read_dump (s : settings) (cols : nat) (text : list N) : list N :=
  flat_map (fun l => read_columns cols (skipn (offset_width s) l)) (data_lines s text).

(** the number in the first eight characters of a row *)
Definition read_offset (s : settings) (line : list N) : option N :=
  let x := skip_blanks (firstn 8 line) in
  if s_decimal_offsets s then read_number 10 x
  else match x with
       | 48 :: 120 :: ds => read_number 16 ds
       | _ => None
       end.

(** lines of the input, each with its line feed (the last one may lack it) *)
Fixpoint byte_lines (l : list N) : list (list N) :=
  match l with
  | [] => []
  | c :: t => if c =? 10 then [c] :: byte_lines t
              else match byte_lines t with
                   | [] => [[c]]
                   | x :: r => (c :: x) :: r
                   end
  end.
(** number of line feeds, plus one if something follows the last of them *)
Fixpoint line_count (l : list N) : nat :=
  match l with
  | [] => 0
  | c :: t => if c =? 10 then S (line_count t) else match t with [] => 1%nat | _ => line_count t end
  end.
(** line [n] (counted from 0) is there and empty *)
Definition blank_at (n : nat) (l : list N) : bool := match nth_error (byte_lines l) n with Some [c] => c =? 10 | _ => false end.

(** number before the first vertical bar *)
Fixpoint before_bar (l : list N) : list N :=
  match l with
  | [] => []
  | c :: t => if c =? 0x2502 then [] else c :: before_bar t
  end.
Definition read_line_number (line : list N) : option N := read_number 10 (skip_blanks (before_bar line)).

(** offsets below this bound are shown correctly *)
Definition offset_bound (s : settings) : N := if s_decimal_offsets s then 100000000 else 1000000.

(** what becomes of an offset in the eight characters there are for it: a decimal one with more
    than eight digits loses the last of them; a hexadecimal one is written with an even number
    of digits, as many as its decimal notation has (at least four), and loses those behind the
    sixth *)
Definition Shown_offset (s : settings) (off v : N) : Prop :=
  exists k, if s_decimal_offsets s
            then off < 10 ^ (8 + k) /\ (k = 0 \/ 10 ^ (7 + k) <= off) /\ v = off / 10 ^ k
            else off < 10 ^ (6 + 2 * k) /\ (k = 0 \/ 10 ^ (4 + 2 * k) <= off) /\ v = off / 256 ^ k.
