(** Specification side: what a text about a duration says *)
From Coq Require Import List NArith ZArith QArith Qabs Bool.
From Verif.Model Require Import Base TimeDelta.
Import ListNotations.
Local Open Scope Z_scope.

(** A scale of units, smallest first: long name, short name, how many of them make one of the
    next (None for the last one) *)
Definition scale := list (list N * list N * option Z).

(** the size of the [i]-th unit in units of the first one *)
Fixpoint size_of (s : scale) (i : nat) : Z :=
  match i, s with
  | O, _ => 1
  | S i', (_, _, Some r) :: rest => r * size_of rest i'
  | S _, _ => 1
  end.

(** [Says s plural gap text lo hi]: the text names an amount [x] with [lo <= x < hi], counted in
    the first unit.  Either a count of one unit: *)
Inductive Says (s : scale) (plural gap : list N) : list N -> Z -> Z -> Prop :=
| says_one i long short next n :
    nth_error s i = Some (long, short, next) ->
    1 <= n -> (forall r, next = Some r -> n < r) ->
    Says s plural gap (dec (Z.to_N n) ++ gap ++ long ++ (if n =? 1 then [] else plural))
         (n * size_of s i) ((n + 1) * size_of s i)
(** or a count of one unit, and the rest in the unit below it: *)
| says_two i long short next long' short' r n m :
    nth_error s (S i) = Some (long, short, next) ->
    nth_error s i = Some (long', short', Some r) ->
    1 <= n -> 0 <= m < r ->
    Says s plural gap (dec (Z.to_N n) ++ short ++ gap ++ dec (Z.to_N m) ++ short')
         (n * size_of s (S i) + m * size_of s i) (n * size_of s (S i) + (m + 1) * size_of s i).

(** The four documented lengths: their units, separator, plural suffix, the first amount (in
    seconds) that is too large, the text shown then, and whether the sign is shown *)
Definition scale3 : scale :=
  [([115], [115], Some 60%Z); ([109], [109], Some 60%Z); ([104], [104], Some 24%Z); ([100], [100], None)]%N.
Definition scale4 : scale :=
  [([115], [115], Some 60%Z); ([109], [109], Some 60%Z); ([104], [104], Some 24%Z); ([100], [100], Some 30%Z);
   ([77], [77], Some 12%Z); ([121], [121], None)]%N.
Definition scale6 : scale :=
  [([115;101;99], [115], Some 60%Z); ([109;105;110], [109], Some 60%Z); ([104;114], [104], Some 24%Z);
   ([100;97;121], [100], Some 30%Z); ([109;111;110], [109], Some 12%Z); ([121;114], [121], None)]%N.
Definition scale10 : scale :=
  [([115;101;99], [115], Some 60%Z); ([109;105;110], [109;105;110], Some 60%Z); ([104;111;117;114], [104], Some 24%Z);
   ([100;97;121], [100], Some 30%Z); ([109;111;110;116;104], [109], Some 12%Z); ([121;101;97;114], [121], None)]%N.

Record look := mkLook { lk_len : Z; lk_scale : scale; lk_gap : list N; lk_plural : list N;
                        lk_limit : Z; lk_too_large : list N; lk_signed : bool }.
Definition day : Z := 86400.
Definition year : Z := 360 * day.
Definition look3 : look := mkLook 3 scale3 [] [] (100 * day) [69; 82; 82]%N false.
Definition look4 : look := mkLook 4 scale4 [32%N] [] (100 * year) [69; 82; 82; 79]%N false.
Definition look6 : look := mkLook 6 scale6 [32%N] [] (100 * year) [79; 86; 69; 82; 70; 76]%N false.
Definition look10 : look := mkLook 10 scale10 [32%N] [115%N] (1000 * year) [79; 86; 69; 82; 70; 76; 79; 87]%N true.

(** the longest documented look within a length *)
Definition look_for (max_len : Z) : look :=
  if 10 <=? max_len then look10 else if 6 <=? max_len then look6 else if 4 <=? max_len then look4 else look3.

(** with no length given the longest one is used *)
Definition wanted (max_len : option Z) : Z := match max_len with Some n => n | None => 10 end.
Definition first_word (l : look) : list N := match lk_scale l with (w, _, _) :: _ => w | [] => [] end.

(** Reading off a formatter's settings *)
Definition gap (f : td_config) : list N := match td_separator f with Some s => s | None => [] end.
Definition plu (f : td_config) : list N := match td_plural f with Some p => p | None => [] end.
Definition shrt (u : time_unit) : list N :=
  match u_custom_short u with Some (c :: s) => c :: s | _ => firstn 1 (u_name u) end.
Definition ratio (u : time_unit) : option Z :=
  match u_in_next u with Some 0 => None | r => r end.
Definition scale_of (units : list time_unit) : scale := map (fun u => (u_name u, shrt u, ratio u)) units.

(** sensible settings: names, positive ratios; the smallest unit has no limit and is not
    combined with a smaller one *)
Definition good_unit (u : time_unit) : Prop :=
  u_name u <> [] /\ (forall r, u_in_next u = Some r -> 0 < r).
Definition good_config (f : td_config) : Prop :=
  Forall good_unit (td_units f) /\
  match td_units f with
  | u :: _ => u_collapsible_after u = None /\ int_on (u_overflow_after u) = None
  | [] => True
  end.

(** the float 1e-03 *)
Definition thousandth : Q := 1152921504606847 # 1152921504606846976.
