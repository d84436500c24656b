(** The fragment of Python's [re] used by the program: character classes,
    concatenation, ordered alternation, greedy repetition of a class, capture
    groups.  Matching is the backtracking semantics of CPython's engine: the
    first alternative / longest repetition for which the rest of the pattern
    also matches. *)
From Coq Require Import List Arith NArith Bool.
From Verif.Model Require Import Base.
Import ListNotations.
Local Open Scope N_scope.

(** set of inclusive ranges *)
Definition cls := list (N * N).
Definition in_cls (c : cls) (b : N) : bool :=
  existsb (fun r => (fst r <=? b) && (b <=? snd r)) c.

Inductive re :=
| REps
| RCls (c : cls)
| RCat (a b : re)
| RAlt (a b : re)
| RStar (c : cls)          (* greedy [...]* *)
| RGrp (i : nat) (a : re). (* capture group number i (1-based, as in Match.group) *)

(** x+ *)
Definition RPlus (c : cls) : re := RCat (RCls c) (RStar c).
(** single character *)
Definition RChr (b : N) : re := RCls [(b, b)].
Definition rcats (l : list re) : re := fold_right RCat REps l.

(** captured groups, innermost-last first *)
Definition caps := list (nat * bytes).

(** greedy class repetition followed by [k], with backtracking *)
Fixpoint star_k {A} (c : cls) (s : bytes) (k : bytes -> option A) : option A :=
  match s with
  | [] => k []
  | b :: t =>
      if in_cls c b then
        match star_k c t k with
        | Some r => Some r
        | None => k s
        end
      else k s
  end.

Fixpoint mt {A} (r : re) (s : bytes) (g : caps) (k : bytes -> caps -> option A) : option A :=
  match r with
  | REps => k s g
  | RCls c => match s with
              | b :: t => if in_cls c b then k t g else None
              | [] => None
              end
  | RCat a b => mt a s g (fun s' g' => mt b s' g' k)
  | RAlt a b => match mt a s g k with Some x => Some x | None => mt b s g k end
  | RStar c => star_k c s (fun s' => k s' g)
  | RGrp i a => mt a s g (fun s' g' => k s' ((i, firstn (length s - length s')%nat s) :: g'))
  end.

(** [pattern.match(s)]: captures and the unconsumed rest *)
Definition re_match (r : re) (s : bytes) : option (caps * bytes) :=
  mt r s [] (fun s' g => Some (g, s')).

(** one step of [pattern.sub]: either an unmatched unit that is copied to the
    result, or a match (its captures and the whole matched text) handed to the callback *)
Inductive sub_ev :=
| Unmatched (b : N)
| Matched (g : caps) (whole : bytes).

(** Left-to-right scan done by [pattern.sub(repl, s)].  Empty matches (which none of
    the modelled patterns can produce) are treated as no match; [length s] is enough fuel. *)
Fixpoint re_scan_fuel (fuel : nat) (r : re) (s : bytes) : list sub_ev :=
  match fuel with
  | O => []
  | S f =>
      match s with
      | [] => []
      | b :: t =>
          match re_match r s with
          | Some (g, s') =>
              if (length s' <? length s)%nat
              then Matched g (firstn (length s - length s')%nat s) :: re_scan_fuel f r s'
              else Unmatched b :: re_scan_fuel f r t
          | None => Unmatched b :: re_scan_fuel f r t
          end
      end
  end.
Definition re_scan (r : re) (s : bytes) : list sub_ev := re_scan_fuel (length s) r s.

(** [m.group(i)]: [None] if the group did not take part *)
Fixpoint group (i : nat) (g : caps) : option bytes :=
  match g with
  | [] => None
  | (j, w) :: t => if Nat.eqb i j then Some w else group i t
  end.
