(** A plain queue of segments, without references to sequences and without a list of active
    sequences: what the segment buffer is meant to be.  Answers of the queue to the operations of
    [Spec/History.v]. *)
From Coq Require Import List Arith NArith ZArith Bool.
From Verif.Model Require Import Base Ansi Segment.
From Verif.Spec Require Import History.
Import ListNotations.

Inductive answer :=
| A_given (pieces : list segment)
| A_wait                 (* not enough data yet *)
| A_end                  (* nothing left *)
| A_fail.                (* a segment would have to be cut which cannot be cut *)

(** the first [n] bytes; what is behind them stays, even segments without bytes *)
Fixpoint first_bytes (n : nat) (q : list segment) : option (list segment * list segment) :=
  match n, q with
  | O, _ | _, [] => Some ([], q)
  | _, g :: t =>
      let k := length (seg_raw g) in
      if k <=? n then
        match first_bytes (n - k) t with
        | Some (p, r) => Some (g :: p, r)
        | None => None
        end
      else if k =? length (seg_proc g) then
        Some ([mkSeg (seg_open g) (seg_label g) (firstn n (seg_raw g)) (firstn n (seg_proc g))],
              mkSeg (seg_open g) (seg_label g) (skipn n (seg_raw g)) (skipn n (seg_proc g)) :: t)
      else None
  end.

(** bytes of all segments; those up to the first one that shows a line break *)
Definition held (q : list segment) : nat := length (flat_map seg_raw q).
Fixpoint up_to_break (q : list segment) : nat * bool :=
  match q with
  | [] => (O, false)
  | g :: t => if existsb (N.eqb 10) (seg_proc g) then (length (seg_raw g), true)
              else (length (seg_raw g) + fst (up_to_break t), snd (up_to_break t))%nat
  end.

Definition taken (n : nat) (q : list segment) : answer * list segment :=
  match first_bytes n q with
  | Some (p, r) => (A_given p, r)
  | None => (A_fail, q)
  end.
Definition ask (o : op) (q : list segment) : answer * list segment :=
  match o with
  | O_attach l => (A_given [], q ++ l)
  | O_bytes n force =>
      if ((Z.to_nat n <=? held q)%nat || force)%bool
      then match q with [] => (A_end, q) | _ => taken (Z.to_nat n) q end
      else (A_wait, q)
  | O_line force =>
      let (n, found) := up_to_break q in
      match n with
      | O => (A_end, q)
      | _ => if (found || force)%bool then taken n q else (A_wait, q)
      end
  end.

(** the answers up to the first failure, and what is in the queue then *)
Fixpoint ask_all (ops : list op) (q : list segment) : list answer * list segment :=
  match ops with
  | [] => ([], q)
  | o :: t => match ask o q with
              | (A_fail, q1) => ([A_fail], q1)
              | (a, q1) => let '(l, q2) := ask_all t q1 in (a :: l, q2)
              end
  end.

(** What a call of the buffer returned is that answer.  What is handed out is seen through a
    printer [fn] for segments (hexadecimal digits, characters): each piece stands between its own
    opening and closing sequence, whatever was handed out before. *)
Definition says (a : answer) (r : result (list elem)) : Prop :=
  match a, r with
  | A_given p, Ok els => queue els = p /\ forall fn, format_elems fn els = flat_map (in_format fn) p
  | A_wait, Err WaitRequest => True
  | A_end, Err EOFError => True
  | A_fail, Err BufferError => True
  | _, _ => False
  end.
(** the same for the calls of a history, up to the first failure *)
Fixpoint say (l : list answer) (rs : list (result (list elem))) : Prop :=
  match l, rs with
  | [], [] => True
  | [A_fail], r :: _ => says A_fail r
  | a :: l', r :: rs' => says a r /\ say l' rs'
  | _, _ => False
  end.
Definition positive (o : op) : Prop := match o with O_bytes n _ => (0 < n)%Z | _ => True end.
Definition failed (l : list answer) : bool := existsb (fun a => match a with A_fail => true | _ => false end) l.
