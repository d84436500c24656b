(** Histories of calls on a segment buffer, and the bytes that go in and come out.  Only the
    public operations of the buffer are used. *)
From Coq Require Import List NArith ZArith Bool.
From Verif.Model Require Import Base Ansi Segment.
Import ListNotations.

Inductive op :=
| O_attach (l : list segment)
| O_bytes (n : Z) (force : bool)
| O_line (force : bool).

Definition do_op (o : op) (b : sbuf) : result (list elem) * sbuf :=
  match o with
  | O_attach l => (Ok [], attach b l)
  | O_bytes n f => detach_bytes b n f
  | O_line f => detach_line b f
  end.
Fixpoint history (ops : list op) (b : sbuf) : list (result (list elem)) * sbuf :=
  match ops with
  | [] => ([], b)
  | o :: t => let '(r, b1) := do_op o b in let '(rs, b2) := history t b1 in (r :: rs, b2)
  end.

(** bytes carried by chain elements *)
Definition bytes_in (l : list elem) : bytes := flat_map (fun e => match e with ESeg g => seg_raw g | _ => [] end) l.
Definition handed_out (rs : list (result (list elem))) : bytes :=
  flat_map (fun r => match r with Ok l => bytes_in l | Err _ => [] end) rs.
Definition attached (ops : list op) : bytes :=
  flat_map (fun o => match o with O_attach l => flat_map seg_raw l | _ => [] end) ops.

(** the segments used in a history are one-to-one (as many characters as bytes) *)
Definition one_to_one (ops : list op) : Prop :=
  Forall (fun o => match o with O_attach l => Forall (fun g => length (seg_raw g) = length (seg_proc g)) l | _ => True end) ops.
(** only lines are taken *)
Definition lines_only (ops : list op) : Prop :=
  Forall (fun o => match o with O_bytes _ _ => False | _ => True end) ops.

(** the segments in a chain, in order *)
Definition queue (l : list elem) : list segment := flat_map (fun e => match e with ESeg g => [g] | _ => [] end) l.
(** a segment that shows a line break *)
Definition breaks (g : segment) : Prop := In 10%N (seg_proc g).

(** segments handed out and attached in a history *)
Definition segments_out (rs : list (result (list elem))) : list segment :=
  flat_map (fun r => match r with Ok l => queue l | Err _ => [] end) rs.
Definition segments_in (ops : list op) : list segment :=
  flat_map (fun o => match o with O_attach l => l | _ => [] end) ops.
(** a segment between its opening and closing sequences *)
Definition in_format (fn : segment -> str) (g : segment) : str :=
  if forallb (N.eqb 0) (seg_open g) then fn g
  else assemble (seg_open g) ++ fn g ++ assemble (closing_seq (seg_open g)).
