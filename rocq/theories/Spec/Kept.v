(** What is kept between two reads *)
From Coq Require Import List NArith ZArith Bool.
From Verif.Model Require Import Base Ansi Segment Parser Runner.
Import ListNotations.
Local Open Scope N_scope.

(** bytes and text in the buffer of segments *)
Definition held_bytes (l : list elem) : list N := flat_map (fun e => match e with ESeg g => seg_raw g | _ => [] end) l.
Definition held_text (l : list elem) : list N := flat_map (fun e => match e with ESeg g => seg_proc g | _ => [] end) l.

(** the bytes of the incomplete line *)
Fixpoint unfinished (l : list N) : list N :=
  match l with
  | [] => []
  | _ :: t => if existsb (N.eqb 10) l then unfinished t else l
  end.
(** the bytes of the incomplete row *)
Definition incomplete_row (n : nat) (l : list N) : list N := skipn (length l / n * n) l.
