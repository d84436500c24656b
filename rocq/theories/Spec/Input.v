(** Specification side: what part of the input is processed.

    The vocabulary is that of the environment (results of read calls, [read_ev]) and of what can
    be observed of the reader (the list of its actions, [action]). *)
From Coq Require Import List NArith ZArith Bool.
From Verif.Model Require Import Base Settings Reader.
Import ListNotations.
Local Open Scope N_scope.

(** data provided before the first read that does not return any, and what happens then *)
Inductive ending := At_eof | At_interrupt | At_failure.
Fixpoint provided (evs : list read_ev) : list (list N) :=
  match evs with
  | RData (b :: l) :: r => (b :: l) :: provided r
  | _ => []
  end.
Fixpoint ending_of (evs : list read_ev) : ending :=
  match evs with
  | RData (_ :: _) :: r => ending_of r
  | RInterrupt :: _ => At_interrupt
  | RFailure :: _ => At_failure
  | _ => At_eof
  end.

(** what precedes the n-th line feed (everything if there are fewer) *)
Fixpoint before_line (n : nat) (l : list N) : list N :=
  match l with
  | [] => []
  | b :: t => if b =? 10 then match n with
                              | S (S m) => b :: before_line (S m) t
                              | _ => []
                              end
              else b :: before_line n t
  end.

(** a limit that is absent or 0 does not limit *)
Definition no_limit (l : option Z) : Prop := l = None \/ l = Some 0%Z.
Definition limit_is (l : option Z) (n : nat) : Prop := l = Some (Z.of_nat n) /\ (0 < n)%nat.

(** [Limited max_bytes max_lines data d]: [d] is the part of [data] within the limits *)
Inductive Limited : option Z -> option Z -> list N -> list N -> Prop :=
| Lim_none mb ml data : no_limit mb -> no_limit ml -> Limited mb ml data data
| Lim_bytes mb ml b data : limit_is mb b -> no_limit ml -> Limited mb ml data (firstn b data)
| Lim_lines mb ml l data : no_limit mb -> limit_is ml l -> Limited mb ml data (before_line l data)
| Lim_both mb ml b l data : limit_is mb b -> limit_is ml l -> Limited mb ml data (firstn b (before_line l data)).

(** a limit is reached by the data: reading stops there whatever follows *)
Inductive Stops (mb ml : option Z) (data : list N) : Prop :=
| Stop_bytes b d : limit_is mb b -> Limited mb ml data d -> length d = b -> Stops mb ml data
| Stop_lines l : limit_is ml l -> (l <= length (filter (N.eqb 10) data))%nat -> Stops mb ml data.

(** the first [n] bytes of data that comes in chunks *)
Fixpoint first_bytes (n : nat) (chunks : list (list N)) : list (list N) :=
  match chunks with
  | [] => []
  | c :: r => if (length c <=? n)%nat then c :: first_bytes (n - length c) r else [firstn n c]
  end.

(** calls of the callback among the actions: data, offset, last one *)
Fixpoint calls (l : list action) : list (list N * Z * bool) :=
  match l with
  | [] => []
  | ACall raw off fin :: r => (raw, off, fin) :: calls r
  | _ :: r => calls r
  end.
Definition call_data (c : list N * Z * bool) : list N := fst (fst c).
Definition call_offset (c : list N * Z * bool) : Z := snd (fst c).
Definition call_last (c : list N * Z * bool) : bool := snd c.
Definition data_of (l : list action) : list N := flat_map call_data (calls l).

(** input that can be opened: stdin or a regular (seekable) file *)
Definition opens (src : source) : Prop := src = SrcStdin \/ src = SrcFile true.
(** the chunks of the input that have to be processed: those within the limits *)
Definition Processed (s : settings) (evs : list read_ev) (chunks : list (list N)) : Prop :=
  Forall is_bytes (provided evs) /\
  exists d, Limited (s_max_bytes s) (s_max_lines s) (concat (provided evs)) d /\ chunks = first_bytes (length d) (provided evs).

(** reading ends with the input or at a limit *)
Definition Finishes (s : settings) (evs : list read_ev) : Prop :=
  ending_of evs = At_eof \/ Stops (s_max_bytes s) (s_max_lines s) (concat (provided evs)).

(** The calls are contiguous: each offset is the number of bytes passed before; only the last
    call may be marked as last *)
Inductive Contiguous : Z -> list (list N * Z * bool) -> Prop :=
| Ct_nil off : Contiguous off []
| Ct_last raw off : Contiguous off [(raw, off, true)]
| Ct_more raw off r : Contiguous (off + zlen raw)%Z r -> Contiguous off ((raw, off, false) :: r).

(** the input is not opened again, and closed at the very end, unless processing hangs *)
Definition closes (acts : list action) (en : reader_end) : Prop :=
  (forall a, In a acts -> a <> AOpen) /\
  match en with
  | RHang => ~ In AClose acts
  | _ => exists l, acts = l ++ [AClose] /\ ~ In AClose l
  end.

(** a receiver of the data that always returns normally *)
Definition returns {St} (cb : St -> bytes -> Z -> bool -> St * cb_res) : Prop := forall st raw off fin, snd (cb st raw off fin) = CbOk.
