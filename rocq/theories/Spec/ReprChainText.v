(** Specification side: what [repr] shows of the elements of the chain and of tables of colors *)
From Coq Require Import Ascii String.
From Coq Require Import List NArith ZArith.
From Verif.Model Require Import Base Segment Color Render.
From Verif.Spec Require Import Numbers Palette ReprText.
Import ListNotations.
Local Open Scope N_scope.

(** bytes: two digits each, with blanks between them *)
Definition bytes_shown (raw : bytes) (t : str) : Prop :=
  match raw with [] => t = [] | _ => Forall2 (fun b d => List.length d = 2%nat /\ read_number 16 d = Some b) raw (split_on 32 t) end.
Definition elem_shown (e : elem) (t : str) : Prop :=
  match e with
  | ESeg s => exists h, t = txt "Segment[" ++ h ++ txt "]->[" ++ seg_proc s ++ txt "]" /\ bytes_shown (seg_raw s) h
  | EStart r => exists u, t = txt "StartSequenceRef::" ++ u /\ seq_shown r u
  | EStop r => exists u, t = txt "StopSequenceRef::" ++ u /\ seq_shown r u
  | EOnce r => exists u, t = txt "OneUseSequenceRef::" ++ u /\ seq_shown r u
  end.
Definition elem_ok (e : elem) : Prop := match e with ESeg s => is_bytes (seg_raw s) | _ => True end.
(** equal except for what is not shown *)
Definition same_shown (x y : elem) : Prop :=
  match x, y with
  | ESeg s, ESeg t => seg_raw s = seg_raw t /\ seg_proc s = seg_proc t
  | _, _ => x = y
  end.
(** equal as far as [==] can tell: references to sequences are all alike *)
Definition same_or_refs (x y : elem) : Prop :=
  match x, y with
  | ESeg s, ESeg t => s = t
  | ESeg _, _ | _, ESeg _ => False
  | _, _ => True
  end.

(** what a table of colors holds after a history: the values registered, and, if something was
    looked up since the last new one, these and what was looked up since *)
Definition registered (evs : list event) (k : Z) : Prop := exists c, In (Register c) evs /\ hex_value c = Some k.
Definition nothing_new (e1 e2 : list event) : Prop := forall k, registered e2 k -> registered e1 k.
Definition cached (evs : list event) (k : Z) : Prop :=
  exists e1 e2, evs = e1 ++ e2 /\ nothing_new e1 e2 /\ (exists j, registered e1 j) /\ (exists h, In (Lookup h) e2) /\ (registered e1 k \/ In (Lookup k) e2).
(** the number of the values that satisfy [P] *)
Definition how_many (P : Z -> Prop) (n : nat) : Prop := exists l, NoDup l /\ List.length l = n /\ forall k, In k l <-> P k.
Definition table_shown (evs : list event) (t : str) : Prop :=
  exists n m, t = txt "Approximator[lookup " ++ n ++ txt ", cached " ++ m ++ txt "]" /\
    (exists i, read_number 10 n = Some (N.of_nat i) /\ how_many (registered evs) i) /\
    (exists i, read_number 10 m = Some (N.of_nat i) /\ how_many (cached evs) i).
