(** Equality and [__repr__] of the elements of the chain, [__repr__] of the tables of colors *)
From Coq Require Import Ascii String.
From Coq Require Import List NArith ZArith Bool.
From Verif.Model Require Import Base Ansi Segment Color Render Repr.
Import ListNotations.
Local Open Scope N_scope.

(** kolombos/byteio/segment/segment.py:59-66 *)
Definition seg_eqb (s t : segment) : bool :=
  eqb_list (seg_open s) (seg_open t) && eqb_list (seg_label s) (seg_label t) && eqb_list (seg_raw s) (seg_raw t) && eqb_list (seg_proc s) (seg_proc t).
(** the same and sequence_ref.py:28-31 for any two elements *)
Definition elem_eqb (x y : elem) : bool :=
  match x, y with
  | ESeg s, ESeg t => seg_eqb s t
  | ESeg _, _ | _, ESeg _ => false
  | EStart a, EStart b | EStart a, EStop b | EStart a, EOnce b | EStop a, EStart b | EStop a, EStop b | EStop a, EOnce b
  | EOnce a, EStart b | EOnce a, EStop b | EOnce a, EOnce b => seqref_eqb a b
  end.

(** segment.py:68-69; [bytes.hex(" ")] *)
Definition repr_segment (s : segment) : str :=
  txt "Segment" ++ txt "[" ++ join [32] (map (fmt_hex_lo 2) (seg_raw s)) ++ txt "]->[" ++ seg_proc s ++ txt "]".
(** sequence_ref.py:33-34 with the names of the classes at L37-46 *)
Definition repr_elem (e : elem) : str :=
  match e with
  | ESeg s => repr_segment s
  | EStart r => txt "StartSequenceRef" ++ txt "::" ++ repr_seq r
  | EStop r => txt "StopSequenceRef" ++ txt "::" ++ repr_seq r
  | EOnce r => txt "OneUseSequenceRef" ++ txt "::" ++ repr_seq r
  end.

(** pytermor/color.py:319-322 *)
Definition repr_approximator (a : approximator) : str :=
  txt "Approximator" ++ txt "[" ++ txt "lookup " ++ dec (N.of_nat (List.length (ap_lookup a))) ++ txt ", " ++
  txt "cached " ++ dec (N.of_nat (List.length (ap_cache a))) ++ txt "]".
