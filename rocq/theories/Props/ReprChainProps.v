(** C106: equality and [repr] of segments and references to sequences, [repr] of tables of colors *)
From Coq Require Import Ascii String.
From Coq Require Import List NArith ZArith Bool.
From Verif.Model Require Import Base Ansi Segment Color Render Repr ReprChain.
From Verif.Spec Require Import Palette ReprText ReprChainText.
From Verif.Proof Require Import ReprChainClaims.
Import ListNotations.
Local Open Scope N_scope.

(** ** C106 *)

(** Shown are the bytes and the text of a segment; the kind and the codes of a reference. *)
Theorem C106_shown : forall e, elem_ok e -> elem_shown e (repr_elem e).
Proof. exact elem_text. Qed.
Print Assumptions C106_shown.
Theorem C106_apart_partial : forall x y, repr_elem x = repr_elem y <-> same_shown x y.
Proof. exact elems_apart. Qed.
Print Assumptions C106_apart_partial.
(** Equal are segments that agree in everything, and any two references. *)
Theorem C106_equal_partial : forall x y, elem_eqb x y = true <-> same_or_refs x y.
Proof. exact elem_eq. Qed.
Print Assumptions C106_equal_partial.
Theorem C106_equal_refuted : exists x y, elem_eqb x y = true /\ repr_elem x <> repr_elem y.
Proof. exact refs_alike. Qed.
Print Assumptions C106_equal_refuted.
Theorem C106_apart_refuted : exists s t, elem_eqb (ESeg s) (ESeg t) = false /\ repr_elem (ESeg s) = repr_elem (ESeg t).
Proof. exact segments_alike. Qed.
Print Assumptions C106_apart_refuted.

(** A table of colors shows how many values are registered, and how many are cached: none after
    a new one was registered, otherwise all registered ones and what was looked up since. *)
Theorem C106_table : forall evs, table_shown evs (repr_approximator (after evs approx_init)).
Proof. exact table_text. Qed.
Print Assumptions C106_table.

Example C106_example : repr_elem (ESeg (mkSeg [31] (txt "E") [27; 91] (txt "]->["))) = txt "Segment[1b 5b]->[]->[]" /\ elem_ok (ESeg (mkSeg [31] (txt "E") [27; 91] (txt "]->["))) /\
  repr_elem (EOnce []) = txt "OneUseSequenceRef::SGR[~]" /\
  repr_approximator (after [Register (ColorRGB (Some 255%Z)); Lookup 3; Register (ColorRGB (Some 1%Z)); Register (ColorRGB (Some 255%Z)); Lookup 7; Lookup 1; Lookup 7] approx_init) = txt "Approximator[lookup 2, cached 3]".
Proof. exact chain_example. Qed.
Print Assumptions C106_example.
