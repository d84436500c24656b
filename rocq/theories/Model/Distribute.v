(** pytermor/render.py:756-777 [distribute_padded] *)
From Coq Require Import List NArith ZArith Bool.
From Verif.Model Require Import Base.
Import ListNotations.
Local Open Scope Z_scope.

(** L758-761: the list object passed by the caller is modified *)
Definition pad_values (values : list str) (pad_before pad_after : bool) : list str :=
  (if pad_before then [[]] else []) ++ values ++ (if pad_after then [[]] else []).

(** L771-775; [gapes_amount or 1] *)
Fixpoint distribute_loop (values : list str) (gapes_amount spaces_amount : Z) : str :=
  match values with
  | [] => []
  | v :: rest =>
      let gape_len := spaces_amount / (if gapes_amount =? 0 then 1 else gapes_amount) in
      v ++ repeat 32%N (Z.to_nat gape_len)
        ++ distribute_loop rest (gapes_amount - 1) (spaces_amount - gape_len)
  end.

(** L756-777 for a list of strings.  First component: the caller's list afterwards. *)
Definition distribute_padded (values : list str) (max_len : Z) (pad_before pad_after : bool)
  : list str * result str :=
  let vs := pad_values values pad_before pad_after in
  let gapes_amount := zlen vs - 1 in
  let values_len := fold_right (fun v acc => zlen v + acc) 0 vs in
  let spaces_amount := max_len - values_len in
  (vs, if spaces_amount <? gapes_amount then Err ValueError
       else Ok (distribute_loop vs gapes_amount spaces_amount)).
