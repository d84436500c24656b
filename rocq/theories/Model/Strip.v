(** pytermor/util/string_filter.py and stdlib_ext.py *)
From Coq Require Import List NArith ZArith Bool.
From Verif.Model Require Import Base Regex.
Import ListNotations.
Local Open Scope N_scope.

(** string_filter.py:27 [SGR_REGEXP]: ESC, opening bracket, digits and semicolons, 'm'.  The group inside the
    repetition (number 4) is never referenced by the program and is left out. *)
Definition SGR_REGEXP : re :=
  rcats [ RGrp 1 (RChr 27); RGrp 2 (RChr 91); RGrp 3 (RStar [(48, 57); (59, 59)]); RGrp 5 (RChr 109) ].

(** string_filter.py:70-72 with an empty replacement: [ReplaceSGR().apply(s)] (L89-98) *)
Definition strip_sgr (s : str) : str :=
  flat_map (fun e => match e with Unmatched b => [b] | Matched _ _ => [] end) (re_scan SGR_REGEXP s).

(** stdlib_ext.py:12-20; [fillchar] is one character, [width] any int *)
Definition ljust_sgr (s : str) (width : Z) (fill : N) : str :=
  s ++ repeat fill (Z.to_nat (Z.max 0 (width - zlen (strip_sgr s)))).

(** stdlib_ext.py:23-31 *)
Definition rjust_sgr (s : str) (width : Z) (fill : N) : str :=
  repeat fill (Z.to_nat (Z.max 0 (width - zlen (strip_sgr s)))) ++ s.

(** stdlib_ext.py:34-53 *)
Definition center_sgr (s : str) (width : Z) (fill : N) : str :=
  let fill_len := Z.max 0 (width - zlen (strip_sgr s)) in
  if (fill_len =? 0)%Z then s
  else
    let right := (fill_len / 2)%Z in
    let left := (fill_len - right)%Z in
    repeat fill (Z.to_nat left) ++ s ++ repeat fill (Z.to_nat right).
