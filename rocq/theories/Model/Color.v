(** pytermor/color.py *)
From Coq Require Import List NArith ZArith Bool.
From Verif.Model Require Import Base Ansi.
Import ListNotations.
Local Open Scope Z_scope.

(** L70-80 [Color.rgb_channels_to_hex_value] *)
Definition rgb_channels_to_hex_value (r g b : Z) : Z := Z.shiftl r 16 + Z.shiftl g 8 + b.

(** L82-99 [Color.hex_value_to_rgb_channels] for an int argument (anything else is a TypeError) *)
Definition hex_value_to_rgb_channels (hex_value : Z) : Z * Z * Z :=
  (Z.shiftr (Z.land hex_value 0xff0000) 16, Z.shiftr (Z.land hex_value 0xff00) 8,
   Z.land hex_value 0xff).

(** [f'{n:06x}']: zero padding after the sign *)
Definition fmt_06x (n : Z) : str :=
  if n <? 0 then 45%N :: fmt_hex_lo 5 (Z.to_N (- n)) else fmt_hex_lo 6 (Z.to_N n).

(** The three color classes: L143-165, L168-196, L199-212.  [None] is Python's None. *)
Inductive pcolor :=
| ColorIndexed16 (hex_value code_fg code_bg : option Z)
| ColorIndexed256 (hex_value code : option Z)
| ColorRGB (hex_value : option Z).

(** L105-107 *)
Definition hex_value (c : pcolor) : option Z :=
  match c with ColorIndexed16 h _ _ => h | ColorIndexed256 h _ => h | ColorRGB h => h end.

(** L109-112; [None] and an empty string for [prefix] behave alike *)
Definition format_value (c : pcolor) (prefix noop_label : str) : str :=
  match hex_value c with
  | None => noop_label
  | Some h => prefix ++ fmt_06x h
  end.

(** ansi.py:118-151 [SequenceSGR( code )] for one argument: an int is clamped to 0 (L42), None
    is a TypeError *)
Definition sequence_of_code (c : option Z) : result sgr :=
  match c with
  | Some n => Ok [Z.to_N n]
  | None => Err TypeError
  end.

(** [to_sgr]: color.py:149-152, 182-185, 200-204.  For a 256-color without code the range check
    compares None with an int: TypeError. *)
Definition to_sgr (c : pcolor) (bg : bool) : result sgr :=
  match c with
  | ColorIndexed16 _ fg b => sequence_of_code (if bg then b else fg)
  | ColorIndexed256 None _ => Ok []
  | ColorIndexed256 (Some _) None => Err TypeError
  | ColorIndexed256 (Some _) (Some code) => init_color_indexed code bg
  | ColorRGB None => Ok []
  | ColorRGB (Some h) =>
      let '(r, g, b) := hex_value_to_rgb_channels h in init_color_rgb r g b bg
  end.

(** color.py:325-330 *)
Definition NOOP_COLOR_INDEXED : pcolor := ColorIndexed16 None None None.
Definition NOOP_COLOR : pcolor := ColorRGB None.

(** Python dicts with int keys, in insertion order *)
Fixpoint zdict_get {A} (k : Z) (d : list (Z * A)) : option A :=
  match d with
  | [] => None
  | (k', v) :: t => if k =? k' then Some v else zdict_get k t
  end.
Fixpoint zdict_set {A} (k : Z) (v : A) (d : list (Z * A)) : list (Z * A) :=
  match d with
  | [] => [(k, v)]
  | (k', v') :: t => if k =? k' then (k', v) :: t else (k', v') :: zdict_set k v t
  end.
Definition zdict_has {A} (k : Z) (d : list (Z * A)) : bool :=
  match zdict_get k d with Some _ => true | None => false end.

(** color.py:222-229 [Approximator] *)
Record approximator := mkApprox {
  ap_lookup : list (Z * pcolor);   (* _lookup_table *)
  ap_cache : list (Z * pcolor)     (* _approximation_cache *)
}.
Definition approx_init : approximator := mkApprox [] [].

(** color.py:231-245 [add_to_map] *)
Definition add_to_map (a : approximator) (c : pcolor) : approximator :=
  match hex_value c with
  | None => a
  | Some h =>
      if zdict_has h (ap_lookup a) then a
      else mkApprox (zdict_set h c (ap_lookup a)) []
  end.

(** color.py:303-306 squared euclidean distance *)
Definition distance_sq (h1 h2 : Z) : Z :=
  let '(ir, ig, ib) := hex_value_to_rgb_channels h1 in
  let '(mr, mg, mb) := hex_value_to_rgb_channels h2 in
  (mr - ir) ^ 2 + (mg - ig) ^ 2 + (mb - ib) ^ 2.

(** [sorted(l, key=lambda r: r[1])]: stable *)
Fixpoint insert_by {A} (x : A * Z) (l : list (A * Z)) : list (A * Z) :=
  match l with
  | [] => [x]
  | y :: t => if snd x <=? snd y then x :: l else y :: insert_by x t
  end.
Fixpoint sort_by {A} (l : list (A * Z)) : list (A * Z) :=
  match l with
  | [] => []
  | x :: t => insert_by x (sort_by t)
  end.

(** color.py:275-317 [approximate] *)
Definition approximate (a : approximator) (hex : Z) (max_results : Z) : result (list pcolor) :=
  match map (fun '(h, c) => (c, distance_sq hex h)) (ap_lookup a) with
  | [] => Err LogicError
  | l => Ok (map fst (py_take max_results (sort_by l)))
  end.

(** color.py:247-273 [find_closest] *)
Definition find_closest (a : approximator) (hex : Z) : result pcolor * approximator :=
  match zdict_get hex (ap_cache a) with
  | Some c => (Ok c, a)
  | None =>
      let cache := match ap_cache a with [] => ap_lookup a | c => c end in
      let a1 := mkApprox (ap_lookup a) cache in
      match cache with
      | [] => (Ok NOOP_COLOR_INDEXED, a1)
      | _ =>
          match approximate a1 hex 1 with
          | Err e => (Err e, a1)
          | Ok [] => (Err IndexError, a1)
          | Ok (c :: _) => (Ok c, mkApprox (ap_lookup a) (zdict_set hex c cache))
          end
      end
  end.
