(** Specification side: notations used in the details of markers, by what reading them gives. *)
From Coq Require Import List NArith Bool.
From Verif.Model Require Import Settings.
From Verif.Spec Require Import Numbers Terminal Lexical Display.
Import ListNotations.
Local Open Scope N_scope.

(** details of the generic control character [b]: none, its caret-notation letter, its value as
    two hexadecimal digits *)
Definition ControlDetails (l : level) (b : N) (d : list N) : Prop :=
  match l with
  | L_none => d = []
  | L_brief => d = [b + 64]
  | L_full => length d = 2%nat /\ read_number 16 d = Some b
  end.

(** the letter for a foreground or background color *)
Definition ground_letter (c l : N) : Prop := c = 38 /\ l = 70 \/ c = 48 /\ l = 66.
Definition ext_color (codes : list N) : Prop :=
  exists c r, (c = 38 \/ c = 48) /\ ((exists n, codes = c :: 5 :: n :: r) \/ exists x y z, codes = c :: 2 :: x :: y :: z :: r).
(** [Names codes names]: the brief notations of the codes of an SGR sequence *)
Inductive Names : list N -> list (list N) -> Prop :=
| Names_nil : Names [] []
| Names_indexed c l n d rest ns :
    ground_letter c l -> read_number 10 d = Some n -> Names rest ns ->
    Names (c :: 5 :: n :: rest) ((l :: d) :: ns)
| Names_rgb c l r g b h rest ns :
    ground_letter c l -> read_number 16 h = Some (r * 65536 + g * 256 + b) ->
    (r < 256 -> g < 256 -> b < 256 -> length h = 6%nat) -> Names rest ns ->
    Names (c :: 2 :: r :: g :: b :: rest) ((l :: h) :: ns)
| Names_code c d rest ns :
    ~ ext_color (c :: rest) -> read_number 10 d = Some c -> Names rest ns ->
    Names (c :: rest) (d :: ns).

(** names with dots in between *)
Fixpoint dotted (names : list (list N)) : list N :=
  match names with
  | [] => []
  | [n] => n
  | n :: rest => n ++ 0xFF65 :: dotted rest
  end.

(** the attributes an SGR of the input must not have an influence on (besides underlining) *)
Definition protected (a b : attrs) : Prop :=
  a_bold a = a_bold b /\ a_blink a = a_blink b /\ a_inverse a = a_inverse b /\ a_hidden a = a_hidden b.

(** pieces whose segments account for all of their bytes in text mode: not a run of control
    characters with details, not an escape sequence without details *)
Definition keeps_bytes (s : settings) (k : kind) : bool :=
  match k with
  | K_run R_control => match marker_level s with L_none => true | _ => false end
  | _ => negb (is_escape_seq k) || s_ignore s (class_of k) || match marker_level s with L_none => false | _ => true end
  end.

(** the sign that marks an escape sequence *)
Inductive SeqMarker : kind -> N -> Prop :=
| SM_reset p i : p = [] \/ p = [48] -> SeqMarker (K_csi p i 109) 0x3B8
| SM_sgr p i : p <> [] -> p <> [48] -> SeqMarker (K_csi p i 109) 0x1DD
| SM_csi p i f : f <> 109 -> SeqMarker (K_csi p i f) 0x3FD
| SM_nF : SeqMarker K_nF 0xA7FB
| SM_Fp : SeqMarker K_Fp 0xA7FC
| SM_Fe : SeqMarker K_Fe 0x18E
| SM_Fs : SeqMarker K_Fs 0xA644.

(** the bytes recorded in the segments of a piece in text mode: for a run of control characters
    with details as many zero bytes as the sum of its values, for an escape sequence without
    details its first byte, otherwise the bytes of the piece *)
Definition recorded (s : settings) (k : kind) (w : list N) : list N :=
  if keeps_bytes s k then w
  else match k with
       | K_run _ => flat_map (fun b => repeat 0 (N.to_nat b)) w
       | _ => firstn 1 w
       end.
