(** SGR parameter lists made of supported codes, and the attribute groups they set *)
From Coq Require Import List NArith Bool.
From Verif.Spec Require Import Terminal.
Import ListNotations.
Local Open Scope N_scope.

Inductive group := G_fg | G_bg | G_weight | G_italic | G_under | G_blink | G_inverse | G_hidden | G_cross | G_over.

(** [same g a b]: the attributes of group [g] agree.  Bold and dim form one group, since both
    are switched off by the same code. *)
Definition same (g : group) (a b : attrs) : Prop :=
  match g with
  | G_fg => a_fg a = a_fg b
  | G_bg => a_bg a = a_bg b
  | G_weight => a_bold a = a_bold b /\ a_dim a = a_dim b
  | G_italic => a_italic a = a_italic b
  | G_under => a_under a = a_under b
  | G_blink => a_blink a = a_blink b
  | G_inverse => a_inverse a = a_inverse b
  | G_hidden => a_hidden a = a_hidden b
  | G_cross => a_cross a = a_cross b
  | G_over => a_over a = a_over b
  end.

(** an attribute-setting code or an extended color *)
Inductive item :=
| I_code (c : N)
| I_indexed (bg : bool) (n : N)
| I_rgb (bg : bool) (r g b : N).

(** the group a plain code sets; [None] for codes that set nothing (resets, unknown) *)
Definition code_group (c : N) : option group :=
  if (c =? 1) || (c =? 2) then Some G_weight
  else if c =? 3 then Some G_italic
  else if (c =? 4) || (c =? 21) then Some G_under
  else if (c =? 5) || (c =? 6) then Some G_blink
  else if c =? 7 then Some G_inverse
  else if c =? 8 then Some G_hidden
  else if c =? 9 then Some G_cross
  else if c =? 53 then Some G_over
  else if between 30 c 37 || between 90 c 97 then Some G_fg
  else if between 40 c 47 || between 100 c 107 then Some G_bg
  else None.

Definition item_group (i : item) : option group :=
  match i with
  | I_code c => code_group c
  | I_indexed bg _ => Some (if bg then G_bg else G_fg)
  | I_rgb bg _ _ _ => Some (if bg then G_bg else G_fg)
  end.

Definition item_params (i : item) : list N :=
  match i with
  | I_code c => [c]
  | I_indexed bg n => [if bg then 48 else 38; 5; n]
  | I_rgb bg r g b => [if bg then 48 else 38; 2; r; g; b]
  end.

(** [Supported p items]: the parameter list [p] consists of these items *)
Definition Supported (p : list N) (items : list item) : Prop :=
  p = flat_map item_params items /\ Forall (fun i => item_group i <> None) items.

Definition touches (items : list item) (g : group) : Prop := exists i, In i items /\ item_group i = Some g.
