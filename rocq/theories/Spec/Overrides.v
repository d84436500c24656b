(** Specification side: values overridden for some keys *)
From Coq Require Import List Bool.
From Verif.Model Require Import Settings.
Import ListNotations.

(** [Latest h k v]: [v] is the value given last for [k] in the history [h] *)
Definition Latest {A} (h : list (mode_key * A)) (k : mode_key) (v : A) : Prop :=
  exists l r, h = l ++ (k, v) :: r /\ forall w, ~ In (k, w) r.
(** [Chosen d h keys v]: [v] is the latest value of the first of the keys which has one, else [d] *)
Inductive Chosen {A} (d : A) (h : list (mode_key * A)) : list mode_key -> A -> Prop :=
| Ch_none keys : (forall k w, In k keys -> ~ In (k, w) h) -> Chosen d h keys d
| Ch_first l k r v : (forall k' w, In k' l -> ~ In (k', w) h) -> Latest h k v -> Chosen d h (l ++ k :: r) v.
