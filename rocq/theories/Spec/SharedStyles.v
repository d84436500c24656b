(** Specification side: styles shared by texts *)
From Coq Require Import List ZArith.
From Verif.Model Require Import Base Color Presets ColorNames Render StyleMemory.
From Verif.Spec Require Import Styles.
Import ListNotations.

(** what an action of a program does to the style number [i] *)
Definition changes_of (i : nat) (o : mem_op) : list change :=
  match o with M_change j c => if Nat.eqb j i then [c] else [] | _ => [] end.
(** the color an argument stands for *)
Definition stands_for (a : color_arg) (c : pcolor) : Prop :=
  match a with
  | CA_none => c = ColorRGB None
  | CA_color x => c = x
  | CA_int h => c = ColorRGB (Some h)
  | CA_name n => names (map (fun p => (txt (fst p), snd p)) color_names) n c
  end.
Definition value_of (s : style) (a : attr) : option bool :=
  match a with
  | AT_blink => st_blink s | AT_bold => st_bold s | AT_crosslined => st_crosslined s | AT_dim => st_dim s
  | AT_double_underlined => st_double_underlined s | AT_inversed => st_inversed s | AT_italic => st_italic s
  | AT_overlined => st_overlined s | AT_underlined => st_underlined s
  end.
Definition same_values_but_colors (s s' : style) : Prop := (forall a, value_of s' a = value_of s a) /\ st_class_name s' = st_class_name s.
Definition same_colors (s s' : style) : Prop := st_fg s' = st_fg s /\ st_bg s' = st_bg s.
(** what a change makes of a style *)
Definition effect (s : style) (c : change) (s' : style) : Prop :=
  match c with
  | CH_fg a => stands_for a (st_fg s') /\ st_bg s' = st_bg s /\ same_values_but_colors s s'
  | CH_bg a => st_fg s' = st_fg s /\ stands_for a (st_bg s') /\ same_values_but_colors s s'
  | CH_flip => st_fg s' = st_bg s /\ st_bg s' = st_fg s /\ same_values_but_colors s s'
  | CH_autopick =>
      match hex_value (st_bg s) with
      | None => st_fg s' = st_fg s
      | Some h => st_fg s' = ColorRGB (Some (if 45 * 255 <=? 100 * brightness h then 0x0a0a0a else 0xcccccc)%Z)
      end /\ st_bg s' = st_bg s /\ same_values_but_colors s s'
  | CH_attr a v => same_colors s s' /\ value_of s' a = v /\ (forall b, b <> a -> value_of s' b = value_of s b) /\ st_class_name s' = st_class_name s
  | CH_class n => same_colors s s' /\ (forall a, value_of s' a = value_of s a) /\ st_class_name s' = n
  end.
(** changes one after the other *)
Fixpoint changed (s : style) (cs : list change) (s' : style) : Prop :=
  match cs with
  | [] => s' = s
  | c :: cs => exists s1, effect s c s1 /\ changed s1 cs s'
  end.

(** the runs of a text, with the styles as they are now *)
Definition as_is (m : memory) (r : mrun) (x : trun_obj) : Prop :=
  run_string x = mr_string r /\
  match mr_style r with None => run_style x = None | Some i => run_style x = nth_error (mem_styles m) i /\ run_style x <> None end.
Definition refers (m : memory) (t i : nat) : Prop := exists r, In r (mtext_runs m t) /\ mr_style r = Some i.
(** actions that have nothing to do with text [t]; formatting might change a run it shares *)
Definition apart (m : memory) (t : nat) (o : mem_op) : Prop :=
  match o with
  | M_change i _ => ~ refers m t i
  | M_append_str u _ | M_append_text u _ | M_prepend_str u _ | M_prepend_text u _ => u <> t
  | M_format _ _ => False
  | M_style _ _ | M_text _ _ => True
  end.

(** the texts as if every run had its own copy of its style *)
Definition now_run (m : memory) (r : mrun) : trun_obj :=
  mkRun (mr_string r) (match mr_style r with None => None | Some i => nth_error (mem_styles m) i end).
Definition frozen (m : memory) : heap := mkHeap (map (now_run m) (mem_runs m)) (mem_texts m).
(** actions on texts alone, in these terms *)
Definition text_action (m : memory) (o : mem_op) : option text_op :=
  match o with
  | M_style _ _ | M_change _ _ => None
  | M_text a RA_none => Some (TO_new a SA_none)
  | M_text a (RA_style i) => match nth_error (mem_styles m) i with Some s => Some (TO_new a (SA_style s)) | None => None end
  | M_text a (RA_color n) => Some (TO_new a (SA_color n))
  | M_append_str t s => Some (TO_append_str t s)
  | M_append_text t u => Some (TO_append_text t u)
  | M_prepend_str t s => Some (TO_prepend_str t s)
  | M_prepend_text t u => Some (TO_prepend_text t u)
  | M_format t f => Some (TO_format t f)
  end.
