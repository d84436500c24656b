(** Specification side: command lines (lists of recognised options), questions asked to the
    settings, what the user can expect of an invocation *)
From Coq Require Import List NArith ZArith Bool.
From Verif.Model Require Import Base Settings Options.
Import ListNotations.

(** options that exclude each other *)
Inductive Excludes : opt -> opt -> Prop :=
| Ex_demo f : Excludes (O_file f) O_demo
| Ex_tb : Excludes O_text O_binary
| Ex_tl : Excludes O_text O_legend
| Ex_bl : Excludes O_binary O_legend
| Ex_class c : Excludes (O_focus c) (O_ignore c)
| Ex_offsets : Excludes O_decimal_offsets O_no_offsets.

(** [Rejected opts]: two of the options exclude each other, or there is more than one file *)
Inductive Rejected (opts : list opt) : Prop :=
| Rej_excl a b : In a opts -> In b opts -> Excludes a b -> Rejected opts
| Rej_files l f m g r : opts = l ++ O_file f :: m ++ O_file g :: r -> Rejected opts.

(** the last value given by an option *)
Fixpoint last_value {A} (f : opt -> option A) (opts : list opt) (default : option A) : option A :=
  match opts with
  | [] => default
  | o :: r => last_value f r (match f o with Some v => Some v | None => default end)
  end.
Definition columns_of (o : opt) := match o with O_columns n => Some n | _ => None end.
Definition buffer_of (o : opt) := match o with O_buffer n => Some n | _ => None end.
Definition max_bytes_of (o : opt) := match o with O_max_bytes n => Some n | _ => None end.
Definition max_lines_of (o : opt) := match o with O_max_lines n => Some n | _ => None end.
Definition marker_of (o : opt) := match o with O_marker n => Some n | _ => None end.
Definition file_of (o : opt) := match o with O_file f => Some f | _ => None end.
(** how often debugging was asked for *)
Definition debug_count (opts : list opt) : nat := length (filter (fun o => match o with O_debug => true | _ => false end) opts).

(** ** questions *)
Inductive query :=
| Q_mode                       (* which mode? *)
| Q_default (m : read_mode)    (* change the default mode *)
| Q_marker                     (* which details are shown beside markers? *)
| Q_class (c : char_class).    (* how is a class displayed? *)
Inductive answer := A_mode (m : read_mode) | A_done | A_marker (d : marker_details) | A_class (d : display_mode).
Definition ask1 (q : query) (s : settings) : answer * settings :=
  match q with
  | Q_mode => let '(m, s1) := get_read_mode s in (A_mode m, s1)
  | Q_default m => (A_done, set_default_read_mode s m)
  | Q_marker => (A_marker (effective_marker_details s), s)
  | Q_class c => (A_class (get_display_mode s c), s)
  end.
Fixpoint ask (qs : list query) (s : settings) : list answer * settings :=
  match qs with
  | [] => ([], s)
  | q :: r => let '(a, s1) := ask1 q s in let '(l, s2) := ask r s1 in (a :: l, s2)
  end.

(** the answers expected: [given] is the mode chosen by option, [default] the current default,
    [chosen] the mode once it has been resolved *)
Definition marker_level_of (n : Z) : marker_details :=
  if (n <=? 0)%Z then MD_no else if (n =? 1)%Z then MD_brief else MD_full.
Definition class_mode (ignored focused : bool) : display_mode :=
  if ignored then DM_ignored else if focused then DM_focused else DM_default.
Fixpoint expected (s : settings) (chosen : option read_mode) (default : read_mode) (qs : list query) : list answer :=
  match qs with
  | [] => []
  | Q_mode :: r => let m := match chosen with Some m => m | None => default end in A_mode m :: expected s (Some m) default r
  | Q_default d :: r => A_done :: expected s chosen d r
  | Q_marker :: r => A_marker (match chosen with Some RM_binary => MD_strict | _ => marker_level_of (s_marker s) end) :: expected s chosen default r
  | Q_class c :: r => A_class (class_mode (s_ignore s c) (s_focus s c)) :: expected s chosen default r
  end.
Definition given_mode (s : settings) : option read_mode :=
  if s_binary s then Some RM_binary else if s_text s then Some RM_text else None.
