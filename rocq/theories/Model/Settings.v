(** kolombos/settings.py, kolombos/byteio/const.py, kolombos/byteio/partial_override.py *)
From Coq Require Import List NArith ZArith Bool.
From Verif.Model Require Import Base.
Import ListNotations.

(** const.py:20-27 *)
Inductive read_mode := RM_binary | RM_text.
(** const.py:30-40 *)
Inductive display_mode := DM_default | DM_focused | DM_ignored.
(** const.py:46-52 *)
Inductive char_class := CC_control | CC_esc | CC_space | CC_utf8 | CC_binary | CC_printable.
(** const.py:66-71 *)
Inductive marker_details := MD_no | MD_brief | MD_full | MD_strict.

Definition is_text (m : read_mode) : bool := match m with RM_text => true | RM_binary => false end.
Definition is_binary (m : read_mode) : bool := match m with RM_binary => true | RM_text => false end.
Definition is_ignored (m : display_mode) : bool := match m with DM_ignored => true | _ => false end.

(** settings.py:13-51 [Settings].  The twelve attributes focus_*/ignore_* are the functions
    [s_focus]/[s_ignore] indexed by class (the code builds the attribute name from
    [char_class.value], L69-70).  Unused TODO options are left out.  [None] is Python's None. *)
Record settings := mkSettings {
  s_binary : bool;
  s_text : bool;
  s_default_read_mode : read_mode;
  s_buffer : option Z;
  s_columns : option Z;
  s_decimal_offsets : bool;
  s_debug : nat;
  s_decode : option bool;
  s_filename : option str;
  s_focus : char_class -> bool;
  s_ignore : char_class -> bool;
  s_legend : bool;
  s_marker : Z;
  s_max_bytes : option Z;
  s_max_lines : option Z;
  s_color_markers : bool;
  s_no_line_numbers : bool;
  s_no_separators : bool;
  s_no_offsets : bool;
  s_version : bool;
  s_demo : bool
}.

(** settings.py:17-51: a freshly created [Settings()] *)
Definition default_settings : settings :=
  mkSettings false false RM_text None None false 0 None None
             (fun _ => false) (fun _ => false) false 0%Z None None false false false false false false.

(** settings.py:53-63 [read_mode]: returns the mode and the (possibly mutated) settings *)
Definition get_read_mode (s : settings) : read_mode * settings :=
  if s_binary s then (RM_binary, s)
  else if s_text s then (RM_text, s)
  else
    let d := s_default_read_mode s in
    (d, mkSettings (is_binary d) (is_text d) d (s_buffer s) (s_columns s) (s_decimal_offsets s)
          (s_debug s) (s_decode s) (s_filename s) (s_focus s) (s_ignore s) (s_legend s) (s_marker s)
          (s_max_bytes s) (s_max_lines s) (s_color_markers s) (s_no_line_numbers s)
          (s_no_separators s) (s_no_offsets s) (s_version s) (s_demo s)).

(** settings.py:65-66 *)
Definition set_default_read_mode (s : settings) (d : read_mode) : settings :=
  mkSettings (s_binary s) (s_text s) d (s_buffer s) (s_columns s) (s_decimal_offsets s)
          (s_debug s) (s_decode s) (s_filename s) (s_focus s) (s_ignore s) (s_legend s) (s_marker s)
          (s_max_bytes s) (s_max_lines s) (s_color_markers s) (s_no_line_numbers s)
          (s_no_separators s) (s_no_offsets s) (s_version s) (s_demo s).

(** settings.py:68-80 *)
Definition get_display_mode (s : settings) (c : char_class) : display_mode :=
  if s_ignore s c then DM_ignored
  else if s_focus s c then DM_focused
  else DM_default.

(** settings.py:82-91 *)
Definition effective_marker_details (s : settings) : marker_details :=
  if s_binary s then MD_strict
  else if (s_marker s <=? 0)%Z then MD_no
  else if (s_marker s =? 1)%Z then MD_brief
  else MD_full.

(** settings.py:93-97 *)
Definition effective_print_offsets (s : settings) : bool :=
  if (0 <? s_debug s)%nat then true else negb (s_no_offsets s).

(** const.py:43 [ByteIOMode = Union[DisplayMode, ReadMode]]: the override keys *)
Inductive mode_key := K_disp (d : display_mode) | K_read (r : read_mode).

Definition mode_key_eqb (a b : mode_key) : bool :=
  match a, b with
  | K_disp DM_default, K_disp DM_default | K_disp DM_focused, K_disp DM_focused
  | K_disp DM_ignored, K_disp DM_ignored | K_read RM_binary, K_read RM_binary
  | K_read RM_text, K_read RM_text => true
  | _, _ => false
  end.

(** partial_override.py:17-25 [PartialOverride]: default value and override dict
    ([None] and an empty dict behave alike in every method). *)
Record pov (A : Type) := mkPov { pov_default : A; pov_override : list (mode_key * A) }.
Arguments mkPov {A} _ _.
Arguments pov_default {A} _.
Arguments pov_override {A} _.

Fixpoint dict_get {A} (k : mode_key) (d : list (mode_key * A)) : option A :=
  match d with
  | [] => None
  | (k', v) :: t => if mode_key_eqb k k' then Some v else dict_get k t
  end.

(** [d[k] = v] *)
Fixpoint dict_set {A} (k : mode_key) (v : A) (d : list (mode_key * A)) : list (mode_key * A) :=
  match d with
  | [] => [(k, v)]
  | (k', v') :: t => if mode_key_eqb k k' then (k', v) :: t else (k', v') :: dict_set k v t
  end.

(** partial_override.py:27-37 [get( *keys)] *)
Fixpoint pov_get {A} (p : pov A) (keys : list mode_key) : A :=
  match keys with
  | [] => pov_default p
  | k :: ks => match dict_get k (pov_override p) with
               | Some v => v
               | None => pov_get p ks
               end
  end.

(** partial_override.py:39-42 *)
Definition pov_set {A} (p : pov A) (k : mode_key) (v : A) : pov A :=
  mkPov (pov_default p) (dict_set k v (pov_override p)).

(** partial_override.py:44-47 *)
Definition pov_has_key {A} (p : pov A) (k : mode_key) : bool :=
  match dict_get k (pov_override p) with Some _ => true | None => false end.
