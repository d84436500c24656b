(** kolombos/console.py:198-251 [Console.debug_settings], called by app.py:24-27 once the command
    line is parsed: the list of all settings printed from debug level 3 on. *)
From Coq Require Import Ascii String.
From Coq Require Import List NArith ZArith Bool.
From Verif.Model Require Import Base Ansi Regex Strip Settings Console Filters Trace.
Import ListNotations.
Local Open Scope N_scope.

(** The values attributes of [Settings] can have: members of enumerations with name and value,
    bound methods with the object they are bound to *)
Inductive pyval :=
| VNone | VBool (b : bool) | VInt (n : Z) | VStr (t : str)
| VEnum (cls name value : str) | VMethod (name : str) (self : settings).

(** Python's repr() of a str: [printable] tells which of the characters beyond ASCII are
    displayed as they are ([str.isprintable]) *)
Definition hex_escape (letter : N) (width : nat) (c : N) : str := [92; letter] ++ fmt_hex_lo width c.
Definition repr_char (printable : N -> bool) (quote c : N) : str :=
  if (c =? quote) || (c =? 92) then [92; c]
  else if c =? 9 then [92; 116]
  else if c =? 10 then [92; 110]
  else if c =? 13 then [92; 114]
  else if (c <? 32) || (c =? 127) then hex_escape 120 2 c
  else if c <? 127 then [c]
  else if printable c then [c]
  else if c <=? 0xFF then hex_escape 120 2 c
  else if c <=? 0xFFFF then hex_escape 117 4 c
  else hex_escape 85 8 c.
Definition py_repr (printable : N -> bool) (t : str) : str :=
  let quote := if existsb (N.eqb 39) t && negb (existsb (N.eqb 34) t) then 34 else 39 in
  [quote] ++ flat_map (repr_char printable quote) t ++ [quote].

Definition opt_int (o : option Z) : pyval := match o with None => VNone | Some n => VInt n end.
Definition read_mode_value (m : read_mode) : pyval :=
  match m with
  | RM_binary => VEnum (lit "ReadMode") (lit "BINARY") (lit "binary")
  | RM_text => VEnum (lit "ReadMode") (lit "TEXT") (lit "text")
  end.
Definition marker_details_value (m : marker_details) : pyval :=
  let v := VEnum (lit "MarkerDetailsEnum") in
  match m with
  | MD_no => v (lit "NO_DETAILS") (dec 0)
  | MD_brief => v (lit "BRIEF_DETAILS") (dec 1)
  | MD_full => v (lit "FULL_DETAILS") (dec 2)
  | MD_strict => v (lit "BINARY_STRICT") (dec 3)
  end.
Definition display_mode_value (m : display_mode) : pyval :=
  let v := VEnum (lit "DisplayMode") in
  match m with
  | DM_default => v (lit "DEFAULT") (lit "default")
  | DM_focused => v (lit "FOCUSED") (lit "focused")
  | DM_ignored => v (lit "IGNORED") (lit "ignored")
  end.
(** const.py:46-52: the classes in order of definition *)
Definition char_classes : list (char_class * str) :=
  [ (CC_control, lit "CONTROL_CHAR"); (CC_esc, lit "ESCAPE_SEQ"); (CC_space, lit "WHITESPACE");
    (CC_utf8, lit "UTF_8_SEQ"); (CC_binary, lit "BINARY_DATA"); (CC_printable, lit "PRINTABLE_CHAR") ].

(** settings.py:14-51: the attributes of the object ([__dict__]), in order of creation;
    [hide_ignored] and [squash_ignored] are not set anywhere else.  All options of the command
    line are stored in these attributes (argparse.py), so there are no others. *)
Definition own_attrs (s : settings) : list (str * pyval) :=
  [ (lit "binary", VBool (s_binary s)); (lit "buffer", opt_int (s_buffer s)); (lit "columns", opt_int (s_columns s));
    (lit "decimal_offsets", VBool (s_decimal_offsets s)); (lit "debug", VInt (Z.of_nat (s_debug s)));
    (lit "decode", match s_decode s with None => VNone | Some b => VBool b end);
    (lit "filename", match s_filename s with None => VNone | Some f => VStr f end);
    (lit "focus_control", VBool (s_focus s CC_control)); (lit "focus_esc", VBool (s_focus s CC_esc));
    (lit "focus_space", VBool (s_focus s CC_space)); (lit "focus_utf8", VBool (s_focus s CC_utf8));
    (lit "focus_binary", VBool (s_focus s CC_binary)); (lit "focus_printable", VBool (s_focus s CC_printable));
    (lit "ignore_control", VBool (s_ignore s CC_control)); (lit "ignore_esc", VBool (s_ignore s CC_esc));
    (lit "ignore_space", VBool (s_ignore s CC_space)); (lit "ignore_utf8", VBool (s_ignore s CC_utf8));
    (lit "ignore_binary", VBool (s_ignore s CC_binary)); (lit "ignore_printable", VBool (s_ignore s CC_printable));
    (lit "hide_ignored", VBool false); (lit "legend", VBool (s_legend s)); (lit "marker", VInt (s_marker s));
    (lit "max_bytes", opt_int (s_max_bytes s)); (lit "max_lines", opt_int (s_max_lines s));
    (lit "color_markers", VBool (s_color_markers s)); (lit "no_line_numbers", VBool (s_no_line_numbers s));
    (lit "no_separators", VBool (s_no_separators s)); (lit "no_offsets", VBool (s_no_offsets s));
    (lit "squash_ignored", VBool false); (lit "text", VBool (s_text s)); (lit "version", VBool (s_version s));
    (lit "demo", VBool (s_demo s)); (lit "_default_read_mode", read_mode_value (s_default_read_mode s)) ].

(** settings.py:53-113: the names defined by the class.  Those inherited from Namespace and
    object begin with an underscore and are dropped by the filter in console.py:225-228 anyway. *)
Definition class_names : list str :=
  [ lit "__init__"; lit "read_mode"; lit "set_default_read_mode"; lit "get_char_class_display_mode";
    lit "effective_marker_details"; lit "effective_print_offsets"; lit "debug_settings"; lit "debug_settings_derived";
    lit "debug_buffer_contents"; lit "debug_buffer_contents_full" ].

(** str() of a value.  A bound method shows its object, [Namespace.__repr__]: the attributes
    with the repr() of their values. *)
Definition plain_repr (printable : N -> bool) (v : pyval) : str :=
  match v with
  | VNone => lit "None"
  | VBool true => lit "True"
  | VBool false => lit "False"
  | VInt n => zdec n
  | VStr t => py_repr printable t
  | VEnum cls name value => lit "<" ++ cls ++ lit "." ++ name ++ lit ": " ++ py_repr printable value ++ lit ">"
  | VMethod _ _ => []                  (* never the value of an own attribute *)
  end.
Definition settings_repr (printable : N -> bool) (s : settings) : str :=
  lit "Settings(" ++ join (lit ", ") (map (fun x => fst x ++ lit "=" ++ plain_repr printable (snd x)) (own_attrs s)) ++ lit ")".
Definition py_str (printable : N -> bool) (v : pyval) : str :=
  match v with
  | VStr t => t
  | VEnum cls name _ => cls ++ lit "." ++ name
  | VMethod name self => lit "<bound method Settings." ++ name ++ lit " of " ++ settings_repr printable self ++ lit ">"
  | _ => plain_repr printable v
  end.

(** [==]: True and False are numbers; methods bound to two objects are different *)
Definition as_number (v : pyval) : option Z :=
  match v with VBool b => Some (if b then 1%Z else 0%Z) | VInt n => Some n | _ => None end.
Definition py_eq (a b : pyval) : bool :=
  match as_number a, as_number b with
  | Some m, Some n => (m =? n)%Z
  | None, None =>
      match a, b with
      | VNone, VNone => true
      | VStr x, VStr y => eqb_list x y
      | VEnum c n _, VEnum c' n' _ => eqb_list c c' && eqb_list n n'
      | _, _ => false
      end
  | _, _ => false
  end.

Fixpoint assoc {A} (k : str) (l : list (str * A)) : option A :=
  match l with
  | [] => None
  | (k', v) :: t => if eqb_list k k' then Some v else assoc k t
  end.
(** [getattr(self, name)]; [read_mode] changes the object (settings.py:53-63) *)
Definition get_attr (name : str) (s : settings) : pyval * settings :=
  match assoc name (own_attrs s) with
  | Some v => (v, s)
  | None =>
      if eqb_list name (lit "read_mode") then let '(m, s1) := get_read_mode s in (read_mode_value m, s1)
      else if eqb_list name (lit "effective_marker_details") then (marker_details_value (effective_marker_details s), s)
      else if eqb_list name (lit "effective_print_offsets") then (VBool (effective_print_offsets s), s)
      else if eqb_list name (lit "debug_settings") then (VBool (3 <=? s_debug s)%nat, s)
      else if eqb_list name (lit "debug_settings_derived") then (VBool (4 <=? s_debug s)%nat, s)
      else if eqb_list name (lit "debug_buffer_contents") then (VBool (debug_buffer_contents s), s)
      else if eqb_list name (lit "debug_buffer_contents_full") then (VBool (debug_buffer_contents_full s), s)
      else (VMethod name s, s)
  end.

(** [sorted(l, key=key)]: strings are compared code point by code point; insertion sort gives
    the only ordered arrangement as no two keys are equal *)
Fixpoint str_leb (a b : str) : bool :=
  match a, b with
  | [], _ => true
  | _ :: _, [] => false
  | x :: a', y :: b' => if x =? y then str_leb a' b' else x <? y
  end.
Fixpoint insert_by (key : str -> str) (x : str) (l : list str) : list str :=
  match l with
  | [] => [x]
  | y :: t => if str_leb (key x) (key y) then x :: l else y :: insert_by key x t
  end.
Definition sorted_by (key : str -> str) (l : list str) : list str := fold_right (insert_by key) [] l.
(** [str.startswith] *)
Fixpoint starts_with (p s : str) : bool :=
  match p, s with
  | [], _ => true
  | x :: p', y :: s' => (x =? y) && starts_with p' s'
  | _ :: _, [] => false
  end.

(** console.py:204-205 *)
Definition is_derived (s : settings) (attr : str) : bool :=
  match assoc attr (own_attrs s) with Some _ => false | None => true end.
(** L225-228 *)
Definition dump_attrs (s : settings) : list str :=
  filter (fun a => negb (starts_with (lit "_") a || starts_with (lit "init") a || starts_with (lit "get") a)
                   && (negb (is_derived s a) || (4 <=? s_debug s)%nat))
         (sorted_by (fun a => if is_derived s a then a else lit "_" ++ a)
                    (map fst (own_attrs s) ++ class_names)).
(** L230: [max([...]) + 3] *)
Definition max_attr_len (s : settings) : nat := fold_right Nat.max 0%nat (map (@List.length N) (dump_attrs s)) + 3.

(** L161-196 [get_separator_line] with [settings_open] or [settings_close] *)
Definition settings_line (s : settings) (columns : Z) (settings_cross main_cross : N) : str :=
  let main_part := span_wrap [c_BG_BLACK] (repeat 0x2500 MAIN_PREFIX_LEN ++ [main_cross]) in
  let settings_part := span_wrap [c_BG_BLACK] (repeat 0x2500 (max_attr_len s - MAIN_PREFIX_LEN - 1)) ++ [settings_cross] in
  let filler_len := (columns - zlen (strip_sgr (main_part ++ settings_part)))%Z in
  let line := main_part ++ settings_part ++ repeat 0x2500 (Z.to_nat filler_len) in
  if (0 <? s_debug s)%nat then span_wrap [c_GRAY] line else span_wrap [c_CYAN] line.

(** [s.ljust(n)] *)
Definition ljust (n : nat) (t : str) : str := t ++ repeat 32 (n - List.length t).
(** L234-238.  The pattern is a word in brackets; only ASCII letters occur in the text. *)
Definition HEADER_REGEXP : re := rcats [RChr 91; RPlus [(48, 57); (65, 90); (95, 95); (97, 122)]; RChr 93].
Definition header_text (s : settings) : str :=
  let header := ljust (max_attr_len s) (lit "SETTINGS [DERIVED]") in
  if (4 <=? s_debug s)%nat
  then replace_char 93 (assemble [c_ITALIC_OFF] ++ lit "]") (replace_char 91 (lit "[" ++ assemble [c_ITALIC]) header)
  else flat_map (fun e => match e with
                          | Unmatched c => [c]
                          | Matched _ w => repeat 32 (List.length w)
                          end) (re_scan HEADER_REGEXP header).
Definition fmt_header : sgr := sgr_add [c_BG_BLACK] [c_BOLD].

(** L207-218 [debug_print] *)
Definition debug_print (printable : N -> bool) (s : settings) (attr : str) (app_value default_value : pyval) : tev :=
  let changed := negb (py_eq app_value default_value) in
  let values := if changed
                then span_wrap [c_GREEN] (py_str printable app_value) ++ [32]
                     ++ span_wrap [c_GRAY] (lit "[" ++ py_str printable default_value ++ lit "]")
                else span_wrap [c_YELLOW] (py_str printable default_value) in
  let seq := if changed then fmt_header else [c_BG_BLACK] in
  let seq := if is_derived s attr then sgr_add seq [c_ITALIC] else seq in
  dbg s RUNNER 3 (span_wrap seq (rjust 32 (max_attr_len s) attr) ++ get_separator s ++ values).

(** L242-243; [d]: the default settings, which are read along *)
Fixpoint print_attrs (printable : N -> bool) (attrs : list str) (s d : settings) : list tev * settings * settings :=
  match attrs with
  | [] => ([], s, d)
  | a :: rest =>
      let '(v, s1) := get_attr a s in
      let '(w, d1) := get_attr a d in
      let '(l, s2, d2) := print_attrs printable rest s1 d1 in
      (debug_print printable s1 a v w :: l, s2, d2)
  end.

(** L198-251: the messages and the settings afterwards *)
Definition debug_settings (printable : N -> bool) (s : settings) (columns : Z) : list tev * settings :=
  if (s_debug s <? 3)%nat then ([], s)
  else
    let '(l, s1, d1) := print_attrs printable (dump_attrs s) s default_settings in
    let classes := if (4 <=? s_debug s)%nat
                   then map (fun x => debug_print printable s1 (lit "CharClass." ++ snd x)
                                        (display_mode_value (get_display_mode s1 (fst x)))
                                        (display_mode_value (get_display_mode d1 (fst x)))) char_classes
                   else [] in
    ([dbg s RUNNER 3 (settings_line s columns 0x252C 0x2500);
      dbg s RUNNER 3 (span_wrap fmt_header (header_text s) ++ get_separator s)]
     ++ l ++ classes ++ [dbg s1 RUNNER 3 (settings_line s1 columns 0x2534 0x252C)], s1).
