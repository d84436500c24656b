(** Specification side: the list of all settings on the screen *)
From Coq Require Import Ascii String.
From Coq Require Import List NArith ZArith Bool.
From Verif.Model Require Import Base Settings Trace.
From Verif.Spec Require Import Numbers Terminal Display Output.
Import ListNotations.
Local Open Scope N_scope.

(** what a setting can be, and how that is written *)
Inductive value := Unset | Flag (b : bool) | Number (n : Z) | Words (t : list N).
Definition value_text (v : value) : list N :=
  match v with
  | Unset => lit "None"
  | Flag b => if b then lit "True" else lit "False"
  | Number n => zdec n
  | Words t => t
  end.
Definition value_dec (a b : value) : {a = b} + {a <> b}.
Proof. decide equality; [apply bool_dec|apply Z.eq_dec|apply (list_eq_dec N.eq_dec)]. Defined.

(** name, value, default *)
Record entry := mkEntry { e_name : list N; e_value : value; e_default : value }.

Definition number_or (o : option Z) : value := match o with None => Unset | Some n => Number n end.
(** the options, in alphabetical order *)
Definition options (s : settings) : list entry :=
  [ mkEntry (lit "binary") (Flag (s_binary s)) (Flag false);
    mkEntry (lit "buffer") (number_or (s_buffer s)) Unset;
    mkEntry (lit "color_markers") (Flag (s_color_markers s)) (Flag false);
    mkEntry (lit "columns") (number_or (s_columns s)) Unset;
    mkEntry (lit "debug") (Number (Z.of_nat (s_debug s))) (Number 0);
    mkEntry (lit "decimal_offsets") (Flag (s_decimal_offsets s)) (Flag false);
    mkEntry (lit "decode") (match s_decode s with None => Unset | Some b => Flag b end) Unset;
    mkEntry (lit "demo") (Flag (s_demo s)) (Flag false);
    mkEntry (lit "filename") (match s_filename s with None => Unset | Some f => Words f end) Unset;
    mkEntry (lit "focus_binary") (Flag (s_focus s CC_binary)) (Flag false);
    mkEntry (lit "focus_control") (Flag (s_focus s CC_control)) (Flag false);
    mkEntry (lit "focus_esc") (Flag (s_focus s CC_esc)) (Flag false);
    mkEntry (lit "focus_printable") (Flag (s_focus s CC_printable)) (Flag false);
    mkEntry (lit "focus_space") (Flag (s_focus s CC_space)) (Flag false);
    mkEntry (lit "focus_utf8") (Flag (s_focus s CC_utf8)) (Flag false);
    mkEntry (lit "hide_ignored") (Flag false) (Flag false);
    mkEntry (lit "ignore_binary") (Flag (s_ignore s CC_binary)) (Flag false);
    mkEntry (lit "ignore_control") (Flag (s_ignore s CC_control)) (Flag false);
    mkEntry (lit "ignore_esc") (Flag (s_ignore s CC_esc)) (Flag false);
    mkEntry (lit "ignore_printable") (Flag (s_ignore s CC_printable)) (Flag false);
    mkEntry (lit "ignore_space") (Flag (s_ignore s CC_space)) (Flag false);
    mkEntry (lit "ignore_utf8") (Flag (s_ignore s CC_utf8)) (Flag false);
    mkEntry (lit "legend") (Flag (s_legend s)) (Flag false);
    mkEntry (lit "marker") (Number (s_marker s)) (Number 0);
    mkEntry (lit "max_bytes") (number_or (s_max_bytes s)) Unset;
    mkEntry (lit "max_lines") (number_or (s_max_lines s)) Unset;
    mkEntry (lit "no_line_numbers") (Flag (s_no_line_numbers s)) (Flag false);
    mkEntry (lit "no_offsets") (Flag (s_no_offsets s)) (Flag false);
    mkEntry (lit "no_separators") (Flag (s_no_separators s)) (Flag false);
    mkEntry (lit "squash_ignored") (Flag false) (Flag false);
    mkEntry (lit "text") (Flag (s_text s)) (Flag false);
    mkEntry (lit "version") (Flag (s_version s)) (Flag false) ].

(** what follows from the options, shown from level 4 on.  [method]: the text shown for
    [set_default_read_mode], which is no setting, and for its default *)
Definition details_word (s : settings) : list N :=
  if s_binary s then lit "BINARY_STRICT"
  else match marker_level s with L_none => lit "NO_DETAILS" | L_brief => lit "BRIEF_DETAILS" | L_full => lit "FULL_DETAILS" end.
Definition class_word (s : settings) (c : char_class) : list N :=
  if s_ignore s c then lit "DisplayMode.IGNORED" else if s_focus s c then lit "DisplayMode.FOCUSED" else lit "DisplayMode.DEFAULT".
Definition class_entry (s : settings) (name : list N) (c : char_class) : entry :=
  mkEntry (lit "CharClass." ++ name) (Words (class_word s c)) (Words (lit "DisplayMode.DEFAULT")).
Definition consequences (s : settings) (method : list N * list N) : list entry :=
  [ mkEntry (lit "debug_buffer_contents") (Flag true) (Flag false);
    mkEntry (lit "debug_buffer_contents_full") (Flag true) (Flag false);
    mkEntry (lit "debug_settings") (Flag true) (Flag false);
    mkEntry (lit "debug_settings_derived") (Flag true) (Flag false);
    mkEntry (lit "effective_marker_details") (Words (lit "MarkerDetailsEnum." ++ details_word s)) (Words (lit "MarkerDetailsEnum.NO_DETAILS"));
    mkEntry (lit "effective_print_offsets") (Flag true) (Flag true);
    mkEntry (lit "read_mode") (Words (lit "ReadMode." ++ if binary_mode s then lit "BINARY" else lit "TEXT")) (Words (lit "ReadMode.TEXT"));
    mkEntry (lit "set_default_read_mode") (Words (fst method)) (Words (snd method));
    class_entry s (lit "CONTROL_CHAR") CC_control; class_entry s (lit "ESCAPE_SEQ") CC_esc;
    class_entry s (lit "WHITESPACE") CC_space; class_entry s (lit "UTF_8_SEQ") CC_utf8;
    class_entry s (lit "BINARY_DATA") CC_binary; class_entry s (lit "PRINTABLE_CHAR") CC_printable ].

(** * Looks *)
Definition on_black : attrs := set_bg (ColIdx 0) attrs0.
Definition gray : attrs := set_fg (ColIdx 8) attrs0.
Definition deep (s : settings) : bool := (4 <=? s_debug s)%nat.
Definition label_width (s : settings) : nat := if deep s then 29 else 19.

(** name right-aligned on black, bold if the value is not the default one, italic if [derived];
    then the value, followed by the default in brackets if it is another one *)
Definition entry_cells (s : settings) (derived : bool) (e : entry) : list tcell :=
  let changed := if value_dec (e_value e) (e_default e) then false else true in
  styled (set_italic derived (set_bold changed on_black)) (aligned (label_width s) (e_name e))
  ++ [(0x2502, gray)]
  ++ (if changed
      then styled (set_fg (ColIdx 2) attrs0) (value_text (e_value e)) ++ [(32, attrs0)]
           ++ styled gray (lit "[" ++ value_text (e_default e) ++ lit "]")
      else styled (set_fg (ColIdx 3) attrs0) (value_text (e_default e)))
  ++ [(10, attrs0)].

(** a horizontal line as wide as the terminal; the two crossings are after 8 columns and after
    the names *)
Definition rule_cells (s : settings) (columns : Z) (main_cross settings_cross : N) : list tcell :=
  styled (set_bg (ColIdx 0) gray) (repeat 0x2500 8 ++ [main_cross] ++ repeat 0x2500 (label_width s - 9))
  ++ styled gray ([settings_cross] ++ repeat 0x2500 (Z.to_nat columns - (label_width s + 1)))
  ++ [(10, attrs0)].
Definition header_cells (s : settings) : list tcell :=
  let a := set_bold true on_black in
  styled a (lit "SETTINGS ")
  ++ (if deep s then styled a (lit "[") ++ styled (set_italic true a) (lit "DERIVED") ++ styled a (lit "]")
      else styled a (repeat 32 9))
  ++ styled a (repeat 32 (label_width s - 18)) ++ [(0x2502, gray); (10, attrs0)].

Definition settings_rows (s : settings) (columns : Z) (method : list N * list N) : list (list tcell) :=
  [rule_cells s columns 0x2500 0x252C; header_cells s]
  ++ map (entry_cells s false) (options s)
  ++ (if deep s then map (entry_cells s true) (consequences s method) else [])
  ++ [rule_cells s columns 0x252C 0x2534].

(** * String literals of Python *)
(** [Literal q l t]: between quotes [q] the text [l] stands for the string [t] *)
Inductive Literal (q : N) : list N -> list N -> Prop :=
| Lt_end : Literal q [] []
| Lt_char c l t : c <> q -> c <> 92 -> c <> 10 -> Literal q l t -> Literal q (c :: l) (c :: t)
| Lt_self c l t : c = q \/ c = 92 -> Literal q l t -> Literal q (92 :: c :: l) (c :: t)
| Lt_tab l t : Literal q l t -> Literal q (92 :: 116 :: l) (9 :: t)
| Lt_lf l t : Literal q l t -> Literal q (92 :: 110 :: l) (10 :: t)
| Lt_cr l t : Literal q l t -> Literal q (92 :: 114 :: l) (13 :: t)
| Lt_hex m n h c l t : In (m, n) [(120, 2%nat); (117, 4%nat); (85, 8%nat)] ->
    List.length h = n -> read_number 16 h = Some c -> Literal q l t -> Literal q (92 :: m :: h ++ l) (c :: t).
Definition quoted (l t : list N) : Prop := exists q b, (q = 39 \/ q = 34) /\ l = q :: b ++ [q] /\ Literal q b t.

(** * The text shown for the method: its object with all attributes in order of creation.
    By then the mode has been decided.  [name] is what is written for the file name. *)
Definition creation_order : list (list N) :=
  [ lit "binary"; lit "buffer"; lit "columns"; lit "decimal_offsets"; lit "debug"; lit "decode"; lit "filename";
    lit "focus_control"; lit "focus_esc"; lit "focus_space"; lit "focus_utf8"; lit "focus_binary"; lit "focus_printable";
    lit "ignore_control"; lit "ignore_esc"; lit "ignore_space"; lit "ignore_utf8"; lit "ignore_binary"; lit "ignore_printable";
    lit "hide_ignored"; lit "legend"; lit "marker"; lit "max_bytes"; lit "max_lines"; lit "color_markers";
    lit "no_line_numbers"; lit "no_separators"; lit "no_offsets"; lit "squash_ignored"; lit "text"; lit "version"; lit "demo" ].
Definition value_of (s : settings) (name : list N) : list N :=
  match find (fun e => eqb_list (e_name e) name) (options s) with Some e => value_text (e_value e) | None => [] end.
Definition decided_value (s : settings) (file name : list N) : list N :=
  if eqb_list name (lit "filename") then file
  else if eqb_list name (lit "binary") then value_text (Flag (binary_mode s))
  else if eqb_list name (lit "text") then value_text (Flag (s_text s || negb (binary_mode s)))
  else value_of s name.
Definition default_mode_text (s : settings) : list N :=
  match s_default_read_mode s with RM_binary => lit "<ReadMode.BINARY: 'binary'>" | RM_text => lit "<ReadMode.TEXT: 'text'>" end.
Definition method_text (s : settings) (file : list N) : list N :=
  lit "<bound method Settings.set_default_read_mode of Settings("
  ++ join (lit ", ") (map (fun n => n ++ lit "=" ++ decided_value s file n) creation_order
                      ++ [lit "_default_read_mode=" ++ default_mode_text s])
  ++ lit ")>".
(** how a file name is written there *)
Definition file_text (f : option (list N)) (l : list N) : Prop :=
  match f with None => l = lit "None" | Some t => quoted l t end.
