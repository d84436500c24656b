(** Specification side: how each piece of the input has to look on the screen, depending on the
    settings.  Written as a direct table of characters and terminal attributes (no templates,
    no overrides, no SGR sequences). *)
From Coq Require Import List NArith ZArith Bool.
From Verif.Model Require Import Base Settings.
From Verif.Spec Require Import Numbers Terminal Lexical SgrParams.
Import ListNotations.
Local Open Scope N_scope.

(** binary mode iff requested, or text mode not requested and binary is the default *)
Definition binary_mode (s : settings) : bool :=
  s_binary s || (negb (s_text s) && match s_default_read_mode s with RM_binary => true | RM_text => false end).

(** level of marker details in text mode *)
Inductive level := L_none | L_brief | L_full.
Definition marker_level (s : settings) : level :=
  match s_marker s with Zpos 1 => L_brief | Zpos _ => L_full | _ => L_none end.

Definition decoding (s : settings) : bool := match s_decode s with Some true => true | _ => false end.

(** reset SGR: 'ESC [ m' or 'ESC [ 0 m' *)
Inductive csi_kind := C_reset | C_sgr | C_other.
Definition csi_sort (p : list N) (f : N) : csi_kind :=
  if f =? 109 then
    match p with
    | [] => C_reset
    | [c] => if c =? 48 then C_reset else C_sgr
    | _ => C_sgr
    end
  else C_other.

Definition class_of (k : kind) : char_class :=
  match k with
  | K_utf8 _ => CC_utf8
  | K_binary => CC_binary
  | K_csi _ _ _ | K_nF | K_Fp | K_Fe | K_Fs => CC_esc
  | K_escape => CC_control
  | K_newline => CC_space
  | K_run r => match r with
               | R_control | R_null | R_backspace | R_delete => CC_control
               | R_tab | R_vtab | R_ff | R_cr | R_space => CC_space
               | R_printable => CC_printable
               end
  end.

Definition is_escape_seq (k : kind) : bool :=
  match k with K_csi _ _ _ | K_nF | K_Fp | K_Fe | K_Fs => true | _ => false end.

(** color of the marker *)
Definition base_style (k : kind) : attrs :=
  let fg n := set_fg (ColIdx n) attrs0 in
  match k with
  | K_utf8 _ => fg 12
  | K_binary => fg 5
  | K_csi p _ f => match csi_sort p f with
                   | C_reset => set_bg (ColIdx 16) (fg 255)
                   | C_sgr => set_bg (ColIdx 16) (fg 210)
                   | C_other => fg 10
                   end
  | K_nF => fg 2
  | K_Fp | K_Fe | K_Fs => fg 3
  | K_escape => fg 11
  | K_newline => fg 14
  | K_run r => match r with
               | R_control | R_backspace | R_delete => fg 1
               | R_null => fg 9
               | R_tab | R_vtab | R_ff | R_cr | R_space => fg 14
               | R_printable => fg 102
               end
  end.
(** highlighted: black on cyan for whitespace, black on white for printable characters,
    inverted for the others *)
Definition focus_style (k : kind) : attrs :=
  match class_of k with
  | CC_space => set_fg (ColIdx 0) (set_bg (ColIdx 6) attrs0)
  | CC_printable => set_fg (ColIdx 0) (set_bg (ColIdx 7) attrs0)
  | _ => set_inverse true (base_style k)
  end.
Definition ignored_style : attrs := set_dim true (set_fg (ColIdx 8) attrs0).
Definition plain_style (s : settings) (k : kind) : attrs :=
  if s_focus s (class_of k) then focus_style k else base_style k.

(** effect of an SGR on a marker with --color-markers: only colors, dim, italic, overline and
    cross-out count *)
Definition harmless (c : N) (a : attrs) : attrs :=
  if (c =? 2) || (c =? 3) || (c =? 9) || (c =? 53) || between 30 c 37 || between 40 c 47
     || between 90 c 97 || between 100 c 107
  then sgr_code c a else a.
Fixpoint harmless_effect (codes : list N) (a : attrs) : attrs :=
  match codes with
  | [] => a
  | c :: t =>
      if (c =? 38) || (c =? 48) then
        let set := if c =? 38 then set_fg else set_bg in
        match t with
        | m :: n :: t2 =>
            if m =? 5 then harmless_effect t2 (set (ColIdx n) a)
            else match t2 with
                 | g :: b :: t4 => if m =? 2 then harmless_effect t4 (set (ColRgb n g b) a)
                                   else harmless_effect t a
                 | _ => harmless_effect t a
                 end
        | _ => harmless_effect t a
        end
      else harmless_effect t (harmless c a)
  end.

(** style of the first character of an escape sequence's marker; [codes] are the codes of the
    sequence if it is an SGR *)
Definition label_style (s : settings) (k : kind) (codes : list N) : attrs :=
  match k with
  | K_csi p _ f =>
      match csi_sort p f with
      | C_sgr => if s_color_markers s then harmless_effect codes attrs0 else plain_style s k
      | _ => plain_style s k
      end
  | _ => plain_style s k
  end.
(** style of details: dark background, underlined *)
Definition detailed (a : attrs) : attrs := set_under 1 (set_bg (ColIdx 16) a).
Definition details_style (s : settings) (k : kind) (codes : list N) : attrs :=
  match k with
  | K_csi p _ f =>
      match csi_sort p f with
      | C_sgr => if s_color_markers s then harmless_effect codes (detailed attrs0) else detailed attrs0
      | _ => detailed (base_style k)
      end
  | _ => detailed (base_style k)
  end.
Definition separator_style : attrs := set_fg (ColIdx 255) attrs0.

(** the sign standing for a byte (for UTF-8 sequences, printable characters: see below) *)
Definition marker (s : settings) (k : kind) : N :=
  match k with
  | K_utf8 _ => 0x25AF
  | K_binary => if binary_mode s then 0x25AF else 0x1E06
  | K_csi p _ f => match csi_sort p f with C_reset => 0x3B8 | C_sgr => 0x1DD | C_other => 0x3FD end
  | K_nF => 0xA7FB | K_Fp => 0xA7FC | K_Fe => 0x18E | K_Fs => 0xA644
  | K_escape => 0x220C
  | K_newline => 0x21B5
  | K_run r => match r with
               | R_control => 0x2C6F | R_null => 0xD8 | R_backspace => 0x2190 | R_delete => 0x2192
               | R_tab => 0x21E5 | R_vtab => 0x2913 | R_ff => 0x21A1 | R_cr => 0x21E4
               | R_space => if s_focus s CC_space then 0xB7 else 0x2423
               | R_printable => 0
               end
  end.
Definition ignored_sign : N := 0xD7.

(** * binary mode: one (byte, character, style) per byte *)
Definition bcell := (N * N * attrs)%type.
Definition binary_cells (s : settings) (k : kind) (w : list N) (codes : list N) : list bcell :=
  if s_ignore s (class_of k) then map (fun b => (b, ignored_sign, ignored_style)) w
  else if is_escape_seq k then
    match w with
    | [] => []
    | b :: t => (b, marker s k, label_style s k codes) :: map (fun c => (c, c, details_style s k codes)) t
    end
  else
    let st := plain_style s k in
    match k with
    | K_utf8 cp =>
        if decoding s
        then combine (combine w (repeat 95 (length w - 1) ++ [cp])) (repeat st (length w))
        else map (fun b => (b, marker s k, st)) w
    | K_run R_printable => map (fun b => (b, b, st)) w
    | _ => map (fun b => (b, marker s k, st)) w
    end.

(** the codes that matter for displaying a token: those of an SGR *)
Definition TokCodes (k : kind) (codes : list N) : Prop :=
  match k with
  | K_csi p _ f => match csi_sort p f with C_sgr => ParamCodes p codes | _ => codes = [] end
  | _ => codes = []
  end.

(** an SGR whose parameters can be read; every other piece is readable *)
Definition readable (k : kind) : Prop :=
  forall p i f, k = K_csi p i f -> csi_sort p f = C_sgr -> exists codes, ParamCodes p codes.

(** * text mode: a list of (character, style) *)
Definition tcell := (N * attrs)%type.

(** brief notation of SGR codes; [dec] and [fmt_hex_up] are the usual notations of numbers *)
Fixpoint code_names (codes : list N) : list (list N) :=
  match codes with
  | [] => []
  | c :: t =>
      if (c =? 38) || (c =? 48) then
        let letter := if c =? 38 then 70 else 66 in
        match t with
        | m :: n :: t2 =>
            if m =? 5 then (letter :: dec n) :: code_names t2
            else match t2 with
                 | g :: b :: t4 => if m =? 2 then (letter :: fmt_hex_up 6 (n * 65536 + g * 256 + b)) :: code_names t4
                                   else dec c :: code_names t
                 | _ => dec c :: code_names t
                 end
        | _ => dec c :: code_names t
        end
      else dec c :: code_names t
  end.
Definition styled (a : attrs) (l : list N) : list tcell := map (fun c => (c, a)) l.
(** names separated by a dot that is not underlined *)
Fixpoint name_cells (a : attrs) (names : list (list N)) : list tcell :=
  match names with
  | [] => []
  | [n] => styled a n
  | n :: rest => styled a n ++ [(0xFF65, set_under 0 a)] ++ name_cells a rest
  end.

(** details of a generic control character: caret letter or hexadecimal value *)
Definition control_details_cells (s : settings) (b : N) : list tcell :=
  let a := details_style s (K_run R_control) [] in
  match marker_level s with
  | L_none => []
  | L_brief => [(b + 64, a)]
  | L_full => styled a (fmt_hex_lo 2 b)
  end.
Definition escape_details_cells (s : settings) (k : kind) (w codes : list N) : list tcell :=
  let a := details_style s k codes in
  match marker_level s with
  | L_none => []
  | L_brief => match k with
               | K_csi p _ f => match csi_sort p f with C_sgr => name_cells a (code_names codes) | _ => [] end
               | _ => []
               end
  | L_full => styled a (tl w)
  end.
Definition separators (s : settings) : bool :=
  negb (s_no_separators s) && match marker_level s with L_none => false | _ => true end.

(** A token in text mode: what is shown for it, and the decoration that follows it. *)
Definition text_cells (s : settings) (k : kind) (w codes : list N) : list tcell * list tcell :=
  if s_ignore s (class_of k) then
    (flat_map (fun _ => (ignored_sign, ignored_style)
                        :: match k with K_newline => [(10, ignored_style)] | _ => [] end) w, [])
  else if is_escape_seq k then
    ((if separators s then [(0x28B8, separator_style)] else [])
       ++ [(marker s k, label_style s k codes)] ++ escape_details_cells s k w codes,
     if separators s then [(0x2847, separator_style)] else [])
  else
    let st := plain_style s k in
    match k with
    | K_utf8 cp => ([(cp, st)], [])
    | K_newline => ([(marker s k, st); (10, attrs0)], [])
    | K_run R_tab => (flat_map (fun _ => [(marker s k, st); (9, st)]) w, [])
    | K_run R_printable => (styled st w, [])
    | K_run R_control =>
        (flat_map (fun b => (marker s k, st) :: control_details_cells s b) (removelast w) ++ [(marker s k, st)],
         control_details_cells s (last w 0))
    | _ => (styled st (map (fun _ => marker s k) w), [])
    end.

(** what a terminal makes of a character sent to it: characters that cannot be displayed
    (code points 128-159) are leaks *)
Definition to_cell (x : tcell) : cell := if displayable (fst x) then Glyph (fst x) (snd x) else Leak (fst x).
