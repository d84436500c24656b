(** kolombos/byteio/template/: templates and the template registry *)
From Coq Require Import List NArith ZArith Bool.
From Verif.Model Require Import Base Ansi Settings Segment.
Import ListNotations.
Local Open Scope N_scope.

(** The class of the template object *)
Inductive tkind := T_plain | T_control | T_newline | T_printable | T_utf8 | T_esc | T_esc_sgr.

(** template.py:25-39, without the settings-derived attributes *)
Record template := mkT {
  t_kind : tkind;
  t_class : char_class;
  t_opening : pov sgr;
  t_label : pov str
}.

(** template.py:17-23 *)
Definition SEPARATOR_LEFT : str := [0x28B8].
Definition SEPARATOR_RIGHT : str := [0x2847].
Definition IGNORED_LABEL : str := [0xD7].
Definition IGNORED_OPENING_SEQ : sgr := [c_GRAY; c_DIM].
Definition DETAILS_OPENING_SEQ : sgr := [c_BG_COLOR_EXTENDED; c_MODE_256; 16; c_UNDERLINED].

(** template.py:41-47: implicit overrides added by the constructor *)
Definition init_opening (p : pov sgr) : pov sgr :=
  let p1 := if pov_has_key p (K_disp DM_focused) then p
            else pov_set p (K_disp DM_focused) (sgr_add (pov_get p []) [c_INVERSED]) in
  if pov_has_key p1 (K_disp DM_ignored) then p1
  else pov_set p1 (K_disp DM_ignored) IGNORED_OPENING_SEQ.
Definition init_label (p : pov str) : pov str :=
  if pov_has_key p (K_disp DM_ignored) then p
  else pov_set p (K_disp DM_ignored) IGNORED_LABEL.

Definition mkTemplate (k : tkind) (c : char_class) (o : pov sgr) (l : pov str) : template :=
  mkT k c (init_opening o) (init_label l).

(** template.py:26-29: plain values are wrapped into overrides without entries *)
Definition plain {A} (a : A) : pov A := mkPov a [].

(** registry.py:12-46.  [op_ws]/[op_pr] (L22, L45) are shared objects in the code; the
    constructor's additions to them are idempotent, so sharing makes no difference. *)
Definition op_ws : pov sgr := mkPov [c_HI_CYAN] [(K_disp DM_focused, [c_BG_CYAN; c_BLACK])].
Definition op_pr : pov sgr :=
  mkPov [c_COLOR_EXTENDED; c_MODE_256; 102] [(K_disp DM_focused, [c_BG_WHITE; c_BLACK])].

Definition T_CONTROL_CHAR := mkTemplate T_control CC_control (plain [c_RED]) (plain [0x2C6F]).
Definition T_CONTROL_CHAR_NULL := mkTemplate T_plain CC_control (plain [c_HI_RED]) (plain [0xD8]).
Definition T_CONTROL_CHAR_BACKSPACE := mkTemplate T_plain CC_control (plain [c_RED]) (plain [0x2190]).
Definition T_CONTROL_CHAR_DELETE := mkTemplate T_plain CC_control (plain [c_RED]) (plain [0x2192]).
Definition T_CONTROL_CHAR_ESCAPE := mkTemplate T_plain CC_control (plain [c_HI_YELLOW]) (plain [0x220C]).

Definition T_WHITESPACE_TAB :=
  mkTemplate T_plain CC_space op_ws (mkPov [0x21E5] [(K_read RM_text, [0x21E5; 9])]).
Definition T_WHITESPACE_NEWLINE := mkTemplate T_newline CC_space op_ws (plain [0x21B5]).
Definition T_WHITESPACE_VERT_TAB := mkTemplate T_plain CC_space op_ws (plain [0x2913]).
Definition T_WHITESPACE_FORM_FEED := mkTemplate T_plain CC_space op_ws (plain [0x21A1]).
Definition T_WHITESPACE_CARR_RETURN := mkTemplate T_plain CC_space op_ws (plain [0x21E4]).
Definition T_WHITESPACE_SPACE :=
  mkTemplate T_plain CC_space op_ws (mkPov [0x2423] [(K_disp DM_focused, [0xB7])]).

Definition T_ESCAPE_SEQ_SGR_0 :=
  mkTemplate T_esc CC_esc
    (plain [c_COLOR_EXTENDED; c_MODE_256; 255; c_BG_COLOR_EXTENDED; c_MODE_256; 16]) (plain [0x3B8]).
Definition T_ESCAPE_SEQ_SGR :=
  mkTemplate T_esc_sgr CC_esc
    (plain [c_COLOR_EXTENDED; c_MODE_256; 210; c_BG_COLOR_EXTENDED; c_MODE_256; 16]) (plain [0x1DD]).
Definition T_ESCAPE_SEQ_CSI := mkTemplate T_esc CC_esc (plain [c_HI_GREEN]) (plain [0x3FD]).
Definition T_ESCAPE_SEQ_NF := mkTemplate T_esc CC_esc (plain [c_GREEN]) (plain [0xA7FB]).
Definition T_ESCAPE_SEQ_FP := mkTemplate T_esc CC_esc (plain [c_YELLOW]) (plain [0xA7FC]).
Definition T_ESCAPE_SEQ_FE := mkTemplate T_esc CC_esc (plain [c_YELLOW]) (plain [0x18E]).
Definition T_ESCAPE_SEQ_FS := mkTemplate T_esc CC_esc (plain [c_YELLOW]) (plain [0xA644]).

Definition T_UTF_8_SEQ :=
  mkTemplate T_utf8 CC_utf8 (plain [c_HI_BLUE]) (mkPov [] [(K_read RM_binary, [0x25AF])]).
Definition T_BINARY_DATA :=
  mkTemplate T_plain CC_binary (plain [c_MAGENTA]) (mkPov [0x1E06] [(K_read RM_binary, [0x25AF])]).
Definition T_PRINTABLE_CHAR := mkTemplate T_printable CC_printable op_pr (plain []).

(** template.py:51-56 [update_settings] together with the two settings read directly by the
    escape templates: everything a template looks at while substituting.  The order of the
    reads matters: [read_mode] resolves the mode and stores it, [effective_marker_details]
    then sees the stored value. *)
Record tenv := mkTenv {
  te_display : char_class -> display_mode;
  te_read : read_mode;
  te_details : marker_details;
  te_decode : bool;
  te_no_separators : bool;
  te_color_markers : bool
}.
Definition update_settings (s : settings) : tenv :=
  let disp := get_display_mode s in
  let '(rm, s1) := get_read_mode s in
  mkTenv disp rm (effective_marker_details s1)
         (match s_decode s1 with Some d => d | None => false end)
         (s_no_separators s1) (s_color_markers s1).

Definition t_disp (e : tenv) (t : template) : display_mode := te_display e (t_class t).

(** the lookup [stack.get(self._display_mode, self._read_mode)] *)
Definition mode_get {A} (e : tenv) (t : template) (p : pov A) : A :=
  pov_get p [K_disp (t_disp e t); K_read (te_read e)].

(** const.py:55-63 *)
Definition type_label (c : char_class) : str :=
  match c with
  | CC_control => [67] | CC_esc => [69] | CC_space => [83]
  | CC_utf8 => [85] | CC_binary => [66] | CC_printable => [80]
  end.
Definition TYPE_LABEL_DETAILS : str := [42].

(** template.py:80-81 *)
Definition process_byte_base (e : tenv) (t : template) (b : N) : str := mode_get e t (t_label t).

(** [_process_byte]: template.py:80-81, template_newline.py:17-26, template_printable.py:17-21.
    [Seqs.RESET] inside an f-string is [str(seq)] = assemble. *)
Definition process_byte (e : tenv) (t : template) (b : N) : str :=
  match t_kind t with
  | T_newline =>
      let default := process_byte_base e t b in
      if is_text (te_read e) then
        if is_ignored (t_disp e t) then default ++ [10]
        else default ++ assemble [0] ++ [10]
      else default
  | T_printable =>
      if is_ignored (t_disp e t) then process_byte_base e t b else [b]
  | _ => process_byte_base e t b
  end.

(** template.py:77-78 *)
Definition process_base (e : tenv) (t : template) (raw : bytes) : str := flat_map (process_byte e t) raw.

(** [raw.decode('utf8', errors='replace')] for the byte strings it is called with, i.e. those
    matched by group 0 of the parser regex (2-4 bytes, well-formed); anything else is
    represented by one replacement character. *)
Definition utf8_decode (raw : bytes) : str :=
  match raw with
  | [a; b] => [(a - 192) * 64 + (b - 128)]
  | [a; b; c] => [(a - 224) * 4096 + (b - 128) * 64 + (c - 128)]
  | [a; b; c; d] => [(a - 240) * 262144 + (b - 128) * 4096 + (c - 128) * 64 + (d - 128)]
  | _ => [0xFFFD]
  end.

(** [_process]: template.py:77-78, template_utf8.py:19-34 *)
Definition process (e : tenv) (t : template) (raw : bytes) : str :=
  match t_kind t with
  | T_utf8 =>
      if is_ignored (t_disp e t) then process_base e t raw
      else if (is_text (te_read e) || te_decode e)%bool then
        let decoded := utf8_decode raw in
        if is_binary (te_read e) then
          if (length decoded <? length raw)%nat then rjust 95 (length raw) decoded
          else if (length raw <? length decoded)%nat then firstn (length raw) decoded
          else decoded
        else decoded
      else process_base e t raw
  | _ => process_base e t raw
  end.

(** template_escape_sgr.py:26-28: the mutable attributes of the SGR template *)
Record sgr_state := mkSgrState {
  ss_fmt_str : option str;       (* _details_fmt_str *)
  ss_brief : option str;         (* _brief_details_processed *)
  ss_opening : option sgr        (* _details_opening_seq *)
}.
Definition sgr_state_init : sgr_state := mkSgrState None None None.

(** [int(p)] on the characters that can occur in group 6 of the parser regex (0x30-0x3f):
    a non-empty string of at most 4300 digits (the limit CPython sets by default; leading zeros
    count) is converted, everything else raises ValueError. *)
Definition is_digit (c : N) : bool := (48 <=? c) && (c <=? 57).
Definition py_int (s : str) : result N :=
  match s with
  | [] => Err ValueError
  | _ => if forallb is_digit s && (N.of_nat (length s) <=? 4300)
         then Ok (fold_left (fun acc c => acc * 10 + (c - 48)) s 0)
         else Err ValueError
  end.

Fixpoint map_result {A B} (f : A -> result B) (l : list A) : result (list B) :=
  match l with
  | [] => Ok []
  | x :: t => bind (f x) (fun y => bind (map_result f t) (fun ys => Ok (y :: ys)))
  end.

(** template_escape_sgr.py:38-39 *)
Definition parse_pcodes (s : str) : result (list N) :=
  map_result (fun p => py_int (hd [] (split_on 58 p)))
             (filter (fun p => match p with [] => false | _ => true end) (split_on 59 s)).

(** template_escape_sgr.py:18-22 *)
Definition ALLOWED_SGRS : list N := [c_DIM; c_ITALIC; c_OVERLINED; c_CROSSLINED] ++ LIST_ALL_COLORS.

(** template_escape_sgr.py:42-60: (allowed codes, brief names) *)
Fixpoint brief_loop (pcodes : list N) : list N * list str :=
  match pcodes with
  | [] => ([], [])
  | p :: rest =>
      let plain_code :=
        let '(al, nm) := brief_loop rest in
        let keep := if (p =? c_COLOR_EXTENDED) || (p =? c_BG_COLOR_EXTENDED) then false
                    else existsb (N.eqb p) ALLOWED_SGRS in
        (if keep then p :: al else al, dec p :: nm) in
      if (p =? c_COLOR_EXTENDED) || (p =? c_BG_COLOR_EXTENDED) then
        let brief_type := if p =? c_COLOR_EXTENDED then 70 else 66 in
        match rest with
        | m :: n :: rest2 =>
            if m =? c_MODE_256 then
              let '(al, nm) := brief_loop rest2 in
              (p :: m :: n :: al, (brief_type :: dec n) :: nm)
            else
              match rest2 with
              | g :: b :: rest4 =>
                  if m =? c_MODE_RGB then
                    let '(al, nm) := brief_loop rest4 in
                    (p :: m :: n :: g :: b :: al,
                     (brief_type :: fmt_hex_up 6 (n * 256 * 256 + g * 256 + b)) :: nm)
                  else plain_code
              | _ => plain_code
              end
        | _ => plain_code
        end
      else plain_code
  end.

(** template_escape_sgr.py:16,62: separator between brief names *)
Definition brief_separator : str := assemble [c_UNDERLINED_OFF] ++ [0xFF65] ++ assemble [c_UNDERLINED].

(** template_escape_sgr.py:35-63 [set_details_fmt_str]; [s.decode('ascii')] cannot fail on
    group 6.  On ValueError the object keeps the attributes already assigned, which is
    irrelevant because the exception ends the program. *)
Definition set_details_fmt_str (s : bytes) : result sgr_state :=
  bind (parse_pcodes s) (fun pcodes =>
    let '(allowed, names) := brief_loop pcodes in
    Ok (mkSgrState (Some s) (Some (join brief_separator names)) (Some allowed))).

(** template_escape.py:65-66 / template_escape_sgr.py:70-73 [_get_label_opening_seq];
    adding to None raises TypeError *)
Definition label_opening_seq (e : tenv) (t : template) (ss : sgr_state) : result sgr :=
  match t_kind t, te_color_markers e with
  | T_esc_sgr, true =>
      match ss_opening ss with
      | Some o => Ok (sgr_add o [])
      | None => Err TypeError
      end
  | _, _ => Ok (sgr_add (mode_get e t (t_opening t)) [])
  end.

(** template_escape.py:68-69, template_control.py:69-70, template_escape_sgr.py:75-78 *)
Definition details_opening_seq (e : tenv) (t : template) (ss : sgr_state) : result sgr :=
  match t_kind t with
  | T_esc_sgr =>
      if negb (te_color_markers e) then Ok DETAILS_OPENING_SEQ
      else match ss_opening ss with
           | Some o => Ok (sgr_add DETAILS_OPENING_SEQ o)
           | None => Err TypeError
           end
  | _ => Ok (sgr_add (pov_get (t_opening t) []) DETAILS_OPENING_SEQ)
  end.

(** template_escape.py:62-63 / template_escape_sgr.py:65-68, 30-33 [_get_brief_details_processed] *)
Definition brief_details_processed (t : template) (ss : sgr_state) : result str :=
  match t_kind t with
  | T_esc_sgr =>
      match ss_brief ss with
      | Some s => Ok s
      | None => match ss_fmt_str ss with Some f => Ok f | None => Err ValueError end
      end
  | _ => Ok []
  end.

(** template_control.py:20-25 [_brief_label_map] *)
Definition brief_label_map : list (N * N) :=
  [(1, 65); (2, 66); (3, 67); (4, 68); (5, 69); (6, 70); (7, 71); (14, 78); (15, 79); (16, 80);
   (17, 81); (18, 82); (19, 83); (20, 84); (21, 85); (22, 86); (23, 87); (24, 88); (25, 89);
   (26, 90); (28, 92); (29, 93); (30, 94); (31, 95)].

(** [raw.decode('ascii', errors='ignore')] *)
Definition ascii_ignore (raw : bytes) : str := filter (fun b => b <? 128) raw.

(** template.py:58-67 [Template.substitute] *)
Definition substitute_base (e : tenv) (t : template) (raw : bytes) : list segment :=
  [mkSeg (mode_get e t (t_opening t)) (type_label (t_class t)) raw (process e t raw)].

(** template_control.py:50-67 [_fill_additional_segments] for one byte *)
Definition control_details (e : tenv) (t : template) (ss : sgr_state) (b : N) : result (list segment) :=
  if is_ignored (t_disp e t) then Ok []
  else match te_details e with
       | MD_strict | MD_no => Ok []
       | MD_brief =>
           match assoc b brief_label_map with
           | None => Err KeyError
           | Some c => bind (details_opening_seq e t ss) (fun o =>
                         Ok [mkSeg o TYPE_LABEL_DETAILS [] [c]])
           end
       | MD_full =>
           bind (details_opening_seq e t ss) (fun o =>
             Ok [mkSeg o TYPE_LABEL_DETAILS [] (fmt_hex_lo 2 b)])
       end.

(** template_control.py:39-46: the loop over the bytes of a run.  [bytes(label_raw)] with an int
    argument is, in Python, that many zero bytes. *)
Fixpoint control_loop (e : tenv) (t : template) (ss : sgr_state) (raw : bytes) : result (list segment) :=
  match raw with
  | [] => Ok []
  | b :: rest =>
      let primary := mkSeg (mode_get e t (t_opening t)) (type_label (t_class t))
                           (repeat 0 (N.to_nat b)) (process_byte e t b) in
      bind (control_details e t ss b) (fun det =>
      bind (control_loop e t ss rest) (fun more =>
        Ok (primary :: det ++ more)))
  end.

(** template.py:100-103 [wrap_in_separators] on a segment list *)
Definition wrap_in_separators (l : list segment) : list segment :=
  mkSeg [c_COLOR_EXTENDED; c_MODE_256; 255] [] [] SEPARATOR_LEFT
  :: l ++ [mkSeg [c_COLOR_EXTENDED; c_MODE_256; 255] [] [] SEPARATOR_RIGHT].

(** template_escape.py:49-60 [_fill_additional_segments] *)
Definition esc_details (e : tenv) (t : template) (ss : sgr_state) (params : bytes) : result (list segment) :=
  match te_details e with
  | MD_no => Ok []
  | MD_brief =>
      bind (brief_details_processed t ss) (fun p =>
      bind (details_opening_seq e t ss) (fun o =>
        Ok [mkSeg o TYPE_LABEL_DETAILS params p]))
  | _ =>
      bind (details_opening_seq e t ss) (fun o =>
        Ok [mkSeg o TYPE_LABEL_DETAILS params (ascii_ignore params)])
  end.

(** [substitute]: template.py:58-67, template_control.py:27-48, template_escape.py:23-47 *)
Definition substitute (e : tenv) (t : template) (ss : sgr_state) (raw : bytes) : result (list segment) :=
  match t_kind t with
  | T_control =>
      match te_details e with
      | MD_strict | MD_no =>
          Ok [mkSeg (mode_get e t (t_opening t)) (type_label (t_class t)) raw (process e t raw)]
      | _ => control_loop e t ss raw
      end
  | T_esc | T_esc_sgr =>
      if is_ignored (t_disp e t) then Ok (substitute_base e t raw)
      else
        let label_raw := firstn 1 raw in
        let params_raw := skipn 1 raw in
        bind (label_opening_seq e t ss) (fun o =>
        bind (esc_details e t ss params_raw) (fun det =>
          let segs := mkSeg o (type_label (t_class t)) label_raw (process e t label_raw) :: det in
          Ok (if (negb (is_binary (te_read e)) && negb (te_no_separators e)
                  && match te_details e with MD_brief | MD_full => true | _ => false end)%bool
              then wrap_in_separators segs else segs)))
  | _ => Ok (substitute_base e t raw)
  end.
