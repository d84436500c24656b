(** dev/generate_legend.py: how kolombos/legend.ansi is made from dev/legend.tpl.ansi. *)
From Coq Require Import Ascii String.
From Coq Require Import List NArith ZArith Bool.
From Verif.Model Require Import Base Ansi Strip Settings Segment Template Color Render Legend SgrNames Es7sTemplate.
Import ListNotations.
Local Open Scope N_scope.

(** The lines of dev/legend.tpl.ansi, byte by byte *)
Definition template_source : list string := [
  "^{bold;hi_green}    __         ^{blue              }__                __^{}";
  "^{bold;hi_green}   / /^{hi_green}__^{hi_blue}____  / /___  ____ ___  / /_  ____ ^{hi_yellow} _____^{}";
  "^{bold;green   }  / //_/^{cyan} __ \/ / __ \^{magenta    }/ __ '__ \/ __ \/ __ \^{yellow   }/ ___/^{}";
  "^{bold;hi_blue } / ,< ^{cyan}/ /_/ / / /_/ ^{magenta    }/ / / / / / /_/ / /_/ ^{yellow   }(__  )^{}";
  "^{bold;blue    }/_/|_|^{blue}\____/_/\____#{}········{}#/_/ /_/ /_/\.___/\____^{yellow   }/____/^{}";
  "#{}··········{}#       #{}{}#             #{}········{}#                        ^{hi_yellow}v:{ver}^{}";
  "";
  ":{fmt_header}CHARACTER CLASSES^{}";
  "  :{fmt_comment}<^{}:{fmt_cc}S^{}:{fmt_comment}>^{}   ASCII whitespace chars   09-0d, 20      :{fmt_param}-s -S^{}";
  "  :{fmt_comment}<^{}:{fmt_cc}C^{}:{fmt_comment}>^{}   ASCII control chars      01-08, 0e-1f   :{fmt_param}-c -C^{}";
  "  :{fmt_comment}<^{}:{fmt_cc}P^{}:{fmt_comment}>^{}   ASCII printable chars    21-7e          :{fmt_param}-p -P^{}";
  "  :{fmt_comment}<^{}:{fmt_cc}I^{}:{fmt_comment}>^{}   binary data              80-ff          :{fmt_param}-i -I^{}";
  "  :{fmt_comment}<^{}:{fmt_cc}U^{}:{fmt_comment}>^{}   UTF-8 sequences          various        :{fmt_param}-u -U^{}";
  "  :{fmt_comment}<^{}:{fmt_cc}E^{}:{fmt_comment}>^{}   ANSI escape sequences    1b[..]         :{fmt_param}-e -E^{}";
  "";
  ":{fmt_header}SIGILS^{}";
  " :{fmt_thead}CHAR(s)^{} :{fmt_thead}OUTPUT (regular/focused)^{}  :{fmt_thead}CLS^{} :{fmt_thead}             DESCRIPTION and NOTES                            ^{}";
  "         :{fmt_thead}TEXT mode^{} :{fmt_thead} BINARY mode ^{}";
  " :{separator}";
  " :{ex_s_tab  }:{fmt_comment}<^{}:{fmt_cc}:{fmt_cc}S^{}:{fmt_comment}>^{} horizontal tab    :{fmt_comment}HT  ""^{bold}\t^{}:{fmt_comment}""        origin is kept;^{}";
  " :{ex_s_lf   }:{fmt_comment}<^{}:{fmt_cc}S^{}:{fmt_comment}>^{} line feed         :{fmt_comment}LF  ""^{bold}\n^{}:{fmt_comment}""        origin is kept;^{}";
  " :{ex_s_vtab }:{fmt_comment}<^{}:{fmt_cc}S^{}:{fmt_comment}>^{} vertical tab      :{fmt_comment}VT  ""^{bold}\v^{}:{fmt_comment}""^{}";
  " :{ex_s_ff   }:{fmt_comment}<^{}:{fmt_cc}S^{}:{fmt_comment}>^{} form feed         :{fmt_comment}FF  ""^{bold}\f^{}:{fmt_comment}""^{}";
  " :{ex_s_cr   }:{fmt_comment}<^{}:{fmt_cc}S^{}:{fmt_comment}>^{} carriage return   :{fmt_comment}CR  ""^{bold}\r^{}:{fmt_comment}""^{}";
  " :{ex_s_space}:{fmt_comment}<^{}:{fmt_cc}S^{}:{fmt_comment}>^{} space             :{fmt_comment}SP";
  " :{separator}";
  " :{ex_c_misc0}:{fmt_comment}<^{}:{fmt_cc}C^{}:{fmt_comment}>^{} generic control char    :{fmt_comment}CCs without unique sigil;^{}";
  " :{ex_c_misc1}    :{fmt_param}--text --marker=:{fmt_m1}1^{}   :{fmt_comment}char from caret notation: ^C;";
  " :{ex_c_misc2}    :{fmt_param}--text --marker=:{fmt_m2}2^{}    :{fmt_comment}real char hexadecimal value;";
  "";
  " :{ex_c_null }:{fmt_comment}<^{}:{fmt_cc}C^{}:{fmt_comment}>^{} null byte        :{fmt_comment}NUL  ""^{bold}\0^{}:{fmt_comment}""^{}";
  " :{ex_c_bskpc}:{fmt_comment}<^{}:{fmt_cc}C^{}:{fmt_comment}>^{} backspace        :{fmt_comment} BS  ""^{bold}\b^{}:{fmt_comment}""^{}";
  " :{ex_c_del  }:{fmt_comment}<^{}:{fmt_cc}C^{}:{fmt_comment}>^{} delete           :{fmt_comment}DEL";
  " :{ex_c_esc  }:{fmt_comment}<^{}:{fmt_cc}C^{}:{fmt_comment}>^{} escape           :{fmt_comment}ESC  ""^{bold}\e^{}:{fmt_comment}"" (shell)^{}";
  " :{separator}";
  " :{ex_p_print}:{fmt_comment}<^{}:{fmt_cc}P^{}:{fmt_comment}>^{} ASCII printable char";
  " :{ex_p_print2}";
  " :{separator}";
  " :{ex_i_2    }:{fmt_comment}<^{}:{fmt_cc}I^{}:{fmt_comment}>^{} binary data  :{fmt_param}-t^{}     :{fmt_comment}sequences that cannot be cla-^{}";
  " :{ex_i_1    }                 :{fmt_param}-b^{}     :{fmt_comment}ssified as any of the others;^{}";
  " :{separator}";
  " :{ex_u_3    }:{fmt_comment}<^{}:{fmt_cc}U^{}:{fmt_comment}>^{} UTF-8 sequence  :{fmt_param}--text^{}:{fmt_comment}        decoded by default;^{}";
  " :{ex_u_1    }                    :{fmt_param}--binary^{}";
  " :{ex_u_2    }                    :{fmt_param}--binary^{} :{fmt_param}--decode^{}";
  " :{separator}";
  " :{ex_e_reset_m0}:{fmt_comment}<^{}:{fmt_cc}E^{}:{fmt_comment}>^{} SGR reset sequence  :{fmt_comment}all params always underlined;^{}";
  " :{ex_e_reset_m1}    :{fmt_param}-m1:{fmt_m1}·^{}  :{fmt_comment}separators become visible when ^{bold}m^{}:{fmt_comment} is 1 or 2;^{}";
  " :{ex_e_reset_m2}    :{fmt_param}-m2:{fmt_m2}·^{}  :{fmt_comment}real SGR contents except ESC -> ""^{bold}ǝ^{}:{fmt_comment}"" or ""^{bold}θ^{}:{fmt_comment}"";";
  "";
  " :{ex_e_sgr_m0  }:{fmt_comment}<^{}:{fmt_cc}E^{}:{fmt_comment}>^{} SGR sequence    :{fmt_comment}label color q to <^{}:{fmt_cc}C^{}:{fmt_comment}> class;^{}";
  " :{ex_e_sgr_m0c }          :{fmt_param}--color-markers^{}  :{fmt_comment}marker colors match SGR's;^{}";
  " :{ex_e_sgr_m1  }    :{fmt_param}-m1:{fmt_m1}·^{}  :{fmt_param}--color-markers^{}  :{fmt_comment}index-16 fg and bold code;^{}";
  " :{ex_e_sgr_m1_2}    :{fmt_param}-m1:{fmt_m1}·^{}  :{fmt_param}--color-markers^{}  :{fmt_comment}index-256 fg and bg codes;^{}";
  " :{ex_e_sgr_m1_3}    :{fmt_param}-m1:{fmt_m1}·^{}  :{fmt_param}--color-markers^{}  :{fmt_comment}true color RGB hex. value;^{}";
  " :{ex_e_sgr_m2}      :{fmt_param}-m2:{fmt_m2}·^{}  :{fmt_comment}real SGR contents; same data as in prev.ex.^{}";
  "";
  " :{ex_e_csi  }:{fmt_comment}<^{}:{fmt_cc}E^{}:{fmt_comment}>^{} CSI sequence  :{fmt_param}-m2:{fmt_m2}·^{}     :{fmt_comment}color depends on seq type,^{}";
  " :{ex_e_nf   }:{fmt_comment}<^{}:{fmt_cc}E^{}:{fmt_comment}>^{}  nF sequence  :{fmt_param}-m2:{fmt_m2}·^{}  :{fmt_param}-e^{}     :{fmt_comment}not on seq params (in^{}";
  " :{ex_e_fp   }:{fmt_comment}<^{}:{fmt_cc}E^{}:{fmt_comment}>^{}  Fp sequence  :{fmt_param}-m2:{fmt_m2}·^{}  :{fmt_param}-e^{}       :{fmt_comment}contrast with SGRs).^{}";
  " :{ex_e_fe   }:{fmt_comment}<^{}:{fmt_cc}E^{}:{fmt_comment}>^{}  Fe sequence  :{fmt_param}-m1:{fmt_m1}·^{}";
  " :{ex_e_fs   }:{fmt_comment}<^{}:{fmt_cc}E^{}:{fmt_comment}>^{}  Fs sequence";
  " :{separator}";
  "";
  ":{fmt_comment}For the best view your terminal should be ^{bold}88^{bold_dim_off} chars wide (or wider)^{}";
  "";
  ":{fmt_comment}Is a part of ^{bold;white}es7s:{fmt_comment} pack^{}";
  ":{fmt_comment}(c) 2022—2023 A. Shavykin^{}";
  ":{fmt_comment}<^{hi_blue}0:{fmt_comment}.delameter@gmail.com>^{}";
  "" ]%string.
Definition template_bytes : bytes := join [10] (map (fun l => map N_of_ascii (list_ascii_of_string l)) template_source).

(** L40-45 [sanitize], [render_label]; [tty]: see Help.v *)
Definition sanitize (s : str) : str := filter (fun c => negb ((c =? 9) || (c =? 10))) s.
Definition render_style (cf : rconf) (g : style_args) (text : str) : result str :=
  bind (style_init g) (fun s => fst (sgr_render cf (mkRstate approx_init approx_init) text s)).
Definition label_args (fg bg : color_arg) (bold : bool) : style_args :=
  mkArgs None fg bg None (Some bold) None None None None None None None None.
Definition render_label (cf : rconf) (char : str) : result str :=
  render_style cf (label_args (CA_int 0xFFFFFF) (CA_int 0) true) ([32] ++ sanitize char ++ [32]).
Definition RGB_GREY_40 : pcolor := ColorRGB (Some 0x666666%Z).
Definition RGB_GREY_20 : pcolor := ColorRGB (Some 0x333333%Z).
Definition no_label (cf : rconf) : result str :=
  render_style cf (label_args (CA_color RGB_GREY_40) CA_none false) (txt " (*) ").

(** L180-203 [substitute_with]: the settings are those created at L35, with all attributes a template
    reads set anew (the flags of other character classes keep former values and are not read).
    [set_details_fmt_str] is called for templates of class EscapeSequenceSGRTemplate only. *)
Definition call_settings (t : template) (dm : display_mode) (rm : read_mode) (md : Z) (dec_ colors seps : bool) : settings :=
  mkSettings (is_binary rm) (is_text rm) RM_text None None false 0 (Some dec_) None
    (fun c => match dm with DM_focused => (match t_class t, c with
                                           | CC_control, CC_control | CC_esc, CC_esc | CC_space, CC_space
                                           | CC_utf8, CC_utf8 | CC_binary, CC_binary | CC_printable, CC_printable => true
                                           | _, _ => false
                                           end)
                        | _ => false end)
    (fun _ => false) false md None None colors false (negb seps) false false false.
Definition substitute_with (t : template) (raw : bytes) (dm : display_mode) (rm : read_mode) (md : Z)
                           (dec_ colors seps : bool) (params : option bytes) : result (list segment) :=
  let e := update_settings (call_settings t dm rm md dec_ colors seps) in
  bind (match t_kind t, params with
        | T_esc_sgr, Some p => set_details_fmt_str p
        | _, _ => Ok sgr_state_init
        end) (fun ss => substitute e t ss raw).

(** L206-223 [segs_to_hex]; [used] is [cur_b] *)
Definition hex_bytes (b : bytes) : str := join [32] (map (fmt_hex_lo 2) b).
Fixpoint hex_loop (used : nat) (segs : list segment) : str * bool :=
  match segs with
  | [] => ([], false)
  | s :: rest =>
      let cur := firstn (4 - used) (seg_raw s) in
      let over := (0 <? List.length cur)%nat && (4 <? List.length (seg_raw s) + used)%nat in
      let hex := if over then removelast (hex_bytes cur) else hex_bytes cur in
      let piece := span_wrap (seg_open s) (32 :: hex) in
      let used := (used + List.length cur)%nat in
      if (4 <=? used)%nat then (piece, over)
      else let '(more, e) := hex_loop used rest in (piece ++ more, over || e)
  end.
Definition segs_to_hex (segs : list segment) : str :=
  let '(r, excessive) := hex_loop 0 segs in if excessive then r ++ [0x2025] else r.
(** L226-227 [segs_to_processed] *)
Definition segs_to_processed (segs : list segment) : str := flat_map (fun s => span_wrap (seg_open s) (sanitize (seg_proc s))) segs.

(** L230-261 [format_example] and the columns: label, example, focused example, in hexadecimal
    notation, the same focused; [None]: column left out.  The labels are joined at the places of
    the null characters. *)
Definition format_example (label : str) (hex_default hex_focused chr_default chr_focused : option str) : str :=
  let col (f : str -> str) (o : option str) := match o with Some s => f s | None => [] end in
  center_sgr label 7 32
  ++ col (fun s => rjust_sgr s 5 32 ++ [32]) chr_default
  ++ col (fun s => ljust_sgr s 5 32) chr_focused
  ++ col (fun s => rjust_sgr s 6 32) hex_default
  ++ col (fun s => rjust_sgr s 6 32 ++ [32]) hex_focused
  ++ repeat 32 3.

(** L48-100 [invoke_default] *)
Definition all_segs (l : list (result (list segment))) : result (list (list segment)) := all_ok (fun x => x) l.
Definition idef_labels (cf : rconf) (t : template) (rm : read_mode) : result str :=
  let d := pov_get (t_label t) [K_disp DM_default; K_read rm] in
  let f := pov_get (t_label t) [K_disp DM_focused; K_read rm] in
  bind (match d with [] => no_label cf | _ => render_label cf d end) (fun l =>
    if (match f with [] => false | _ => true end) && negb (eqb_list f d)
    then bind (render_label cf f) (fun l2 => Ok (l ++ [32] ++ l2))
    else Ok l).
Definition idef (cf : rconf) (t : template) (regular focused : list bytes) (rm : read_mode) (label hex : bool) (md : Z) : result str :=
  bind (if label then idef_labels cf t rm else Ok []) (fun lab =>
  let shown dm raws := all_ok (fun raw => substitute_with t raw dm rm md false false true None) raws in
  let hexed dm raws := if hex then all_ok (fun raw => substitute_with t raw dm RM_binary md false false true None) raws else Ok [] in
  bind (shown DM_default regular) (fun cd => bind (shown DM_focused focused) (fun cf_ =>
  bind (hexed DM_default regular) (fun hd => bind (hexed DM_focused focused) (fun hf =>
    Ok (format_example lab (Some (flat_map segs_to_hex hd)) (Some (flat_map segs_to_hex hf))
                       (Some (flat_map segs_to_processed cd)) (Some (flat_map segs_to_processed cf_)))))))).

(** L103-144 [invoke_on_escape_sequences]; a sequence is given by its bytes and its parameters *)
Definition iesq (cf : rconf) (t : template) (raw : bytes) (params : option bytes) (md : Z) (label focus hex colors : bool) : result str :=
  let dm := if focus then DM_focused else DM_default in
  bind (if label then render_label cf (pov_get (t_label t) []) else Ok []) (fun lab =>
  bind (if hex then bind (substitute_with t raw dm RM_binary 1 false colors true params)
                         (fun l => Ok (Some (rjust_sgr (segs_to_hex l) 12 32 ++ [32])))
        else Ok None) (fun h =>
  bind (substitute_with t raw dm RM_text md false colors true params) (fun l =>
    Ok (format_example lab h None (Some (center_sgr (segs_to_processed l) 10 32)) None)))).
(** the bytes of a sequence and what group 3 of SGR_REGEXP is (L115-120) *)
Definition seq_bytes (p : sgr) : bytes := assemble p.
Definition seq_params (p : sgr) : bytes := removelast (skipn 2 (assemble p)).

(** L147-177 [invoke_on_utf8]; in text mode there is no label of the program *)
Definition iutf (cf : rconf) (t : template) (raws : list bytes) (rm : read_mode) (dec_ : bool) (shift : nat) : result str :=
  bind (if dec_ then render_label cf (txt "_")
        else match rm with RM_text => no_label cf | RM_binary => render_label cf (pov_get (t_label t) [K_read RM_binary]) end) (fun lab =>
  let dm (i : nat) := match i with O => DM_default | _ => DM_focused end in
  bind (all_ok (fun '(i, raw) => substitute_with t raw (dm i) rm 1 dec_ false true None)
               (combine (seq 0 (List.length raws)) raws)) (fun segs =>
    Ok (format_example lab (Some (ljust_sgr (segs_to_hex (concat segs)) 13 32)) None
          (Some (repeat 32 shift ++ center_sgr (join [32] (map segs_to_processed segs)) 8 32)) None))).

(** L263-335 [VARIABLES]; sequences are shown by [str()].  The variables [ex_e_reset_lbl],
    [ex_e_sgr_lbl] and [ex_u_lbl], examples of nothing, are not used in the template. *)
Definition raw1 (b : N) : list bytes := [[b]].
Definition byte_example (cf : rconf) (t : template) (b : N) := idef cf t (raw1 b) (raw1 b) RM_binary true true 0.
Definition RESET_SEQ : sgr := [0].
Definition crgb2 : sgr := [38; 2; 0xAA; 0x6A; 0x6A].
Definition sgr_example (cf : rconf) (t : template) (p : sgr) (md : Z) (label hex colors : bool) : result str :=
  iesq cf t (seq_bytes p) (Some (seq_params p)) md label false hex colors.
Definition variables (cf : rconf) (version : str) : list (string * result str) := [
  ("ver", Ok version);
  ("ex_s_tab", byte_example cf T_WHITESPACE_TAB 9);
  ("ex_s_lf", byte_example cf T_WHITESPACE_NEWLINE 10);
  ("ex_s_vtab", byte_example cf T_WHITESPACE_VERT_TAB 11);
  ("ex_s_ff", byte_example cf T_WHITESPACE_FORM_FEED 12);
  ("ex_s_cr", byte_example cf T_WHITESPACE_CARR_RETURN 13);
  ("ex_s_space", byte_example cf T_WHITESPACE_SPACE 32);
  ("ex_c_misc0", idef cf T_CONTROL_CHAR (raw1 3) (raw1 30) RM_binary true true 0);
  ("ex_c_misc1", idef cf T_CONTROL_CHAR (raw1 3) (raw1 30) RM_text false false 1);
  ("ex_c_misc2", idef cf T_CONTROL_CHAR (raw1 3) (raw1 30) RM_text false false 2);
  ("ex_c_null", byte_example cf T_CONTROL_CHAR_NULL 0);
  ("ex_c_bskpc", byte_example cf T_CONTROL_CHAR_BACKSPACE 8);
  ("ex_c_del", byte_example cf T_CONTROL_CHAR_DELETE 127);
  ("ex_c_esc", byte_example cf T_CONTROL_CHAR_ESCAPE 27);
  ("ex_p_print", idef cf T_PRINTABLE_CHAR [[33]; [34]] [[49]; [50]] RM_binary true true 0);
  ("ex_p_print2", idef cf T_PRINTABLE_CHAR [[65]; [66]] [[125]; [126]] RM_binary false true 0);
  ("ex_e_reset_m0", sgr_example cf T_ESCAPE_SEQ_SGR_0 RESET_SEQ 0 true true true);
  ("ex_e_reset_m1", sgr_example cf T_ESCAPE_SEQ_SGR_0 RESET_SEQ 1 false true true);
  ("ex_e_reset_m2", sgr_example cf T_ESCAPE_SEQ_SGR_0 RESET_SEQ 2 false true true);
  ("ex_e_sgr_m0", sgr_example cf T_ESCAPE_SEQ_SGR [34] 0 true true false);
  ("ex_e_sgr_m0c", sgr_example cf T_ESCAPE_SEQ_SGR [33] 0 false true true);
  ("ex_e_sgr_m1", sgr_example cf T_ESCAPE_SEQ_SGR [93; 1] 1 false true true);
  ("ex_e_sgr_m1_2", sgr_example cf T_ESCAPE_SEQ_SGR [38; 5; 88; 48; 5; 16] 1 false true true);
  ("ex_e_sgr_m1_3", sgr_example cf T_ESCAPE_SEQ_SGR crgb2 1 false true true);
  ("ex_e_sgr_m2", sgr_example cf T_ESCAPE_SEQ_SGR crgb2 2 false false false);
  ("ex_e_csi", iesq cf T_ESCAPE_SEQ_CSI [27; 91; 50; 52; 100] None 2 true false true true);
  ("ex_e_nf", iesq cf T_ESCAPE_SEQ_NF [27; 40; 66] None 2 true true true true);
  ("ex_e_fp", iesq cf T_ESCAPE_SEQ_FP [27; 50] None 2 true true true true);
  ("ex_e_fe", iesq cf T_ESCAPE_SEQ_FE [27; 71] None 1 true false true true);
  ("ex_e_fs", iesq cf T_ESCAPE_SEQ_FS [27; 115] None 0 true false true true);
  ("ex_u_1", idef cf T_UTF_8_SEQ [[0xd1]; [0x85]] [[0xd0]; [0xb9]] RM_binary true true 0);
  ("ex_u_2", iutf cf T_UTF_8_SEQ [[0xd1; 0x8b]; [0xe4; 0xb8; 0x96]] RM_binary true 1);
  ("ex_u_3", iutf cf T_UTF_8_SEQ [[0xf0; 0x9f; 0x90; 0x8d]] RM_text false 1);
  ("ex_i_1", idef cf T_BINARY_DATA [[0xee]; [0xb0]] [[0xc0]; [0xcc]] RM_binary true true 0);
  ("ex_i_2", idef cf T_BINARY_DATA [[0xc0]; [0xff]] [[0xee]; [0xda]] RM_text true true 0);
  ("separator", bind (render_style cf (mkArgs None (CA_color RGB_GREY_20) CA_none None None None None None None None None None None)
                                   [0x2500]) (fun s => Ok (concat (repeat s 87))));
  ("fmt_header", Ok (assemble [97; 1])); ("fmt_thead", Ok (assemble [2])); ("fmt_cc", Ok (assemble [1]));
  ("fmt_comment", Ok (assemble [90])); ("fmt_param", Ok (assemble [90; 1]));
  ("fmt_m1", Ok (assemble [38; 5; 117])); ("fmt_m2", Ok (assemble [38; 2; 248; 184; 137])) ]%string.

(** L337-352: the text written; [date]: the time of the call as shown by [%e-%b-%y %R] *)
Definition ends_with_newline (s : str) : bool := match rev' s with 10 :: _ => true | _ => false end.
Definition generate (u : unicode) (cf : rconf) (version date : str) (tpl : bytes) : answer :=
  match decode tpl with
  | None => Err ValueError
  | Some t =>
      bind (all_ok (fun '(n, r) => bind r (fun v => Ok (txt n, v))) (variables cf version)) (fun vars =>
      bind (substitute_template u vars t) (fun '(out, warnings) =>
        Ok ((if ends_with_newline out then out else out ++ [10]) ++ txt "# Generated at " ++ date, warnings)))
  end.
