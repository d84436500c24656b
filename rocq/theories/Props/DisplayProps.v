(** C08-C11, C14-C17: what is displayed for each piece of the input *)
From Coq Require Import List NArith ZArith Bool Lia.
From Verif.Model Require Import Base Ansi Settings Segment Template Parser Reader Runner Options.
From Verif.Spec Require Import Numbers Terminal Utf8 Lexical SgrParams Display Output Input Names Compare History.
From Verif.Proof Require Import ParseClaims LookClaims RunClaims ExampleFacts DisplayExtra.
Import ListNotations.
Local Open Scope N_scope.

(** ** C08 *)

(** Binary mode: the segments of every piece have exactly one character per byte, whatever the
    other settings. *)
Theorem C08_one_char_per_byte : forall s p sb ss ts p' sb' ss',
  is_bytes (pb_raw p) -> Lexes (pb_raw p) ts -> parse (update_settings s) p sb ss = Ok (p', sb', ss') -> binary_mode s = true ->
  exists segss, sb' = attach sb (concat segss) /\
    Forall2 (fun t gs => flat_map seg_raw gs = snd t /\ Forall (fun g => length (seg_proc g) = length (seg_raw g)) gs) ts segss.
Proof. exact parse_binary. Qed.
Print Assumptions C08_one_char_per_byte.

Example C08_example :
  let s := apply_opt (bin_columns 4) O_decode in
  binary_mode s = true /\
  match parse (update_settings s) (mkPbuf [27; 91; 49; 109; 226; 130; 172; 0; 255] true) sbuf_init sgr_state_init with
  | Ok (_, sb, _) => map (fun g => (seg_raw g, seg_proc g)) (queue (sb_chain sb))
      = [([27], [477]); ([91; 49; 109], [91; 49; 109]); ([226; 130; 172], [95; 95; 0x20AC]); ([0], [216]); ([255], [9647])]
  | Err _ => False
  end.
Proof. split; vm_compute; reflexivity. Qed.

(** ** C09 *)

(** Binary mode: see C08 (the bytes of the segments of a piece are the piece).  Text mode: the
    bytes recorded are [recorded]; these are the bytes of the piece except for runs of control
    characters with details and escape sequences without details. *)
Theorem C09_segments_bytes_partial : forall s p sb ss ts p' sb' ss',
  is_bytes (pb_raw p) -> Lexes (pb_raw p) ts -> parse (update_settings s) p sb ss = Ok (p', sb', ss') -> binary_mode s = false ->
  exists segss, sb' = attach sb (concat segss) /\
    Forall2 (fun t gs => flat_map seg_raw gs = recorded s (fst t) (snd t)) ts segss.
Proof. exact parse_text_bytes. Qed.
Print Assumptions C09_segments_bytes_partial.

Theorem C09_segments_bytes_refuted :
  (exists p' sb' ss', parse (update_settings (text_marked 1)) (mkPbuf [3; 3] true) sbuf_init sgr_state_init = Ok (p', sb', ss') /\
     bytes_in (sb_chain sb') = [0; 0; 0; 0; 0; 0]) /\
  (exists p' sb' ss', parse (update_settings default_settings) (mkPbuf [27; 91; 72] true) sbuf_init sgr_state_init = Ok (p', sb', ss') /\
     bytes_in (sb_chain sb') = [27]).
Proof. exact bytes_witness. Qed.
Print Assumptions C09_segments_bytes_refuted.

Example C09_example :
  keeps_bytes default_settings (K_run R_control) = true /\ keeps_bytes (text_marked 1) (K_csi [49] [] 109) = true /\
  match parse (update_settings (text_marked 1)) (mkPbuf [27; 91; 49; 109] true) sbuf_init sgr_state_init with
  | Ok (_, sb, _) => bytes_in (sb_chain sb) = [27; 91; 49; 109]
  | Err _ => False
  end.
Proof. repeat split; vm_compute; reflexivity. Qed.

(** ** C10 *)

(** Whatever the input, its fragmentation, the settings and the way the run ends: the only
    characters of the output that a terminal would not display (or interpret as formatting
    produced by the program) are C1 controls that occur in UTF-8 in the input. *)
Theorem C10_text_leaks_partial : forall s tc src evs chunks p acts en,
  opens src -> binary_mode s = false -> Processed s evs chunks -> byteio_run s tc src evs = (p, acts, en) ->
  forall c, In (Leak c) (screen (pr_out p)) -> 128 <= c /\ c <= 159 /\ occurs (utf8_encode c) (concat chunks).
Proof. exact text_leaks. Qed.
Print Assumptions C10_text_leaks_partial.

Theorem C10_binary_leaks_partial : forall s tc cols src evs chunks p acts en,
  opens src -> binary_ok s tc cols -> Processed s evs chunks -> byteio_run s tc src evs = (p, acts, en) ->
  forall c, In (Leak c) (screen (pr_out p)) -> decoding s = true /\ 128 <= c /\ c <= 159 /\ occurs (utf8_encode c) (concat chunks).
Proof. exact bin_leaks. Qed.
Print Assumptions C10_binary_leaks_partial.

(** Without decoding binary mode leaks nothing. *)
Theorem C10_binary_clean : forall s tc cols src evs chunks p acts en,
  opens src -> binary_ok s tc cols -> Processed s evs chunks -> decoding s = false -> byteio_run s tc src evs = (p, acts, en) ->
  clean (pr_out p).
Proof. exact bin_clean. Qed.
Print Assumptions C10_binary_clean.

(** U+009B (a control sequence introducer) is passed through. *)
Theorem C10_refuted : exists s tc src evs p acts,
  byteio_run s tc src evs = (p, acts, REnd) /\ In (Leak 0x9B) (screen (pr_out p)).
Proof. exact leak_witness. Qed.
Print Assumptions C10_refuted.

Example C10_example : opens SrcStdin /\ binary_mode (text_marked 1) = false /\ Processed (text_marked 1) ex_evs ex_chunks /\
  binary_ok (bin_columns 4) 80 4 /\ decoding (bin_columns 4) = false /\ Processed (bin_columns 4) ex_evs ex_chunks.
Proof.
  split; [now left|]. split; [reflexivity|]. split; [apply ex_processed; now left|].
  split; [repeat split; lia|]. split; [reflexivity|apply ex_processed; now left].
Qed.

(** ** C11 *)

(** Each control character of a run is shown as its sign followed by its details: nothing, the
    caret letter, or two digits that read as its value. *)
Theorem C11_control_details : forall s p sb ss ts p' sb' ss',
  is_bytes (pb_raw p) -> Lexes (pb_raw p) ts -> parse (update_settings s) p sb ss = Ok (p', sb', ss') ->
  binary_mode s = false -> s_ignore s CC_control = false ->
  exists segss, sb' = attach sb (concat segss) /\
    Forall2 (fun t gs => fst t = K_run R_control ->
      exists ds, Forall2 (ControlDetails (marker_level s)) (snd t) ds /\
                 visible (flat_map seg_proc gs) = concat (map (fun d => 0x2C6F :: d) ds)) ts segss.
Proof. exact parse_control. Qed.
Print Assumptions C11_control_details.

Example C11_example :
  (forall m, m = 1 \/ m = 2 -> match parse (update_settings (text_marked (Z.of_N m))) (mkPbuf [3; 28] true) sbuf_init sgr_state_init with
  | Ok (_, sb, _) => flat_map seg_proc (queue (sb_chain sb)) = if m =? 1 then [0x2C6F; 67; 0x2C6F; 92] else [0x2C6F; 48; 51; 0x2C6F; 49; 99]
  | Err _ => False
  end).
Proof. intros m [->| ->]; vm_compute; reflexivity. Qed.

(** ** C14 *)

(** Brief details of an SGR: the names of its codes in order; [Names] says how they read. *)
Theorem C14_sgr_details : forall s p sb ss ts p' sb' ss',
  is_bytes (pb_raw p) -> Lexes (pb_raw p) ts -> parse (update_settings s) p sb ss = Ok (p', sb', ss') ->
  binary_mode s = false -> marker_level s = L_brief -> s_ignore s CC_esc = false ->
  exists segss, sb' = attach sb (concat segss) /\
    Forall2 (fun t gs => forall ps i f, fst t = K_csi ps i f -> csi_sort ps f = C_sgr ->
      exists codes names, ParamCodes ps codes /\ Names codes names /\
        visible (flat_map seg_proc gs) = (if s_no_separators s then [] else [0x28B8]) ++ 0x1DD :: dotted names ++ (if s_no_separators s then [] else [0x2847]))
      ts segss.
Proof. exact parse_sgr. Qed.
Print Assumptions C14_sgr_details.

(** ESC[1;38;5;208;48;2;1;2;3m: 1, F208, B010203 *)
Example C14_example :
  match parse (update_settings (text_marked 1)) (mkPbuf [27; 91; 49; 59; 51; 56; 59; 53; 59; 50; 48; 56; 59; 52; 56; 59; 50; 59; 49; 59; 50; 59; 51; 109] true) sbuf_init sgr_state_init with
  | Ok (_, sb, _) => visible (flat_map seg_proc (queue (sb_chain sb)))
      = [0x28B8; 0x1DD; 49; 0xFF65; 70; 50; 48; 56; 0xFF65; 66; 48; 49; 48; 50; 48; 51; 0x2847]
  | Err _ => False
  end.
Proof. vm_compute. reflexivity. Qed.

(** ** C15 *)

(** With --color-markers, for any parameters of an SGR of the input: none of its segments has an
    influence on bold, blinking, inversion or concealment, nor, but for the details, which are
    underlined by the program, on underlining. *)
Theorem C15_harmless : forall s p sb ss ts p' sb' ss',
  is_bytes (pb_raw p) -> Lexes (pb_raw p) ts -> parse (update_settings s) p sb ss = Ok (p', sb', ss') ->
  s_color_markers s = true -> s_ignore s CC_esc = false ->
  exists segss, sb' = attach sb (concat segss) /\
    Forall2 (fun t gs => forall ps i f, fst t = K_csi ps i f -> csi_sort ps f = C_sgr ->
      Forall (fun g => forall a, protected (sgr_apply (seg_open g) a) a /\
        (seg_label g <> TYPE_LABEL_DETAILS -> a_under (sgr_apply (seg_open g) a) = a_under a)) gs) ts segss.
Proof. exact parse_harmless. Qed.
Print Assumptions C15_harmless.

(** ESC[1;3;5;31;4m: only italic and red remain *)
Example C15_example :
  match parse (update_settings (apply_opt default_settings O_color_markers)) (mkPbuf [27; 91; 49; 59; 51; 59; 53; 59; 51; 49; 59; 52; 109] true) sbuf_init sgr_state_init with
  | Ok (_, sb, _) => map seg_open (queue (sb_chain sb)) = [[3; 31]]
  | Err _ => False
  end.
Proof. vm_compute. reflexivity. Qed.

(** ** C16 *)

(** With the classes [f] ignored, the lines consist of: the sign for each byte of a piece of one
    of these classes (a line break remains one), and for every other piece what is shown for it
    when nothing is ignored. *)
Theorem C16_ignored_text : forall s f tc src evs chunks toks,
  opens src -> binary_mode s = false -> Processed s evs chunks -> Finishes s evs -> Tokens chunks toks ->
  exists p acts, byteio_run (with_ignore s f) tc src evs = (p, acts, REnd) /\
    displays (pr_out p) (lines_with (line_number_cells s) (hidden s f) 1 (token_lines toks)).
Proof. exact text_ignored. Qed.
Print Assumptions C16_ignored_text.

Theorem C16_ignored_binary : forall s f tc cols src evs chunks toks,
  opens src -> binary_ok s tc cols -> Processed s evs chunks -> Finishes s evs -> Tokens chunks toks ->
  exists p acts, byteio_run (with_ignore s f) tc src evs = (p, acts, REnd) /\
    displays (pr_out p) (binary_rows s cols (flat_map (hidden_bytes s f) toks)).
Proof. exact bin_ignored. Qed.
Print Assumptions C16_ignored_binary.

Definition ex_classes (c : char_class) : bool := match c with CC_space | CC_control => true | _ => false end.
Example C16_example : Tokens ex_chunks ex_toks /\ Processed (text_marked 1) ex_evs ex_chunks /\ Finishes (text_marked 1) ex_evs /\
  visible (pr_out (fst (fst (byteio_run (with_ignore (text_marked 1) ex_classes) 80 SrcStdin ex_evs))))
  = [32; 49; 9474; 65; 0x28B8; 477; 49; 0x2847; 215; 10; 32; 50; 9474; 215; 233; 215; 10].
Proof. split; [exact ex_tokens|]. split; [apply ex_processed; now left|]. split; [now left|]. vm_compute. reflexivity. Qed.

(** ** C17 *)

(** With the classes [f] focused, the lines consist of: what is shown for a piece when everything
    is focused if it belongs to one of these classes and is not ignored, otherwise what is shown
    for it when nothing is focused. *)
Theorem C17_focused_text : forall s f tc src evs chunks toks,
  opens src -> binary_mode s = false -> Processed s evs chunks -> Finishes s evs -> Tokens chunks toks ->
  exists p acts, byteio_run (with_focus s f) tc src evs = (p, acts, REnd) /\
    displays (pr_out p) (lines_with (line_number_cells s) (highlighted s f) 1 (token_lines toks)).
Proof. exact text_focused. Qed.
Print Assumptions C17_focused_text.

Theorem C17_focused_binary : forall s f tc cols src evs chunks toks,
  opens src -> binary_ok s tc cols -> Processed s evs chunks -> Finishes s evs -> Tokens chunks toks ->
  exists p acts, byteio_run (with_focus s f) tc src evs = (p, acts, REnd) /\
    displays (pr_out p) (binary_rows s cols (flat_map (highlighted_bytes s f) toks)).
Proof. exact bin_focused. Qed.
Print Assumptions C17_focused_binary.

(** Two runs which differ in the focused classes only show the same lines of the same characters
    (but for the two markers of a space). *)
Theorem C17_same_characters_text : forall s f g tc src evs chunks toks,
  opens src -> binary_mode s = false -> Processed s evs chunks -> Finishes s evs -> Tokens chunks toks ->
  exists p1 a1 r1 p2 a2 r2,
    byteio_run (with_focus s f) tc src evs = (p1, a1, REnd) /\ byteio_run (with_focus s g) tc src evs = (p2, a2, REnd) /\
    displays (pr_out p1) r1 /\ displays (pr_out p2) r2 /\ Forall2 (Forall2 similar) r1 r2.
Proof. exact text_looks. Qed.
Print Assumptions C17_same_characters_text.

Theorem C17_same_characters_binary : forall s f g tc cols src evs chunks toks,
  opens src -> binary_ok s tc cols -> Processed s evs chunks -> Finishes s evs -> Tokens chunks toks ->
  exists p1 a1 r1 p2 a2 r2,
    byteio_run (with_focus s f) tc src evs = (p1, a1, REnd) /\ byteio_run (with_focus s g) tc src evs = (p2, a2, REnd) /\
    displays (pr_out p1) r1 /\ displays (pr_out p2) r2 /\ Forall2 (Forall2 similar) r1 r2.
Proof. exact bin_looks. Qed.
Print Assumptions C17_same_characters_binary.

Example C17_example :
  let out f := pr_out (fst (fst (byteio_run (with_focus (text_marked 1) f) 80 SrcStdin ex_evs))) in
  visible (out ex_classes) = visible (out (fun _ => false)) /\ screen (out ex_classes) <> screen (out (fun _ => false)).
Proof. split; vm_compute; [reflexivity|discriminate]. Qed.
