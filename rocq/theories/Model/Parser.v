(** kolombos/byteio/parser/: the raw buffer and the parser *)
From Coq Require Import List NArith ZArith Bool.
From Verif.Model Require Import Base Ansi Regex Settings Segment Template.
Import ListNotations.
Local Open Scope N_scope.

(** parser/buffer.py:12-15 *)
Record pbuf := mkPbuf { pb_raw : bytes; pb_closed : bool }.
Definition pbuf_init : pbuf := mkPbuf [] false.

(** parser/buffer.py:19-21 *)
Definition append_raw (p : pbuf) (b : bytes) (finish : bool) : pbuf := mkPbuf (pb_raw p ++ b) finish.

(** [haystack.find(needle)] for a non-empty needle: drop of the text before the first occurrence *)
Fixpoint is_prefix (needle hay : bytes) : bool :=
  match needle, hay with
  | [], _ => true
  | x :: n', y :: h' => (x =? y) && is_prefix n' h'
  | _ :: _, [] => false
  end.
Fixpoint find_suffix (needle hay : bytes) : option bytes :=
  if is_prefix needle hay then Some hay
  else match hay with [] => None | _ :: t => find_suffix needle t end.

(** parser/buffer.py:31-42 *)
Definition crop_raw (p : pbuf) (new_buffer : bytes) : result pbuf :=
  match new_buffer with
  | [] => Ok (mkPbuf [] (pb_closed p))
  | _ => match find_suffix new_buffer (pb_raw p) with
         | Some rest => Ok (mkPbuf rest (pb_closed p))
         | None => Err RuntimeError
         end
  end.

(** parser.py:30-38: alternatives of group 1 *)
Definition cont : re := RCls [(0x80, 0xBF)].
Definition RE_UTF8 : re :=
  RAlt (rcats [RCls [(0xC2, 0xDF)]; cont])
  (RAlt (rcats [RChr 0xE0; RCls [(0xA0, 0xBF)]; cont])
  (RAlt (rcats [RCls [(0xE1, 0xEC); (0xEE, 0xEE); (0xEF, 0xEF)]; cont; cont])
  (RAlt (rcats [RChr 0xED; RCls [(0x80, 0x9F)]; cont])
  (RAlt (rcats [RChr 0xF0; RCls [(0x90, 0xBF)]; cont; cont])
  (RAlt (rcats [RCls [(0xF1, 0xF3)]; cont; cont; cont])
        (rcats [RChr 0xF4; RCls [(0x80, 0x8F)]; cont; cont])))))).

(** parser.py:42-46: escape sequences *)
Definition RE_CSI : re :=
  RGrp 3 (rcats [RGrp 4 (RChr 0x1B); RGrp 5 (RChr 0x5B); RGrp 6 (RStar [(0x30, 0x3F)]);
                 RGrp 7 (RStar [(0x20, 0x2F)]); RGrp 8 (RCls [(0x40, 0x7E)])]).
Definition RE_NF : re :=
  RGrp 9 (rcats [RGrp 10 (RChr 0x1B); RGrp 11 (RCls [(0x20, 0x2F)]);
                 RGrp 12 (RStar [(0x20, 0x2F)]); RGrp 13 (RCls [(0x30, 0x7E)])]).
Definition RE_FP : re := RGrp 14 (rcats [RGrp 15 (RChr 0x1B); RGrp 16 (RCls [(0x30, 0x3F)])]).
Definition RE_FE : re := RGrp 17 (rcats [RGrp 18 (RChr 0x1B); RGrp 19 (RCls [(0x40, 0x5F)])]).
Definition RE_FS : re := RGrp 20 (rcats [RGrp 21 (RChr 0x1B); RGrp 22 (RCls [(0x60, 0x7E)])]).

(** parser.py:29-60 [F_SEPARATOR]; group numbers are those of [Match.group], i.e. one more
    than the indices in the comments of the source *)
Definition F_SEPARATOR : re :=
  fold_right RAlt (RGrp 34 (RPlus [(0x21, 0x7E)]))
  [ RGrp 1 RE_UTF8;
    RGrp 2 (RPlus [(0x80, 0xFF)]);
    RE_CSI; RE_NF; RE_FP; RE_FE; RE_FS;
    RGrp 23 (RPlus [(0x01, 0x07); (0x0E, 0x1A); (0x1C, 0x1F)]);
    RGrp 24 (RPlus [(0x00, 0x00)]);
    RGrp 25 (RPlus [(0x08, 0x08)]);
    RGrp 26 (RChr 0x1B);
    RGrp 27 (RPlus [(0x7F, 0x7F)]);
    RGrp 28 (RPlus [(0x09, 0x09)]);
    RGrp 29 (RChr 0x0A);
    RGrp 30 (RPlus [(0x0B, 0x0B)]);
    RGrp 31 (RPlus [(0x0C, 0x0C)]);
    RGrp 32 (RPlus [(0x0D, 0x0D)]);
    RGrp 33 (RPlus [(0x20, 0x20)]) ].

(** number of groups of the pattern *)
Definition NGROUPS : nat := 34.

(** parser.py:101-102: index (0-based) of the first non-empty group; [min] of no keys raises
    ValueError, here [None] *)
Definition primary_mgroup (g : caps) : option nat :=
  option_map pred
    (find (fun i => match group i g with Some (_ :: _) => true | _ => false end) (seq 1 NGROUPS)).

(** parser.py:62-82 [MGROUP_TO_TPL_MAP]: a template or the CSI resolver *)
Inductive tpl_or_resolver := Tpl (t : template) | ResolveCsi.
Definition MGROUP_TO_TPL_MAP (i : nat) : option tpl_or_resolver :=
  match i with
  | 0 => Some (Tpl T_UTF_8_SEQ)
  | 1 => Some (Tpl T_BINARY_DATA)
  | 2 => Some ResolveCsi
  | 8 => Some (Tpl T_ESCAPE_SEQ_NF)
  | 13 => Some (Tpl T_ESCAPE_SEQ_FP)
  | 16 => Some (Tpl T_ESCAPE_SEQ_FE)
  | 19 => Some (Tpl T_ESCAPE_SEQ_FS)
  | 22 => Some (Tpl T_CONTROL_CHAR)
  | 23 => Some (Tpl T_CONTROL_CHAR_NULL)
  | 24 => Some (Tpl T_CONTROL_CHAR_BACKSPACE)
  | 25 => Some (Tpl T_CONTROL_CHAR_ESCAPE)
  | 26 => Some (Tpl T_CONTROL_CHAR_DELETE)
  | 27 => Some (Tpl T_WHITESPACE_TAB)
  | 28 => Some (Tpl T_WHITESPACE_NEWLINE)
  | 29 => Some (Tpl T_WHITESPACE_VERT_TAB)
  | 30 => Some (Tpl T_WHITESPACE_FORM_FEED)
  | 31 => Some (Tpl T_WHITESPACE_CARR_RETURN)
  | 32 => Some (Tpl T_WHITESPACE_SPACE)
  | 33 => Some (Tpl T_PRINTABLE_CHAR)
  | _ => None
  end%nat.

(** [m.group(i) == b] *)
Definition group_is (i : nat) (g : caps) (b : bytes) : bool :=
  match group i g with Some w => eqb_list w b | None => false end.

(** parser.py:127-136 [_resolve_escape_seq_csi]; the third component is the state of the SGR
    template after the call *)
Definition resolve_csi (g : caps) (ss : sgr_state) : result (template * sgr_state) :=
  if group_is 8 g [109] then
    if (group_is 6 g [] || group_is 6 g [48])%bool then Ok (T_ESCAPE_SEQ_SGR_0, ss)
    else match group 6 g with
         | Some params => bind (set_details_fmt_str params) (fun ss' => Ok (T_ESCAPE_SEQ_SGR, ss'))
         | None => Err TypeError
         end
  else Ok (T_ESCAPE_SEQ_CSI, ss).

(** parser.py:116-125 [_resolve_match] *)
Definition resolve_match (g : caps) (mgroup : nat) (ss : sgr_state) : result (template * sgr_state) :=
  match MGROUP_TO_TPL_MAP mgroup with
  | None => Err RuntimeError
  | Some (Tpl t) => Ok (t, ss)
  | Some ResolveCsi => resolve_csi g ss
  end.

(** parser.py:100-114 [_substitute] and [_handle], without the debug print (see Trace.v): segments to attach
    and the new SGR template state *)
Definition handle_match (e : tenv) (g : caps) (ss : sgr_state) : result (list segment * sgr_state) :=
  match primary_mgroup g with
  | None => Err ValueError
  | Some mg =>
      let raw := match group (S mg) g with Some w => w | None => [] end in
      bind (resolve_match g mg ss) (fun '(t, ss') =>
      bind (substitute e t ss' raw) (fun segs => Ok (segs, ss')))
  end.

(** parser.py:92: the callbacks run by [apply_filters] over the scan; result: unmatched bytes,
    segments in order of attachment, final template state *)
Fixpoint run_scan (e : tenv) (evs : list sub_ev) (ss : sgr_state) : result (bytes * list segment * sgr_state) :=
  match evs with
  | [] => Ok ([], [], ss)
  | Unmatched b :: t =>
      bind (run_scan e t ss) (fun '(u, segs, ss') => Ok (b :: u, segs, ss'))
  | Matched g _ :: t =>
      bind (handle_match e g ss) (fun '(segs1, ss1) =>
      bind (run_scan e t ss1) (fun '(u, segs, ss') => Ok (u, segs1 ++ segs, ss')))
  end.

(** parser.py:87-98 [Parser.parse].  [segment_buffer.attach] is called per match; attaching is
    appending, so the segments are attached at once here.  When an exception is raised the
    program terminates without looking at the buffers again. *)
Definition parse (e : tenv) (p : pbuf) (sb : sbuf) (ss : sgr_state) : result (pbuf * sbuf * sgr_state) :=
  bind (run_scan e (re_scan F_SEPARATOR (pb_raw p)) ss) (fun '(unmatched, segs, ss') =>
    match unmatched with
    | [] => bind (crop_raw p unmatched) (fun p' => Ok (p', attach sb segs, ss'))
    | _ => Err RuntimeError
    end).
