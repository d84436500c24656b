(** Debug traces: kolombos/console.py [ConsoleDebugBuffer], [printd], [get_separator_line] and
    every debug write of the reader, the parser, the segment buffer, the formatters and the
    runner.  Traces go to stdout like regular output (console.py:141-143), so a run is modelled
    as one list of events; what appears on stdout depends on the debug level. *)
From Coq Require Import Ascii String.
From Coq Require Import List NArith ZArith Bool.
From Verif.Model Require Import Base Ansi Regex Strip Settings Segment Template Parser Console Formatter Reader Runner.
Import ListNotations.
Local Open Scope N_scope.

(** an ASCII string literal of the source *)
Definition lit (x : string) : str := map N_of_ascii (list_ascii_of_string x).

(** regular text, or a complete debug message with the level it is written at *)
Inductive tev := TOut (t : str) | TDbg (level : nat) (t : str).

(** console.py:80-81: a message is dropped if the debug level is lower than its own *)
Definition ev_shown (debug : nat) (e : tev) : str :=
  match e with TOut t => t | TDbg l t => if (debug <? l)%nat then [] else t end.
(** stdout *)
Definition shown (debug : nat) (l : list tev) : str := flat_map (ev_shown debug) l.
(** the regular part of it *)
Definition regular (l : list tev) : str := flat_map (fun e => match e with TOut t => t | TDbg _ _ => [] end) l.

(** console.py:71-77: name of a debug buffer (without name: no default prefix), color of offsets *)
Record dbuf := mkDbuf { db_key : option str; db_color : sgr }.
Definition READER := mkDbuf (Some (lit "reader")) [c_MAGENTA].
Definition PARSER := mkDbuf (Some (lit "parser")) [c_CYAN].
Definition PARSBUF := mkDbuf (Some (lit "parsbuf")) [c_GRAY].
Definition CHAINBUF := mkDbuf (Some (lit "chainbuf")) [c_GRAY].
Definition BINFMT := mkDbuf (Some (lit "binfmt")) [c_YELLOW].
Definition TXTFMT := mkDbuf (Some (lit "txtfmt")) [c_YELLOW].
Definition RUNNER := mkDbuf None [c_GRAY].

(** console.py:80-95 [write] with and without an offset; [end='\n'], flushed at once *)
Definition dbg (s : settings) (d : dbuf) (level : nat) (msg : str) : tev :=
  TDbg level (match db_key d with
              | Some k => format_prefix s k (sgr_add [c_GRAY] [c_BG_BLACK])
              | None => []
              end ++ msg ++ [10]).
Definition dbg_at (s : settings) (d : dbuf) (level : nat) (msg : str) (offset : N) : tev :=
  TDbg level (format_prefix_with_offset s offset (sgr_add (db_color d) [c_BG_BLACK]) ++ msg ++ [10]).

(** [str(n)] for any int *)
Definition zdec (n : Z) : str := (if (n <? 0)%Z then [45] else []) ++ dec (Z.to_N (Z.abs n)).
(** [Spans.BOLD(n)] *)
Definition bold_num (n : Z) : str := span_wrap [c_BOLD] (zdec n).

(** settings.py:107-113 *)
Definition debug_buffer_contents (s : settings) : bool := (3 <=? s_debug s)%nat.
Definition debug_buffer_contents_full (s : settings) : bool := (4 <=? s_debug s)%nat.

(** console.py:275-298 [printd] of a bytes object with [max_input_len = 5] (2*(5-1) = 8
    characters); with full contents the limit is [sys.maxsize], longer than any string *)
Definition printd (s : settings) (v : bytes) : str :=
  let result := lit "len " ++ bold_num (zlen v) in
  if negb (debug_buffer_contents s) then result
  else match v with
       | [] => result ++ [32] ++ assemble [c_GRAY] ++ lit "[]" ++ assemble [c_COLOR_OFF]
       | _ =>
           let h := join [32] (map (fmt_hex_lo 2) v) in
           result ++ [32] ++ assemble [c_GRAY] ++ [91]
           ++ (if debug_buffer_contents_full s then h
               else firstn 8 h ++ (if (8 <? length h)%nat then lit ".. " ++ py_drop (-2) h else []))
           ++ [93] ++ assemble [c_COLOR_OFF]
       end.

(** segment/buffer.py:185-186 [_preview_sgr]: every SGR sequence becomes a bracketed text with its
    parameters (group 3 of the pattern) *)
Definition preview_sgr (t : str) : str :=
  flat_map (fun e => match e with
                     | Unmatched b => [b]
                     | Matched g _ => [91; 0x1DD] ++ match group 3 g with Some w => w | None => [] end ++ [93]
                     end) (re_scan SGR_REGEXP t).

(** segment/buffer.py:188-211 [_preview_collect]: the first [n] elements, bytes or references *)
Definition preview_values (els : list elem) : list str :=
  flat_map (fun e => match e with
                     | ESeg g => map (fmt_hex_lo 2) (seg_raw g)
                     | EStart r | EStop r | EOnce r => [span_wrap [c_ITALIC] (preview_sgr (assemble r))]
                     end) els.
Definition sgr_byte_len (els : list elem) : Z :=
  fold_right (fun e acc => (match e with ESeg _ => 0 | EStart r | EStop r | EOnce r => zlen (assemble r) end + acc)%Z) 0%Z els.

(** segment/buffer.py:85-108 [preview]; [printd] passes 5, or [sys.maxsize] with full contents *)
Definition preview (s : settings) (b : sbuf) : str :=
  let full := debug_buffer_contents_full s in
  let chain := sb_chain b in
  let result := lit "len " ++ bold_num (chain_len chain) ++ span_wrap [c_ITALIC] (43 :: zdec (sgr_byte_len chain)) in
  if negb (debug_buffer_contents s) then result
  else
    let more := if full then [] else if (5 <? length chain)%nat then lit ".." else [] in
    result ++ lit ": "
    ++ span_wrap [c_GRAY] ([91] ++ join [32] (preview_values (if full then chain else firstn 5 chain)) ++ more ++ [93])
    ++ (if full
        then lit ". Active SGR buffer state: "
             ++ span_wrap [c_GRAY] ([91] ++ join [32] (map (fun r => preview_sgr (assemble r)) (sb_active b)) ++ [93])
        else []).
Definition buffer_state (s : settings) (b : sbuf) : tev := dbg s CHAINBUF 2 (lit "Buffer state: " ++ preview s b).

(** segment/buffer.py:110-155: messages of [_detach] *)
Definition detach_trace (s : settings) (b : sbuf) (req : Z) : list tev :=
  buffer_state s b ::
  match sb_chain b with
  | [] => []
  | _ => match detach b req with
         | (Ok out, b') => [dbg s CHAINBUF 2 (lit "Detached " ++ bold_num (chain_len out) ++ lit " data byte(s)"); buffer_state s b']
         | (Err _, _) => []
         end
  end.
(** segment/buffer.py:49-61 *)
Definition detach_bytes_trace (s : settings) (b : sbuf) (req : Z) (force : bool) : list tev :=
  if ((req <=? chain_len (sb_chain b))%Z || force)%bool then
    detach_trace s b req
    ++ match detach b req with
       | (Ok [], b') => [dbg s CHAINBUF 1 (lit "Responsing with EOF"); buffer_state s b']
       | _ => []
       end
  else [dbg s CHAINBUF 1 (lit "Responsing with WaitRequest"); buffer_state s b].
(** segment/buffer.py:63-83 *)
Definition detach_line_trace (s : settings) (b : sbuf) (force : bool) : list tev :=
  let '(avail, has_newline) := line_scan (sb_chain b) in
  if (avail =? 0)%Z then [dbg s CHAINBUF 1 (lit "Responsing with EOF"); buffer_state s b]
  else if (has_newline || force)%bool then detach_trace s b avail
  else [dbg s CHAINBUF 1 (lit "Responsing with WaitRequest"); buffer_state s b].

(** parser/buffer.py:19-26 *)
Definition append_trace (s : settings) (p : pbuf) (raw : bytes) (finish : bool) : list tev :=
  [ dbg s PARSBUF 3 (lit "Appending " ++ bold_num (zlen raw) ++ lit " bytes");
    dbg s PARSBUF 2 (lit "Buffer state: " ++ printd s (pb_raw p ++ raw)) ]
  ++ (if finish then [dbg s PARSBUF 1 (lit "Closing buffer for input")] else []).
(** parser/buffer.py:31-36 (the other branch is never reached, see parser.py:93-98) *)
Definition crop_trace (s : settings) : list tev :=
  [dbg s PARSBUF 3 (lit "Purging"); dbg s PARSBUF 2 (lit "Buffer state: " ++ printd s [])].

(** [processed.encode('ascii', errors='replace')] *)
Definition ascii_replace (t : str) : bytes := map (fun c => if c <? 128 then c else 63) t.

(** parser.py:138-152 [_debug_print_match_segments] *)
Definition segment_trace (s : settings) (cur_raw : bytes) (g : segment) : str :=
  lit "Seg " ++ span_wrap [c_INVERSED] ([60] ++ seg_label g ++ [62]) ++ lit ": " ++ printd s cur_raw
  ++ (if eqb_list cur_raw (ascii_replace (seg_proc g)) then [] else lit " -> " ++ printd s (ascii_replace (seg_proc g))).
Fixpoint more_segments_trace (s : settings) (segs : list segment) : str :=
  match segs with
  | [] => []
  | g :: t => lit "; " ++ segment_trace s [] g ++ more_segments_trace s t
  end.
Definition match_trace (s : settings) (mgroup : nat) (raw : bytes) (segs : list segment) (at_ : N) : tev :=
  dbg_at s PARSER 2
    (lit "Match group #" ++ rjust 48 2 (dec (N.of_nat mgroup)) ++ lit ": "
     ++ match segs with
        | [] => []
        | g :: t => segment_trace s raw g ++ more_segments_trace s t
        end) at_.

(** parser.py:100-114: messages of the callbacks.  [at_] is the absolute offset of the next
    event; [m.start(mgroup + 1)] is the start of the whole match, because the primary group is
    the outermost group of the alternative that matched.  The first failing callback ends the
    scan. *)
Fixpoint scan_trace (s : settings) (e : tenv) (evs : list sub_ev) (ss : sgr_state) (at_ : N) : list tev :=
  match evs with
  | [] => []
  | Unmatched _ :: t => scan_trace s e t ss (at_ + 1)
  | Matched g whole :: t =>
      match handle_match e g ss with
      | Err _ => []
      | Ok (segs, ss1) =>
          let mg := match primary_mgroup g with Some m => m | None => 0%nat end in
          let raw := match group (S mg) g with Some w => w | None => [] end in
          match_trace s mg raw segs at_ :: scan_trace s e t ss1 (at_ + N.of_nat (length whole))
      end
  end.
(** parser.py:87-98 *)
Definition parse_trace (s : settings) (e : tenv) (p : pbuf) (sb : sbuf) (ss : sgr_state) (offset : Z) : list tev :=
  dbg s PARSER 1 (lit "Parsing segment: " ++ printd s (pb_raw p))
  :: scan_trace s e (re_scan F_SEPARATOR (pb_raw p)) ss (Z.to_N offset)
  ++ match parse e p sb ss with Ok _ => crop_trace s | Err _ => [] end.

(** const.py:9-10, formatter/_abstract.py:30-39 [_seg_raw_to_safe]; bytes from 128 decode to U+FFFD *)
Definition safe_of (b : N) : N :=
  let c := if b <? 128 then b else 0xFFFD in
  if ((9 <=? c) && (c <=? 13)) || (c =? 32) then 0xB7
  else if negb ((33 <=? c) && (c <=? 126)) then 0x25AF
  else c.
Definition seg_raw_to_safe (g : segment) : str := map safe_of (seg_raw g).

(** segment/buffer.py:160-177 with a printer that hides or encodes SGRs (formatter/_abstract.py:19-21) *)
Definition format_hidden (fn : segment -> str) (l : list elem) : str :=
  flat_map (fun e => match e with ESeg g => fn g | _ => [] end) l.
Definition format_encoded (fn : segment -> str) (l : list elem) : str :=
  flat_map (fun e => match e with ESeg g => fn g | EStart r | EStop r | EOnce r => preview_sgr (assemble r) end) l.

(** outcome of a loop together with the events so far *)
Inductive toutcome (A : Type) :=
| TFin (a : A) (l : list tev)
| TFail (e : exn) (l : list tev)
| TNoFuel (l : list tev).
Arguments TFin {A} a l.
Arguments TFail {A} e l.
Arguments TNoFuel {A} l.
Definition tpre {A} (l : list tev) (o : toutcome A) : toutcome A :=
  match o with TFin a m => TFin a (l ++ m) | TFail e m => TFail e (l ++ m) | TNoFuel m => TNoFuel (l ++ m) end.

(** binary.py:44-82 *)
Definition binary_debug_row (s : settings) (cols dl : Z) (els : list elem) : str :=
  format_hidden seg_raw_to_hex els ++ justify_raw (cols - dl) ++ [32]
  ++ (if effective_print_offsets s then get_separator s else [32]) ++ format_hidden seg_raw_to_safe els.
Fixpoint tbinary_loop (fuel : nat) (s : settings) (cols req : Z) (closed : bool)
         (sb : sbuf) (offset : N) : toutcome (sbuf * N) :=
  match fuel with
  | O => TNoFuel []
  | S f =>
      let asked := dbg s BINFMT 1 (lit "Requested " ++ bold_num req ++ lit " byte(s)")
                   :: detach_bytes_trace s sb req closed in
      match detach_bytes sb req closed with
      | (Ok els, sb') =>
          let dl := sb_last sb' in
          tpre (asked ++ [ dbg_at s BINFMT 3 (format_encoded seg_raw_to_safe els) offset;
                           dbg_at s BINFMT 1 (binary_debug_row s cols dl els) offset;
                           TOut (binary_row s cols dl els offset) ])
               (tbinary_loop f s cols req closed sb' (offset + Z.to_N dl))
      | (Err WaitRequest, sb') => TFin (sb', offset) asked
      | (Err EOFError, sb') => TFin (sb', offset) asked
      | (Err e, _) => TFail e asked
      end
  end.
(** binary.py:34-87, 92-111 *)
Definition tbinary_format (fuel : nat) (s : settings) (term_columns : Z) (closed : bool)
           (sb : sbuf) (offset : N) : toutcome (sbuf * N) :=
  let cols := current_cols s term_columns offset in
  let req := if closed then Z.min (chain_len (sb_chain sb)) cols else cols in
  tpre (match s_columns s with
        | Some _ => []
        | None => [dbg s BINFMT 2 (lit "Columns amount set to: " ++ bold_num cols)]
        end)
  match tbinary_loop fuel s cols req closed sb offset with
  | TFin (sb', off') l =>
      if (closed && effective_print_offsets s)%bool
      then TFin (sb', off') (l ++ [TOut (write (format_total_size s off'))])
      else TFin (sb', off') l
  | o => o
  end.

(** text.py:24-54; state: buffer, line number, byte offset *)
Fixpoint ttext_loop (fuel : nat) (s : settings) (closed : bool)
         (sb : sbuf) (line_num : N) (offset : N) : toutcome (sbuf * N * N) :=
  match fuel with
  | O => TNoFuel []
  | S f =>
      let asked := dbg s TXTFMT 1 (lit "Requested line") :: detach_line_trace s sb closed in
      match detach_line sb closed with
      | (Ok els, sb') =>
          tpre (asked ++ [ dbg_at s TXTFMT 3 (format_encoded seg_raw_to_safe els) offset;
                           dbg_at s TXTFMT 2 (format_hidden seg_raw_to_hex els) offset;
                           dbg_at s TXTFMT 1 (format_hidden seg_raw_to_safe els) offset;
                           TOut (text_line s els line_num) ])
               (ttext_loop f s closed sb' (line_num + 1) (offset + Z.to_N (sb_last sb')))
      | (Err WaitRequest, sb') => TFin (sb', line_num, offset) asked
      | (Err EOFError, sb') => TFin (sb', line_num, offset) asked
      | (Err e, _) => TFail e asked
      end
  end.
Definition ttext_format (fuel : nat) (s : settings) (closed : bool) (sb : sbuf) (line_num offset : N)
  : toutcome (sbuf * N * N) :=
  match ttext_loop fuel s closed sb line_num offset with
  | TFin a l => TFin a (l ++ if closed then [dbg s TXTFMT 1 (lit "EOF")] else [])
  | o => o
  end.

(** console.py:161-196 [get_separator_line] as called by the runner: no part for settings;
    get_terminal_width(exact=True) is the number of columns (kolombos/common.py:12-18).  The crossing is
    the one of the last flag set. *)
Definition separator_line (s : settings) (columns : Z) (main_cross : N) : str :=
  let main_part := span_wrap [c_BG_BLACK] (repeat 0x2500 MAIN_PREFIX_LEN) ++ [main_cross] in
  let filler_len := (columns - zlen (strip_sgr main_part))%Z in
  let line := main_part ++ repeat 0x2500 (Z.to_nat filler_len) in
  if (0 <? s_debug s)%nat then span_wrap [c_GRAY] line else span_wrap [c_CYAN] line.
Definition CROSS : N := 0x253C.
Definition CROSS_OPEN : N := 0x252C.
Definition CROSS_CLOSE : N := 0x2534.

(** State of a traced run: the objects of the runner, TextFormatter._offset and the events *)
Record tproc := mkTproc { tp_proc : proc; tp_off : N; tp_ev : list tev }.
Definition tlog (t : tproc) (l : list tev) : tproc := mkTproc (tp_proc t) (tp_off t) (tp_ev t ++ l).

(** formatter/factory.py:9-19; [pr_out] of the underlying state collects the regular output *)
Definition tformat (s : settings) (rm : read_mode) (term_columns : Z) (t : tproc) : tproc * cb_res :=
  let p := tp_proc t in
  let out_of {A} (o : toutcome A) (ok : A -> sbuf * N * N * N) : tproc * cb_res :=
    match o with
    | TFin a l => let '(sb, off, ln, toff) := ok a in
                  (mkTproc (mkProc (pr_pb p) sb (pr_ss p) off ln (pr_out p ++ regular l)) toff (tp_ev t ++ l), CbOk)
    | TFail e l => (mkTproc (mkProc (pr_pb p) (pr_sb p) (pr_ss p) (pr_offset p) (pr_line p) (pr_out p ++ regular l))
                            (tp_off t) (tp_ev t ++ l), CbErr e)
    | TNoFuel l => (mkTproc (mkProc (pr_pb p) (pr_sb p) (pr_ss p) (pr_offset p) (pr_line p) (pr_out p ++ regular l))
                            (tp_off t) (tp_ev t ++ l), CbHang)
    end in
  match rm with
  | RM_text =>
      out_of (ttext_format (loop_fuel (pr_sb p)) s (pb_closed (pr_pb p)) (pr_sb p) (pr_line p) (tp_off t))
             (fun '(sb, ln, off) => (sb, pr_offset p, ln, off))
  | RM_binary =>
      out_of (tbinary_format (loop_fuel (pr_sb p)) s term_columns (pb_closed (pr_pb p)) (pr_sb p) (pr_offset p))
             (fun '(sb, off) => (sb, off, pr_line p, tp_off t))
  end.

(** runner/byteio.py:42-47 *)
Definition tprocess_chunk (s : settings) (e : tenv) (term_columns : Z)
           (t : tproc) (raw : bytes) (offset : Z) (finish : bool) : tproc * cb_res :=
  let p := tp_proc t in
  let t1 := tlog t (append_trace s (pr_pb p) raw finish) in
  let pb := append_raw (pr_pb p) raw finish in
  let t2 := tlog t1 (parse_trace s e pb (pr_sb p) (pr_ss p) offset) in
  match parse e pb (pr_sb p) (pr_ss p) with
  | Err x => (mkTproc (mkProc pb (pr_sb p) (pr_ss p) (pr_offset p) (pr_line p) (pr_out p)) (tp_off t2) (tp_ev t2), CbErr x)
  | Ok (pb', sb', ss') =>
      let '(t3, r) := tformat s (te_read e) term_columns
                        (mkTproc (mkProc pb' sb' ss' (pr_offset p) (pr_line p) (pr_out p)) (tp_off t2) (tp_ev t2)) in
      match r with
      | CbOk => (tlog t3 [dbg s RUNNER 1 (separator_line s term_columns (if finish then CROSS_CLOSE else CROSS))], CbOk)
      | _ => (t3, r)
      end
  end.

(** reader.py:48-54: is there a line feed that reaches the limit *)
Fixpoint lines_reached (max_lines : Z) (raw : bytes) (lines : Z) : bool :=
  match raw with
  | [] => false
  | b :: r => if b =? 10 then (max_lines <=? lines + 1)%Z || lines_reached max_lines r (lines + 1) else lines_reached max_lines r lines
  end.

Section TracedReader.
  Variable s : settings.
  Variable cb : tproc -> bytes -> Z -> bool -> tproc * cb_res.
  Variable src : source.
  Let max_bytes := s_max_bytes s.
  Let max_lines := s_max_lines s.

  (** L70-76 *)
  Definition tread_finish (raw : bytes) (offset : Z) (t : tproc) : tproc * list action * reader_end :=
    read_finish cb raw offset (tlog t [dbg_at s READER 1 (lit "Encountered EOF") (Z.to_N offset)]).

  (** L43-76; [chunks] is the number of chunks read, [pos] the position in the file *)
  Fixpoint tread_loop (evs : list read_ev) (offset lines : Z) (chunks pos : N) (t : tproc)
    : tproc * list action * reader_end :=
    match evs with
    | [] => pre [ARead] (tread_finish [] offset t)
    | RInterrupt :: _ => (t, [ARead; AClose], REnd)
    | RFailure :: _ => (t, [ARead; AClose], RError OSError)
    | RData [] :: _ => pre [ARead] (tread_finish [] offset t)
    | RData raw :: rest =>
        let off := Z.to_N offset in
        let t1 := tlog t [dbg_at s READER 1 (lit "Read chunk #" ++ dec chunks ++ lit ": " ++ printd s raw) off] in
        if tell_fails src then (t1, [ARead; AClose], RError OSError)
        else
          let pos1 := pos + N.of_nat (length raw) in
          let t2 := tlog t1 [dbg_at s READER 3 (lit "Current position: "
                               ++ match src with SrcFile _ => bold_num (Z.of_N pos1) | _ => span_wrap [c_BOLD] (lit "n/a") end) off] in
          let '(raw1, lines1) := apply_max_lines max_lines raw lines in
          let t3 := tlog t2 (match limit_on max_lines with
                             | Some m => if lines_reached m raw lines then
                                 [ dbg_at s READER 2 (lit "Line limit exceeded: " ++ bold_num m) off;
                                   dbg_at s READER 3 (lit "Cropping input -> " ++ printd s raw1) off ] else []
                             | None => []
                             end) in
          let over := match limit_on max_bytes with
                      | Some m => (m <? offset + zlen raw1)%Z
                      | None => false
                      end in
          if over then
            let m := match max_bytes with Some m => m | None => 0%Z end in
            let raw2 := py_take (m - offset) raw1 in
            pre [ARead] (tread_finish raw2 offset
              (tlog t3 [ dbg_at s READER 2 (lit "Byte limit exceeded: " ++ bold_num m) off;
                         dbg_at s READER 3 (lit "Cropping input -> " ++ printd s raw2) off ]))
          else
            let '(st1, r) := cb t3 raw1 offset false in
            match r with
            | CbErr e => (st1, [ARead; ACall raw1 offset false; AClose], RError e)
            | CbInt => (st1, [ARead; ACall raw1 offset false; AClose], REnd)
            | CbHang => (st1, [ARead; ACall raw1 offset false], RHang)
            | CbOk =>
                let offset1 := (offset + zlen raw1)%Z in
                let stop := (match limit_on max_bytes with Some m => m <=? offset1 | None => false end
                             || match limit_on max_lines with Some m => m <=? lines1 | None => false end)%Z%bool in
                if stop then pre [ARead; ACall raw1 offset false] (tread_finish [] offset1 st1)
                else pre [ARead; ACall raw1 offset false] (tread_loop rest offset1 lines1 (chunks + 1) pos1 st1)
            end
    end.

  (** L34-36, L78-84: the name of the file is shown as it is *)
  Definition open_trace : list tev :=
    [ dbg s READER 1 (match src with
                      | SrcStdin => lit "Reading from stdin"
                      | _ => lit "Opened file: " ++ span_wrap [c_BOLD] (match s_filename s with Some n => n | None => [] end)
                      end);
      dbg s READER 2 (lit "Read buffer: size " ++ bold_num (chunk_size s)) ].

  Definition tread (evs : list read_ev) (t : tproc) : tproc * list action * reader_end :=
    match src with
    | SrcMissing => (t, [], RError OSError)
    | _ => pre [AOpen] (tread_loop evs 0 0 0 0 (tlog t open_trace))
    end.
End TracedReader.

(** runner/byteio.py:16-40 [ByteIoRunner.run] with traces.  The list of settings printed
    before it from debug level 3 on is in SettingsDump.v. *)
Definition tbyteio_run (s : settings) (term_columns : Z) (src : source) (evs : list read_ev)
  : tproc * list action * reader_end :=
  let e := update_settings s in
  let '(_, s1) := get_read_mode s in
  let opening := if (3 <=? s_debug s1)%nat then [] else [dbg s1 RUNNER 1 (separator_line s1 term_columns CROSS_OPEN)] in
  tread s1 (tprocess_chunk s1 e term_columns) src evs (mkTproc proc_init 0 opening).
