(** kolombos/runner/, kolombos/app.py *)
From Coq Require Import List NArith ZArith Bool.
From Verif.Model Require Import Base Ansi Settings Segment Template Parser Console Formatter Reader.
Import ListNotations.
Local Open Scope N_scope.

(** Objects created by runner/byteio.py:29-40 [_reinit] and what has been printed so far.
    [pr_offset] is BinaryFormatter._offset, [pr_line] is TextFormatter._line_num. *)
Record proc := mkProc {
  pr_pb : pbuf;
  pr_sb : sbuf;
  pr_ss : sgr_state;
  pr_offset : N;
  pr_line : N;
  pr_out : str
}.
Definition proc_init : proc := mkProc pbuf_init sbuf_init sgr_state_init 0 1 [].

(** Rounds granted to a formatter loop; the proofs of the formatters (TextFormat.v, BinFormat.v) show that these suffice whenever the
    loop terminates at all. *)
Definition loop_fuel (sb : sbuf) : nat := S (length (sb_chain sb) + Z.to_nat (chain_len (sb_chain sb))).

(** formatter/factory.py:9-19 and the two [format] methods *)
Definition format (s : settings) (rm : read_mode) (term_columns : Z) (p : proc) : proc * cb_res :=
  let out_of {A} (o : outcome A) (ok : A -> proc * cb_res) : proc * cb_res :=
    match o with
    | Fin a => ok a
    | Fail e w => (mkProc (pr_pb p) (pr_sb p) (pr_ss p) (pr_offset p) (pr_line p) (pr_out p ++ w), CbErr e)
    | NoFuel w => (mkProc (pr_pb p) (pr_sb p) (pr_ss p) (pr_offset p) (pr_line p) (pr_out p ++ w), CbHang)
    end in
  match rm with
  | RM_text =>
      out_of (text_format (loop_fuel (pr_sb p)) s (pb_closed (pr_pb p)) (pr_sb p) (pr_line p))
             (fun '(w, sb, ln) => (mkProc (pr_pb p) sb (pr_ss p) (pr_offset p) ln (pr_out p ++ w), CbOk))
  | RM_binary =>
      out_of (binary_format (loop_fuel (pr_sb p)) s term_columns (pb_closed (pr_pb p)) (pr_sb p) (pr_offset p))
             (fun '(w, sb, off) => (mkProc (pr_pb p) sb (pr_ss p) off (pr_line p) (pr_out p ++ w), CbOk))
  end.

(** runner/byteio.py:42-47 [_process_chunk_buffered], without debug output (see Trace.v) *)
Definition process_chunk (s : settings) (e : tenv) (term_columns : Z)
           (p : proc) (raw : bytes) (offset : Z) (finish : bool) : proc * cb_res :=
  let pb := append_raw (pr_pb p) raw finish in
  match parse e pb (pr_sb p) (pr_ss p) with
  | Err x => (mkProc pb (pr_sb p) (pr_ss p) (pr_offset p) (pr_line p) (pr_out p), CbErr x)
  | Ok (pb', sb', ss') =>
      format s (te_read e) term_columns (mkProc pb' sb' ss' (pr_offset p) (pr_line p) (pr_out p))
  end.

(** runner/byteio.py:16-40 [ByteIoRunner.run]: creating the registry resolves the read mode.
    Result: final objects, reader actions, how the reader ended. *)
Definition byteio_run (s : settings) (term_columns : Z) (src : source) (evs : list read_ev)
  : proc * list action * reader_end :=
  let e := update_settings s in
  let '(_, s1) := get_read_mode s in
  read (process_chunk s1 e term_columns) (s_max_bytes s1) (s_max_lines s1) src evs proc_init.

(** runner/factory.py:11-20 *)
Inductive runner := LegendRunner | VersionRunner | DemoRunner | ByteIoRunner.
Definition create_runner (s : settings) : runner :=
  if s_legend s then LegendRunner
  else if s_version s then VersionRunner
  else if s_demo s then DemoRunner
  else ByteIoRunner.

(** runner/demo.py:18-26: the settings ByteIoRunner is started with.  The file name, a path
    object in the code, is represented by the fixed string 'demo.bin' (L15). *)
Definition DEMO_FILENAME : str := [100; 101; 109; 111; 46; 98; 105; 110].
Definition demo_settings (s : settings) : settings :=
  mkSettings (s_binary s) (s_text s) RM_binary (s_buffer s)
    (match s_columns s with None => Some 16%Z | c => c end) (s_decimal_offsets s) (s_debug s)
    (match s_decode s with None => Some true | d => d end) (Some DEMO_FILENAME)
    (s_focus s) (s_ignore s) (s_legend s) (s_marker s)
    (s_max_bytes s) (s_max_lines s) (s_color_markers s) (s_no_line_numbers s)
    (s_no_separators s) (s_no_offsets s) (s_version s) (s_demo s).

(** app.py:24-27 with console.py:198-251 [debug_settings]: from debug level 4 on, all derived
    attributes are read for display, [read_mode] among them. *)
Definition after_parse_args (s : settings) : settings :=
  if (4 <=? s_debug s)%nat then snd (get_read_mode s) else s.

(** What a process does: text on stdout, exception reported on stderr, exit code ([None] means
    it does not terminate). *)
Record app_result := mkApp { ap_out : str; ap_err : option exn; ap_code : option Z }.

(** console.py:139 (printed on stdout, debug level 0; the traceback printed at higher levels is
    not modelled) *)
Definition debug_hint : str :=
  [82; 117; 110; 32; 116; 104; 101; 32; 97; 112; 112; 32; 119; 105; 116; 104; 32; 39]
  ++ span_wrap [c_BOLD] [45; 45; 100; 101; 98; 117; 103]
  ++ [39; 32; 97; 114; 103; 117; 109; 101; 110; 116; 32; 116; 111; 32; 115; 101; 101; 32; 116; 104;
      101; 32; 100; 101; 116; 97; 105; 108; 115].

(** app.py:15-31 [run] for the two runners that read input; the demo's closing remark
    (demo.py:27) is the argument [epilogue].  [print()] in [_exit] adds a newline. *)
Definition app_finish (s : settings) (epilogue : str) (x : proc * list action * reader_end) : app_result :=
  let '(p, _, en) := x in
  match en with
  | REnd => mkApp (pr_out p ++ epilogue ++ [10]) None (Some 0%Z)
  | RError e => mkApp (pr_out p ++ (if (0 <? s_debug s)%nat then [] else debug_hint ++ [10]) ++ [10])
                      (Some e) (Some 1%Z)
  | RHang => mkApp (pr_out p) None None
  end.

(** The settings a run of the application ends up processing input with, [None] when it does
    not process input at all (legend, version) *)
Definition app_input_settings (s : settings) : option settings :=
  let s1 := after_parse_args s in
  match create_runner s1 with
  | ByteIoRunner => Some s1
  | DemoRunner => Some (demo_settings s1)
  | _ => None
  end.

(** app.py:15-22 *)
Definition app_run (s : settings) (term_columns : Z) (src : source) (evs : list read_ev)
           (epilogue : str) : option app_result :=
  match app_input_settings s with
  | Some s1 => Some (app_finish s1 epilogue (byteio_run s1 term_columns src evs))
  | None => None
  end.
