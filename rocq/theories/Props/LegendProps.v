(** C71-C74: what the program says about itself *)
From Coq Require Import Ascii String.
From Coq Require Import List Arith NArith ZArith Bool.
From Verif.Model Require Import Base Settings Reader Runner Render Legend Messages.
From Verif.Spec Require Import Numbers Utf8 Terminal Lexical SgrParams Display Output Input Legend Messages Conditions.
From Verif.Proof Require Import ExampleFacts LegendFacts DecodeFacts LegendClaims MessageFacts.
Import ListNotations.
Local Open Scope N_scope.

(** ** C71 *)

(** Every example of the legend for text mode appears in the output of every run with the
    settings it is for and with the piece of input it is for (not as the last piece: details are
    followed by a separator only in front of another piece). *)
Theorem C71_text : forall sl tcl srcl evl epi x s tc src evs chunks before next after, s_legend sl = true ->
  In x legend_samples -> is_text_sample x = true -> applies x s ->
  opens src -> Processed s evs chunks -> Finishes s evs -> Tokens chunks (before ++ sample_token x :: next :: after) ->
  exists p acts rows row l r, byteio_run s tc src evs = (p, acts, REnd) /\ displays (pr_out p) rows /\ In row rows /\
    map to_cell row = l ++ sample_region (screen (ap_out (app_main sl tcl srcl evl epi))) x ++ r.
Proof. exact sample_in_text. Qed.
Print Assumptions C71_text.

(** The same for the two columns of binary mode: at the position of the bytes, their hexadecimal
    values (as many as the legend has room for) and characters. *)
Theorem C71_binary : forall sl tcl srcl evl epi x s tc c src evs chunks before after, s_legend sl = true ->
  In x legend_samples -> is_text_sample x = false -> applies x s -> columns s tc = Z.of_nat c -> (0 < c)%nat ->
  opens src -> Processed s evs chunks -> Finishes s evs -> Tokens chunks (before ++ sample_token x :: after) ->
  exists p acts l cells r, byteio_run s tc src evs = (p, acts, REnd) /\ displays (pr_out p) (binary_rows s c (l ++ cells ++ r)) /\
    List.length l = List.length (flat_map tok_bytes before) /\
    match sm_where x with
    | In_hex _ => sample_region (screen (ap_out (app_main sl tcl srcl evl epi))) x = firstn (sm_width x) (map to_cell (flat_map hex_cells cells))
    | _ => sample_region (screen (ap_out (app_main sl tcl srcl evl epi))) x = map to_cell (map char_cell cells)
    end.
Proof. exact sample_in_binary. Qed.
Print Assumptions C71_binary.

(** The column of sigils has the markers of the kinds of input. *)
Theorem C71_sigils : forall sl tc src evs epi y c m k foc s, s_legend sl = true ->
  In (y, c, m, k, foc) sigils -> s_focus s (class_of k) = foc -> (forall b, m = Some b -> binary_mode s = b) ->
  map cell_char (region (screen (ap_out (app_main sl tc src evs epi))) y c 1) = [marker s k].
Proof. exact sigil_shown. Qed.
Print Assumptions C71_sigils.

Example C71_example : s_legend legend_settings = true /\ In tab_sample legend_samples /\ is_text_sample tab_sample = true /\
  applies tab_sample default_settings /\ Tokens ex_chunks (firstn 3 ex_toks ++ sample_token tab_sample :: skipn 4 ex_toks) /\
  List.length legend_samples = 101%nat.
Proof. exact (conj eq_refl (conj tab_sample_in (conj eq_refl (conj tab_applies (conj ex_tokens eq_refl))))). Qed.

(** ** C72 *)

(** The table of character classes: exact for spaces, printable characters and bytes which are
    not ASCII; it omits two of the control characters. *)
Theorem C72_classes_partial : forall sl tc src evs epi k w rest b, s_legend sl = true -> Token k w rest -> In b w -> single_kind k = true ->
  let scr := screen (ap_out (app_main sl tc src evs epi)) in
  (class_of k = CC_space <-> in_ranges (class_ranges scr 8) b) /\
  (class_of k = CC_printable <-> in_ranges (class_ranges scr 10) b) /\
  (class_of k = CC_binary <-> in_ranges (class_ranges scr 11) b) /\
  (in_ranges (class_ranges scr 9) b -> class_of k = CC_control) /\
  (class_of k = CC_control -> in_ranges (class_ranges scr 9) b \/ b = 0 \/ b = 127).
Proof. exact classes_stated. Qed.
Print Assumptions C72_classes_partial.

Theorem C72_null_refuted : exists sl k w rest b, s_legend sl = true /\ Token k w rest /\ In b w /\ class_of k = CC_control /\
  ~ in_ranges (class_ranges (screen (ap_out (app_main sl 80 SrcStdin [] []))) 9) b.
Proof. exact classes_wrong. Qed.
Print Assumptions C72_null_refuted.
Theorem C72_delete_refuted : exists sl k w rest b, s_legend sl = true /\ Token k w rest /\ In b w /\ class_of k = CC_control /\
  ~ in_ranges (class_ranges (screen (ap_out (app_main sl 80 SrcStdin [] []))) 9) b /\ b <> 0.
Proof. exact classes_wrong_del. Qed.
Print Assumptions C72_delete_refuted.

(** ** C73 *)

(** Whatever UTF-8 file the legend is, all its lines but the comments are printed. *)
Theorem C73_file : forall ls r, Forall no_boundary ls -> Forall (Forall scalar) ls -> no_boundary r -> Forall scalar r ->
  legend_run (utf8_text (as_lines ls ++ r)) = Ok (as_lines (filter (fun l => negb (starts_hash l)) ls) ++ if starts_hash r then [] else r).
Proof. exact legend_run_lines. Qed.
Print Assumptions C73_file.

(** The one that is bundled is printed whatever other options there are; the exit status is 0, the
    terminal is left with default attributes and nothing but text and colors is sent to it. *)
Theorem C73_legend : exists ls l, legend_bytes = utf8_text (as_lines ls ++ l) /\ Forall no_boundary ls /\ no_boundary l /\ starts_hash l = true /\
  forall sl tc src evs epi, s_legend sl = true ->
  ap_out (app_main sl tc src evs epi) = as_lines (filter (fun l => negb (starts_hash l)) ls) ++ [10] /\
  ap_err (app_main sl tc src evs epi) = None /\ ap_code (app_main sl tc src evs epi) = Some 0%Z.
Proof. exact legend_as_lines. Qed.
Print Assumptions C73_legend.
Theorem C73_legend_harmless : forall sl tc src evs epi, s_legend sl = true ->
  clean (ap_out (app_main sl tc src evs epi)) /\ final_attrs (ap_out (app_main sl tc src evs epi)) = attrs0.
Proof. exact legend_harmless. Qed.
Print Assumptions C73_legend_harmless.
Theorem C73_version : forall sl tc src evs epi, s_legend sl = false -> s_version sl = true ->
  ap_out (app_main sl tc src evs epi) = txt "es7s/kolombos   1.5.4" ++ [10] ++ txt "pytermor        2.1.0-dev15" ++ [10] ++ [10] /\
  ap_err (app_main sl tc src evs epi) = None /\ ap_code (app_main sl tc src evs epi) = Some 0%Z.
Proof. exact version_out. Qed.
Print Assumptions C73_version.

(** The legend is that of another version. *)
Theorem C73_version_refuted : exists sl sv, s_legend sl = true /\ s_legend sv = false /\ s_version sv = true /\
  map cell_char (region (screen (ap_out (app_main sl 80 SrcStdin [] []))) 5 44 6) = txt "v1.5.3" /\
  map cell_char (region (screen (ap_out (app_main sv 80 SrcStdin [] []))) 0 16 5) = txt "1.5.4".
Proof. exact stale_version. Qed.
Print Assumptions C73_version_refuted.
(** It says 88 columns are enough; they are for all lines but one. *)
Theorem C73_width_partial : forall sl tc src evs epi y, s_legend sl = true -> y <> 16%nat ->
  (List.length (nth y (screen_lines (screen (ap_out (app_main sl tc src evs epi)))) []) <= 88)%nat.
Proof. exact width_but_one. Qed.
Print Assumptions C73_width_partial.
Theorem C73_width_refuted : exists sl y, s_legend sl = true /\
  map cell_char (region (screen (ap_out (app_main sl 80 SrcStdin [] []))) 63 42 13) = txt "88 chars wide" /\
  List.length (nth y (screen_lines (screen (ap_out (app_main sl 80 SrcStdin [] [])))) []) = 101%nat.
Proof. exact width_wrong. Qed.
Print Assumptions C73_width_refuted.

Example C73_example :
  legend_run [35; 97; 10; 0xd1; 0x85; 10; 98] = Ok [0x445; 10; 98] /\ legend_run [0xd1; 10] = Err ValueError /\
  s_version version_settings = true.
Proof. repeat split; vm_compute; reflexivity. Qed.

(** ** C74 *)

(** A failed run is reported on the standard error stream in bright red after a bold headline,
    and the standard output gets a hint which option to use; both leave default attributes. *)
Theorem C74_brief : forall debug e ps, plain_text (x_class e) -> plain_text (x_message e) -> debug = 0%nat \/ x_argument e = true ->
  on_exception debug e = Some ps ->
  shows (on_stream Stderr ps) (message_cells bright_red (txt "ERROR: ") (x_class e ++ txt ": " ++ x_message e)) /\
  shows (on_stream Stdout ps)
    (hint_cells (txt "Run the app with '") (if x_argument e then txt "--help" else txt "--debug")
       (if x_argument e then txt "' argument to see the usage" else txt "' argument to see the details") ++ [(10, attrs0)]).
Proof. exact report_brief. Qed.
Print Assumptions C74_brief.

(** With debug output the traceback is on the standard output, its last line is the message. *)
Theorem C74_debug : forall debug e lines last, (0 < debug)%nat -> x_argument e = false -> x_trace e = lines ++ [last] -> Forall plain_text (x_trace e) ->
  exists ps, on_exception debug e = Some ps /\
  shows (on_stream Stderr ps) (message_cells bright_red (txt "ERROR: ") (rstrip_lf last)) /\
  shows (on_stream Stdout ps) (styled dark_red (join [10] (map rstrip_lf lines)) ++ [(10, attrs0)]).
Proof. exact report_debug. Qed.
Print Assumptions C74_debug.
Theorem C74_stripped : forall s, exists k, s = rstrip_lf s ++ repeat 10 k /\ (forall r, rstrip_lf s <> r ++ [10]).
Proof. exact rstrip_spec. Qed.
Print Assumptions C74_stripped.

(** Without debug output the hint is all a failed run adds to the standard output. *)
Theorem C74_stdout : forall e ps, x_argument e = false -> on_exception 0 e = Some ps -> on_stream Stdout ps = debug_hint ++ [10].
Proof. exact report_stdout. Qed.
Print Assumptions C74_stdout.

Example C74_example : plain_text (x_class ex_raised) /\ plain_text (x_message ex_raised) /\
  option_map (on_stream Stderr) (on_exception 0 ex_raised) =
    Some ([27; 91; 57; 49; 109; 27; 91; 49; 109] ++ txt "ERROR: " ++ [27; 91; 50; 50; 109] ++ txt "FileNotFoundError: No such file" ++ [27; 91; 51; 57; 109; 10]).
Proof. exact (conj (txt_plain "FileNotFoundError" eq_refl) (conj (txt_plain "No such file" eq_refl) eq_refl)). Qed.
