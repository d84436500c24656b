(** The help page and the usage message: kolombos/arghelp.py with the formatter of argparse of
    Python 3.11.  The argument [columns] is what [shutil.get_terminal_size().columns] returns; it is
    positive.  The argument [tty] tells whether standard output is a terminal. *)
From Coq Require Import Ascii String.
From Coq Require Import List NArith ZArith Bool.
From Verif.Model Require Import Base Ansi Template Color Presets Reader Render Runner Process Args Wrap.
Import ListNotations.
Local Open Scope N_scope.

(** * Texts with styles, arghelp.py:101-104 *)
(** [SgrRenderer] as set up by default; no color is approximated *)
Definition help_conf (tty : bool) : rconf := mkRconf (Some false) false false tty.
Definition render_styled (tty : bool) (s : style) (text : str) : str :=
  match fst (sgr_render (help_conf tty) (mkRstate approx_init approx_init) text s) with Ok x => x | Err _ => [] end.
Definition bold_style : style := mkStyle NOOP_COLOR NOOP_COLOR None (Some true) None None None None None None None None.
Definition underlined_style : style := mkStyle NOOP_COLOR NOOP_COLOR None None None None None None None None (Some true) None.
Definition yellow_style : style := mkStyle (c16 0x808000 33 43)%Z NOOP_COLOR None None None None None None None None None None.
Definition fmt_b (tty : bool) (s : str) : str := render_styled tty bold_style s.
Definition fmt_u (tty : bool) (s : str) : str := render_styled tty underlined_style s.
Definition fmt_default (tty : bool) (s : str) : str := render_styled tty yellow_style s.
(** [ren]: the renderer applied to a text without style of its own *)
Definition ren (tty : bool) (s : str) : str := render_styled tty NOOP_STYLE s.

(** * Small functions on strings *)
(** [s.replace(p, r)] for a non-empty [p] *)
Fixpoint replace_fuel (fuel : nat) (p r s : str) : str :=
  match fuel, s with
  | O, _ | _, [] => s
  | S fuel, c :: t => if starts_with p s then r ++ replace_fuel fuel p r (skipn (length p) s) else c :: replace_fuel fuel p r t
  end.
Definition replace (p r s : str) : str := replace_fuel (length s) p r s.
Definition NL : str := [10].
Definition indent (n : nat) : str := repeat 32 n.
Definition ljust (n : nat) (s : str) : str := s ++ indent (n - length s).
Fixpoint skip_nl (s : str) : str := match s with c :: r => if c =? 10 then skip_nl r else s | [] => [] end.
Definition rstrip_nl (s : str) : str := rev (skip_nl (rev s)).
Definition strip_nl (s : str) : str := rstrip_nl (skip_nl s).
(** argparse.py [_whitespace_matcher.sub(' ', text).strip()] *)
Fixpoint squeeze (pending : bool) (s : str) : str :=
  match s with
  | [] => []
  | c :: r => if w_space c then squeeze true r else (if pending then [32] else []) ++ c :: squeeze false r
  end.
Definition normalise (s : str) : str := squeeze false (match s with c :: _ => if w_space c then skipn (spaces s) s else s | [] => s end).

(** * The arguments, arghelp.py:146-199 *)
Record arg := mkArg { g_names : list string; g_metavar : option string; g_default : string; g_help : bool -> str }.
Definition plain_help (s : string) (_ : bool) : str := txt s.
Definition default_help (s d : string) (tty : bool) : str := ren tty (txt s ++ fmt_default tty (txt d)).
Definition buffer_help (tty : bool) : str :=
  ren tty (txt "read buffer size, in bytes " ++ fmt_default tty (txt "[default: " ++ dec (Z.to_N READ_CHUNK_SIZE) ++ txt "]")).
Definition separators_help (tty : bool) : str :=
  ren tty (txt "do not print " ++ SEPARATOR_LEFT ++ txt "separators" ++ SEPARATOR_RIGHT ++ txt " around escape sequences").
Definition flag (names : list string) (help : string) : arg := mkArg names None "False" (plain_help help).
Definition groups : list (string * list arg) := [
  ("input", [
    mkArg [] (Some "<file>") "None" (plain_help "file to read from; if empty or ""-"", read stdin instead; ignored if --demo is present");
    flag ["-M"; "--demo"] "show output examples and exit; see --legend for the description"]);
  ("operating mode", [
    mkArg ["-t"; "--text"] None "True" (default_help "open file in text mode " "[this is a default]");
    flag ["-b"; "--binary"] "open file in binary mode";
    flag ["-l"; "--legend"] "show annotation symbol list and exit";
    flag ["-v"; "--version"] "show app version and exit";
    flag ["-h"; "--help"] "show this help message and exit"]);
  ("character class options", [
    flag ["-s"; "--focus-space"] "highlight whitespace markers";
    flag ["-c"; "--focus-control"] "highlight control char markers";
    flag ["-p"; "--focus-printable"] "highlight printable chars";
    flag ["-e"; "--focus-esc"] "highlight escape sequences markers";
    flag ["-u"; "--focus-utf8"] "highlight UTF-8 sequences";
    flag ["-i"; "--focus-binary"] "highlight binary data bytes";
    flag ["-S"; "--ignore-space"] "dim/hide whitespaces";
    flag ["-C"; "--ignore-control"] "dim/hide control chars";
    flag ["-P"; "--ignore-printable"] "dim/hide printable chars";
    flag ["-E"; "--ignore-esc"] "dim/hide escape sequences";
    flag ["-U"; "--ignore-utf8"] "dim/hide UTF-8 sequences";
    flag ["-I"; "--ignore-binary"] "dim/hide binary data"]);
  ("generic options", [
    mkArg ["-f"; "--buffer"] (Some "<size>") "None" buffer_help;
    mkArg ["-L"; "--max-lines"] (Some "<num>") "0" (default_help "stop after reading <num> lines " "[default: no limit]");
    mkArg ["-B"; "--max-bytes"] (Some "<num>") "0" (default_help "stop after reading <num> bytes " "[default: no limit]");
    mkArg ["-D"; "--debug"] None "0" (plain_help "enable debug mode; can be used from 1 to 4 times, each level increases verbosity (-D|DD|DDD|DDDD)");
    flag ["--color-markers"] "apply SGR marker format to themselves"]);
  ("text mode options", [
    mkArg ["-m"; "--marker"] (Some "<details>") "0" (default_help "marker details: 0 is none, 1 is brief, 2 is full " "[default: %(default)s]");
    mkArg ["--no-separators"] None "False" separators_help;
    flag ["--no-line-numbers"] "do not print line numbers"]);
  ("binary mode options", [
    mkArg ["-w"; "--columns"] (Some "<num>") "0" (default_help "format output as <num>-columns wide table " "[default: auto]");
    flag ["-d"; "--decode"] "decode valid UTF-8 sequences, print as unicode chars";
    mkArg ["--decimal-offsets"] None "False" (default_help "output offsets in decimal format " "[default: hex format]");
    flag ["--no-offsets"] "do not print offsets"])]%string.

(** arghelp.py:45-64 [_format_action_invocation] *)
Definition invocation (g : arg) : str :=
  match g_names g, g_metavar g with
  | [], Some m => txt m
  | names, None => join (txt ", ") (map txt names)
  | names, Some m =>
      join (txt ", ") (map (fun n =>
        if (2 <? length (txt n))%nat || (length names =? 1)%nat then txt n ++ txt " " ++ txt m else txt n) names)
  end.

(** argparse.py:171-190: the width of the page and the column of the descriptions *)
Definition page_width (columns : Z) : Z := (columns - 2)%Z.
Definition max_help_position (columns : Z) : Z := Z.min 30 (Z.max (page_width columns - 20) 4).
Definition section_indent : nat := 2.
(** argparse.py:275-280: [_action_max_length] *)
Definition action_max_length : nat :=
  fold_right Nat.max O (map (fun g => length (invocation g) + section_indent)%nat (flat_map snd groups)).
Definition help_position (columns : Z) : nat :=
  Z.to_nat (Z.min (Z.of_nat action_max_length + 2) (max_help_position columns)).
Definition help_width (columns : Z) : nat :=
  Z.to_nat (Z.max (page_width columns - Z.of_nat (help_position columns)) 11).

(** argparse.py:585-596 [_expand_help]: of the keys only [default] occurs *)
Definition expand_help (tty : bool) (g : arg) : str := replace (txt "%(default)s") (txt (g_default g)) (g_help g tty).

(** argparse.py:497-547 [_format_action] in a section; every argument has a description *)
Definition format_action (columns : Z) (tty : bool) (g : arg) : str :=
  let pos := help_position columns in
  (* may be negative in the source, never for the arguments above: [help_position >= 4] *)
  let action_width := (pos - section_indent - 2)%nat in
  let header := invocation g in
  let lines := wrap (help_width columns) (normalise (expand_help tty g)) in
  let tail := flat_map (fun l => indent pos ++ l ++ NL) (List.tl lines) in
  if (length header <=? action_width)%nat
  then indent section_indent ++ ljust action_width header ++ indent 2 ++ List.hd [] lines ++ NL ++ tail
  else indent section_indent ++ header ++ NL ++ indent pos ++ List.hd [] lines ++ NL ++ tail.

(** arghelp.py:23-25 [format_header] *)
Definition format_header (title : str) : str := span_wrap [c_BOLD] (upper title).

(** arghelp.py:66-70 [_format_text], [_fill_text], with argparse.py:490-495; [n] is the indentation *)
Definition expand_prog (text : str) : str := replace (txt "%(prog)s") (txt "kolombos") text.
Definition format_text (n : nat) (text : str) : str :=
  rstrip_nl (flat_map (fun l => indent n ++ l) (splitlines (expand_prog text)) ++ NL ++ NL) ++ NL.

(** argparse.py:212-232 [_Section.format_help] *)
Definition section (title : str) (items : list str) : str :=
  match concat items with
  | [] => []
  | body => NL ++ format_header title ++ txt ":" ++ NL ++ body ++ NL
  end.

(** argparse.py:302-308 [format_help] of the formatter *)
Fixpoint long_breaks (count : nat) (s : str) : str :=
  match s with
  | [] => []
  | c :: r => if c =? 10 then (if (count <? 2)%nat then c :: long_breaks (S count) r else long_breaks count r)
              else c :: long_breaks O r
  end.
Definition formatted (items : list str) : str :=
  match concat items with [] => [] | s => strip_nl (long_breaks 0 s) ++ NL end.

(** arghelp.py:106-113, 33-38 [add_usage] *)
Definition usage_lines : list str :=
  map txt ["%(prog)s [[--text] | --binary] [<options>] [--demo | <file>]"; "%(prog)s --legend"; "%(prog)s --version";
           "%(prog)s --help"]%string.
Definition usage_items : list str :=
  [ format_text 0 (format_header (txt "usage"));
    indent 2 ++ expand_prog (replace NL (NL ++ indent 2) (join NL usage_lines)) ++ NL ++ NL ].

(** arghelp.py:114-123 *)
Definition epilog (tty : bool) : str := join NL [
  txt "Mandatory or optional arguments to long options are also mandatory or optional for any corresponding short options. Arguments can be separated with both space or ""="" in both cases.";
  [];
  txt "Binary mode disables " ++ fmt_b tty (txt "--marker") ++ txt " setting, because marker length should be always equal to actual sequence length. Therefore, control chars have 0 details level, while escape seqs are displayed with full details (2). Also, debug mode sets "
    ++ fmt_b tty (txt "--buffer") ++ txt " setting to " ++ dec (Z.to_N READ_CHUNK_SIZE_DEBUG) ++ txt " bytes (however, it can be overriden as usual).";
  [];
  txt "Demo mode effectively fixes <filename> to a preset path for the current run, as well as implies -b, -d and -w16 (can be overriden).";
  [];
  txt "(c) 2022-2023 A. Shavykin <0.delameter@gmail.com>" ].
(** arghelp.py:124-140 *)
Definition examples (tty : bool) : list str :=
  let prog := indent 4 ++ fmt_u tty (txt "%(prog)s") in [
  txt "Read file in text mode, highlight escape sequences, marker verbosity 2 (max)";
  prog ++ txt " --focus-esc -m" ++ fmt_u tty (txt "2") ++ txt " file.txt";
  [];
  txt "Read file in binary mode, ignore whitespace, printables and UTF-8 sequences";
  prog ++ txt " --binary -USP file.bin";
  [];
  txt "Read stdin in binary mode, highlight control characters, process 128 first bytes and exit";
  prog ++ txt " --binary --focus-control -B" ++ fmt_u tty (txt "128");
  [];
  txt "Show demo in binary mode, 32 bytes per line, with decimal offsets";
  prog ++ txt " -w32 --decimal-offsets --demo";
  [];
  txt "Display annotation symbol list and color map";
  prog ++ txt " --legend";
  NL ].
Definition description : str := txt "Escape sequences and control characters visualiser".

(** * [re.sub(r'(\033\[[0-9;]*m)?\s*:\s*(\n|\033|$)', r'\1\2', result)], arghelp.py:95 *)
Definition re_space (c : N) : bool := int_space c || (28 <=? c) && (c <=? 31).
Fixpoint skip_re_space (s : str) : str := match s with c :: r => if re_space c then skip_re_space r else s | [] => [] end.
(** after the last line break of the white space at the beginning, if there is one *)
Fixpoint after_break (s : str) (found : option str) : option str :=
  match s with
  | c :: r => if re_space c then after_break r (if c =? 10 then Some r else found) else found
  | [] => found
  end.
(** [\s*:\s*(\n|\033|$)]: group 2 and what follows the match *)
Definition colon (s : str) : option (str * str) :=
  match skip_re_space s with
  | 58 :: r =>
      match skip_re_space r with
      | [] => Some ([], [])
      | 27 :: t => Some ([27], t)
      | _ => match after_break r None with Some t => Some (NL, t) | None => None end
      end
  | _ => None
  end.
(** [\033\[[0-9;]*m]: the match and what follows *)
Fixpoint sgr_params (s : str) : option (str * str) :=
  match s with
  | c :: r =>
      if c =? 109 then Some ([c], r)
      else if (48 <=? c) && (c <=? 57) || (c =? 59)
      then match sgr_params r with Some (a, b) => Some (c :: a, b) | None => None end
      else None
  | [] => None
  end.
Definition sgr_at (s : str) : option (str * str) :=
  match s with
  | 27 :: 91 :: r => match sgr_params r with Some (a, b) => Some (27 :: 91 :: a, b) | None => None end
  | _ => None
  end.
Definition colon_match (s : str) : option (str * str) :=
  let plain := colon s in
  match sgr_at s with
  | Some (g, r) => match colon r with Some (x, t) => Some (g ++ x, t) | None => plain end
  | None => plain
  end.
Fixpoint no_colons (fuel : nat) (s : str) : str :=
  match fuel, s with
  | O, _ | _, [] => s
  | S fuel, c :: r =>
      match colon_match s with
      | Some (x, t) => x ++ no_colons fuel t
      | None => c :: no_colons fuel r
      end
  end.

(** * The page *)
(** arghelp.py:82-96 [format_help] with argparse.py:2574-2595 *)
Definition raw_help (columns : Z) (tty : bool) : str :=
  formatted (usage_items ++ [format_text 0 description]
             ++ map (fun x => section (txt (fst x)) (map (format_action columns tty) (snd x))) groups)
  ++ formatted [ format_text 0 (txt " "); format_text 0 (epilog tty);
                 section (txt "examples") [format_text 2 (join NL (examples tty))] ].
Definition help_page (columns : Z) (tty : bool) : str :=
  let s := raw_help columns tty in no_colons (length s) s.
(** argparse.py:2568-2572 [format_usage] *)
Definition usage_text : str := formatted usage_items.

(** * The program with everything it prints on standard output; [exit(0)] of the help action ends it
    without the final line break of app.py:30 *)
Definition started (w : world) (tty : bool) (argv : list str) : app_result :=
  match main w argv with
  | Some r => r
  | None => mkApp (help_page (w_columns w) tty) None (Some 0%Z)
  end.
