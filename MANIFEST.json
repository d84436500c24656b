{
 "claims": [
  {
   "property": "C01",
   "status": "proved",
   "theorems": [
    "C01_pieces_cover",
    "C01_parse_consumes"
   ],
   "note": ""
  },
  {
   "property": "C02",
   "status": "proved",
   "theorems": [
    "C02_grammar"
   ],
   "note": ""
  },
  {
   "property": "C03",
   "status": "proved",
   "theorems": [
    "C03_utf8_pieces",
    "C03_utf8_shown"
   ],
   "note": ""
  },
  {
   "property": "C04",
   "status": "partial",
   "theorems": [
    "C04_recognised_partial",
    "C04_recognised_refuted"
   ],
   "note": "The full statement is false: a valid sequence directly after stray non-UTF-8 bytes is swallowed by the binary run (witness proved). Proved: a valid sequence is recognised when the run preceding it is not binary."
  },
  {
   "property": "C05",
   "status": "proved",
   "theorems": [
    "C05_text_as_is"
   ],
   "note": ""
  },
  {
   "property": "C06",
   "status": "partial",
   "theorems": [
    "C06_fragments_text_partial",
    "C06_fragments_binary_partial",
    "C06_plain_text",
    "C06_plain_binary",
    "C06_dump",
    "C06_refuted"
   ],
   "note": "Proved when chunk borders do not cut a piece, without condition for input free of ESC and bytes >= 128, and without condition for the offset and hexadecimal columns of binary mode; false in general for characters and colors (witness)."
  },
  {
   "property": "C07",
   "status": "partial",
   "theorems": [
    "C07_success_partial",
    "C07_exceptions",
    "C07_refuted",
    "C07_long_refuted"
   ],
   "note": "Success is characterised exactly: iff the parameters of every SGR sequence can be read; SGR sequences with private parameters, or with a number of more than 4300 digits, raise ValueError (witnesses)."
  },
  {
   "property": "C08",
   "status": "proved",
   "theorems": [
    "C08_one_char_per_byte"
   ],
   "note": ""
  },
  {
   "property": "C09",
   "status": "partial",
   "theorems": [
    "C09_segments_bytes_partial",
    "C09_segments_bytes_refuted"
   ],
   "note": "Exact in binary mode (C08_one_char_per_byte) and for the pieces named by keeps_bytes in text mode; for every piece the theorem states exactly which bytes are recorded in text mode; the full statement is false (two witnesses)."
  },
  {
   "property": "C10",
   "status": "partial",
   "theorems": [
    "C10_text_leaks_partial",
    "C10_binary_leaks_partial",
    "C10_binary_clean",
    "C10_refuted"
   ],
   "note": "Everything but C1 controls (U+0080..U+009F) given in UTF-8 is excluded for all inputs; C1 controls are passed through (witness proved). Binary mode without --decode is clean."
  },
  {
   "property": "C11",
   "status": "proved",
   "theorems": [
    "C11_control_details"
   ],
   "note": ""
  },
  {
   "property": "C12",
   "status": "partial",
   "theorems": [
    "C12_text_complete_partial",
    "C12_text_shown",
    "C12_binary_complete",
    "C12_refuted"
   ],
   "note": "Exactly the decoration after the last piece of an unterminated last line is missing; witness proved."
  },
  {
   "property": "C13",
   "status": "proved",
   "theorems": [
    "C13_markers",
    "C13_markers_text",
    "C13_markers_distinct"
   ],
   "note": ""
  },
  {
   "property": "C14",
   "status": "proved",
   "theorems": [
    "C14_sgr_details"
   ],
   "note": ""
  },
  {
   "property": "C15",
   "status": "proved",
   "theorems": [
    "C15_harmless"
   ],
   "note": "Underline is set on the details only (a fixed style of the program), not copied from the input."
  },
  {
   "property": "C16",
   "status": "proved",
   "theorems": [
    "C16_ignored_text",
    "C16_ignored_binary"
   ],
   "note": ""
  },
  {
   "property": "C17",
   "status": "proved",
   "theorems": [
    "C17_focused_text",
    "C17_focused_binary",
    "C17_same_characters_text",
    "C17_same_characters_binary"
   ],
   "note": ""
  },
  {
   "property": "C18",
   "status": "proved",
   "theorems": [
    "C18_fifo"
   ],
   "note": ""
  },
  {
   "property": "C19",
   "status": "proved",
   "theorems": [
    "C19_detach_bytes",
    "C19_detach_none",
    "C19_detach_line"
   ],
   "note": ""
  },
  {
   "property": "C20",
   "status": "proved",
   "theorems": [
    "C20_split"
   ],
   "note": ""
  },
  {
   "property": "C21",
   "status": "proved",
   "theorems": [
    "C21_detached_format",
    "C21_detached_lines_format",
    "C21_rows_text",
    "C21_rows_binary"
   ],
   "note": ""
  },
  {
   "property": "C22",
   "status": "proved",
   "theorems": [
    "C22_dump"
   ],
   "note": ""
  },
  {
   "property": "C23",
   "status": "partial",
   "theorems": [
    "C23_offsets_partial",
    "C23_shown",
    "C23_exact",
    "C23_refuted"
   ],
   "note": "The offset shown is the true one exactly below 1,000,000 (hexadecimal) or 100,000,000 (decimal); what is shown of larger ones is characterised: the last digits are cut (witness)."
  },
  {
   "property": "C24",
   "status": "partial",
   "theorems": [
    "C24_total_partial",
    "C24_shown",
    "C24_exact",
    "C24_refuted"
   ],
   "note": "As C23; with zero columns the total is 0 (C26_zero_columns)."
  },
  {
   "property": "C25",
   "status": "proved",
   "theorems": [
    "C25_width"
   ],
   "note": ""
  },
  {
   "property": "C26",
   "status": "partial",
   "theorems": [
    "C26_zero_columns",
    "C26_negative_columns",
    "C26_refuted",
    "C22_dump"
   ],
   "note": "With a positive number of columns all bytes are shown (C22_dump); with 0 only a total of 0, with a negative number the program hangs; both reachable on narrow terminals (witnesses)."
  },
  {
   "property": "C27",
   "status": "proved",
   "theorems": [
    "C27_lines"
   ],
   "note": ""
  },
  {
   "property": "C28",
   "status": "proved",
   "theorems": [
    "C28_text_terminated",
    "C28_binary_terminated"
   ],
   "note": ""
  },
  {
   "property": "C29",
   "status": "proved",
   "theorems": [
    "C29_prompt_text",
    "C29_prompt_binary"
   ],
   "note": ""
  },
  {
   "property": "C30",
   "status": "proved",
   "theorems": [
    "C30_segments_whole"
   ],
   "note": ""
  },
  {
   "property": "C31",
   "status": "proved",
   "theorems": [
    "C31_delivered"
   ],
   "note": ""
  },
  {
   "property": "C32",
   "status": "proved",
   "theorems": [
    "C31_delivered",
    "C32_offsets",
    "C32_prefix"
   ],
   "note": ""
  },
  {
   "property": "C33",
   "status": "proved",
   "theorems": [
    "C33_interrupted"
   ],
   "note": ""
  },
  {
   "property": "C34",
   "status": "proved",
   "theorems": [
    "C34_closed"
   ],
   "note": ""
  },
  {
   "property": "C35",
   "status": "partial",
   "theorems": [
    "C35_seekable_partial",
    "C35_unseekable_fails",
    "C35_refuted"
   ],
   "note": "Standard input and seekable files are treated alike; every non-empty file that is not seekable fails (proved)."
  },
  {
   "property": "C36",
   "status": "partial",
   "theorems": [
    "C36_lines_partial",
    "C36_refuted"
   ],
   "note": "The exact number is proved: N-1 instead of N if the N-th line is blank."
  },
  {
   "property": "C37",
   "status": "proved",
   "theorems": [
    "C37_exit_status",
    "C37_output_kept",
    "C37_missing_file"
   ],
   "note": ""
  },
  {
   "property": "C38",
   "status": "proved",
   "theorems": [
    "C38_answers",
    "C38_mode_stable"
   ],
   "note": ""
  },
  {
   "property": "C39",
   "status": "partial",
   "theorems": [
    "C39_runner",
    "C39_demo_partial",
    "C39_refuted"
   ],
   "note": "Runner selection proved; demo defaults proved below debug level 4; with -DDDD the demo runs in text mode (witness)."
  },
  {
   "property": "C40",
   "status": "proved",
   "theorems": [
    "C40_rejected",
    "C40_flags",
    "C40_values"
   ],
   "note": ""
  },
  {
   "property": "C41",
   "status": "proved",
   "theorems": [
    "C41_assemble_readback",
    "C41_terminal_applies",
    "C41_assemble_injective",
    "C41_add_monoid"
   ],
   "note": "Equality of sequences is equality of parameter lists by representation."
  },
  {
   "property": "C42",
   "status": "proved",
   "theorems": [
    "C42_closing_undoes",
    "C42_back_to_default"
   ],
   "note": ""
  },
  {
   "property": "C43",
   "status": "partial",
   "theorems": [
    "C43_strip_is_visible",
    "C43_strip_idempotent_partial",
    "C43_strip_idempotent_refuted"
   ],
   "note": "Idempotence holds for texts a terminal displays cleanly; for arbitrary texts it is false (witness proved)."
  },
  {
   "property": "C44",
   "status": "proved",
   "theorems": [
    "C44_ljust",
    "C44_rjust",
    "C44_center"
   ],
   "note": ""
  },
  {
   "property": "C45",
   "status": "partial",
   "theorems": [
    "C45_layout",
    "C45_single",
    "C45_width",
    "C45_refuted",
    "C45_repeatable_refuted"
   ],
   "note": "True for every non-empty list of values; with no values at all the result is empty (witness). Padding changes the list of the caller (witness)."
  },
  {
   "property": "C46",
   "status": "proved",
   "theorems": [
    "C46_hex_roundtrip",
    "C46_rgb_roundtrip",
    "C46_wraps",
    "C46_terminal",
    "C46_printed",
    "C46_printed_negative"
   ],
   "note": ""
  },
  {
   "property": "C47",
   "status": "partial",
   "theorems": [
    "C47_nearest_partial",
    "C47_registered_partial",
    "C47_lookups_irrelevant_partial",
    "C47_refuted"
   ],
   "note": "Proved for all histories in which the registered values have 24 bits; beyond that answers depend on earlier look-ups (witness)."
  },
  {
   "property": "C48",
   "status": "partial",
   "theorems": [
    "C48_fits",
    "C48_too_short",
    "C48_not_finite",
    "C100_ints_partial",
    "C100_floats_partial",
    "C100_largest_refuted",
    "C100_large_int_refuted"
   ],
   "note": "Proved for exact rationals, and by C100 for all ints and doubles below 2^1023; the largest double and ints beyond doubles raise OverflowError (witnesses)."
  },
  {
   "property": "C49",
   "status": "partial",
   "theorems": [
    "C49_equal_partial",
    "C49_refuted"
   ],
   "note": "False: any two references compare equal."
  },
  {
   "property": "C50",
   "status": "proved",
   "theorems": [
    "C50_overrides",
    "C50_latest_unique",
    "C50_has_key"
   ],
   "note": ""
  },
  {
   "property": "C51",
   "status": "partial",
   "theorems": [
    "C51_always_empty",
    "C51_refuted"
   ],
   "note": "False: the sequences given are always dropped (proved for all arguments)."
  },
  {
   "property": "C52",
   "status": "proved",
   "theorems": [
    "C52_stops"
   ],
   "note": ""
  },
  {
   "property": "C53",
   "status": "proved",
   "theorems": [
    "C53_palette256",
    "C53_palette16",
    "C53_closest256",
    "C53_closest16"
   ],
   "note": ""
  },
  {
   "property": "C54",
   "status": "proved",
   "theorems": [
    "C54_approximate"
   ],
   "note": ""
  },
  {
   "property": "C55",
   "status": "partial",
   "theorems": [
    "C55_noop_partial",
    "C55_refuted"
   ],
   "note": "NOOP_COLOR does; NOOP_COLOR_INDEXED raises TypeError (proved)."
  },
  {
   "property": "C56",
   "status": "proved",
   "theorems": [
    "C56_says",
    "C56_too_large",
    "C56_small",
    "C56_says_custom"
   ],
   "note": "Exact rationals; C100 carries it over to ints and doubles below 2^1023."
  },
  {
   "property": "C57",
   "status": "partial",
   "theorems": [
    "C57_presets_partial",
    "C57_refuted"
   ],
   "note": "True for the four formatters of the library; false for formatters in general (witness)."
  },
  {
   "property": "C58",
   "status": "proved",
   "theorems": [
    "C58_woven"
   ],
   "note": ""
  },
  {
   "property": "C59",
   "status": "partial",
   "theorems": [
    "C59_harmless_partial",
    "C59_harmless_refuted"
   ],
   "note": "Proved when the name of the file is displayable and has no line break; names are printed as they are (witness)."
  },
  {
   "property": "C60",
   "status": "proved",
   "theorems": [
    "C60_announced",
    "C60_run"
   ],
   "note": ""
  },
  {
   "property": "C61",
   "status": "partial",
   "theorems": [
    "C61_rows",
    "C61_lines",
    "C61_lines_true_partial",
    "C61_text_offset_refuted"
   ],
   "note": "Proved for binary mode. In text mode the traces carry the bytes of the line and count the recorded bytes, which are the true offsets where every piece keeps its bytes; otherwise the offsets drift (witness)."
  },
  {
   "property": "C62",
   "status": "proved",
   "theorems": [
    "C62_shown",
    "C62_lines",
    "C62_independent",
    "C62_styles"
   ],
   "note": ""
  },
  {
   "property": "C63",
   "status": "partial",
   "theorems": [
    "C63_off_partial",
    "C63_html_refuted",
    "C63_debug_refuted"
   ],
   "note": "True of the renderers for terminals and tmux; HTML and debug output ignore the setting (witnesses)."
  },
  {
   "property": "C64",
   "status": "partial",
   "theorems": [
    "C64_tmux_partial",
    "C64_double_refuted",
    "C64_hash_refuted"
   ],
   "note": "Proved for texts without hash signs and styles without double underline; otherwise false (witnesses)."
  },
  {
   "property": "C65",
   "status": "proved",
   "theorems": [
    "C65_marks"
   ],
   "note": ""
  },
  {
   "property": "C66",
   "status": "partial",
   "theorems": [
    "C66_html_partial",
    "C66_markup_refuted",
    "C66_inversed_refuted"
   ],
   "note": "Proved for texts without < and &, class names without quotes, 24-bit colors; special characters are not escaped, inversed styles need colors (witnesses)."
  },
  {
   "property": "C67",
   "status": "partial",
   "theorems": [
    "C67_values_partial",
    "C67_length",
    "C67_format_several",
    "C67_refuted"
   ],
   "note": "Proved for programs that do not both join texts and format them; otherwise texts share runs (witness)."
  },
  {
   "property": "C68",
   "status": "partial",
   "theorems": [
    "C68_inherits",
    "C68_root",
    "C68_fails",
    "C68_flip_looks",
    "C68_flip_twice",
    "C68_autopick",
    "C68_autopick_none",
    "C68_equal_partial",
    "C68_equal_refuted"
   ],
   "note": "Inheritance, flip and autopick proved; equality of styles ignores all attributes but colors (proved, witness)."
  },
  {
   "property": "C69",
   "status": "partial",
   "theorems": [
    "C69_content_partial",
    "C69_refuted"
   ],
   "note": "False for 0, whose text is empty (witness)."
  },
  {
   "property": "C70",
   "status": "proved",
   "theorems": [
    "C70_found",
    "C70_unknown",
    "C70_unique",
    "C70_usable"
   ],
   "note": ""
  },
  {
   "property": "C71",
   "status": "proved",
   "theorems": [
    "C71_text",
    "C71_binary",
    "C71_sigils"
   ],
   "note": ""
  },
  {
   "property": "C72",
   "status": "partial",
   "theorems": [
    "C72_classes_partial",
    "C72_null_refuted",
    "C72_delete_refuted"
   ],
   "note": "Exact but for control characters 00 and 7f, which the legend omits (witnesses)."
  },
  {
   "property": "C73",
   "status": "partial",
   "theorems": [
    "C73_file",
    "C73_legend",
    "C73_legend_harmless",
    "C73_version",
    "C73_version_refuted",
    "C73_width_partial",
    "C73_width_refuted"
   ],
   "note": "Printed completely and harmless; the version it states is not the one of the program, and one line is wider than stated (witnesses)."
  },
  {
   "property": "C74",
   "status": "proved",
   "theorems": [
    "C74_brief",
    "C74_debug",
    "C74_stripped",
    "C74_stdout"
   ],
   "note": "Exceptions are given by class name, message and traceback lines without ESC."
  },
  {
   "property": "C75",
   "status": "partial",
   "theorems": [
    "C75_length_partial",
    "C75_length_refuted",
    "C75_total",
    "C75_too_big",
    "C75_value",
    "C75_exponent",
    "C75_zero",
    "C75_numeral_refuted"
   ],
   "note": "Accuracy and failures proved; the length is exceeded by one exactly if rounding adds a digit (characterised, witness), and there may be blanks after the sign (witness). Exact rationals; floats in C104."
  },
  {
   "property": "C76",
   "status": "partial",
   "theorems": [
    "C76_value_partial",
    "C76_metric",
    "C76_digits_refuted",
    "C76_metric_small_partial",
    "C76_zero",
    "C76_binary",
    "C76_beyond",
    "C76_max_len_partial",
    "C76_max_len_refuted"
   ],
   "note": "Right prefix proved for numbers from 1 on; numbers between 1/multiplier and 1 stay without prefix and lose digits, the length may be exceeded by one (witnesses). Exact rationals; floats in C104."
  },
  {
   "property": "C77",
   "status": "partial",
   "theorems": [
    "C77_text",
    "C77_binary",
    "C77_demo_text",
    "C77_demo_binary",
    "C77_blocks",
    "C77_same",
    "C77_interrupted_text",
    "C77_interrupted_binary",
    "C77_missing",
    "C77_pipe",
    "C77_negative",
    "C77_usage",
    "C77_readable_refuted"
   ],
   "note": "Proved for the standard input, regular files and the demonstration; pipes given by name are refused (witness), as are buffer sizes below -1; blocks with the sequences of C07 are excluded."
  },
  {
   "property": "C78",
   "status": "partial",
   "theorems": [
    "C78_language",
    "C78_unique",
    "C78_runs",
    "C78_ways",
    "C78_names",
    "C78_demo_file_refuted"
   ],
   "note": "Proved for the language given in Spec/CommandLine.v, with argparse of Python 3.11 as modelled; the help text says that <file> is ignored with --demo, but it is refused (witness)."
  },
  {
   "property": "C79",
   "status": "proved",
   "theorems": [
    "C79_exact",
    "C79_code",
    "C79_never_both",
    "C79_determined",
    "C79_help",
    "C79_asked",
    "C79_usage",
    "C79_clear",
    "C79_end_refuted",
    "C79_help_refuted"
   ],
   "note": "\"Correct beginning\" is the language of Spec/HelpAsked.v, which is wider than one may expect: unknown words before the request do not matter. Witnesses show what does not hold: \"--\" after the file and options is refused, and --help is refused beside an ambiguous abbreviation."
  },
  {
   "property": "C80",
   "status": "partial",
   "theorems": [
    "C80_marked_partial",
    "C80_total",
    "C80_gone",
    "C80_any_sign",
    "C80_backslash_refuted",
    "C80_invisible_refuted"
   ],
   "note": "Proved for signs without backslash and for white space; with any sign the result is what the sign and the group reference behind it mean together; a backslash loses the line breaks, control characters and characters without width are not replaced (witnesses)."
  },
  {
   "property": "C81",
   "status": "partial",
   "theorems": [
    "C81_sgr",
    "C81_csi_partial",
    "C81_csi_refuted",
    "C81_specific",
    "C81_groups",
    "C81_sgr_any",
    "C81_csi_any",
    "C81_one_meaning",
    "C81_fails"
   ],
   "note": "SGR sequences: exact. ReplaceCSI replaces exactly the control sequences without intermediate characters that end with a letter or @; others are left (witness)."
  },
  {
   "property": "C82",
   "status": "proved",
   "theorems": [
    "C82_ascii",
    "C82_any",
    "C82_in_turn"
   ],
   "note": ""
  },
  {
   "property": "C83",
   "status": "proved",
   "theorems": [
    "C83_thousands",
    "C83_unique"
   ],
   "note": "Floats: C107."
  },
  {
   "property": "C84",
   "status": "partial",
   "theorems": [
    "C84_listed_partial",
    "C84_listed_refuted",
    "C84_silent",
    "C84_settings_after",
    "C84_literal"
   ],
   "note": "False for file names with ESC, which are printed as they are (witness); proved for all others."
  },
  {
   "property": "C85",
   "status": "partial",
   "theorems": [
    "C85_harmless_partial",
    "C86_harmless_partial",
    "C85_harmless_refuted",
    "C85_determines"
   ],
   "note": "Names of one line of displayable text; other names reach the terminal as they are (witness)."
  },
  {
   "property": "C86",
   "status": "proved",
   "theorems": [
    "C86_woven"
   ],
   "note": "Without restriction. That the lines put in are harmless is part of C85."
  },
  {
   "property": "C87",
   "status": "proved",
   "theorems": [
    "C87_listed",
    "C87_once",
    "C87_run"
   ],
   "note": "With the formatter of argparse and textwrap of Python 3.11 as modelled."
  },
  {
   "property": "C88",
   "status": "partial",
   "theorems": [
    "C88_nearly_partial",
    "C88_exact",
    "C88_explained_refuted"
   ],
   "note": "Only colons are lost; the widths at which this happens are given exactly, among them 80 columns when the output is not a terminal (witness)."
  },
  {
   "property": "C89",
   "status": "partial",
   "theorems": [
    "C89_harmless",
    "C89_harmless_refuted"
   ],
   "note": "Holds exactly from 20 columns on or without a terminal; below, escape sequences are torn apart (witness)."
  },
  {
   "property": "C90",
   "status": "partial",
   "theorems": [
    "C90_fits_partial",
    "C90_fits_refuted"
   ],
   "note": "The part with the options fits from 64 columns on; the text at the end is not wrapped and has a line of 305 characters."
  },
  {
   "property": "C91",
   "status": "proved",
   "theorems": [
    "C91_reported",
    "C91_determined",
    "C91_silent",
    "C91_three",
    "C91_never_accepted",
    "C91_usage_text"
   ],
   "note": "\"True reason\": Spec/UsageReasons.v describes how a command line is read step by step and what its first trouble is; the messages are those of argparse of Python 3.11."
  },
  {
   "property": "C92",
   "status": "partial",
   "theorems": [
    "C92_harmless_partial",
    "C92_harmless_refuted"
   ],
   "note": "False as it stands: words that are not recognised, or ambiguous, are repeated as they are, with their control characters. Proved for all other reasons, and for these if the words of the command line are displayable."
  },
  {
   "property": "C93",
   "status": "partial",
   "theorems": [
    "C93_named",
    "C93_capital",
    "C93_effect",
    "C93_refused",
    "C93_arguments",
    "C93_kinds",
    "C93_constants_refuted"
   ],
   "note": "The docstring promises that the name of any constant of IntCodes is accepted; false for the five constants that are lists (ValueError). Proved: all other names work in any case and mean what they say; everything else is refused, with the exception stated. Unicode: the capital forms are a parameter, assumed to be the usual ones for ASCII only."
  },
  {
   "property": "C94",
   "status": "partial",
   "theorems": [
    "C94_seqs_partial",
    "C94_seqs_refuted",
    "C94_spans",
    "C94_wrapped"
   ],
   "note": "False for one preset: Seqs.BLINK_DEFAULT exists, SequenceSGR(\"blink_default\") raises KeyError. Proved for all other presets, and for all spans."
  },
  {
   "property": "C95",
   "status": "partial",
   "theorems": [
    "C95_filled",
    "C95_stops",
    "C95_plain",
    "C95_comments_refuted"
   ],
   "note": "C95_filled and C95_stops characterise the result completely, for every text; what is false is the expectation that a comment only disappears (removing it can make a format of its surroundings) and that comments may have several lines."
  },
  {
   "property": "C96",
   "status": "partial",
   "theorems": [
    "C96_generated",
    "C96_current_refuted"
   ],
   "note": "False as it stands: the shipped file was made for version 1.5.3, the program is 1.5.4. Proved: but for version and date it is exactly what the present generator makes of the present template with the present program."
  },
  {
   "property": "C97",
   "status": "partial",
   "theorems": [
    "C97_default",
    "C97_prefs",
    "C97_fails",
    "C97_shown",
    "C97_forced",
    "C97_sixteen",
    "C97_all_types_refuted",
    "C97_html_unaffected"
   ],
   "note": "set_up does not affect all renderer types: classes with own preferences keep them and HtmlRenderer has none (witness)."
  },
  {
   "property": "C98",
   "status": "proved",
   "theorems": [
    "C98_presented",
    "C98_unknown"
   ],
   "note": ""
  },
  {
   "property": "C99",
   "status": "partial",
   "theorems": [
    "C99_inverse",
    "C99_hue_refuted",
    "C99_autopick"
   ],
   "note": "In exact rational numbers. The hue is within [0, 360), not [0, 359] (witness)."
  },
  {
   "property": "C100",
   "status": "partial",
   "theorems": [
    "C100_ints_partial",
    "C100_floats_partial",
    "C100_largest_refuted",
    "C100_large_int_refuted",
    "C100_any_formatter",
    "C100_beyond_refuted",
    "C100_rounding"
   ],
   "note": "True below 2^1023 for the formatters of the library and below 2^53 for any formatter; false beyond (witnesses)."
  },
  {
   "property": "C101",
   "status": "partial",
   "theorems": [
    "C101_output",
    "C101_debug_partial",
    "C101_debug_refuted",
    "C101_latin_refuted"
   ],
   "note": "Regular output and the help page always; debug output unless the name of the file is not UTF-8 (witness). The table of printable characters and the text of tracebacks are parameters assumed to consist of characters."
  },
  {
   "property": "C102",
   "status": "partial",
   "theorems": [
    "C102_change",
    "C102_value",
    "C102_inherit",
    "C102_shown",
    "C102_untouched",
    "C102_copies",
    "C102_render_copies",
    "C102_ready_partial",
    "C102_ready_refuted"
   ],
   "note": "The ready-made styles stay the same only as long as nobody changes them; any part of a program can, e.g. with Styles.CRITICAL.flip() (witness)."
  },
  {
   "property": "C103",
   "status": "partial",
   "theorems": [
    "C103_shown",
    "C103_sequences",
    "C103_spans",
    "C103_colors",
    "C103_styles_partial",
    "C103_html",
    "C103_styles_refuted",
    "C103_closest_refuted"
   ],
   "note": "Styles: the text shows the values of colors, not their kinds, so that styles looking differently are shown alike (witness); the example of find_closest in the documentation is not what is shown."
  },
  {
   "property": "C104",
   "status": "partial",
   "theorems": [
    "C104_log",
    "C104_plain",
    "C104_exponent",
    "C104_no_exponent",
    "C104_zero_refuted",
    "C104_total_refuted",
    "C104_metric_partial",
    "C104_metric_refuted",
    "C104_metric_small",
    "C104_binary_small",
    "C104_binary",
    "C104_binary_fraction",
    "C104_binary_tiny"
   ],
   "note": "Accuracy proved for every library whose log10 is the decimal magnitude except right below powers of ten (a correctly rounded one is, and there is one). The exceptions are real: an error for -999.9999999999999 with SI units, 0e5 for 99999.99999999999 in three characters, ZeroDivisionError for 5e-324. SI units from 10^-27 to 10^27, binary units from 2^-90 to 2^90; results with room for one digit besides the exponent are not covered."
  },
  {
   "property": "C105",
   "status": "partial",
   "theorems": [
    "C105_close",
    "C105_inverse",
    "C105_back",
    "C105_hue_refuted",
    "C105_autopick"
   ],
   "note": "The hue is in [0, 360) instead of [0, 359] as documented (witness)."
  },
  {
   "property": "C106",
   "status": "partial",
   "theorems": [
    "C106_shown",
    "C106_apart_partial",
    "C106_apart_refuted",
    "C106_equal_partial",
    "C106_equal_refuted",
    "C106_table"
   ],
   "note": "References are equal to each other whatever they refer to, so equal ones may be shown differently; segments that differ only in color or label are shown alike (witnesses)."
  },
  {
   "property": "C107",
   "status": "proved",
   "theorems": [
    "C107_shown",
    "C107_exists",
    "C107_digits",
    "C107_apart",
    "C107_zero",
    "C107_special"
   ],
   "note": "The digits are an input of the model; C107_shown assumes that they are the shortest ones read as the number, as CPython promises for repr; C107_exists shows that there are such digits."
  },
  {
   "property": "C108",
   "status": "proved",
   "theorems": [
    "C108_reader",
    "C108_parser",
    "C108_books"
   ],
   "note": "Text mode: what the buffer of segments tells is not covered (the bytes of ignored sequences are not kept there). Messages for matches are covered by C60."
  },
  {
   "property": "C109",
   "status": "partial",
   "theorems": [
    "C109_binary",
    "C109_binary_any",
    "C109_text_partial",
    "C109_text",
    "C109_refuted"
   ],
   "note": "Proved for binary mode in every case. In text mode with -m 1 or -m 2 the details of control characters are underlined, too (witness; C109_text says exactly what is)."
  },
  {
   "property": "C110",
   "status": "partial",
   "theorems": [
    "C110_sound_partial",
    "C110_text",
    "C110_sound_refuted",
    "C110_complete_refuted"
   ],
   "note": "ESC [ SP m, no SGR, has the marker; ESC[00m, which resets everything, has not (witnesses)."
  },
  {
   "property": "C111",
   "status": "partial",
   "theorems": [
    "C111_text",
    "C111_binary",
    "C111_width",
    "C111_traces_refuted"
   ],
   "note": "Proved for the regular output. The offsets in debug traces follow --decimal-offsets in text mode, too (witness)."
  },
  {
   "property": "C112",
   "status": "proved",
   "theorems": [
    "C112_refines",
    "C112_whole",
    "C112_cut",
    "C112_plain"
   ],
   "note": "Requests for 0 bytes are covered by C19_detach_none. C112_tests repeats the unit tests of the repository on the model."
  },
  {
   "property": "C113",
   "status": "partial",
   "theorems": [
    "C113_recovered_partial",
    "C113_distinct_partial",
    "C113_stray_refuted",
    "C113_tail_refuted",
    "C113_brief_refuted"
   ],
   "note": "Bytes above 127 that are no UTF-8 share one sign, the code of a control character at the end of an unterminated line is missing, and -m 1 hides the bodies of sequences (witnesses)."
  },
  {
   "property": "C114",
   "status": "proved",
   "theorems": [
    "C114_text",
    "C114_binary",
    "C114_line",
    "C114_border_matters"
   ],
   "note": "C114_border_matters shows that the border within a chunk must be after a line feed."
  },
  {
   "property": "C115",
   "status": "proved",
   "theorems": [
    "C115_binary",
    "C115_text"
   ],
   "note": "In text mode the factor for bytes is 31, for a control character is kept as as many zero bytes as its code says (C115_example); the length of the texts of segments is bounded in binary mode only."
  },
  {
   "property": "C116",
   "status": "partial",
   "theorems": [
    "C116_restored_partial",
    "C116_restored_refuted",
    "C116_during",
    "C116_result",
    "C116_nothing_swallowed"
   ],
   "note": "False if Ctrl+C is pressed right after the settings were changed, before try is entered, or right before they are restored (at both moments every terminal with echo loses it); true otherwise, provided the call that restores them succeeds. Windows is not modelled."
  },
  {
   "property": "C117",
   "status": "partial",
   "theorems": [
    "C117_plain",
    "C117_metric",
    "C117_binary",
    "C117_exponent",
    "C117_beyond",
    "C117_error_refuted"
   ],
   "note": "For ints without a nearest float the error is OverflowError instead of ValueError (witness), also with units; everything else is true. The logarithm of such ints is a parameter."
  },
  {
   "property": "C118",
   "status": "partial",
   "theorems": [
    "C118_listed",
    "C118_first",
    "C118_second",
    "C118_third_partial",
    "C118_third_refuted",
    "C118_fourth",
    "C118_fifth",
    "C118_level",
    "C118_level_refuted"
   ],
   "note": "The third example does not exit after 128 bytes but waits for 4096 or the end of the input; until then nothing is shown (C118_third_refuted, for every such input). README.md:126 calls level 1 of marker details the default, it is 0 (witness). Binary mode: terminals of at least 48 columns."
  },
  {
   "property": "C119",
   "status": "partial",
   "theorems": [
    "C119_classes_partial",
    "C119_one_row",
    "C119_ranges_refuted",
    "C119_ignore",
    "C119_focus",
    "C119_text_ignore",
    "C119_text_focus",
    "C119_bytes",
    "C119_bytes_focus"
   ],
   "note": "The codes of the null byte and of delete are missing in the ranges of control characters, although both are named as examples there (C119_ranges_refuted); with them the table is right."
  }
 ]
}