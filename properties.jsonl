{"id": "C01", "title": "Parsing consumes every byte, in order, exactly once", "statement": "For every byte string handed to the parser, the pieces it recognises are non-empty, their concatenation is the input, and the 'some bytes unprocessed' RuntimeError is never raised; afterwards the raw buffer is empty.", "quantifier": "all byte strings of any length, any prior parser state with an empty raw buffer", "why_tests_cant": "the regex has 20 alternatives with backtracking; tests only sample a few inputs per alternative", "anchors": ["kolombos/byteio/parser/parser.py: Parser.parse, F_SEPARATOR", "kolombos/byteio/parser/buffer.py: ParserBuffer.crop_raw"]}
{"id": "C02", "title": "Classification follows the documented character-class grammar", "statement": "Each recognised piece belongs to the class given by the documentation (UTF-8 sequence, binary run, CSI/nF/Fp/Fe/Fs escape sequence, control, each whitespace kind, printable), with the documented priority and longest-run rule; the grammar determines the segmentation uniquely.", "quantifier": "all byte strings", "why_tests_cant": "alternation priority and greedy runs interact at every position; exhaustive sampling is impossible", "anchors": ["kolombos/byteio/parser/parser.py: F_SEPARATOR, MGROUP_TO_TPL_MAP", "README.md"]}
{"id": "C03", "title": "UTF-8 pieces are exactly encodings of Unicode scalar values", "statement": "A piece is classified as a UTF-8 sequence iff it is the (shortest-form) UTF-8 encoding of one Unicode scalar value >= U+0080, and text mode displays precisely that scalar as one character.", "quantifier": "all byte strings / all 1,112,064-128 scalar values", "why_tests_cant": "1.1 million code points and all malformed byte combinations", "anchors": ["kolombos/byteio/parser/parser.py: F_SEPARATOR group 0", "kolombos/byteio/template/template_utf8.py: Utf8SequenceTemplate._process"]}
{"id": "C04", "title": "Every valid UTF-8 sequence in the input is recognised as such", "statement": "Wherever a complete valid UTF-8 multi-byte sequence occurs at a character boundary it is displayed decoded, also directly after stray non-UTF-8 bytes.", "quantifier": "all byte strings and positions", "why_tests_cant": "depends on what precedes the sequence", "anchors": ["kolombos/byteio/parser/parser.py: F_SEPARATOR group 1", "README.md: char classes table"]}
{"id": "C05", "title": "Well-formed UTF-8 text is displayed character for character", "statement": "If the input piece is the UTF-8 encoding of a text of visible characters, text mode shows exactly these characters in the same order (nothing added, dropped or replaced).", "quantifier": "all strings of printable ASCII and non-ASCII scalar values", "why_tests_cant": "infinite set of texts; needs induction over the token sequence", "anchors": ["kolombos/byteio/parser/parser.py: Parser.parse", "kolombos/byteio/template/template_utf8.py", "kolombos/byteio/template/template_printable.py"]}
{"id": "C06", "title": "Output does not depend on the read buffer size", "statement": "The visible output for an input is the same whatever --buffer is (and however a pipe fragments the data).", "quantifier": "all inputs and all ways to cut them into chunks", "why_tests_cant": "quantifies over all fragmentations of all inputs", "anchors": ["kolombos/byteio/reader.py: Reader.read", "kolombos/byteio/parser/parser.py: Parser.parse"]}
{"id": "C07", "title": "No input makes the program fail", "statement": "Processing any readable input with valid settings finishes without an exception (exit status 0).", "quantifier": "all inputs, all settings", "why_tests_cant": "needs every SGR parameter string and every template path", "anchors": ["kolombos/byteio/template/template_escape_sgr.py: EscapeSequenceSGRTemplate.set_details_fmt_str", "kolombos/byteio/parser/parser.py: _resolve_escape_seq_csi"]}
{"id": "C08", "title": "Binary mode shows exactly one character per input byte", "statement": "In binary mode, for every class, display mode, --decode and marker setting, the text column has exactly one character for each byte.", "quantifier": "all byte strings, all settings with binary read mode", "why_tests_cant": "product of 20 templates x settings x arbitrary-length matches", "anchors": ["kolombos/byteio/template/*.py: substitute", "README.md: binary mode"]}
{"id": "C09", "title": "Segments carry exactly the input bytes", "statement": "The raw bytes of the segments produced for a piece are exactly the bytes of that piece.", "quantifier": "all pieces, all settings", "why_tests_cant": "data dependent; tests only check processed text", "anchors": ["kolombos/byteio/template/template_control.py: ControlCharGenericTemplate.substitute", "kolombos/byteio/template/template_escape.py: EscapeSequenceTemplate._fill_additional_segments"]}
{"id": "C10", "title": "Input control characters never reach the terminal", "statement": "The text emitted for the input contains no control character taken from the input: every ESC belongs to a complete SGR sequence produced by the program itself, the only other C0 characters are the tab and newline deliberately kept for tabs and line feeds in text mode, and no C1 control is emitted.", "quantifier": "all inputs, chunkings and settings", "why_tests_cant": "security property over all inputs", "anchors": ["kolombos/byteio/template/template.py: Template._process", "kolombos/byteio/template/template_utf8.py", "kolombos/byteio/segment/buffer.py: _format"]}
{"id": "C11", "title": "Control character details match the documentation", "statement": "With --marker 1 each generic control character is followed by its caret-notation letter, with --marker 2 by its two-digit hexadecimal value, with --marker 0 by nothing, in input order.", "quantifier": "all runs of generic control characters, all settings", "why_tests_cant": "arbitrary-length runs in any position", "anchors": ["kolombos/byteio/template/template_control.py"]}
{"id": "C12", "title": "Nothing that was parsed is left undisplayed at end of input", "statement": "When the input ends, every segment (markers, details and separators) has been written.", "quantifier": "all inputs, settings", "why_tests_cant": "depends on the last bytes of input", "anchors": ["kolombos/byteio/segment/buffer.py: SegmentBuffer._detach, detach_line", "kolombos/byteio/formatter/text.py"]}
{"id": "C13", "title": "SGR, SGR-reset and other CSI sequences get their own markers", "statement": "A CSI sequence is shown as reset marker iff its final byte is m and its parameters are empty or '0', as SGR iff its final byte is m otherwise, else as generic CSI; nF, Fp, Fe, Fs sequences get their own markers.", "quantifier": "all escape sequences", "why_tests_cant": "unbounded parameter strings", "anchors": ["kolombos/byteio/parser/parser.py: _resolve_escape_seq_csi, MGROUP_TO_TPL_MAP"]}
{"id": "C14", "title": "Brief SGR details decode the parameters", "statement": "At --marker 1 the details of an SGR list its codes in order; 38;5;n / 48;5;n appear as F<n>/B<n>, 38;2;r;g;b / 48;2;r;g;b as F/B + six hex digits that determine r,g,b.", "quantifier": "all parameter lists", "why_tests_cant": "unbounded lists and integers", "anchors": ["kolombos/byteio/template/template_escape_sgr.py: set_details_fmt_str"]}
{"id": "C15", "title": "--color-markers applies only harmless attributes", "statement": "The attributes copied from an input SGR to its marker can change only colors, dim, italic, overline and cross-out; never bold, underline, blink, inversion, hidden or reset, for any parameter list.", "quantifier": "all SGR parameter lists", "why_tests_cant": "unbounded lists; nested 38/48 grammar", "anchors": ["kolombos/byteio/template/template_escape_sgr.py: set_details_fmt_str, _get_label_opening_seq"]}
{"id": "C16", "title": "Ignoring a class hides precisely that class", "statement": "With a class ignored every byte of it is shown as the ignored sign (a line feed still breaks the line in text mode); what is displayed for all other classes is the same as without the option.", "quantifier": "all inputs, all subsets of ignored classes", "why_tests_cant": "non-interference relates two runs over all inputs", "anchors": ["kolombos/settings.py: get_char_class_display_mode", "kolombos/byteio/template/template.py: _process"]}
{"id": "C17", "title": "Focusing a class only changes how it looks", "statement": "Focusing a class changes neither the segmentation, nor the rows/lines, nor the characters displayed (except the space marker); only attributes change, and ignore wins over focus.", "quantifier": "all inputs, all subsets of focused classes", "why_tests_cant": "relates two runs over all inputs", "anchors": ["kolombos/settings.py: get_char_class_display_mode", "kolombos/byteio/template/registry.py"]}
{"id": "C18", "title": "The segment buffer is a FIFO of bytes under any history", "statement": "For any interleaving of attach and detach_bytes/detach_line calls the bytes handed out, followed by the bytes still held, are the bytes attached, in order; the reported data length is their difference; no internal error is raised.", "quantifier": "all operation histories, all request sizes >= 0", "why_tests_cant": "histories are unbounded", "anchors": ["kolombos/byteio/segment/buffer.py: SegmentBuffer"]}
{"id": "C19", "title": "detach_bytes/detach_line hand out exactly what was asked", "statement": "detach_bytes(n) yields exactly n bytes (or all the rest when forced), WaitRequest iff fewer are available and not forced, EOFError iff nothing to return; detach_line yields exactly the bytes up to and including the first line break.", "quantifier": "all reachable buffer states, all n >= 0", "why_tests_cant": "unbounded states", "anchors": ["kolombos/byteio/segment/buffer.py: detach_bytes, detach_line, _detach"]}
{"id": "C20", "title": "A segment can be split iff its text and bytes correspond one to one", "statement": "Cutting a segment at n raises BufferError iff the number of characters differs from the number of bytes; otherwise the two halves reassemble to the original.", "quantifier": "all segments, all n", "why_tests_cant": "all lengths", "anchors": ["kolombos/byteio/segment/segment.py: Segment.split, is_consistent"]}
{"id": "C21", "title": "Every emitted row is self-contained: formatting never leaks", "statement": "On a terminal starting from default attributes, after every row/line written the attributes are default again, and each character is displayed with the attributes of its own marker wherever the row boundary falls.", "quantifier": "all inputs, chunkings, settings (including --color-markers with arbitrary codes from the input)", "why_tests_cant": "row boundaries can fall inside any segment", "anchors": ["kolombos/byteio/segment/buffer.py: attach, _detach", "pytermor/ansi.py: Span.closing_seq"]}
{"id": "C22", "title": "Binary mode output is a lossless dump", "statement": "With a positive number of columns, the visible output is precisely: for each group of <columns> consecutive bytes a row with its offset, the hex values of the bytes, padding, separator and the display characters; the hex columns of all rows concatenated are the input, for any chunking.", "quantifier": "all inputs, chunkings, columns >= 1, settings", "why_tests_cant": "unbounded streams and buffer states", "anchors": ["kolombos/byteio/formatter/binary.py: BinaryFormatter.format", "kolombos/byteio/formatter/_abstract.py"]}
{"id": "C23", "title": "Offset column shows the true offset", "statement": "The offset printed before a row (and the total size) identifies the offset of its first byte: reading the printed number back gives the offset.", "quantifier": "all offsets, hex and decimal", "why_tests_cant": "unbounded offsets; wrong only for large ones", "anchors": ["kolombos/console.py: format_offset, format_prefix"]}
{"id": "C24", "title": "Total size line equals the number of bytes processed", "statement": "In binary mode with offsets the last line shows the number of bytes delivered by the reader, for every chunking and limit.", "quantifier": "all inputs, chunkings, limits", "why_tests_cant": "accumulated over unbounded loop", "anchors": ["kolombos/byteio/formatter/binary.py", "kolombos/console.py: format_total_size"]}
{"id": "C25", "title": "Automatic columns fit the terminal", "statement": "With automatic columns no row is longer than the terminal width.", "quantifier": "all terminal widths, inputs", "why_tests_cant": "all widths", "anchors": ["kolombos/byteio/formatter/binary.py: _compute_cols_num"]}
{"id": "C26", "title": "The column count never loses data or hangs", "statement": "For every terminal width and every accepted --columns value binary mode terminates and shows all bytes.", "quantifier": "all widths, all integers for --columns", "why_tests_cant": "non-termination cannot be observed by a test", "anchors": ["kolombos/byteio/formatter/binary.py: format, _compute_cols_num", "kolombos/byteio/segment/segment.py: split"]}
{"id": "C27", "title": "Text mode lines and numbers correspond to input lines", "statement": "In text mode line k of the output shows precisely the pieces of input line k, numbered consecutively from 1; the number of output lines is the number of line feeds plus one for a non-empty unterminated tail, for any chunking.", "quantifier": "all inputs, chunkings, settings", "why_tests_cant": "unbounded streams", "anchors": ["kolombos/byteio/formatter/text.py: TextFormatter.format", "kolombos/byteio/segment/buffer.py: detach_line"]}
{"id": "C28", "title": "Every text-mode line is terminated exactly once", "statement": "Each line written in text mode contains exactly one line break and it is its last visible character, whether or not the input line had one.", "quantifier": "all inputs, settings", "why_tests_cant": "depends on last segment and SGR stripping", "anchors": ["kolombos/byteio/formatter/text.py", "pytermor/util/string_filter.py: ReplaceSGR"]}
{"id": "C29", "title": "Output is prompt", "statement": "After each chunk is processed no complete line (text) or complete row (binary) is withheld; after the last callback nothing countable is withheld.", "quantifier": "all histories of chunks", "why_tests_cant": "quantifies over stream prefixes", "anchors": ["kolombos/byteio/formatter/text.py", "kolombos/byteio/formatter/binary.py"]}
{"id": "C30", "title": "Text mode never cuts a segment", "statement": "Taking lines from the buffer never splits a segment, hence never raises BufferError even though text-mode segments are not one-to-one.", "quantifier": "all histories of attached segments and detach_line calls", "why_tests_cant": "unbounded histories", "anchors": ["kolombos/byteio/segment/buffer.py: detach_line, _detach"]}
{"id": "C31", "title": "Reader delivers exactly the limited prefix of the input", "statement": "With positive or absent --max-bytes B and --max-lines L the bytes delivered are the longest prefix of the input with at most B bytes and without the L-th line feed, independent of chunking.", "quantifier": "all inputs, chunkings, B, L", "why_tests_cant": "limits may be hit in any chunk at any position", "anchors": ["kolombos/byteio/reader.py: Reader.read"]}
{"id": "C32", "title": "Reader callbacks are contiguous and finish once", "statement": "Each callback's offset is the number of bytes delivered before it; the finish flag is set in exactly one callback, the last.", "quantifier": "all inputs, chunkings, limits", "why_tests_cant": "unbounded loops", "anchors": ["kolombos/byteio/reader.py: Reader.read"]}
{"id": "C33", "title": "Interruption keeps what was already shown", "statement": "If reading is interrupted (Ctrl-C) after any number of chunks the output is a prefix of the output of the uninterrupted run, and the program ends normally.", "quantifier": "all inputs, chunkings, interruption points", "why_tests_cant": "crash points", "anchors": ["kolombos/byteio/reader.py: Reader.read", "kolombos/app.py"]}
{"id": "C34", "title": "Input is always closed", "statement": "Once opened, the input is closed exactly once on every path: normal end, limit, interruption, exception in processing or reading.", "quantifier": "all executions", "why_tests_cant": "all failure points", "anchors": ["kolombos/byteio/reader.py: Reader.read, close"]}
{"id": "C35", "title": "Any readable file can be displayed, seekable or not", "statement": "A file given by name is processed the same whether or not it supports seeking (FIFO, process substitution, /dev/stdin).", "quantifier": "all inputs, both kinds of files", "why_tests_cant": "environment dependent", "anchors": ["kolombos/byteio/reader.py: Reader.read (tell)"]}
{"id": "C36", "title": "--max-lines N shows N lines", "statement": "With --max-lines N in text mode the number of lines displayed is min(N, number of input lines).", "quantifier": "all inputs, N >= 1", "why_tests_cant": "depends on the content of the last line", "anchors": ["kolombos/byteio/reader.py", "kolombos/byteio/formatter/text.py"]}
{"id": "C37", "title": "Exit status reflects success", "statement": "The process exits with 0 iff no exception was raised during the run, otherwise with 1, and errors never suppress output already produced.", "quantifier": "all runs", "why_tests_cant": "all failure points", "anchors": ["kolombos/app.py: App.run", "kolombos/console.py"]}
{"id": "C38", "title": "Mode resolution and precedence", "statement": "Read mode: binary beats text beats the default, and once resolved it does not change however often and in whatever order it is queried; marker details are strict in binary mode regardless of --marker; display mode: ignored beats focused.", "quantifier": "all settings, all histories of queries", "why_tests_cant": "histories", "anchors": ["kolombos/settings.py: Settings"]}
{"id": "C39", "title": "Runner selection and demo defaults", "statement": "Legend beats version beats demo beats normal processing; --demo uses binary mode, decoding and 16 columns unless overridden, and reads the demo file.", "quantifier": "all settings", "why_tests_cant": "combinations of all options", "anchors": ["kolombos/runner/factory.py", "kolombos/runner/demo.py"]}
{"id": "C40", "title": "Option parsing fills settings without clobbering defaults", "statement": "Options not given keep the program defaults (columns automatic, no limits, no mode chosen); given ones take the last value; mutually exclusive ones are rejected.", "quantifier": "all option sequences", "why_tests_cant": "unbounded option lists", "anchors": ["kolombos/arghelp.py", "kolombos/settings.py: SettingsManager"]}
{"id": "C41", "title": "SGR sequences assemble and add faithfully", "statement": "A terminal reading an assembled SGR sequence recovers exactly its parameters; concatenation of sequences is associative with the empty one as neutral; equality is equality of parameters.", "quantifier": "all parameter lists", "why_tests_cant": "unbounded lists and integers", "anchors": ["pytermor/ansi.py: SequenceSGR"]}
{"id": "C42", "title": "Closing sequence undoes exactly the opening one", "statement": "For any opening sequence of supported codes, applying its closing sequence leaves every attribute set by the opening one at its default and every other attribute untouched (bold and dim being one group).", "quantifier": "all sequences of supported codes, all terminal states", "why_tests_cant": "unbounded lists", "anchors": ["pytermor/ansi.py: _SgrPairityRegistry.get_closing_seq, Span"]}
{"id": "C43", "title": "SGR stripping removes formatting and only formatting", "statement": "Removing SGR sequences from a text yields the characters a terminal displays, applying it twice changes nothing further.", "quantifier": "all strings", "why_tests_cant": "regex substitution over all strings", "anchors": ["pytermor/util/string_filter.py: ReplaceSGR"]}
{"id": "C44", "title": "SGR-aware justification has the requested visible width", "statement": "ljust/rjust/center of a formatted string yield max(width, visible length) visible characters and keep the content.", "quantifier": "all strings, widths, fill characters", "why_tests_cant": "all strings", "anchors": ["pytermor/util/stdlib_ext.py"]}
{"id": "C45", "title": "Distributing values over a fixed width is exact and even", "statement": "distribute_padded yields exactly max_len characters with gaps differing by at most one, or an error iff the values do not fit.", "quantifier": "all value lists, widths", "why_tests_cant": "arithmetic over all lists", "anchors": ["pytermor/render.py: distribute_padded"]}
{"id": "C46", "title": "Color hex/RGB conversions are mutually inverse", "statement": "Converting a 24-bit color to channels and back is the identity, and conversely for channels in 0..255; extended color SGRs carry precisely these channels.", "quantifier": "all colors", "why_tests_cant": "2^24 values, arithmetic", "anchors": ["pytermor/color.py", "pytermor/ansi.py: init_color_rgb"]}
{"id": "C47", "title": "Nearest-color lookup is correct under any history", "statement": "After any sequence of registrations and lookups, a lookup returns a registered color at minimal distance from the requested one (itself if registered), despite caching.", "quantifier": "all histories of add and find", "why_tests_cant": "cache coherence over histories", "anchors": ["pytermor/color.py: Approximator"]}
{"id": "C48", "title": "Time deltas fit the requested length", "statement": "format_time_delta(seconds, max_len) is never longer than max_len for every supported max_len.", "quantifier": "all durations, all max_len >= 3", "why_tests_cant": "unbounded durations", "anchors": ["pytermor/util/time_delta.py"]}
{"id": "C49", "title": "SequenceRef equality compares the referenced sequences", "statement": "Two sequence references are equal iff they reference equal sequences.", "quantifier": "all pairs of references", "why_tests_cant": "all pairs", "anchors": ["kolombos/byteio/segment/sequence_ref.py: SequenceRef.__eq__"]}
{"id": "C50", "title": "Partial overrides behave as a first-match map", "statement": "After any history of set calls, get returns the latest value of the first overridden key among those asked, else the default.", "quantifier": "all histories of set, all key lists", "why_tests_cant": "histories", "anchors": ["kolombos/byteio/partial_override.py"]}
{"id": "C51", "title": "An explicitly built Span keeps the sequences it was given", "statement": "Span.init_explicit(opening, closing) yields a span whose opening and closing sequences are the given ones.", "quantifier": "all pairs of sequences", "why_tests_cant": "all pairs of sequences", "anchors": ["pytermor/ansi.py: Span.init_explicit, _opt_arg, Sequence.__len__"]}
{"id": "C52", "title": "Limits end the run even if the input does not end", "statement": "Once --max-bytes or --max-lines is reached nothing more is read: the run is the same however the input continues (endless input, later failure, later interruption).", "quantifier": "all inputs, chunkings, limits, continuations", "why_tests_cant": "the continuations are infinitely many, including endless ones", "anchors": ["kolombos/byteio/reader.py: Reader.read"]}
{"id": "C53", "title": "Indexed color presets are the terminal's palette, and approximation picks the nearest of it", "statement": "The 256-color presets are exactly colors 16..255 of the xterm palette and the 16-color presets the 16 basic colors; a color drawn in 256- or 16-color mode uses the nearest palette entry, whatever was looked up before.", "quantifier": "all colors, all histories of look-ups", "why_tests_cant": "2^24 colors times all look-up histories", "anchors": ["pytermor/color.py: Colors, Approximator, _ColorIndexed.find_closest"]}
{"id": "C54", "title": "Approximation lists the nearest colors in order", "statement": "Approximator.approximate(h, k) returns the k registered colors nearest to h, nearest first, ties in the order of registration.", "quantifier": "all registries, colors, numbers", "why_tests_cant": "all registries", "anchors": ["pytermor/color.py: Approximator.approximate"]}
{"id": "C55", "title": "No-op colors render to nothing", "statement": "NOOP_COLOR and NOOP_COLOR_INDEXED give the empty sequence, as documented.", "quantifier": "foreground and background", "why_tests_cant": "the constants are never rendered in the tests", "anchors": ["pytermor/color.py: NOOP_COLOR, NOOP_COLOR_INDEXED, ColorIndexed16.to_sgr"]}
{"id": "C56", "title": "A formatted duration says what the duration is", "statement": "The text names an amount of one or two adjacent units, and the duration lies between this amount and the next one of the same precision; durations beyond the limit give the overflow text, durations below one second are named as such.", "quantifier": "all durations, all lengths; all formatters with sensible units", "why_tests_cant": "unbounded durations, arbitrary unit tables", "anchors": ["pytermor/util/time_delta.py: TimeDeltaFormatter.format_raw"]}
{"id": "C57", "title": "max_len of a formatter bounds its output", "statement": "No output of a TimeDeltaFormatter is longer than the max_len it computes on creation.", "quantifier": "all formatters, all durations", "why_tests_cant": "all unit tables", "anchors": ["pytermor/util/time_delta.py: TimeDeltaFormatter._compute_max_len"]}
{"id": "C58", "title": "Debug traces are woven between lines of the regular output", "statement": "With any number of --debug options the program reads, processes and ends as without, and its stdout is the regular output with complete trace messages put between complete lines of it; without the option there are no traces.", "quantifier": "all settings, inputs, chunkings, debug levels", "why_tests_cant": "all inputs times all debug levels; traces are printed by every component", "anchors": ["kolombos/console.py: ConsoleDebugBuffer.write", "kolombos/byteio/: debug writes of all components", "kolombos/runner/byteio.py"]}
{"id": "C59", "title": "Debug traces do nothing to the terminal", "statement": "Every trace message is a single line of displayable characters and complete SGR sequences after which the attributes are the default ones, whatever bytes the input consists of.", "quantifier": "all settings, inputs, chunkings, file names", "why_tests_cant": "arbitrary bytes and buffer states are previewed in traces", "anchors": ["kolombos/console.py: printd, ConsoleDebugBuffer.write, Console.get_separator_line", "kolombos/byteio/segment/buffer.py: preview"]}
{"id": "C60", "title": "The parser announces every piece of input with its offset, kind and length", "statement": "The match messages of a chunk name, in order, exactly the pieces of the lexical grammar, each with the absolute offset of its first byte, the number of its alternative and its length.", "quantifier": "all chunks, offsets, settings", "why_tests_cant": "all byte strings", "anchors": ["kolombos/byteio/parser/parser.py: _debug_print_match_segments, _handle"]}
{"id": "C61", "title": "Offsets in formatter traces are those of the input", "statement": "In binary mode every row is directly preceded by a trace row with the same offset and bytes, showing a sign per byte; in text mode every line is preceded by traces at the offset of its first byte.", "quantifier": "all settings, inputs, chunkings", "why_tests_cant": "all inputs", "anchors": ["kolombos/byteio/formatter/binary.py: format", "kolombos/byteio/formatter/text.py: format", "kolombos/byteio/formatter/_abstract.py: _seg_raw_to_safe"]}
{"id": "C62", "title": "A styled text looks on the terminal as its styles say", "statement": "Rendered for a terminal of any color depth, each run of a text appears with its characters, the colors of its style (or the nearest available) and its attributes; every line is styled separately, the attributes are the default ones after it; stripping the output gives the text; earlier renderings do not matter.", "quantifier": "all texts, styles made from any arguments and inheritance, settings, histories of color look-ups", "why_tests_cant": "unbounded texts, styles and histories", "anchors": ["pytermor/render.py: SgrRenderer.render, Text.render", "pytermor/color.py: ColorIndexed.find_closest, to_sgr"]}
{"id": "C63", "title": "Disabled styles leave texts unchanged", "statement": "With force_styles=None, as documented for all renderers, or with force_styles=False and no terminal, texts are output as they are.", "quantifier": "all texts, styles, renderers", "why_tests_cant": "all texts and styles times settings", "anchors": ["pytermor/render.py: SgrRenderer.set_up, is_sgr_usage_allowed, NoOpRenderer"]}
{"id": "C64", "title": "A styled text looks in tmux as its styles say", "statement": "The output of TmuxRenderer, read as tmux reads status texts, shows the characters of the text with the colors and attributes of its style and leaves default attributes.", "quantifier": "all texts, styles, settings", "why_tests_cant": "all combinations of attributes and colors; tmux is not part of the tests", "anchors": ["pytermor/render.py: TmuxRenderer"]}
{"id": "C65", "title": "The debug renderer shows the sequences", "statement": "Around each line of a text, DebugRenderer shows the parameters of the sequences which give the style and take it back.", "quantifier": "all texts, styles, settings", "why_tests_cant": "all styles", "anchors": ["pytermor/render.py: DebugRenderer", "pytermor/util/string_filter.py: ReplaceSGR"]}
{"id": "C66", "title": "A styled text looks in HTML as its styles say", "statement": "The output of HtmlRenderer, read as HTML, shows the characters of the text with the colors and attributes of its style, all elements are closed, whatever the iteration order of sets.", "quantifier": "all texts, styles, iteration orders", "why_tests_cant": "hash randomisation changes the iteration order; all texts", "anchors": ["pytermor/render.py: HtmlRenderer"]}
{"id": "C67", "title": "Texts are independent values", "statement": "After any sequence of creating, appending, prepending and formatting, each text consists of the runs the program asked for.", "quantifier": "all sequences of operations on any number of texts", "why_tests_cant": "aliasing needs sequences of operations on several texts", "anchors": ["pytermor/render.py: Text, _TextRun"]}
{"id": "C68", "title": "Laws of styles", "statement": "A style has its own settings, then those of its parent; flip exchanges colors and is its own inverse; the picked foreground contrasts with the background; equal styles look equal.", "quantifier": "all styles, all 24-bit colors", "why_tests_cant": "2^24 backgrounds, all chains of inheritance", "anchors": ["pytermor/render.py: Style.__init__, _clone_from, flip, autopick_fg, dataclass equality"]}
{"id": "C69", "title": "A text contains what it was made from", "statement": "The content of Text(x) is str(x), of an empty argument it is empty.", "quantifier": "all strings and integers", "why_tests_cant": "all integers", "anchors": ["pytermor/render.py: _TextRun.__init__"]}
{"id": "C70", "title": "Names of colors", "statement": "A name in any case resolves to the one color of that name, which can be rendered; all other names raise KeyError.", "quantifier": "all strings", "why_tests_cant": "all strings; the table has 293 names", "anchors": ["pytermor/common.py: Registry.resolve", "pytermor/color.py: Colors"]}
{"id": "C71", "title": "The legend is true of the program", "statement": "Every example of the legend is what the program shows for the input and options the legend says it is for; the sigils are the markers of the program.", "quantifier": "all samples of the legend, all settings they are for, all inputs containing them", "why_tests_cant": "all combinations of options and surrounding input", "anchors": ["kolombos/legend.ansi", "kolombos/byteio/template/template.py", "kolombos/byteio/formatter/text.py", "kolombos/byteio/formatter/binary.py"]}
{"id": "C72", "title": "The legend classifies bytes as the program does", "statement": "A single byte is of the class whose ranges in the legend contain it.", "quantifier": "all bytes, all inputs they are in", "why_tests_cant": "all contexts of a byte", "anchors": ["kolombos/legend.ansi", "kolombos/byteio/template/registry.py"]}
{"id": "C73", "title": "--legend and --version print what they are to print", "statement": "The whole file but its comments is printed, whatever other options there are; the output is harmless and fits into the stated width; the stated version is the version of the program.", "quantifier": "all files, all settings", "why_tests_cant": "options combine", "anchors": ["kolombos/runner/legend.py", "kolombos/runner/version.py", "kolombos/legend.ansi", "kolombos/version.py"]}
{"id": "C74", "title": "Errors are reported on the standard error stream", "statement": "A failed run shows class and message of the exception in bright red after a bold headline on stderr, and a hint (or the traceback, with debug output) on stdout; both streams are left with default attributes.", "quantifier": "all exceptions and debug levels", "why_tests_cant": "all messages and tracebacks", "anchors": ["kolombos/console.py: on_exception, error", "kolombos/common.py: USAGE_MSG"]}
{"id": "C75", "title": "Numbers are formatted to a given length", "statement": "format_auto_float gives a text of exactly the required length showing the number as precisely as there is room for, with an exponent if needed and allowed.", "quantifier": "all finite numbers, lengths and both settings", "why_tests_cant": "all numbers, in particular those that gain a digit by rounding", "anchors": ["pytermor/util/auto_float.py"]}
{"id": "C76", "title": "Numbers get the right unit prefix", "statement": "format_si_metric, format_si_binary and other PrefixedUnitFormatters choose the prefix that leaves as many digits as possible, and the text shows the number up to rounding, in at most max_len characters.", "quantifier": "all finite numbers, families of prefixes and units", "why_tests_cant": "all magnitudes", "anchors": ["pytermor/util/prefixed_unit.py"]}
{"id": "C77", "title": "The input named on the command line is read completely, in blocks of the buffer size", "statement": "Given accepted options that ask for nothing but reading, the program reads the file named last (the standard input if none is named, or if the name is empty or \"-\"), cuts it into blocks of the buffer size (4096, 128 when debugging, if the option is absent or 0), displays exactly what the blocks within the limits contain and ends with code 0; in binary mode the content can be read back from the output. The demonstration does so with its own file. No other file matters. An interruption keeps the complete blocks. Missing files, files that cannot be positioned and buffer sizes below -1 end with code 1 and a message, contradictory options with code 2.", "quantifier": "all options, all file contents, all sets of files, all buffer sizes", "why_tests_cant": "Tests run on a few files and buffer sizes; the way reads split the content interacts with every escape sequence in it.", "anchors": ["kolombos/app.py", "kolombos/byteio/reader.py", "kolombos/runner/demo.py"]}
{"id": "C78", "title": "The command line means what the help text says", "statement": "A list of strings is accepted exactly if it is a sentence of the documented language (flags and bundles of flags, options with an integer given in the same string, after \"=\" or in the next string, names and their unambiguous abbreviations, at most one file, \"--\") whose options go together; its meaning is unique, and the program does what these options say. All ways to give a value are equivalent, letters and names are equivalent.", "quantifier": "all lists of strings", "why_tests_cant": "There are infinitely many command lines; letters can be bundled, names abbreviated and files look like options.", "anchors": ["kolombos/arghelp.py", "kolombos/app.py"]}
{"id": "C79", "title": "Help and usage errors", "statement": "The help is shown, and nothing else is done, exactly if a word asks for it, the options before are right and do not exclude each other, and no abbreviation is ambiguous; unknown words do not matter. All other command lines end the program with code 2, before anything is read or printed on the standard output.", "quantifier": "all lists of strings", "why_tests_cant": "There are infinitely many wrong command lines.", "anchors": ["kolombos/arghelp.py", "kolombos/app.py"]}
{"id": "C80", "title": "White space made visible", "statement": "VisualuzeWhitespace replaces every invisible character by the sign and keeps line breaks behind the sign, whatever the sign; nothing else is changed.", "quantifier": "all texts, all signs", "why_tests_cant": "There are infinitely many texts and signs; a sign that combines with the group reference behind it is easily missed.", "anchors": ["pytermor/util/string_filter.py:75-86"]}
{"id": "C81", "title": "Replacement of SGR and control sequences", "statement": "ReplaceSGR replaces exactly the SGR sequences and ReplaceCSI exactly the control sequences of a text, also next to incomplete ones; groups of the sequence can be used in the replacement; the first filter is a special case of the second.", "quantifier": "all texts, all replacements", "why_tests_cant": "Incomplete sequences in front of complete ones, parameters of any length and any final character occur in infinitely many combinations.", "anchors": ["pytermor/util/string_filter.py:27", "pytermor/util/string_filter.py:89-111"]}
{"id": "C82", "title": "Non-ASCII bytes and lists of filters", "statement": "ReplaceNonAsciiBytes keeps every byte below 128 and turns every other byte into a question mark; apply_filters applies its filters one after the other, classes with their defaults.", "quantifier": "all byte strings, all lists of filters", "why_tests_cant": "All byte strings and all lists of filters cannot be tried.", "anchors": ["pytermor/util/string_filter.py:30-48", "pytermor/util/string_filter.py:114-121"]}
{"id": "C83", "title": "Groups of three digits", "statement": "format_thousand_sep writes an int with its digits in groups of three, counted from the right, joined with the separator, whatever the separator.", "quantifier": "all ints, all separators", "why_tests_cant": "Numbers are unbounded; separators may contain digits or underscores.", "anchors": ["pytermor/util/__init__.py:21-32"]}
{"id": "C84", "title": "List of settings", "statement": "From debug level 3 on all options are listed in alphabetical order with value and default, the default only beside a different value, from level 4 on also what follows from them; the rows are aligned and colored alike; below level 3 nothing is printed and the settings stay as they are.", "quantifier": "all settings, all terminal widths, all file names", "why_tests_cant": "There are infinitely many settings (numbers and names are unbounded).", "anchors": ["kolombos/console.py:198-251", "kolombos/settings.py"]}
{"id": "C85", "title": "The list of settings is harmless and complete", "statement": "Every row of the list is one line of displayable text that leaves the terminal as it was, whatever the name of the file; two lists that look the same are lists of the same options.", "quantifier": "all settings, all file names", "why_tests_cant": "A file name can contain any character.", "anchors": ["kolombos/console.py:198-251"]}
{"id": "C86", "title": "Everything on stdout at any debug level", "statement": "Whatever the debug level, the files, the input and the settings, stdout is the regular output of the program with other lines (settings, traces, traceback) put between complete lines of it; without --debug there are none.", "quantifier": "all worlds, all settings, all debug levels", "why_tests_cant": "Inputs, files and settings are unbounded, and traces depend on all of them.", "anchors": ["kolombos/app.py", "kolombos/console.py", "kolombos/runner/*.py"]}
{"id": "C87", "title": "The help page lists the options", "statement": "At every width of the terminal, the help page has exactly one entry for each documented option, with its letter, its name and a value if it takes one, and no other entries. When help is asked for, this page is all that is printed and nothing is read.", "quantifier": "all widths, terminal or not, all command lines that ask for help", "why_tests_cant": "Descriptions are wrapped differently at each width; a wrapped line could look like an entry or an entry could be torn apart at widths nobody tried.", "anchors": ["kolombos/arghelp.py", "kolombos/app.py:17-19"]}
{"id": "C88", "title": "The help page describes each option as intended", "statement": "At every width, the description that can be read beside each option on the screen is, apart from line breaks, the text written for it.", "quantifier": "all widths, terminal or not", "why_tests_cant": "The texts are wrapped and then changed by a regular expression meant for headings; whether it hits a description depends on the width.", "anchors": ["kolombos/arghelp.py:82-96", "kolombos/arghelp.py:146-199"]}
{"id": "C89", "title": "The help page is harmless to the terminal", "statement": "The help page consists of displayable characters and complete SGR sequences and leaves the attributes of the terminal as they were.", "quantifier": "all widths, terminal or not", "why_tests_cant": "Lines are broken by a function that does not know escape sequences; where it breaks them depends on the width.", "anchors": ["kolombos/arghelp.py:101-104", "kolombos/arghelp.py:146-199"]}
{"id": "C90", "title": "The help page fits the terminal", "statement": "No line of the help page is wider than the terminal.", "quantifier": "all widths, terminal or not", "why_tests_cant": "Depends on the width of the terminal.", "anchors": ["kolombos/arghelp.py:66-70", "kolombos/arghelp.py:27-28"]}
{"id": "C91", "title": "A refused command line is refused for the reason that is told", "statement": "Every command line either starts the program, or shows the help, or is refused; if it is refused, nothing is written to stdout, the exit code is 2, and stderr gets the usage text and one message that names a true reason: the first trouble met when the words are read in order.", "quantifier": "all command lines", "why_tests_cant": "Command lines are unbounded; the order in which argparse meets the errors is intricate.", "anchors": ["kolombos/arghelp.py:101-116", "kolombos/arghelp.py:146-199", "kolombos/app.py:25-26"]}
{"id": "C92", "title": "Usage errors are harmless to the terminal", "statement": "What is written to stderr for a refused command line consists of displayable characters and complete SGR sequences, and leaves the terminal with default attributes.", "quantifier": "all command lines", "why_tests_cant": "The message repeats parts of the command line, which may be anything.", "anchors": ["kolombos/arghelp.py:33-38", "kolombos/arghelp.py:146-199"]}
{"id": "C93", "title": "Names of SGR codes mean what they say", "statement": "A sequence can be made of the name of any constant of IntCodes, written in any case; on a terminal it has the effect that the name tells. Other strings are refused. Several arguments give the sequence of their parameters in the same order.", "quantifier": "all strings, in all ways to write them in upper and lower case; all lists of arguments; all attributes in force before", "why_tests_cant": "There are 2^n ways to write a name, and strings outside of ASCII whose capital form is a name.", "anchors": ["pytermor/ansi.py:116-151", "pytermor/ansi.py:404-502", "pytermor/common.py:15-31"]}
{"id": "C94", "title": "Ready-made sequences and spans agree with the names", "statement": "Every constant of Seqs and Spans is what the constructor makes of the name of the constant; a text put into such a span is shown with the attribute, and afterwards this attribute is off and all others are as before.", "quantifier": "all presets, all texts that leave the attributes alone, all attributes in force before", "why_tests_cant": "The attributes before and the text are arbitrary.", "anchors": ["pytermor/ansi.py:8-17", "pytermor/ansi.py:256-286", "pytermor/ansi.py:505-585", "pytermor/ansi.py:677-733"]}
{"id": "C95", "title": "Templates are filled in", "statement": "Comments disappear; formats become the sequences of their codes and variables their values, all at once: what is put in is never taken for a format or variable itself. Unknown formats and variables are kept and one warning is given for each.", "quantifier": "all templates, all values of variables, all Unicode tables that know ASCII", "why_tests_cant": "Values may contain anything, also signs of the template language; the filters work one after the other on the result of the former.", "anchors": ["dev/es7s_tpl_processor.py:20-57"]}
{"id": "C96", "title": "The legend is what its generator makes", "statement": "kolombos/legend.ansi is what dev/generate_legend.py makes of dev/legend.tpl.ansi for the version of the program.", "quantifier": "all versions and dates, all Unicode tables that know ASCII, all ways of allowing SGR output", "why_tests_cant": "The generator writes the file it would be compared with, and puts the time into it.", "anchors": ["dev/generate_legend.py", "dev/legend.tpl.ansi", "kolombos/legend.ansi", "kolombos/version.py"]}
{"id": "C97", "title": "Preferences of renderers and the default renderer", "statement": "After any sequence of calls of RendererManager.set_up and set_up of the renderers, str(text) uses the renderer last asked for, and every renderer the preferences last set for it; set_up affects all renderer types; forced styles do not depend on stdout, and 16 colors override 256.", "quantifier": "all sequences of calls, all texts and styles", "why_tests_cant": "Sequences of calls are unbounded; which class attribute is in force depends on the whole history.", "anchors": ["pytermor/render.py:86-104", "pytermor/render.py:352-376", "pytermor/render.py:419-459", "pytermor/render.py:521-526"]}
{"id": "C98", "title": "Ready-made styles", "statement": "Every ready-made style is found by its name in any case and shows every text in the color and with the attributes its name stands for, at any color depth; other names are a KeyError.", "quantifier": "all spellings of names, all texts, all terminals", "why_tests_cant": "Texts and spellings are unbounded.", "anchors": ["pytermor/render.py:733-753", "pytermor/common.py:15-31"]}
{"id": "C99", "title": "Hue, saturation and value", "statement": "hex_value_to_hsv_channels returns a hue within [0, 359] and saturation and value within [0, 1] from which the color can be computed back; autopick_fg takes dark text exactly on backgrounds of value 0.45 and more.", "quantifier": "all colors, all styles", "why_tests_cant": "A test of all 16.7 million colors against the inverse formula is not practical in a test suite, and samples miss borders of sectors.", "anchors": ["pytermor/color.py:28-68", "pytermor/render.py:262-283"]}
{"id": "C100", "title": "Rounding of floats does not change what is said about a duration", "statement": "format_time_delta gives for every int and every finite float the text that the same computation gives in exact arithmetic.", "quantifier": "all ints and all doubles as durations, all maximal lengths, all formatters with non-negative ratios", "why_tests_cant": "the quotients are rounded to 53 binary digits before floor is taken; a test cannot visit 2^64 doubles, and the failures sit at the edge of the range", "anchors": ["pytermor/util/time_delta.py:118-175 TimeDeltaFormatter.format_raw"]}
{"id": "C101", "title": "What the program writes can be encoded", "statement": "Nothing the program writes to the standard output, at any debug level, contains a character without an encoding in UTF-8, so that no run ends with UnicodeEncodeError.", "quantifier": "all arguments, files, inputs and terminals; all debug levels", "why_tests_cant": "Lone surrogates come from bytes that are not UTF-8 in unbounded data and in file names; test files have harmless names.", "anchors": ["kolombos/console.py", "kolombos/byteio/formatter/_abstract.py", "kolombos/byteio/parser/parser.py", "kolombos/byteio/reader.py:75-84", "kolombos/settings.py"]}
{"id": "C102", "title": "Styles shared by texts", "statement": "Texts refer to their styles: a text appears with its styles as they are when it is rendered, after all changes made to these very objects and no others; inheriting copies; the ready-made styles stay as they are documented.", "quantifier": "all sequences of creating styles (with or without a parent), changing them, making, joining and formatting texts; all preferences and color modes", "why_tests_cant": "Aliasing shows only in long interleavings of changes and renderings of several objects; tests render each style right after making it.", "anchors": ["pytermor/render.py:110-183", "pytermor/render.py:226-342", "pytermor/render.py:733-753"]}
{"id": "C103", "title": "What repr shows identifies the object", "statement": "Sequences, spans, colors and styles are shown by repr as in the documentation, and two of them are shown alike exactly if they are equal.", "quantifier": "all parameters, colors (also without value and with odd ones) and styles", "why_tests_cant": "Ambiguities of a textual form are properties of pairs of objects; tests compare a few single texts.", "anchors": ["pytermor/ansi.py:72-76", "pytermor/ansi.py:369-370", "pytermor/color.py:109-112", "pytermor/color.py:161-212", "pytermor/render.py:315-326"]}
{"id": "C104", "title": "Rounding of floats does not spoil numbers of a given length and numbers with units", "statement": "format_auto_float, format_si_metric and format_si_binary, computed with the floats of Python and a rounded logarithm, show every number as accurately as exact arithmetic would, and fail for no number for which it would not.", "quantifier": "all finite doubles and all lengths up to 12; every library whose log10 and pow are close to correct", "why_tests_cant": "The exceptions are single doubles right below powers of ten and the smallest numbers of all; a test does not hit them by chance.", "anchors": ["pytermor/util/auto_float.py:58-158 format_auto_float", "pytermor/util/prefixed_unit.py:108-144 PrefixedUnitFormatter.format"]}
{"id": "C105", "title": "Hue, saturation and value survive rounding", "statement": "Computed with doubles, hue, saturation and value of a color are in their ranges, next to the exact ones, give the color back when channels are rounded to whole numbers, and lead to the same choice of dark or light text.", "quantifier": "all 24-bit colors (and ints out of that range, whose upper bits are ignored), all styles", "why_tests_cant": "There are 2^24 colors; a handful of samples says nothing about a rounding error that flips a branch or a sign for one of them.", "anchors": ["pytermor/color.py:28-68", "pytermor/render.py:262-283"]}
{"id": "C106", "title": "Equality and repr of what is in the chain; repr of tables of colors", "statement": "repr of a segment shows its bytes and its text, repr of a reference its kind and its codes; it differs exactly if these do. Segments are equal exactly if they agree in everything (references to sequences all count as equal). repr of a table of colors shows how many values are registered and how many are cached, the latter being none after a new color, otherwise all registered ones and those looked up since.", "quantifier": "all segments with any bytes and text, all references, all histories of registering and looking up colors", "why_tests_cant": "The text of a segment may contain the delimiters of its own repr; the number of cached values depends on the order of all earlier calls.", "anchors": ["kolombos/byteio/segment/segment.py:59-69", "kolombos/byteio/segment/sequence_ref.py:28-46", "pytermor/color.py:247-322"]}
{"id": "C107", "title": "Floats in groups of digits are shown exactly", "statement": "format_thousand_sep shows a float as groups of three digits joined by the separator, followed by a fraction or by an exponent (exactly for numbers below 0.0001 or from 10^16 on); the text without separators is read as the same float. Different floats are shown differently, whatever the separator is. 17 digits are enough.", "quantifier": "all doubles, all separators (also ones with digits, points or letters)", "why_tests_cant": "There are 2^64 floats; whether the shortest digits are read back as the same float depends on all of their bits.", "anchors": ["pytermor/util/__init__.py:21-32"]}
{"id": "C108", "title": "Amounts and contents told by debug traces are true", "statement": "The reader tells every chunk that it reads, in order, with its number, offset, length and bytes and the position after it; the end of the input; and what is left of a chunk exactly when input is cropped. The parser and its buffer tell for every call what was appended, what the buffer contains and what is parsed. In binary mode the length told for the buffer of segments is always everything appended minus everything detached, as much is detached as was requested or all there is, and nothing is left at the end.", "quantifier": "all settings, widths of the terminal and sources, all sequences of chunks of bytes, also interrupted or failing", "why_tests_cant": "The messages depend on the whole history of the run: one wrong amount may need a particular split of the input into chunks and a particular number of columns.", "anchors": ["kolombos/console.py:243-298", "kolombos/byteio/reader.py:34-84", "kolombos/byteio/parser/buffer.py:14-46", "kolombos/byteio/parser/parser.py:87-98", "kolombos/byteio/segment/buffer.py:40-155", "kolombos/byteio/formatter/binary.py:25-60"]}
{"id": "C109", "title": "Only escape sequences are underlined", "statement": "README: the only underlined bytes in the output are those of escape sequences, except ESC itself. In binary mode this holds for hexadecimal values and characters alike, with any settings; offsets, bars, filling and totals are never underlined. In text mode the details of escape sequences are underlined, not their markers, separators and the dots between the codes of an SGR.", "quantifier": "all settings (--color-markers included), all inputs in all splits, also interrupted ones", "why_tests_cant": "With --color-markers the style of a marker depends on arbitrary SGR codes of the input, among them those for underlining; one code out of the list of harmless ones is enough to break the rule.", "anchors": ["README.md:165", "kolombos/byteio/template/template_escape.py:49-69", "kolombos/byteio/template/template_escape_sgr.py:21-78", "kolombos/byteio/template/template_control.py:50-70"]}
{"id": "C110", "title": "The marker of resetting sequences marks those which reset everything", "statement": "README: the marker for reset SGRs stands for a sequence which completely disables all previously set colors and effects. If an escape sequence is shown by it, then a terminal that gets the sequence has default attributes afterwards, whatever was set before; and the other way round.", "quantifier": "all settings, all inputs", "why_tests_cant": "There are infinitely many parameter strings with the same effect; tests use ESC[0m and ESC[m.", "anchors": ["README.md:154-158", "kolombos/byteio/parser/parser.py:127-136"]}
{"id": "C111", "title": "Options of the other mode have no effect", "statement": "Help page and README divide the options into generic ones, text mode options and binary mode options. If text mode is selected, leaving out all binary mode options changes nothing (regular output, error, exit code), and vice versa. The width of the terminal matters only in binary mode when the number of columns is neither given nor implied by --demo.", "quantifier": "all command lines that are accepted, all files, inputs, interruptions, terminal widths, debug levels", "why_tests_cant": "It compares pairs of runs over all inputs and all combinations of options.", "anchors": ["README.md:72-94", "kolombos/arghelp.py:180-199", "kolombos/settings.py:53-97", "kolombos/byteio/template/template.py:51-56", "kolombos/byteio/formatter/factory.py:9-19"]}
{"id": "C112", "title": "The segment buffer is a plain queue of segments", "statement": "The chain of segments and references to SGR sequences together with the list of active sequences behaves as a plain queue of segments: each call of attach, detach_bytes and detach_line is answered as the queue answers it, and each piece that is handed out stands between its own opening and closing sequence, whatever was handed out before.", "quantifier": "all histories of calls with any segments (one-to-one or not), any mixture of requests for a positive number of bytes and for lines, up to the first attempt to cut a segment that cannot be cut; all printers", "why_tests_cant": "The unit tests compare references with an equality that is always true and try eight short histories; they never look at the order of the elements.", "anchors": ["kolombos/byteio/segment/buffer.py:35-155", "kolombos/byteio/segment/segment.py:19-41", "tests/segment/test_buffer.py:16-118"]}
{"id": "C113", "title": "Text mode with full details shows everything", "statement": "What text mode shows with -m 2 determines the processed bytes: there is one procedure that reads them off the screen (signs, digits of control characters, underlined bodies of escape sequences, colors) without knowing the settings, so that different inputs never look alike.", "quantifier": "all text mode settings with -m 2 (line numbers, separators, highlighting, --color-markers, debugging), all inputs without stray bytes above 127 whose last piece is no run of control characters and of which nothing is ignored; all divisions into chunks", "why_tests_cant": "Whether two of all inputs collide cannot be tested; a test compares one output with what was expected of one input.", "anchors": ["kolombos/byteio/template/template_control.py:50-70", "kolombos/byteio/template/template_escape.py:49-69", "kolombos/byteio/template/registry.py", "kolombos/byteio/formatter/text.py"]}
{"id": "C114", "title": "Parts of the input are shown independently of each other", "statement": "Text mode: if the first part of the input ends with a line feed, the whole is shown as the lines of the first part, shown alone, followed by those of the second, only the numbers of lines go on; so a change in one line changes one line of the output. Binary mode: the same for rows, if the first part fills its rows.", "quantifier": "all settings, all inputs, all divisions into chunks (also with the border within a chunk, then after a line feed), all limits", "why_tests_cant": "A test compares one output with what was expected of one input; state carried over from one line to the next (active sequences, the template of SGR sequences, the buffer) shows in particular combinations only.", "anchors": ["kolombos/byteio/formatter/text.py", "kolombos/byteio/formatter/binary.py", "kolombos/byteio/segment/buffer.py:110-155", "kolombos/byteio/template/template_escape_sgr.py:26-63", "kolombos/byteio/parser/parser.py"]}
{"id": "C115", "title": "Little is kept between two reads", "statement": "Whenever the program waits for input, nothing is left in the buffer of the parser; in binary mode the buffer of segments holds exactly the bytes of the incomplete row, one character for each, i.e. fewer than there are columns; in text mode the number of its elements and of its bytes is bounded by a multiple of the length of the incomplete line. So memory does not grow with the length of the input.", "quantifier": "all settings, all inputs and divisions into chunks, every moment in which a read is awaited", "why_tests_cant": "A leak shows only in very long runs; tests are short. That every state is covered follows only from an invariant.", "anchors": ["kolombos/byteio/segment/buffer.py", "kolombos/byteio/parser/buffer.py", "kolombos/byteio/parser/parser.py", "kolombos/byteio/formatter/text.py", "kolombos/byteio/formatter/binary.py", "kolombos/byteio/template/template_control.py:39-46"]}
{"id": "C116", "title": "Waiting for a key leaves the terminal as it was", "statement": "wait_key reads one key with echo and canonical mode switched off and everything else unchanged; whatever happens, the terminal has its former settings afterwards; the result is the key, or None if reading failed with IOError; no other exception is swallowed.", "quantifier": "all settings of the terminal, all failures of system calls, Ctrl+C at any moment", "why_tests_cant": "Failures of system calls and signals at particular moments can hardly be provoked in tests.", "anchors": ["pytermor/common.py:46-69"]}
{"id": "C117", "title": "Ints of any size as numbers of a given length and with units", "statement": "format_auto_float, format_si_metric and format_si_binary show an int as they show the nearest float; with exponent ints of any size are shown as accurately as there is room for; numbers that are too long without exponent raise ValueError.", "quantifier": "all ints (unbounded), all lengths up to 12, all units; every library whose log10 is close to correct", "why_tests_cant": "Ints are unbounded in Python; the behavior changes at 2^53 and at the end of the range of floats, where tests hardly look.", "anchors": ["pytermor/util/auto_float.py:58-158 format_auto_float", "pytermor/util/prefixed_unit.py:108-144 PrefixedUnitFormatter.format"]}
{"id": "C118", "title": "The examples of the help page do what is said there", "statement": "The help page ends with five examples, each told in one line and followed by its command; each of the commands does what is told: the first highlights escape sequences and shows all their details, the second hides whitespace, printable characters and UTF-8, the third shows the first 128 bytes of the standard input with control characters in inverse colors and exits, the fourth shows the demo in 32 columns with decimal offsets, the fifth the legend. Details of markers are those of the level called the default.", "quantifier": "all widths of the terminal, all contents of the files, all input (also if the user stops it at any moment)", "why_tests_cant": "The help text is prose that no test runs; what an example does depends on all options together, and that it waits for more input than it shows does not appear with input that ends.", "anchors": ["kolombos/arghelp.py:114-140", "kolombos/arghelp.py:146-199", "kolombos/runner/byteio.py", "kolombos/runner/demo.py", "kolombos/runner/legend.py", "README.md:126"]}
{"id": "C119", "title": "The table of character classes in the README is right", "statement": "Every piece into which the input is divided belongs to exactly one row of the table and consists of bytes described there; the two flags of a row hide, or highlight, the pieces of this class and nothing else; in input without ESC and bytes above 127 both flags affect exactly the bytes in the ranges of the row.", "quantifier": "all inputs, all rows of the table; text mode, and binary mode on terminals of at least 48 columns", "why_tests_cant": "Tests of the parser try some bytes of some classes; that no byte anywhere belongs to another class than documented needs all inputs.", "anchors": ["README.md:100-107", "kolombos/byteio/parser/parser.py", "kolombos/byteio/template", "kolombos/arghelp.py:158-180"]}
