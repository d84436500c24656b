# Formal model of es7s/kolombos in Rocq (Coq 8.16.1)

## Layout

* `rocq/theories/Model/` - the code, function by function.  Every definition cites the file and lines
  it models; simplifications are stated there.
* `rocq/theories/Spec/` - what the properties talk about, written without the model's functions: a
  terminal, the lexical grammar, UTF-8, reading numbers, tables of what each piece of input has to look
  like, lines and rows of the screen, the delivered part of the input, histories of calls, palettes,
  durations, interleaving of traces.
* `rocq/theories/Proof/` - lemmas.
* `rocq/theories/Props/` - the property theorems (`Cnn_...`), each closed by one lemma, with
  `Print Assumptions` below and a concrete case (`Cnn_example`) beside it.
* `properties.jsonl`, `MANIFEST.json` - the list of properties and the theorems that prove them.
* `seeded/LOG.jsonl` - wrong programs tried against the theorems.

## Representation

* bytes and Unicode code points are `N`; `bytes` and `str` are `list N`.  Statements about input
  assume `is_bytes` (every element below 256).
* Python ints that may be negative (`--columns`, limits, requests) are `Z`; slices follow Python's rules
  for negative indices.
* exceptions are values (`result`), one constructor per kind; console writes are a list of events or texts,
  so what was written before an exception is kept.
* `while True` loops take fuel; running out is a distinct value (`NoFuel`).  Theorems either prove that it
  cannot happen with a stated amount (termination), or state that it happens with every amount
  (non-termination, C26).
* regular expressions are a deep embedding (`Model/Regex.v`) with CPython's semantics: leftmost, ordered
  alternatives, greedy repetition with backtracking, capture groups.  Patterns are transcribed literally.
* the operating system is a parameter: the results of successive reads (data, end, interrupt, error), the
  width of the terminal, whether a file can be opened or seeked.  Theorems quantify over all of it.
* the terminal of the specification (`Spec/Terminal.v`) reads characters one by one, obeys complete SGR
  sequences and shows printable characters with the attributes in force.  Anything else is recorded as
  not clean.  It is written from ECMA-48/xterm conventions, not from pytermor's tables.
* printing of numbers in specifications uses `dec`, `fmt_hex_lo`, `fmt_hex_up` of `Model/Base.v`, which are
  themselves characterised by reading back (`read_dec`, `read_hex_lo`, `read_hex_up` in `Proof/BaseFacts.v`).

## What is modelled

| code | model | left out |
|------|-------|----------|
| `kolombos/byteio/reader.py` | `Reader.v`, `Process.v` (what the reads return) | OS errors other than the ones listed there |
| `kolombos/byteio/parser/*` | `Parser.v`, `Regex.v` | - |
| `kolombos/byteio/template/*` | `Template.v`, `Settings.v` | - |
| `kolombos/byteio/segment/*` | `Segment.v`, `Formatter.v`, `ReprChain.v` (equality, `__repr__`) | - |
| `kolombos/byteio/formatter/*` | `Formatter.v` | - |
| `kolombos/byteio/const.py`, `partial_override.py` | `Settings.v` | - |
| `kolombos/settings.py` | `Settings.v` | - |
| `kolombos/console.py` | `Console.v` (regular output), `Trace.v` (debug traces), `Messages.v` (reports of exceptions), `SettingsDump.v` (list of settings), `TracedProcess.v` (stdout at any debug level) | - |
| `kolombos/runner/*`, `app.py`, `legend.ansi`, `version.py` | `Runner.v`, `Legend.v` (file of the legend, UTF-8 decoding, all runners) | - |
| `kolombos/arghelp.py` | `Options.v`: effect of recognised options; `Args.v`: the declared options, argparse of Python 3.11 as far as they use it (abbreviations, bundles, values, `--`, mutually exclusive groups, `int()` with the digits of Unicode 14); `Help.v`, `Wrap.v`: the help page and the usage text with `argparse.HelpFormatter` and `textwrap.wrap` of Python 3.11 (letters of ASCII); `UsageErrors.v`: the messages about usage errors | translations of these messages (`gettext`) |
| `pytermor/ansi.py` | `Ansi.v`, `SgrNames.v` (names of codes, `Seqs`, `Spans`), `Repr.v` | Unicode tables of `str.upper` are a parameter |
| `pytermor/color.py`, `common.py` | `Color.v`, `WaitKey.v` (not on Windows), `Presets.v`, `ColorNames.v`, `Hsv.v` (exact rationals), `HsvFloat.v` (doubles), `Repr.v`, `ReprChain.v` | - |
| `pytermor/render.py` | `Render.v`, `RenderSetup.v` (preferences, default renderer, ready-made styles), `StyleMemory.v` (styles as objects that change), `Distribute.v`, `Repr.v` | - |
| `pytermor/util/string_filter.py`, `stdlib_ext.py`, `util/__init__.py` | `Strip.v`, `Filters.v` (with the replacement templates of `re.sub`), `ThousandFloat.v` (floats; their shortest digits, found by the C part of CPython, are an input) | `\g<name>` with odd spellings of numbers |
| `pytermor/util/time_delta.py` | `TimeDelta.v` (exact rationals), `TimeFloat.v` (ints and doubles, rounding to nearest even) | - |
| `pytermor/util/auto_float.py`, `prefixed_unit.py` | `FloatText.v` (exact rationals), `FloatDoubles.v` (doubles; `floor(log10(x))` and `pow(10, e)` for negative `e` are parameters, with what is assumed of them in `Spec/Logarithm.v`), `IntNumbers.v` (ints) | how `log10` of ints beyond floats is computed (a parameter) |
| `dev/es7s_tpl_processor.py` | `Es7sTemplate.v` | values are given as `str()` shows them; the tables of Unicode for `\w` and `str.upper` are a parameter |
| `dev/generate_legend.py`, `dev/legend.tpl.ansi` | `LegendGen.v` | three variables the template does not use |

Further limits of the model: the model stops at the text given to `print` (whether it can be encoded is C101), widths of glyphs are not considered. CPython's default limit
of 4300 digits in `int()` is part of the model (C07, C78, C95); versions of Python without it differ there.

## Properties

| id | property | model and proof | status |
|----|----|----|----|
| C01 | Parsing consumes every byte, in order, exactly once | regex scan of `Parser.parse` (Model/Regex, Model/Parser); every position matches (case split on the first byte), induction on the length | proved |
| C02 | Classification follows the documented character-class grammar | same; matcher shown equal to the declarative grammar `Lexes` (Spec/Lexical), which is shown deterministic | proved |
| C03 | UTF-8 pieces are exactly encodings of Unicode scalar values | UTF-8 alternatives against an independent encoder (Spec/Utf8), arithmetic on the seven alternatives | proved |
| C04 | Every valid UTF-8 sequence in the input is recognised as such | refutation by witness; positive statement when the preceding run is not binary | partial |
| C05 | Well-formed UTF-8 text is displayed character for character | whole text run; induction over the encoded characters | proved |
| C06 | Output does not depend on the read buffer size | runs over two chunkings of one input; equal if no piece is cut; plain input cannot be cut; left columns of the dump depend on the bytes only; witness otherwise | partial |
| C07 | No input makes the program fail | runs in the error monad; exact characterisation of failure; witness | partial |
| C08 | Binary mode shows exactly one character per input byte | all templates in binary mode; case analysis over templates and settings, induction over bytes | proved |
| C09 | Segments carry exactly the input bytes | all templates in text mode; what is recorded for each piece; witnesses | partial |
| C10 | Input control characters never reach the terminal | invariant on the characters of a run, as displayed by the specification terminal; C1 controls by witness | partial |
| C11 | Control character details match the documentation | `ControlCharGenericTemplate`; induction over the run of control characters | proved |
| C12 | Nothing that was parsed is left undisplayed at end of input | lines shown against lines of the input; what is missing at the end, witness | partial |
| C13 | SGR, SGR-reset and other CSI sequences get their own markers | CSI resolver, from the grammar characterisation | proved |
| C14 | Brief SGR details decode the parameters | `set_details_fmt_str` against an independent reading of parameters (Spec/SgrParams, Spec/Names) | proved |
| C15 | --color-markers applies only harmless attributes | invariant on the codes of marker colors, terminal attributes | proved |
| C16 | Ignoring a class hides precisely that class | two runs with different settings, relational induction over tokens (Spec/Compare) | proved |
| C17 | Focusing a class only changes how it looks | as C16 | proved |
| C18 | The segment buffer is a FIFO of bytes under any history | `SegmentBuffer` as a state machine; refinement to a queue for all histories (Spec/History) | proved |
| C19 | detach_bytes/detach_line hand out exactly what was asked | same | proved |
| C20 | A segment can be split iff its text and bytes correspond one to one | `Segment.split` and `is_consistent` | proved |
| C21 | Every emitted row is self-contained: formatting never leaks | buffer, closing sequences and terminal: every row leaves default attributes | proved |
| C22 | Binary mode output is a lossless dump | `BinaryFormatter` refined to rows of the specification (Spec/Output, Spec/Dump); rows read back | proved |
| C23 | Offset column shows the true offset | offsets read back from the rows; first digits of a numeral = quotient by a power of the base; witness beyond eight characters | partial |
| C24 | Total size line equals the number of bytes processed | total line read back; witness | partial |
| C25 | Automatic columns fit the terminal | width of the rows against the terminal width | proved |
| C26 | The column count never loses data or hangs | zero columns: the run ends with a total of 0; negative: no fuel suffices (for all fuel) | partial |
| C27 | Text mode lines and numbers correspond to input lines | `TextFormatter` refined to lines of the specification | proved |
| C28 | Every text-mode line is terminated exactly once | line ends counted in the output | proved |
| C29 | Output is prompt | output after each chunk, as a prefix of the specification | proved |
| C30 | Text mode never cuts a segment | history theorem for detach_line | proved |
| C31 | Reader delivers exactly the limited prefix of the input | reader as a function of a schedule of read results; induction over the schedule | proved |
| C32 | Reader callbacks are contiguous and finish once | same | proved |
| C33 | Interruption keeps what was already shown | prefix theorem for runs cut by an interrupt at any point | proved |
| C34 | Input is always closed | last action of every reader run | proved |
| C35 | Any readable file can be displayed, seekable or not | files that can or cannot seek; witness | partial |
| C36 | --max-lines N shows N lines | reader and text formatter together; exact number of lines; witness | partial |
| C37 | Exit status reflects success | `App.run`: exit status by outcome | proved |
| C38 | Mode resolution and precedence | settings questions in any order, history of first reads | proved |
| C39 | Runner selection and demo defaults | runner selection, demo settings; witness | partial |
| C40 | Option parsing fills settings without clobbering defaults | option list folded into the settings; induction over the list | proved |
| C41 | SGR sequences assemble and add faithfully | pytermor SGR sequences against the terminal of the specification | proved |
| C42 | Closing sequence undoes exactly the opening one | closing sequences on the terminal, for all supported parameter lists | proved |
| C43 | SGR stripping removes formatting and only formatting | stripping equals what a terminal shows; refutation of idempotence | partial |
| C44 | SGR-aware justification has the requested visible width | justification: visible width | proved |
| C45 | Distributing values over a fixed width is exact and even | `distribute_padded`; arithmetic on gaps; witnesses | partial |
| C46 | Color hex/RGB conversions are mutually inverse | hex/RGB conversions; arithmetic | proved |
| C47 | Nearest-color lookup is correct under any history | registration and look-up histories of `_ColorIndexed`; invariant of the cache; witness | partial |
| C48 | Time deltas fit the requested length | time delta formatters over exact rationals | partial |
| C49 | SequenceRef equality compares the referenced sequences | witness | partial |
| C50 | Partial overrides behave as a first-match map | map laws of partial overrides | proved |
| C51 | An explicitly built Span keeps the sequences it was given | for all arguments; witness | partial |
| C52 | Limits end the run even if the input does not end | schedules with infinitely many reads: prefix suffices | proved |
| C53 | Indexed color presets are the terminal's palette, and approximation picks the nearest of it | preset tables computed against the standard palette; nearest by C47 | proved |
| C54 | Approximation lists the nearest colors in order | sorted list of all registered colors | proved |
| C55 | No-op colors render to nothing | refutation for the indexed no-op color | partial |
| C56 | A formatted duration says what the duration is | texts of durations read back (Spec/Duration) | proved |
| C57 | max_len of a formatter bounds its output | presets by analysis of all lengths; witness | partial |
| C58 | Debug traces are woven between lines of the regular output | run with traces = run without traces plus whole lines between its writes (Spec/Weave) | proved |
| C59 | Debug traces do nothing to the terminal | every trace line leaves the terminal as it was; file names by witness | partial |
| C60 | The parser announces every piece of input with its offset, kind and length | traces of the parser against the pieces of the grammar, one call and whole runs | proved |
| C61 | Offsets in formatter traces are those of the input | traces of the binary formatter against its rows; traces of text mode against the recorded bytes; witness in text mode | partial |
| C62 | A styled text looks on the terminal as its styles say | styles give sequences that a terminal obeys (RenderFacts), induction over runs and lines | proved |
| C63 | Disabled styles leave texts unchanged | settings decide (RenderFacts); witnesses | partial |
| C64 | A styled text looks in tmux as its styles say | declarations act on the attributes of tmux (TmuxFacts), induction over runs; witnesses | partial |
| C65 | The debug renderer shows the sequences | scan of the output by the pattern of sequences (RenderMore) | proved |
| C66 | A styled text looks in HTML as its styles say | reader of HTML and CSS on the output (HtmlFacts); witnesses | partial |
| C67 | Texts are independent values | heap of shared runs against values (RenderMore); witness | partial |
| C68 | Laws of styles | case analysis (RenderMore, RenderClaims); witness | partial |
| C69 | A text contains what it was made from | case analysis; witness | partial |
| C70 | Names of colors | table of names computed once, look-up by induction (RenderMore) | proved |
| C71 | The legend is true of the program | canonical settings: an example depends on finitely many options, all of which are computed; row of the output by text_eof / bin_eof (LegendFacts) | proved |
| C72 | The legend classifies bytes as the program does | ranges read off the computed screen, then arithmetic on the lexical rules (LegendFacts); witnesses | partial |
| C73 | --legend and --version print what they are to print | UTF-8 decoding is the inverse of encoding, lines by induction (DecodeFacts, LegendClaims); witnesses | partial |
| C74 | Errors are reported on the standard error stream | painting lemmas (MessageFacts) | proved |
| C75 | Numbers are formatted to a given length | magnitudes and rounding of rationals (FloatFacts, FloatClaims); witnesses | partial |
| C76 | Numbers get the right unit prefix | induction on the rounds of the search for a prefix (UnitFacts, UnitClaims); witnesses | partial |
| C77 | The input named on the command line is read completely, in blocks of the buffer size | the successive reads are the unique decomposition into blocks; then the theorems about runs (ProcessFacts, ProcessClaims) | partial |
| C78 | The command line means what the help text says | the parser and the grammar agree word by word: groups of letters by induction, tables of options by computation (ArgsInt, ArgsFacts, ArgsClaims, ArgsMain) | partial |
| C79 | Help and usage errors | the same lemmas, shapes of words of short options, induction on the number of words in both directions (ArgsHelp); witnesses by computation | proved |
| C80 | White space made visible | induction on the text against a relation for marked text; templates of re.sub parsed (FilterClaims); any sign through a relation for the meaning of replacement texts (ReplaceClaims) | partial |
| C81 | Replacement of SGR and control sequences | generic lemma for patterns of sequences introduced by ESC [ : matches characterised, result unique (FilterClaims); parser of templates equivalent to a relation that follows the documentation of re.sub (ReplaceClaims) | partial |
| C82 | Non-ASCII bytes and lists of filters | induction on the bytes; fold over the list of filters | proved |
| C83 | Groups of three digits | induction on the digits from the left; uniqueness by lengths | proved |
| C84 | List of settings | rows of a table matched with the printed lines one by one (SettingsFacts); attributes and sorting computed | partial |
| C85 | The list of settings is harmless and complete | rows are closed lines, concatenation of closed lines is injective, so is the text of values (SettingsClaims) | partial |
| C86 | Everything on stdout at any debug level | one invariant over all events of the traced run, the dump and the report of errors (TracedClaims) | proved |
| C87 | The help page lists the options | pages computed for 17 to 148 columns; below and above the page does not change (wrap_single, all_pages in HelpFacts) | proved |
| C88 | The help page describes each option as intended | the same pages read with the functions of Spec/HelpShown.v; the set of widths is exact | partial |
| C89 | The help page is harmless to the terminal | the same pages sent to the terminal of the specification | partial |
| C90 | The help page fits the terminal | lengths of the lines of the same pages | partial |
| C91 | A refused command line is refused for the reason that is told | the reasons erased give Model/Args.v (events_erase); reading is total and determines the events (reads_exist, reads_events); first trouble = act_why (trouble_iff) | proved |
| C92 | Usage errors are harmless to the terminal | every string of a reason is a name of an option or a part of the command line (ok_blamed); py_repr_safe | partial |
| C93 | Names of SGR codes mean what they say | table of the model against the table of the specification (table_named, named_table); assemble_run | partial |
| C94 | Ready-made sequences and spans agree with the names | computed comparison of the registries with the names; closing_undoes (C42) | partial |
| C95 | Templates are filled in | function = relation for comments, formats, variables (comment_at_iff, fmt_iff, var_iff); the second pass finds variables only in text kept by the first (filled_text, merge, pass_variables) | partial |
| C96 | The legend is what its generator makes | the generator run symbolically in version and date (made_plain); independence of Unicode tables (settled_same) | partial |
| C97 | Preferences of renderers and the default renderer | preferences as class attributes, histories of calls by induction from the end (SetupClaims); display from C62 | partial |
| C98 | Ready-made styles | table of styles evaluated, display from the general lemma about rendering (SetupClaims) | proved |
| C99 | Hue, saturation and value | case analysis over the sectors of the color wheel in rational arithmetic (HsvClaims) | partial |
| C100 | Rounding of floats does not change what is said about a duration | round-to-even on rationals, characterised as a nearest double (RoundFacts); the quotient stays on its side of every integer below 2^53, the rest is exact; above, every step keeps the amount beyond the limit up to a factor (TimeFloatFacts); witnesses by computation | partial |
| C101 | What the program writes can be encoded | invariant over chunks: everything kept in the segment buffer and written so far consists of characters; generic induction over the reader; the pages of the help by computation at the widths that differ; debug events by the general theorem about all of them (EncodeClaims, EncodeMain) | partial |
| C102 | Styles shared by texts | invariant that all references exist; simulation with the model in which every run has a copy of its style, so that C97 carries over; induction over actions for the history of one object (StyleMemoryClaims) | partial |
| C103 | What repr shows identifies the object | cutting the texts at separators that do not occur in the parts; numbers read back; names of attributes are distinct (ReprClaims) | partial |
| C104 | Rounding of floats does not spoil numbers of a given length and numbers with units | the same functions over rounded operations with the logarithm as a parameter; near a power of ten the text does not depend on the number (FloatDoubleFacts), errors of the quotients add up to less than 2^-40 (FloatDoubleClaims, UnitDoubleClaims); rounded logarithms by comparing powers, with Bernoulli's inequality for the numbers right below a power of ten (LogFacts) | partial |
| C105 | Hue, saturation and value survive rounding | error of each operation at most half a unit in the last place; rounding is monotone, so that the branches taken and signs are those of the exact computation; the color wheel is continuous (HsvFloatClaims) | partial |
| C106 | Equality and repr of what is in the chain; repr of tables of colors | bytes are read up to the first bracket, whatever the text; invariant of the two tables over histories (ReprChainClaims) | partial |
| C107 | Floats in groups of digits are shown exactly | decimal positional values in powers of ten; distances between doubles; the last point separates groups and fraction; bounded search for the shortest digits (ThousandFloatClaims, ShortestClaims) | proved |
| C108 | Amounts and contents told by debug traces are true | the visible text of every message is split into column, level and rest; invariants over the calls of the reader; bookkeeping relation over the messages, preserved by detaching (TraceTextFacts, TraceAmounts, TraceBooks) | proved |
| C109 | Only escape sequences are underlined | table of styles: every style but that of details has no underline, harmless codes keep it; mask of the rows computed from the pieces (UnderlineFacts) | partial |
| C110 | The marker of resetting sequences marks those which reset everything | inversion of the lexical grammar; the bytes are run through the terminal model (UnderlineFacts) | partial |
| C111 | Options of the other mode have no effect | relation between settings that agree up to some fields, preserved by option parsing and by the runners; pointwise equal callbacks of the reader (OtherModeFacts) | partial |
| C112 | The segment buffer is a plain queue of segments | forward simulation between the chain with active sequences and a list of segments, by induction on the history (PlainQueueFacts, on top of BufFacts) | proved |
| C113 | Text mode with full details shows everything | the reader passes over the cells of a piece and returns its bytes whatever follows, provided that no underlined character does; composed over pieces, lines and frames (ReadBackFacts) | partial |
| C114 | Parts of the input are shown independently of each other | no piece extends over a line feed, so segmentations of parts are put together; lines and groups of rows likewise (PartsFacts) | proved |
| C115 | Little is kept between two reads | invariant of the run: the chain represents a list of segments which in binary mode are those of the incomplete row, in text mode a suffix of the segments of all pieces without a line feed (KeptFacts) | proved |
| C116 | Waiting for a key leaves the terminal as it was | case analysis over the answers of the system and the moments of Ctrl+C (WaitKeyFacts) | partial |
| C117 | Ints of any size as numbers of a given length and with units | an int has a nearest double iff it is below the middle between the largest one and 2^1024 (IntNumberFacts); the float version is reached after the first conversion; the correctly rounded quotient of two ints goes through the significand lemma of C104 (IntNumberClaims) | partial |
| C118 | The examples of the help page do what is said there | the page is checked for each of the finitely many shapes it has (HelpClaims); the commands are parsed by computation and the runs follow from the theorems about input, limits and display (HelpExamples) | partial |
| C119 | The table of character classes in the README is right | the grammar of pieces (C02) row by row; the runs with one flag from the theorems about binary mode; byte by byte since in plain input the kind of a piece is determined by each of its bytes (ReadmeTable) | partial |

`partial` means that the statement as a user would expect it is false of the code.  In each case there is
a theorem `..._refuted` with a concrete witness, and theorems (suffix `_partial`) for the part that is true;
the notes in MANIFEST.json say what is missing.

## Defects found

The refuted statements are defects of the program (or of its documentation):

* C04, C06: pieces cut by a chunk border, and characters behind stray bytes, are misread.
* C07: an SGR sequence with private parameters (`ESC [ ? 1 m`) ends the program with ValueError.
* C09, C61: control characters shown with details are recorded as runs of zero bytes of a length equal to the
  code of the character, so later offsets in traces are wrong.
* C10: C1 controls in UTF-8 reach the terminal.
* C12: details of the last piece of an unterminated line are not shown.
* C23, C24: offsets of more than six hexadecimal digits lose their leading digits.
* C26: zero or negative numbers of columns, also those computed for narrow terminals, lose data or hang.
* C35, C77: files that cannot seek cannot be shown; `--buffer` below -1 ends with ValueError.
* C36: a blank N-th line is not shown with `--max-lines N`.
* C39: the demo runs in text mode at debug level 4.
* C43, C45, C47, C49, C51, C55, C57: see the notes in MANIFEST.json.
* C63: HTML and debug renderers ignore `force_styles=None`.
* C64: tmux output does not switch off double underlines and does not escape `#`.
* C66: HTML output does not escape `<` and `&`; inversed styles without colors are lost.
* C67: formatting a text changes the texts it was appended to.
* C68: equality of styles ignores everything but colors.
* C69: `Text(0)` is empty.
* C72: the legend does not list bytes 00 and 7f as control characters.
* C73: the legend states version 1.5.3 (the program is 1.5.4), and one of its lines is wider than it says.
* C75: numbers that gain a digit by rounding exceed the required length; blanks follow the minus sign.
* C76: numbers between 1/1000 and 1 keep the plain unit and lose digits; numbers from 10^31 on raise ValueError;
  the unit is lost for numbers beyond the prefixes.
* C78: the help text says that `<file>` is ignored with `--demo`; the program refuses them together.
* C88: the expression that removes colons from headings also removes the colon of `[default: ...]` at the end of a line.
* C89: on terminals narrower than 20 columns the help page has escape sequences with a line break inside.
* C90: the end of the help page is not wrapped.
* C79: `--` after the file and an option is refused; `--help` beside an ambiguous abbreviation is an error.
* C80: a backslash as the sign for white space loses line breaks; only white space is made visible.
* C81: `ReplaceCSI` does not find control sequences with intermediate characters or finals such as `~`.
* C93, C94: `LIST_COLORS` etc. and `blink_default` are not accepted as names although the documentation says so.
* C95: removing a comment can make a format; comments of several lines stay.
* C96: the shipped legend was made for version 1.5.3, the program is 1.5.4.
* C100: `format_time_delta` raises OverflowError for the largest float and for ints beyond floats.
* C101: with `--debug`, a file whose name is not UTF-8 cannot be displayed: `print` of its name raises UnicodeEncodeError.
* C102: the ready-made styles are mutable objects; `flip()`, `autopick_fg()` or an assignment changes them for the whole program.
* C103: styles with a color of the palette and with the same color given in RGB are shown alike but look different; the documented result of `_ColorIndexed.find_closest` names another class.
* C104: `format_si_metric(-999.9999999999999)` raises ValueError, `format_auto_float(99999.99999999999, 3)` is `0e5`, and `format_auto_float(5e-324, 10)` raises ZeroDivisionError.
* C109: the README's rule about underlining is false in text mode with details: those of control characters are underlined, too.
* C110: `ESC [ SP m` is marked as a sequence that resets everything, `ESC[00m` is not.
* C111: `--decimal-offsets` changes the debug traces of text mode.
* C113: even with `-m 2` different inputs can look alike: bytes above 127 that are no UTF-8 share one sign, and different control
  characters at the end of an unterminated line are shown without their codes (see C12).
* C116: Ctrl+C between the change of the terminal settings and `try`, or right before they are restored, leaves the terminal without echo.
* C117: `format_auto_float(2**1024, 5, False)` raises OverflowError while the message of the documented ValueError is made.
* C118: the help example `kolombos --binary --focus-control -B128` ("process 128 first bytes and exit") waits for 4096 bytes or the end of the input before it shows anything.
* C119: README.md line 103 lists the ranges 01-08 and 0e-1f for control characters; 00 and 7f are missing.
* C118: README.md line 126 calls marker details of level 1 the default, line 86 (and the program) level 0.
* C59, C84, C85: names of files reach the terminal unfiltered in the trace of the reader and in the list of settings; with ESC in the
  name the list looks different from what it should be.

## How the proofs go

* Lexing (`RegexFacts`, `LexFacts`): the matcher is a function into the list of all ways to match; each
  alternative of the pattern is characterised, giving equality with the relation `Lexes`.
* Display (`DisplayFacts`, `TextDisplay`, `BinDisplay`, `PaintFacts`): for each token and all settings, what
  the templates produce looks on the terminal as the table in `Spec/Display.v` says.
* Buffer (`BufFacts`, `BufHistory`, `BufMore`, `ClosingFacts`): the linked segments are a queue; detaching
  keeps bytes, order and formatting.
* Formatters (`TextFormat`, `BinFormat`, `ConsoleFacts`): what is written is the list of lines or rows of
  `Spec/Output.v`.
* Runs (`RunFacts`, `RunMain`): induction over the schedule of the reader, with the invariant that what was
  written is the specified prefix and that the buffer holds the rest.
* Traces (`TraceFacts`, `TraceRun`): simulation between the run with and without traces.
* Rendering (`RenderFacts`, `TmuxFacts`, `HtmlFacts`, `RenderMore`): output is read by three readers, of a
  terminal, of tmux and of HTML with CSS, and shows what `Spec/Styles.v` says of the styles.
* Legend (`LegendFacts`): an example of the legend depends on finitely many options; all of them are
  computed and compared with the screen the legend makes, the rest follows from the theorems about runs.
* the remaining files (`...Claims`, `...Extra`) bring these facts into the form of the properties.

## Trusted base

* Coq 8.16.1: its kernel, including `vm_compute`.
* No axioms: `Print Assumptions` says "Closed under the global context" for every theorem in `Props/`.
  (The build loads parts of the standard library which declare the module parameters
  `Coq.ssr.ssrunder.Under_rel.*`; no theorem depends on them.)
* That the model says what the code does.  This was checked by reading only; the code was not run.
* That `Spec/` says what is meant in English.
