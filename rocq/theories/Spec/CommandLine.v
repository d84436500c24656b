(** Specification side: the language of command lines *)
From Coq Require Import Ascii String.
From Coq Require Import List NArith ZArith Bool.
From Verif.Model Require Import Base Settings Options Render Args.
Import ListNotations.
Local Open Scope N_scope.

(** the documented options: letter, name, meaning *)
Inductive meaning := Flag (o : opt) | Number (f : Z -> opt) | Help.
Definition both (c : ascii) (n : string) (m : meaning) : option ascii * string * meaning := (Some c, n, m).
Definition only (n : string) (m : meaning) : option ascii * string * meaning := (None, n, m).
Definition documented : list (option ascii * string * meaning) := [
  both "M" "demo" (Flag O_demo);
  both "t" "text" (Flag O_text);
  both "b" "binary" (Flag O_binary);
  both "l" "legend" (Flag O_legend);
  both "v" "version" (Flag O_version);
  both "h" "help" Help;
  both "f" "buffer" (Number O_buffer);
  both "L" "max-lines" (Number O_max_lines);
  both "B" "max-bytes" (Number O_max_bytes);
  both "D" "debug" (Flag O_debug);
  only "color-markers" (Flag O_color_markers);
  both "m" "marker" (Number O_marker);
  only "no-separators" (Flag O_no_separators);
  only "no-line-numbers" (Flag O_no_line_numbers);
  both "w" "columns" (Number O_columns);
  both "d" "decode" (Flag O_decode);
  only "decimal-offsets" (Flag O_decimal_offsets);
  only "no-offsets" (Flag O_no_offsets);
  both "s" "focus-space" (Flag (O_focus CC_space)); both "S" "ignore-space" (Flag (O_ignore CC_space));
  both "c" "focus-control" (Flag (O_focus CC_control)); both "C" "ignore-control" (Flag (O_ignore CC_control));
  both "p" "focus-printable" (Flag (O_focus CC_printable)); both "P" "ignore-printable" (Flag (O_ignore CC_printable));
  both "e" "focus-esc" (Flag (O_focus CC_esc)); both "E" "ignore-esc" (Flag (O_ignore CC_esc));
  both "u" "focus-utf8" (Flag (O_focus CC_utf8)); both "U" "ignore-utf8" (Flag (O_ignore CC_utf8));
  both "i" "focus-binary" (Flag (O_focus CC_binary)); both "I" "ignore-binary" (Flag (O_ignore CC_binary))
  ].
Definition Short (c : N) (m : meaning) : Prop := exists a n, In (Some a, n, m) documented /\ c = N_of_ascii a.
Definition Long (n : list N) (m : meaning) : Prop := exists a s, In (a, s, m) documented /\ n = txt s.
Definition begins (p l : list N) : Prop := exists r, l = p ++ r.
(** [p] is the name of an option, or the beginning of the name of only one option *)
Definition LongFor (p : list N) (m : meaning) : Prop :=
  exists n, Long n m /\ begins p n /\ forall n' m', Long n' m' -> begins p n' -> n' = n.

(** ** Numbers: blanks, a sign, decimal digits (of any script) with single underscores between *)
Definition Digit (c d : N) : Prop := exists z, In z zeros /\ d < 10 /\ c = z + d.
Definition Blank (c : N) : Prop :=
  9 <= c <= 13 \/ c = 0x20 \/ c = 0x85 \/ c = 0xa0 \/ c = 0x1680 \/ 0x2000 <= c <= 0x200a \/ c = 0x2028 \/ c = 0x2029 \/
  c = 0x202f \/ c = 0x205f \/ c = 0x3000.
Inductive More_digits : list N -> list N -> Prop :=
| Md_nil : More_digits [] []
| Md_digit c d s ds : Digit c d -> More_digits s ds -> More_digits (c :: s) (d :: ds)
| Md_under c d s ds : Digit c d -> More_digits s ds -> More_digits (95 :: c :: s) (d :: ds).
Definition value (ds : list N) : N := fold_left (fun a d => a * 10 + d) ds 0.
Definition Signed (sg : list N) (n : N) (z : Z) : Prop :=
  ((sg = [] \/ sg = [43]) /\ z = Z.of_N n) \/ (sg = [45] /\ z = (- Z.of_N n)%Z).
Definition Numeral (v : list N) (z : Z) : Prop :=
  exists a sg c d s ds b, v = a ++ sg ++ c :: s ++ b /\ Forall Blank a /\ Forall Blank b /\ Digit c d /\ More_digits s ds /\
    N.of_nat (List.length (d :: ds)) <= 4300 /\ Signed sg (value (d :: ds)) z.

(** ** Strings that are no options *)
Definition Digital (c : N) : Prop := exists d, Digit c d.
Definition Looks_negative (v : list N) : Prop :=
  exists ds e, (e = [] \/ e = [10]) /\ ((v = 45 :: ds ++ e /\ ds <> [] /\ Forall Digital ds) \/
    exists ds', v = 45 :: ds ++ 46 :: ds' ++ e /\ ds' <> [] /\ Forall Digital ds /\ Forall Digital ds').
Inductive Optional : list N -> Prop :=
| Opt_long p n m : Long n m -> begins p n -> Optional (45 :: 45 :: p)
| Opt_long_eq p n m v : Long n m -> begins p n -> Optional (45 :: 45 :: p ++ 61 :: v)
| Opt_short c m r : Short c m -> Optional (45 :: c :: r).
Inductive Operand : list N -> Prop :=
| Op_empty : Operand []
| Op_plain c r : c <> 45 -> Operand (c :: r)
| Op_dash : Operand [45]
| Op_negative v : Looks_negative v -> Operand v
| Op_blank r : In 32 r -> ~ Optional (45 :: r) -> Operand (45 :: r).

(** ** Options with their values *)
Inductive Flags : list N -> list opt -> Prop :=
| Fl_nil : Flags [] []
| Fl_cons c o cs os : Short c (Flag o) -> Flags cs os -> Flags (c :: cs) (o :: os).
Inductive Words : list (list N) -> list opt -> Prop :=
| W_long p o : LongFor p (Flag o) -> Words [45 :: 45 :: p] [o]
| W_long_next p f v n : LongFor p (Number f) -> Operand v -> Numeral v n -> Words [45 :: 45 :: p; v] [f n]
| W_long_eq p f v n : LongFor p (Number f) -> Numeral v n -> Words [45 :: 45 :: p ++ 61 :: v] [f n]
| W_flags cs os : cs <> [] -> Flags cs os -> Words [45 :: cs] os
| W_next cs os c f v n : Flags cs os -> Short c (Number f) -> Operand v -> Numeral v n -> Words [45 :: cs ++ [c]; v] (os ++ [f n])
| W_attached cs os c f v n : Flags cs os -> Short c (Number f) -> Numeral v n -> Words [45 :: cs ++ c :: v] (os ++ [f n])
| W_eq cs os c f v n : Flags cs os -> Short c (Number f) -> Numeral v n -> Words [45 :: cs ++ c :: 61 :: v] (os ++ [f n]).

(** ** Command lines; at most one operand, which is the file; "--" before an operand that may
    look like an option *)
Inductive Line : bool -> list (list N) -> list opt -> Prop :=
| L_nil u : Line u [] []
| L_words u ws os rest r : Words ws os -> Line u rest r -> Line u (ws ++ rest) (os ++ r)
| L_file v rest r : Operand v -> Line true rest r -> Line false (v :: rest) (O_file v :: r)
| L_file_end v : Operand v -> Line false [v; [45; 45]] [O_file v]
| L_end : Line false [[45; 45]] []
| L_end_file v : Line false [[45; 45]; v] [O_file v].
Definition Invocation (argv : list (list N)) (opts : list opt) : Prop := Line false argv opts.

(** ** Help, and abbreviations that are not clear *)
(** a word that asks for help, after some flags in the same word *)
Inductive Helps : list N -> list opt -> Prop :=
| H_long p : LongFor p Help -> Helps (45 :: 45 :: p) []
| H_short cs os c ds ds' : Flags cs os -> Short c Help -> Flags ds ds' -> Helps (45 :: cs ++ c :: ds) os.
Definition Ambiguous (s : list N) : Prop :=
  exists p n1 m1 n2 m2, (s = 45 :: 45 :: p \/ exists v, s = 45 :: 45 :: p ++ 61 :: v) /\
    Long n1 m1 /\ Long n2 m2 /\ begins p n1 /\ begins p n2 /\ n1 <> n2.
Inductive Clear : list (list N) -> Prop :=
| Cl_nil : Clear []
| Cl_end r : Clear ([45; 45] :: r)
| Cl_cons s r : ~ Ambiguous s -> Clear r -> Clear (s :: r).
