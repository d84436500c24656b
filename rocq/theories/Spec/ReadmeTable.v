(** Specification side: the table of character classes, README.md:100-107 *)
From Coq Require Import Ascii String.
From Coq Require Import List NArith ZArith Bool.
From Verif.Model Require Import Base Settings Render.
From Verif.Spec Require Import Terminal Utf8 Lexical Display Output Compare HelpExamples.
Import ListNotations.
Local Open Scope N_scope.

(** a row: class, byte ranges (if there are any in the table), flag that highlights, flag that hides *)
Record row := mkRow { row_class : char_class; row_ranges : list (N * N); row_focus : list N; row_ignore : list N }.
Definition readme_table : list row := [
  mkRow CC_space [(0x09, 0x0D); (0x20, 0x20)] (txt "-s") (txt "-S");
  mkRow CC_control [(0x01, 0x08); (0x0E, 0x1F)] (txt "-c") (txt "-C");
  mkRow CC_printable [(0x21, 0x7E)] (txt "-p") (txt "-P");
  mkRow CC_esc [] (txt "-e") (txt "-E");
  mkRow CC_utf8 [] (txt "-u") (txt "-U");
  mkRow CC_binary [(0x80, 0xFF)] (txt "-i") (txt "-I") ].
Definition in_ranges (l : list (N * N)) (b : N) : Prop := Exists (fun r => fst r <= b /\ b <= snd r) l.

(** "1b[..]", "valid UTF-8 byte sequences that can be decoded into Unicode characters", and ranges;
    "null byte" and "delete" are among the examples of control characters *)
Definition described_by (r : row) (x : list N) : Prop :=
  match row_class r with
  | CC_esc => exists y, x = 27 :: y /\ y <> [] /\ Forall (fun b => 0x20 <= b <= 0x7E) y
  | CC_utf8 => exists cp, scalar cp /\ 128 <= cp /\ x = utf8_encode cp
  | CC_control => Forall (fun b => in_ranges (row_ranges r) b \/ b = 0 \/ b = 0x7F) x
  | _ => Forall (in_ranges (row_ranges r)) x
  end.
(** rows of binary mode with one class hidden, or highlighted *)
Definition is_class (c d : char_class) : bool :=
  match c, d with
  | CC_space, CC_space | CC_control, CC_control | CC_printable, CC_printable | CC_esc, CC_esc | CC_utf8, CC_utf8 | CC_binary, CC_binary => true
  | _, _ => false
  end.
Definition bytes_hidden (c : char_class) (t : token) : list bcell := hidden_bytes (as_binary None None false) (is_class c) t.
Definition bytes_highlighted (c : char_class) (t : token) : list bcell := highlighted_bytes (as_binary None None false) (is_class c) t.

(** ** input without ESC and bytes above 127: byte by byte *)
Definition kind_of_byte (b : N) : kind :=
  if b =? 10 then K_newline
  else K_run (if b =? 0 then R_null else if b =? 8 then R_backspace else if b =? 9 then R_tab else if b =? 11 then R_vtab else if b =? 12 then R_ff
              else if b =? 13 then R_cr else if b =? 32 then R_space else if b =? 127 then R_delete else if b <? 32 then R_control else R_printable).
Definition byte_shown (b : N) : bcell :=
  (b, if (33 <=? b) && (b <=? 126) then b else marker plain (kind_of_byte b), base_style (kind_of_byte b)).
Definition listed (r : row) (b : N) : bool :=
  existsb (fun x => (fst x <=? b) && (b <=? snd x)) (row_ranges r)
  || match row_class r with CC_control => (b =? 0) || (b =? 127) | _ => false end.
Definition byte_hidden (r : row) (b : N) : bcell := if listed r b then (b, ignored_sign, ignored_style) else byte_shown b.
Definition byte_highlighted (r : row) (b : N) : bcell :=
  if listed r b
  then (b, if (33 <=? b) && (b <=? 126) then b else if b =? 32 then 0xB7 else marker plain (kind_of_byte b), focus_style (kind_of_byte b))
  else byte_shown b.
