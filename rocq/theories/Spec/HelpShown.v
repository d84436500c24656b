(** Specification side: reading a help page *)
From Coq Require Import Ascii String.
From Coq Require Import List NArith ZArith Bool.
From Verif.Model Require Import Base Render.
From Verif.Spec Require Import Terminal CommandLine.
Import ListNotations.
Local Open Scope N_scope.

Fixpoint lines_from (cur : list N) (s : list N) : list (list N) :=
  match s with
  | [] => [rev cur]
  | c :: r => if c =? 10 then rev cur :: lines_from [] r else lines_from (c :: cur) r
  end.
Definition lines (s : list N) : list (list N) := lines_from [] s.

(** ** The names of options on a page: lines that begin with two blanks and a hyphen; the names are
    the words that begin with a hyphen, up to the first gap of two blanks *)
Definition is_entry (l : list N) : bool := match l with 32 :: 32 :: 45 :: _ => true | _ => false end.
Fixpoint up_to_gap (l : list N) : list N :=
  match l with
  | 32 :: (32 :: _) => []
  | c :: r => c :: up_to_gap r
  | [] => []
  end.
Fixpoint words_from (cur : list N) (s : list N) : list (list N) :=
  match s with
  | [] => [rev cur]
  | c :: r => if (c =? 32) || (c =? 44) then rev cur :: words_from [] r else words_from (c :: cur) r
  end.
Definition entry_words (l : list N) : list (list N) := words_from [] (up_to_gap (skipn 2 l)).
Definition dashed (w : list N) : bool := match w with 45 :: _ => true | _ => false end.
Definition bracketed (w : list N) : bool := match w with 60 :: _ => true | _ => false end.
(** an entry: the names, and whether a value is mentioned *)
Definition entry (l : list N) : list (list N) * bool := (filter dashed (entry_words l), existsb bracketed (entry_words l)).
Definition entries (page : list N) : list (list (list N) * bool) := map entry (filter is_entry (lines page)).

(** the entry of a documented option *)
Definition entry_for (x : option ascii * string * meaning) : list (list N) * bool :=
  let '(a, n, m) := x in
  ((match a with Some c => [[45; N_of_ascii c]] | None => [] end) ++ [45 :: 45 :: txt n], match m with Number _ => true | _ => false end).

(** ** The description of an entry: the rest of its line and the indented lines that follow,
    without blanks *)
Definition squash (s : list N) : list N := filter (fun c => negb (c =? 32)) s.
Fixpoint rest_after (p l : list N) : option (list N) :=
  match p, l with
  | [], _ => Some l
  | a :: p', b :: l' => if a =? b then rest_after p' l' else None
  | _ :: _, [] => None
  end.
Fixpoint continued (ls : list (list N)) : list N :=
  match ls with
  | l :: r => match rest_after [32; 32; 32; 32] l with Some t => t ++ continued r | None => [] end
  | [] => []
  end.
Fixpoint described (ls : list (list N)) (name : list N) : option (list N) :=
  match ls with
  | [] => None
  | l :: r => match rest_after (32 :: 32 :: name) l with Some t => Some (squash (t ++ continued r)) | None => described r name end
  end.

(** ** What is to be said *)
Definition manual : list (list N * list N) := [
  (txt "<file>", txt "file to read from; if empty or ""-"", read stdin instead; ignored if --demo is present");
  (txt "-M, --demo", txt "show output examples and exit; see --legend for the description");
  (txt "-t, --text", txt "open file in text mode [this is a default]");
  (txt "-b, --binary", txt "open file in binary mode");
  (txt "-l, --legend", txt "show annotation symbol list and exit");
  (txt "-v, --version", txt "show app version and exit");
  (txt "-h, --help", txt "show this help message and exit");
  (txt "-s, --focus-space", txt "highlight whitespace markers");
  (txt "-c, --focus-control", txt "highlight control char markers");
  (txt "-p, --focus-printable", txt "highlight printable chars");
  (txt "-e, --focus-esc", txt "highlight escape sequences markers");
  (txt "-u, --focus-utf8", txt "highlight UTF-8 sequences");
  (txt "-i, --focus-binary", txt "highlight binary data bytes");
  (txt "-S, --ignore-space", txt "dim/hide whitespaces");
  (txt "-C, --ignore-control", txt "dim/hide control chars");
  (txt "-P, --ignore-printable", txt "dim/hide printable chars");
  (txt "-E, --ignore-esc", txt "dim/hide escape sequences");
  (txt "-U, --ignore-utf8", txt "dim/hide UTF-8 sequences");
  (txt "-I, --ignore-binary", txt "dim/hide binary data");
  (txt "-f, --buffer <size>", txt "read buffer size, in bytes [default: 4096]");
  (txt "-L, --max-lines <num>", txt "stop after reading <num> lines [default: no limit]");
  (txt "-B, --max-bytes <num>", txt "stop after reading <num> bytes [default: no limit]");
  (txt "-D, --debug", txt "enable debug mode; can be used from 1 to 4 times, each level increases verbosity (-D|DD|DDD|DDDD)");
  (txt "--color-markers", txt "apply SGR marker format to themselves");
  (txt "-m, --marker <details>", txt "marker details: 0 is none, 1 is brief, 2 is full [default: 0]");
  (txt "--no-separators", txt "do not print " ++ [0x28b8] ++ txt "separators" ++ [0x2847] ++ txt " around escape sequences");
  (txt "--no-line-numbers", txt "do not print line numbers");
  (txt "-w, --columns <num>", txt "format output as <num>-columns wide table [default: auto]");
  (txt "-d, --decode", txt "decode valid UTF-8 sequences, print as unicode chars");
  (txt "--decimal-offsets", txt "output offsets in decimal format [default: hex format]");
  (txt "--no-offsets", txt "do not print offsets") ].

(** every entry is described as it should be, as far as a user sees *)
Definition Explained (page : list N) : Prop :=
  forall name text, In (name, text) manual -> described (lines (visible page)) name = Some (squash text).
(** the widths at which this is so *)
Definition good_width (tty : bool) (columns : Z) : Prop :=
  if tty then (54 <= columns <= 57 \/ 66 <= columns <= 68 \/ 80 <= columns <= 83 \/ 99 <= columns)%Z
  else (53 <= columns <= 56 \/ 59 <= columns <= 63 \/ 74 <= columns <= 78 \/ columns = 85 \/ 89 <= columns)%Z.
(** up to colons *)
Definition no_colon (s : list N) : list N := filter (fun c => negb (c =? 58)) s.
Definition Nearly_explained (page : list N) : Prop :=
  forall name text, In (name, text) manual -> exists x, described (lines (visible page)) name = Some x /\ no_colon x = no_colon (squash text).

(** the line that ends the part with the options contains a single blank *)
Fixpoint first_part (ls : list (list N)) : list (list N) :=
  match ls with
  | [] => []
  | [32] :: _ => []
  | l :: r => l :: first_part r
  end.
