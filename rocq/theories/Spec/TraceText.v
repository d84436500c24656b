(** Specification side: what debug messages say about the amounts and the contents of data.

    Only the visible text of the messages is used: a column of eight characters (a name aligned to
    the right, or an offset), a bar, the text, a line break. *)
From Coq Require Import Ascii String.
From Coq Require Import List NArith ZArith Bool.
From Verif.Model Require Import Base Settings Reader Trace.
From Verif.Spec Require Import Terminal Output Input Weave.
Import ListNotations.
Local Open Scope N_scope.

(** the visible messages with their levels *)
Definition spoken (l : list tev) : list (nat * list N) :=
  flat_map (fun e => match e with TDbg k m => [(k, visible m)] | TOut _ => [] end) l.

(** what follows a beginning *)
Fixpoint after (p t : list N) : option (list N) :=
  match p, t with
  | [], _ => Some t
  | c :: p', d :: t' => if c =? d then after p' t' else None
  | _, [] => None
  end.
(** the messages of those with the given names (8 characters) *)
Definition told (names : list (list N)) (l : list tev) : list (list N * nat * list N) :=
  flat_map (fun '(k, v) => if existsb (eqb_list (firstn 8 v)) names then
                             match after [0x2502] (skipn 8 v) with Some t => [(firstn 8 v, k, t)] | None => [] end
                           else []) (spoken l).
(** the messages that start with a given text: what is in the column before it, the level, the
    rest of the message *)
Definition told_at (start : list N) (l : list tev) : list (list N * nat * list N) :=
  flat_map (fun '(k, v) => match after (0x2502 :: start) (skipn 8 v) with
                           | Some t => [(firstn 8 v, k, t)]
                           | None => []
                           end) (spoken l).

(** bytes in hexadecimal digits, separated by spaces *)
Definition spaced (v : list N) : list N :=
  match v with [] => [] | b :: r => fmt_hex_lo 2 b ++ flat_map (fun x => 32 :: fmt_hex_lo 2 x) r end.
(** how data is described: its length; from level 3 on also its first three bytes and the last
    one, from level 4 on all of it *)
Definition described (debug : nat) (v : list N) : list N :=
  lit "len " ++ dec (N.of_nat (length v))
  ++ if (debug <? 3)%nat then []
     else lit " [" ++ (if ((4 <=? debug) || (length v <=? 3))%nat then spaced v
                       else spaced (firstn 3 v) ++ lit ".. " ++ fmt_hex_lo 2 (last v 0)) ++ lit "]".

(** ** the parser and its buffer *)
Definition parser_names : list (list N) := [lit " parsbuf"; lit "  parser"].
(** what they say when they are given a piece of data *)
Definition call_report (debug : nat) (c : list N * Z * bool) : list (list N * nat * list N) :=
  let buf k x := (lit " parsbuf", k, x ++ [10]) in
  [ buf 3%nat (lit "Appending " ++ dec (N.of_nat (length (call_data c))) ++ lit " bytes");
    buf 2%nat (lit "Buffer state: " ++ described debug (call_data c)) ]
  ++ (if call_last c then [buf 1%nat (lit "Closing buffer for input")] else [])
  ++ [ (lit "  parser", 1%nat, lit "Parsing segment: " ++ described debug (call_data c) ++ [10]);
       buf 3%nat (lit "Purging");
       buf 2%nat (lit "Buffer state: " ++ described debug []) ].

(** ** the reader *)
(** chunks with their numbers and the offsets of their first bytes *)
Fixpoint numbered (i off : N) (chunks : list (list N)) : list (N * N * list N) :=
  match chunks with
  | [] => []
  | c :: r => (i, off, c) :: numbered (i + 1) (off + N.of_nat (length c)) r
  end.
Definition reads (l : list action) : nat := length (filter (fun a => match a with ARead => true | _ => false end) l).
Definition chunk_report (s : settings) (x : N * N * list N) : list N * nat * list N :=
  let '(i, off, c) := x in (offset_text s off, 1%nat, dec i ++ lit ": " ++ described (s_debug s) c ++ [10]).
(** the position after a chunk; stdin has none *)
Definition position_report (s : settings) (src : source) (x : N * N * list N) : list N * nat * list N :=
  let '(i, off, c) := x in
  (offset_text s off, 3%nat,
   match src with SrcFile _ => dec (off + N.of_nat (length c)) | _ => lit "n/a" end ++ [10]).
Definition eof_report (s : settings) (c : list N * Z * bool) : list N * nat * list N :=
  (offset_text s (Z.to_N (call_offset c)), 1%nat, [10]).
Definition crop_report (s : settings) (c : list N * Z * bool) : list N * nat * list N :=
  (offset_text s (Z.to_N (call_offset c)), 3%nat, described (s_debug s) (call_data c) ++ [10]).

(** ** the buffer between parser and formatter in binary mode *)
Definition books_names : list (list N) := [lit " parsbuf"; lit "chainbuf"; lit "  binfmt"].
(** [Books q r l q' r']: the messages agree on the amounts.  [q] is the number of bytes that have been
    put in and not been taken out, [r] the number asked for last; whoever takes bytes out takes as many as
    asked for or all there are; whenever the state of the buffer is told it has [q] bytes *)
Inductive Books : Z -> Z -> list (list N * nat * list N) -> Z -> Z -> Prop :=
| Bk_end q r : Books q r [] q r
| Bk_put n q r l q' r' : Books (q + Z.of_N n) r l q' r' ->
    Books q r ((lit " parsbuf", 3%nat, lit "Appending " ++ dec n ++ lit " bytes" ++ [10]) :: l) q' r'
| Bk_ask n q r l q' r' : Books q n l q' r' ->
    Books q r ((lit "  binfmt", 1%nat, lit "Requested " ++ zdec n ++ lit " byte(s)" ++ [10]) :: l) q' r'
| Bk_take n q r l q' r' : n = Z.min q r -> Books (q - n) r l q' r' ->
    Books q r ((lit "chainbuf", 2%nat, lit "Detached " ++ zdec n ++ lit " data byte(s)" ++ [10]) :: l) q' r'
| Bk_state q r x l q' r' : Books q r l q' r' ->
    Books q r ((lit "chainbuf", 2%nat, lit "Buffer state: len " ++ zdec q ++ lit "+" ++ x) :: l) q' r'
| Bk_other w k t q r l q' r' :
    (w = lit " parsbuf" -> after (lit "Appending ") t = None) ->
    (w = lit "  binfmt" -> after (lit "Requested ") t = None) ->
    (w = lit "chainbuf" -> after (lit "Detached ") t = None /\ after (lit "Buffer state: ") t = None) ->
    Books q r l q' r' -> Books q r ((w, k, t) :: l) q' r'.
