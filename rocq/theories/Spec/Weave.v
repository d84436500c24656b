(** Specification side: debug traces on the same terminal as the regular output *)
From Coq Require Import Ascii String.
From Coq Require Import List NArith ZArith Bool.
From Verif.Model Require Import Base Settings Trace.
From Verif.Spec Require Import Numbers Terminal Lexical Display Output.
Import ListNotations.
Local Open Scope N_scope.

(** a sequence of complete SGR control sequences: nothing that moves the cursor *)
Inductive sgr_only : list N -> Prop :=
| So_nil : sgr_only []
| So_more ps rest : Forall (fun c => between 48 c 57 || (c =? 59) = true) ps -> sgr_only rest ->
    sgr_only (27 :: 91 :: ps ++ 109 :: rest).
(** after the text the cursor is at the start of a line *)
Definition line_end (t : list N) : Prop := exists a b, t = a ++ 10 :: b /\ sgr_only b.

(** displayable, and not a line break *)
Definition one_line (t : list N) : Prop := Forall (fun c => displayable c = true /\ c <> 10) t.
(** a message that is one line and does nothing to the terminal: displayable characters and
    complete SGR sequences only, default attributes afterwards, one line break, at the end *)
Definition harmless_line (m : list N) : Prop :=
  clean m /\ final_attrs m = attrs0 /\ exists v, visible m = v ++ [10] /\ ~ In 10 v.

(** [Woven regular traces all]: [all] is the regular text with traces put in, each between two
    lines of the regular text *)
Inductive Woven : list N -> list (list N) -> list N -> Prop :=
| Wv_nil : Woven [] [] []
| Wv_regular t r ts all : line_end t -> Woven r ts all -> Woven (t ++ r) ts (t ++ all)
| Wv_trace m r ts all : Woven r ts all -> Woven r (m :: ts) (m ++ all).

(** the characters of the offset column *)
Definition offset_text (s : settings) (off : N) : list N := map fst (offset_cells s attrs0 off).

(** every token with the offset of its first byte *)
Fixpoint located (off : N) (ts : list (kind * list N)) : list (N * (kind * list N)) :=
  match ts with
  | [] => []
  | t :: r => (off, t) :: located (off + N.of_nat (length (snd t))) r
  end.
(** the number of the alternative a piece of input belongs to *)
Definition alternative (k : kind) : N :=
  match k with
  | K_utf8 _ => 0 | K_binary => 1 | K_csi _ _ _ => 2 | K_nF => 8 | K_Fp => 13 | K_Fe => 16 | K_Fs => 19
  | K_run R_control => 22 | K_run R_null => 23 | K_run R_backspace => 24 | K_escape => 25 | K_run R_delete => 26
  | K_run R_tab => 27 | K_newline => 28 | K_run R_vtab => 29 | K_run R_ff => 30 | K_run R_cr => 31
  | K_run R_space => 32 | K_run R_printable => 33
  end.
(** the message for a piece: where it starts, what it is, how long it is *)
Definition announces (s : settings) (x : N * (kind * list N)) (m : tev) : Prop :=
  let '(off, (k, w)) := x in
  exists msg label rest, m = TDbg 2 msg /\ one_line rest /\
    visible msg = offset_text s off ++ [0x2502] ++ lit "Match group #" ++ repeat 48 (2 - length (dec (alternative k))) ++ dec (alternative k) ++ lit ": Seg <"
                  ++ label ++ lit ">: len " ++ dec (N.of_nat (length w)) ++ rest ++ [10].

(** the sign standing for a byte in traces *)
Definition safe_sign (b : N) : N :=
  if between 9 b 13 || (b =? 32) then 0xB7 else if between 33 b 126 then b else 0x25AF.

(** offset and hexadecimal columns of a row *)
Definition row_head (s : settings) (cols : Z) (off : N) (raw : list N) : list N :=
  offset_text s off ++ [0x2502] ++ flat_map (fun b => 32 :: fmt_hex_lo 2 b) raw
  ++ repeat 32 (3 * Z.to_nat (cols - Z.of_nat (length raw))) ++ [32; 0x2502].
(** every row is directly preceded by a trace with the same offset and the same bytes, which
    shows a sign for each byte; the only other regular output is the total size *)
Inductive Mirrored (s : settings) (cols : Z) : list tev -> Prop :=
| Mr_nil : Mirrored s cols []
| Mr_trace l m r : Mirrored s cols r -> Mirrored s cols (TDbg l m :: r)
| Mr_row off raw m h c r :
    visible m = row_head s cols off raw ++ map safe_sign raw ++ [10] ->
    visible h = row_head s cols off raw ->
    Mirrored s cols r -> Mirrored s cols (TDbg 1 m :: TOut (h ++ c) :: r)
| Mr_total off t r : visible t = offset_text s off ++ [0x2502; 10] -> Mirrored s cols r -> Mirrored s cols (TOut t :: r).

(** some of the elements of a list, in order *)
Inductive Subseq {A} : list A -> list A -> Prop :=
| Sq_nil : Subseq [] []
| Sq_skip x a l : Subseq a l -> Subseq a (x :: l)
| Sq_take x a l : Subseq a l -> Subseq (x :: a) (x :: l).

(** [Traced s before evs after]: every line of text mode is directly preceded by three traces
    with the same offset, the second with its bytes, the third with a sign for each of them;
    the offset is the number of bytes traced so far ([before] and [after] are those bytes) *)
Inductive Traced (s : settings) : list N -> list tev -> list N -> Prop :=
| Td_nil rec : Traced s rec [] rec
| Td_trace rec l m r rec' : Traced s rec r rec' -> Traced s rec (TDbg l m :: r) rec'
| Td_line rec raw m3 m2 m1 t r rec' :
    (exists x, visible m3 = offset_text s (N.of_nat (length rec)) ++ 0x2502 :: x) ->
    visible m2 = offset_text s (N.of_nat (length rec)) ++ [0x2502] ++ flat_map (fun b => 32 :: fmt_hex_lo 2 b) raw ++ [10] ->
    visible m1 = offset_text s (N.of_nat (length rec)) ++ [0x2502] ++ map safe_sign raw ++ [10] ->
    raw <> [] ->
    Traced s (rec ++ raw) r rec' ->
    Traced s rec (TDbg 3 m3 :: TDbg 2 m2 :: TDbg 1 m1 :: TOut t :: r) rec'.
