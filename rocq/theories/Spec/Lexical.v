(** Specification side: the lexical grammar of the input, as documented in the README/legend
    and in the comments of the parser, stated declaratively (no regular expressions). *)
From Coq Require Import List NArith Bool.
From Verif.Spec Require Import Utf8.
Import ListNotations.
Local Open Scope N_scope.

(** kinds of runs of single-byte characters *)
Inductive run_kind := R_control | R_null | R_backspace | R_delete | R_tab | R_vtab | R_ff | R_cr | R_space | R_printable.

Inductive kind :=
| K_utf8 (cp : N)
| K_binary
| K_csi (params inter : list N) (final : N)
| K_nF | K_Fp | K_Fe | K_Fs
| K_escape                 (* ESC that does not start an escape sequence *)
| K_newline
| K_run (r : run_kind).

Definition rng (lo hi b : N) : Prop := lo <= b /\ b <= hi.

Definition run_member (r : run_kind) (b : N) : Prop :=
  match r with
  | R_control => rng 1 7 b \/ rng 14 26 b \/ rng 28 31 b
  | R_null => b = 0
  | R_backspace => b = 8
  | R_delete => b = 127
  | R_tab => b = 9
  | R_vtab => b = 11
  | R_ff => b = 12
  | R_cr => b = 13
  | R_space => b = 32
  | R_printable => rng 33 126 b
  end.

Definition high (b : N) : Prop := rng 128 255 b.
Definition starts (P : N -> Prop) (s : list N) : Prop := exists b t, s = b :: t /\ P b.

(** what follows 'ESC [' in a complete control sequence *)
Definition csi_tail (p i : list N) (f : N) : Prop :=
  Forall (rng 48 63) p /\ Forall (rng 32 47) i /\ rng 64 126 f.
(** what follows ESC in a complete nF sequence *)
Definition nf_tail (i : list N) (f : N) : Prop :=
  i <> [] /\ Forall (rng 32 47) i /\ rng 48 126 f.

(** [Token k w rest]: at the start of [w ++ rest] the next piece is [w], of kind [k] *)
Inductive Token : kind -> list N -> list N -> Prop :=
| Tok_utf8 cp rest :
    scalar cp -> 128 <= cp -> Token (K_utf8 cp) (utf8_encode cp) rest
| Tok_binary w rest :
    w <> [] -> Forall high w -> ~ starts high rest ->
    (forall cp r, scalar cp -> 128 <= cp -> w ++ rest <> utf8_encode cp ++ r) ->
    Token K_binary w rest
| Tok_csi p i f rest :
    csi_tail p i f -> Token (K_csi p i f) (27 :: 91 :: p ++ i ++ [f]) rest
| Tok_nF i f rest :
    nf_tail i f -> Token K_nF (27 :: i ++ [f]) rest
| Tok_Fp c rest : rng 48 63 c -> Token K_Fp [27; c] rest
| Tok_Fe c rest :
    rng 64 95 c ->
    (c = 91 -> forall p i f r, csi_tail p i f -> rest <> p ++ i ++ f :: r) ->
    Token K_Fe [27; c] rest
| Tok_Fs c rest : rng 96 126 c -> Token K_Fs [27; c] rest
| Tok_escape rest :
    ~ starts (rng 48 126) rest ->
    (forall i f r, nf_tail i f -> rest <> i ++ f :: r) ->
    Token K_escape [27] rest
| Tok_newline rest : Token K_newline [10] rest
| Tok_run k w rest :
    w <> [] -> Forall (run_member k) w -> ~ starts (run_member k) rest ->
    Token (K_run k) w rest.

(** segmentation of a whole byte string *)
Inductive Lexes : list N -> list (kind * list N) -> Prop :=
| Lexes_nil : Lexes [] []
| Lexes_cons k w rest ts :
    Token k w rest -> Lexes rest ts -> Lexes (w ++ rest) ((k, w) :: ts).

(** the last piece is a binary run *)
Definition last_binary (ts : list (kind * list N)) : bool :=
  match last (map fst ts) K_newline with K_binary => true | _ => false end.
