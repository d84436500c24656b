(** Specification side: templates with comments, formats and variables.

    - [#{}...{}#] (on one line) is a comment,
    - [^{...}] is a format: names or numbers of SGR codes with semicolons between; nothing stands
      for the reset,
    - [:{...}] is a variable,
    - spaces are allowed inside of the braces around the contents.

    All formats and variables are filled in at once: what is put in is not looked at again. *)
From Coq Require Import Ascii String.
From Coq Require Import List NArith Bool.
From Verif.Spec Require Import Terminal Filtered CommandLine SgrNames.
Import ListNotations.
Local Open Scope N_scope.

(** ** Comments *)
Definition OPENING : list N := chars "#{}".
Definition CLOSING : list N := chars "{}#".
(** [s] is [t] up to the nearest end of a comment, and [r] *)
Definition Ends (t r s : list N) : Prop :=
  s = t ++ CLOSING ++ r /\ ~ In 10 t /\ forall a b, t ++ CLOSING = a ++ CLOSING ++ b -> b = [].
Inductive Uncommented : list N -> list N -> Prop :=
| Un_nil : Uncommented [] []
| Un_comment t r s out : Ends t r s -> Uncommented r out -> Uncommented (OPENING ++ s) out
| Un_char c s out : (forall t r s', c :: s = OPENING ++ s' -> ~ Ends t r s') -> Uncommented s out -> Uncommented (c :: s) (c :: out).

(** ** Formats and variables *)
Definition ascii_word (c : N) : bool := between 48 c 57 || between 65 c 90 || (c =? 95) || between 97 c 122.
(** characters of words: those of ASCII are known, none of them is white space *)
Definition words (word : N -> bool) : Prop :=
  (forall c, c < 128 -> word c = ascii_word c) /\ forall c, word c = true -> ~ white c.

Definition Braced (ok : N -> Prop) (w m : list N) : Prop :=
  exists a b, m = 123 :: a ++ w ++ b ++ [125] /\ Forall white a /\ Forall white b /\ Forall ok w.
Definition Format (word : N -> bool) (w m : list N) : Prop := exists m', m = 94 :: m' /\ Braced (fun c => word c = true \/ c = 59) w m'.
Definition Variable_ (word : N -> bool) (w m : list N) : Prop := w <> [] /\ exists m', m = 58 :: m' /\ Braced (fun c => word c = true) w m'.

Inductive part := P_text (c : N) | P_format (w m : list N) | P_variable (w m : list N).
(** the parts of a text, from left to right *)
Inductive Cut (word : N -> bool) : list N -> list part -> Prop :=
| Cut_nil : Cut word [] []
| Cut_format w m r l : Format word w m -> Cut word r l -> Cut word (m ++ r) (P_format w m :: l)
| Cut_variable w m r l : Variable_ word w m -> Cut word r l -> Cut word (m ++ r) (P_variable w m :: l)
| Cut_text c r l :
    (forall w m r', c :: r = m ++ r' -> ~ Format word w m /\ ~ Variable_ word w m) -> Cut word r l -> Cut word (c :: r) (P_text c :: l).

(** ** Contents of formats *)
Definition Elements (w : list N) (es : list (list N)) : Prop := es <> [] /\ w = joined [59] es /\ Forall (fun e => ~ In 59 e) es.
Definition Number (e : list N) : Prop := e <> [] /\ Forall Digital e.
(** the constants that are lists of codes *)
Definition collections : list string := ["LIST_COLORS"; "LIST_BG_COLORS"; "LIST_HI_COLORS"; "LIST_BG_HI_COLORS"; "LIST_ALL_COLORS"]%string.

Inductive Code (up : N -> list N) : list N -> N -> Prop :=
| Code_number e ds : e <> [] -> Forall2 Digit e ds -> N.of_nat (List.length e) <= 4300 -> Code up e (value ds)
| Code_name e n c : ~ Number e -> Named n c -> capital up e = chars n -> Code up e c.
Definition Endless (e : list N) : Prop := Number e /\ 4300 < N.of_nat (List.length e).
Definition Collective (up : N -> list N) (e : list N) : Prop := ~ Number e /\ exists n, In n collections /\ capital up e = chars n.
Definition Unknown (up : N -> list N) (e : list N) : Prop :=
  ~ Number e /\ (forall n c, Named n c -> capital up e <> chars n) /\ forall n, In n collections -> capital up e <> chars n.

(** the codes of a format *)
Definition Codes (up : N -> list N) (w codes : list N) : Prop :=
  w = [] /\ codes = [0] \/ w <> [] /\ exists es, Elements w es /\ Forall2 (Code up) es codes.
(** [First P Q es]: the first element that is not in [P] is in [Q] *)
Definition First (P Q : list N -> Prop) (es : list (list N)) : Prop := exists a e b, es = a ++ e :: b /\ Forall P a /\ Q e.
Definition Coded (up : N -> list N) (e : list N) : Prop := exists c, Code up e c.
(** no codes: left as it is *)
Definition Puzzling (up : N -> list N) (w : list N) : Prop :=
  w <> [] /\ exists es, Elements w es /\ Forall (fun e => ~ Endless e) es /\ First (Coded up) (Unknown up) es.
(** no codes: an error *)
Definition Fatal (up : N -> list N) (w : list N) : Prop :=
  w <> [] /\ exists es, Elements w es /\ (Exists Endless es \/ First (Coded up) (Collective up) es).

(** ** Filling in *)
Definition format_warning (w : list N) : list N := chars "Unable to substitute format from """ ++ w ++ chars """".
Definition variable_warning (w : list N) : list N := chars "Variable """ ++ w ++ chars """ is undefined".

(** [Filled seq up vars l out fw vw]: [out] is what the parts become, [fw] and [vw] are the
    warnings about formats and about variables; [seq] tells how sequences are written *)
Inductive Filled (seq : list N -> list N) (up : N -> list N) (vars : list (list N * list N)) : list part -> list N -> list (list N) -> list (list N) -> Prop :=
| Fi_nil : Filled seq up vars [] [] [] []
| Fi_text c l out fw vw : Filled seq up vars l out fw vw -> Filled seq up vars (P_text c :: l) (c :: out) fw vw
| Fi_format w m codes l out fw vw :
    Codes up w codes -> Filled seq up vars l out fw vw -> Filled seq up vars (P_format w m :: l) (seq codes ++ out) fw vw
| Fi_puzzling w m l out fw vw :
    Puzzling up w -> Filled seq up vars l out fw vw -> Filled seq up vars (P_format w m :: l) (m ++ out) (format_warning w :: fw) vw
| Fi_variable w m v l out fw vw :
    In (w, v) vars -> Filled seq up vars l out fw vw -> Filled seq up vars (P_variable w m :: l) (v ++ out) fw vw
| Fi_undefined w m l out fw vw :
    (forall v, ~ In (w, v) vars) -> Filled seq up vars l out fw vw -> Filled seq up vars (P_variable w m :: l) (m ++ out) fw (variable_warning w :: vw).
