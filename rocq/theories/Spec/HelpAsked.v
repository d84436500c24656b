(** Specification side: the command lines that show the help *)
From Coq Require Import List NArith ZArith Bool.
From Verif.Model Require Import Base Settings Options.
From Verif.Spec Require Import CommandLine.
Import ListNotations.
Local Open Scope N_scope.

(** a letter that cannot continue a word of options *)
Definition Stray (c : N) : Prop := c <> 45 /\ c <> 61 /\ forall m, ~ Short c m.
(** a word that is neither an option nor an operand *)
Definition Unknown (s : list N) : Prop := s <> [45; 45] /\ ~ Operand s /\ ~ Optional s.

(** what may follow the letter that asks for help in the same word; [true] if the word ends with
    an option without its value *)
Inductive Behind : list N -> bool -> Prop :=
| Bh_nil : Behind [] false
| Bh_flag c o r b : Short c (Flag o) -> Behind r b -> Behind (c :: r) b
| Bh_help c r b : Short c Help -> Behind r b -> Behind (c :: r) b
| Bh_number c f v : Short c (Number f) -> v <> [] -> Behind (c :: v) false
| Bh_open c f : Short c (Number f) -> Behind [c] true
| Bh_stray c r : Stray c -> Behind (c :: r) false.

(** words that ask for help, with the flags given before in the same word *)
Inductive Request : list (list N) -> list opt -> Prop :=
| Rq_long p : LongFor p Help -> Request [45 :: 45 :: p] []
| Rq_short cs os c t : Flags cs os -> Short c Help -> Behind t false -> Request [45 :: cs ++ c :: t] os
| Rq_open cs os c t v : Flags cs os -> Short c Help -> Behind t true -> Operand v -> Request [45 :: cs ++ c :: t; v] os.

(** Before the request there may be options, operands, unknown words, and words that begin with
    flags and go on with a stray letter; behind it everything but ambiguous abbreviations.
    [true]: the file has been given.  The list: the options before the request. *)
Inductive Asks : bool -> list (list N) -> list opt -> Prop :=
| As_request u ws os rest : Request ws os -> Clear rest -> Asks u (ws ++ rest) os
| As_words u ws os rest r : Words ws os -> Asks u rest r -> Asks u (ws ++ rest) (os ++ r)
| As_file v rest r : Operand v -> Asks true rest r -> Asks false (v :: rest) (O_file v :: r)
| As_operand v rest r : Operand v -> Asks true rest r -> Asks true (v :: rest) r
| As_unknown u s rest r : Unknown s -> Asks u rest r -> Asks u (s :: rest) r
| As_stray u cs os c t rest r : cs <> [] -> Flags cs os -> Stray c -> Asks u rest r -> Asks u ((45 :: cs ++ c :: t) :: rest) (os ++ r).
