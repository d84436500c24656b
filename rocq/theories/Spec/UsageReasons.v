(** Specification side: what a refused command line is blamed for *)
From Coq Require Import Ascii String.
From Coq Require Import List NArith ZArith Bool Permutation.
From Verif.Model Require Import Base Settings Options Render UsageErrors.
From Verif.Spec Require Import Invocation CommandLine HelpAsked SettingsShown.
Import ListNotations.
Local Open Scope N_scope.
Notation Flag := CommandLine.Flag. Notation Number := CommandLine.Number.

(** * The names that messages use: letter and name of an option, with a slash between *)
Definition name_of (x : option ascii * string * meaning) : list N :=
  match fst (fst x) with Some a => [45; N_of_ascii a; 47] | None => [] end ++ [45; 45] ++ txt (snd (fst x)).
Definition Letter (c : N) (m : meaning) (t : list N) : Prop :=
  exists a n, In (Some a, n, m) documented /\ c = N_of_ascii a /\ t = name_of (Some a, n, m).
Definition Name (p : list N) (m : meaning) (t : list N) : Prop :=
  LongFor p m /\ exists a n, In (a, n, m) documented /\ begins p (txt n) /\ t = name_of (a, n, m).
Definition Called (o : opt) (t : list N) : Prop :=
  (exists v, o = O_file v /\ t = txt "<file>") \/
  (exists a n m, In (a, n, m) documented /\ t = name_of (a, n, m) /\ (m = Flag o \/ exists f z, m = Number f /\ o = f z)).
Definition takes_number (m : meaning) : Prop := exists f, m = Number f.

(** * Reading a command line step by step *)
Inductive step :=
| S_opt (o : opt)            (* an option, or the file *)
| S_help                     (* help is asked for *)
| S_not_number (t v : list N)  (* option [t] is given [v], which is no number *)
| S_surplus (s : list N)     (* [s] is left over *)
| S_missing (t : list N)     (* the value of option [t] is missing; reading stops *)
| S_needless (t v : list N). (* option [t] takes no value but is given [v]; reading stops *)
Inductive Given (t : list N) (f : Z -> opt) (v : list N) : step -> Prop :=
| G_number n : Numeral v n -> Given t f v (S_opt (f n))
| G_other : (forall n, ~ Numeral v n) -> Given t f v (S_not_number t v).

(** a word of letters: its steps, and how it ends *)
Inductive ending := E_done | E_open (t : list N) (f : Z -> opt) | E_needless (t v : list N).
Definition here (m : meaning) : step := match m with Flag o => S_opt o | _ => S_help end.
Inductive Letters : list N -> list step -> ending -> Prop :=
| Ls_last c m t : Letter c m t -> ~ takes_number m -> Letters [c] [here m] E_done
| Ls_next c m t c' m' t' r l e : Letter c m t -> ~ takes_number m -> Letter c' m' t' ->
    Letters (c' :: r) l e -> Letters (c :: c' :: r) (here m :: l) e
| Ls_stray c m t s r : Letter c m t -> ~ takes_number m -> Stray s ->
    Letters (c :: s :: r) [here m; S_surplus (45 :: s :: r)] E_done
| Ls_dash c m t r : Letter c m t -> ~ takes_number m -> Letters (c :: 45 :: r) [] (E_needless t (45 :: r))
| Ls_equals c m t r : Letter c m t -> ~ takes_number m -> Letters (c :: 61 :: r) [] (E_needless t r)
| Ls_open c f t : Letter c (Number f) t -> Letters [c] [] (E_open t f)
| Ls_value c f t x v st : Letter c (Number f) t -> x <> 61 -> Given t f (x :: v) st -> Letters (c :: x :: v) [st] E_done
| Ls_equals_value c f t v st : Letter c (Number f) t -> Given t f v st -> Letters (c :: 61 :: v) [st] E_done.

(** [true]: the file has been given *)
Definition no_operand (rest : list (list N)) : Prop := forall v r, rest = v :: r -> ~ Operand v.
Inductive Reads : bool -> list (list N) -> list step -> Prop :=
| R_nil u : Reads u [] []
| R_long u p m t rest l : Name p m t -> ~ takes_number m -> Reads u rest l -> Reads u ((45 :: 45 :: p) :: rest) (here m :: l)
| R_long_needless u p m t v rest : Name p m t -> ~ takes_number m -> Reads u ((45 :: 45 :: p ++ 61 :: v) :: rest) [S_needless t v]
| R_long_equals u p f t v st rest l : Name p (Number f) t -> Given t f v st -> Reads u rest l ->
    Reads u ((45 :: 45 :: p ++ 61 :: v) :: rest) (st :: l)
| R_long_value u p f t v st rest l : Name p (Number f) t -> Operand v -> Given t f v st -> Reads u rest l ->
    Reads u ((45 :: 45 :: p) :: v :: rest) (st :: l)
| R_long_missing u p f t rest : Name p (Number f) t -> no_operand rest -> Reads u ((45 :: 45 :: p) :: rest) [S_missing t]
| R_letters u cs k rest l : Letters cs k E_done -> Reads u rest l -> Reads u ((45 :: cs) :: rest) (k ++ l)
| R_letters_value u cs k t f v st rest l : Letters cs k (E_open t f) -> Operand v -> Given t f v st -> Reads u rest l ->
    Reads u ((45 :: cs) :: v :: rest) (k ++ st :: l)
| R_letters_missing u cs k t f rest : Letters cs k (E_open t f) -> no_operand rest -> Reads u ((45 :: cs) :: rest) [S_missing t]
| R_letters_needless u cs k t v rest : Letters cs k (E_needless t v) -> Reads u ((45 :: cs) :: rest) [S_needless t v]
| R_unknown u s rest l : Unknown s -> Reads u rest l -> Reads u (s :: rest) (S_surplus s :: l)
| R_file v rest l : Operand v -> (forall r, rest <> [45; 45] :: r) -> Reads true rest l -> Reads false (v :: rest) (S_opt (O_file v) :: l)
| R_operand v rest l : Operand v -> Reads true rest l -> Reads true (v :: rest) (S_surplus v :: l)
(* everything behind "--" is an operand *)
| R_file_end v r : Operand v -> Reads false (v :: [45; 45] :: r) (S_opt (O_file v) :: map S_surplus r)
| R_end : Reads false [[45; 45]] []
| R_end_file v r : Reads false ([45; 45] :: v :: r) (S_opt (O_file v) :: map S_surplus r)
| R_end_used r : Reads true ([45; 45] :: r) (map S_surplus ([45; 45] :: r)).

(** * The first trouble *)
Definition options_of (l : list step) : list opt := flat_map (fun x => match x with S_opt o => [o] | _ => [] end) l.
Definition surplus_of (l : list step) : list (list N) := flat_map (fun x => match x with S_surplus s => [s] | _ => [] end) l.
Definition harmless_step (x : step) : Prop := match x with S_opt _ | S_surplus _ => True | _ => False end.
(** no trouble so far *)
Definition Smooth (l : list step) : Prop :=
  Forall harmless_step l /\ forall a b, In a (options_of l) -> In b (options_of l) -> ~ Excludes a b.
Inductive Trouble : list step -> reason -> Prop :=
| T_not_number a t v b : Smooth a -> Trouble (a ++ S_not_number t v :: b) (R_invalid t v)
| T_missing a t b : Smooth a -> Trouble (a ++ S_missing t :: b) (R_expected t)
| T_needless a t v b : Smooth a -> Trouble (a ++ S_needless t v :: b) (R_ignored t v)
| T_excluded a o b o' t t' : Smooth a -> In o' (options_of a) -> Excludes o o' \/ Excludes o' o -> Called o t -> Called o' t' ->
    Trouble (a ++ S_opt o :: b) (R_not_allowed t t')
| T_surplus a : Smooth a -> surplus_of a <> [] -> Trouble a (R_unrecognized (surplus_of a)).

(** the names that an ambiguous abbreviation could stand for *)
Definition Candidates (s : list N) (names : list (list N)) : Prop :=
  exists p, (s = 45 :: 45 :: p \/ exists v, s = 45 :: 45 :: p ++ 61 :: v) /\ ~ In 61 p /\ NoDup names /\
    forall n, In n names <-> exists k m, n = 45 :: 45 :: k /\ Long k m /\ begins p k.
Inductive Blamed : list (list N) -> reason -> Prop :=
| Bl_ambiguous a s b names : ~ In [45; 45] (a ++ [s]) -> Forall (fun x => ~ Ambiguous x) a -> Ambiguous s -> Candidates s names ->
    Blamed (a ++ s :: b) (R_ambiguous s names)
| Bl_trouble argv l r : Clear argv -> Reads false argv l -> Trouble l r -> Blamed argv r.

(** * The words of a message *)
Inductive Says : reason -> list N -> Prop :=
| Sy_ambiguous s names : Says (R_ambiguous s names) (txt "ambiguous option: " ++ s ++ txt " could match " ++ join (txt ", ") names)
| Sy_ignored t e q : quoted q e -> Says (R_ignored t e) (txt "argument " ++ t ++ txt ": ignored explicit argument " ++ q)
| Sy_expected t : Says (R_expected t) (txt "argument " ++ t ++ txt ": expected one argument")
| Sy_invalid t v q : quoted q v -> Says (R_invalid t v) (txt "argument " ++ t ++ txt ": invalid int value: " ++ q)
| Sy_not_allowed t t' : Says (R_not_allowed t t') (txt "argument " ++ t ++ txt ": not allowed with argument " ++ t')
| Sy_unrecognized l : Says (R_unrecognized l) (txt "unrecognized arguments: " ++ join [32] l).

(** * The usage text as the user sees it *)
Definition usage_shown : list N :=
  txt "USAGE" ++ [10] ++
  txt "  kolombos [[--text] | --binary] [<options>] [--demo | <file>]" ++ [10] ++
  txt "  kolombos --legend" ++ [10] ++ txt "  kolombos --version" ++ [10] ++ txt "  kolombos --help" ++ [10].
(** reasons that differ at most in the order of candidates *)
Inductive Akin : reason -> reason -> Prop :=
| Al_same r : Akin r r
| Al_order s l l' : Permutation l l' -> Akin (R_ambiguous s l) (R_ambiguous s l').
