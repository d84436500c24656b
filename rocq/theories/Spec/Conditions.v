(** Conditions and small notions that occur in statements *)
From Coq Require Import List NArith ZArith Bool.
From Verif.Model Require Import Base Settings TimeDelta FloatText Legend Process Render RenderSetup.
From Verif.Spec Require Import Terminal Lexical Display Weave.
Import ListNotations.
Local Open Scope N_scope.

(** file names Python can pass to the terminal as they are: code points, none of them ESC *)
Definition usable_name (s : settings) : Prop :=
  match s_filename s with Some f => Forall (fun c => c < 0x110000 /\ c <> 27) f | None => True end.
(** the name of the file, if there is one, is one line of displayable text *)
Definition safe_name (s : settings) : Prop := match s_filename s with Some f => one_line f | None => True end.
(** what Python calls printable can be displayed and is no line feed *)
Definition safe_printable (p : N -> bool) : Prop := forall c, p c = true -> displayable c = true /\ c <> 10.
(** text without ESC *)
Definition plain_text (s : str) : Prop := Forall (fun c => c <> 27) s.

(** lines of a text *)
Definition no_boundary (l : str) : Prop := Forall (fun c => is_boundary c = false) l.
Definition as_lines (ls : list str) : str := flat_map (fun l => l ++ [10]) ls.
Definition starts_hash (l : str) : bool := match l with c :: _ => c =? 35 | [] => false end.

(** pieces all bytes of which are shown alike *)
Definition single_kind (k : kind) : bool := match k with K_utf8 _ => false | _ => negb (is_escape_seq k) end.

(** assignments one after another *)
Definition set_all {A} (p : pov A) (h : list (mode_key * A)) : pov A := fold_left (fun q '(k, v) => pov_set q k v) h p.

(** the unit given, or else the one of the formatter *)
Definition unit_of (f : unit_config) (unit : option str) : str := match str_on unit with Some u => u | None => pu_unit f end.

(** what a call says about the default renderer, about the preferences of a class *)
Definition sets_default (o : setup_op) : option renderer :=
  match o with SO_default (Some r) => Some r | SO_default None => Some R_sgr | SO_prefs _ _ => None end.
Definition same_renderer (a b : renderer) : bool :=
  match a, b with R_sgr, R_sgr | R_tmux, R_tmux | R_noop, R_noop | R_html, R_html | R_debug, R_debug => true | _, _ => false end.
Definition sets_prefs (r : renderer) (o : setup_op) : option prefs :=
  match o with SO_prefs r' p => if same_renderer r r' then Some p else None | SO_default _ => None end.

(** the same world with a terminal of another width *)
Definition on_terminal (w : world) (columns : Z) : world := mkWorld (w_files w) (w_demo w) (w_typed w) (w_interrupted w) columns.
