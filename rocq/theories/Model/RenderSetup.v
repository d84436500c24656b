(** pytermor/render.py: preferences of renderers, the default renderer, ready-made styles *)
From Coq Require Import Ascii String.
From Coq Require Import List NArith ZArith Bool.
From Verif.Model Require Import Base Ansi Color Presets ColorNames Render.
Import ListNotations.
Local Open Scope N_scope.

(** the arguments of [SgrRenderer.set_up], L423-426 *)
Record prefs := mkPrefs { pf_force : option bool; pf_256 : bool; pf_16 : bool }.
(** L419-421 the class attributes of [SgrRenderer] *)
Definition prefs0 : prefs := mkPrefs (Some false) false false.

(** Assignments to [cls._force_styles] etc. make attributes of the class [set_up] is called on;
    a class without own ones has those of [SgrRenderer], its base class (L529, L713).
    [set_up] is the only writer and writes all three. *)
Record setup := mkSetup { su_default : renderer; su_sgr : prefs; su_tmux : option prefs; su_debug : option prefs }.
(** after import: L730 [RendererManager.set_up()] *)
Definition setup0 : setup := mkSetup R_sgr prefs0 None None.

Inductive setup_op :=
| SO_default (r : option renderer)         (* RendererManager.set_up(r) *)
| SO_prefs (r : renderer) (p : prefs).     (* r.set_up(...) *)

(** L355-371 [cls._default = default_renderer or SgrRenderer]; L423-459.  [NoOpRenderer] and
    [HtmlRenderer] have no method [set_up]. *)
Definition setup_step (s : setup) (o : setup_op) : result setup :=
  match o with
  | SO_default None => Ok (mkSetup R_sgr (su_sgr s) (su_tmux s) (su_debug s))
  | SO_default (Some r) => Ok (mkSetup r (su_sgr s) (su_tmux s) (su_debug s))
  | SO_prefs R_sgr p => Ok (mkSetup (su_default s) p (su_tmux s) (su_debug s))
  | SO_prefs R_tmux p => Ok (mkSetup (su_default s) (su_sgr s) (Some p) (su_debug s))
  | SO_prefs R_debug p => Ok (mkSetup (su_default s) (su_sgr s) (su_tmux s) (Some p))
  | SO_prefs _ _ => Err AttributeError
  end.
Fixpoint setup_steps (s : setup) (os : list setup_op) : result setup :=
  match os with
  | [] => Ok s
  | o :: t => bind (setup_step s o) (fun s' => setup_steps s' t)
  end.

(** lookup of the attributes *)
Definition prefs_of (s : setup) (r : renderer) : prefs :=
  match r with
  | R_tmux => match su_tmux s with Some p => p | None => su_sgr s end
  | R_debug => match su_debug s with Some p => p | None => su_sgr s end
  | _ => su_sgr s
  end.

(** the rest of the environment: is stdout a terminal, in which order are sets iterated *)
Definition env_for (s : setup) (r : renderer) (tty : bool) (order : list str -> list str) : renv :=
  let p := prefs_of s r in mkRenv (mkRconf (pf_force p) (pf_256 p) (pf_16 p) tty) order.
(** [r.render(text, style)] *)
Definition render_in (s : setup) (tty : bool) (order : list str -> list str) (r : renderer) : rstate -> str -> style -> result str * rstate :=
  render (env_for s r tty order) r.
(** L92-93 [Text.render()], L99-100 [str(text)] *)
Definition default_render (s : setup) (tty : bool) (order : list str -> list str) (st : rstate) (h : heap) (t : nat) : result str * rstate :=
  text_render (env_for s (su_default s) tty order) (su_default s) st h t.
(** L256-260 [Style.text(x)] and [Style.render(x)], for a str *)
Definition style_render (s : setup) (tty : bool) (order : list str -> list str) (st : rstate) (sty : style) (x : str) : result str * rstate :=
  render_runs (env_for s (su_default s) tty order) (su_default s) st [mkRun x (Some sty)].

(** ** L733-753 class [Styles] *)
Definition color_named (n : string) : color_arg :=
  match resolve_color_name (txt n) with Ok c => CA_color c | Err _ => CA_none end.
Definition styled_args (inherit : option style) (fg bg : color_arg) (bold blink : option bool) : style_args :=
  mkArgs inherit fg bg blink bold None None None None None None None None.
Definition made (g : style_args) : style := match style_init g with Ok s => s | Err _ => NOOP_STYLE end.
Definition S_WARNING := made (styled_args None (color_named "YELLOW") CA_none None None).
Definition S_WARNING_LABEL := made (styled_args (Some S_WARNING) CA_none CA_none (Some true) None).
Definition S_WARNING_ACCENT := made (styled_args None (color_named "HI_YELLOW") CA_none None None).
Definition S_ERROR := made (styled_args None (color_named "RED") CA_none None None).
Definition S_ERROR_LABEL := made (styled_args (Some S_ERROR) CA_none CA_none (Some true) None).
Definition S_ERROR_ACCENT := made (styled_args None (color_named "HI_RED") CA_none None None).
Definition S_CRITICAL := made (styled_args None (color_named "HI_WHITE") (color_named "HI_RED") None None).
Definition S_CRITICAL_LABEL := made (styled_args (Some S_CRITICAL) CA_none CA_none (Some true) None).
Definition S_CRITICAL_ACCENT := made (styled_args (Some S_CRITICAL) CA_none CA_none (Some true) (Some true)).
Definition STYLES : list (string * style) :=
  [ ("WARNING", S_WARNING); ("WARNING_LABEL", S_WARNING_LABEL); ("WARNING_ACCENT", S_WARNING_ACCENT);
    ("ERROR", S_ERROR); ("ERROR_LABEL", S_ERROR_LABEL); ("ERROR_ACCENT", S_ERROR_ACCENT);
    ("CRITICAL", S_CRITICAL); ("CRITICAL_LABEL", S_CRITICAL_LABEL); ("CRITICAL_ACCENT", S_CRITICAL_ACCENT) ]%string.
(** pytermor/common.py:19-31 [Styles.resolve] *)
Fixpoint style_get (name : str) (l : list (string * style)) : option style :=
  match l with
  | [] => None
  | (n, s) :: t => if eqb_list name (txt n) then Some s else style_get name t
  end.
Definition resolve_style_name (name : str) : result style :=
  match style_get (upper name) STYLES with Some s => Ok s | None => Err KeyError end.
