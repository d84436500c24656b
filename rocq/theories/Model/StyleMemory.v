(** pytermor/render.py once more, with styles as objects in memory: texts keep references to them
    (L165-168), [flip], [autopick_fg] and assignments change them (L262-291, L328-342). *)
From Coq Require Import Ascii String.
From Coq Require Import List NArith ZArith Bool.
From Verif.Model Require Import Base Ansi Color Presets Render RenderSetup.
Import ListNotations.
Local Open Scope N_scope.

(** ** changes of a style *)
(** L233-242 the attributes that are True, False or None *)
Inductive attr := AT_blink | AT_bold | AT_crosslined | AT_dim | AT_double_underlined | AT_inversed | AT_italic | AT_overlined | AT_underlined.
Definition set_attr (s : style) (a : attr) (v : option bool) : style :=
  let pick (b : attr) (old : option bool) := match a, b with
    | AT_blink, AT_blink | AT_bold, AT_bold | AT_crosslined, AT_crosslined | AT_dim, AT_dim | AT_double_underlined, AT_double_underlined
    | AT_inversed, AT_inversed | AT_italic, AT_italic | AT_overlined, AT_overlined | AT_underlined, AT_underlined => v
    | _, _ => old end in
  mkStyle (st_fg s) (st_bg s) (pick AT_blink (st_blink s)) (pick AT_bold (st_bold s)) (pick AT_crosslined (st_crosslined s)) (pick AT_dim (st_dim s))
          (pick AT_double_underlined (st_double_underlined s)) (pick AT_inversed (st_inversed s)) (pick AT_italic (st_italic s))
          (pick AT_overlined (st_overlined s)) (pick AT_underlined (st_underlined s)) (st_class_name s).
Definition set_class_name (s : style) (c : option str) : style :=
  mkStyle (st_fg s) (st_bg s) (st_blink s) (st_bold s) (st_crosslined s) (st_dim s) (st_double_underlined s)
          (st_inversed s) (st_italic s) (st_overlined s) (st_underlined s) c.

Inductive change :=
| CH_fg (a : color_arg)                 (* style.fg = a, L336-338 *)
| CH_bg (a : color_arg)                 (* style.bg = a, L340-342 *)
| CH_flip                               (* style.flip(), L285-291 *)
| CH_autopick                           (* style.autopick_fg(), L262-283 *)
| CH_attr (a : attr) (v : option bool)  (* style.bold = v etc. *)
| CH_class (c : option str).            (* style.class_name = c *)
Definition style_change (s : style) (c : change) : result style :=
  match c with
  | CH_fg a => set_style_fg s a
  | CH_bg a => set_style_bg s a
  | CH_flip => Ok (flip s)
  | CH_autopick => Ok (autopick_fg s)
  | CH_attr a v => Ok (set_attr s a v)
  | CH_class c => Ok (set_class_name s c)
  end.

(** ** memory *)
(** L163-168: a run refers to its style *)
Record mrun := mkMrun { mr_string : str; mr_style : option nat }.
Record memory := mkMem { mem_styles : list style; mem_runs : list mrun; mem_texts : list (list nat) }.
(** after import: L345 [NOOP_STYLE], L733-753 [Styles] *)
Definition mem0 : memory := mkMem (NOOP_STYLE :: map snd STYLES) [] [].

Inductive ref_arg := RA_none | RA_style (i : nat) | RA_color (name : str).
(** what a program can do; objects are named by their numbers, those that do not exist cannot
    be used (nothing happens) *)
Inductive mem_op :=
| M_style (inherit : option nat) (g : style_args)  (* Style(inherit, ...), L226-254; [ag_inherit g] is not used *)
| M_change (i : nat) (c : change)
| M_text (a : any) (sa : ref_arg)                  (* Text(a, style), L112-113; style.text(a), L256-257 *)
| M_append_str (t : nat) (s : str)                 (* L122-123 *)
| M_append_text (t u : nat)                        (* L124-125 *)
| M_prepend_str (t : nat) (s : str)                (* L130-131 *)
| M_prepend_text (t u : nat)                       (* L132-133 *)
| M_format (t : nat) (f : fmt_spec).               (* L140-149, L181-183 *)

Definition with_inherit (g : style_args) (p : option style) : style_args :=
  mkArgs p (ag_fg g) (ag_bg g) (ag_blink g) (ag_bold g) (ag_crosslined g) (ag_dim g) (ag_double_underlined g) (ag_inversed g)
         (ag_italic g) (ag_overlined g) (ag_underlined g) (ag_class_name g).
Definition mtext (m : memory) (t : nat) : list nat := nth t (mem_texts m) [].

(** L112-113 with L164-168: a color name makes a style of its own *)
Definition mem_text (m : memory) (a : any) (sa : ref_arg) : result memory :=
  let string := if any_truthy a then py_str a else [] in
  let id := List.length (mem_runs m) in
  let put (styles : list style) (r : option nat) := mkMem styles (mem_runs m ++ [mkMrun string r]) (mem_texts m ++ [[id]]) in
  match sa with
  | RA_none => Ok (put (mem_styles m) None)
  | RA_style i => if (i <? List.length (mem_styles m))%nat then Ok (put (mem_styles m) (Some i)) else Ok m
  | RA_color n => bind (style_init (with_inherit (mkArgs None (CA_name n) CA_none None None None None None None None None None None) None))
                       (fun s => Ok (put (mem_styles m ++ [s]) (Some (List.length (mem_styles m)))))
  end.
Definition mem_step (m : memory) (o : mem_op) : result memory :=
  let id := List.length (mem_runs m) in
  let fresh (s : str) := mem_runs m ++ [mkMrun s None] in
  match o with
  | M_style inherit g =>
      match inherit with
      | None => bind (style_init (with_inherit g None)) (fun s => Ok (mkMem (mem_styles m ++ [s]) (mem_runs m) (mem_texts m)))
      | Some i => match nth_error (mem_styles m) i with
                  | None => Ok m
                  | Some p => bind (style_init (with_inherit g (Some p))) (fun s => Ok (mkMem (mem_styles m ++ [s]) (mem_runs m) (mem_texts m)))
                  end
      end
  | M_change i c =>
      match nth_error (mem_styles m) i with
      | None => Ok m
      | Some s => bind (style_change s c) (fun s' => Ok (mkMem (update i s' (mem_styles m)) (mem_runs m) (mem_texts m)))
      end
  | M_text a sa => mem_text m a sa
  | M_append_str t s => Ok (mkMem (mem_styles m) (fresh s) (update t (mtext m t ++ [id]) (mem_texts m)))
  | M_append_text t u => Ok (mkMem (mem_styles m) (mem_runs m) (update t (mtext m t ++ mtext m u) (mem_texts m)))
  | M_prepend_str t s => Ok (mkMem (mem_styles m) (fresh s) (update t (id :: mtext m t) (mem_texts m)))
  | M_prepend_text t u => Ok (mkMem (mem_styles m) (mem_runs m) (update t (mtext m u ++ mtext m t) (mem_texts m)))
  | M_format t f =>
      match mtext m t with
      | [] => Ok m
      | [i] => match nth_error (mem_runs m) i with
               | Some r => Ok (mkMem (mem_styles m) (update i (mkMrun (str_format f (mr_string r)) (mr_style r)) (mem_runs m)) (mem_texts m))
               | None => Ok m
               end
      | _ => Err RuntimeError
      end
  end.
Fixpoint mem_steps (m : memory) (os : list mem_op) : result memory :=
  match os with
  | [] => Ok m
  | o :: t => bind (mem_step m o) (fun m' => mem_steps m' t)
  end.

(** ** L170-173, L115-116 *)
Definition mrender_run (e : renv) (k : renderer) (st : rstate) (m : memory) (r : mrun) : result str * rstate :=
  match mr_style r with
  | None => (Ok (mr_string r), st)
  | Some i => match nth_error (mem_styles m) i with
              | Some s => render e k st (mr_string r) s
              | None => (Ok (mr_string r), st)
              end
  end.
Fixpoint mrender_runs (e : renv) (k : renderer) (st : rstate) (m : memory) (rs : list mrun) : result str * rstate :=
  match rs with
  | [] => (Ok [], st)
  | r :: t =>
      let '(r1, st1) := mrender_run e k st m r in
      match r1 with
      | Err x => (Err x, st1)
      | Ok s1 => let '(r2, st2) := mrender_runs e k st1 m t in (bind r2 (fun s2 => Ok (s1 ++ s2)), st2)
      end
  end.
Definition mtext_runs (m : memory) (t : nat) : list mrun :=
  flat_map (fun i => match nth_error (mem_runs m) i with Some r => [r] | None => [] end) (mtext m t).
Definition mtext_render (e : renv) (k : renderer) (st : rstate) (m : memory) (t : nat) : result str * rstate :=
  mrender_runs e k st m (mtext_runs m t).
(** [str(text)], see [default_render] *)
Definition mem_render (s : setup) (tty : bool) (order : list str -> list str) (st : rstate) (m : memory) (t : nat) : result str * rstate :=
  mtext_render (env_for s (su_default s) tty order) (su_default s) st m t.
