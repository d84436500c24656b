(** Specification side: what a style is meant to look like on a terminal *)
From Coq Require Import List NArith ZArith Bool.
From Verif.Model Require Import Base Color Presets Render.
From Verif.Spec Require Import Terminal Palette Display Tmux Html.
Import ListNotations.
Local Open Scope N_scope.

(** the colors there are *)
Inductive kind := K_none | K_rgb (h : Z) | K_256 (h n : Z) | K_16 (n : Z).

(** the objects representing them: no color, any number of RRGGBB, an index of the palette
    together with such a number, a basic color with its two codes *)
Inductive Denotes : pcolor -> kind -> Prop :=
| D_none : Denotes (ColorRGB None) K_none
| D_rgb h : Denotes (ColorRGB (Some h)) (K_rgb h)
| D_256 h n : (0 <= n <= 255)%Z -> Denotes (ColorIndexed256 (Some h) (Some n)) (K_256 h n)
| D_16 h n : (0 <= n <= 7)%Z -> Denotes (ColorIndexed16 (Some h) (Some (30 + n)) (Some (40 + n)))%Z (K_16 n)
| D_16_bright h n : (8 <= n <= 15)%Z ->
    Denotes (ColorIndexed16 (Some h) (Some (90 + (n - 8))) (Some (100 + (n - 8))))%Z (K_16 n).

(** what the terminal can display *)
Inductive depth := Full | Only256 | Only16.

Definition nearest256 (h n : Z) : Prop :=
  (16 <= n <= 255)%Z /\ forall m, (16 <= m <= 255)%Z -> (sq_distance h (xterm n) <= sq_distance h (xterm m))%Z.
Definition nearest16 (h n : Z) : Prop :=
  (0 <= n <= 15)%Z /\ forall m, (0 <= m <= 15)%Z -> (sq_distance h (basic n) <= sq_distance h (basic m))%Z.

(** the color of the terminal standing for a color: itself if the terminal has it, otherwise a nearest one *)
Definition shown_as (d : depth) (k : kind) (x : color) : Prop :=
  match k with
  | K_none => x = ColDefault
  | K_rgb h =>
      match d with
      | Full => x = ColRgb (Z.to_N (red h)) (Z.to_N (green h)) (Z.to_N (blue h))
      | Only256 => exists n, nearest256 h n /\ x = ColIdx (Z.to_N n)
      | Only16 => exists n, nearest16 h n /\ x = ColIdx (Z.to_N n)
      end
  | K_256 h n =>
      match d with
      | Only16 => exists m, nearest16 h m /\ x = ColIdx (Z.to_N m)
      | _ => x = ColIdx (Z.to_N n)
      end
  | K_16 n => x = ColIdx (Z.to_N n)
  end.

(** an attribute is on if it was set to True *)
Definition on (o : option bool) : bool := match o with Some b => b | None => false end.

(** styles whose colors are among the above *)
Definition standard (s : style) : Prop := (exists k, Denotes (st_fg s) k) /\ exists k, Denotes (st_bg s) k.

(** the attributes of characters written in style [s] *)
Definition looks (d : depth) (s : style) (a : attrs) : Prop :=
  (forall k, Denotes (st_fg s) k -> shown_as d k (a_fg a)) /\
  (forall k, Denotes (st_bg s) k -> shown_as d k (a_bg a)) /\
  a_bold a = on (st_bold s) /\ a_dim a = on (st_dim s) /\ a_italic a = on (st_italic s) /\
  a_under a = (if on (st_underlined s) then 1 else if on (st_double_underlined s) then 2 else 0) /\
  a_blink a = (if on (st_blink s) then 1 else 0) /\
  a_inverse a = on (st_inversed s) /\ a_hidden a = false /\
  a_cross a = on (st_crosslined s) /\ a_over a = on (st_overlined s).

(** which terminal the settings are for; 16 colors take precedence *)
Definition depth_of (cf : rconf) : depth := if rc_16 cf then Only16 else if rc_256 cf then Only256 else Full.
(** styles are in use: forced, or left to the renderer, which looks whether the output is a terminal *)
Definition styled_output (cf : rconf) : Prop := rc_force cf = Some true \/ (rc_force cf = Some false /\ rc_tty cf = true).

(** a state of the color tables: any colors have been asked for *)
Definition reached (st : rstate) : Prop :=
  exists hs16 hs256, st = mkRstate (after (looked_up hs16) table16) (after (looked_up hs256) table256).

(** a run of a text: a string with or without style *)
Definition run_looks (d : depth) (r : trun_obj) (a : attrs) : Prop :=
  match run_style r with None => a = attrs0 | Some s => looks d s a end.
Definition run_standard (r : trun_obj) : Prop := match run_style r with None => True | Some s => standard s end.

(** the same for a status text of tmux *)
Definition xlooks (d : depth) (s : style) (a : xattrs) : Prop :=
  (forall k, Denotes (st_fg s) k -> shown_as d k (x_fg a)) /\
  (forall k, Denotes (st_bg s) k -> shown_as d k (x_bg a)) /\
  x_bold a = on (st_bold s) /\ x_dim a = on (st_dim s) /\ x_italics a = on (st_italic s) /\
  x_underscore a = on (st_underlined s) /\ x_double a = on (st_double_underlined s) /\
  x_blink a = on (st_blink s) /\ x_reverse a = on (st_inversed s) /\ x_hidden a = false /\
  x_strike a = on (st_crosslined s) /\ x_over a = on (st_overlined s).

(** ** lines of a text *)

(** characters that end a line (Unicode and ASCII separators); CR LF is one line end *)
Definition line_ends : list N := [10; 11; 12; 13; 28; 29; 30; 0x85; 0x2028; 0x2029].
Definition unbroken (s : str) : Prop := Forall (fun c => ~ In c line_ends) s.
Inductive Lines : str -> list str -> Prop :=
| Ln_nil : Lines [] []
| Ln_last s : s <> [] -> unbroken s -> Lines s [s]
| Ln_crlf s rest ls : unbroken s -> Lines rest ls -> Lines (s ++ 13 :: 10 :: rest) ((s ++ [13; 10]) :: ls)
| Ln_one s c rest ls : unbroken s -> In c line_ends -> ~ (c = 13 /\ exists r, rest = 10 :: r) -> Lines rest ls ->
    Lines (s ++ c :: rest) ((s ++ [c]) :: ls).

(** ** visible marks for sequences *)
Definition mark (p : list N) : str :=
  match p with [] => [] | _ => [124; 0x1DD] ++ join [59] (map dec p) ++ [124] end.

(** ** texts as values: what the operations on texts should do if texts shared nothing *)
Inductive text_val_op :=
| V_new (r : trun_obj) | V_append (t : nat) (rs : list trun_obj) | V_append_copy (t u : nat)
| V_prepend (t : nat) (rs : list trun_obj) | V_prepend_copy (t u : nat) | V_format (t : nat) (f : str -> str).

(** the [n]-th element changed *)
Fixpoint change_at {A} (n : nat) (f : A -> A) (l : list A) : list A :=
  match n, l with
  | _, [] => []
  | O, x :: t => f x :: t
  | S m, x :: t => x :: change_at m f t
  end.
Definition val_step (w : list (list trun_obj)) (o : text_val_op) : list (list trun_obj) :=
  match o with
  | V_new r => w ++ [[r]]
  | V_append t rs => change_at t (fun x => x ++ rs) w
  | V_append_copy t u => change_at t (fun x => x ++ nth u w []) w
  | V_prepend t rs => change_at t (fun x => rs ++ x) w
  | V_prepend_copy t u => change_at t (fun x => nth u w [] ++ x) w
  | V_format t f => change_at t (map (fun r => mkRun (f (run_string r)) (run_style r))) w
  end.
(** the value operation a program means by an operation on texts *)
Definition meant (o : text_op) (v : text_val_op) : Prop :=
  match o with
  | TO_new a sa => exists r, new_run a sa = Ok r /\ v = V_new r
  | TO_append_str t s => v = V_append t [mkRun s None]
  | TO_append_text t u => v = V_append_copy t u
  | TO_prepend_str t s => v = V_prepend t [mkRun s None]
  | TO_prepend_text t u => v = V_prepend_copy t u
  | TO_format t f => v = V_format t (str_format f)
  end.
Definition is_format (o : text_op) : bool := match o with TO_format _ _ => true | _ => false end.
Definition is_sharing (o : text_op) : bool := match o with TO_append_text _ _ | TO_prepend_text _ _ => true | _ => false end.

(** [swapped a]: foreground and background exchanged *)
Definition swapped (a : attrs) : attrs := set_fg (a_bg a) (set_bg (a_fg a) a).
(** brightness of a color: its largest channel *)
Definition brightness (h : Z) : Z := Z.max (red h) (Z.max (green h) (blue h)).

(** the same for HTML: inversed styles exchange the colors *)
Definition hlooks (s : style) (l : hlook) : Prop :=
  h_fg l = hex_value (if on (st_inversed s) then st_bg s else st_fg s) /\
  h_bg l = hex_value (if on (st_inversed s) then st_fg s else st_bg s) /\
  h_bold l = on (st_bold s) /\ h_italic l = on (st_italic s) /\
  h_under l = on (st_underlined s) || on (st_double_underlined s) /\
  h_over l = on (st_overlined s) /\ h_through l = on (st_crosslined s) /\
  h_double l = on (st_double_underlined s) /\ h_boxed l = on (st_blink s) /\ h_faint l = on (st_dim s).
(** colors of 24 bits, class names without quotes, texts without the special characters of HTML *)
Definition color_ok (c : pcolor) : Prop := match hex_value c with None => True | Some h => (0 <= h <= 0xffffff)%Z end.
Definition class_ok (s : style) : Prop := match st_class_name s with None => True | Some c => Forall (fun x => x <> 34) c end.
Definition plain_html (t : str) : Prop := Forall (fun c => c <> 60 /\ c <> 38) t.
Definition run_html (r : trun_obj) (l : hlook) : Prop := match run_style r with None => l = hlook0 | Some s => hlooks s l end.
Definition run_html_ok (r : trun_obj) : Prop :=
  plain_html (run_string r) /\ match run_style r with None => True | Some s => color_ok (st_fg s) /\ color_ok (st_bg s) /\ class_ok s end.

(** ** inheritance: own settings come first, the parent fills the gaps *)
Definition given {A} (own : option A) (inherited : A) : A := match own with Some v => v | None => inherited end.
Definition color_from (own : color_arg) (inherited result : pcolor) : Prop :=
  match own with
  | CA_none => result = inherited
  | CA_color c => result = c
  | CA_int h => result = ColorRGB (Some h)
  | CA_name n => resolve_color_name n = Ok result
  end.
Definition child_of (g : style_args) (p s : style) : Prop :=
  color_from (ag_fg g) (st_fg p) (st_fg s) /\ color_from (ag_bg g) (st_bg p) (st_bg s) /\
  on (st_blink s) = given (ag_blink g) (on (st_blink p)) /\ on (st_bold s) = given (ag_bold g) (on (st_bold p)) /\
  on (st_crosslined s) = given (ag_crosslined g) (on (st_crosslined p)) /\ on (st_dim s) = given (ag_dim g) (on (st_dim p)) /\
  on (st_double_underlined s) = given (ag_double_underlined g) (on (st_double_underlined p)) /\
  on (st_inversed s) = given (ag_inversed g) (on (st_inversed p)) /\ on (st_italic s) = given (ag_italic g) (on (st_italic p)) /\
  on (st_overlined s) = given (ag_overlined g) (on (st_overlined p)) /\ on (st_underlined s) = given (ag_underlined g) (on (st_underlined p)) /\
  (ag_class_name g = None -> st_class_name s = st_class_name p) /\ (forall c, ag_class_name g = Some c -> st_class_name s = Some c).
(** arguments a style can be made from so that it can be rendered *)
Definition arg_standard (a : color_arg) : Prop := match a with CA_color c => exists k, Denotes c k | _ => True end.
(** a name exists if it is the name of a preset up to the case of letters *)
Definition names (l : list (str * pcolor)) (n : str) (c : pcolor) : Prop := exists m, In (m, c) l /\ upper n = upper m.
