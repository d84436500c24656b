(** pytermor/render.py: styles, renderers and texts.

    Python's None is [None] (or an own constructor), an int or a str given as a color is a
    constructor of [color_arg].  Values of the attributes are None, False or True.  Terminals
    and the iteration order of Python sets are parameters. *)
From Coq Require Import Ascii String.
From Coq Require Import List NArith ZArith Bool.
From Verif.Model Require Import Base Ansi Regex Strip Color Presets ColorNames.
Import ListNotations.
Local Open Scope N_scope.

(** an ASCII string literal of the source *)
Definition txt (x : string) : str := map N_of_ascii (list_ascii_of_string x).

(** * Registry *)

(** pytermor/common.py:27 [name.upper()], for ASCII letters; other characters are left alone (Python also
    changes letters outside ASCII, which never occur in names of presets, except that the
    dotless i, the long s and some ligatures turn into ASCII letters) *)
Definition upper (s : str) : str := map (fun c => if (97 <=? c) && (c <=? 122) then c - 32 else c) s.

(** [getattr(Colors, name, None)] *)
Fixpoint color_get (name : str) (l : list (string * pcolor)) : option pcolor :=
  match l with
  | [] => None
  | (n, c) :: t => if eqb_list name (txt n) then Some c else color_get name t
  end.

(** pytermor/common.py:19-31 [Colors.resolve]; the other attributes of the class have lower case letters in
    their names *)
Definition resolve_color_name (name : str) : result pcolor :=
  match color_get (upper name) color_names with
  | Some c => Ok c
  | None => Err KeyError
  end.

(** * Style *)

(** render.py:186-254, the attributes after construction *)
Record style := mkStyle {
  st_fg : pcolor; st_bg : pcolor;
  st_blink : option bool; st_bold : option bool; st_crosslined : option bool; st_dim : option bool;
  st_double_underlined : option bool; st_inversed : option bool; st_italic : option bool;
  st_overlined : option bool; st_underlined : option bool;
  st_class_name : option str
}.

Inductive color_arg := CA_none | CA_color (c : pcolor) | CA_int (h : Z) | CA_name (s : str).

(** render.py:294-307 [_resolve_color]; [None] stands for Python's None *)
Definition resolve_color (a : color_arg) (nullable : bool) : result (option pcolor) :=
  match a with
  | CA_color c => Ok (Some c)
  | CA_int h => Ok (Some (ColorRGB (Some h)))
  | CA_name s => bind (resolve_color_name s) (fun c => Ok (Some c))
  | CA_none => Ok (if nullable then None else Some NOOP_COLOR)
  end.

(** the keyword arguments of the constructor *)
Record style_args := mkArgs {
  ag_inherit : option style; ag_fg : color_arg; ag_bg : color_arg;
  ag_blink : option bool; ag_bold : option bool; ag_crosslined : option bool; ag_dim : option bool;
  ag_double_underlined : option bool; ag_inversed : option bool; ag_italic : option bool;
  ag_overlined : option bool; ag_underlined : option bool; ag_class_name : option str
}.
Definition no_args : style_args := mkArgs None CA_none CA_none None None None None None None None None None None.

(** render.py:309-313 [_clone_from], for one attribute *)
Definition clone {A} (own inherited : option A) : option A :=
  match own with None => inherited | Some _ => own end.

(** render.py:226-254 [Style.__init__] *)
Definition style_init (g : style_args) : result style :=
  bind (match ag_fg g with CA_none => Ok None | a => resolve_color a true end) (fun fg =>
  bind (match ag_bg g with CA_none => Ok None | a => resolve_color a true end) (fun bg =>
  let from {A} (f : style -> option A) : option A := match ag_inherit g with None => None | Some s => f s end in
  let or_noop (o : option pcolor) := match o with Some c => c | None => NOOP_COLOR end in
  Ok (mkStyle (or_noop (clone fg (from (fun s => Some (st_fg s)))))
              (or_noop (clone bg (from (fun s => Some (st_bg s)))))
              (clone (ag_blink g) (from st_blink)) (clone (ag_bold g) (from st_bold))
              (clone (ag_crosslined g) (from st_crosslined)) (clone (ag_dim g) (from st_dim))
              (clone (ag_double_underlined g) (from st_double_underlined))
              (clone (ag_inversed g) (from st_inversed)) (clone (ag_italic g) (from st_italic))
              (clone (ag_overlined g) (from st_overlined)) (clone (ag_underlined g) (from st_underlined))
              (clone (ag_class_name g) (from st_class_name))))).

(** render.py:345 *)
Definition NOOP_STYLE : style := mkStyle NOOP_COLOR NOOP_COLOR None None None None None None None None None None.

Definition with_colors (s : style) (fg bg : pcolor) : style :=
  mkStyle fg bg (st_blink s) (st_bold s) (st_crosslined s) (st_dim s) (st_double_underlined s)
          (st_inversed s) (st_italic s) (st_overlined s) (st_underlined s) (st_class_name s).

(** render.py:285-291 [flip] *)
Definition flip (s : style) : style := with_colors s (st_bg s) (st_fg s).

(** color.py:30-66, the third component of [hex_value_to_hsv_channels], times 255: the largest
    channel.  [v >= .45] holds of the float [n / 255] exactly if n >= 115 (114/255 < .4471,
    115/255 > .4509). *)
Definition hsv_value_255 (h : Z) : Z :=
  let '(r, g, b) := hex_value_to_rgb_channels h in Z.max r (Z.max g b).

(** color.py, class [Colors] *)
Definition RGB_GREY_4 : pcolor := ColorRGB (Some 0x0a0a0a%Z).
Definition RGB_GREY_80 : pcolor := ColorRGB (Some 0xcccccc%Z).

(** render.py:262-283 [autopick_fg] *)
Definition autopick_fg (s : style) : style :=
  match hex_value (st_bg s) with
  | None => s
  | Some h => with_colors s (if (115 <=? hsv_value_255 h)%Z then RGB_GREY_4 else RGB_GREY_80) (st_bg s)
  end.

(** render.py:336-342 the setters of [fg] and [bg] *)
Definition set_style_fg (s : style) (a : color_arg) : result style :=
  bind (resolve_color a false) (fun c => Ok (with_colors s (match c with Some c => c | None => NOOP_COLOR end) (st_bg s))).
Definition set_style_bg (s : style) (a : color_arg) : result style :=
  bind (resolve_color a false) (fun c => Ok (with_colors s (st_fg s) (match c with Some c => c | None => NOOP_COLOR end))).

(** color.py:152-158, 194-198, 213-216: equality of colors of the same class *)
Definition opt_eqb (a b : option Z) : bool :=
  match a, b with Some x, Some y => (x =? y)%Z | None, None => true | _, _ => false end.
Definition color_eqb (a b : pcolor) : bool :=
  match a, b with
  | ColorIndexed16 h f b, ColorIndexed16 h' f' b' => opt_eqb h h' && opt_eqb b b' && opt_eqb f f'
  | ColorIndexed256 h c, ColorIndexed256 h' c' => opt_eqb h h' && opt_eqb c c'
  | ColorRGB h, ColorRGB h' => opt_eqb h h'
  | _, _ => false
  end.

(** render.py:186 [@dataclass] generates [__eq__], which compares the declared fields: L223-224
    [_fg] and [_bg] *)
Definition style_eqb (a b : style) : bool := color_eqb (st_fg a) (st_fg b) && color_eqb (st_bg a) (st_bg b).

Definition truthy (o : option bool) : bool := match o with Some true => true | _ => false end.

(** * SgrRenderer *)

(** render.py:419-459 the class attributes set by [set_up], and [sys.stdout.isatty()] *)
Record rconf := mkRconf { rc_force : option bool; rc_256 : bool; rc_16 : bool; rc_tty : bool }.

(** the approximators of the two indexed classes, which remember what they were asked *)
Record rstate := mkRstate { rs_16 : approximator; rs_256 : approximator }.

(** render.py:520-526 [is_sgr_usage_allowed] *)
Definition is_sgr_usage_allowed (cf : rconf) : bool :=
  match rc_force cf with
  | Some true => true
  | None => false
  | Some false => rc_tty cf
  end.

(** render.py:476-494 [_render_attributes], the list before squashing *)
Definition attribute_seqs (s : style) : list sgr :=
  (if truthy (st_blink s) then [[c_BLINK_SLOW]] else []) ++
  (if truthy (st_bold s) then [[c_BOLD]] else []) ++
  (if truthy (st_crosslined s) then [[c_CROSSLINED]] else []) ++
  (if truthy (st_dim s) then [[c_DIM]] else []) ++
  (if truthy (st_double_underlined s) then [[c_DOUBLE_UNDERLINED]] else []) ++
  (if truthy (st_inversed s) then [[c_INVERSED]] else []) ++
  (if truthy (st_italic s) then [[c_ITALIC]] else []) ++
  (if truthy (st_overlined s) then [[c_OVERLINED]] else []) ++
  (if truthy (st_underlined s) then [[c_UNDERLINED]] else []).
Definition render_attributes (cf : rconf) (s : style) : list sgr :=
  if is_sgr_usage_allowed cf then attribute_seqs s else [[]].

Definition with_16 (st : rstate) (r : result pcolor * approximator) : result pcolor * rstate :=
  (fst r, mkRstate (snd r) (rs_256 st)).
Definition with_256 (st : rstate) (r : result pcolor * approximator) : result pcolor * rstate :=
  (fst r, mkRstate (rs_16 st) (snd r)).

(** render.py:496-518 [_render_color] *)
Definition render_color (cf : rconf) (st : rstate) (c : pcolor) (bg : bool) : result sgr * rstate :=
  let via (r : result pcolor * rstate) := (bind (fst r) (fun c => to_sgr c bg), snd r) in
  match hex_value c with
  | None => (Ok [], st)
  | Some h =>
      if negb (is_sgr_usage_allowed cf) then (Ok [], st)
      else match c with
           | ColorRGB _ =>
               if rc_16 cf then via (with_16 st (find_closest (rs_16 st) h))
               else if rc_256 cf then via (with_256 st (find_closest (rs_256 st) h))
               else (to_sgr c bg, st)
           | ColorIndexed256 _ _ =>
               if rc_16 cf then via (with_16 st (find_closest (rs_16 st) h))
               else (to_sgr c bg, st)
           | ColorIndexed16 _ _ _ => (to_sgr c bg, st)
           end
  end.

(** line breaks of [str.splitlines] *)
Definition is_break (c : N) : bool :=
  (10 <=? c) && (c <=? 13) || (28 <=? c) && (c <=? 30) || (c =? 0x85) || (c =? 0x2028) || (c =? 0x2029).

(** [s.splitlines(keepends=True)]; CR LF is one break.  [cur] is the current line in reverse. *)
Fixpoint splitlines_from (cur : str) (s : str) : list str :=
  match s with
  | [] => match cur with [] => [] | _ => [rev cur] end
  | c :: t =>
      if c =? 13 then
        match t with
        | d :: t' => if d =? 10 then rev (10 :: 13 :: cur) :: splitlines_from [] t'
                     else rev (13 :: cur) :: splitlines_from [] t
        | [] => [rev (13 :: cur)]
        end
      else if is_break c then rev (c :: cur) :: splitlines_from [] t
      else splitlines_from (c :: cur) t
  end.
Definition splitlines (s : str) : list str := splitlines_from [] s.

(** the two colors of a style, foreground first *)
Definition render_colors (cf : rconf) (st : rstate) (s : style) : result (sgr * sgr) * rstate :=
  let '(rf, st1) := render_color cf st (st_fg s) false in
  match rf with
  | Err e => (Err e, st1)
  | Ok fg =>
      let '(rb, st2) := render_color cf st1 (st_bg s) true in
      (bind rb (fun bg => Ok (fg, bg)), st2)
  end.

(** render.py:461-474 [SgrRenderer.render] for a str *)
Definition sgr_render (cf : rconf) (st : rstate) (text : str) (s : style) : result str * rstate :=
  let '(r, st') := render_colors cf st s in
  (bind r (fun '(fg, bg) =>
     let opening := sgr_add (sgr_add (concat (render_attributes cf s)) fg) bg in
     Ok (flat_map (span_wrap opening) (splitlines text))), st').

(** * DebugRenderer *)

(** string_filter.py:89-98 [ReplaceSGR(repl)] where the replacement is a text around group 3 *)
Definition replace_sgr (before after : str) (s : str) : str :=
  flat_map (fun e => match e with
                     | Unmatched b => [b]
                     | Matched g _ => before ++ match Regex.group 3 g with Some w => w | None => [] end ++ after
                     end) (re_scan SGR_REGEXP s).

(** render.py:713-727: styles are always used (L725-727); U+01DD marks the parameters *)
Definition debug_conf (cf : rconf) : rconf := mkRconf (Some true) (rc_256 cf) (rc_16 cf) (rc_tty cf).
Definition debug_render (cf : rconf) (st : rstate) (text : str) (s : style) : result str * rstate :=
  let '(r, st') := sgr_render (debug_conf cf) st text s in
  (bind r (fun out => Ok (replace_sgr [124; 0x1DD] [124] out)), st').

(** * TmuxRenderer *)

(** render.py:534-597; keys that occur twice (BLINK_DEFAULT) have the same value *)
Definition SGR_TO_TMUX_MAP : list (sgr * string) := (
  [ ([], ""); ([0], "default");
    ([c_BOLD], "bold"); ([c_DIM], "dim"); ([c_ITALIC], "italics"); ([c_UNDERLINED], "underscore");
    ([c_BLINK_SLOW], "blink"); ([c_BLINK_FAST], "blink"); ([c_INVERSED], "reverse"); ([c_HIDDEN], "hidden");
    ([c_CROSSLINED], "strikethrough"); ([c_DOUBLE_UNDERLINED], "double-underscore"); ([c_OVERLINED], "overline");
    ([c_BOLD_DIM_OFF], "nobold nodim"); ([c_ITALIC_OFF], "noitalics"); ([c_UNDERLINED_OFF], "nounderscore");
    ([c_BLINK_OFF], "noblink"); ([c_INVERSED_OFF], "noreverse"); ([c_HIDDEN_OFF], "nohidden");
    ([c_CROSSLINED_OFF], "nostrikethrough"); ([c_OVERLINED_OFF], "nooverline");
    ([30], "fg=black"); ([31], "fg=red"); ([32], "fg=green"); ([33], "fg=yellow"); ([34], "fg=blue");
    ([35], "fg=magenta"); ([36], "fg=cyan"); ([37], "fg=white"); ([c_COLOR_OFF], "fg=default");
    ([40], "bg=black"); ([41], "bg=red"); ([42], "bg=green"); ([43], "bg=yellow"); ([44], "bg=blue");
    ([45], "bg=magenta"); ([46], "bg=cyan"); ([47], "bg=white"); ([c_BG_COLOR_OFF], "bg=default");
    ([90], "fg=brightblack"); ([91], "fg=brightred"); ([92], "fg=brightgreen"); ([93], "fg=brightyellow");
    ([94], "fg=brightblue"); ([95], "fg=brightmagenta"); ([96], "fg=brightcyan"); ([97], "fg=brightwhite");
    ([100], "bg=brightblack"); ([101], "bg=brightred"); ([102], "bg=brightgreen"); ([103], "bg=brightyellow");
    ([104], "bg=brightblue"); ([105], "bg=brightmagenta"); ([106], "bg=brightcyan"); ([107], "bg=brightwhite") ]
)%string.
Fixpoint tmux_get (k : sgr) (l : list (sgr * string)) : option str :=
  match l with
  | [] => None
  | (k', v) :: t => if eqb_list k k' then Some (txt v) else tmux_get k t
  end.

(** ansi.py:223-227 [is_color_extended] *)
Definition is_color_extended (p : sgr) : bool :=
  match p with
  | c :: _ :: _ :: _ => (c =? c_COLOR_EXTENDED) || (c =? c_BG_COLOR_EXTENDED)
  | _ => false
  end.

(** render.py:616-642 [_sgr_to_tmux_style] for one sequence.  [*sgr.params[2:]] is passed to a function of
    three arguments: a TypeError if there are more or fewer of them. *)
Definition tmux_decl (p : sgr) : result str :=
  if is_color_extended p then
    match p with
    | c :: m :: args =>
        let target := if c =? c_BG_COLOR_EXTENDED then txt "bg" else txt "fg" in
        bind (if m =? c_MODE_256 then Ok (txt "color" ++ dec (nth 0 args 0))
              else if m =? c_MODE_RGB then
                match args with
                | [r; g; b] => Ok ([35] ++ fmt_06x (rgb_channels_to_hex_value (Z.of_N r) (Z.of_N g) (Z.of_N b)))
                | _ => Err TypeError
                end
              else Err ValueError) (fun color =>
        Ok (txt "#[" ++ target ++ [61] ++ color ++ [93]))
    | _ => Ok []
    end
  else match tmux_get p SGR_TO_TMUX_MAP with
       | None => Err LogicError
       | Some [] => Ok []
       | Some d => Ok (txt "#[" ++ d ++ [93])
       end.
Fixpoint tmux_decls (ps : list sgr) : result str :=
  match ps with
  | [] => Ok []
  | p :: t => bind (tmux_decl p) (fun d => bind (tmux_decls t) (fun r => Ok (d ++ r)))
  end.

(** render.py:599-614 [TmuxRenderer.render] *)
Definition tmux_render (cf : rconf) (st : rstate) (text : str) (s : style) : result str * rstate :=
  let '(r, st') := render_colors cf st s in
  (bind r (fun '(fg, bg) =>
     let opening := render_attributes cf s ++ [fg; bg] in
     bind (tmux_decls opening) (fun o =>
     bind (tmux_decls (map closing_seq opening)) (fun c =>
     Ok (flat_map (fun line => o ++ line ++ c) (splitlines text))))), st').

(** * HtmlRenderer *)

(** [set.add], [set.update]; a set is the list of its elements in the order of insertion *)
Definition set_add (x : str) (l : list str) : list str := if existsb (eqb_list x) l then l else l ++ [x].
Definition set_update (xs : list str) (l : list str) : list str := fold_left (fun l x => set_add x l) xs l.

(** the sets of render.py:671-700 in the order of DEFAULT_ATTRS (L668-669), after the swap for
    inversed styles.  [fg.format_value("#")] is only called for colors with a value. *)
Definition html_decls (s : style) : list (string * list str) :=
  let color_set (c : pcolor) := match hex_value c with None => [] | Some _ => [format_value c [35] [126]] end in
  let fg := color_set (st_fg s) in
  let bg := color_set (st_bg s) in
  let '(fg, bg) := if truthy (st_inversed s) then (bg, fg) else (fg, bg) in
  let border := if truthy (st_blink s) then set_update [txt "1px"; txt "dotted"] [] else [] in
  let weight := if truthy (st_bold s) then [txt "700"] else [] in
  let filter := if truthy (st_dim s) then set_update [txt "saturate(0.5)"; txt "brightness(0.75)"] [] else [] in
  let deco := if truthy (st_crosslined s) then [txt "line-through"] else [] in
  let deco := if truthy (st_double_underlined s) then set_update [txt "underline"; txt "double"] deco else deco in
  let fstyle := if truthy (st_italic s) then [txt "italic"] else [] in
  let deco := if truthy (st_overlined s) then set_add (txt "overline") deco else deco in
  let deco := if truthy (st_underlined s) then set_add (txt "underline") deco else deco in
  [ ("color", fg); ("background-color", bg); ("font-weight", weight); ("font-style", fstyle);
    ("text-decoration", deco); ("border", border); ("filter", filter) ]%string.

(** render.py:702-706; [order] is the order in which Python iterates a set *)
Definition html_render (order : list str -> list str) (text : str) (s : style) : str :=
  let class_str := match st_class_name s with None => [] | Some c => txt " class=""" ++ c ++ [34] end in
  let style_str := join (txt "; ")
    (map (fun d => txt (fst d) ++ txt ": " ++ join [32] (order (snd d)))
         (filter (fun d => negb (Nat.eqb (List.length (snd d)) 0)) (html_decls s))) in
  txt "<span" ++ class_str ++ txt " style=""" ++ style_str ++ txt """>" ++ text ++ txt "</span>".

(** * All renderers *)

Inductive renderer := R_sgr | R_tmux | R_noop | R_html | R_debug.

(** the environment: one configuration per class would be possible in Python; here the classes
    share one, as after [SgrRenderer.set_up] *)
Record renv := mkRenv { re_conf : rconf; re_order : list str -> list str }.

Definition render (e : renv) (r : renderer) (st : rstate) (text : str) (s : style) : result str * rstate :=
  match r with
  | R_sgr => sgr_render (re_conf e) st text s
  | R_tmux => tmux_render (re_conf e) st text s
  | R_noop => (Ok text, st)                      (* render.py:645-657 *)
  | R_html => (Ok (html_render (re_order e) text s), st)
  | R_debug => debug_render (re_conf e) st text s
  end.

(** * Text *)

(** what can be passed as a text: a str, an int, None (other objects likewise, by their [str]) *)
Inductive any := A_str (s : str) | A_int (n : Z) | A_none.
Definition py_str (a : any) : str :=
  match a with
  | A_str s => s
  | A_int n => if (n <? 0)%Z then 45 :: dec (Z.to_N (- n)) else dec (Z.to_N n)
  | A_none => txt "None"
  end.
(** [bool(x)] *)
Definition any_truthy (a : any) : bool :=
  match a with A_str s => negb (Nat.eqb (List.length s) 0) | A_int n => negb (n =? 0)%Z | A_none => false end.

(** render.py:163-168 [_TextRun]; the style is kept by reference, styles are not changed here *)
Record trun_obj := mkRun { run_string : str; run_style : option style }.
Inductive style_arg := SA_none | SA_style (s : style) | SA_color (name : str).
Definition new_run (a : any) (sa : style_arg) : result trun_obj :=
  let string := if any_truthy a then py_str a else [] in
  match sa with
  | SA_none => Ok (mkRun string None)
  | SA_style s => Ok (mkRun string (Some s))
  | SA_color n => bind (style_init (mkArgs None (CA_name n) CA_none None None None None None None None None None None))
                       (fun s => Ok (mkRun string (Some s)))
  end.

(** Objects in memory: runs and texts, each identified by its number; a text is the list of the
    runs it refers to, which it may share with other texts (L125, L133) *)
Record heap := mkHeap { hp_runs : list trun_obj; hp_texts : list (list nat) }.
Definition heap0 : heap := mkHeap [] [].

Fixpoint update {A} (i : nat) (x : A) (l : list A) : list A :=
  match i, l with
  | _, [] => []
  | O, _ :: t => x :: t
  | S j, y :: t => y :: update j x t
  end.

(** [str.__format__] with fill, alignment, minimal width and maximal length *)
Inductive align := AL_left | AL_right | AL_center.
Record fmt_spec := mkFmt { fs_fill : N; fs_align : align; fs_width : nat; fs_max : option nat }.
Definition str_format (f : fmt_spec) (s : str) : str :=
  let s := match fs_max f with None => s | Some n => firstn n s end in
  let pad := (fs_width f - List.length s)%nat in
  match fs_align f with
  | AL_left => s ++ repeat (fs_fill f) pad
  | AL_right => repeat (fs_fill f) pad ++ s
  | AL_center => repeat (fs_fill f) (Nat.div2 pad) ++ s ++ repeat (fs_fill f) (pad - Nat.div2 pad)
  end.

(** what a program can do with texts.  [text + x] and [text += x] are [append] (L151-157), so they
    change [text]; [x + text] is [prepend] (L159-161). *)
Inductive text_op :=
| TO_new (a : any) (sa : style_arg)      (* L112-113 *)
| TO_append_str (t : nat) (s : str)      (* L122-123 *)
| TO_append_text (t u : nat)             (* L124-125 *)
| TO_prepend_str (t : nat) (s : str)     (* L130-131 *)
| TO_prepend_text (t u : nat)            (* L132-133 *)
| TO_format (t : nat) (f : fmt_spec).    (* L140-149, L181-183 *)

Definition runs_of (h : heap) (t : nat) : list nat := nth t (hp_texts h) [].

Definition text_step (h : heap) (o : text_op) : result heap :=
  let alloc (r : trun_obj) := mkHeap (hp_runs h ++ [r]) (hp_texts h) in
  let id := List.length (hp_runs h) in
  let put (h' : heap) (t : nat) (l : list nat) := mkHeap (hp_runs h') (update t l (hp_texts h')) in
  match o with
  | TO_new a sa => bind (new_run a sa) (fun r => Ok (mkHeap (hp_runs h ++ [r]) (hp_texts h ++ [[id]])))
  | TO_append_str t s => bind (new_run (A_str s) SA_none) (fun r => Ok (put (alloc r) t (runs_of h t ++ [id])))
  | TO_append_text t u => Ok (put h t (runs_of h t ++ runs_of h u))
  | TO_prepend_str t s => bind (new_run (A_str s) SA_none) (fun r => Ok (put (alloc r) t (id :: runs_of h t)))
  | TO_prepend_text t u => Ok (put h t (runs_of h u ++ runs_of h t))
  | TO_format t f =>
      match runs_of h t with
      | [] => Ok h
      | [i] => match nth_error (hp_runs h) i with
               | Some r => Ok (mkHeap (update i (mkRun (str_format f (run_string r)) (run_style r)) (hp_runs h)) (hp_texts h))
               | None => Ok h
               end
      | _ => Err RuntimeError
      end
  end.

Fixpoint text_steps (h : heap) (os : list text_op) : result heap :=
  match os with
  | [] => Ok h
  | o :: t => bind (text_step h o) (fun h' => text_steps h' t)
  end.

Definition text_runs (h : heap) (t : nat) : list trun_obj :=
  flat_map (fun i => match nth_error (hp_runs h) i with Some r => [r] | None => [] end) (runs_of h t).

(** render.py:118-119 [raw], 137-138 [__len__] *)
Definition text_raw (h : heap) (t : nat) : str := flat_map run_string (text_runs h t).
Definition text_len (h : heap) (t : nat) : nat := fold_right Nat.add 0%nat (map (fun r => List.length (run_string r)) (text_runs h t)).

(** render.py:170-173 and 115-116: rendering a run, rendering a text *)
Definition render_run (e : renv) (k : renderer) (st : rstate) (r : trun_obj) : result str * rstate :=
  match run_style r with
  | None => (Ok (run_string r), st)
  | Some s => render e k st (run_string r) s
  end.
Fixpoint render_runs (e : renv) (k : renderer) (st : rstate) (rs : list trun_obj) : result str * rstate :=
  match rs with
  | [] => (Ok [], st)
  | r :: t =>
      let '(r1, st1) := render_run e k st r in
      match r1 with
      | Err x => (Err x, st1)
      | Ok s1 => let '(r2, st2) := render_runs e k st1 t in (bind r2 (fun s2 => Ok (s1 ++ s2)), st2)
      end
  end.
Definition text_render (e : renv) (k : renderer) (st : rstate) (h : heap) (t : nat) : result str * rstate :=
  render_runs e k st (text_runs h t).
