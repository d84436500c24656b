(** Specification side: how a browser reads a fragment of HTML.  Written from the HTML and CSS
    standards, for elements with quoted attributes and the few properties needed, independently
    of the code under study.  [<] starts a tag, [&] a character reference, which is not the
    character that was written. *)
From Coq Require Import Ascii String.
From Coq Require Import List NArith ZArith Bool.
From Verif.Spec Require Import Numbers Tmux.
Import ListNotations.
Local Open Scope N_scope.

(** what a character looks like *)
Record hlook := mkH {
  h_fg : option Z; h_bg : option Z; h_bold : bool; h_italic : bool;
  h_under : bool; h_over : bool; h_through : bool; h_double : bool;  (* lines, and whether they are double *)
  h_boxed : bool;                                                     (* in a dotted box *)
  h_faint : bool
}.
Definition hlook0 : hlook := mkH None None false false false false false false false false.

(** the parts between separators *)
Fixpoint parts (sep : N) (cur : list N) (s : list N) : list (list N) :=
  match s with
  | [] => [rev cur]
  | c :: t => if c =? sep then rev cur :: parts sep [] t else parts sep (c :: cur) t
  end.
(** words between blanks *)
Definition blank_words (s : list N) : list (list N) := filter (fun w => match w with [] => false | _ => true end) (parts 32 [] s).

Definition has (x : string) (ws : list (list N)) : bool := existsb (fun w => is_word w x) ws.
Definition hex_color (w : list N) : option Z :=
  match after_prefix (chars "#") w with
  | Some d => if Nat.eqb (List.length d) 6 then option_map Z.of_N (read_number 16 d) else None
  | None => None
  end.

(** one declaration [property: words] *)
Definition css_set (p : list N) (ws : list (list N)) (l : hlook) : hlook :=
  let '(mkH fg bg bo it un ov th dou box fa) := l in
  if is_word p "color" then
    match ws with
    | [w] => match hex_color w with Some v => mkH (Some v) bg bo it un ov th dou box fa | None => l end
    | _ => l
    end
  else if is_word p "background-color" then
    match ws with
    | [w] => match hex_color w with Some v => mkH fg (Some v) bo it un ov th dou box fa | None => l end
    | _ => l
    end
  else if is_word p "font-weight" then
    match ws with [w] => if is_word w "700" || is_word w "bold" then mkH fg bg true it un ov th dou box fa else l | _ => l end
  else if is_word p "font-style" then
    match ws with [w] => if is_word w "italic" then mkH fg bg bo true un ov th dou box fa else l | _ => l end
  else if is_word p "text-decoration" then
    if forallb (fun w => is_word w "underline" || is_word w "overline" || is_word w "line-through" || is_word w "double") ws
    then mkH fg bg bo it (has "underline" ws) (has "overline" ws) (has "line-through" ws) (has "double" ws) box fa
    else l
  else if is_word p "border" then
    if Nat.eqb (List.length ws) 2 && has "1px" ws && has "dotted" ws then mkH fg bg bo it un ov th dou true fa else l
  else if is_word p "filter" then
    if Nat.eqb (List.length ws) 2 && has "saturate(0.5)" ws && has "brightness(0.75)" ws
    then mkH fg bg bo it un ov th dou box true else l
  else l.

(** a declaration is split at its first colon *)
Fixpoint at_colon (cur : list N) (s : list N) : option (list N * list N) :=
  match s with
  | [] => None
  | c :: t => if c =? 58 then Some (rev cur, t) else at_colon (c :: cur) t
  end.
Definition css_decl (l : hlook) (d : list N) : hlook :=
  match at_colon [] d with
  | Some (p, v) => match blank_words p with [p'] => css_set p' (blank_words v) l | _ => l end
  | None => l
  end.
Definition css (s : list N) (l : hlook) : hlook := fold_left css_decl (parts 59 [] s) l.

(** the attribute [style] of an element; [attrs] has the text before each quoted value *)
Fixpoint style_attr (attrs : list (list N * list N)) : list N :=
  match attrs with
  | [] => []
  | (n, v) :: t => if is_word (last (blank_words n) []) "style=" then v else style_attr t
  end.

Inductive hcell := HGlyph (c : N) (l : hlook) | HLost.
(** in text; in a tag, outside and inside quotes *)
Inductive hstate := HText | HIn (acc : list N) (attrs : list (list N * list N)) | HVal (name acc : list N) (attrs : list (list N * list N)).

(** the open elements, innermost first *)
Definition open_tag (acc : list N) (attrs : list (list N * list N)) (stack : list hlook) : list hlook :=
  match acc, attrs with
  | 47 :: _, [] => tl stack
  | _, _ => css (style_attr attrs) (hd hlook0 stack) :: stack
  end.
Definition hstep (st : hstate) (stack : list hlook) (c : N) : hstate * list hlook * list hcell :=
  match st with
  | HText => if c =? 60 then (HIn [] [], stack, [])
             else if c =? 38 then (HText, stack, [HLost])
             else (HText, stack, [HGlyph c (hd hlook0 stack)])
  | HIn acc attrs => if c =? 34 then (HVal acc [] attrs, stack, [])
                     else if c =? 62 then (HText, open_tag acc attrs stack, [])
                     else (HIn (acc ++ [c]) attrs, stack, [])
  | HVal n acc attrs => if c =? 34 then (HIn [] (attrs ++ [(n, acc)]), stack, []) else (HVal n (acc ++ [c]) attrs, stack, [])
  end.
Fixpoint hrun (st : hstate) (stack : list hlook) (s : list N) : hstate * list hlook * list hcell :=
  match s with
  | [] => (st, stack, [])
  | c :: t =>
      let '(st1, k1, l1) := hstep st stack c in
      let '(st2, k2, l2) := hrun st1 k1 t in
      (st2, k2, l1 ++ l2)
  end.
(** the fragment is complete, all elements are closed, and it shows these characters *)
Definition html_shows (s : list N) (cells : list hcell) : Prop := hrun HText [] s = (HText, [], cells).
