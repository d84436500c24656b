(** Specification side: how tmux reads a status text.  Written from tmux(1), section STYLES, and
    the rules of its style parser, independently of the code under study.  [#[...]] changes the
    current style by a list of words separated by blanks or commas (not at all if one of them is
    unknown), [##] stands for one [#]; any other use of [#] is a format and is not text. *)
From Coq Require Import Ascii String.
From Coq Require Import List NArith Bool.
From Verif.Spec Require Import Numbers Terminal.
Import ListNotations.
Local Open Scope N_scope.

(** every attribute is a flag of its own; [underscore] and [double-underscore] are two *)
Record xattrs := mkX {
  x_fg : color; x_bg : color;
  x_bold : bool; x_dim : bool; x_italics : bool; x_underscore : bool; x_double : bool; x_blink : bool;
  x_reverse : bool; x_hidden : bool; x_strike : bool; x_over : bool
}.
Definition xattrs0 : xattrs := mkX ColDefault ColDefault false false false false false false false false false false.

Definition chars (x : string) : list N := map N_of_ascii (list_ascii_of_string x).
Fixpoint same_chars (a b : list N) : bool :=
  match a, b with
  | [], [] => true
  | x :: a', y :: b' => (x =? y) && same_chars a' b'
  | _, _ => false
  end.
Fixpoint after_prefix (p s : list N) : option (list N) :=
  match p, s with
  | [], _ => Some s
  | x :: p', y :: s' => if x =? y then after_prefix p' s' else None
  | _, [] => None
  end.
Definition is_word (w : list N) (x : string) : bool := same_chars w (chars x).

Definition color_words : list (string * N) := (
  [("black", 0); ("red", 1); ("green", 2); ("yellow", 3); ("blue", 4); ("magenta", 5); ("cyan", 6); ("white", 7);
   ("brightblack", 8); ("brightred", 9); ("brightgreen", 10); ("brightyellow", 11); ("brightblue", 12);
   ("brightmagenta", 13); ("brightcyan", 14); ("brightwhite", 15)])%string.

Definition indexed (digits : list N) : option color :=
  match read_number 10 digits with Some n => if n <? 256 then Some (ColIdx n) else None | None => None end.
Definition xcolor (w : list N) : option color :=
  if is_word w "default" then Some ColDefault
  else match after_prefix (chars "#") w with
  | Some d =>
      if Nat.eqb (List.length d) 6 then
        match read_number 16 d with
        | Some v => Some (ColRgb (v / 65536) (v / 256 mod 256) (v mod 256))
        | None => None
        end
      else None
  | None =>
  match after_prefix (chars "colour") w with
  | Some d => indexed d
  | None =>
  match after_prefix (chars "color") w with
  | Some d => indexed d
  | None => option_map (fun p => ColIdx (snd p)) (find (fun p => is_word w (fst p)) color_words)
  end end end.

(** switch an attribute by its name *)
Definition xattr (w : list N) (v : bool) (a : xattrs) : option xattrs :=
  let '(mkX fg bg bo di it un dou bl re hi st ov) := a in
  if is_word w "bold" || is_word w "bright" then Some (mkX fg bg v di it un dou bl re hi st ov)
  else if is_word w "dim" then Some (mkX fg bg bo v it un dou bl re hi st ov)
  else if is_word w "italics" then Some (mkX fg bg bo di v un dou bl re hi st ov)
  else if is_word w "underscore" then Some (mkX fg bg bo di it v dou bl re hi st ov)
  else if is_word w "double-underscore" then Some (mkX fg bg bo di it un v bl re hi st ov)
  else if is_word w "blink" then Some (mkX fg bg bo di it un dou v re hi st ov)
  else if is_word w "reverse" then Some (mkX fg bg bo di it un dou bl v hi st ov)
  else if is_word w "hidden" then Some (mkX fg bg bo di it un dou bl re v st ov)
  else if is_word w "strikethrough" then Some (mkX fg bg bo di it un dou bl re hi v ov)
  else if is_word w "overline" then Some (mkX fg bg bo di it un dou bl re hi st v)
  else None.

Definition xset (bg : bool) (x : color) (a : xattrs) : xattrs :=
  let '(mkX f b bo di it un dou bl re hi st ov) := a in
  if bg then mkX f x bo di it un dou bl re hi st ov else mkX x b bo di it un dou bl re hi st ov.

Definition xword (w : list N) (a : xattrs) : option xattrs :=
  if is_word w "default" then Some xattrs0
  else match after_prefix (chars "fg=") w with
  | Some c => option_map (fun x => xset false x a) (xcolor c)
  | None =>
  match after_prefix (chars "bg=") w with
  | Some c => option_map (fun x => xset true x a) (xcolor c)
  | None =>
  match after_prefix (chars "no") w with
  | Some n => xattr n false a
  | None => xattr w true a
  end end end.

(** words between blanks and commas; [cur] is the current word in reverse *)
Fixpoint words (cur : list N) (s : list N) : list (list N) :=
  match s with
  | [] => match cur with [] => [] | _ => [rev cur] end
  | c :: t => if (c =? 32) || (c =? 44)
              then match cur with [] => words [] t | _ => rev cur :: words [] t end
              else words (c :: cur) t
  end.
Fixpoint xwords (ws : list (list N)) (a : xattrs) : option xattrs :=
  match ws with
  | [] => Some a
  | w :: t => match xword w a with Some a' => xwords t a' | None => None end
  end.
Definition xstyle (s : list N) (a : xattrs) : xattrs := match xwords (words [] s) a with Some a' => a' | None => a end.

Inductive xcell := XGlyph (c : N) (a : xattrs) | XLost (c : N).
Inductive xstate := XGround | XHash | XIn (acc : list N).
Definition xstep (st : xstate) (a : xattrs) (c : N) : xstate * xattrs * list xcell :=
  match st with
  | XGround => if c =? 35 then (XHash, a, []) else (XGround, a, [XGlyph c a])
  | XHash => if c =? 91 then (XIn [], a, [])
             else if c =? 35 then (XGround, a, [XGlyph 35 a]) else (XGround, a, [XLost c])
  | XIn acc => if c =? 93 then (XGround, xstyle acc a, []) else (XIn (acc ++ [c]), a, [])
  end.
Fixpoint xrun (st : xstate) (a : xattrs) (s : list N) : xstate * xattrs * list xcell :=
  match s with
  | [] => (st, a, [])
  | c :: t =>
      let '(st1, a1, l1) := xstep st a c in
      let '(st2, a2, l2) := xrun st1 a1 t in
      (st2, a2, l1 ++ l2)
  end.
Definition tmux_shows (s : list N) (cells : list xcell) (final : xattrs) : Prop :=
  xrun XGround xattrs0 s = (XGround, final, cells).
