(** Specification side: what a terminal does with a text.  Written from ECMA-48 / xterm
    conventions, independently of the code under study.  A terminal consumes characters one
    by one; complete SGR control sequences change the current attributes, visible characters
    (and tab, line feed) are displayed with the current attributes, anything else - other
    control characters, other escape sequences, incomplete ones - is a leak. *)
From Coq Require Import List NArith Bool.
Import ListNotations.
Local Open Scope N_scope.

Inductive color := ColDefault | ColIdx (n : N) | ColRgb (r g b : N).

Record attrs := mkAttrs {
  a_fg : color; a_bg : color;
  a_bold : bool; a_dim : bool; a_italic : bool;
  a_under : N;   (* 0 none, 1 single, 2 double *)
  a_blink : N;   (* 0 none, 1 slow, 2 fast *)
  a_inverse : bool; a_hidden : bool; a_cross : bool; a_over : bool
}.
Definition attrs0 : attrs := mkAttrs ColDefault ColDefault false false false 0 0 false false false false.

Definition set_fg x a := mkAttrs x (a_bg a) (a_bold a) (a_dim a) (a_italic a) (a_under a) (a_blink a) (a_inverse a) (a_hidden a) (a_cross a) (a_over a).
Definition set_bg x a := mkAttrs (a_fg a) x (a_bold a) (a_dim a) (a_italic a) (a_under a) (a_blink a) (a_inverse a) (a_hidden a) (a_cross a) (a_over a).
Definition set_bold x a := mkAttrs (a_fg a) (a_bg a) x (a_dim a) (a_italic a) (a_under a) (a_blink a) (a_inverse a) (a_hidden a) (a_cross a) (a_over a).
Definition set_dim x a := mkAttrs (a_fg a) (a_bg a) (a_bold a) x (a_italic a) (a_under a) (a_blink a) (a_inverse a) (a_hidden a) (a_cross a) (a_over a).
Definition set_italic x a := mkAttrs (a_fg a) (a_bg a) (a_bold a) (a_dim a) x (a_under a) (a_blink a) (a_inverse a) (a_hidden a) (a_cross a) (a_over a).
Definition set_under x a := mkAttrs (a_fg a) (a_bg a) (a_bold a) (a_dim a) (a_italic a) x (a_blink a) (a_inverse a) (a_hidden a) (a_cross a) (a_over a).
Definition set_blink x a := mkAttrs (a_fg a) (a_bg a) (a_bold a) (a_dim a) (a_italic a) (a_under a) x (a_inverse a) (a_hidden a) (a_cross a) (a_over a).
Definition set_inverse x a := mkAttrs (a_fg a) (a_bg a) (a_bold a) (a_dim a) (a_italic a) (a_under a) (a_blink a) x (a_hidden a) (a_cross a) (a_over a).
Definition set_hidden x a := mkAttrs (a_fg a) (a_bg a) (a_bold a) (a_dim a) (a_italic a) (a_under a) (a_blink a) (a_inverse a) x (a_cross a) (a_over a).
Definition set_cross x a := mkAttrs (a_fg a) (a_bg a) (a_bold a) (a_dim a) (a_italic a) (a_under a) (a_blink a) (a_inverse a) (a_hidden a) x (a_over a).
Definition set_over x a := mkAttrs (a_fg a) (a_bg a) (a_bold a) (a_dim a) (a_italic a) (a_under a) (a_blink a) (a_inverse a) (a_hidden a) (a_cross a) x.

Definition between (lo c hi : N) : bool := (lo <=? c) && (c <=? hi).

(** a single SGR code; unknown codes (and 38/48 without arguments) are ignored *)
Definition sgr_code (c : N) (a : attrs) : attrs :=
  if c =? 0 then attrs0
  else if c =? 1 then set_bold true a
  else if c =? 2 then set_dim true a
  else if c =? 3 then set_italic true a
  else if c =? 4 then set_under 1 a
  else if c =? 5 then set_blink 1 a
  else if c =? 6 then set_blink 2 a
  else if c =? 7 then set_inverse true a
  else if c =? 8 then set_hidden true a
  else if c =? 9 then set_cross true a
  else if c =? 21 then set_under 2 a
  else if c =? 22 then set_bold false (set_dim false a)
  else if c =? 23 then set_italic false a
  else if c =? 24 then set_under 0 a
  else if c =? 25 then set_blink 0 a
  else if c =? 27 then set_inverse false a
  else if c =? 28 then set_hidden false a
  else if c =? 29 then set_cross false a
  else if between 30 c 37 then set_fg (ColIdx (c - 30)) a
  else if c =? 39 then set_fg ColDefault a
  else if between 40 c 47 then set_bg (ColIdx (c - 40)) a
  else if c =? 49 then set_bg ColDefault a
  else if c =? 53 then set_over true a
  else if c =? 55 then set_over false a
  else if between 90 c 97 then set_fg (ColIdx (c - 90 + 8)) a
  else if between 100 c 107 then set_bg (ColIdx (c - 100 + 8)) a
  else a.

(** a parameter list, with extended colors 38/48;5;n and 38/48;2;r;g;b *)
Fixpoint sgr_apply (p : list N) (a : attrs) : attrs :=
  match p with
  | [] => a
  | c :: t =>
      if (c =? 38) || (c =? 48) then
        let set := if c =? 38 then set_fg else set_bg in
        match t with
        | m :: n :: t2 =>
            if m =? 5 then sgr_apply t2 (set (ColIdx n) a)
            else match t2 with
                 | g :: b :: t4 => if m =? 2 then sgr_apply t4 (set (ColRgb n g b) a)
                                   else sgr_apply t a
                 | _ => sgr_apply t a
                 end
        | _ => sgr_apply t a
        end
      else sgr_apply t (sgr_code c a)
  end.

(** parameter string of a control sequence: numbers separated by ';', missing ones are 0 *)
Fixpoint csi_params (s : list N) (cur : N) : list N :=
  match s with
  | [] => [cur]
  | c :: t => if c =? 59 then cur :: csi_params t 0 else csi_params t (cur * 10 + (c - 48))
  end.

Inductive cell := Glyph (c : N) (a : attrs) | Leak (c : N).

(** can be displayed: not C0 (except tab and line feed), DEL, C1, and a character at all, that is
    neither one half of a surrogate pair nor beyond the last code point *)
Definition displayable (c : N) : bool :=
  (c =? 9) || (c =? 10)
  || ((32 <=? c) && negb (c =? 127) && negb (between 128 c 159) && negb (between 0xD800 c 0xDFFF) && (c <? 0x110000)).

Inductive tstate := Ground | AfterEsc | InCsi (acc : list N).

Definition tstep (st : tstate) (a : attrs) (c : N) : tstate * attrs * list cell :=
  match st with
  | Ground =>
      if c =? 27 then (AfterEsc, a, [])
      else if displayable c then (Ground, a, [Glyph c a])
      else (Ground, a, [Leak c])
  | AfterEsc => if c =? 91 then (InCsi [], a, []) else (Ground, a, [Leak c])
  | InCsi acc =>
      if between 48 c 57 || (c =? 59) then (InCsi (acc ++ [c]), a, [])
      else if c =? 109 then (Ground, sgr_apply (csi_params acc 0) a, [])
      else (Ground, a, [Leak c])
  end.

Fixpoint trun (st : tstate) (a : attrs) (s : list N) : tstate * attrs * list cell :=
  match s with
  | [] => (st, a, [])
  | c :: t =>
      let '(st1, a1, l1) := tstep st a c in
      let '(st2, a2, l2) := trun st1 a1 t in
      (st2, a2, l1 ++ l2)
  end.

(** Everything displayed for a text sent to a terminal in its initial state; a text ending in
    the middle of an escape sequence leaks, too. *)
Definition screen (s : list N) : list cell :=
  let '(st, _, l) := trun Ground attrs0 s in
  match st with Ground => l | _ => l ++ [Leak 27] end.

Definition cell_char (x : cell) : N := match x with Glyph c _ => c | Leak c => c end.
Definition is_leak (x : cell) : bool := match x with Leak _ => true | Glyph _ _ => false end.

(** the text a user sees *)
Definition visible (s : list N) : list N := map cell_char (screen s).
(** nothing but displayable characters and complete SGR sequences *)
Definition clean (s : list N) : Prop := forallb (fun x => negb (is_leak x)) (screen s) = true.
(** attributes after the text *)
Definition final_attrs (s : list N) : attrs := let '(_, a, _) := trun Ground attrs0 s in a.
