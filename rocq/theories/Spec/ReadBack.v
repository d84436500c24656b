(** Reading the input off the screen of text mode with full details (-m 2): an explicit procedure
    for somebody who looks at the screen.  It does not know the settings. *)
From Coq Require Import List NArith ZArith Bool.
From Verif.Model Require Import Base Settings.
From Verif.Spec Require Import Numbers Terminal Utf8 Lexical Display Output.
Import ListNotations.
Local Open Scope N_scope.

Definition under (x : cell) : bool := match x with Glyph _ a => negb (a_under a =? 0) | Leak _ => false end.
Definition next_under (l : list cell) : bool := match l with x :: _ => under x | [] => false end.
Definition hex_value (c : N) : N := if c <? 58 then c - 48 else c - 87.
Definition colored (a : attrs) (n : N) : bool := match a_fg a with ColIdx i => i =? n | _ => false end.
Definition backed (a : attrs) (n : N) : bool := match a_bg a with ColIdx i => i =? n | _ => false end.

(** signs of single bytes *)
Definition sign_bytes (c : N) : list N :=
  match find (fun x => fst x =? c)
    [(0xD8, 0); (0x2190, 8); (0x2192, 127); (0x220C, 27); (0x21E5, 9); (0x21B5, 10); (0x2913, 11); (0x21A1, 12); (0x21E4, 13); (0x2423, 32); (0xB7, 32)] with
  | Some (_, b) => [b]
  | None => []
  end.
(** what a character stands for by itself: bright blue ones are those of UTF-8 sequences; gray
    ones, or black on white, are printable; the rest are signs, or belong to the frame *)
Definition stands_for (c : N) (a : attrs) : list N :=
  if colored a 12 then utf8_encode c
  else if (colored a 102 || (colored a 0 && backed a 7))%bool then [c]
  else sign_bytes c.

(** what is expected after the sign for control characters: two hexadecimal digits *)
Inductive waiting := W_none | W_high | W_low (h : N).

(** underlined characters are the bytes of an escape sequence, the character before them stands
    for ESC; or they are the two digits of a control character *)
Fixpoint read_back (w : waiting) (l : list cell) : list N :=
  match l with
  | [] => []
  | Leak c :: t => utf8_encode c ++ read_back W_none t
  | Glyph c a :: t =>
      match w with
      | W_high => read_back (W_low (hex_value c)) t
      | W_low h => (16 * h + hex_value c) :: read_back W_none t
      | W_none =>
          if under (Glyph c a) then c :: read_back W_none t
          else if next_under t then (if c =? 0x2C6F then read_back W_high t else 27 :: read_back W_none t)
          else stands_for c a ++ read_back W_none t
      end
  end.

(** no stray bytes above 127; nothing ignored; the details of the last piece are shown (C12) *)
Definition no_stray (toks : list token) : Prop := Forall (fun t => tok_kind t <> K_binary) toks.
Definition none_ignored (s : settings) (toks : list token) : Prop := Forall (fun t => s_ignore s (class_of (tok_kind t)) = false) toks.
Definition last_told (toks : list token) : Prop := match rev toks with t :: _ => tok_kind t <> K_run R_control | [] => True end.
