(** [textwrap.wrap(text, width)] of Python 3.11 (textwrap.py), which argparse uses for the
    descriptions of options.  Letters and digits are those of ASCII: the texts wrapped contain no
    others.  Tabs are not expanded: argparse replaces white space by single blanks first. *)
From Coq Require Import List NArith ZArith Bool.
From Verif.Model Require Import Base.
Import ListNotations.
Local Open Scope N_scope.

(** the character classes of [wordsep_re] *)
Definition w_space (c : N) : bool := (9 <=? c) && (c <=? 13) || (c =? 32).
Definition w_word (c : N) : bool :=
  (48 <=? c) && (c <=? 57) || (65 <=? c) && (c <=? 90) || (97 <=? c) && (c <=? 122) || (c =? 95).
Definition w_letter (c : N) : bool := w_word c && negb ((48 <=? c) && (c <=? 57)).
Definition w_punct (c : N) : bool := w_word c || existsb (N.eqb c) [33; 34; 39; 38; 46; 44; 63].
Definition w_hyphen (c : N) : bool := c =? 45.

(** [-{2,}(?=\w)]: the number of hyphens *)
Fixpoint hyphens (s : str) : nat * str :=
  match s with
  | c :: r => if w_hyphen c then (let '(n, t) := hyphens r in (S n, t)) else (O, s)
  | [] => (O, [])
  end.
Definition dash (s : str) : option nat :=
  match hyphens s with
  | (n, c :: _) => if (2 <=? n)%nat && w_word c then Some n else None
  | (_, []) => None
  end.
(** the lookbehinds read [before], the characters passed so far, the last one first *)
Definition after_punct (before : str) : bool := match before with c :: _ => w_punct c | [] => false end.
Definition after_part (before : str) : bool :=
  match before with
  | a :: b :: r => w_letter a && (w_letter b || w_hyphen b && match r with c :: _ => w_letter c | [] => false end)
  | _ => false
  end.
Definition before_part (s : str) : bool :=
  match s with
  | a :: b :: r => w_letter a && (w_letter b || w_hyphen b && match r with c :: _ => w_letter c | [] => false end)
  | _ => false
  end.
(** how many more characters belong to a word of which at least one was read *)
Fixpoint word_rest (before s : str) : nat :=
  match s with
  | [] => O
  | c :: r =>
      if w_hyphen c && after_part before && before_part r then 1%nat
      else if w_space c then O
      else if after_punct before && (match dash s with Some _ => true | None => false end) then O
      else S (word_rest (c :: before) r)
  end.
Fixpoint spaces (s : str) : nat := match s with c :: r => if w_space c then S (spaces r) else O | [] => O end.
(** length of the match of [wordsep_re] at the beginning of [s] *)
Definition piece (before s : str) : nat :=
  match s with
  | [] => O
  | c :: r =>
      if w_space c then spaces s
      else match (if after_punct before then dash s else None) with
           | Some n => n
           | None => S (word_rest (c :: before) r)
           end
  end.
(** textwrap.py:161-187 [_split] *)
Fixpoint pieces (fuel : nat) (before s : str) : list str :=
  match fuel, s with
  | O, _ | _, [] => []
  | S fuel, _ => let n := piece before s in firstn n s :: pieces fuel (rev (firstn n s) ++ before) (skipn n s)
  end.
Definition split_pieces (s : str) : list str := pieces (length s) [] s.

(** [chunk.strip() == ''] *)
Definition blank (p : str) : bool := forallb w_space p.

(** [chunk.rfind('-', 0, n)] *)
Fixpoint rfind_hyphen (s : str) (i : nat) (found : option nat) : option nat :=
  match s with
  | [] => found
  | c :: r => rfind_hyphen r (S i) (if w_hyphen c then Some i else found)
  end.
(** textwrap.py:208-236 [_handle_long_word]: where the chunk is cut *)
Definition cut (space_left : nat) (p : str) : nat :=
  if (space_left <? length p)%nat then
    match rfind_hyphen (firstn space_left p) 0 None with
    | Some h => if existsb (fun c => negb (w_hyphen c)) (firstn h p) then S h else space_left
    | None => space_left
    end
  else space_left.

(** textwrap.py:280-290: the chunks that fit *)
Fixpoint fitting (width cur : nat) (l : list str) : list str * list str :=
  match l with
  | [] => ([], [])
  | p :: r => if (cur + length p <=? width)%nat then let '(a, b) := fitting width (cur + length p) r in (p :: a, b)
              else ([], l)
  end.
(** textwrap.py:296-301 *)
Definition drop_last_blank (l : list str) : list str :=
  match rev l with p :: r => if blank p then rev r else l | [] => l end.
(** textwrap.py:238-331 [_wrap_chunks] with [max_lines = None] and without indents, [width > 0] *)
Fixpoint wrap_pieces (fuel : nat) (width : nat) (first : bool) (l : list str) : list str :=
  match fuel, l with
  | O, _ | _, [] => []
  | S fuel, p :: r =>
      let l := if blank p && negb first then r else l in
      let '(line, rest) := fitting width 0 l in
      let '(line, rest) :=
        match rest with
        | q :: t => if (width <? length q)%nat
                    then let e := cut (width - length (concat line)) q in (line ++ [firstn e q], skipn e q :: t)
                    else (line, rest)
        | [] => (line, rest)
        end in
      match drop_last_blank line with
      | [] => wrap_pieces fuel width first rest
      | line => concat line :: wrap_pieces fuel width false rest
      end
  end.
Definition wrap (width : nat) (s : str) : list str := wrap_pieces (S (2 * length s)) width true (split_pieces s).
