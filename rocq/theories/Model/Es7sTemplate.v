(** dev/es7s_tpl_processor.py: filling in templates with formats and variables. *)
From Coq Require Import Ascii String.
From Coq Require Import List NArith ZArith Bool.
From Verif.Model Require Import Base Ansi Regex Filters Render Messages Args SgrNames.
Import ListNotations.
Local Open Scope N_scope.

(** What is needed of Unicode: the characters of words ([\w]: letters, digits, underscore), never
    white space, and capital forms.  [\s] and [\d] are those of Filters.v and Args.v. *)
Record unicode := mkUnicode { u_word : N -> bool; u_upper : N -> str }.
Definition is_space (c : N) : bool := in_cls SPACES c.
Definition is_decimal (c : N) : bool := match digit_value c with Some _ => true | None => false end.

(** L26 [#{}(.*?){}#]: what follows the nearest end of a comment on the same line *)
Fixpoint comment_end (s : str) : option str :=
  match s with
  | [] => None
  | c :: t =>
      match s with
      | 123 :: 125 :: 35 :: r => Some r
      | _ => if c =? 10 then None else comment_end t
      end
  end.
Definition comment_at (s : str) : option str :=
  match s with 35 :: 123 :: 125 :: t => comment_end t | _ => None end.
(** the first argument bounds the recursion; the length of the text is enough *)
Fixpoint no_comments (fuel : nat) (s : str) : str :=
  match fuel, s with
  | O, _ | _, [] => []
  | S fuel, c :: t => match comment_at s with Some r => no_comments fuel r | None => c :: no_comments fuel t end
  end.

(** the longest beginning of characters with a property *)
Fixpoint take_while (p : N -> bool) (s : str) : str :=
  match s with c :: t => if p c then c :: take_while p t else [] | [] => [] end.
Fixpoint drop_while (p : N -> bool) (s : str) : str :=
  match s with c :: t => if p c then drop_while p t else s | [] => [] end.
(** [{\s* (X* ) \s*}] where X and [\s] have nothing in common: group 1, the text of the match, what
    follows *)
Definition braces (x : N -> bool) (s : str) : option (str * str * str) :=
  match s with
  | 123 :: t =>
      let t1 := drop_while is_space t in
      let w := take_while x t1 in
      match drop_while is_space (drop_while x t1) with
      | 125 :: r => Some (w, firstn (List.length s - List.length r) s, r)
      | _ => None
      end
  | _ => None
  end.
(** L27 [\^{\s*([\w;]* )\s*}] *)
Definition fmt_at (u : unicode) (s : str) : option (str * str * str) :=
  match s with
  | 94 :: t => match braces (fun c => u_word u c || (c =? 59)) t with Some (w, m, r) => Some (w, 94 :: m, r) | None => None end
  | _ => None
  end.
(** L28 [:{\s*(\w+)\s*}] *)
Definition var_at (u : unicode) (s : str) : option (str * str * str) :=
  match s with
  | 58 :: t =>
      match braces (u_word u) t with
      | Some ([], _, _) | None => None
      | Some (w, m, r) => Some (w, 58 :: m, r)
      end
  | _ => None
  end.

(** L54-57 [_try_int] *)
Definition try_int (p : str) : result sgr_arg :=
  match p with
  | [] => Ok (SA_name p)
  | _ => if forallb is_decimal p
         then match unsigned_int p with Some n => Ok (SA_int (Z.of_N n)) | None => Err ValueError end
         else Ok (SA_name p)
  end.
Fixpoint all_ok {A B} (f : A -> result B) (l : list A) : result (list B) :=
  match l with
  | [] => Ok []
  | x :: t => bind (f x) (fun y => bind (all_ok f t) (fun ys => Ok (y :: ys)))
  end.

(** What a replacement does: the text put in, and the warnings printed *)
Definition answer := result (str * list str).
(** L36-45 [_resolve_fmt_match] *)
Definition resolve_fmt (u : unicode) (w m : str) : answer :=
  match w with
  | [] => Ok (assemble [0], [])
  | _ =>
      bind (all_ok try_int (split_on 59 w)) (fun params =>
        match sequence_sgr (u_upper u) params with
        | Ok p => Ok (assemble p, [])
        | Err KeyError => Ok (m, [txt "Unable to substitute format from """ ++ w ++ txt """"])
        | Err e => Err e
        end)
  end.
(** L47-52 [_resolve_var_match]; the values are given as [str()] shows them *)
Fixpoint lookup (k : str) (l : list (str * str)) : option str :=
  match l with [] => None | (k', v) :: t => if eqb_list k k' then Some v else lookup k t end.
Definition resolve_var (vars : list (str * str)) (w m : str) : answer :=
  match lookup w vars with
  | Some v => Ok (v, [])
  | None => Ok (m, [txt "Variable """ ++ w ++ txt """ is undefined"])
  end.

(** [re.sub] with a function *)
Fixpoint sub_with (fuel : nat) (at_ : str -> option (str * str * str)) (f : str -> str -> answer) (s : str) : answer :=
  match fuel, s with
  | O, _ | _, [] => Ok ([], [])
  | S fuel, c :: t =>
      match at_ s with
      | Some (w, m, r) => bind (f w m) (fun x => bind (sub_with fuel at_ f r) (fun y => Ok (fst x ++ fst y, snd x ++ snd y)))
      | None => bind (sub_with fuel at_ f t) (fun y => Ok (c :: fst y, snd y))
      end
  end.

(** L31-34 [substitute]: the filters one after another; [vars]: the variables given, or the former
    ones if none are given *)
Definition substitute_template (u : unicode) (vars : list (str * str)) (s : str) : answer :=
  let s1 := no_comments (List.length s) s in
  bind (sub_with (List.length s1) (fmt_at u) (resolve_fmt u) s1) (fun '(s2, w2) =>
  bind (sub_with (List.length s2) (var_at u) (resolve_var vars) s2) (fun '(s3, w3) =>
    Ok (s3, w2 ++ w3))).
