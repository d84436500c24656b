(** pytermor/util/string_filter.py: filters of strings, and pytermor/util/__init__.py
    [format_thousand_sep] *)
From Coq Require Import List Arith NArith ZArith Bool.
From Verif.Model Require Import Base Regex Strip.
Import ListNotations.
Local Open Scope N_scope.

(** ** replacement templates
    [re.sub] with a replacement string: the template is parsed by sre_parse.parse_template of the
    standard library (a part of the trusted base as modelled here) before anything is matched;
    [None] is re.error or IndexError.  [\g<name>] is modelled for names of ASCII digits only (no
    pattern of the module has named groups); other names are errors, which leaves out odd
    spellings of numbers accepted by [int]. *)
Inductive titem := TLit (c : N) | TGroup (n : N).

Definition is_digit (c : N) : bool := (48 <=? c) && (c <=? 57).
Definition is_octal (c : N) : bool := (48 <=? c) && (c <=? 55).
Definition is_letter (c : N) : bool := ((65 <=? c) && (c <=? 90)) || ((97 <=? c) && (c <=? 122)).
(** ESCAPES of sre_parse that are single characters *)
Definition escape_char (c : N) : option N :=
  if c =? 97 then Some 7 else if c =? 98 then Some 8 else if c =? 102 then Some 12 else if c =? 110 then Some 10
  else if c =? 114 then Some 13 else if c =? 116 then Some 9 else if c =? 118 then Some 11 else if c =? 92 then Some 92 else None.
(** text up to '>' and what follows *)
Fixpoint until_gt (s : str) : option (str * str) :=
  match s with
  | [] => None
  | c :: t => if c =? 62 then Some ([], t) else match until_gt t with Some (a, b) => Some (c :: a, b) | None => None end
  end.
Definition number_of (l : str) : N := fold_left (fun a c => a * 10 + (c - 48)) l 0.
Definition octal_of (l : str) : N := fold_left (fun a c => a * 8 + (c - 48)) l 0.

Section Parse.
  (** number of groups of the pattern *)
  Variable groups : N.
  Definition add_group (n : N) (rest : option (list titem)) : option (list titem) :=
    if groups <? n then None else option_map (cons (TGroup n)) rest.
  Definition add_lit (c : N) (rest : option (list titem)) : option (list titem) := option_map (cons (TLit c)) rest.
  (** the first argument bounds the recursion; the length of the template is enough *)
  Fixpoint parse_template_fuel (fuel : nat) (s : str) : option (list titem) :=
    match fuel with
    | O => match s with [] => Some [] | _ => None end
    | S f =>
        match s with
        | [] => Some []
        | b :: t =>
            if negb (b =? 92) then add_lit b (parse_template_fuel f t)
            else
              match t with
              | [] => None
              | c :: t1 =>
                  if c =? 103 then
                    match t1 with
                    | l :: t2 =>
                        if l =? 60 then
                          match until_gt t2 with
                          | Some (name, t3) =>
                              if (0 <? length name)%nat && forallb is_digit name then add_group (number_of name) (parse_template_fuel f t3) else None
                          | None => None
                          end
                        else None
                    | [] => None
                    end
                  else if c =? 48 then
                    match t1 with
                    | d :: t2 =>
                        if is_octal d then
                          match t2 with
                          | e :: t3 => if is_octal e then add_lit (octal_of [d; e]) (parse_template_fuel f t3) else add_lit (octal_of [d]) (parse_template_fuel f t2)
                          | [] => add_lit (octal_of [d]) (parse_template_fuel f t2)
                          end
                        else add_lit 0 (parse_template_fuel f t1)
                    | [] => add_lit 0 (parse_template_fuel f t1)
                    end
                  else if is_digit c then
                    match t1 with
                    | d :: t2 =>
                        if is_digit d then
                          match t2 with
                          | e :: t3 =>
                              if is_octal c && is_octal d && is_octal e then
                                if 255 <? octal_of [c; d; e] then None else add_lit (octal_of [c; d; e]) (parse_template_fuel f t3)
                              else add_group (number_of [c; d]) (parse_template_fuel f t2)
                          | [] => add_group (number_of [c; d]) (parse_template_fuel f t2)
                          end
                        else add_group (number_of [c]) (parse_template_fuel f t1)
                    | [] => add_group (number_of [c]) (parse_template_fuel f t1)
                    end
                  else
                    match escape_char c with
                    | Some x => add_lit x (parse_template_fuel f t1)
                    | None => if is_letter c then None else option_map (fun r => TLit 92 :: TLit c :: r) (parse_template_fuel f t1)
                    end
              end
        end
    end.
  Definition parse_template (s : str) : option (list titem) := parse_template_fuel (length s) s.
End Parse.

(** a template filled in; groups that did not take part are empty *)
Definition expand (t : list titem) (g : caps) (whole : str) : str :=
  flat_map (fun i => match i with
                     | TLit c => [c]
                     | TGroup n => if n =? 0 then whole else match group (N.to_nat n) g with Some w => w | None => [] end
                     end) t.

(** string_filter.py:51-64 [StringFilter]: pattern, number of its groups, replacement *)
Record string_filter := mkFilter { f_regex : re; f_groups : N; f_repl : str }.
(** the group inside the repetition of the patterns for control sequences (number 4) holds its
    last iteration, the last character of group 3 *)
Definition with_last (g : caps) : caps :=
  match group 3 g with
  | Some w => match rev w with c :: _ => (4%nat, [c]) :: g | [] => g end
  | None => g
  end.
(** L70-72 [apply]: [self._regex.sub(self._repl, s)] *)
Definition filter_apply (f : string_filter) (s : str) : option str :=
  match parse_template (f_groups f) (f_repl f) with
  | None => None
  | Some t => Some (flat_map (fun e => match e with Unmatched b => [b] | Matched g w => expand t (with_last g) w end) (re_scan (f_regex f) s))
  end.

(** Python's [\s] for str: what str.isspace accepts *)
Definition SPACES : cls :=
  [(9, 13); (28, 32); (133, 133); (160, 160); (0x1680, 0x1680); (0x2000, 0x200A); (0x2028, 0x2029); (0x202F, 0x202F); (0x205F, 0x205F); (0x3000, 0x3000)].
(** L75-86 [VisualuzeWhitespace(repl)] *)
Definition visualize_whitespace (repl : str) : string_filter :=
  mkFilter (RAlt (RGrp 1 (RChr 10)) (RCls SPACES)) 1 (repl ++ [92; 49]).
(** L89-98 [ReplaceSGR(repl)] *)
Definition replace_sgr (repl : str) : string_filter := mkFilter SGR_REGEXP 5 repl.
(** L101-111 [ReplaceCSI(repl)] *)
Definition CSI_REGEXP : re :=
  rcats [ RGrp 1 (RChr 27); RGrp 2 (RChr 91); RGrp 3 (RStar [(48, 57); (59, 59); (58, 58); (60, 60); (61, 61); (62, 62); (63, 63)]);
          RGrp 5 (RCls [(64, 64); (65, 90); (97, 122)]) ].
Definition replace_csi (repl : str) : string_filter := mkFilter CSI_REGEXP 5 repl.
(** L114-121 [ReplaceNonAsciiBytes(repl)] *)
Definition replace_non_ascii (repl : str) : string_filter := mkFilter (RCls [(128, 255)]) 0 repl.

(** an argument of [apply_filters]: a class, made into an object with its defaults, or an object *)
Inductive filter_arg := FClass (default : string_filter) | FObject (f : string_filter).
Definition arg_filter (a : filter_arg) : string_filter := match a with FClass f => f | FObject f => f end.
Definition VisualuzeWhitespace_class := FClass (visualize_whitespace [0xB7]).
Definition ReplaceSGR_class := FClass (replace_sgr []).
Definition ReplaceCSI_class := FClass (replace_csi []).
Definition ReplaceNonAsciiBytes_class := FClass (replace_non_ascii [63]).
(** string_filter.py:30-48 [apply_filters] *)
Definition apply_filters (s : str) (args : list filter_arg) : option str :=
  fold_left (fun acc a => match acc with Some x => filter_apply (arg_filter a) x | None => None end) args (Some s).

(** ** pytermor/util/__init__.py:21-32, for ints (floats: ThousandFloat.v)
    [f'{value:_}']: an underscore before every group of three digits from the right but the first *)
Fixpoint underscored (l : str) : str :=
  match l with
  | [] => []
  | c :: t => c :: (if (0 <? length t)%nat && (length t mod 3 =? 0)%nat then [95] else []) ++ underscored t
  end.
Definition fmt_underscore (n : Z) : str := (if (n <? 0)%Z then [45] else []) ++ underscored (dec (Z.to_N (Z.abs n))).
(** [str.replace] of one character *)
Definition replace_char (c : N) (by_ : str) (s : str) : str := flat_map (fun x => if x =? c then by_ else [x]) s.
Definition format_thousand_sep (value : Z) (separator : str) : str := replace_char 95 separator (fmt_underscore value).
