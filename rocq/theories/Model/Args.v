(** Command lines: kolombos/arghelp.py:146-199 as read by argparse of Python 3.11
    ([_parse_known_args] and what it calls, specialised to the kinds of arguments declared here:
    options without value, options with one integer, and one positional argument with
    [nargs='?']).  An option that needs a value takes the following string if this is no option. *)
From Coq Require Import Ascii String.
From Coq Require Import List NArith ZArith Bool.
From Verif.Model Require Import Base Settings Runner Options Messages Process Render.
Import ListNotations.
Local Open Scope N_scope.

(** * [int()] of a string *)
(** the digits zero among the decimal digits of Unicode 14; the other nine follow each of them *)
Definition zeros : list N :=
  [0x30; 0x660; 0x6f0; 0x7c0; 0x966; 0x9e6; 0xa66; 0xae6; 0xb66; 0xbe6; 0xc66; 0xce6; 0xd66; 0xde6; 0xe50; 0xed0; 0xf20;
   0x1040; 0x1090; 0x17e0; 0x1810; 0x1946; 0x19d0; 0x1a80; 0x1a90; 0x1b50; 0x1bb0; 0x1c40; 0x1c50; 0xa620; 0xa8d0; 0xa900;
   0xa9d0; 0xa9f0; 0xaa50; 0xabf0; 0xff10; 0x104a0; 0x10d30; 0x11066; 0x110f0; 0x11136; 0x111d0; 0x112f0; 0x11450; 0x114d0;
   0x11650; 0x116c0; 0x11730; 0x118e0; 0x11950; 0x11c50; 0x11d50; 0x11da0; 0x16a60; 0x16ac0; 0x16b50; 0x1d7ce; 0x1d7d8;
   0x1d7e2; 0x1d7ec; 0x1d7f6; 0x1e140; 0x1e2f0; 0x1e950; 0x1fbf0].
Definition digit_value (c : N) : option N :=
  match find (fun z => (z <=? c) && (c <? z + 10)) zeros with Some z => Some (c - z) | None => None end.
(** what [int()] skips around a number *)
Definition int_space (c : N) : bool :=
  ((9 <=? c) && (c <=? 13)) || existsb (N.eqb c)
    [0x20; 0x85; 0xa0; 0x1680; 0x2000; 0x2001; 0x2002; 0x2003; 0x2004; 0x2005; 0x2006; 0x2007; 0x2008; 0x2009; 0x200a;
     0x2028; 0x2029; 0x202f; 0x205f; 0x3000].
Fixpoint skip_space (l : str) : str :=
  match l with c :: r => if int_space c then skip_space r else l | [] => [] end.
(** digits with single underscores between them, then blanks; the argument [under] tells that an
    underscore was just read *)
Fixpoint int_digits (acc : N) (count : nat) (under : bool) (l : str) : option (N * nat) :=
  match l with
  | [] => if under then None else Some (acc, count)
  | c :: r =>
      match digit_value c with
      | Some d => int_digits (acc * 10 + d) (S count) false r
      | None =>
          if c =? 95 then (if under then None else int_digits acc count true r)
          else if negb under && forallb int_space l then Some (acc, count) else None
      end
  end.
Definition int_max_digits : N := 4300.
Definition unsigned_int (l : str) : option N :=
  match l with
  | c :: r =>
      match digit_value c with
      | Some d => match int_digits d 1 false r with
                  | Some (n, count) => if N.of_nat count <=? int_max_digits then Some n else None
                  | None => None
                  end
      | None => None
      end
  | [] => None
  end.
Definition signed_int (l : str) : option Z :=
  match l with
  | 43 :: r => option_map Z.of_N (unsigned_int r)
  | 45 :: r => option_map (fun n => - Z.of_N n)%Z (unsigned_int r)
  | r => option_map Z.of_N (unsigned_int r)
  end.
(** [None]: ValueError *)
Definition int_of (l : str) : option Z := signed_int (skip_space l).

(** * The declared options *)
Inductive arg_action := A_flag (o : opt) | A_int (f : Z -> opt) | A_help.
Definition declared : list (list string * arg_action) := [
  (["-M"; "--demo"]%string, A_flag O_demo);                               (* L148 *)
  (["-t"; "--text"]%string, A_flag O_text);                               (* L153 *)
  (["-b"; "--binary"]%string, A_flag O_binary);
  (["-l"; "--legend"]%string, A_flag O_legend);
  (["-v"; "--version"]%string, A_flag O_version);
  (["-h"; "--help"]%string, A_help);                                      (* L157 *)
  (["-s"; "--focus-space"]%string, A_flag (O_focus CC_space));            (* L166 *)
  (["-c"; "--focus-control"]%string, A_flag (O_focus CC_control));
  (["-p"; "--focus-printable"]%string, A_flag (O_focus CC_printable));
  (["-e"; "--focus-esc"]%string, A_flag (O_focus CC_esc));
  (["-u"; "--focus-utf8"]%string, A_flag (O_focus CC_utf8));
  (["-i"; "--focus-binary"]%string, A_flag (O_focus CC_binary));
  (["-S"; "--ignore-space"]%string, A_flag (O_ignore CC_space));
  (["-C"; "--ignore-control"]%string, A_flag (O_ignore CC_control));
  (["-P"; "--ignore-printable"]%string, A_flag (O_ignore CC_printable));
  (["-E"; "--ignore-esc"]%string, A_flag (O_ignore CC_esc));
  (["-U"; "--ignore-utf8"]%string, A_flag (O_ignore CC_utf8));
  (["-I"; "--ignore-binary"]%string, A_flag (O_ignore CC_binary));        (* L177 *)
  (["-f"; "--buffer"]%string, A_int O_buffer);                            (* L180 *)
  (["-L"; "--max-lines"]%string, A_int O_max_lines);
  (["-B"; "--max-bytes"]%string, A_int O_max_bytes);
  (["-D"; "--debug"]%string, A_flag O_debug);
  (["--color-markers"]%string, A_flag O_color_markers);
  (["-m"; "--marker"]%string, A_int O_marker);                            (* L187 *)
  (["--no-separators"]%string, A_flag O_no_separators);
  (["--no-line-numbers"]%string, A_flag O_no_line_numbers);
  (["-w"; "--columns"]%string, A_int O_columns);                          (* L194 *)
  (["-d"; "--decode"]%string, A_flag O_decode);
  (["--decimal-offsets"]%string, A_flag O_decimal_offsets);
  (["--no-offsets"]%string, A_flag O_no_offsets)].                        (* L198 *)
(** [_option_string_actions] *)
Definition option_strings : list (str * arg_action) :=
  flat_map (fun x => map (fun n => (txt n, snd x)) (fst x)) declared.
Definition find_option (name : str) : option arg_action :=
  match find (fun x => eqb_list (fst x) name) option_strings with Some (_, a) => Some a | None => None end.

(** * What a string is: [_parse_optional], [_get_option_tuples] *)
(** [str.partition('=')]: [None] if there is none *)
Fixpoint partition_eq (l : str) : str * option str :=
  match l with
  | [] => ([], None)
  | c :: r => if c =? 61 then ([], Some r) else let '(a, b) := partition_eq r in (c :: a, b)
  end.
Fixpoint starts_with (p l : str) : bool :=
  match p, l with
  | [], _ => true
  | a :: p, b :: l => (a =? b) && starts_with p l
  | _, [] => false
  end.
(** '^-\d+$|^-\d*\.\d+$' *)
Definition is_digit (c : N) : bool := match digit_value c with Some _ => true | None => false end.
Definition chomp (l : str) : str := match rev l with 10 :: r => rev r | _ => l end.
Fixpoint skip_digits (l : str) : str := match l with c :: r => if is_digit c then skip_digits r else l | [] => [] end.
Definition negative_number (l : str) : bool :=
  match chomp l with
  | 45 :: c :: r =>
      if forallb is_digit (c :: r) then true
      else match skip_digits (c :: r) with
           | 46 :: d :: r => forallb is_digit (d :: r)
           | _ => false
           end
  | _ => false
  end.

(** a string among the arguments: 'A', '-' or 'O'; an option comes with its name, the separator
    (is it '='?) and the explicit argument; [arg_action] is missing if the option is unknown *)
Inductive item :=
| I_arg (s : str)
| I_dash
| I_opt (a : arg_action) (name : str) (explicit : option (bool * str))
| I_unknown.
(** [None]: ambiguous, the program ends with a usage error *)
Definition option_tuples (s : str) : list (arg_action * str * option (bool * str)) :=
  match s with
  | 45 :: 45 :: _ =>
      let '(p, e) := partition_eq s in
      map (fun x => (snd x, fst x, option_map (fun v => (true, v)) e)) (filter (fun x => starts_with p (fst x)) option_strings)
  | _ =>
      flat_map (fun x => if eqb_list (fst x) (firstn 2 s) then [(snd x, fst x, Some (false, skipn 2 s))]
                         else if starts_with s (fst x) then [(snd x, fst x, None)] else []) option_strings
  end.
Definition parse_optional (s : str) : option item :=
  match s with
  | 45 :: rest =>
      match find_option s with
      | Some a => Some (I_opt a s None)
      | None =>
          match rest with
          | [] => Some (I_arg s)
          | _ =>
              let '(p, e) := partition_eq s in
              match e, find_option p with
              | Some v, Some a => Some (I_opt a p (Some (true, v)))
              | _, _ =>
                  match option_tuples s with
                  | [(a, n, e)] => Some (I_opt a n e)
                  | _ :: _ => None
                  | [] => if negative_number s then Some (I_arg s)
                          else if existsb (N.eqb 32) s then Some (I_arg s) else Some I_unknown
                  end
              end
          end
      end
  | _ => Some (I_arg s)
  end.
Fixpoint classify (argv : list str) : option (list item) :=
  match argv with
  | [] => Some []
  | s :: r =>
      if eqb_list s [45; 45] then Some (I_dash :: map I_arg r)
      else match parse_optional s, classify r with
           | Some i, Some l => Some (i :: l)
           | _, _ => None
           end
  end.

(** * What is done: [consume_optional], [consume_positionals] *)
Inductive arg_event := V_opt (o : opt) | V_help | V_extra | V_fail.
Definition take_int (f : Z -> opt) (v : str) : arg_event := match int_of v with Some n => V_opt (f n) | None => V_fail end.
(** The loop of [consume_optional] over an option with explicit argument [e]: the actions to take
    and, if the last option of the bundle lacks its argument, this option.  [None]: "ignored
    explicit argument" *)
Fixpoint bundle (a : arg_action) (name : str) (sep : bool) (e : str) : option (list arg_event * option (Z -> opt)) :=
  match a with
  | A_int f => Some ([take_int f e], None)
  | _ =>
      let here := match a with A_flag o => V_opt o | _ => V_help end in
      match e with
      | [] => None
      | c :: r =>
          if eqb_list (firstn 1 (skipn 1 name)) [45] then None
          else if sep || (c =? 45) then None
          else match find_option [45; c] with
               | None => Some ([here; V_extra], None)
               | Some a' =>
                   match r with
                   | [] => match a' with
                           | A_int f => Some ([here], Some f)
                           | A_flag o => Some ([here; V_opt o], None)
                           | A_help => Some ([here; V_help], None)
                           end
                   | 61 :: r' =>
                       match bundle a' [45; c] true r' with Some (l, m) => Some (here :: l, m) | None => None end
                   | _ => match bundle a' [45; c] false r with Some (l, m) => Some (here :: l, m) | None => None end
                   end
               end
      end
  end.
(** [used]: the positional argument has been given *)
Fixpoint events (used : bool) (l : list item) : list arg_event :=
  match l with
  | [] => []
  | I_unknown :: r => V_extra :: events used r
  | I_opt (A_flag o) _ None :: r => V_opt o :: events used r
  | I_opt A_help _ None :: r => V_help :: events used r
  | I_opt (A_int f) _ None :: r => match r with I_arg v :: r' => take_int f v :: events used r' | _ => [V_fail] end
  | I_opt a name (Some (sep, e)) :: r =>
      match bundle a name sep e with
      | None => [V_fail]
      | Some (l, None) => l ++ events used r
      | Some (l, Some f) => match r with I_arg v :: r' => l ++ take_int f v :: events used r' | _ => [V_fail] end
      end
  | I_arg v :: r => if used then V_extra :: events used r
                    else V_opt (O_file v) :: match r with I_dash :: r' => events true r' | _ => events true r end
  | I_dash :: r => if used then V_extra :: events used r
                   else match r with I_arg v :: r' => V_opt (O_file v) :: events true r' | _ => [] end
  end.

(** [take_action] one after the other; unrecognised arguments are an error at the end *)
Inductive cli := C_usage | C_help | C_run (s : settings).
Fixpoint act (extra : bool) (seen : list opt) (s : settings) (l : list arg_event) : cli :=
  match l with
  | [] => if extra then C_usage else C_run s
  | V_fail :: _ => C_usage
  | V_help :: _ => C_help
  | V_extra :: r => act true seen s r
  | V_opt o :: r => if existsb (conflict o) seen then C_usage else act extra (o :: seen) (apply_opt s o) r
  end.
Definition command_line (argv : list str) : cli :=
  match classify argv with None => C_usage | Some l => act false [] default_settings (events false l) end.

(** The program started with arguments; [None]: the help text is printed (not modelled), the
    program ends with code 0.  A usage error is printed on stderr. *)
Definition main (w : world) (argv : list str) : option app_result :=
  match command_line argv with
  | C_usage => Some (mkApp [] None (Some 2%Z))
  | C_help => None
  | C_run s => Some (kolombos_with w s)
  end.
