(** Why a command line is refused: the messages of argparse (Python 3.11) for the options of
    kolombos/arghelp.py:146-199.  The functions are those of Model/Args.v with the reasons kept
    (Proof/UsageFacts.v shows that they agree).  On a usage error the program writes the usage
    text and the message to stderr and ends with code 2 ([ArgumentParser.error],
    argparse.py:2629-2640). *)
From Coq Require Import Ascii String.
From Coq Require Import List NArith ZArith Bool.
From Verif.Model Require Import Base Settings Options Render SettingsDump Args Help.
Import ListNotations.
Local Open Scope N_scope.

(** argparse.py:749-761 [_get_action_name] of the option that has the name [name]; the positional
    argument has no name and is shown by its metavar *)
Definition slashed (names : list string) : str := join [47] (map txt names).
Definition title (name : str) : str :=
  match find (fun x => existsb (fun n => eqb_list (txt n) name) (fst x)) declared with Some (ns, _) => slashed ns | None => [] end.
Definition class_word (c : char_class) : str :=
  txt match c with
      | CC_space => "space" | CC_control => "control" | CC_printable => "printable"
      | CC_esc => "esc" | CC_utf8 => "utf8" | CC_binary => "binary"
      end.
Definition opt_title (o : opt) : str :=
  match o with
  | O_file _ => txt "<file>"
  | O_demo => title (txt "--demo")
  | O_text => title (txt "--text")
  | O_binary => title (txt "--binary")
  | O_legend => title (txt "--legend")
  | O_version => title (txt "--version")
  | O_focus c => title (txt "--focus-" ++ class_word c)
  | O_ignore c => title (txt "--ignore-" ++ class_word c)
  | O_buffer _ => title (txt "--buffer")
  | O_max_lines _ => title (txt "--max-lines")
  | O_max_bytes _ => title (txt "--max-bytes")
  | O_debug => title (txt "--debug")
  | O_color_markers => title (txt "--color-markers")
  | O_marker _ => title (txt "--marker")
  | O_no_separators => title (txt "--no-separators")
  | O_no_line_numbers => title (txt "--no-line-numbers")
  | O_columns _ => title (txt "--columns")
  | O_decode => title (txt "--decode")
  | O_decimal_offsets => title (txt "--decimal-offsets")
  | O_no_offsets => title (txt "--no-offsets")
  end.
(** arghelp.py:146-148, 151-155, 160-177, 196-198: the mutually exclusive groups *)
Definition exclusive : list (list str) :=
  [ [opt_title (O_file []); opt_title O_demo];
    [opt_title O_text; opt_title O_binary; opt_title O_legend];
    [opt_title (O_focus CC_space); opt_title (O_ignore CC_space)];
    [opt_title (O_focus CC_control); opt_title (O_ignore CC_control)];
    [opt_title (O_focus CC_printable); opt_title (O_ignore CC_printable)];
    [opt_title (O_focus CC_esc); opt_title (O_ignore CC_esc)];
    [opt_title (O_focus CC_utf8); opt_title (O_ignore CC_utf8)];
    [opt_title (O_focus CC_binary); opt_title (O_ignore CC_binary)];
    [opt_title O_decimal_offsets; opt_title O_no_offsets] ].
(** argparse.py:1923-1931 [action_conflicts] *)
Definition rivals (t : str) : list str :=
  flat_map (fun g => if existsb (eqb_list t) g then filter (fun x => negb (eqb_list t x)) g else []) exclusive.
(** argparse.py:1974-1978: the first of them that was seen *)
Definition rival (o : opt) (seen : list opt) : option str :=
  find (fun t => existsb (fun p => eqb_list (opt_title p) t) seen) (rivals (opt_title o)).

Inductive reason :=
| R_ambiguous (s : str) (names : list str)
| R_ignored (t e : str)
| R_expected (t : str)
| R_invalid (t v : str)
| R_not_allowed (t other : str)
| R_unrecognized (l : list str).
(** the messages: argparse.py:2276, 2018 and 2049, 2213, 2551, 1976, 1877; [ArgumentError.__str__]
    L771-777 *)
Definition message (printable : N -> bool) (r : reason) : str :=
  match r with
  | R_ambiguous s names => txt "ambiguous option: " ++ s ++ txt " could match " ++ join (txt ", ") names
  | R_ignored t e => txt "argument " ++ t ++ txt ": ignored explicit argument " ++ py_repr printable e
  | R_expected t => txt "argument " ++ t ++ txt ": expected one argument"
  | R_invalid t v => txt "argument " ++ t ++ txt ": invalid int value: " ++ py_repr printable v
  | R_not_allowed t other => txt "argument " ++ t ++ txt ": not allowed with argument " ++ other
  | R_unrecognized l => txt "unrecognized arguments: " ++ join [32] l
  end.

(** * [_parse_known_args] with reasons *)
Fixpoint classify_why (argv : list str) : reason + list (str * item) :=
  match argv with
  | [] => inr []
  | s :: r =>
      if eqb_list s [45; 45] then inr ((s, I_dash) :: map (fun v => (v, I_arg v)) r)
      else match parse_optional s with
           | None => inl (R_ambiguous s (map (fun x => snd (fst x)) (option_tuples s)))
           | Some i => match classify_why r with inl e => inl e | inr l => inr ((s, i) :: l) end
           end
  end.
Inductive why_event := Y_opt (o : opt) | Y_help | Y_extra (s : str) | Y_fail (r : reason).
Definition take_value (name : str) (f : Z -> opt) (v : str) : why_event :=
  match int_of v with Some n => Y_opt (f n) | None => Y_fail (R_invalid (title name) v) end.
Fixpoint bundle_why (a : arg_action) (name : str) (sep : bool) (e : str) : reason + (list why_event * option (str * (Z -> opt))) :=
  match a with
  | A_int f => inr ([take_value name f e], None)
  | _ =>
      let here := match a with A_flag o => Y_opt o | _ => Y_help end in
      let ignored := inl (R_ignored (title name) e) in
      match e with
      | [] => ignored
      | c :: r =>
          if eqb_list (firstn 1 (skipn 1 name)) [45] then ignored
          else if sep || (c =? 45) then ignored
          else match find_option [45; c] with
               | None => inr ([here; Y_extra (45 :: e)], None)
               | Some a' =>
                   match r with
                   | [] => match a' with
                           | A_int f => inr ([here], Some ([45; c], f))
                           | A_flag o => inr ([here; Y_opt o], None)
                           | A_help => inr ([here; Y_help], None)
                           end
                   | 61 :: r' =>
                       match bundle_why a' [45; c] true r' with inr (l, m) => inr (here :: l, m) | inl x => inl x end
                   | _ => match bundle_why a' [45; c] false r with inr (l, m) => inr (here :: l, m) | inl x => inl x end
                   end
               end
      end
  end.
Fixpoint events_why (used : bool) (l : list (str * item)) : list why_event :=
  match l with
  | [] => []
  | (s, I_unknown) :: r => Y_extra s :: events_why used r
  | (_, I_opt (A_flag o) _ None) :: r => Y_opt o :: events_why used r
  | (_, I_opt A_help _ None) :: r => Y_help :: events_why used r
  | (_, I_opt (A_int f) name None) :: r =>
      match r with (_, I_arg v) :: r' => take_value name f v :: events_why used r' | _ => [Y_fail (R_expected (title name))] end
  | (_, I_opt a name (Some (sep, e))) :: r =>
      match bundle_why a name sep e with
      | inl x => [Y_fail x]
      | inr (l, None) => l ++ events_why used r
      | inr (l, Some (n, f)) => match r with (_, I_arg v) :: r' => l ++ take_value n f v :: events_why used r' | _ => [Y_fail (R_expected (title n))] end
      end
  | (s, I_arg v) :: r => if used then Y_extra s :: events_why used r
                         else Y_opt (O_file v) :: match r with (_, I_dash) :: r' => events_why true r' | _ => events_why true r end
  | (s, I_dash) :: r => if used then Y_extra s :: events_why used r
                        else match r with (_, I_arg v) :: r' => Y_opt (O_file v) :: events_why true r' | _ => [] end
  end.
(** [extras]: argparse.py:2048, 2134; reported at the end, L1876-1877 *)
Fixpoint act_why (extras : list str) (seen : list opt) (l : list why_event) : option reason :=
  match l with
  | [] => match extras with [] => None | _ => Some (R_unrecognized extras) end
  | Y_fail r :: _ => Some r
  | Y_help :: _ => None
  | Y_extra s :: r => act_why (extras ++ [s]) seen r
  | Y_opt o :: r => match rival o seen with Some t => Some (R_not_allowed (opt_title o) t) | None => act_why extras (o :: seen) r end
  end.
(** [None]: the command line is accepted, or help is shown *)
Definition usage_reason (argv : list str) : option reason :=
  match classify_why argv with inl r => Some r | inr l => act_why [] [] (events_why false l) end.
(** What is written to stderr *)
Definition usage_error (printable : N -> bool) (argv : list str) : str :=
  match usage_reason argv with
  | Some r => usage_text ++ txt "kolombos: error: " ++ message printable r ++ [10]
  | None => []
  end.
