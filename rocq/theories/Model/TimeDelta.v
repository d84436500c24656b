(** pytermor/util/time_delta.py.

    Numbers are exact rationals here.  [TimeFloat.v] has the same code with the ints and doubles
    of Python; C100 says for which amounts the results are the same. *)
From Coq Require Import List NArith ZArith QArith Qabs Qround Bool.
From Verif.Model Require Import Base Strip Color.
Import ListNotations.
Local Open Scope Z_scope.

(** The argument: a finite number, or one of the special float values *)
Inductive pynum := Num (q : Q) | NaN | Inf (negative : bool).

(** L200-206 [TimeUnit] *)
Record time_unit := mkUnit {
  u_name : str;
  u_in_next : option Z;
  u_custom_short : option str;
  u_collapsible_after : option Z;
  u_overflow_after : option Z
}.

(** L77-83 [TimeDeltaFormatter], without [_max_len] *)
Record td_config := mkTd {
  td_units : list time_unit;
  td_allow_negative : bool;
  td_separator : option str;
  td_plural : option str;
  td_overflow_msg : str
}.

(** [x < y] on rationals as a test *)
Definition Qlt_bool (x y : Q) : bool := negb (Qle_bool y x).

(** [str(n)] for any int *)
Definition zdec (n : Z) : str := if n <? 0 then 45%N :: dec (Z.to_N (- n)) else dec (Z.to_N n).

(** [math.trunc] *)
Definition Qtrunc (q : Q) : Z := Z.quot (Qnum q) (Zpos (Qden q)).

(** the float literal 1e-03 of L157, exactly *)
Definition abs_tol : Q := 1152921504606847 # 1152921504606846976.

(** truthiness of [int|None] and [str|None] *)
Definition int_on (n : option Z) : option Z :=
  match n with Some x => if x =? 0 then None else Some x | None => None end.
Definition str_on (s : option str) : option str :=
  match s with Some [] => None | _ => s end.

(** L137-140: what happens on overflow; [None] for the maximal length: the attribute is not
    set yet, it is being computed *)
Definition overflow (max_len : option Z) : result (option str) :=
  match max_len with
  | None => Err AttributeError
  | Some n => if n =? 0 then Err RecursionError else Ok None
  end.

Section Format.
  Variable f : td_config.
  Variable max_len : option Z.
  Variable negative : bool.

  (** L135-173: the loop *)
  Fixpoint format_loop (units : list time_unit) (num : Q) (prev_frac : str) : result (option str) :=
    match units with
    | [] => Ok (Some [])
    | u :: rest =>
        if match int_on (u_overflow_after u) with Some n => Qlt_bool (inject_Z n) num | None => false end
        then overflow max_len
        else
          match u_name u with
          | [] => Err IndexError
          | c :: _ =>
              let name := u_name u in
              let suffixed :=
                name ++ match str_on (td_plural f) with
                        | Some p => if Qtrunc num =? 1 then [] else p
                        | None => []
                        end in
              let short := match str_on (u_custom_short u) with Some s => s | None => [c] end in
              let sep := match td_separator f with Some s => s | None => [] end in
              let sign := if negative then [45%N] else [] in
              if Qlt_bool (Qabs num) 1 then
                Ok (Some (if negative then [126; 48]%N ++ sep ++ suffixed
                          else if Qle_bool (Qabs num) abs_tol then [48%N] ++ sep ++ suffixed
                          else [60; 49]%N ++ sep ++ name))
              else if match u_collapsible_after u with Some n => Qlt_bool num (inject_Z n) | None => false end
              then Ok (Some (sign ++ zdec (Qfloor num) ++ short ++ sep ++ prev_frac))
              else match int_on (u_in_next u) with
                   | None => Ok (Some (sign ++ zdec (Qfloor num) ++ sep ++ suffixed))
                   | Some ratio =>
                       if Qlt_bool num (inject_Z ratio)
                       then Ok (Some (sign ++ zdec (Qfloor num) ++ sep ++ suffixed))
                       else
                         let next_num := Qfloor (num / inject_Z ratio) in
                         format_loop rest (inject_Z next_num)
                           (zdec (Qfloor (num - inject_Z (next_num * ratio))) ++ short)
                   end
          end
    end.
End Format.

(** L118-175 [format_raw].  NaN compares false with everything and has no floor; infinity
    exceeds every threshold and has no floor either (unit names are assumed non-empty in these
    two cases). *)
Definition format_raw (f : td_config) (max_len : option Z) (seconds : pynum) : result (option str) :=
  match seconds with
  | Num q =>
      format_loop f max_len (td_allow_negative f && Qlt_bool q 0) (td_units f) (Qabs q) []
  | NaN => match td_units f with [] => Ok (Some []) | _ => Err ValueError end
  | Inf _ =>
      match td_units f with
      | [] => Ok (Some [])
      | u :: _ => match int_on (u_overflow_after u) with
                  | Some _ => overflow max_len
                  | None => Err OverflowError
                  end
      end
  end.

(** L177-197 [_compute_max_len] *)
Fixpoint compute_loop (f : td_config) (units : list time_unit) (coef : Z) (max_len : Z) : result Z :=
  match units with
  | [] => Ok max_len
  | u :: rest =>
      match (match int_on (u_in_next u) with Some n => Some n | None => int_on (u_overflow_after u) end) with
      | None => compute_loop f rest coef max_len
      | Some test_val =>
          let secs := coef * (test_val - 1) * (if td_allow_negative f then -1 else 1) in
          match format_raw f None (Num (inject_Z secs)) with
          | Err RecursionError => compute_loop f rest coef max_len
          | Err e => Err e
          | Ok None => Err TypeError
          | Ok (Some s) => compute_loop f rest (coef * test_val) (Z.max max_len (zlen s))
          end
      end
  end.
Definition compute_max_len (f : td_config) : result Z := compute_loop f (td_units f) 1 0.

(** L97-116 [format] *)
Definition td_format (f : td_config) (max_len : Z) (seconds : pynum) (always_max_len : bool) : result str :=
  bind (format_raw f (Some max_len) seconds) (fun r =>
    let s := match r with Some s => s | None => py_take max_len (td_overflow_msg f) end in
    Ok (if always_max_len then rjust_sgr s max_len 32 else s)).

(** L209-242 [_TimeDeltaFormatterRegistry]: formatters by their maximal length *)
Definition td_registry := list (Z * td_config).
Fixpoint register (r : td_registry) (fs : list td_config) : result td_registry :=
  match fs with
  | [] => Ok r
  | f :: t => bind (compute_max_len f) (fun n => register (zdict_set n f r) t)
  end.

(** L221-233: the largest key not above the limit *)
Definition best_key (r : td_registry) (max_len : Z) : option Z :=
  fold_left (fun acc k => if k <=? max_len then match acc with Some b => Some (Z.max b k) | None => Some k end else acc)
            (map fst r) None.
Definition find_matching (r : td_registry) (max_len : Z) : option (Z * td_config) :=
  match zdict_get max_len r with
  | Some f => Some (max_len, f)
  | None => match best_key r max_len with
            | Some k => match zdict_get k r with Some f => Some (k, f) | None => None end
            | None => None
            end
  end.

(** L241-242 [get_longest]; [max([None])] is None, which is not a key *)
Definition get_longest (r : td_registry) : option (Z * td_config) :=
  match map fst r with
  | [] => None
  | k :: ks => let m := fold_left Z.max ks k in
               match zdict_get m r with Some f => Some (m, f) | None => None end
  end.

(** L24-58 [format_time_delta] with a given registry *)
Definition format_with (r : td_registry) (seconds : pynum) (max_len : option Z) : result str :=
  match (match max_len with None => get_longest r | Some n => find_matching r n end) with
  | None => Err ValueError
  | Some (n, f) => td_format f n seconds false
  end.

(** L249-298 the preset formatters *)
Definition unit_ (name : str) (in_next : option Z) : time_unit := mkUnit name in_next None None None.
Definition last_unit (name : str) (over : Z) : time_unit := mkUnit name None None None (Some over).
Definition td3 : td_config :=
  mkTd [unit_ [115%N] (Some 60); unit_ [109%N] (Some 60); unit_ [104%N] (Some 24); last_unit [100%N] 99]
       false None None [69; 82; 82]%N.
Definition td4 : td_config :=
  mkTd [unit_ [115%N] (Some 60); unit_ [109%N] (Some 60); unit_ [104%N] (Some 24); unit_ [100%N] (Some 30);
        unit_ [77%N] (Some 12); last_unit [121%N] 99]
       false (Some [32%N]) None [69; 82; 82; 79]%N.
Definition OVERFLOW_MSG : str := [79; 86; 69; 82; 70; 76; 79; 87]%N.
Definition td6 : td_config :=
  mkTd [unit_ [115; 101; 99]%N (Some 60); unit_ [109; 105; 110]%N (Some 60);
        mkUnit [104; 114]%N (Some 24) None (Some 10) None;
        mkUnit [100; 97; 121]%N (Some 30) None (Some 10) None;
        unit_ [109; 111; 110]%N (Some 12); last_unit [121; 114]%N 99]
       false (Some [32%N]) None OVERFLOW_MSG.
Definition td10 : td_config :=
  mkTd [unit_ [115; 101; 99]%N (Some 60);
        mkUnit [109; 105; 110]%N (Some 60) (Some [109; 105; 110]%N) None None;
        mkUnit [104; 111; 117; 114]%N (Some 24) None (Some 24) None;
        mkUnit [100; 97; 121]%N (Some 30) None (Some 10) None;
        unit_ [109; 111; 110; 116; 104]%N (Some 12); last_unit [121; 101; 97; 114]%N 999]
       true (Some [32%N]) (Some [115%N]) OVERFLOW_MSG.

Definition format_time_delta (seconds : pynum) (max_len : option Z) : result str :=
  bind (register [] [td3; td4; td6; td10]) (fun r => format_with r seconds max_len).
