(** pytermor/ansi.py: SGR sequences, spans, automatic closing sequences. *)
From Coq Require Import List NArith ZArith Bool.
From Verif.Model Require Import Base.
Import ListNotations.
Local Open Scope N_scope.

(** [SequenceSGR] (pytermor/ansi.py:100-246) is represented by its parameter list
    ([_params], L42).  The clamping [max(0, int(p))] is represented by the type:
    parameters are natural numbers.  Equality (L218-221) is equality of lists. *)
Definition sgr := list N.

(** ansi.py:208-210 [__add__]: concatenation of parameters *)
Definition sgr_add (a b : sgr) : sgr := a ++ b.

Definition ESC : N := 27.

(** ansi.py:192-203 [SequenceSGR.assemble] *)
Definition assemble (p : sgr) : str :=
  match p with
  | [] => []
  | _ =>
      let params := if eqb_list p [0] then [] else p in
      [ESC; 91] ++ join [59] (map dec params) ++ [109]
  end.

(** ansi.py:404-502 [IntCodes] (the ones used below) *)
Definition c_BOLD := 1. Definition c_DIM := 2. Definition c_ITALIC := 3.
Definition c_UNDERLINED := 4. Definition c_BLINK_SLOW := 5. Definition c_BLINK_FAST := 6.
Definition c_INVERSED := 7. Definition c_HIDDEN := 8. Definition c_CROSSLINED := 9.
Definition c_DOUBLE_UNDERLINED := 21. Definition c_OVERLINED := 53.
Definition c_BOLD_DIM_OFF := 22. Definition c_ITALIC_OFF := 23. Definition c_UNDERLINED_OFF := 24.
Definition c_BLINK_OFF := 25. Definition c_INVERSED_OFF := 27. Definition c_HIDDEN_OFF := 28.
Definition c_CROSSLINED_OFF := 29. Definition c_COLOR_OFF := 39. Definition c_BG_COLOR_OFF := 49.
Definition c_OVERLINED_OFF := 55.
Definition c_BLACK := 30. Definition c_RED := 31. Definition c_GREEN := 32. Definition c_YELLOW := 33.
Definition c_BLUE := 34. Definition c_MAGENTA := 35. Definition c_CYAN := 36. Definition c_WHITE := 37.
Definition c_COLOR_EXTENDED := 38.
Definition c_BG_BLACK := 40. Definition c_BG_CYAN := 46. Definition c_BG_WHITE := 47.
Definition c_BG_COLOR_EXTENDED := 48.
Definition c_GRAY := 90. Definition c_HI_RED := 91. Definition c_HI_GREEN := 92.
Definition c_HI_YELLOW := 93. Definition c_HI_BLUE := 94. Definition c_HI_CYAN := 96.
Definition c_MODE_256 := 5. Definition c_MODE_RGB := 2.

(** [list(range(lo, hi))] *)
Definition nrange (lo hi : N) : list N :=
  map (fun i => lo + N.of_nat i) (seq 0 (N.to_nat (hi - lo))).

(** ansi.py:491-497 *)
Definition LIST_COLORS := nrange 30 39.
Definition LIST_BG_COLORS := nrange 40 49.
Definition LIST_HI_COLORS := nrange 90 98.
Definition LIST_BG_HI_COLORS := nrange 100 108.
Definition LIST_ALL_COLORS := LIST_COLORS ++ LIST_BG_COLORS ++ LIST_HI_COLORS ++ LIST_BG_HI_COLORS.

(** ansi.py:599-618 the int keys of [_code_to_breaker_map] *)
Definition breaker_map : list (N * N) :=
  [ (c_BOLD, c_BOLD_DIM_OFF); (c_DIM, c_BOLD_DIM_OFF); (c_ITALIC, c_ITALIC_OFF);
    (c_UNDERLINED, c_UNDERLINED_OFF); (c_DOUBLE_UNDERLINED, c_UNDERLINED_OFF);
    (c_BLINK_SLOW, c_BLINK_OFF); (c_BLINK_FAST, c_BLINK_OFF); (c_INVERSED, c_INVERSED_OFF);
    (c_HIDDEN, c_HIDDEN_OFF); (c_CROSSLINED, c_CROSSLINED_OFF); (c_OVERLINED, c_OVERLINED_OFF) ]
  ++ map (fun c => (c, c_COLOR_OFF)) (LIST_COLORS ++ LIST_HI_COLORS)
  ++ map (fun c => (c, c_BG_COLOR_OFF)) (LIST_BG_COLORS ++ LIST_BG_HI_COLORS).

(** ansi.py:620-623, 633-644 [_complex_code_def] with the breaker bound to the same tuple:
    (starter codes, number of further parameters, breaker code) *)
Definition complex_def : list (sgr * nat * N) :=
  [ ([c_COLOR_EXTENDED; 5], 1%nat, c_COLOR_OFF); ([c_COLOR_EXTENDED; 2], 3%nat, c_COLOR_OFF);
    ([c_BG_COLOR_EXTENDED; 5], 1%nat, c_BG_COLOR_OFF); ([c_BG_COLOR_EXTENDED; 2], 3%nat, c_BG_COLOR_OFF) ].

(** ansi.py:643-644 [_complex_code_max_len] *)
Definition complex_max_len : nat :=
  fold_right Nat.max 0%nat (map (fun '(k, n, _) => (length k + n)%nat) complex_def).

Fixpoint complex_lookup (k : sgr) (d : list (sgr * nat * N)) : option (nat * N) :=
  match d with
  | [] => None
  | (k', n, br) :: t => if eqb_list k k' then Some (n, br) else complex_lookup k t
  end.

(** ansi.py:654-663: first [complex_len] in the given range whose prefix is a complex
    definition; yields (total length to drop, breaker) *)
Fixpoint find_complex (lens : list nat) (params : sgr) : option (nat * N) :=
  match lens with
  | [] => None
  | l :: ls =>
      match complex_lookup (firstn l params) complex_def with
      | Some (n, br) => Some ((l + n)%nat, br)
      | None => find_complex ls params
      end
  end.

(** ansi.py:646-672 [_SgrPairityRegistry.get_closing_seq]; every round removes at least
    one parameter, so the number of parameters is enough fuel. *)
Fixpoint closing_loop (fuel : nat) (params : sgr) : sgr :=
  match fuel with
  | O => []
  | S f =>
      match params with
      | [] => []
      | p :: rest =>
          match find_complex (seq 1 (Nat.min (length params) (complex_max_len + 1) - 1)) params with
          | Some (total, br) => br :: closing_loop f (skipn total params)
          | None =>
              match assoc p breaker_map with
              | Some br => br :: closing_loop f rest
              | None => closing_loop f rest
              end
          end
      end
  end.
Definition closing_seq (p : sgr) : sgr := closing_loop (length p) p.

(** ansi.py:311-327, 355-362 [Span(opening)(text)]; L282-286: no arguments give no closing
    sequence, which [closing_seq []] also yields *)
Definition span_wrap (opening : sgr) (text : str) : str :=
  assemble opening ++ text ++ assemble (closing_seq opening).

(** ansi.py:64-65 [Sequence.__len__] *)
Definition sgr_len (p : sgr) : nat := 0.
(** [bool(seq)]: no [__bool__] is defined, so Python falls back to [__len__] *)
Definition sgr_truthy (p : sgr) : bool := negb (Nat.eqb (sgr_len p) 0).

(** ansi.py:349-353 [Span._opt_arg]; [None] models an omitted argument *)
Definition opt_arg (a : option sgr) : sgr :=
  match a with
  | None => []
  | Some p => if negb (sgr_truthy p) then [] else p
  end.

(** ansi.py:288-309 [Span.init_explicit]: (opening, closing) *)
Definition span_init_explicit (o c : option sgr) (hard_reset_after : bool) : sgr * sgr :=
  (opt_arg o, if hard_reset_after then [0] else opt_arg c).

(** ansi.py:234-238 *)
Definition validate_extended_color (v : Z) : result unit :=
  if ((v <? 0) || (255 <? v))%Z%bool then Err ValueError else Ok tt.

(** ansi.py:153-167 [SequenceSGR.init_color_indexed] *)
Definition init_color_indexed (idx : Z) (bg : bool) : result sgr :=
  bind (validate_extended_color idx) (fun _ =>
    Ok [if bg then c_BG_COLOR_EXTENDED else c_COLOR_EXTENDED; c_MODE_256; Z.to_N idx]).

(** ansi.py:169-190 [SequenceSGR.init_color_rgb] *)
Definition init_color_rgb (r g b : Z) (bg : bool) : result sgr :=
  bind (validate_extended_color r) (fun _ =>
  bind (validate_extended_color g) (fun _ =>
  bind (validate_extended_color b) (fun _ =>
    Ok [if bg then c_BG_COLOR_EXTENDED else c_COLOR_EXTENDED; c_MODE_RGB;
        Z.to_N r; Z.to_N g; Z.to_N b]))).
