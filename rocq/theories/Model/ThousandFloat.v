(** pytermor/util/__init__.py:21-32 [format_thousand_sep] for floats.
    [f'{value:_}'] of a float shows the digits of [repr] (format_float_short of Python/pystrtod.c, with
    the format code 'r'), with underscores in the integer part.  The digits themselves and the position of
    the decimal point are the result of [_Py_dg_dtoa] of the C part of CPython (mode 0), which is not
    modelled: a finite float is given by its sign, these digits and this position, as
    0.d1d2...dn * 10^decpt; zero is the digit 0 with the position 1. *)
From Coq Require Import List Arith NArith ZArith Bool.
From Verif.Model Require Import Base Filters.
Import ListNotations.
Local Open Scope N_scope.

Inductive pyfloat :=
| Finite (negative : bool) (digits : list N) (decpt : Z)
| Infinite (negative : bool)
| NotANumber.

Definition digit_char (d : N) : N := 48 + d.
(** "%+.02d" *)
Definition exponent_text (e : Z) : str :=
  (if (e <? 0)%Z then 45 else 43) ::
  (let t := dec (Z.to_N (Z.abs e)) in if (length t <? 2)%nat then 48 :: t else t).
(** the integer part and the rest; an exponent is used if the position is beyond 16 or not beyond -4;
    otherwise there is a fraction, if only [.0] *)
Definition float_parts (ds : list N) (decpt : Z) : str * str :=
  let cs := map digit_char ds in
  let n := Z.of_nat (length ds) in
  if ((decpt <=? -4) || (16 <? decpt))%Z
  then (firstn 1 cs, (if (1 <? n)%Z then 46 :: skipn 1 cs else []) ++ 101 :: exponent_text (decpt - 1))
  else if (decpt <=? 0)%Z then ([48], 46 :: repeat 48 (Z.to_nat (- decpt)) ++ cs)
  else if (decpt <? n)%Z then (firstn (Z.to_nat decpt) cs, 46 :: skipn (Z.to_nat decpt) cs)
  else (cs ++ repeat 48 (Z.to_nat (decpt - n)), [46; 48]).
Definition sign_text (negative : bool) : str := if negative then [45] else [].
Definition float_underscore (v : pyfloat) : str :=
  match v with
  | Finite neg ds decpt => let '(i, r) := float_parts ds decpt in sign_text neg ++ underscored i ++ r
  | Infinite neg => sign_text neg ++ [105; 110; 102]
  | NotANumber => [110; 97; 110]
  end.
Definition format_thousand_sep_float (value : pyfloat) (separator : str) : str := replace_char 95 separator (float_underscore value).
