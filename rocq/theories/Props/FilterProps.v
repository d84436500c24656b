(** C80-C83: filters of strings *)
From Coq Require Import List Arith NArith ZArith Bool.
From Verif.Model Require Import Base Filters.
From Verif.Spec Require Import Lexical Filtered ReplacementText.
From Verif.Proof Require Import FilterClaims ReplaceClaims ReplaceExamples.
Import ListNotations.
Local Open Scope N_scope.

(** ** C80 *)
(** With a sign that has no backslash: exactly the white characters are replaced, line breaks are
    kept behind the sign *)
Theorem C80_marked_partial : forall repl s, no_backslash repl ->
  forall out, filter_apply (visualize_whitespace repl) s = Some out <-> Marked repl s out.
Proof. exact whitespace_marked. Qed.
Print Assumptions C80_marked_partial.

Theorem C80_total : forall repl s, no_backslash repl -> exists out, filter_apply (visualize_whitespace repl) s = Some out /\ Marked repl s out.
Proof. exact whitespace_shown. Qed.
Print Assumptions C80_total.

(** no white space is left but the line breaks, as many as before *)
Theorem C80_gone : forall repl s out, no_backslash repl -> Forall (fun c => ~ white c) repl -> filter_apply (visualize_whitespace repl) s = Some out ->
  Forall (fun c => c = 10 \/ ~ white c) out /\ count_occ N.eq_dec out 10 = count_occ N.eq_dec s 10.
Proof. exact whitespace_gone. Qed.
Print Assumptions C80_gone.

(** a backslash as the sign: line breaks are lost *)
Theorem C80_backslash_refuted : exists s out, filter_apply (visualize_whitespace [92]) s = Some out /\ In 10 s /\ ~ In 10 out.
Proof. exact whitespace_backslash_refuted. Qed.
Print Assumptions C80_backslash_refuted.

(** not every invisible character is replaced: zero width space, BEL *)
Theorem C80_invisible_refuted : exists s, filter_apply (visualize_whitespace [0xB7]) s = Some s /\ In 0x200B s /\ In 7 s.
Proof. exact whitespace_invisible_refuted. Qed.
Print Assumptions C80_invisible_refuted.

(** the example of the documentation: '1. D\n2. L ' *)
Example C80_example : no_backslash [0xB7] /\
  apply_filters [49; 46; 32; 68; 10; 50; 46; 32; 76; 32] [VisualuzeWhitespace_class] = Some [49; 46; 0xB7; 68; 0xB7; 10; 50; 46; 0xB7; 76; 0xB7].
Proof. split; [unfold no_backslash; cbn; intuition discriminate|vm_compute; reflexivity]. Qed.

(** with any sign, also with backslashes: what the sign and the reference behind it mean, for every
    white character *)
Theorem C80_any_sign : forall repl s out, filter_apply (visualize_whitespace repl) s = Some out <->
  exists l, Means 1 (repl ++ [92; 49]) l /\ Replaced (fun w => exists c, w = [c] /\ white c) (fun w => filled (white_part w) l) s out.
Proof. exact white_any. Qed.
Print Assumptions C80_any_sign.

(** ** C81 *)
(** exactly the SGR sequences are replaced, for every text *)
Theorem C81_sgr : forall repl s out, no_backslash repl -> filter_apply (replace_sgr repl) s = Some out <-> Replaced sgr_sequence (fun _ => repl) s out.
Proof. exact sgr_replaced. Qed.
Print Assumptions C81_sgr.

(** exactly the control sequences without intermediate characters that end with a letter or @ *)
Theorem C81_csi_partial : forall repl s out, no_backslash repl -> filter_apply (replace_csi repl) s = Some out <-> Replaced lettered_sequence (fun _ => repl) s out.
Proof. exact csi_filtered. Qed.
Print Assumptions C81_csi_partial.

(** which are some of the control sequences only *)
Theorem C81_csi_refuted : exists w, control_sequence w /\ filter_apply (replace_csi []) w = Some w.
Proof. exact csi_all_refuted. Qed.
Print Assumptions C81_csi_refuted.

(** the filter for SGR sequences is the more specific one *)
Theorem C81_specific : forall w, (sgr_sequence w -> lettered_sequence w) /\ (lettered_sequence w -> control_sequence w).
Proof. exact more_specific. Qed.
Print Assumptions C81_specific.

(** the documented template that makes the parameters visible: E\2\3\5 *)
Theorem C81_groups : forall s out, filter_apply (replace_sgr DOC_TEMPLATE) s = Some out <-> Replaced sgr_sequence (fun w => 69 :: tl w) s out.
Proof. exact escapes_shown. Qed.
Print Assumptions C81_groups.

(** any replacement text, as the documentation of Python describes it *)
Theorem C81_sgr_any : forall repl s out, filter_apply (replace_sgr repl) s = Some out <->
  exists l, Means 5 repl l /\ Replaced sgr_sequence (fun w => filled (sequence_part w) l) s out.
Proof. exact sgr_any. Qed.
Print Assumptions C81_sgr_any.

Theorem C81_csi_any : forall repl s out, filter_apply (replace_csi repl) s = Some out <->
  exists l, Means 5 repl l /\ Replaced lettered_sequence (fun w => filled (sequence_part w) l) s out.
Proof. exact csi_any. Qed.
Print Assumptions C81_csi_any.

(** a replacement text has at most one meaning; without one the filter fails on every text *)
Theorem C81_one_meaning : forall g repl l l', Means g repl l -> Means g repl l' -> l = l'.
Proof. exact means_unique. Qed.
Print Assumptions C81_one_meaning.
Theorem C81_fails : forall f s, filter_apply f s = None <-> forall l, ~ Means (f_groups f) (f_repl f) l.
Proof. exact filter_error. Qed.
Print Assumptions C81_fails.

(** \3\x, \6 and \400 mean nothing; \g<3>\065;\5\. are the parameters, 5, a semicolon, the final character, a backslash and a dot *)
Example C81_meanings :
  (forall l, ~ Means 5 [92; 51; 92; 120] l) /\ (forall l, ~ Means 5 [92; 54] l) /\ (forall l, ~ Means 5 [92; 52; 48; 48] l) /\
  Means 5 [92; 103; 60; 51; 62; 92; 48; 54; 53; 59; 92; 53; 92; 46] [Part 3; Char 53; Char 59; Part 5; Char 92; Char 46] /\
  filled (sequence_part [27; 91; 49; 109]) [Part 3; Char 53; Char 59; Part 5] = [49; 53; 59; 109].
Proof. exact meanings. Qed.

Example C81_example :
  filter_apply (replace_sgr DOC_TEMPLATE) ([27; 91; 51; 49; 109] ++ [116] ++ [27; 91; 51; 57; 109]) = Some ([69; 91; 51; 49; 109] ++ [116] ++ [69; 91; 51; 57; 109]) /\
  filter_apply (replace_csi [46]) [65; 27; 91; 63; 50; 53; 104; 27; 91; 109; 66] = Some [65; 46; 46; 66] /\
  filter_apply (replace_sgr [92]) [65] = None.
Proof. repeat split; vm_compute; reflexivity. Qed.

(** ** C82 *)
(** Bytes of ASCII are kept, every other byte becomes a question mark *)
Theorem C82_ascii : forall s, Forall (fun b => b < 256) s ->
  exists out, filter_apply (replace_non_ascii [63]) s = Some out /\ Forall2 (fun b c => b < 128 /\ c = b \/ 128 <= b /\ c = 63) s out.
Proof. exact non_ascii_default. Qed.
Print Assumptions C82_ascii.

(** with any replacement text *)
Theorem C82_any : forall repl s out, filter_apply (replace_non_ascii repl) s = Some out <->
  exists l, Means 0 repl l /\ Replaced (fun w => exists c, w = [c] /\ rng 128 255 c) (fun w => filled (fun _ => w) l) s out.
Proof. exact non_ascii_any. Qed.
Print Assumptions C82_any.

(** several filters are applied one after the other *)
Theorem C82_in_turn : forall s a b, apply_filters s (a ++ b) = match apply_filters s a with Some x => apply_filters x b | None => None end.
Proof. exact filters_in_turn. Qed.
Print Assumptions C82_in_turn.

Example C82_example : apply_filters [65; 200; 128; 27; 91; 109; 127] [ReplaceNonAsciiBytes_class; FObject (replace_sgr [33])] = Some [65; 63; 63; 33; 127].
Proof. vm_compute. reflexivity. Qed.

(** ** C83 *)
(** A number with its digits in groups of three, counted from the right, with any separator *)
Theorem C83_thousands : forall n sep, exists out, format_thousand_sep n sep = (if (n <? 0)%Z then [45] else []) ++ out /\ Grouped sep (dec (Z.to_N (Z.abs n))) out.
Proof. exact thousands. Qed.
Print Assumptions C83_thousands.

(** there is only one way to do so *)
Theorem C83_unique : forall sep d x y, Grouped sep d x -> Grouped sep d y -> x = y.
Proof. exact grouped_unique. Qed.
Print Assumptions C83_unique.

Example C83_example : format_thousand_sep (-9123123) [44] = [45; 57; 44; 49; 50; 51; 44; 49; 50; 51] /\ format_thousand_sep 999 [32] = [57; 57; 57].
Proof. split; vm_compute; reflexivity. Qed.
