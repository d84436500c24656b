(** C93-C96: names of SGR codes, registries of sequences, templates, the generated legend *)
From Coq Require Import Ascii String.
From Coq Require Import List Arith NArith ZArith Bool.
From Verif.Model Require Import Base Ansi Render Legend SgrNames Es7sTemplate LegendGen.
From Verif.Spec Require Import Terminal Sgr SgrNames TemplateText.
From Verif.Proof Require Import SgrNamesClaims TemplateClaims LegendGenClaims TemplateExamples.
Import ListNotations.
Local Open Scope N_scope.

(** ** C93 *)
(** Every name gives its code, written in any case *)
Theorem C93_named : forall up s n c, ascii_capitals up -> Named n c -> AnyCase s n -> sequence_sgr up [SA_name s] = Ok [c].
Proof. exact name_any_case. Qed.
Print Assumptions C93_named.

(** in whatever way its capital form is the name *)
Theorem C93_capital : forall up s n c, Named n c -> capital up s = chars n -> sequence_sgr up [SA_name s] = Ok [c].
Proof. exact name_accepted. Qed.
Print Assumptions C93_capital.

(** and does on a terminal what it says *)
Theorem C93_effect : forall up s n c f a rest, Means n c f -> capital up s = chars n ->
  exists p, sequence_sgr up [SA_name s] = Ok p /\ trun Ground a (assemble p ++ rest) = trun Ground (f a) rest.
Proof. exact name_effect. Qed.
Print Assumptions C93_effect.

(** all other names are refused *)
Theorem C93_refused : forall up s, (forall n c, Named n c -> capital up s <> chars n) ->
  sequence_sgr up [SA_name s] = Err (if existsb (fun n => eqb_list (capital up s) (chars n)) collections then ValueError else KeyError).
Proof. exact name_refused. Qed.
Print Assumptions C93_refused.

(** the parameters are those of the arguments, in their order; the first bad argument decides on the error *)
Theorem C93_arguments : forall up a b,
  sequence_sgr up (a ++ b) = bind (sequence_sgr up a) (fun p => bind (sequence_sgr up b) (fun q => Ok (sgr_add p q))).
Proof. exact arguments_joined. Qed.
Print Assumptions C93_arguments.

Theorem C93_kinds : forall up n p,
  sequence_sgr up [SA_int n] = Ok [Z.to_N (Z.max 0 n)] /\ sequence_sgr up [SA_seq p] = Ok p /\ sequence_sgr up [SA_other] = Err TypeError.
Proof. exact argument_kinds. Qed.
Print Assumptions C93_kinds.

(** not every constant of the class can be given by its name *)
Theorem C93_constants_refuted : exists n v, In (n, V_list v) int_codes /\
  forall up s, ascii_capitals up -> AnyCase s n -> sequence_sgr up [SA_name s] = Err ValueError.
Proof. exact constants_refuted. Qed.
Print Assumptions C93_constants_refuted.

Example C93_example : ascii_capitals (u_upper plain_unicode) /\ Named "BG_HI_RED" 101 /\ AnyCase (txt "bg_Hi_red") "BG_HI_RED" /\
  sequence_sgr (u_upper plain_unicode) [SA_name (txt "yellow"); SA_int (-3); SA_name (txt "bOLD"); SA_seq [38; 5; 9]] = Ok [33; 0; 1; 38; 5; 9] /\
  sequence_sgr (u_upper plain_unicode) [SA_name (txt "pink")] = Err KeyError.
Proof.
  split; [exact plain_capitals|]. split; [left; eexists; exact (Means_bright_background "RED" 1 eq_refl)|].
  split; [repeat constructor; (left; reflexivity) || (right; split; reflexivity)|]. split; vm_compute; reflexivity.
Qed.

(** ** C94 *)
(** The ready-made sequences are those the constructor makes of their names, but for one *)
Theorem C94_seqs_partial : forall up s n p, In (n, p) seqs -> n <> "BLINK_DEFAULT"%string -> capital up s = chars n -> sequence_sgr up [SA_name s] = Ok p.
Proof. exact seqs_agree. Qed.
Print Assumptions C94_seqs_partial.

Theorem C94_seqs_refuted : exists n p, In (n, p) seqs /\
  forall up s, ascii_capitals up -> AnyCase s n -> sequence_sgr up [SA_name s] = Err KeyError.
Proof. exact seqs_refuted. Qed.
Print Assumptions C94_seqs_refuted.

(** the ready-made spans are those made of their names *)
Theorem C94_spans : forall up s n x, In (n, x) spans -> capital up s = chars n -> span_of up [SA_name s] = Ok x.
Proof. exact spans_agree. Qed.
Print Assumptions C94_spans.

(** text is shown with the attribute and nothing else is changed afterwards *)
Theorem C94_wrapped : forall n x c f text a l, In (n, x) spans -> Means n c f -> trun Ground (f a) text = (Ground, f a, l) ->
  exists b, trun Ground a (wrap_with x text) = (Ground, b, l) /\
    forall g, (code_group c = Some g -> same g b attrs0) /\ (code_group c <> Some g -> same g b a).
Proof. exact spans_wrap. Qed.
Print Assumptions C94_wrapped.

Example C94_example : In ("BG_CYAN"%string, ([46], [49])) spans /\ Means "BG_CYAN" 46 (set_bg (ColIdx 6)) /\
  wrap_with ([46], [49]) (txt "a") = [27; 91; 52; 54; 109; 97; 27; 91; 52; 57; 109].
Proof.
  split; [apply (nth_error_In spans 33); vm_compute; reflexivity|]. split; [exact (Means_background "CYAN" 6 eq_refl)|vm_compute; reflexivity].
Qed.

(** ** C95 *)
(** What a template gives, and when there is an error *)
Theorem C95_filled : forall u vars s out ws, words (u_word u) -> NoDup (map fst vars) ->
  substitute_template u vars s = Ok (out, ws) <->
  exists s' l fw vw, Uncommented s s' /\ Cut (u_word u) s' l /\ Filled assemble (u_upper u) vars l out fw vw /\ ws = fw ++ vw.
Proof. exact template_filled. Qed.
Print Assumptions C95_filled.

Theorem C95_stops : forall u vars s e, words (u_word u) -> NoDup (map fst vars) ->
  substitute_template u vars s = Err e <->
  e = ValueError /\ exists s' l w m, Uncommented s s' /\ Cut (u_word u) s' l /\ In (P_format w m) l /\ Fatal (u_upper u) w.
Proof. exact template_stops. Qed.
Print Assumptions C95_stops.

(** text without signs is kept *)
Theorem C95_plain : forall u vars s, words (u_word u) -> NoDup (map fst vars) -> ~ In 35 s -> ~ In 94 s -> ~ In 58 s -> substitute_template u vars s = Ok (s, []).
Proof. exact plain_text_kept. Qed.
Print Assumptions C95_plain.

(** comments do not always leave the rest alone: removing one can make a format; and there are none of several lines *)
Theorem C95_comments_refuted : forall u, words (u_word u) -> ascii_capitals (u_upper u) ->
  substitute_template u [] (txt "^#{}x{}#{bold}") = Ok (assemble [1], []) /\
  substitute_template u [] (txt "#{}a" ++ [10] ++ txt "b{}#") = Ok (txt "#{}a" ++ [10] ++ txt "b{}#", []).
Proof. exact comment_makes_format. Qed.
Print Assumptions C95_comments_refuted.

Example C95_example : words (u_word plain_unicode) /\ NoDup (map fst case_vars) /\
  substitute_template plain_unicode case_vars (txt "^{Bold;38;5;117 }a:{ x}#{}!{}#^{shiny}:{y}^{}") =
  Ok ([27] ++ txt "[1;38;5;117ma^{red}:{y}^{shiny}:{y}" ++ [27] ++ txt "[m", [txt "Unable to substitute format from ""shiny"""; txt "Variable ""y"" is undefined"]) /\
  substitute_template plain_unicode [] (txt "^{list_colors}") = Err ValueError.
Proof. exact (conj plain_words (conj (proj1 template_case) (conj (proj2 template_case) template_fatal_case))). Qed.

(** ** C96 *)
(** The shipped legend is what the generator makes of its template, version 1.5.3 and a date *)
Theorem C96_generated : exists a b,
  decode legend_bytes = Some (a ++ chars "1.5.3" ++ b ++ chars "22-May-23 04:12") /\
  forall u cf v d, words (u_word u) -> ascii_capitals (u_upper u) -> is_sgr_usage_allowed cf = true -> rc_256 cf = false -> rc_16 cf = false ->
    generate u cf v d template_bytes = Ok (a ++ v ++ b ++ d, []).
Proof. exact legend_is_generated. Qed.
Print Assumptions C96_generated.

(** for the version of the program it would be another one *)
Theorem C96_current_refuted : forall u cf, words (u_word u) -> ascii_capitals (u_upper u) -> is_sgr_usage_allowed cf = true -> rc_256 cf = false -> rc_16 cf = false ->
  forall d out ws, generate u cf (txt "1.5.4") d template_bytes = Ok (out, ws) -> decode legend_bytes <> Some out.
Proof. exact legend_stale. Qed.
Print Assumptions C96_current_refuted.

Example C96_example : words (u_word plain_unicode) /\ ascii_capitals (u_upper plain_unicode) /\
  is_sgr_usage_allowed (mkRconf (Some false) false false true) = true.
Proof. exact (conj plain_words (conj plain_capitals eq_refl)). Qed.
