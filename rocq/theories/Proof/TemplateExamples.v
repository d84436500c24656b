(** Cases for the claims about names, templates and the generator *)
From Coq Require Import Ascii String.
From Coq Require Import List Arith NArith ZArith Bool Lia.
From Verif.Model Require Import Base Ansi Regex Filters Render Legend Args SgrNames Es7sTemplate LegendGen.
From Verif.Spec Require Import Terminal Sgr Filtered SgrNames TemplateText.
From Verif.Proof Require Import FilterClaims TemplateFacts LegendGenClaims SgrNamesClaims TemplateClaims.
Import ListNotations.
Local Open Scope N_scope.

Lemma plain_words : words (u_word plain_unicode).
Proof.
  split; [reflexivity|]. cbn [u_word plain_unicode]. intros c H K. cbn [In white] in K. unfold white in K. cbn [In] in K.
  repeat (destruct K as [<-|K]; [discriminate H|]). destruct K.
Qed.
Lemma plain_capitals : ascii_capitals (u_upper plain_unicode).
Proof. intros c _. reflexivity. Qed.

(** an unknown format and an undefined variable, a value that looks like a format, a comment *)
Definition case_template : str := txt "^{Bold;38;5;117 }a:{ x}#{}!{}#^{shiny}:{y}^{}".
Definition case_vars : list (str * str) := [(txt "x", txt "^{red}:{y}")].
Lemma template_case : NoDup (map fst case_vars) /\
  substitute_template plain_unicode case_vars case_template =
  Ok ([27] ++ txt "[1;38;5;117ma^{red}:{y}^{shiny}:{y}" ++ [27] ++ txt "[m", [txt "Unable to substitute format from ""shiny"""; txt "Variable ""y"" is undefined"]).
Proof. split; [repeat constructor; intros []|vm_compute; reflexivity]. Qed.
Lemma template_fatal_case : substitute_template plain_unicode [] (txt "^{list_colors}") = Err ValueError.
Proof. vm_compute. reflexivity. Qed.

(** a comment removed makes a format of what was none; comments of several lines are none *)
Theorem comment_makes_format u : words (u_word u) -> ascii_capitals (u_upper u) ->
  substitute_template u [] (txt "^#{}x{}#{bold}") = Ok (assemble [1], []) /\
  substitute_template u [] (txt "#{}a" ++ [10] ++ txt "b{}#") = Ok (txt "#{}a" ++ [10] ++ txt "b{}#", []).
Proof.
  intros W C. split; (rewrite (settled_same u [] _ (conj W C)); [vm_compute; reflexivity|vm_compute; reflexivity]).
Qed.
(** text without signs is kept *)
Theorem plain_text_kept u vars s : words (u_word u) -> NoDup (map fst vars) -> ~ In 35 s -> ~ In 94 s -> ~ In 58 s -> substitute_template u vars s = Ok (s, []).
Proof.
  intros W ND N1 N2 N3. apply (template_filled u vars s s [] W ND). exists s, (map P_text s), [], [].
  assert (A : Uncommented s s).
  { clear - N1. induction s as [|c s IH]; constructor; [|apply IH; intros K; apply N1; now right].
    intros t r s' E _. cbv in E. injection E as E _. apply N1. now left. }
  assert (B : Cut (u_word u) s (map P_text s)).
  { clear - N2 N3. induction s as [|c s IH]; [constructor|]. cbn [map]. constructor.
    - intros w m r' E. split; [intros (m' & -> & _)|intros (_ & m' & -> & _)]; injection E as E _; [apply N2|apply N3]; now left.
    - apply IH; intros K; [apply N2|apply N3]; now right. }
  assert (C : Filled assemble (u_upper u) vars (map P_text s) s [] []).
  { clear. induction s as [|c s IH]; constructor. exact IH. }
  auto.
Qed.

(** the version of the program is another one *)
Lemma versions_differ r r' : v0 ++ r <> txt "1.5.4" ++ r'.
Proof. intros E. cbv in E. discriminate E. Qed.
Lemma some_found o (s : str) : o = Some s -> found o = s.
Proof. now intros ->. Qed.
Theorem legend_stale u cf : words (u_word u) -> ascii_capitals (u_upper u) -> is_sgr_usage_allowed cf = true -> rc_256 cf = false -> rc_16 cf = false ->
  forall d out ws, generate u cf (txt "1.5.4") d template_bytes = Ok (out, ws) -> decode legend_bytes <> Some out.
Proof.
  intros W C A B1 B2 d out ws G E. rewrite (legend_generated u cf _ d W C A B1 B2) in G. apply some_found in E.
  pose proof (some_found _ _ legend_cut) as L. rewrite E in L. clear E.
  assert (X : (before_version ++ txt "1.5.4" ++ after_version) ++ txt "# Generated at " ++ d = out) by congruence. clear G.
  rewrite <- X in L. clear X. revert L. generalize before_version, after_version. intros a b L. repeat rewrite <- app_assoc in L. apply app_inv_head in L.
  symmetry in L. exact (versions_differ _ _ L).
Qed.
