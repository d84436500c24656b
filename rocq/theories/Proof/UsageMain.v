(** Usage errors: the program *)
From Coq Require Import Ascii String.
From Coq Require Import List Arith NArith ZArith Bool Lia.
From Verif.Model Require Import Base Settings Runner Options Render SettingsDump Process Args Help UsageErrors.
From Verif.Spec Require Import Terminal Weave Invocation CommandLine HelpAsked SettingsShown UsageReasons.
From Verif.Proof Require Import ArgsMain ArgsHelp AppClaims HelpClaims UsageClaims.
Import ListNotations.
Local Open Scope N_scope.

Lemma usage_started w tty argv : command_line argv = C_usage -> started w tty argv = mkApp [] None (Some 2%Z).
Proof. intros H. unfold started, main. now rewrite H. Qed.
Lemma blamed_reported printable w tty argv : Forall (Forall (fun c => c < 0x110000)) argv -> (exists r, Blamed argv r) ->
  started w tty argv = mkApp [] None (Some 2%Z) /\
  exists r msg, Blamed argv r /\ Says r msg /\ usage_error printable argv = usage_text ++ txt "kolombos: error: " ++ msg ++ [10].
Proof. intros F B. apply blamed_iff in B. split; [now apply usage_started|]. now apply usage_reported. Qed.
Lemma unblamed_silent printable argv : (forall r, ~ Blamed argv r) -> usage_error printable argv = [].
Proof. intros H. apply usage_silent. intros E. apply blamed_iff in E as [r B]. now apply (H r). Qed.
Lemma three_ways argv : (exists opts, Invocation argv opts /\ ~ Rejected opts) \/ (exists opts, Asks false argv opts /\ ~ Rejected opts) \/ (exists r, Blamed argv r).
Proof.
  destruct (command_line argv) as [| |s] eqn:E.
  - right. right. now apply blamed_iff.
  - right. left. now apply command_line_help.
  - left. apply command_line_run in E as (opts & I & P). exists opts. split; [exact I|]. intros R. apply parse_args_none in R. congruence.
Qed.
Lemma rejected_or opts : Rejected opts \/ ~ Rejected opts.
Proof. destruct (parse_args opts) eqn:E; [right; intros R; apply parse_args_none in R; congruence|left; now apply parse_args_none]. Qed.
Lemma blamed_rejected argv r opts : Blamed argv r -> (Invocation argv opts \/ Asks false argv opts) -> Rejected opts.
Proof.
  intros B K. assert (E : command_line argv = C_usage) by (apply blamed_iff; eauto). destruct (rejected_or opts) as [R|R]; [exact R|]. exfalso. destruct K as [K|K].
  - rewrite (command_line_invocation _ _ K) in E. destruct (parse_args opts) eqn:P; [discriminate|]. apply parse_args_none in P. contradiction.
  - assert (H : command_line argv = C_help) by (apply command_line_help; eauto). congruence.
Qed.
Lemma blamed_harmless printable argv r : (forall c, printable c = true -> displayable c = true /\ c <> 10) -> Blamed argv r ->
  match r with
  | R_ambiguous _ _ | R_unrecognized _ => Forall (Forall (fun c => displayable c = true)) argv
  | _ => True
  end ->
  clean (usage_error printable argv) /\ final_attrs (usage_error printable argv) = attrs0 /\
  exists r' msg, Akin r r' /\ (Forall (Forall (fun c => c < 0x110000)) argv -> Says r' msg) /\
    visible (usage_error printable argv) = usage_shown ++ txt "kolombos: error: " ++ msg ++ [10].
Proof.
  intros HP B H. destruct (blamed_reason _ _ B) as (r' & E & A). assert (F : repeats r' -> Forall (Forall (fun c => displayable c = true)) argv) by (destruct A as [q|s l l' P]; [destruct q; cbn [repeats] in *; try contradiction; auto|auto]).
  destruct (error_harmless printable argv r' HP E F) as (H1 & H2 & H3). split; [exact H1|]. split; [exact H2|]. exists r', (message printable r'). split; [exact A|]. split; [|exact H3].
  intros SC. apply message_says. pose proof (ok_blamed (fun c => c < 0x110000) eq_refl _ _ (reason_blamed _ _ E) SC) as K. destruct r'; try exact I; apply K.
Qed.
Lemma asked_page w tty argv opts : Asks false argv opts -> ~ Rejected opts -> started w tty argv = mkApp (help_page (w_columns w) tty) None (Some 0%Z).
Proof. intros A R. apply started_help. apply main_help_iff. eauto. Qed.
