(** Usage errors: properties C91 and C92 *)
From Coq Require Import Ascii String.
From Coq Require Import List NArith ZArith Bool Lia.
From Verif.Model Require Import Base Settings Runner Options Render SettingsDump Process Args Help UsageErrors.
From Verif.Spec Require Import Terminal Weave Invocation CommandLine HelpAsked SettingsShown UsageReasons.
From Verif.Proof Require Import UsageClaims UsageMain.
Import ListNotations.
Local Open Scope N_scope.

(** ** C91: a command line is refused with a message that tells a true reason, or it is accepted *)
(** nothing is printed on stdout, the code is 2, and stderr gets the usage text and the message *)
Theorem C91_reported : forall printable w tty argv, Forall (Forall (fun c => c < 0x110000)) argv -> (exists r, Blamed argv r) ->
  started w tty argv = mkApp [] None (Some 2%Z) /\
  exists r msg, Blamed argv r /\ Says r msg /\ usage_error printable argv = usage_text ++ txt "kolombos: error: " ++ msg ++ [10].
Proof. exact blamed_reported. Qed.
Print Assumptions C91_reported.
(** the reason is determined, up to the order in which candidates are listed *)
Theorem C91_determined : forall argv r r', Blamed argv r -> Blamed argv r' -> Akin r r'.
Proof. exact blamed_alike. Qed.
Print Assumptions C91_determined.
(** nothing is written otherwise *)
Theorem C91_silent : forall printable argv, (forall r, ~ Blamed argv r) -> usage_error printable argv = [].
Proof. exact unblamed_silent. Qed.
Print Assumptions C91_silent.
(** every command line either starts the program, or shows the help, or is refused *)
Theorem C91_three : forall argv,
  (exists opts, Invocation argv opts /\ ~ Rejected opts) \/ (exists opts, Asks false argv opts /\ ~ Rejected opts) \/ (exists r, Blamed argv r).
Proof. exact three_ways. Qed.
Print Assumptions C91_three.
Theorem C91_never_accepted : forall argv r opts, Blamed argv r -> (Invocation argv opts \/ Asks false argv opts) -> Rejected opts.
Proof. exact blamed_rejected. Qed.
Print Assumptions C91_never_accepted.
Theorem C91_usage_text : visible usage_text = usage_shown.
Proof. exact usage_seen. Qed.
Print Assumptions C91_usage_text.
(** with what is reported: an abbreviation of two options; a value that is no number, after a word
    that is unknown; a flag with a value; a missing value; options that exclude each other within
    a word; surplus words *)
Example C91_example :
  usage_reason [txt "-t"; txt "--max=5"] = Some (R_ambiguous (txt "--max=5") [txt "--max-lines"; txt "--max-bytes"]) /\
  usage_reason [txt "-x"; txt "--mark"; txt "many"] = Some (R_invalid (txt "-m/--marker") (txt "many")) /\
  usage_reason [txt "-vt=1"] = Some (R_ignored (txt "-t/--text") (txt "1")) /\
  usage_reason [txt "-tL"; txt "--"; txt "5"] = Some (R_expected (txt "-L/--max-lines")) /\
  usage_reason [txt "f"; txt "-tb"; txt "--wrong"] = Some (R_not_allowed (txt "-b/--binary") (txt "-t/--text")) /\
  usage_reason [txt "--demo"; txt "f"] = Some (R_not_allowed (txt "<file>") (txt "-M/--demo")) /\
  usage_reason [txt "a"; txt "-xyz"; txt "b"; txt "-tq1"; txt "--"; txt "-d"] = Some (R_unrecognized [txt "-xyz"; txt "b"; txt "-q1"; txt "--"; txt "-d"]).
Proof. vm_compute. auto 10. Qed.
Example C91_example_text : message (fun _ => true) (R_invalid (txt "-m/--marker") (txt "it's")) = txt "argument -m/--marker: invalid int value: ""it's""".
Proof. vm_compute. reflexivity. Qed.

(** ** C92: what is written is harmless to the terminal, unless words of the command line are
    repeated as they are.  [printable] stands for [str.isprintable]. *)
Theorem C92_harmless_partial : forall printable argv r, (forall c, printable c = true -> displayable c = true /\ c <> 10) -> Blamed argv r ->
  match r with
  | R_ambiguous _ _ | R_unrecognized _ => Forall (Forall (fun c => displayable c = true)) argv
  | _ => True
  end ->
  clean (usage_error printable argv) /\ final_attrs (usage_error printable argv) = attrs0 /\
  exists r' msg, Akin r r' /\ (Forall (Forall (fun c => c < 0x110000)) argv -> Says r' msg) /\
    visible (usage_error printable argv) = usage_shown ++ txt "kolombos: error: " ++ msg ++ [10].
Proof. exact blamed_harmless. Qed.
Print Assumptions C92_harmless_partial.
(** an unknown word switches to bold red, and an ambiguous one rings the bell *)
Theorem C92_harmless_refuted :
  (exists argv, (exists r, Blamed argv r) /\ forall printable, clean (usage_error printable argv) /\ final_attrs (usage_error printable argv) <> attrs0) /\
  (exists argv, (exists r, Blamed argv r) /\ forall printable, ~ clean (usage_error printable argv)).
Proof.
  split.
  - exists [txt "-x" ++ [27] ++ txt "[1;31m"]. split; [apply blamed_iff; vm_compute; reflexivity|]. intros printable. split; [vm_compute; reflexivity|vm_compute; discriminate].
  - exists [txt "--max=" ++ [7]]. split; [apply blamed_iff; vm_compute; reflexivity|]. intros printable. vm_compute. discriminate.
Qed.
Print Assumptions C92_harmless_refuted.
(** the hypotheses can be met: control characters in the value of an option are quoted *)
Example C92_example : exists r, Blamed [txt "-m" ++ [27] ++ txt "[1m"] r /\ match r with R_ambiguous _ _ | R_unrecognized _ => False | _ => True end /\
  visible (usage_error (fun c => (32 <=? c) && (c <? 127)) [txt "-m" ++ [27] ++ txt "[1m"]) = usage_shown ++ txt "kolombos: error: argument -m/--marker: invalid int value: '\x1b[1m'" ++ [10].
Proof. exists (R_invalid (txt "-m/--marker") ([27] ++ txt "[1m")). split; [apply reason_blamed; vm_compute; reflexivity|]. split; [exact I|]. vm_compute. reflexivity. Qed.
