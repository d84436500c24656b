(** The help page: properties C87 to C90.  The width of the terminal is arbitrary. *)
From Coq Require Import Ascii String.
From Coq Require Import List NArith ZArith Bool Lia.
From Verif.Model Require Import Base Settings Runner Options Render Process Args Help.
From Verif.Spec Require Import Terminal Invocation CommandLine HelpAsked HelpShown.
From Verif.Proof Require Import ArgsMain ArgsHelp HelpFacts HelpClaims UsageMain.
Import ListNotations.
Local Open Scope N_scope.

(** ** C87: the options listed are the documented ones, each of them once *)
Theorem C87_listed : forall columns tty e, In e (entries (help_page columns tty)) <-> exists x, In x documented /\ e = entry_for x.
Proof. exact (fun columns tty => proj1 (page_lists columns tty)). Qed.
Print Assumptions C87_listed.
Theorem C87_once : forall columns tty, NoDup (flat_map fst (entries (help_page columns tty))).
Proof. exact (fun columns tty => proj2 (page_lists columns tty)). Qed.
Print Assumptions C87_once.
(** when help is asked for, the page is all that is printed, whatever files there are *)
Theorem C87_run : forall w tty argv opts, Asks false argv opts -> ~ Rejected opts ->
  started w tty argv = mkApp (help_page (w_columns w) tty) None (Some 0%Z).
Proof. exact asked_page. Qed.
Print Assumptions C87_run.
Example C87_example :
  hd_error (filter is_entry (lines (help_page 80 true))) = Some (txt "  -M, --demo              show output examples and exit; see --legend for the") /\
  nth_error (entries (help_page 80 true)) 18 = Some ([txt "-f"; txt "--buffer"], true) /\
  Asks false [txt "-b"; txt "--he"] [O_binary] /\ ~ Rejected [O_binary] /\
  (forall w tty, started w tty [txt "-b"; txt "--he"] = mkApp (help_page (w_columns w) tty) None (Some 0%Z)).
Proof. split; [vm_compute; reflexivity|]. split; [vm_compute; reflexivity|]. split; [apply asks_computed; vm_compute; repeat constructor|]. split; [intros R; apply AppClaims.parse_args_none in R; discriminate|]. intros w tty. apply started_help. unfold main. assert (E : command_line [txt "-b"; txt "--he"] = C_help) by (vm_compute; reflexivity). now rewrite E. Qed.

(** ** C88: every option is described as intended, but colons are lost at many widths *)
Theorem C88_nearly_partial : forall columns tty, (tty = true -> (20 <= columns)%Z) -> Nearly_explained (help_page columns tty).
Proof. exact (fun columns tty => nearly_explained tty columns). Qed.
Print Assumptions C88_nearly_partial.
(** exactly the widths at which nothing is lost *)
Theorem C88_exact : forall columns tty, Explained (help_page columns tty) <-> good_width tty columns.
Proof. exact (fun columns tty => explained_iff tty columns). Qed.
Print Assumptions C88_exact.
(** the usual width, not on a terminal *)
Theorem C88_explained_refuted : exists name text, In (name, text) manual /\
  described (lines (visible (help_page 80 false))) name <> Some (squash text).
Proof.
  exists (txt "-w, --columns <num>"), (txt "format output as <num>-columns wide table [default: auto]").
  split; [apply (nth_error_In _ 27); vm_compute; reflexivity|]. vm_compute. discriminate.
Qed.
Print Assumptions C88_explained_refuted.
Example C88_example : good_width true 80 /\ good_width true 200 /\ ~ good_width true 90 /\
  described (lines (visible (help_page 80 true))) (txt "-L, --max-lines <num>") = Some (squash (txt "stop after reading <num> lines [default: no limit]")).
Proof. split; [cbn; lia|]. split; [cbn; lia|]. split; [cbn; lia|]. vm_compute. reflexivity. Qed.

(** ** C89: the page is harmless and leaves the terminal as it was, unless the terminal is narrower
    than 20 columns: then escape sequences are broken by line breaks *)
Theorem C89_harmless : forall columns tty, (clean (help_page columns tty) /\ final_attrs (help_page columns tty) = attrs0) <-> (tty = true -> (20 <= columns)%Z).
Proof. exact (fun columns tty => tidy_page tty columns). Qed.
Print Assumptions C89_harmless.
Theorem C89_harmless_refuted : exists columns, (0 < columns)%Z /\ ~ (clean (help_page columns true) /\ final_attrs (help_page columns true) = attrs0).
Proof. exists 19%Z. split; [lia|]. intros H. apply tidy_page in H; [lia|reflexivity]. Qed.
Print Assumptions C89_harmless_refuted.

(** ** C90: the part with the options fits the terminal from 64 columns on, the rest does not *)
Theorem C90_fits_partial : forall columns tty, (64 <= columns)%Z ->
  Forall (fun l => (Z.of_nat (List.length l) <= columns - 2)%Z) (first_part (lines (visible (help_page columns tty)))).
Proof. exact fits_wide. Qed.
Print Assumptions C90_fits_partial.
Theorem C90_fits_refuted : forall columns tty, (columns < 305)%Z ->
  exists l, In l (lines (visible (help_page columns tty))) /\ (columns < Z.of_nat (List.length l))%Z.
Proof. exact too_long. Qed.
Print Assumptions C90_fits_refuted.
Example C90_example : List.length (first_part (lines (visible (help_page 64 true)))) = 66%nat.
Proof. vm_compute. reflexivity. Qed.
