(** The command line: properties C78 and C79 *)
From Coq Require Import Ascii String.
From Coq Require Import List NArith ZArith Bool.
From Verif.Model Require Import Base Settings Runner Options Render Process Args.
From Verif.Spec Require Import Invocation CommandLine HelpAsked.
From Verif.Proof Require Import ArgsInt ArgsClaims ArgsMain ArgsHelp AppClaims ProcessClaims.
Import ListNotations.
Local Open Scope N_scope.

(** ** C78: the strings of the command line and the options they stand for *)

(** Strings are understood exactly if they are sentences of the language of Spec/CommandLine.v
    whose options go together; *)
Theorem C78_language : forall argv s, command_line argv = C_run s <-> exists opts, Invocation argv opts /\ parse_args opts = Some s.
Proof. exact command_line_run. Qed.
Print Assumptions C78_language.
(** their meaning is unique, *)
Theorem C78_unique : forall argv o1 o2, Invocation argv o1 -> Invocation argv o2 -> o1 = o2.
Proof. exact invocation_fun. Qed.
Print Assumptions C78_unique.
(** and the program does what the options say (see C37 to C40 and C77), including the rejection of
    options that exclude each other. *)
Theorem C78_runs : forall w argv opts, Invocation argv opts -> main w argv = Some (kolombos w opts).
Proof. exact main_invocation. Qed.
Print Assumptions C78_runs.
(** "Arguments can be separated with both space or "=" in both cases", or not at all after the
    letter; *)
Theorem C78_ways : forall a n f v z rest opts way, In (Some a, n, Number f) documented -> Operand v -> Numeral v z -> Invocation rest opts ->
  In way [[45 :: N_of_ascii a :: v]; [45 :: N_of_ascii a :: 61 :: v]; [[45; N_of_ascii a]; v]; [45 :: 45 :: txt n; v]; [45 :: 45 :: txt n ++ 61 :: v]] ->
  Invocation (way ++ rest) (f z :: opts).
Proof. exact ways_same. Qed.
Print Assumptions C78_ways.
(** letters and names are the same. *)
Theorem C78_names : forall a n o rest opts, In (Some a, n, Flag o) documented -> Invocation rest opts ->
  Invocation ([45; N_of_ascii a] :: rest) (o :: opts) /\ Invocation ((45 :: 45 :: txt n) :: rest) (o :: opts).
Proof. exact names_same. Qed.
Print Assumptions C78_names.

(** The help text says that the file is ignored if --demo is present: this is false, the program
    refuses to run. *)
Theorem C78_demo_file_refuted : exists argv file, Invocation argv [O_demo; O_file file] /\ forall w, main w argv <> main w [txt "--demo"].
Proof.
  exists [txt "--demo"; txt "x"], (txt "x"). assert (I1 : Invocation [txt "--demo"; txt "x"] [O_demo; O_file (txt "x")]) by (apply invocation_computed; vm_compute; reflexivity).
  split; [exact I1|]. intros w E. apply (f_equal (fun x => match x with Some r => ap_code r | None => None end)) in E. assert (I2 : Invocation [txt "--demo"] [O_demo]) by (apply invocation_computed; vm_compute; reflexivity).
  rewrite (main_invocation w _ _ I1), (main_invocation w _ _ I2) in E. cbv beta iota in E.
  assert (R : Rejected [O_demo; O_file (txt "x")]) by (apply (Rej_excl _ (O_file (txt "x")) O_demo); [right; now left|now left|constructor]).
  apply (main_usage w) in R. rewrite R in E. symmetry in E. apply main_usage in E. destruct E as [a b Ha Hb X|l f m g r E]; [|destruct l as [|? [|? ?]]; discriminate].
  destruct Ha as [<-|[]]. destruct Hb as [<-|[]]. inversion X.
Qed.
Print Assumptions C78_demo_file_refuted.

(** the examples of the help text *)
Example C78_example :
  Invocation [txt "--focus-esc"; txt "-m2"; txt "file.txt"] [O_focus CC_esc; O_marker 2; O_file (txt "file.txt")] /\
  Invocation [txt "--binary"; txt "-USP"; txt "file.bin"] [O_binary; O_ignore CC_utf8; O_ignore CC_space; O_ignore CC_printable; O_file (txt "file.bin")] /\
  Invocation [txt "--binary"; txt "--focus-control"; txt "-B128"] [O_binary; O_focus CC_control; O_max_bytes 128] /\
  Invocation [txt "-w32"; txt "--decimal-offsets"; txt "--demo"] [O_columns 32; O_decimal_offsets; O_demo] /\
  Invocation [txt "--legend"] [O_legend] /\
  Invocation [txt "-DDDD"] [O_debug; O_debug; O_debug; O_debug] /\
  (* abbreviations, negative numbers, bundles, files that look like options *)
  Invocation [txt "--max-b=0_1"; txt "-DB"; txt "-5"; txt "-bB+7"; txt "--"; txt "-x"] [O_max_bytes 1; O_debug; O_max_bytes (-5); O_binary; O_max_bytes 7; O_file (txt "-x")] /\
  In (Some "B"%char, "max-bytes"%string, Number O_max_bytes) documented /\ Operand (txt "12") /\ Numeral (txt "12") 12.
Proof.
  do 7 (split; [apply invocation_computed; vm_compute; reflexivity|]). split; [apply (nth_error_In _ 8); reflexivity|]. split; [constructor; discriminate|].
  apply int_of_iff. vm_compute. reflexivity.
Qed.

(** ** C79: help and errors *)

(** Help is shown if a word asks for it and what precedes is right; the only thing that matters
    in what follows is that abbreviations are not ambiguous. *)
Theorem C79_help : forall w a opts s os b, Invocation a opts -> ~ In [45; 45] a -> Helps s os -> ~ Rejected (opts ++ os) -> Clear b -> main w (a ++ s :: b) = None.
Proof. exact main_help. Qed.
Print Assumptions C79_help.
(** The command lines that show the help are exactly those of Spec/HelpAsked.v whose options before
    the request do not exclude each other; *)
Theorem C79_exact : forall w argv, main w argv = None <-> exists opts, Asks false argv opts /\ ~ Rejected opts.
Proof. exact main_help_iff. Qed.
Print Assumptions C79_exact.
(** and all command lines that neither show the help nor run the program end it with code 2,
    with nothing on the standard output. *)
Theorem C79_code : forall w argv, (forall opts, Invocation argv opts -> Rejected opts) -> (forall opts, Asks false argv opts -> Rejected opts) ->
  main w argv = Some (mkApp [] None (Some 2%Z)).
Proof. exact main_code_two. Qed.
Print Assumptions C79_code.
(** No command line is both, and the options before the request are determined. *)
Theorem C79_never_both : forall argv opts1 opts2, Asks false argv opts1 -> ~ Invocation argv opts2.
Proof. exact asks_not_invocation. Qed.
Print Assumptions C79_never_both.
Theorem C79_determined : forall argv opts1 opts2, Asks false argv opts1 -> Asks false argv opts2 -> opts1 = opts2.
Proof. exact asks_fun. Qed.
Print Assumptions C79_determined.
(** It is never shown unless a word with the letter h that begins with a dash is there. *)
Theorem C79_asked : forall w argv, main w argv = None -> exists s, In (45 :: s) argv /\ In 104 s.
Proof. exact main_help_asked. Qed.
Print Assumptions C79_asked.
(** All other strings end the program with code 2 and nothing on the standard output: nothing is
    opened or read. *)
Theorem C79_usage : forall w argv, (forall opts, ~ Invocation argv opts) -> (forall s, In (45 :: s) argv -> ~ In 104 s) -> main w argv = Some (mkApp [] None (Some 2%Z)).
Proof. exact main_others. Qed.
Print Assumptions C79_usage.
(** Strings are split into words unless an abbreviation before "--" is ambiguous. *)
Theorem C79_clear : forall argv, Clear argv <-> exists l, classify argv = Some l.
Proof. exact classify_clear. Qed.
Print Assumptions C79_clear.

(** "Everything after -- is a file name" is false, "--" is refused once the file is known; *)
Theorem C79_end_refuted : exists v ws opts, Invocation (v :: ws) opts /\ (forall w, main w (v :: ws ++ [[45; 45]]) = Some (mkApp [] None (Some 2%Z))).
Proof.
  exists (txt "file"), [txt "-t"], [O_file (txt "file"); O_text]. split; [apply invocation_computed; vm_compute; reflexivity|]. intros w. vm_compute. reflexivity.
Qed.
Print Assumptions C79_end_refuted.
(** "--help always shows the help" is false, as well. *)
Theorem C79_help_refuted : exists a b, forall w, main w (a ++ txt "--help" :: b) = Some (mkApp [] None (Some 2%Z)).
Proof.
  exists [], [txt "--focus"]. intros w. vm_compute. reflexivity.
Qed.
Print Assumptions C79_help_refuted.

Example C79_example :
  Invocation [txt "-b"; txt "file"] [O_binary; O_file (txt "file")] /\ Helps (txt "-Dht") [O_debug] /\ Helps (txt "--he") [] /\ ~ Rejected ([O_binary; O_file (txt "file")] ++ [O_debug]) /\ Clear [txt "--nonsense"; txt "-B"] /\
  (forall w, main w [txt "--bin"; txt "-Bx"] = Some (mkApp [] None (Some 2%Z))) /\
  (forall w, main w [txt "a"; txt "b"] = Some (mkApp [] None (Some 2%Z))) /\ (forall opts, ~ Invocation [txt "a"; txt "b"] opts).
Proof.
  split; [apply invocation_computed; vm_compute; reflexivity|].
  assert (SH : Short 104 Help) by (exists "h"%char, "help"%string; split; [apply (nth_error_In _ 5); reflexivity|reflexivity]).
  split. { apply (H_short (txt "D") [O_debug] 104 (txt "t") [O_text]); [|exact SH|].
           - constructor; [|constructor]. exists "D"%char, "debug"%string. split; [apply (nth_error_In _ 9); reflexivity|reflexivity].
           - constructor; [|constructor]. exists "t"%char, "text"%string. split; [apply (nth_error_In _ 1); reflexivity|reflexivity]. }
  split. { apply (H_long (txt "he")). exists (txt "help"). split; [exists (Some "h"%char), "help"%string; split; [apply (nth_error_In _ 5); reflexivity|reflexivity]|]. split; [now exists (txt "lp")|].
           intros n' m' (a & s & H & ->) [r E]. unfold documented, both, only in H. repeat (destruct H as [H|H]; [injection H; intros; subst; cbn in E; try discriminate; try reflexivity|]). destruct H. }
  split. { intros R. apply parse_args_none in R. vm_compute in R. discriminate. }
  split; [apply classify_clear; eexists; vm_compute; reflexivity|].
  split; [intros w; unfold main; assert (E : command_line [txt "--bin"; txt "-Bx"] = C_usage) by (vm_compute; reflexivity); now rewrite E|].
  split; [intros w; unfold main; assert (E : command_line [txt "a"; txt "b"] = C_usage) by (vm_compute; reflexivity); now rewrite E|].
  intros opts I. apply invocation_iff in I as (l & C & E). vm_compute in C. injection C as <-. destruct opts as [|? [|? ?]]; discriminate.
Qed.
(** an unknown word, a word with a stray letter, two operands, and a request that needs a value *)
Example C79_exact_example :
  Asks false [txt "--nonsense"; txt "-bz"; txt "-w8"; txt "one"; txt "two"; txt "-thL"; txt "x"; txt "-z"] [O_binary; O_columns 8; O_file (txt "one"); O_text] /\
  Rejected [O_binary; O_columns 8; O_file (txt "one"); O_text] /\
  Asks false [txt "--nonsense"; txt "-bz"; txt "-w8"; txt "one"; txt "two"; txt "-DhL"; txt "x"; txt "-z"] [O_binary; O_columns 8; O_file (txt "one"); O_debug] /\
  ~ Rejected [O_binary; O_columns 8; O_file (txt "one"); O_debug] /\
  (forall opts, ~ Asks false [txt "-hL"] opts) /\ (forall opts, ~ Asks false [txt "-w"; txt "-h"] opts) /\ (forall opts, ~ Asks false [txt "--"; txt "-h"] opts).
Proof.
  split; [apply asks_computed; vm_compute; repeat constructor|]. split; [apply parse_args_none; vm_compute; reflexivity|].
  split; [apply asks_computed; vm_compute; repeat constructor|]. split; [intros R; apply parse_args_none in R; vm_compute in R; discriminate|].
  split; [|split]; intros opts A; apply asks_iff in A as (l & C & E); vm_compute in C; injection C as <-; vm_compute in E.
  - inversion E.
  - inversion E.
  - inversion E as [|o r os K|]; inversion K.
Qed.
