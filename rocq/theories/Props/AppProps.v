(** C37-C40, C49-C51: the program as a whole, settings, options, small helpers *)
From Coq Require Import List Arith NArith ZArith Bool Lia.
From Verif.Model Require Import Base Ansi Settings Segment Template Parser Console Formatter Reader Runner Options.
From Verif.Spec Require Import Numbers Terminal Utf8 Lexical SgrParams Display Output Input Dump Invocation Overrides Conditions.
From Verif.Proof Require Import MoreClaims ExampleFacts RunExtra AppClaims SmallClaims.
Import ListNotations.
Local Open Scope N_scope.

(** ** C37 *)

(** The status is 0, and no error is reported, iff all input can be displayed and read; else it is
    1 and the error is reported. *)
Theorem C37_exit_status : forall s s1 tc src evs chunks epilogue r,
  app_input_settings s = Some s1 -> opens src -> (binary_mode s1 = true -> (0 <= columns s1 tc)%Z) -> Processed s1 evs chunks ->
  app_run s tc src evs epilogue = Some r ->
  let readable_all := Forall (fun c => forall ts, Lexes c ts -> Forall (fun t => readable (fst t)) ts) chunks in
  let stops := Stops (s_max_bytes s1) (s_max_lines s1) (concat (provided evs)) in
  (ap_code r = Some 0%Z /\ ap_err r = None /\ readable_all /\ (ending_of evs = At_failure -> stops)) \/
  (ap_code r = Some 1%Z /\ ap_err r = Some ValueError /\ ~ readable_all) \/
  (ap_code r = Some 1%Z /\ ap_err r = Some OSError /\ readable_all /\ ending_of evs = At_failure /\ ~ stops).
Proof. exact app_outcome. Qed.
Print Assumptions C37_exit_status.

(** What has been shown before an error remains (the rows shown then are those of C21). *)
Theorem C37_output_kept : forall s s1 tc src evs epilogue r p acts en,
  app_input_settings s = Some s1 -> app_run s tc src evs epilogue = Some r -> byteio_run s1 tc src evs = (p, acts, en) ->
  exists w, ap_out r = pr_out p ++ w.
Proof. exact app_output. Qed.
Print Assumptions C37_output_kept.

Theorem C37_missing_file : forall s s1 tc evs epilogue r,
  app_input_settings s = Some s1 -> app_run s tc SrcMissing evs epilogue = Some r -> ap_code r = Some 1%Z /\ ap_err r = Some OSError.
Proof. exact app_missing. Qed.
Print Assumptions C37_missing_file.

Example C37_example : exists r1 r2,
  app_input_settings default_settings = Some default_settings /\ Processed default_settings ex_evs ex_chunks /\
  app_run default_settings 80 SrcStdin ex_evs [] = Some r1 /\ ap_code r1 = Some 0%Z /\
  app_run default_settings 80 SrcStdin [RData [65; 10]; RFailure] [] = Some r2 /\ ap_code r2 = Some 1%Z /\ ap_err r2 = Some OSError /\
  firstn 5 (visible (ap_out r2)) = [32; 49; 0x2502; 65; 0x21B5].
Proof.
  do 2 eexists. split; [reflexivity|]. split; [apply ex_processed; now left|]. split; [vm_compute; reflexivity|]. split; [reflexivity|].
  split; [vm_compute; reflexivity|]. repeat split.
Qed.

(** ** C38 *)

(** All answers, after any history of questions and changes of the default mode. *)
Theorem C38_answers : forall qs s, fst (ask qs s) = expected s (given_mode s) (s_default_read_mode s) qs.
Proof. exact ask_expected. Qed.
Print Assumptions C38_answers.

Theorem C38_mode_stable : forall qs1 qs2 s m, In (A_mode m) (fst (ask qs1 s)) -> forall m', In (A_mode m') (fst (ask (qs1 ++ qs2) s)) -> m' = m.
Proof. exact mode_stable. Qed.
Print Assumptions C38_mode_stable.

Example C38_example : let s := apply_opt (apply_opt default_settings (O_marker 2)) (O_focus CC_esc) in
  fst (ask [Q_marker; Q_default RM_binary; Q_mode; Q_default RM_text; Q_mode; Q_marker; Q_class CC_esc; Q_class CC_space] s) =
  [A_marker MD_full; A_done; A_mode RM_binary; A_done; A_mode RM_binary; A_marker MD_strict; A_class DM_focused; A_class DM_default].
Proof. reflexivity. Qed.

(** ** C39 *)
Theorem C39_runner : forall opts s, parse_args opts = Some s ->
  (In O_legend opts -> create_runner (after_parse_args s) = LegendRunner) /\
  (~ In O_legend opts -> In O_version opts -> create_runner (after_parse_args s) = VersionRunner) /\
  (~ In O_legend opts -> ~ In O_version opts -> In O_demo opts -> create_runner (after_parse_args s) = DemoRunner) /\
  (~ In O_legend opts -> ~ In O_version opts -> ~ In O_demo opts -> create_runner (after_parse_args s) = ByteIoRunner).
Proof. exact runner_choice. Qed.
Print Assumptions C39_runner.

(** As long as debugging is requested fewer than four times. *)
Theorem C39_demo_partial : forall opts s,
  parse_args opts = Some s -> In O_demo opts -> ~ In O_legend opts -> ~ In O_version opts -> (debug_count opts < 4)%nat ->
  exists s1, app_input_settings s = Some s1 /\ s_filename s1 = Some DEMO_FILENAME /\ (binary_mode s1 = false <-> In O_text opts) /\
    s_columns s1 = last_value columns_of opts (Some 16%Z) /\ te_decode (update_settings s1) = true.
Proof. exact demo_run. Qed.
Print Assumptions C39_demo_partial.

(** With -DDDD, listing the settings makes the demo run in text mode. *)
Theorem C39_refuted : exists opts s s1,
  parse_args opts = Some s /\ In O_demo opts /\ ~ In O_text opts /\ app_input_settings s = Some s1 /\ binary_mode s1 = false.
Proof. exact demo_text_witness. Qed.
Print Assumptions C39_refuted.

Example C39_example : exists s, parse_args [O_columns 8; O_demo; O_columns 32; O_debug] = Some s /\ (debug_count [O_columns 8; O_demo; O_columns 32; O_debug] < 4)%nat.
Proof. eexists. split; [reflexivity|]. cbn. lia. Qed.

(** ** C40 *)
Theorem C40_rejected : forall opts, parse_args opts = None <-> Rejected opts.
Proof. exact parse_args_none. Qed.
Print Assumptions C40_rejected.

Theorem C40_flags : forall opts s, parse_args opts = Some s ->
  (s_text s = true <-> In O_text opts) /\ (s_binary s = true <-> In O_binary opts) /\ (s_legend s = true <-> In O_legend opts) /\
  (s_version s = true <-> In O_version opts) /\ (s_demo s = true <-> In O_demo opts) /\ (s_color_markers s = true <-> In O_color_markers opts) /\
  (s_no_separators s = true <-> In O_no_separators opts) /\ (s_no_line_numbers s = true <-> In O_no_line_numbers opts) /\
  (s_decimal_offsets s = true <-> In O_decimal_offsets opts) /\ (s_no_offsets s = true <-> In O_no_offsets opts) /\
  (forall c, s_focus s c = true <-> In (O_focus c) opts) /\ (forall c, s_ignore s c = true <-> In (O_ignore c) opts).
Proof. exact options_flags. Qed.
Print Assumptions C40_flags.

Theorem C40_values : forall opts s, parse_args opts = Some s ->
  s_columns s = last_value columns_of opts None /\ s_buffer s = last_value buffer_of opts None /\
  s_max_bytes s = last_value max_bytes_of opts None /\ s_max_lines s = last_value max_lines_of opts None /\
  s_filename s = last_value file_of opts None /\ Some (s_marker s) = last_value marker_of opts (Some 0%Z) /\
  s_decode s = last_value (fun o => match o with O_decode => Some true | _ => None end) opts None /\
  s_debug s = debug_count opts /\ s_default_read_mode s = RM_text.
Proof. exact options_values. Qed.
Print Assumptions C40_values.

Example C40_example : exists s, parse_args [O_columns 8; O_binary; O_ignore CC_utf8; O_columns 4] = Some s /\ s_columns s = Some 4%Z /\
  Rejected [O_text; O_columns 3; O_binary].
Proof. eexists. split; [reflexivity|]. split; [reflexivity|]. apply (Rej_excl _ O_text O_binary); cbn; auto. constructor. Qed.

(** ** C49 *)

(** Any two references compare equal. *)
Theorem C49_refuted : exists a b : sgr, a <> b /\ seqref_eqb a b = true.
Proof. exists [1], [2]. split; [discriminate|apply refs_all_equal]. Qed.
Print Assumptions C49_refuted.

Theorem C49_equal_partial : forall a b : sgr, a = b -> seqref_eqb a b = true.
Proof. exact (fun a b _ => refs_all_equal a b). Qed.
Print Assumptions C49_equal_partial.

(** ** C50 *)
Theorem C50_overrides : forall (A : Type) (d : A) h keys, Chosen d h keys (pov_get (set_all (mkPov d []) h) keys).
Proof. exact (@overrides). Qed.
Print Assumptions C50_overrides.

Theorem C50_latest_unique : forall (A : Type) (h : list (mode_key * A)) k v w, Latest h k v -> Latest h k w -> v = w.
Proof. exact (@latest_unique). Qed.
Print Assumptions C50_latest_unique.

Theorem C50_has_key : forall (A : Type) (d : A) h k, pov_has_key (set_all (mkPov d []) h) k = true <-> exists v, In (k, v) h.
Proof. exact (@has_key). Qed.
Print Assumptions C50_has_key.

Example C50_example :
  pov_get (set_all (mkPov 0%nat []) [(K_disp DM_focused, 1%nat); (K_read RM_binary, 2%nat); (K_disp DM_focused, 3%nat)]) [K_disp DM_ignored; K_disp DM_focused; K_read RM_binary] = 3%nat.
Proof. reflexivity. Qed.

(** ** C51 *)

(** The sequences given are dropped, whatever they are. *)
Theorem C51_refuted : exists o c, span_init_explicit (Some o) (Some c) false <> (o, c).
Proof. exists [1], [22]. rewrite explicit_empty. discriminate. Qed.
Print Assumptions C51_refuted.

Theorem C51_always_empty : forall o c hard, span_init_explicit o c hard = ([], if hard then [0] else []).
Proof. exact explicit_empty. Qed.
Print Assumptions C51_always_empty.
