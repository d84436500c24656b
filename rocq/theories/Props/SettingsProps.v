(** C84-C86: the list of settings, and everything on stdout at any debug level *)
From Coq Require Import Ascii String.
From Coq Require Import List Arith NArith ZArith Bool.
From Verif.Model Require Import Base Settings Runner Messages Process Trace SettingsDump TracedProcess.
From Verif.Spec Require Import Terminal Output Weave SettingsShown Conditions.
From Verif.Proof Require Import SettingsFacts SettingsClaims TraceClaims TracedClaims.
Import ListNotations.
Local Open Scope N_scope.

(** ** C84 *)
(** From debug level 3 on all options are listed with value and default, from level 4 on also
    what follows from them; rows, order, alignment, colors as in the specification *)
Theorem C84_listed_partial : forall printable s columns, (3 <= s_debug s)%nat -> usable_name s ->
  exists f, file_text (s_filename s) f /\
  shows (shown (s_debug s) (fst (debug_settings printable s columns)))
        (concat (settings_rows s columns (method_text s f, method_text default_settings (lit "None")))).
Proof. exact listed. Qed.
Print Assumptions C84_listed_partial.

(** with ESC in the name of the file the list is another one *)
Theorem C84_listed_refuted : exists printable s columns, (3 <= s_debug s)%nat /\ (exists name, s_filename s = Some name /\ Forall (fun c => c < 0x110000) name) /\
  forall method, ~ shows (shown (s_debug s) (fst (debug_settings printable s columns))) (concat (settings_rows s columns method)).
Proof. exact listed_refuted. Qed.
Print Assumptions C84_listed_refuted.

Theorem C84_silent : forall printable s columns, (s_debug s < 3)%nat -> debug_settings printable s columns = ([], s).
Proof. exact not_listed. Qed.
Print Assumptions C84_silent.

(** the mode is decided by showing it *)
Theorem C84_settings_after : forall printable s columns, snd (debug_settings printable s columns) = after_parse_args s.
Proof. exact (fun p s c => proj2 (dump_any p s c)). Qed.
Print Assumptions C84_settings_after.

(** what is shown of a file name at level 4 is a literal for it *)
Theorem C84_literal : forall printable t, Forall (fun c => c < 0x110000) t -> quoted (py_repr printable t) t.
Proof. exact py_repr_quoted. Qed.
Print Assumptions C84_literal.

Example C84_example : let s := case_settings 4 [102; 39; 0x2028] in
  (3 <= s_debug s)%nat /\ usable_name s /\ filter (fun e => if value_dec (e_value e) (e_default e) then false else true) (options s) =
    [ mkEntry (lit "binary") (Flag true) (Flag false); mkEntry (lit "buffer") (Number 16) Unset; mkEntry (lit "debug") (Number 4) (Number 0);
      mkEntry (lit "filename") (Words [102; 39; 0x2028]) Unset; mkEntry (lit "focus_utf8") (Flag true) (Flag false);
      mkEntry (lit "marker") (Number 1) (Number 0); mkEntry (lit "max_lines") (Number (-2)) Unset; mkEntry (lit "no_offsets") (Flag true) (Flag false) ] /\
  py_repr latin [102; 39; 0x2028] = lit """f'\u2028""".
Proof. exact list_case. Qed.

(** ** C85 *)
(** Every line of the list is harmless if the name of the file is one line of displayable text *)
Theorem C85_harmless_partial : forall printable s columns, safe_printable printable -> safe_name s ->
  forall m, In m (fst (debug_settings printable s columns)) -> exists t, m = TDbg 3 t /\ harmless_line t.
Proof. exact harmless_list. Qed.
Print Assumptions C85_harmless_partial.

Theorem C85_harmless_refuted : exists p s columns l t, safe_printable p /\ In (TDbg l t) (fst (debug_settings p s columns)) /\ ~ clean t.
Proof. exact list_harmless_refuted. Qed.
Print Assumptions C85_harmless_refuted.

(** Lists that look the same are lists of the same options *)
Theorem C85_determines : forall p s s' columns, safe_printable p -> (3 <= s_debug s)%nat -> (3 <= s_debug s')%nat -> safe_name s -> safe_name s' ->
  screen (shown (s_debug s) (fst (debug_settings p s columns))) = screen (shown (s_debug s') (fst (debug_settings p s' columns))) ->
  options s = options s'.
Proof. exact list_determines. Qed.
Print Assumptions C85_determines.

Example C85_example : safe_printable latin /\ let s := case_settings 3 [102] in let s' := case_settings 3 [103] in
  (3 <= s_debug s)%nat /\ (3 <= s_debug s')%nat /\ safe_name s /\ safe_name s' /\ options s <> options s'.
Proof. exact (conj latin_safe determines_case). Qed.

(** ** C86 *)
(** Whatever the debug level, files, input and settings: stdout is the regular output with other
    lines put between complete lines of it; at level 0 there are none *)
Theorem C86_woven : forall printable traceback w s,
  exists traces, Woven (ap_out (kolombos_with w s)) traces (shown (s_debug s) (traced_with printable traceback w s)) /\
  (s_debug s = 0%nat -> traces = []).
Proof. exact process_woven. Qed.
Print Assumptions C86_woven.

(** these are harmless lines, and the traceback of an error *)
Theorem C86_harmless_partial : forall printable traceback w s, safe_printable printable -> safe_name s ->
  exists traces, Woven (ap_out (kolombos_with w s)) traces (shown (s_debug s) (traced_with printable traceback w s)) /\
  Forall (fun m => harmless_line m \/ exists e, m = FMT_ERROR_TRACE (traceback e) ++ [10]) traces.
Proof. exact process_harmless. Qed.
Print Assumptions C86_harmless_partial.

Example C86_example : let s := case_settings 3 [102; 111; 111] in
  safe_name s /\ safe_printable latin /\
  let l := traced_with latin (fun _ => []) case_world s in
  (0 < length (ap_out (kolombos_with case_world s)))%nat /\ (45 < length (shown_traces 3 l))%nat.
Proof. exact process_case. Qed.
