(** C111: options of the other mode, and the width of the terminal *)
From Coq Require Import List Arith NArith ZArith Bool Lia.
From Verif.Model Require Import Base Ansi Settings Segment Template Parser Console Formatter Reader Runner Options Messages Legend Process Trace.
From Verif.Spec Require Import OtherMode Conditions.
From Verif.Proof Require Import OtherModeFacts OtherModeExamples.
Import ListNotations.
Local Open Scope N_scope.

(** ** C111 *)

(** In any surroundings (files, input, terminal), if text mode is selected then the options for
    binary mode change nothing: regular output, error, exit code. *)
Theorem C111_text : forall w l, parse_args l <> None -> selects_binary l = false -> kolombos w (without binary_option l) = kolombos w l.
Proof. exact text_ignores. Qed.
Print Assumptions C111_text.

(** The same for binary mode and the options for text mode. *)
Theorem C111_binary : forall w l, parse_args l <> None -> selects_binary l = true -> kolombos w (without text_option l) = kolombos w l.
Proof. exact binary_ignores. Qed.
Print Assumptions C111_binary.

(** The width of the terminal has an effect only in binary mode without --columns and without
    --demo. *)
Theorem C111_width : forall w c l, width_matters l = false -> kolombos (on_terminal w c) l = kolombos w l.
Proof. exact width_ignored. Qed.
Print Assumptions C111_width.

(** Debug traces are an exception: --decimal-offsets changes them in text mode. *)
Theorem C111_traces_refuted : exists evs, selects_binary [O_debug; O_decimal_offsets] = false /\
  without binary_option [O_debug; O_decimal_offsets] = [O_debug] /\
  om_traces [O_debug; O_decimal_offsets] evs <> om_traces [O_debug] evs.
Proof. exact traces_differ. Qed.
Print Assumptions C111_traces_refuted.

(** In their own mode all of these options, and the width, have an effect. *)
Example C111_example :
  let bin o := [O_binary; o] in
  parse_args [O_marker 2; O_columns 3; O_decode; O_no_offsets] <> None /\ selects_binary [O_marker 2; O_columns 3; O_decode; O_no_offsets] = false /\
  forallb (fun o => negb (eqb_list (om_out (bin o)) (om_out [O_binary]))) [O_columns 3; O_decode; O_decimal_offsets; O_no_offsets] = true /\
  forallb (fun o => negb (eqb_list (om_out [o; O_marker 1]) (om_out [O_marker 1]))) [O_no_separators; O_no_line_numbers] = true /\
  eqb_list (om_out [O_marker 1]) (om_out []) = false /\
  width_matters [O_binary] = true /\ eqb_list (ap_out (kolombos (on_terminal om_world 52) [O_binary])) (om_out [O_binary]) = false.
Proof. repeat split; try (vm_compute; discriminate); vm_compute; reflexivity. Qed.
