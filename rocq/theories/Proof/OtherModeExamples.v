(** Examples and a counterexample for C111 *)
From Coq Require Import List Arith NArith ZArith Bool Lia.
From Verif.Model Require Import Base Ansi Settings Segment Template Parser Console Formatter Reader Runner Options Messages Legend Process Trace.
From Verif.Spec Require Import OtherMode.
From Verif.Proof Require Import OtherModeFacts.
Import ListNotations.
Local Open Scope N_scope.

(** ESC[1m, 01, LF, a letter of two bytes *)
Definition om_world : world := mkWorld [] [] [27; 91; 49; 109; 1; 10; 195; 169] false 80.
Definition om_out (l : list opt) : list N := ap_out (kolombos om_world l).

Definition om_traces (l : list opt) (evs : list read_ev) : list N :=
  match parse_args l with
  | Some s => shown (s_debug s) (tp_ev (fst (fst (tbyteio_run s 80 SrcStdin evs))))
  | None => []
  end.
Lemma traces_differ : exists evs, selects_binary [O_debug; O_decimal_offsets] = false /\
  without binary_option [O_debug; O_decimal_offsets] = [O_debug] /\
  om_traces [O_debug; O_decimal_offsets] evs <> om_traces [O_debug] evs.
Proof. exists [RData [65]]. split; [reflexivity|]. split; [reflexivity|]. vm_compute. discriminate. Qed.
