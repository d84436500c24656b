(** C101: what the program writes can be encoded *)
From Coq Require Import Ascii String.
From Coq Require Import List NArith ZArith Bool.
From Verif.Model Require Import Base Settings Reader Runner Options Process Trace SettingsDump TracedProcess Args Help.
From Verif.Spec Require Import Utf8 Process Encoding.
From Verif.Proof Require Import SettingsFacts TracedClaims EncodeMain.
Import ListNotations.
Local Open Scope N_scope.

(** Whatever the arguments, the files, the input and the terminal: no character of the output is
    without a UTF-8 encoding. *)
Theorem C101_output : forall w tty argv, well_formed w ->
  encoded utf_8 (ap_out (started w tty argv)) = Some (utf8_text (ap_out (started w tty argv))).
Proof. exact started_encoded. Qed.
Print Assumptions C101_output.

(** With debug output, too, if the name of the file is made of characters. *)
Theorem C101_debug_partial : forall printable traceback w s, well_formed w ->
  match s_filename s with Some f => Forall scalar f | None => True end ->
  (forall c, printable c = true -> scalar c) -> (forall e, Forall scalar (traceback e)) ->
  encoded utf_8 (shown (s_debug s) (traced_with printable traceback w s)) = Some (utf8_text (shown (s_debug s) (traced_with printable traceback w s))).
Proof. exact traced_encoded. Qed.
Print Assumptions C101_debug_partial.

(** For a file name that is not UTF-8, debug output is an error though the same file can be
    displayed without it. *)
Theorem C101_debug_refuted : exists w argv s, well_formed w /\ Forall (Forall from_bytes) argv /\ command_line argv = C_run s /\
  forall printable traceback, encoded utf_8 (shown (s_debug s) (traced_with printable traceback w s)) = None /\
  exists argv' s', command_line argv' = C_run s' /\ s_debug s' = 0%nat /\ s_filename s' = s_filename s /\
    ap_code (kolombos_with w s') = Some 0%Z /\ encoded utf_8 (shown (s_debug s') (traced_with printable traceback w s')) <> None.
Proof. exact debug_fails. Qed.
Print Assumptions C101_debug_refuted.

(** UTF-8 is needed. *)
Theorem C101_latin_refuted : exists w argv, well_formed w /\ encoded latin_1 (ap_out (started w false argv)) = None /\ ap_code (started w false argv) = Some 0%Z.
Proof. exact latin_fails. Qed.
Print Assumptions C101_latin_refuted.

(** all 256 bytes, and what they look like; debug output at level 3 *)
Example C101_example :
  let w := mkWorld [([102; 111; 111], Regular (map N.of_nat (seq 0 256) ++ [0xED; 0xA0; 0x80; 0xF0; 0x9F; 0x98; 0x80]))] [] [] false 80 in
  well_formed w /\ (256 < List.length (ap_out (started w true [[102; 111; 111]%N])))%nat /\
  (let s := case_settings 3 [102; 111; 111] in
   Forall scalar [102; 111; 111] /\ (forall c, latin c = true -> scalar c) /\ (1000 < List.length (shown (s_debug s) (traced_with latin (fun _ => []) w s)))%nat).
Proof. exact encode_case. Qed.
