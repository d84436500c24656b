(** Witnesses and corollaries for the claims about what is displayed *)
From Coq Require Import List Arith NArith ZArith Bool Lia.
From Verif.Model Require Import Base Ansi Settings Segment Template Parser Reader Runner Options.
From Verif.Spec Require Import Numbers Terminal Utf8 Lexical SgrParams Display Output Input Names Compare History.
From Verif.Proof Require Import LookClaims ExampleFacts.
Import ListNotations.
Local Open Scope N_scope.

Lemma bytes_witness :
  (exists p' sb' ss', parse (update_settings (text_marked 1)) (mkPbuf [3; 3] true) sbuf_init sgr_state_init = Ok (p', sb', ss') /\
     bytes_in (sb_chain sb') = [0; 0; 0; 0; 0; 0]) /\
  (exists p' sb' ss', parse (update_settings default_settings) (mkPbuf [27; 91; 72] true) sbuf_init sgr_state_init = Ok (p', sb', ss') /\
     bytes_in (sb_chain sb') = [27]).
Proof. split; do 3 eexists; (split; [vm_compute; reflexivity|reflexivity]). Qed.

Lemma bin_clean s tc cols src evs chunks p acts en :
  opens src -> binary_ok s tc cols -> Processed s evs chunks -> decoding s = false -> byteio_run s tc src evs = (p, acts, en) ->
  clean (pr_out p).
Proof.
  intros H1 H2 H3 H4 H5. unfold clean. apply forallb_forall. intros [c a|c] Hc; [reflexivity|].
  destruct (bin_leaks s tc cols src evs chunks p acts en H1 H2 H3 H5 c Hc) as [K _]. congruence.
Qed.

Lemma leak_witness : exists s tc src evs p acts,
  byteio_run s tc src evs = (p, acts, REnd) /\ In (Leak 0x9B) (screen (pr_out p)).
Proof.
  exists default_settings, 80%Z, SrcStdin, [RData [194; 155]]. do 2 eexists. split; [vm_compute; reflexivity|]. vm_compute. repeat (first [left; reflexivity|right]).
Qed.
