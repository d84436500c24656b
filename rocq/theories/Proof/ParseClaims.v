(** C03, C08, C09, C11, C13-C15 at the level of [parse]: what is attached to the segment buffer for
    each piece of the input *)
From Coq Require Import List Arith NArith ZArith Bool Lia.
From Verif.Model Require Import Base Ansi Regex Settings Segment Template Parser.
From Verif.Spec Require Import Numbers Terminal Utf8 Lexical SgrParams Display Names.
From Verif.Proof Require Import BaseFacts LexFacts TokFacts DisplayFacts LexClaims PieceClaims.
Import ListNotations.
Local Open Scope N_scope.

Section Parse.
  Variables (s : settings) (p : pbuf) (sb : sbuf) (ss : sgr_state) (ts : list (kind * list N)).
  Variables (p' : pbuf) (sb' : sbuf) (ss' : sgr_state).
  Hypothesis HB : is_bytes (pb_raw p).
  Hypothesis HL : Lexes (pb_raw p) ts.
  Hypothesis HP : parse (update_settings s) p sb ss = Ok (p', sb', ss').

  Lemma parse_binary : binary_mode s = true ->
    exists segss, sb' = attach sb (concat segss) /\
      Forall2 (fun t gs => flat_map seg_raw gs = snd t /\ Forall (fun g => length (seg_proc g) = length (seg_raw g)) gs) ts segss.
  Proof. intros B. eapply parse_pieces; eauto. intros k w rest gs _ T H. exact (bin_piece s k w rest gs B T H). Qed.

  Lemma parse_text_bytes : binary_mode s = false ->
    exists segss, sb' = attach sb (concat segss) /\
      Forall2 (fun t gs => flat_map seg_raw gs = recorded s (fst t) (snd t)) ts segss.
  Proof. intros B. eapply parse_pieces; eauto. intros k w rest gs _ T H. exact (text_recorded s k w rest gs B T H). Qed.

  Lemma parse_utf8 : binary_mode s = false -> s_ignore s CC_utf8 = false ->
    exists segss, sb' = attach sb (concat segss) /\
      Forall2 (fun t gs => forall cp, fst t = K_utf8 cp -> visible (flat_map seg_proc gs) = [cp]) ts segss.
  Proof.
    intros B I. eapply parse_pieces; eauto. intros k w rest gs _ T H cp E. cbn [fst] in E. subst k.
    rewrite (text_piece s _ w rest gs [] B T H eq_refl). unfold text_cells. cbn [class_of]. rewrite I. reflexivity.
  Qed.

  Lemma parse_control : binary_mode s = false -> s_ignore s CC_control = false ->
    exists segss, sb' = attach sb (concat segss) /\
      Forall2 (fun t gs => fst t = K_run R_control ->
        exists ds, Forall2 (ControlDetails (marker_level s)) (snd t) ds /\
                   visible (flat_map seg_proc gs) = concat (map (fun d => 0x2C6F :: d) ds)) ts segss.
  Proof.
    intros B I. eapply parse_pieces; eauto. intros k w rest gs _ T H E. cbn [fst] in E. subst k. exact (control_piece s w rest gs B I T H).
  Qed.

  Lemma seq_marker k m : SeqMarker k m <-> is_escape_seq k = true /\ marker s k = m.
  Proof.
    split.
    - intros [p0 i [->| ->]|p0 i H1 H2|p0 i f H| | | |]; split; try reflexivity; cbn [marker]; unfold csi_sort.
      + rewrite N.eqb_refl. destruct p0 as [|c [|]]; [easy| |reflexivity]. destruct (N.eqb_spec c 48); [now subst|reflexivity].
      + apply N.eqb_neq in H. now rewrite H.
    - intros [H <-]. destruct k as [| |p0 i f| | | | | | |r]; try discriminate; try constructor. cbn [marker]. unfold csi_sort.
      destruct (N.eqb_spec f 109) as [->|]; [|now constructor].
      destruct p0 as [|c [|c2 q]]; [constructor; now left| |constructor; discriminate].
      destruct (N.eqb_spec c 48) as [->|N]; [constructor; now right|]. constructor; [discriminate|congruence].
  Qed.

  Lemma tok_segs_handle e k w gs : tok_segs e k w = Ok gs -> exists ss2, tok_handle e k w sgr_state_init = Ok (gs, ss2).
  Proof.
    unfold tok_segs, tok_handle. destruct (tok_state k sgr_state_init) as [s2|]; [|discriminate]. cbn [bind]. intros ->. cbn [bind]. eauto.
  Qed.
  Lemma token_esc k w rest : Token k w rest -> is_escape_seq k = true -> hd 0 w = 27 /\ w <> [].
  Proof. intros T E. destruct T; try discriminate; split; (reflexivity || discriminate). Qed.

  Lemma parse_marker : s_ignore s CC_esc = false ->
    exists segss, sb' = attach sb (concat segss) /\
      Forall2 (fun t gs => forall m, SeqMarker (fst t) m -> exists g, In g gs /\ seg_raw g = [27] /\ seg_proc g = [m]) ts segss.
  Proof.
    intros I. eapply parse_pieces; eauto. intros k w rest gs _ T H m M. cbn [fst] in M. apply seq_marker in M as [M1 <-].
    destruct (token_esc _ _ _ T M1) as [W1 W2]. apply tok_segs_handle in H as [s2 H].
    refine (esc_marker s _ k w gs _ _ (env_of s) M1 _ W1 W2 H). destruct k; try discriminate; exact I.
  Qed.
  Lemma parse_marker_text : binary_mode s = false -> s_ignore s CC_esc = false ->
    exists segss, sb' = attach sb (concat segss) /\
      Forall2 (fun t gs => forall m, SeqMarker (fst t) m ->
        exists sep details, visible (flat_map seg_proc gs) = sep ++ m :: details /\ (sep = [] \/ sep = [0x28B8])) ts segss.
  Proof.
    intros B I. eapply parse_pieces; eauto. intros k w rest gs _ T H m M. cbn [fst] in M. apply seq_marker in M as [M1 <-].
    destruct (seg_codes _ _ _ _ H) as [c Hc]. rewrite (text_piece s k w rest gs c B T H Hc). unfold text_cells.
    assert (I' : s_ignore s (class_of k) = false) by (destruct k; try discriminate; exact I). rewrite I', M1. cbn [fst snd].
    rewrite map_app. cbn [map app fst]. rewrite <- app_assoc. cbn [app]. do 2 eexists. split; [reflexivity|]. destruct (separators s); auto.
  Qed.
  (** no other piece is shown with one of these signs in place of an escape sequence's *)
  Lemma marker_only_sort k1 k2 m : SeqMarker k1 m -> SeqMarker k2 m ->
    match k1, k2 with
    | K_csi p1 _ f1, K_csi p2 _ f2 => csi_sort p1 f1 = csi_sort p2 f2
    | K_nF, K_nF | K_Fp, K_Fp | K_Fe, K_Fe | K_Fs, K_Fs => True
    | _, _ => False
    end.
  Proof.
    intros H1 H2.
    destruct H1; inversion H2; subst; auto; unfold csi_sort;
      repeat match goal with H : _ = [] \/ _ = [48] |- _ => destruct H as [->| ->] end; try reflexivity; try (cbn [N.eqb]; rewrite ?N.eqb_refl).
    all: repeat match goal with |- context [?f =? 109] => destruct (N.eqb_spec f 109); [congruence|] | _ => rewrite N.eqb_refl end; try reflexivity.
    all: repeat match goal with |- context [match ?q with [] => _ | _ => _ end] => is_var q; destruct q as [|? [|]] end; try congruence; try reflexivity.
    all: repeat match goal with |- context [?c =? 48] => destruct (N.eqb_spec c 48); [congruence|] end; reflexivity.
  Qed.

  Lemma parse_sgr : binary_mode s = false -> marker_level s = L_brief -> s_ignore s CC_esc = false ->
    exists segss, sb' = attach sb (concat segss) /\
      Forall2 (fun t gs => forall ps i f, fst t = K_csi ps i f -> csi_sort ps f = C_sgr ->
        exists codes names, ParamCodes ps codes /\ Names codes names /\
          visible (flat_map seg_proc gs) = (if s_no_separators s then [] else [0x28B8]) ++ 0x1DD :: dotted names ++ (if s_no_separators s then [] else [0x2847])) ts segss.
  Proof.
    intros B L I. eapply parse_pieces; eauto. intros k w rest gs _ T H ps i f E C. cbn [fst] in E. subst k. exact (sgr_piece s ps i f w rest gs B L I C T H).
  Qed.

  Lemma parse_harmless : s_color_markers s = true -> s_ignore s CC_esc = false ->
    exists segss, sb' = attach sb (concat segss) /\
      Forall2 (fun t gs => forall ps i f, fst t = K_csi ps i f -> csi_sort ps f = C_sgr ->
        Forall (fun g => forall a, protected (sgr_apply (seg_open g) a) a /\
          (seg_label g <> TYPE_LABEL_DETAILS -> a_under (sgr_apply (seg_open g) a) = a_under a)) gs) ts segss.
  Proof.
    intros M I. eapply parse_pieces; eauto. intros k w rest gs _ T H ps i f E C. cbn [fst] in E. subst k. exact (sgr_harmless s ps i f w rest gs M I C T H).
  Qed.
End Parse.
