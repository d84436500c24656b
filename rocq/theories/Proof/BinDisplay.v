(** Templates in binary mode *)
From Coq Require Import List Arith NArith ZArith Bool Lia.
From Verif.Model Require Import Base Ansi Strip Settings Segment Template.
From Verif.Spec Require Import Numbers Terminal Sgr Utf8 Lexical SgrParams Display.
From Verif.Proof Require Import BaseFacts RegexFacts TermFacts ClosingFacts LexFacts TokFacts PaintFacts DisplayFacts.
Import ListNotations.
Local Open Scope N_scope.

(** what a template makes of a byte *)
Definition byte_text (s : settings) (k : kind) (b : N) : str :=
  if s_ignore s (class_of k) then
    ignored_sign :: match k with K_newline => if binary_mode s then [] else [10] | _ => [] end
  else match k with
       | K_utf8 _ => if binary_mode s then [marker s k] else []
       | K_newline => marker s k :: if binary_mode s then [] else assemble [0] ++ [10]
       | K_run R_tab => marker s k :: if binary_mode s then [] else [9]
       | K_run R_printable => [b]
       | _ => [marker s k]
       end.
Lemma process_byte_text s e k b : Env s e -> process_byte e (tok_tpl k) b = byte_text s k b.
Proof.
  intros E. unfold process_byte, process_byte_base, byte_text, mode_get, t_disp, marker.
  rewrite !tok_class, !(env_display s e E), !(env_read s e E).
  destruct k as [| |p i f| | | | | | |r];
   [ | | rewrite tpl_csi; cbn [class_of]; destruct (csi_sort p f) | | | | | | | destruct r ]; cbn [tok_tpl class_of];
  match goal with |- context [s_ignore s ?c] => destruct (s_ignore s c); [|destruct (s_focus s c)] end;
  destruct (binary_mode s); reflexivity.
Qed.
Lemma process_base_text s e k w : Env s e -> process_base e (tok_tpl k) w = flat_map (byte_text s k) w.
Proof. intros E. unfold process_base. apply flat_map_ext_in. intros b _. now apply process_byte_text. Qed.

Definition decodes (s : settings) (k : kind) : bool :=
  match k with K_utf8 _ => negb (s_ignore s CC_utf8) && (negb (binary_mode s) || decoding s) | _ => false end.
Lemma kind_utf8 k : t_kind (tok_tpl k) = T_utf8 -> exists cp, k = K_utf8 cp.
Proof.
  destruct k as [cp| |p i f| | | | | | |r]; try discriminate; try (destruct r; discriminate); [eauto|].
  rewrite tpl_csi. destruct (csi_sort p f); discriminate.
Qed.
Lemma process_text s e k w : Env s e -> decodes s k = false -> process e (tok_tpl k) w = flat_map (byte_text s k) w.
Proof.
  intros E D. unfold process. pose proof (process_base_text s e k w E) as P.
  destruct (t_kind (tok_tpl k)) eqn:K; try exact P.
  apply kind_utf8 in K as [cp ->]. unfold t_disp. rewrite tok_class, (env_display s e E), (env_read s e E), (env_decode s e E).
  cbn [class_of decodes] in *. destruct (s_ignore s CC_utf8); [exact P|].
  destruct (binary_mode s), (decoding s), (s_focus s CC_utf8); cbn in D |- *; try discriminate D; exact P.
Qed.

Lemma byte_text_bin s k : binary_mode s = true ->
  forall b, byte_text s k b = [if s_ignore s (class_of k) then ignored_sign else match k with K_run R_printable => b | _ => marker s k end].
Proof.
  intros B b. unfold byte_text. rewrite B. destruct (s_ignore s (class_of k)); [destruct k; reflexivity|].
  destruct k as [| |p i f| | | | | | |r]; try reflexivity. destruct r; reflexivity.
Qed.
Lemma marker_not_esc s k : marker s k <> 27.
Proof.
  unfold marker. destruct k as [| |p i f| | | | | | |r]; try easy.
  - destruct (binary_mode s); easy.
  - destruct (csi_sort p f); easy.
  - destruct r; try easy. destruct (s_focus s CC_space); easy.
Qed.

Lemma disp_ignored s e k : Env s e -> is_ignored (t_disp e (tok_tpl k)) = s_ignore s (class_of k).
Proof. intros E. unfold t_disp. rewrite tok_class, (env_display s e E). destruct (s_ignore s (class_of k)); [|destruct (s_focus s (class_of k))]; reflexivity. Qed.

Lemma bin_base s e k w rest : Env s e -> binary_mode s = true -> Token k w rest ->
  (is_escape_seq k = false \/ s_ignore s (class_of k) = true) ->
  Forall good_bin (substitute_base e (tok_tpl k) w) /\ forall codes, flat_map seg_cells3 (substitute_base e (tok_tpl k) w) = binary_cells s k w codes.
Proof.
  intros E B HT Hk. pose proof (opening_facts s e k E) as (G & _ & A). unfold opening_of in *.
  pose proof (token_nonempty _ _ _ HT) as Hw. unfold substitute_base.
  destruct (decodes s k) eqn:D.
  - unfold decodes in D. destruct k as [cp| | | | | | | | |]; try discriminate D. apply andb_true_iff in D as [D1 D2].
    apply negb_true_iff in D1. rewrite B in D2. cbn [negb orb] in D2.
    inversion HT as [cp' rest' Hs Hc E1 E2 E3| | | | | | | | |]; subst. cbn [class_of] in A. rewrite D1 in A.
    destruct (utf8_decode_encode cp Hs Hc) as [UD UL].
    assert (P : process e (tok_tpl (K_utf8 cp)) (utf8_encode cp) = repeat 95 (length (utf8_encode cp) - 1) ++ [cp]).
    { unfold process. cbn [tok_tpl T_UTF_8_SEQ mkTemplate t_kind].
      change T_UTF_8_SEQ with (tok_tpl (K_utf8 cp)). rewrite (disp_ignored s e (K_utf8 cp) E). cbn [class_of]. rewrite D1.
      rewrite (env_read s e E), B, (env_decode s e E), D2. cbn [is_text is_binary orb]. rewrite UD.
      change (length [cp]) with 1%nat. destruct (Nat.ltb_spec 1 (length (utf8_encode cp))); [|lia]. reflexivity. }
    rewrite P. split.
    + constructor; [|constructor]. split; [exact G|]. split; [exact Hw|]. split.
      * cbn [seg_proc seg_raw]. rewrite app_length, repeat_length. cbn [length]. lia.
      * cbn [seg_proc]. apply Forall_app. split; [|constructor; [lia|constructor]].
        apply Forall_forall. intros x Hx. apply repeat_spec in Hx. subst. easy.
    + intros codes. cbn [flat_map]. rewrite app_nil_r. unfold seg_cells3, binary_cells. cbn [seg_raw seg_proc seg_open class_of is_escape_seq].
      rewrite D1, D2, A. reflexivity.
  - rewrite (process_text s e k w E D).
    rewrite (flat_map_ext_in _ _ w (fun b _ => byte_text_bin s k B b)), flat_map_single. split.
    + constructor; [|constructor]. apply good_bin_map; auto. rewrite Forall_forall. intros b Hb.
      destruct (s_ignore s (class_of k)); [easy|]. destruct k as [| |p i f| | | | | | |r]; try apply marker_not_esc.
      destruct r; try apply marker_not_esc. inversion HT as [| | | | | | | | |k' w' rest' H1 H2 H3]; subst.
      rewrite Forall_forall in H2. specialize (H2 b Hb). cbn in H2. unfold rng in H2. lia.
    + intros codes. cbn [flat_map]. rewrite app_nil_r, cells3_map, A. unfold binary_cells.
      destruct (s_ignore s (class_of k)) eqn:I; [reflexivity|]. destruct Hk as [Hk|Hk]; [|discriminate]. rewrite Hk.
      destruct k as [| |p i f| | | | | | |r]; try reflexivity; try discriminate Hk; [|destruct r; reflexivity].
      cbn [decodes class_of] in D, I. rewrite I, B in D. cbn in D. rewrite D. reflexivity.
Qed.

Lemma tpl_kind_esc k : is_escape_seq k = true -> t_kind (tok_tpl k) = T_esc \/ t_kind (tok_tpl k) = T_esc_sgr.
Proof.
  destruct k as [| |p i f| | | | | | |r]; try discriminate; auto. rewrite tpl_csi. destruct (csi_sort p f); auto.
Qed.
Lemma tpl_kind_other k : is_escape_seq k = false ->
  t_kind (tok_tpl k) <> T_esc /\ t_kind (tok_tpl k) <> T_esc_sgr /\ (t_kind (tok_tpl k) = T_control -> k = K_run R_control).
Proof. destruct k as [| |p i f| | | | | | |r]; try discriminate; try easy. destruct r; easy. Qed.

Lemma substitute_escape e t ss raw : t_kind t = T_esc \/ t_kind t = T_esc_sgr ->
  substitute e t ss raw =
  if is_ignored (t_disp e t) then Ok (substitute_base e t raw)
      else
        bind (label_opening_seq e t ss) (fun o =>
        bind (esc_details e t ss (skipn 1 raw)) (fun det =>
          let segs := mkSeg o (type_label (t_class t)) (firstn 1 raw) (process e t (firstn 1 raw)) :: det in
          Ok (if (negb (is_binary (te_read e)) && negb (te_no_separators e)
                  && match te_details e with MD_brief | MD_full => true | _ => false end)%bool
              then wrap_in_separators segs else segs))).
Proof. unfold substitute. intros [-> | ->]; reflexivity. Qed.

Lemma process_esc s e k : Env s e -> is_escape_seq k = true -> s_ignore s (class_of k) = false ->
  process e (tok_tpl k) [27] = [marker s k].
Proof.
  intros E Hk I. rewrite (process_text s e k [27] E) by (destruct k; [discriminate Hk|reflexivity..]).
  cbn [flat_map]. rewrite app_nil_r. unfold byte_text. rewrite I. destruct k; try reflexivity; discriminate Hk.
Qed.

Lemma bin_tok s e k w rest segs codes :
  Env s e -> binary_mode s = true -> Token k w rest -> tok_segs e k w = Ok segs -> TokCodes k codes ->
  Forall good_bin segs /\ flat_map seg_cells3 segs = binary_cells s k w codes.
Proof.
  intros E B HT HS HC. unfold tok_segs in HS.
  destruct (tok_state k sgr_state_init) as [ss|] eqn:TS; [|discriminate]. cbn [bind] in HS.
  apply tok_state_codes in TS as (codes' & HC' & Hss). rewrite (TokCodes_det _ _ _ HC HC') in *. clear HC codes.
  destruct (is_escape_seq k) eqn:Hk.
  - rewrite substitute_escape in HS by now apply tpl_kind_esc. rewrite (disp_ignored s e k E) in HS.
    destruct (s_ignore s (class_of k)) eqn:I.
    + injection HS as <-. destruct (bin_base s e k w rest E B HT (or_intror I)) as [H1 H2]. auto.
    + destruct (label_facts s e k ss codes' E Hk I (fun p i f K1 K2 => proj1 (Hss p i f K1 K2))) as (lo & LE & LG & LA). rewrite LE in HS.
      destruct (details_facts s e k ss codes' E (or_introl Hk) (fun p i f K1 K2 => proj1 (Hss p i f K1 K2))) as (dop & DE & DG & _ & DA).
      unfold esc_details in HS. rewrite (env_details s e E), (env_read s e E), B, DE in HS. cbn [bind is_binary negb andb] in HS.
      injection HS as <-. destruct (esc_shape k w rest HT Hk) as (t & -> & Ht & Hr). cbn [skipn firstn].
      rewrite (process_esc s e k E Hk I). rewrite ascii_ignore_id by (eapply Forall_impl; [|exact Hr]; cbn beta; intros; lia).
      rewrite <- (map_id t) at 2 4. split.
      * constructor; [|constructor; [|constructor]].
        -- split; [exact LG|]. split; [easy|]. split; [reflexivity|]. constructor; [apply marker_not_esc|constructor].
        -- apply good_bin_map; auto. eapply Forall_impl; [|exact Hr]; cbn beta; intros; lia.
      * cbn [flat_map]. rewrite cells3_map, app_nil_r. unfold seg_cells3 at 1. cbn [seg_raw seg_proc seg_open combine length repeat app].
        unfold binary_cells. rewrite I, Hk, LA, DA. reflexivity.
  - destruct (tpl_kind_other k Hk) as (K1 & K2 & K3).
    assert (HS' : segs = substitute_base e (tok_tpl k) w).
    { unfold substitute in HS. destruct (t_kind (tok_tpl k)) eqn:K; try easy; try congruence.
      rewrite (env_details s e E), B in HS. unfold substitute_base. congruence. }
    subst segs. destruct (bin_base s e k w rest E B HT (or_introl Hk)) as [H1 H2]. auto.
Qed.
