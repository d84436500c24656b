(** Lemmas for C109: which characters are underlined *)
From Coq Require Import List Arith NArith ZArith Bool Lia.
From Verif.Model Require Import Base Ansi Settings Segment Template Parser Console Formatter Reader Runner Options.
From Verif.Spec Require Import Numbers Terminal Utf8 Lexical SgrParams Display Output Input Underline.
From Verif.Proof Require Import LexFacts BaseFacts RunClaims BinClaims ShowClaims LookClaims MoreClaims ExampleFacts RunExtra OffsetShown.
Import ListNotations.
Local Open Scope N_scope.

Lemma under_base k : a_under (base_style k) = 0.
Proof. destruct k as [| |p i f| | | | | | |r]; try reflexivity; simpl; [now destruct (csi_sort p f)|now destruct r]. Qed.
Lemma under_focus k : a_under (focus_style k) = 0.
Proof. unfold focus_style. destruct (class_of k); try reflexivity; exact (under_base k). Qed.
Lemma under_plain s k : a_under (plain_style s k) = 0.
Proof. unfold plain_style. destruct (s_focus s (class_of k)); [apply under_focus|apply under_base]. Qed.

Lemma under_harmless c a : a_under (harmless c a) = a_under a.
Proof.
  unfold harmless. destruct (_ || _) eqn:E; [|reflexivity].
  unfold sgr_code.
  repeat match goal with
  | |- context [if ?b then _ else _] => let H := fresh in destruct b eqn:H; try reflexivity; try (apply N.eqb_eq in H; subst c; vm_compute in E; discriminate E)
  end.
Qed.
Lemma under_effect codes : forall a, a_under (harmless_effect codes a) = a_under a.
Proof.
  assert (H : forall n codes, (length codes <= n)%nat -> forall a, a_under (harmless_effect codes a) = a_under a).
  { clear codes. induction n as [|n IH]; intros codes L a.
    - destruct codes; [reflexivity|simpl in L; lia].
    - destruct codes as [|c t]; [reflexivity|]. simpl in L. cbn [harmless_effect].
      destruct ((c =? 38) || (c =? 48)).
      + destruct t as [|m [|x t2]]; [apply (IH []); simpl; lia|apply (IH [m]); simpl in *; lia|].
        simpl in L. destruct (m =? 5).
        * rewrite IH by lia. now destruct (c =? 38).
        * destruct t2 as [|g [|b t4]]; try (apply IH; simpl in *; lia).
          destruct (m =? 2); [|apply IH; simpl in *; lia]. rewrite IH by (simpl in *; lia). now destruct (c =? 38).
      + rewrite IH by lia. apply under_harmless. }
  apply (H (length codes)). lia.
Qed.
Lemma under_label s k codes : a_under (label_style s k codes) = 0.
Proof.
  unfold label_style. destruct k as [| |p i f| | | | | | |r]; try apply under_plain.
  destruct (csi_sort p f); try apply under_plain. destruct (s_color_markers s); [|apply under_plain]. now rewrite under_effect.
Qed.
Lemma under_details s k codes : a_under (details_style s k codes) = 1.
Proof.
  unfold details_style. destruct k as [| |p i f| | | | | | |r]; try reflexivity.
  destruct (csi_sort p f); try reflexivity. destruct (s_color_markers s); [|reflexivity]. now rewrite under_effect.
Qed.

Lemma under_false x : a_under (snd x) = 0 -> underlined x = false.
Proof. unfold underlined. now intros ->. Qed.
Lemma under_styled a l : map underlined (styled a l) = repeat (negb (a_under a =? 0)) (length l).
Proof. induction l as [|x l IH]; [reflexivity|]. simpl. now rewrite IH. Qed.

(** a piece is an escape sequence iff it starts with ESC and goes on *)
Lemma token_sequence k w rest codes : Token k w rest -> sequence (k, w, codes) = is_escape_seq k.
Proof.
  unfold sequence, tok_bytes; simpl fst; simpl snd. intros T. inversion T; subst; try reflexivity; simpl.
  - assert (HU : forall b t, utf8_encode cp = b :: t -> b <> 27).
    { intros b t E. unfold utf8_encode in E.
      destruct (cp <? 128) eqn:E1; [apply N.ltb_lt in E1; lia|].
      destruct (cp <? 2048); [injection E as <- _; generalize (cp / 64); intros; lia|].
      destruct (cp <? 65536); injection E as <- _; [generalize (cp / 4096)|generalize (cp / 262144)]; intros; lia. }
    destruct (utf8_encode cp) as [|b t]; [reflexivity|]. specialize (HU b t eq_refl).
    destruct b; [reflexivity|]. destruct t as [|y t]; repeat (destruct p; try reflexivity). exfalso; apply HU; reflexivity.
  - destruct w as [|b t]; [reflexivity|]. assert (B : high b) by (match goal with H : Forall high _ |- _ => inversion H; assumption end).
    destruct B. destruct t; [now destruct b; repeat (destruct p; try reflexivity)|].
    destruct b; [reflexivity|]. repeat (destruct p; try reflexivity). lia.
  - now destruct i.
  - destruct w as [|b t]; [reflexivity|]. assert (B : run_member k0 b) by (match goal with H : Forall _ _ |- _ => inversion H; assumption end).
    destruct t as [|y t]; [now destruct b; repeat (destruct p; try reflexivity)|].
    destruct b; [reflexivity|]. repeat (destruct p; try reflexivity).
    exfalso. destruct k0; simpl in B; unfold rng in B; lia.
Qed.

Definition piece (t : token) : Prop := exists rest, Token (tok_kind t) (tok_bytes t) rest.
Lemma lexes_pieces c ts : Lexes c ts -> Forall (fun t => exists rest, Token (fst t) (snd t) rest) ts.
Proof. induction 1; constructor; [now exists rest|assumption]. Qed.
Lemma tokens_pieces chunks toks : Tokens chunks toks -> Forall piece toks.
Proof.
  intros (tss & L & C).
  assert (F : Forall (fun t => exists rest, Token (fst t) (snd t) rest) (concat tss)).
  { clear C. induction L as [|c ts cs tss' H _ IH]; [constructor|]. simpl. apply Forall_app. split; [now apply (lexes_pieces c)|exact IH]. }
  revert F. induction C as [|t x ts xs [-> _] _ IH]; intros F; constructor; inversion F; subst; [|now apply IH].
  destruct x as [[k w] codes]. assumption.
Qed.
Lemma piece_nonempty t : piece t -> tok_bytes t <> [].
Proof.
  destruct t as [[k w] codes]. intros [rest T]. unfold tok_kind, tok_bytes in *. simpl in *. inversion T; subst; try discriminate; try assumption.
  unfold utf8_encode. destruct (cp <? 128); [discriminate|]. destruct (cp <? 2048); [discriminate|]. destruct (cp <? 65536); discriminate.
Qed.
Lemma piece_sequence t : piece t -> sequence t = is_escape_seq (tok_kind t).
Proof. destruct t as [[k w] codes]. intros [rest T]. exact (token_sequence k w rest codes T). Qed.

Lemma escape_class k : is_escape_seq k = true -> class_of k = CC_esc.
Proof. now destruct k. Qed.

Lemma map_const {A B} (f : A -> B) b l : (forall x, In x l -> f x = b) -> map f l = repeat b (length l).
Proof. induction l as [|x l IH]; intros H; [reflexivity|]. simpl. rewrite (H x) by now left. f_equal. apply IH. intros; apply H; now right. Qed.

Definition bunder (x : bcell) : bool := underlined (char_cell x).
Lemma bunder_cells s t : piece t -> map bunder (binary_cells s (tok_kind t) (tok_bytes t) (tok_codes t)) = rule_bytes s t.
Proof.
  intros P. pose proof (piece_nonempty t P) as NE. pose proof (piece_sequence t P) as Q. clear P.
  destruct t as [[k w] codes]. unfold tok_kind, tok_bytes, tok_codes in *. simpl in Q, NE. simpl fst. simpl snd.
  unfold rule_bytes, binary_cells. rewrite Q. unfold tok_bytes. simpl fst. simpl snd.
  destruct (is_escape_seq k) eqn:K.
  - rewrite (escape_class k K). destruct (s_ignore s CC_esc); simpl.
    + rewrite map_map. apply map_const. reflexivity.
    + destruct w as [|b t]; [congruence|]. simpl. f_equal.
      * unfold bunder, char_cell. apply under_false. apply under_label.
      * rewrite map_map, Nat.sub_0_r. apply map_const. intros c _. unfold bunder, char_cell, underlined. simpl. now rewrite under_details.
  - simpl andb. cbv iota. destruct (s_ignore s (class_of k)).
    + rewrite map_map. apply map_const. reflexivity.
    + assert (ST : forall b c, bunder (b, c, plain_style s k) = false) by (intros; unfold bunder, char_cell; apply under_false; apply under_plain).
      assert (G : forall g : N -> N, map bunder (map (fun b => (b, g b, plain_style s k)) w) = repeat false (length w))
        by (intros g; rewrite map_map; apply map_const; intros; apply ST).
      destruct k; try discriminate K; try exact (G _).
      * destruct (decoding s); [|exact (G _)].
        rewrite map_const with (b := false).
        -- f_equal. etransitivity; [apply combine_length|]. rewrite combine_length, app_length, !repeat_length. cbn [length]. destruct w; [congruence|cbn [length]; lia].
        -- intros [[b c] a] I. apply in_combine_r in I. apply repeat_spec in I. subst a. apply ST.
      * destruct r; exact (G _).
Qed.
Lemma bunder_all s toks : Forall piece toks -> map bunder (byte_cells s toks) = flat_map (rule_bytes s) toks.
Proof.
  induction 1 as [|t toks P _ IH]; [reflexivity|]. unfold byte_cells in *. simpl. rewrite map_app, IH. f_equal. now apply bunder_cells.
Qed.

Lemma under_styled0 a l : a_under a = 0 -> map underlined (styled a l) = repeat false (length l).
Proof. intros E. now rewrite under_styled, E. Qed.

Lemma bar_under s : underlined (bar s) = false.
Proof. reflexivity. Qed.
Lemma aligned_length w l : (length l <= w)%nat -> length (aligned w l) = w.
Proof. intros. unfold aligned. rewrite app_length, repeat_length. lia. Qed.
Lemma offset_under s a off : a_under a = 0 -> map underlined (offset_cells s a off) = repeat false 8.
Proof.
  intros E. unfold offset_cells. destruct (s_decimal_offsets s).
  - rewrite under_styled0 by assumption. rewrite aligned_length; [reflexivity|]. rewrite firstn_length. lia.
  - set (l := firstn 6 _). assert (L : (length l <= 6)%nat) by (unfold l; rewrite firstn_length; lia).
    rewrite !map_app, !under_styled0 by assumption. rewrite repeat_length, <- !repeat_app. f_equal. cbn [length]. lia.
Qed.
Definition small (y : bcell) : Prop := fst (fst y) < 256.
Lemma piece_bytes t : piece t -> Forall (fun b => b < 256) (tok_bytes t).
Proof.
  destruct t as [[k w] codes]. intros [rest T]. unfold tok_kind, tok_bytes in *. simpl in *.
  assert (R : forall lo hi l, hi < 256 -> Forall (rng lo hi) l -> Forall (fun b => b < 256) l)
    by (intros lo hi l L F; eapply Forall_impl; [|exact F]; intros x [_ X]; lia).
  inversion T; subst.
  - apply (R 128 255); [lia|]. now apply utf8_high.
  - now apply (R 128 255).
  - match goal with H : csi_tail _ _ _ |- _ => destruct H as (A & B & C) end.
    constructor; [lia|]. constructor; [lia|]. apply Forall_app. split; [now apply (R 48 63)|]. apply Forall_app. split; [now apply (R 32 47)|].
    apply (R 64 126); [lia|]. now constructor.
  - match goal with H : nf_tail _ _ |- _ => destruct H as (A & B & C) end.
    constructor; [lia|]. apply Forall_app. split; [now apply (R 32 47)|]. apply (R 48 126); [lia|]. now constructor.
  - constructor; [lia|]. apply (R 48 63); [lia|]. now constructor.
  - constructor; [lia|]. apply (R 64 95); [lia|]. now constructor.
  - constructor; [lia|]. apply (R 96 126); [lia|]. now constructor.
  - repeat constructor.
  - repeat constructor.
  - eapply Forall_impl; [|match goal with H : Forall (run_member _) _ |- _ => exact H end].
    intros x X. destruct k0; simpl in X; unfold rng in X; lia.
Qed.
Lemma small_cells s toks : Forall piece toks -> Forall small (byte_cells s toks).
Proof.
  induction 1 as [|t toks P _ IH]; [constructor|]. unfold byte_cells in *. cbn [flat_map]. apply Forall_app. split; [|exact IH].
  pose proof (piece_bytes t P) as B. destruct P as [rest T].
  rewrite <- (binary_cells_bytes s (tok_kind t) (tok_bytes t) (tok_codes t)) in B by (eapply token_nonempty; exact T).
  apply Forall_map in B. exact B.
Qed.
Lemma hex_under x : small x -> map underlined (hex_cells x) = [bunder x; bunder x; bunder x].
Proof. destruct x as [[b c] a]. intros S. unfold hex_cells. destruct (hex2 b S) as (h & d & -> & _). reflexivity. Qed.
Lemma flat_hex_under row : Forall small row -> map underlined (flat_map hex_cells row) = flat_map (fun u => [u; u; u]) (map bunder row).
Proof. induction 1 as [|x row S _ IH]; [reflexivity|]. cbn [flat_map map]. now rewrite map_app, hex_under, IH. Qed.

Lemma row_under s cols off row : Forall small row -> map underlined (row_cells s cols off row) = rule_row s cols (map bunder row).
Proof.
  intros S. unfold row_cells, rule_row. rewrite !map_app, flat_hex_under, under_styled0 by (assumption || reflexivity). rewrite repeat_length, map_length, map_map.
  f_equal; [|f_equal].
  - destruct (with_offsets s); [|reflexivity]. rewrite map_app, offset_under by reflexivity. reflexivity.
  - rewrite repeat_app, <- app_assoc. f_equal. destruct (with_offsets s); reflexivity.
Qed.
Lemma rows_under s cols : forall rows off, Forall (Forall small) rows ->
  map (map underlined) (rows_cells s cols off rows) = map (rule_row s cols) (map (map bunder) rows).
Proof. induction rows as [|r rows IH]; intros off F; [reflexivity|]. inversion F; subst. cbn [rows_cells map]. now rewrite row_under, IH. Qed.

Lemma binary_under s cols toks : (0 < cols)%nat -> Forall piece toks ->
  map (map underlined) (binary_rows s cols (byte_cells s toks)) = rule_rows s cols toks.
Proof.
  intros C P. unfold binary_rows, rule_rows. rewrite map_app, rows_under by (apply groups_Forall; [exact C|now apply small_cells]).
  rewrite <- groups_map, bunder_all by assumption. f_equal.
  unfold total_cells. destruct (with_offsets s); [|reflexivity]. cbn [map]. rewrite map_app, offset_under by reflexivity. reflexivity.
Qed.
Lemma Forall_firstn {A} (P : A -> Prop) n l : Forall P l -> Forall P (firstn n l).
Proof. intros F. rewrite <- (firstn_skipn n l) in F. now apply Forall_app in F. Qed.
Lemma binary_under_so_far s cols toks : (0 < cols)%nat -> Forall piece toks ->
  map (map underlined) (binary_rows_so_far s cols (byte_cells s toks)) = rule_rows_so_far s cols toks.
Proof.
  intros C P. unfold binary_rows_so_far, rule_rows_so_far.
  rewrite rows_under by (apply groups_Forall; [exact C|]; apply Forall_firstn; now apply small_cells).
  cbv zeta. rewrite <- groups_map, <- (bunder_all s toks P), firstn_map, map_length. reflexivity.
Qed.

(** ** text mode *)
Lemma names_under a names : a_under a = 1 -> map underlined (name_cells a names) = dotted_rule names.
Proof.
  intros E. induction names as [|n rest IH]; [reflexivity|].
  assert (N1 : forall l, map underlined (styled a l) = repeat true (length l)) by (intros; now rewrite under_styled, E).
  destruct rest as [|m rest]; [exact (N1 n)|]. cbn [name_cells dotted_rule]. rewrite map_app, N1, map_app. f_equal. cbn [map app]. f_equal. exact IH.
Qed.
Lemma control_under s b : b < 256 -> map underlined (control_details_cells s b) = control_details s.
Proof.
  intros L. unfold control_details_cells, control_details. destruct (marker_level s); try reflexivity.
  destruct (hex2 b L) as (h & d & -> & _). reflexivity.
Qed.

Lemma piece_under s t : piece t -> (map underlined (fst (tok_cells s t)), map underlined (snd (tok_cells s t))) = rule_piece s t.
Proof.
  intros P. pose proof (piece_nonempty t P) as NE. pose proof (piece_sequence t P) as Q. pose proof (piece_bytes t P) as B. clear P.
  destruct t as [[k w] codes]. unfold rule_piece. rewrite Q. unfold generic_control, sequence_details, tok_cells, tok_kind, tok_bytes, tok_codes in *. simpl in Q, NE, B. simpl fst. simpl snd.
  unfold text_cells. destruct (is_escape_seq k) eqn:K.
  - rewrite (escape_class k K). destruct (s_ignore s CC_esc); cbn [andb negb].
    + assert (H : forall l : list tcell, (forall x, In x l -> underlined x = false) -> map underlined l = map (fun _ => false) l) by (intros; now apply map_ext_in).
      destruct k; try discriminate K; cbn [andb fst snd map]; f_equal; apply H; intros x I; apply in_flat_map in I; destruct I as (y & _ & [<-|[]]); reflexivity.
    + cbn [fst snd]. f_equal.
      * rewrite map_app. f_equal; [destruct (separators s); reflexivity|]. cbn [map app]. f_equal; [apply under_false; apply under_label|].
        unfold escape_details_cells. destruct (marker_level s).
        -- reflexivity.
        -- destruct k; try reflexivity. destruct (csi_sort params final); try reflexivity. apply names_under. apply under_details.
        -- rewrite under_styled, under_details. destruct w; [congruence|]. cbn [tl length]. now rewrite Nat.sub_1_r.
      * destruct (separators s); reflexivity.
  - cbn [andb]. cbv iota. destruct (s_ignore s (class_of k)) eqn:IG.
    + assert (GC : (match k with K_run R_control => true | _ => false end && negb (s_ignore s CC_control))%bool = false).
      { destruct k as [| | | | | | | | |r]; try reflexivity. destruct r; try reflexivity. simpl in IG. now rewrite IG. }
      rewrite GC. cbn [fst snd]. f_equal. apply map_ext_in. intros x I. apply in_flat_map in I. destruct I as (y & _ & [<-|I]); [reflexivity|].
      destruct k; try destruct I as [<-|[]]; try destruct I; reflexivity.
    + assert (ST : forall c, underlined (c, plain_style s k) = false) by (intros; apply under_false; apply under_plain).
      assert (G : forall l : list tcell, (forall x, In x l -> snd x = plain_style s k) -> map underlined l = map (fun _ => false) l).
      { intros l H. apply map_ext_in. intros [c a] I. specialize (H _ I). simpl in H. subst a. apply ST. }
      destruct k as [| | | | | | | | |r]; try discriminate K; cbn [andb fst snd].
      * f_equal. apply G. intros x [<-|[]]; reflexivity.
      * f_equal. apply G. intros x I. unfold styled in I. apply in_map_iff in I. now destruct I as (y & <- & _).
      * f_equal. apply G. intros x I. unfold styled in I. apply in_map_iff in I. now destruct I as (y & <- & _).
      * f_equal. cbn [map]. now rewrite ST.
      * destruct r; cbn [andb fst snd];
          try (f_equal; apply G; intros x I; unfold styled in I; apply in_map_iff in I; now destruct I as (y & <- & _)).
        -- simpl in IG. rewrite IG. cbn [negb]. f_equal; [|apply control_under; rewrite Forall_forall in B; apply B; destruct (exists_last NE) as (v & x & ->); rewrite last_last; apply in_or_app; right; now left].
           rewrite map_app. cbn [map]. rewrite ST. f_equal.
           assert (L : (length w - 1 = length (removelast w))%nat).
           { destruct (exists_last NE) as (v & x & ->). rewrite removelast_last, app_length. cbn [length]. lia. }
           assert (BV : Forall (fun b => b < 256) (removelast w)).
           { destruct (exists_last NE) as (v & x & ->). rewrite removelast_last. now apply Forall_app in B. }
           rewrite L. revert BV. generalize (removelast w) as v. intros v BV. induction BV as [|b v HB _ IH]; [reflexivity|].
           cbn [flat_map length repeat concat]. rewrite map_app. cbn [map]. rewrite ST, control_under, IH by exact HB. reflexivity.
        -- f_equal. apply G. intros x I. apply in_flat_map in I. destruct I as (y & _ & [<-|[<-|[]]]); reflexivity.
Qed.
Definition ruled (s : settings) (rule : token -> list bool * list bool) (t : token) : Prop :=
  (map underlined (fst (tok_cells s t)), map underlined (snd (tok_cells s t))) = rule t.
Lemma readme_under s t : piece t -> no_control_details s t = true -> ruled s (readme_piece s) t.
Proof.
  intros P D. pose proof (piece_under s t P) as E. unfold ruled. rewrite E. unfold rule_piece, readme_piece, no_control_details in *.
  destruct (sequence t && negb (s_ignore s CC_esc))%bool eqn:Q; [reflexivity|].
  destruct (generic_control t && negb (s_ignore s CC_control))%bool eqn:G; [|reflexivity].
  apply andb_true_iff in G as [G1 G2]. apply negb_true_iff in G2. rewrite G1, G2 in D. simpl in D.
  injection E as E1 _. unfold control_details in *. destruct (marker_level s); try discriminate D. f_equal.
  assert (R : forall n, concat (repeat [false] n) = repeat false n) by (induction n as [|n IH]; [reflexivity|]; simpl; now rewrite IH).
  rewrite R in *. change [false] with (repeat false 1) in *. rewrite <- repeat_app in *.
  rewrite (map_const (fun _ : tcell => false) false) by reflexivity.
  apply (f_equal (@length bool)) in E1. rewrite map_length, repeat_length in E1. now rewrite E1.
Qed.
Lemma pieces_under s rule l : Forall (ruled s rule) l -> map underlined (pieces_cells s l) = rule_pieces rule l.
Proof.
  induction 1 as [|t r E _ IH]; [reflexivity|]. unfold ruled in E.
  destruct r as [|t2 r]; cbn [pieces_cells rule_pieces] in *; rewrite <- E; cbn [fst snd]; [reflexivity|].
  rewrite !map_app. f_equal. f_equal. exact IH.
Qed.
Lemma number_under s n : map underlined (line_number_cells s n) = map (fun _ => false) (line_number_cells s n).
Proof.
  unfold line_number_cells. destruct (debugging s); [|destruct (s_no_line_numbers s); [reflexivity|]];
    rewrite !map_app; f_equal; unfold styled; rewrite !map_map; reflexivity.
Qed.
Lemma lines_under s rule : forall ls n, Forall (Forall (ruled s rule)) ls -> map (map underlined) (numbered s n ls) = rule_lines s rule n ls.
Proof.
  induction ls as [|l ls IH]; intros n F; [reflexivity|]. inversion F; subst. cbn [numbered rule_lines map]. f_equal; [|now apply IH].
  rewrite map_app, number_under. f_equal. unfold line_cells. rewrite map_app, (pieces_under s rule) by assumption. f_equal. now destruct (terminated l).
Qed.
Lemma lines_Forall (P : token -> Prop) toks : Forall P toks -> Forall (Forall P) (token_lines toks).
Proof.
  induction 1 as [|t r H _ IH]; [constructor|]. cbn [token_lines]. destruct (is_line_break t).
  - constructor; [now constructor|assumption].
  - destruct (token_lines r) as [|l ls]; [constructor; [now constructor|constructor]|]. inversion IH; subst. constructor; [now constructor|assumption].
Qed.

Lemma binary_run s tc c src evs chunks :
  opens src -> binary_ok s tc c -> Processed s evs chunks ->
  exists p acts en cs toks rows rest, byteio_run s tc src evs = (p, acts, en) /\ Tokens cs toks /\
    concat chunks = concat cs ++ rest /\ displays (pr_out p) rows /\
    (map (map underlined) rows = rule_rows_so_far s c toks \/ map (map underlined) rows = rule_rows s c toks).
Proof.
  intros O B P. destruct (bin_any s tc c src evs chunks O B P) as (p & acts & en & cs & toks & rows & rest & R & T & W & E & D).
  exists p, acts, en, cs, toks, rows, rest. repeat split; try assumption; [apply D|apply D|apply D|].
  pose proof (tokens_pieces cs toks T) as F. destruct W as [-> | ->]; [left; apply binary_under_so_far; [apply B|exact F]|right; apply binary_under; [apply B|exact F]].
Qed.
Lemma binary_finished s tc c src evs chunks toks :
  opens src -> binary_ok s tc c -> Processed s evs chunks -> Finishes s evs -> Tokens chunks toks ->
  exists p acts rows, byteio_run s tc src evs = (p, acts, REnd) /\ displays (pr_out p) rows /\ map (map underlined) rows = rule_rows s c toks.
Proof.
  intros O B P F T. destruct (bin_eof s tc c src evs chunks toks O B P F T) as (p & acts & R & D).
  exists p, acts. eexists. split; [exact R|]. split; [exact D|]. apply binary_under; [apply B|]. exact (tokens_pieces chunks toks T).
Qed.
Lemma text_finished s tc src evs chunks toks :
  opens src -> binary_mode s = false -> Processed s evs chunks -> Finishes s evs -> Tokens chunks toks ->
  exists p acts rows, byteio_run s tc src evs = (p, acts, REnd) /\ displays (pr_out p) rows /\
    map (map underlined) rows = rule_lines s (rule_piece s) 1 (token_lines toks).
Proof.
  intros O B P F T. destruct (text_eof s tc src evs chunks toks O B P F T) as (p & acts & R & D).
  exists p, acts. eexists. split; [exact R|]. split; [exact D|]. apply lines_under. apply lines_Forall.
  eapply Forall_impl; [|exact (tokens_pieces chunks toks T)]. intros t H. exact (piece_under s t H).
Qed.
Lemma text_readme s tc src evs chunks toks :
  opens src -> binary_mode s = false -> Processed s evs chunks -> Finishes s evs -> Tokens chunks toks ->
  forallb (no_control_details s) toks = true ->
  exists p acts rows, byteio_run s tc src evs = (p, acts, REnd) /\ displays (pr_out p) rows /\
    map (map underlined) rows = rule_lines s (readme_piece s) 1 (token_lines toks).
Proof.
  intros O B P F T C. destruct (text_eof s tc src evs chunks toks O B P F T) as (p & acts & R & D).
  exists p, acts. eexists. split; [exact R|]. split; [exact D|]. apply lines_under. apply lines_Forall.
  pose proof (tokens_pieces chunks toks T) as Q. rewrite forallb_forall in C. rewrite Forall_forall in Q |- *.
  intros t I. apply readme_under; [now apply Q|now apply C].
Qed.

(** -m 2, the bytes 01 41: of the marker and "01" for the first one the digits are underlined *)
Lemma control_underlined : exists s tc evs p acts,
  binary_mode s = false /\ provided evs = [[1; 65]] /\ ending_of evs = At_eof /\ byteio_run s tc SrcStdin evs = (p, acts, REnd) /\
  shown_under (pr_out p) = [(32, false); (49, false); (0x2502, false); (0x2C6F, false); (48, true); (49, true); (65, false); (10, false)].
Proof.
  exists (text_marked 2), 80%Z, [RData [1; 65]]. do 2 eexists. split; [reflexivity|]. split; [reflexivity|]. split; [reflexivity|].
  split; [vm_compute; reflexivity|]. vm_compute. reflexivity.
Qed.

(** ** C110 *)
Lemma reset_effect t : piece t -> forall s a, In (27, 0x3B8, a) (binary_cells s (tok_kind t) (tok_bytes t) (tok_codes t)) ->
  pure (tok_kind t) -> switches_off (tok_bytes t).
Proof.
  intros P s a I PU. pose proof (piece_sequence t P) as Q. destruct t as [[k w] codes]. destruct P as [rest T].
  unfold tok_kind, tok_bytes, tok_codes in *. simpl in *. unfold binary_cells in I.
  destruct (s_ignore s (class_of k)).
  { apply in_map_iff in I. destruct I as (b & E & _). injection E as _ E _. discriminate E. }
  assert (NB : forall (c : N) l, In (27, 0x3B8, a) (map (fun b => (b, c, plain_style s k)) l) -> In 27 l /\ c = 0x3B8).
  { intros c l J. apply in_map_iff in J. destruct J as (b & E & J). injection E as -> -> _. now split. }
  destruct (is_escape_seq k) eqn:K.
  - inversion T; subst; try discriminate K; simpl in I; try (destruct I as [E|I]; [discriminate E|]).
    + destruct I as [E|I].
      * rewrite (PU p i f eq_refl) in *. unfold csi_sort in E. destruct (N.eqb_spec f 109) as [->|F]; [|discriminate E].
        destruct p as [|d [|d2 p]]; [intros b; reflexivity| |discriminate E].
        destruct (N.eqb_spec d 48) as [->|D]; [intros b; reflexivity|discriminate E].
      * destruct I as [E|I]; [discriminate E|]. apply in_map_iff in I. destruct I as (c & E & _). injection E as -> E _. discriminate E.
    + apply in_map_iff in I. destruct I as (c & E & _). injection E as -> E _. discriminate E.
    + destruct I as [E|[]]. injection E as -> E _. discriminate E.
    + destruct I as [E|[]]. injection E as -> E _. discriminate E.
    + destruct I as [E|[]]. injection E as -> E _. discriminate E.
  - exfalso. assert (H27 : forall k0, ~ run_member k0 27) by (intros k0 M; destruct k0; simpl in M; unfold rng in M; lia).
    inversion T; subst; try discriminate K.
    + assert (U : ~ In 27 (utf8_encode cp)).
      { intros J. pose proof (utf8_high cp) as F. rewrite Forall_forall in F by assumption. now destruct (F ltac:(assumption) ltac:(assumption) 27 J). }
      destruct (decoding s).
      * apply in_combine_l in I. apply in_combine_l in I. now apply U.
      * now apply NB in I.
    + apply NB in I. destruct I as [I _]. match goal with F : Forall high _ |- _ => rewrite Forall_forall in F; destruct (F 27 I); lia end.
    + destruct I as [E|[]]. discriminate E.
    + destruct I as [E|[]]. discriminate E.
    + assert (J : ~ In 27 w). { intros J. match goal with F : Forall (run_member _) _ |- _ => rewrite Forall_forall in F; exact (H27 _ (F 27 J)) end. }
      destruct k0; try (apply NB in I; now apply J).
      apply in_map_iff in I. destruct I as (b & E & I). injection E as -> E _. discriminate E.
Qed.
Lemma reset_run s tc c src evs chunks toks :
  opens src -> binary_ok s tc c -> Processed s evs chunks -> Finishes s evs -> Tokens chunks toks ->
  exists p acts, byteio_run s tc src evs = (p, acts, REnd) /\ displays (pr_out p) (binary_rows s c (byte_cells s toks)) /\
    Forall (fun t => forall a, In (27, 0x3B8, a) (binary_cells s (tok_kind t) (tok_bytes t) (tok_codes t)) ->
                     pure (tok_kind t) -> switches_off (tok_bytes t)) toks.
Proof.
  intros O B P F T. destruct (bin_eof s tc c src evs chunks toks O B P F T) as (p & acts & R & D).
  exists p, acts. split; [exact R|]. split; [exact D|]. eapply Forall_impl; [|exact (tokens_pieces chunks toks T)].
  intros t H a I. exact (reset_effect t H s a I).
Qed.
Lemma reset_text_run s tc src evs chunks toks :
  opens src -> binary_mode s = false -> Processed s evs chunks -> Finishes s evs -> Tokens chunks toks ->
  exists p acts, byteio_run s tc src evs = (p, acts, REnd) /\ displays (pr_out p) (text_rows s toks) /\
    Forall (fun t => sequence t = true -> s_ignore s CC_esc = false ->
                     (nth_error (fst (tok_cells s t)) (if separators s then 1 else 0) = Some (0x3B8, plain_style s (tok_kind t)) <->
                      exists i, tok_kind t = K_csi [] i 109 \/ tok_kind t = K_csi [48] i 109)) toks.
Proof.
  intros O B P F T. destruct (text_eof s tc src evs chunks toks O B P F T) as (p & acts & R & D).
  exists p, acts. split; [exact R|]. split; [exact D|]. eapply Forall_impl; [|exact (tokens_pieces chunks toks T)].
  intros t H Q I. rewrite (piece_sequence t H) in Q. destruct t as [[k w] codes]. unfold tok_cells, tok_kind, tok_bytes, tok_codes in *. simpl in Q. simpl fst. simpl snd.
  unfold text_cells. rewrite (escape_class k Q), I, Q. simpl fst.
  assert (E : nth_error ((if separators s then [(0x28B8, separator_style)] else []) ++ [(marker s k, label_style s k codes)] ++ escape_details_cells s k w codes)
                        (if separators s then 1 else 0) = Some (marker s k, label_style s k codes)) by now destruct (separators s).
  unfold tcell in *. simpl app in *. rewrite E. clear E. split.
  - intros E. injection E as E _. destruct k as [| |p0 i0 f0| | | | | | |]; try discriminate Q; try discriminate E.
    exists i0. unfold marker, csi_sort in E. destruct (N.eqb_spec f0 109) as [->|]; [|discriminate E].
    destruct p0 as [|d [|d2 p0]]; [now left| |discriminate E]. destruct (N.eqb_spec d 48) as [->|]; [now right|discriminate E].
  - intros [i [-> | ->]]; reflexivity.
Qed.

(** ESC [ SP m is no SGR and changes nothing, yet gets the marker of those which switch off
    everything *)
Lemma reset_unsound : exists s tc evs p acts w,
  binary_ok s tc 4 /\ provided evs = [w] /\ ending_of evs = At_eof /\ byteio_run s tc SrcStdin evs = (p, acts, REnd) /\
  Lexes w [(K_csi [] [32] 109, w)] /\ In 0x3B8 (visible (pr_out p)) /\ ~ switches_off w.
Proof.
  exists (bin_columns 4), 80%Z, [RData [27; 91; 32; 109]]. do 2 eexists. exists [27; 91; 32; 109].
  split; [repeat split; lia|]. split; [reflexivity|]. split; [reflexivity|]. split; [vm_compute; reflexivity|].
  split; [|split].
  - apply (Lexes_cons (K_csi [] [32] 109) [27; 91; 32; 109] [] []); [|constructor].
    apply (Tok_csi [] [32] 109). repeat split; try constructor; try constructor; unfold rng; lia.
  - vm_compute. repeat (first [now left|right]).
  - intros H. specialize (H attrs0). vm_compute in H. discriminate H.
Qed.
(** ESC[00m switches off everything, but gets the marker of the other SGRs *)
Lemma reset_incomplete : exists s tc evs p acts w,
  binary_ok s tc 5 /\ provided evs = [w] /\ ending_of evs = At_eof /\ byteio_run s tc SrcStdin evs = (p, acts, REnd) /\
  Lexes w [(K_csi [48; 48] [] 109, w)] /\ switches_off w /\ In 0x1DD (visible (pr_out p)) /\ ~ In 0x3B8 (visible (pr_out p)).
Proof.
  exists (bin_columns 5), 80%Z, [RData [27; 91; 48; 48; 109]]. do 2 eexists. exists [27; 91; 48; 48; 109].
  split; [repeat split; lia|]. split; [reflexivity|]. split; [reflexivity|]. split; [vm_compute; reflexivity|].
  split; [|split; [|split]].
  - apply (Lexes_cons (K_csi [48; 48] [] 109) [27; 91; 48; 48; 109] [] []); [|constructor].
    apply (Tok_csi [48; 48] [] 109). repeat split; repeat constructor; unfold rng; lia.
  - intros a. reflexivity.
  - vm_compute. repeat (first [now left|right]).
  - vm_compute. intros H. repeat (destruct H as [H|H]; [discriminate H|]). exact H.
Qed.
