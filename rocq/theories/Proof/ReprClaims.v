(** C103: proofs *)
From Coq Require Import Ascii String.
From Coq Require Import List NArith ZArith Bool Lia.
From Verif.Model Require Import Base Ansi Color Presets Render RenderSetup SgrNames StyleMemory Repr.
From Verif.Spec Require Import Terminal Palette Display Numbers FloatText Styles SharedStyles ReprText.
From Verif.Proof Require Import BaseFacts TokFacts SettingsFacts RenderClaims.
Import ListNotations.
Local Open Scope N_scope.

(** ** pieces *)
Lemma until_sep (c : N) a b x y : Forall (fun d => d <> c) a -> Forall (fun d => d <> c) b -> a ++ c :: x = b ++ c :: y -> a = b /\ x = y.
Proof.
  intros HA. revert b. induction HA as [|d a Hd HA IH]; intros [|e b] HB H; cbn in H.
  - injection H as ->. auto.
  - injection H as E _. inversion HB; subst; congruence.
  - injection H as E _. congruence.
  - injection H as -> H. inversion HB; subst. destruct (IH b H3 H) as [-> ->]. auto.
Qed.
Lemma free_dec c t : forallb (fun d => negb (d =? c)) t = true -> Forall (fun d => d <> c) t.
Proof. intros H. apply Forall_forall. intros d Hd E. subst. rewrite forallb_forall in H. specialize (H _ Hd). rewrite N.eqb_refl in H. discriminate. Qed.
Lemma digits_free c n : c < 48 \/ 57 < c -> Forall (fun d => d <> c) (dec n).
Proof. intros H. eapply Forall_impl; [|apply dec_digits]. cbv beta. intros; lia. Qed.
Lemma hex_free c n w : c < 48 \/ (57 < c /\ c < 97) -> Forall (fun d => d <> c) (fmt_hex_lo w n).
Proof.
  intros H. unfold fmt_hex_lo, rjust. apply Forall_app. split.
  - apply Forall_forall. intros d Hd. apply repeat_spec in Hd. lia.
  - apply Forall_forall. intros d Hd. apply in_map_iff in Hd. destruct Hd as (k & <- & _).
    unfold hexdig_lo. destruct (N.ltb_spec k 10); lia.
Qed.
Lemma hex_inj v w m n : fmt_hex_lo v m = fmt_hex_lo w n -> m = n.
Proof. intros H. pose proof (read_hex_lo v m) as A. rewrite H, read_hex_lo in A. congruence. Qed.
Lemma fmt_06x_inj m n : fmt_06x m = fmt_06x n -> m = n.
Proof.
  unfold fmt_06x. intros H.
  assert (X : forall w k t, fmt_hex_lo w k <> 45 :: t).
  { intros w k t E. pose proof (hex_free 45 k w ltac:(lia)) as F. rewrite E in F. inversion F; congruence. }
  destruct (Z.ltb_spec m 0), (Z.ltb_spec n 0).
  - injection H as H. apply hex_inj in H. lia.
  - exfalso. apply (X 6%nat (Z.to_N n) (fmt_hex_lo 5 (Z.to_N (- m)))). now symmetry.
  - exfalso. now apply (X 6%nat (Z.to_N m) (fmt_hex_lo 5 (Z.to_N (- n)))).
  - apply hex_inj in H. lia.
Qed.
Lemma fmt_06x_free c n : c < 45 -> Forall (fun d => d <> c) (fmt_06x n).
Proof. intros H. unfold fmt_06x. destruct (n <? 0)%Z; [constructor; [lia|]|]; apply hex_free; lia. Qed.
Lemma fmt_06x_free' c n : 57 < c -> c < 97 -> Forall (fun d => d <> c) (fmt_06x n).
Proof. intros H H'. unfold fmt_06x. destruct (n <? 0)%Z; [constructor; [lia|]|]; apply hex_free; lia. Qed.

Lemma repr_int_zdec n : repr_int n = Trace.zdec n.
Proof. reflexivity. Qed.
Lemma repr_int_nocomma n : nocomma (repr_int n).
Proof. rewrite repr_int_zdec. apply zdec_nocomma. Qed.
Lemma repr_opt_nocomma o : nocomma (repr_opt o).
Proof. destruct o; [apply repr_int_nocomma|now apply nocomma_dec]. Qed.
Lemma repr_int_none n : repr_int n <> txt "None".
Proof.
  unfold repr_int. destruct (n <? 0)%Z; [discriminate|]. cbn [app]. intros E.
  pose proof (dec_digits (Z.to_N (Z.abs n))) as D. rewrite E in D. change (txt "None") with [78; 111; 110; 101] in D. inversion D; subst. lia.
Qed.
Lemma repr_opt_inj a b : repr_opt a = repr_opt b -> a = b.
Proof.
  destruct a as [m|], b as [n|]; cbn [repr_opt]; intros H; trivial.
  - rewrite !repr_int_zdec in H. apply zdec_inj in H. congruence.
  - now apply repr_int_none in H.
  - symmetry in H. now apply repr_int_none in H.
Qed.
(** a value with its prefix, or the label of no color *)
Lemma format_value_inj c d p l x y : (forall t, p ++ t <> l) -> Forall (fun k => k <> 93) l -> Forall (fun k => k <> 93) p ->
  format_value c p l ++ 93 :: x = format_value d p l ++ 93 :: y -> hex_value c = hex_value d.
Proof.
  intros D L P H. unfold format_value in H.
  assert (F : forall h, Forall (fun k => k <> 93) (p ++ fmt_06x h)) by (intros h; apply Forall_app; split; [assumption|apply fmt_06x_free'; lia]).
  destruct (hex_value c) as [m|], (hex_value d) as [n|]; trivial; apply until_sep in H; auto; destruct H as [H _].
  - apply app_inv_head in H. apply fmt_06x_inj in H. congruence.
  - now apply D in H.
  - symmetry in H. now apply D in H.
Qed.
Lemma opt_eqb_iff a b : opt_eqb a b = true <-> a = b.
Proof.
  destruct a, b; cbn; split; intros H; try congruence.
  - apply Z.eqb_eq in H. congruence.
  - injection H as ->. apply Z.eqb_refl.
Qed.

(** ** sequences and spans *)
Lemma join_dec_free c p : c < 48 \/ 59 < c -> Forall (fun d => d <> c) (join [59] (map dec p)).
Proof.
  intros H. induction p as [|n p IH]; [constructor|]. destruct p as [|m p].
  - apply digits_free. lia.
  - change (join [59] (map dec (n :: m :: p))) with (dec n ++ [59] ++ join [59] (map dec (m :: p))).
    apply Forall_app. split; [apply digits_free; lia|]. constructor; [lia|assumption].
Qed.
Lemma join_dec_inj p q : p <> [] -> q <> [] -> join [59] (map dec p) = join [59] (map dec q) -> p = q.
Proof.
  revert q. induction p as [|m p IH]; intros q Hp Hq H; [easy|]. destruct q as [|n q]; [easy|].
  assert (J : forall k l, l <> [] -> join [59] (map dec (k :: l)) = dec k ++ 59 :: join [59] (map dec l)) by (intros k [|? ?] ?; [easy|reflexivity]).
  assert (X : forall k l t, dec k <> l ++ 59 :: t).
  { intros k l t E. pose proof (digits_free 59 k ltac:(lia)) as D. rewrite E in D. apply Forall_app in D. destruct D as [_ D]. inversion D; congruence. }
  destruct p as [|a p], q as [|b q].
  - cbn in H. apply dec_inj in H. congruence.
  - rewrite (J n (b :: q)) in H by discriminate. now apply X in H.
  - rewrite (J m (a :: p)) in H by discriminate. symmetry in H. now apply X in H.
  - rewrite (J n (b :: q)), (J m (a :: p)) in H by discriminate.
    apply until_sep in H; [|apply digits_free; lia|apply digits_free; lia]. destruct H as [E H].
    apply dec_inj in E. apply IH in H; congruence.
Qed.
Lemma params_text_inj p q x y : match p with [] => txt "~" | _ => join [59] (map dec p) end ++ 93 :: x = match q with [] => txt "~" | _ => join [59] (map dec q) end ++ 93 :: y -> p = q /\ x = y.
Proof.
  intros H.
  assert (F : forall l : sgr, Forall (fun k => k <> 93) (match l with [] => txt "~" | _ => join [59] (map dec l) end)).
  { intros [|n l]; [now apply free_dec|]. apply join_dec_free. lia. }
  apply until_sep in H; try apply F. destruct H as [H E]. split; [|assumption].
  assert (X : forall n l, join [59] (map dec (n :: l)) <> txt "~").
  { intros n l E'. pose proof (join_dec_free 126 (n :: l) ltac:(lia)) as D. rewrite E' in D. change (txt "~") with [126] in D. inversion D; congruence. }
  destruct p as [|m p], q as [|n q]; trivial.
  - symmetry in H. now apply X in H.
  - now apply X in H.
  - apply join_dec_inj in H; congruence.
Qed.
Lemma repr_seq_app p x : repr_seq p ++ x = txt "SGR[" ++ match p with [] => txt "~" | _ => join [59] (map dec p) end ++ 93 :: x.
Proof. unfold repr_seq. cbv zeta. rewrite <- !app_assoc. reflexivity. Qed.
Lemma repr_seq_inj p q x y : repr_seq p ++ x = repr_seq q ++ y -> p = q /\ x = y.
Proof. rewrite !repr_seq_app. intros H. apply app_inv_head in H. now apply params_text_inj in H. Qed.
Lemma sequences p q : repr_seq p = repr_seq q <-> p = q.
Proof.
  split; [|now intros ->]. intros H. apply (f_equal (fun t => t ++ [])) in H. now apply repr_seq_inj in H.
Qed.
Lemma spans_text s t : repr_span s = repr_span t <-> s = t.
Proof.
  split; [|now intros ->]. destruct s as [a b], t as [c d]. unfold repr_span. cbn [fst snd]. intros H.
  apply app_inv_head in H. apply app_inv_head in H. apply repr_seq_inj in H. destruct H as [-> H].
  apply app_inv_head in H. apply repr_seq_inj in H. destruct H as [-> _]. reflexivity.
Qed.

(** ** colors *)
Lemma value_inj c d x y : format_value c (txt "0x") (txt "~") ++ 93 :: x = format_value d (txt "0x") (txt "~") ++ 93 :: y -> hex_value c = hex_value d.
Proof. apply format_value_inj; [discriminate|now apply free_dec|now apply free_dec]. Qed.
Lemma colors a b : repr_color a = repr_color b <-> color_eqb a b = true.
Proof.
  assert (E : color_eqb a b = true <-> a = b).
  { destruct a, b; cbn [color_eqb]; rewrite ?andb_true_iff, ?opt_eqb_iff; (split; intros H; [try discriminate; intuition congruence|try discriminate; injection H; intros; subst; auto]). }
  rewrite E. split; [|now intros ->].
  destruct a as [h f g|h c|h], b as [h' f' g'|h' c'|h']; intros H; try discriminate H.
  - unfold repr_color in H. cbv zeta in H. do 3 apply app_inv_head in H.
    apply first_comma in H; [|apply repr_opt_nocomma|apply repr_opt_nocomma]. destruct H as [F H].
    injection H as H.
    apply first_comma in H; [|apply repr_opt_nocomma|apply repr_opt_nocomma]. destruct H as [G H].
    injection H as H. apply value_inj in H. cbn in H. apply repr_opt_inj in F, G. congruence.
  - unfold repr_color in H. cbv zeta in H. do 3 apply app_inv_head in H.
    apply first_comma in H; [|apply repr_opt_nocomma|apply repr_opt_nocomma]. destruct H as [F H].
    injection H as H. apply value_inj in H. cbn in H. apply repr_opt_inj in F. congruence.
  - unfold repr_color in H. cbv zeta in H. do 2 apply app_inv_head in H. apply value_inj in H. cbn in H. congruence.
Qed.

(** ** styles *)
Lemma join_comma_inj l1 : forall l2, Forall nocomma l1 -> Forall nocomma l2 -> l1 <> [] -> l2 <> [] ->
  join (txt ", ") l1 = join (txt ", ") l2 -> l1 = l2.
Proof.
  assert (J : forall k l, l <> [] -> join (txt ", ") (k :: l) = k ++ 44 :: 32 :: join (txt ", ") l) by (intros k [|? ?] ?; [easy|reflexivity]).
  assert (X : forall k l t, nocomma k -> k <> l ++ 44 :: t).
  { intros k l t D E. rewrite E in D. apply Forall_app in D. destruct D as [_ D]. inversion D; congruence. }
  induction l1 as [|a l1 IH]; intros [|b l2] F1 F2 N1 N2 H; try easy.
  inversion F1; inversion F2; subst.
  destruct l1 as [|a' l1], l2 as [|b' l2].
  - cbn in H. congruence.
  - rewrite (J b (b' :: l2)) in H by discriminate. now apply X in H.
  - rewrite (J a (a' :: l1)) in H by discriminate. symmetry in H. now apply X in H.
  - rewrite (J a (a' :: l1)), (J b (b' :: l2)) in H by discriminate. apply first_comma in H; auto. destruct H as [-> H].
    injection H as H. f_equal. apply IH; auto; discriminate.
Qed.

Definition flag (o : option bool) (name : str) : list str := match o with Some true => [name] | _ => [] end.
Definition flags (s : style) : list str :=
  flag (st_blink s) (txt "blink") ++ flag (st_bold s) (txt "bold") ++ flag (st_crosslined s) (txt "crosslined") ++ flag (st_dim s) (txt "dim") ++
  flag (st_double_underlined s) (txt "double_underlined") ++ flag (st_inversed s) (txt "inversed") ++ flag (st_italic s) (txt "italic") ++
  flag (st_overlined s) (txt "overlined") ++ flag (st_underlined s) (txt "underlined").
Lemma flags_map s : flags s = flat_map (fun a => flag (value_of s a) (attr_name a)) attrs9.
Proof. unfold flags, attrs9. cbn [flat_map value_of attr_name]. now rewrite app_nil_r. Qed.
Lemma attr_name_inj a b : attr_name a = attr_name b -> a = b.
Proof. destruct a, b; intros H; try reflexivity; discriminate H. Qed.
Lemma attrs9_all a : In a attrs9.
Proof. destruct a; cbn; tauto. Qed.
Lemma flags_in s a : In (attr_name a) (flags s) <-> turned_on s a = true.
Proof.
  rewrite flags_map, in_flat_map. split.
  - intros (b & _ & H). unfold flag in H. destruct (value_of s b) as [[|]|] eqn:E; try contradiction.
    destruct H as [H|[]]. apply attr_name_inj in H. subst. unfold turned_on. now rewrite E.
  - intros H. exists a. split; [apply attrs9_all|]. unfold turned_on in H.
    assert (E : value_of s a = Some true) by (destruct (value_of s a) as [[|]|]; try discriminate H; reflexivity).
    rewrite E. now left.
Qed.
Lemma flags_same s t : (forall a, turned_on s a = turned_on t a) -> flags s = flags t.
Proof.
  intros H. rewrite !flags_map. apply flat_map_ext. intros a. specialize (H a).
  assert (X : forall v, turned_on v a = match value_of v a with Some true => true | _ => false end) by (intros v; unfold turned_on, on; destruct (value_of v a) as [[|]|]; reflexivity).
  rewrite !X in H. unfold flag. destruct (value_of s a) as [[|]|], (value_of t a) as [[|]|]; congruence.
Qed.
Lemma flags_nocomma s : Forall nocomma (flags s).
Proof.
  rewrite flags_map. apply Forall_flat_map, Forall_forall. intros a _. unfold flag.
  destruct (value_of s a) as [[|]|]; repeat constructor. destruct a; now apply nocomma_dec.
Qed.
Definition style_fields (s : style) : list str :=
  [format_value (st_fg s) (txt "fg=") (txt "no fg"); format_value (st_bg s) (txt "bg=") (txt "no bg")] ++ flags s.
Lemma repr_style_fields s : repr_style s = txt "Style" ++ txt "[" ++ join (txt ", ") (style_fields s) ++ txt "]".
Proof. reflexivity. Qed.
Lemma value_nocomma c p l : nocomma p -> nocomma l -> nocomma (format_value c p l).
Proof. intros P L. unfold format_value. destruct (hex_value c); [|assumption]. apply Forall_app. split; [assumption|]. apply fmt_06x_free. lia. Qed.
Lemma fields_nocomma s : Forall nocomma (style_fields s).
Proof. constructor; [apply value_nocomma; now apply nocomma_dec|]. constructor; [apply value_nocomma; now apply nocomma_dec|]. apply flags_nocomma. Qed.
Lemma styles_text s t : repr_style s = repr_style t <-> same_values s t.
Proof.
  rewrite !repr_style_fields. unfold same_values. split.
  - intros H. do 2 apply app_inv_head in H. apply app_inv_tail in H.
    apply join_comma_inj in H; [|apply fields_nocomma|apply fields_nocomma|discriminate|discriminate].
    unfold style_fields in H. injection H as F B H. split; [|split].
    + apply (format_value_inj _ _ (txt "fg=") (txt "no fg") [] []); [discriminate|now apply free_dec|now apply free_dec|now rewrite F].
    + apply (format_value_inj _ _ (txt "bg=") (txt "no bg") [] []); [discriminate|now apply free_dec|now apply free_dec|now rewrite B].
    + intros a. apply eq_true_iff_eq. rewrite <- !flags_in. now rewrite H.
  - intros (F & B & A). unfold style_fields, format_value. now rewrite F, B, (flags_same s t A).
Qed.

(** ** what is shown *)
Lemma split_join_dec p : p <> [] -> split_on 59 (join [59] (map dec p)) = map dec p.
Proof.
  assert (NO : forall n, ~ In 59 (dec n)) by (intros n H; pose proof (digits_free 59 n ltac:(lia)) as D; rewrite Forall_forall in D; now apply D in H).
  induction p as [|n p IH]; [easy|]. intros _. destruct p as [|m p]; [cbn [map join]; now rewrite split_on_none|].
  change (join [59] (map dec (n :: m :: p))) with (dec n ++ 59 :: join [59] (map dec (m :: p))). rewrite split_on_app by apply NO. rewrite IH by discriminate. reflexivity.
Qed.
Lemma seq_text p : seq_shown p (repr_seq p).
Proof.
  eexists. split; [unfold repr_seq; cbv zeta; reflexivity|]. destruct p as [|n p]; [reflexivity|].
  rewrite split_join_dec by discriminate. induction (n :: p) as [|m l IH]; constructor; [apply read_dec|exact IH].
Qed.
Lemma span_text s : span_shown (fst s) (snd s) (repr_span s).
Proof. exists (repr_seq (fst s)), (repr_seq (snd s)). split; [reflexivity|]. split; apply seq_text. Qed.
Lemma code_text o : code_shown o (repr_opt o).
Proof.
  destruct o as [n|]; [|reflexivity]. cbn [code_shown repr_opt]. unfold repr_int. destruct (Z.ltb_spec n 0).
  - unfold read_int. cbn [app]. rewrite read_dec. cbn [option_map]. f_equal. lia.
  - cbn [app]. pose proof (dec_digits (Z.to_N (Z.abs n))) as D. pose proof (dec_nonempty (Z.to_N (Z.abs n))) as NE. pose proof (read_dec (Z.to_N (Z.abs n))) as R.
    destruct (dec (Z.to_N (Z.abs n))) as [|c u]; [easy|]. inversion D; subst.
    assert (G : option_map Z.of_N (read_number 10 (c :: u)) = Some n) by (rewrite R; cbn [option_map]; f_equal; lia).
    rewrite <- G. unfold read_int. destruct c as [|q]; [reflexivity|]. do 6 (try (destruct q as [q|q|]; try reflexivity)). lia.
Qed.
Lemma hex_text n : hex_shown n (fmt_06x n).
Proof.
  assert (L : forall w k, (w <= List.length (fmt_hex_lo w k))%nat) by (intros w k; unfold fmt_hex_lo; rewrite rjust_length; lia).
  unfold hex_shown, fmt_06x. destruct (n <? 0)%Z.
  - split; [cbn [List.length]; specialize (L 5%nat (Z.to_N (- n))); lia|]. eexists. split; [reflexivity|apply read_hex_lo].
  - split; [apply L|apply read_hex_lo].
Qed.
Lemma value_text c p l : value_shown (hex_value c) p l (format_value c p l).
Proof. unfold format_value. destruct (hex_value c) as [n|]; [|reflexivity]. exists (fmt_06x n). split; [reflexivity|apply hex_text]. Qed.
Lemma color_text c : color_shown c (repr_color c).
Proof.
  destruct c as [h f b|h k|h]; cbn [color_shown].
  - exists (repr_opt f), (repr_opt b), (format_value (ColorIndexed16 h f b) (txt "0x") (txt "~")). split; [reflexivity|]. split; [apply code_text|]. split; [apply code_text|apply (value_text (ColorIndexed16 h f b))].
  - exists (repr_opt k), (format_value (ColorIndexed256 h k) (txt "0x") (txt "~")). split; [reflexivity|]. split; [apply code_text|apply (value_text (ColorIndexed256 h k))].
  - exists (format_value (ColorRGB h) (txt "0x") (txt "~")). split; [reflexivity|apply (value_text (ColorRGB h))].
Qed.
Lemma flags_filter s : flags s = map attr_name (filter (turned_on s) attrs9).
Proof.
  rewrite flags_map. induction attrs9 as [|a l IH]; [reflexivity|]. cbn [flat_map filter]. rewrite IH. unfold turned_on at 2.
  unfold flag, on. destruct (value_of s a) as [[|]|]; reflexivity.
Qed.
Lemma style_text s : style_shown s (repr_style s).
Proof.
  eexists. eexists. split; [rewrite <- flags_filter, repr_style_fields; reflexivity|]. split; apply value_text.
Qed.

(** ** same text, same page, another look on the terminal *)
Lemma html_same s t order text : repr_style s = repr_style t -> st_class_name s = st_class_name t -> html_render order text s = html_render order text t.
Proof.
  intros H C. apply styles_text in H. destruct H as (F & B & A).
  assert (X : forall a, truthy (value_of s a) = truthy (value_of t a)).
  { intros a. specialize (A a). unfold turned_on, on in A. unfold truthy. destruct (value_of s a) as [[|]|], (value_of t a) as [[|]|]; congruence. }
  assert (D : html_decls s = html_decls t).
  { unfold html_decls, format_value.
    pose proof (X AT_blink) as X1. pose proof (X AT_bold) as X2. pose proof (X AT_crosslined) as X3. pose proof (X AT_dim) as X4.
    pose proof (X AT_double_underlined) as X5. pose proof (X AT_inversed) as X6. pose proof (X AT_italic) as X7. pose proof (X AT_overlined) as X8. pose proof (X AT_underlined) as X9.
    cbn [value_of] in *. rewrite F, B, X1, X2, X3, X4, X5, X6, X7, X8, X9. reflexivity. }
  unfold html_render. rewrite C, D. reflexivity.
Qed.
Definition red16 : style := mkStyle (ColorIndexed16 (Some 0x800000%Z) (Some 31%Z) (Some 41%Z)) NOOP_COLOR None None None None None None None None None None.
Definition red24 : style := mkStyle (ColorRGB (Some 0x800000%Z)) NOOP_COLOR None None None None None None None None None None.
Lemma repr_look : exists g g' s t out out', style_init g = Ok s /\ style_init g' = Ok t /\ repr_style s = repr_style t /\ style_eqb s t = false /\
  fst (sgr_render (mkRconf (Some true) false false true) st0 (txt "x") s) = Ok out /\ fst (sgr_render (mkRconf (Some true) false false true) st0 (txt "x") t) = Ok out' /\
  screen out = [Glyph 120 (set_fg (ColIdx 1) attrs0)] /\ screen out' = [Glyph 120 (set_fg (ColRgb 128 0 0) attrs0)].
Proof.
  exists (mkArgs None (CA_name (txt "red")) CA_none None None None None None None None None None None).
  exists (mkArgs None (CA_int 0x800000) CA_none None None None None None None None None None None).
  exists red16, red24. eexists. eexists. repeat split; vm_compute; reflexivity.
Qed.

(** ** the documented examples *)
Definition show_span (r : result (sgr * sgr)) : option str := match r with Ok s => Some (repr_span s) | Err _ => None end.
Definition show_seq (r : result sgr) : option str := match r with Ok s => Some (repr_seq s) | Err _ => None end.
Definition show_style (r : result style) : option str := match r with Ok s => Some (repr_style s) | Err _ => None end.
Definition ascii_up (c : N) : str := if (97 <=? c) && (c <=? 122) then [c - 32] else [c].
Lemma documented :
  show_span (span_of ascii_up [SA_name (txt "BG_GREEN")]) = Some (txt "Span[SGR[42], SGR[49]]") /\
  show_span (span_of ascii_up [SA_seq [42]; SA_seq [4]]) = Some (txt "Span[SGR[42;4], SGR[49;24]]") /\
  show_seq (sequence_sgr ascii_up [SA_name (txt "yellow"); SA_name (txt "bold")]) = Some (txt "SGR[33;1]") /\
  show_seq (sequence_sgr ascii_up [SA_int 91; SA_int 7]) = Some (txt "SGR[91;7]") /\
  show_seq (sequence_sgr ascii_up [SA_int 96; SA_int 4]) = Some (txt "SGR[96;4]") /\
  show_span (span_of ascii_up [SA_name (txt "red"); SA_name (txt "bold")]) = Some (txt "Span[SGR[31;1], SGR[39;22]]") /\
  show_span (span_of ascii_up [SA_int 32]) = Some (txt "Span[SGR[32], SGR[39]]") /\
  show_span (span_of ascii_up [SA_int 93; SA_int 4]) = Some (txt "Span[SGR[93;4], SGR[39;24]]") /\
  show_span (span_of ascii_up [SA_seq ([40] ++ [31])]) = Some (txt "Span[SGR[40;31], SGR[49;39]]") /\
  show_seq (sequence_sgr ascii_up []) = Some (txt "SGR[~]") /\
  show_style (style_init (mkArgs None (CA_name (txt "green")) CA_none None (Some true) None None None None None None None None)) = Some (txt "Style[fg=008000, no bg, bold]") /\
  show_style (style_init (mkArgs None CA_none (CA_int 0x0000ff) None None None None None None None None None None)) = Some (txt "Style[no fg, bg=0000ff]") /\
  show_style (style_init (mkArgs None (CA_name (txt "deep_sky_blue_1")) (CA_name (txt "grey_93")) None None None None None None None None None None)) = Some (txt "Style[fg=00afff, bg=eeeeee]").
Proof. repeat split; vm_compute; reflexivity. Qed.
(** color.py:137-138 *)
Lemma closest_text : (forall c, repr_color c <> txt "_ColorIndexed[code=253, 0xdadada]") /\
  exists c, fst (find_closest table256 0xd9dbdb) = Ok c /\ repr_color c = txt "ColorIndexed256[code=253, 0xdadada]".
Proof. split; [intros [h f b|h c|h]; discriminate|]. eexists. split; vm_compute; reflexivity. Qed.
