(** Rendering for tmux *)
From Coq Require Import Ascii String.
From Coq Require Import List Arith NArith ZArith Bool Lia.
From Verif.Model Require Import Base Ansi Color Presets Render.
From Verif.Spec Require Import Numbers Terminal Palette Tmux Styles.
From Verif.Proof Require Import BaseFacts TermFacts ColorFacts PresetFacts RenderFacts.
Import ListNotations.
Local Open Scope N_scope.

Definition xpaints (a : xattrs) (s : str) (a' : xattrs) (cells : list xcell) : Prop := xrun XGround a s = (XGround, a', cells).

Lemma xrun_app s t st a : xrun st a (s ++ t) =
  let '(st1, a1, l1) := xrun st a s in let '(st2, a2, l2) := xrun st1 a1 t in (st2, a2, l1 ++ l2).
Proof.
  revert st a. induction s as [|c s IH]; intros st a; cbn [app xrun].
  - destruct (xrun st a t) as [[? ?] ?]. reflexivity.
  - destruct (xstep st a c) as [[st1 a1] l1]. rewrite IH. destruct (xrun st1 a1 s) as [[st2 a2] l2].
    destruct (xrun st2 a2 t) as [[st3 a3] l3]. now rewrite app_assoc.
Qed.
Lemma xpaints_app a s a1 c1 t a2 c2 : xpaints a s a1 c1 -> xpaints a1 t a2 c2 -> xpaints a (s ++ t) a2 (c1 ++ c2).
Proof. unfold xpaints. intros H K. rewrite xrun_app, H, K. reflexivity. Qed.
Lemma xpaints_nil a : xpaints a [] a [].
Proof. reflexivity. Qed.
Lemma xpaints_plain a s : Forall (fun c => c <> 35) s -> xpaints a s a (map (fun c => XGlyph c a) s).
Proof.
  induction 1 as [|c s Hc H IH]; [reflexivity|]. unfold xpaints in *. cbn [xrun xstep map]. apply N.eqb_neq in Hc. rewrite Hc, IH. reflexivity.
Qed.
Lemma xrun_style a body : Forall (fun c => c <> 93) body -> forall acc rest,
  xrun (XIn acc) a (body ++ 93 :: rest) = xrun XGround (xstyle (acc ++ body) a) rest.
Proof.
  induction 1 as [|c s Hc H IH]; intros acc rest; cbn [app xrun xstep].
  - rewrite app_nil_r. change (93 =? 93) with true. cbn iota beta. destruct (xrun XGround (xstyle acc a) rest) as [[? ?] ?]. reflexivity.
  - apply N.eqb_neq in Hc. rewrite Hc, IH, <- app_assoc. cbn [app].
    destruct (xrun XGround (xstyle (acc ++ c :: s) a) rest) as [[? ?] ?]. reflexivity.
Qed.
Lemma xpaints_style a body : Forall (fun c => c <> 93) body -> xpaints a (txt "#[" ++ body ++ [93]) (xstyle body a) [].
Proof.
  intros H. unfold xpaints. change (txt "#[" ++ body ++ [93]) with (35 :: 91 :: body ++ [93]).
  change (xrun XGround a (35 :: 91 :: body ++ [93])) with
    (let '(st2, a2, l2) := (let '(st2, a2, l2) := xrun (XIn []) a (body ++ [93]) in (st2, a2, [] ++ l2)) in (st2, a2, [] ++ l2)).
  rewrite xrun_style by exact H. reflexivity.
Qed.

(** a fixed declaration *)
Lemma decl_fixed p d : is_color_extended p = false -> tmux_get p SGR_TO_TMUX_MAP = Some d -> d <> [] ->
  tmux_decl p = Ok (txt "#[" ++ d ++ [93]).
Proof. intros H1 H2 H3. unfold tmux_decl. rewrite H1, H2. destruct d; [easy|reflexivity]. Qed.

Definition acts (p : sgr) (f : xattrs -> xattrs) : Prop := exists d, tmux_decl p = Ok d /\ forall a, xpaints a d (f a) [].

Lemma acts_ext p f g : (forall a, f a = g a) -> acts p f -> acts p g.
Proof. intros E (d & D & H). exists d. split; [exact D|]. intros a. rewrite <- E. apply H. Qed.

Definition actl (ps : list sgr) (f : xattrs -> xattrs) : Prop := exists d, tmux_decls ps = Ok d /\ forall a, xpaints a d (f a) [].
Lemma actl_nil : actl [] (fun a => a).
Proof. exists []. split; [reflexivity|]. intros a. apply xpaints_nil. Qed.
Lemma actl_cons p ps f g : acts p f -> actl ps g -> actl (p :: ps) (fun a => g (f a)).
Proof.
  intros (d & D & H) (e & E & K). exists (d ++ e). cbn [tmux_decls]. rewrite D, E. split; [reflexivity|].
  intros a. apply (xpaints_app a d (f a) [] e (g (f a)) []); [apply H|apply K].
Qed.
Lemma actl_app ps qs f g : actl ps f -> actl qs g -> actl (ps ++ qs) (fun a => g (f a)).
Proof.
  revert f. induction ps as [|p ps IH]; intros f (d & D & H) G.
  - cbn in D. injection D as <-. destruct G as (e & E & K). exists e. split; [exact E|].
    intros a. specialize (H a). unfold xpaints in H. cbn in H. injection H as <-. apply K.
  - cbn [tmux_decls] in D. destruct (tmux_decl p) as [dp|] eqn:Dp; [|discriminate]. cbn [bind] in D.
    destruct (tmux_decls ps) as [dps|] eqn:Dps; [|discriminate]. cbn [bind] in D. injection D as <-.
    destruct G as (e & E & K). exists ((dp ++ dps) ++ e).
    split.
    + cbn [app tmux_decls]. rewrite Dp. cbn [bind].
      assert (A : tmux_decls (ps ++ qs) = Ok (dps ++ e)).
      { clear -Dps E. revert dps Dps. induction ps as [|q ps IH]; intros dps Dps; cbn [tmux_decls app] in *.
        - injection Dps as <-. exact E.
        - destruct (tmux_decl q); [|discriminate]. cbn [bind] in *. destruct (tmux_decls ps) as [x|]; [|discriminate]. cbn [bind] in *.
          injection Dps as <-. rewrite (IH x eq_refl). cbn [bind]. now rewrite app_assoc. }
      rewrite A. cbn [bind]. now rewrite app_assoc.
    + intros a. apply (xpaints_app a _ (f a) [] e _ []); [apply H|apply K].
Qed.
Lemma actl_ext p f g : (forall a, f a = g a) -> actl p f -> actl p g.
Proof. intros E (d & D & H). exists d. split; [exact D|]. intros a. rewrite <- E. apply H. Qed.

(** ** colors *)
Lemma xstyle_color (bg : bool) c x : Forall (fun c => c <> 32 /\ c <> 44) c -> xcolor c = Some x ->
  forall a, xstyle ((if bg then txt "bg" else txt "fg") ++ [61] ++ c) a = xset bg x a.
Proof.
  intros H X a. unfold xstyle.
  assert (W : forall cur, words cur c = match rev cur ++ c with [] => [] | w => [w] end).
  { clear X. induction H as [|b c [B1 B2] H IH]; intros cur; cbn [words].
    - rewrite app_nil_r. destruct cur as [|z cur]; [reflexivity|]. destruct (rev (z :: cur)) eqn:E; [|reflexivity].
      apply (f_equal (@length N)) in E. rewrite rev_length in E. discriminate.
    - apply N.eqb_neq in B1, B2. rewrite B1, B2. cbn [orb]. rewrite IH. cbn [rev]. rewrite <- app_assoc. reflexivity. }
  destruct bg.
  - change (txt "bg" ++ [61] ++ c) with (98 :: 103 :: 61 :: c). cbn [words]. 
    change ((98 =? 32) || (98 =? 44)) with false. change ((103 =? 32) || (103 =? 44)) with false. change ((61 =? 32) || (61 =? 44)) with false. cbn iota.
    rewrite W. cbn [rev app xwords]. unfold xword. cbn [is_word same_chars]. 
    change (is_word (98 :: 103 :: 61 :: c) "default") with false. cbn iota.
    change (after_prefix (chars "fg=") (98 :: 103 :: 61 :: c)) with (@None (list N)).
    change (after_prefix (chars "bg=") (98 :: 103 :: 61 :: c)) with (Some c). cbn iota. rewrite X. reflexivity.
  - change (txt "fg" ++ [61] ++ c) with (102 :: 103 :: 61 :: c). cbn [words]. 
    change ((102 =? 32) || (102 =? 44)) with false. change ((103 =? 32) || (103 =? 44)) with false. change ((61 =? 32) || (61 =? 44)) with false. cbn iota.
    rewrite W. cbn [rev app xwords]. unfold xword.
    change (is_word (102 :: 103 :: 61 :: c) "default") with false. cbn iota.
    change (after_prefix (chars "fg=") (102 :: 103 :: 61 :: c)) with (Some c). cbn iota. rewrite X. reflexivity.
Qed.

Lemma xcolor_indexed n : (0 <= n <= 255)%Z -> xcolor (txt "color" ++ dec (Z.to_N n)) = Some (ColIdx (Z.to_N n)).
Proof.
  intros H.
  assert (P : forall d, match d with [] => True | c :: _ => c <> 117 end -> xcolor (txt "color" ++ d) = indexed d).
  { intros d D. unfold xcolor. change (txt "color" ++ d) with (99 :: 111 :: 108 :: 111 :: 114 :: d).
    change (is_word (99 :: 111 :: 108 :: 111 :: 114 :: d) "default") with false. cbn iota.
    change (after_prefix (chars "#") (99 :: 111 :: 108 :: 111 :: 114 :: d)) with (@None (list N)). cbn iota.
    change (after_prefix (chars "colour") (99 :: 111 :: 108 :: 111 :: 114 :: d)) with (@None (list N)).
    change (after_prefix (chars "color") (99 :: 111 :: 108 :: 111 :: 114 :: d)) with (Some d). reflexivity. }
  rewrite P.
  - unfold indexed. rewrite read_dec. destruct (N.ltb_spec (Z.to_N n) 256); [reflexivity|lia].
  - pose proof (dec_digits (Z.to_N n)) as D. destruct D as [|c l D _]; [exact I|]. cbn beta in D. lia.
Qed.
Lemma xcolor_rgb r g b : r < 256 -> g < 256 -> b < 256 ->
  xcolor ([35] ++ fmt_06x (rgb_channels_to_hex_value (Z.of_N r) (Z.of_N g) (Z.of_N b))) = Some (ColRgb r g b).
Proof.
  intros Hr Hg Hb. unfold rgb_channels_to_hex_value. rewrite !Z.shiftl_mul_pow2 by lia.
  change (2 ^ 16)%Z with 65536%Z. change (2 ^ 8)%Z with 256%Z. set (h := (Z.of_N r * 65536 + Z.of_N g * 256 + Z.of_N b)%Z).
  assert (Hh : Z.to_N h = r * 65536 + g * 256 + b) by (subst h; lia).
  unfold fmt_06x. destruct (Z.ltb_spec h 0); [subst h; lia|]. rewrite Hh. set (v := r * 65536 + g * 256 + b).
  assert (V : v < 16777216) by (subst v; lia).
  unfold xcolor. cbn [app]. 
  assert (D : is_word (35 :: fmt_hex_lo 6 v) "default" = false) by reflexivity. rewrite D.
  change (after_prefix (chars "#") (35 :: fmt_hex_lo 6 v)) with (Some (fmt_hex_lo 6 v)). cbn iota.
  rewrite fmt_hex_lo_length by (try lia; exact V). cbn [Nat.eqb]. rewrite read_hex_lo. f_equal. subst v.
  assert (E1 : (r * 65536 + g * 256 + b) / 65536 = r) by (symmetry; apply N.div_unique with (r := g * 256 + b); lia).
  assert (E2 : (r * 65536 + g * 256 + b) / 256 = r * 256 + g) by (symmetry; apply N.div_unique with (r := b); lia).
  assert (E3 : (r * 256 + g) mod 256 = g) by (symmetry; apply N.mod_unique with (q := r); lia).
  assert (E4 : (r * 65536 + g * 256 + b) mod 256 = b) by (symmetry; apply N.mod_unique with (q := r * 256 + g); lia).
  now rewrite E1, E2, E3, E4.
Qed.

Lemma acts_style p body f : tmux_decl p = Ok (txt "#[" ++ body ++ [93]) -> Forall (fun c => c <> 93) body ->
  (forall a, xstyle body a = f a) -> acts p f.
Proof. intros D H E. eexists. split; [exact D|]. intros a. rewrite <- E. now apply xpaints_style. Qed.

Lemma color_acts bg x p : SeqFor bg x p -> acts p (fun a => match x with ColDefault => a | _ => xset bg x a end).
Proof.
  assert (FX : forall d, Forall (fun c => c <> 93) d -> Forall (fun c => c <> 93) ((if bg then txt "bg" else txt "fg") ++ [61] ++ d)).
  { intros d Hd. apply Forall_app. split; [destruct bg; repeat constructor; easy|]. constructor; easy. }
  intros [|r g b Hr Hg Hb|n N|n N].
  - exists []. split; [reflexivity|]. intros a. apply xpaints_nil.
  - set (d := [35] ++ fmt_06x (rgb_channels_to_hex_value (Z.of_N r) (Z.of_N g) (Z.of_N b))).
    assert (F : Forall (fun c => (48 <= c /\ c <= 57) \/ (97 <= c /\ c <= 102) \/ c = 35 \/ c = 45) d).
    { subst d. apply Forall_app. split; [constructor; [auto|constructor]|]. unfold fmt_06x.
      match goal with |- context [if ?c then _ else _] => destruct c end; [constructor; [auto|]|]; (eapply Forall_impl; [|apply fmt_hex_lo_chars]); cbn beta; intros; tauto. }
    apply (acts_style _ ((if bg then txt "bg" else txt "fg") ++ [61] ++ d)).
    + subst d. destruct bg; cbn - [rgb_channels_to_hex_value fmt_06x]; reflexivity.
    + apply FX. eapply Forall_impl; [|exact F]. cbn beta. intros; lia.
    + intros a. apply xstyle_color; [|now apply xcolor_rgb]. eapply Forall_impl; [|exact F]. cbn beta. intros; lia.
  - set (d := txt "color" ++ dec (Z.to_N n)).
    assert (F : Forall (fun c => (48 <= c /\ c <= 57) \/ (97 <= c /\ c <= 122)) d).
    { subst d. apply Forall_app. split; [repeat (apply Forall_cons; [right; split; easy|]); constructor|]. eapply Forall_impl; [|apply dec_digits]. cbn beta. intros; lia. }
    apply (acts_style _ ((if bg then txt "bg" else txt "fg") ++ [61] ++ d)).
    + subst d. destruct bg; cbn - [dec]; reflexivity.
    + apply FX. eapply Forall_impl; [|exact F]. cbn beta. intros; lia.
    + intros a. apply xstyle_color; [|now apply xcolor_indexed]. eapply Forall_impl; [|exact F]. cbn beta. intros; lia.
  - assert (C : In n (map (fun k => 0 + Z.of_nat k)%Z (seq 0 16))) by (apply in_range; lia).
    cbn in C. repeat (destruct C as [<-|C]; [destruct bg; (eapply acts_style; [reflexivity|repeat constructor; easy|intros a; destruct a; reflexivity])|]). contradiction.
Qed.

Lemma color_closing_acts bg x p : SeqFor bg x p ->
  acts (closing_seq p) (fun a => match x with ColDefault => a | _ => xset bg ColDefault a end).
Proof.
  intros [|r g b Hr Hg Hb|n N|n N].
  - exists []. split; [reflexivity|]. intros a. apply xpaints_nil.
  - destruct bg; (eapply acts_style; [reflexivity|repeat constructor; easy|intros a; destruct a; reflexivity]).
  - destruct bg; (eapply acts_style; [reflexivity|repeat constructor; easy|intros a; destruct a; reflexivity]).
  - assert (C : In n (map (fun k => 0 + Z.of_nat k)%Z (seq 0 16))) by (apply in_range; lia).
    cbn in C. repeat (destruct C as [<-|C]; [destruct bg; (eapply acts_style; [reflexivity|repeat constructor; easy|intros a; destruct a; reflexivity])|]). contradiction.
Qed.

(** ** attributes *)
Ltac one_attr := eapply acts_style; [reflexivity|repeat constructor; easy|intros a; destruct a; reflexivity].
Definition flag (s : style) (a : xattrs) : xattrs :=
  let '(mkX f b bo di it un dou bl re hi st ov) := a in
  mkX f b (bo || on (st_bold s)) (di || on (st_dim s)) (it || on (st_italic s)) (un || on (st_underlined s)) (dou || on (st_double_underlined s))
    (bl || on (st_blink s)) (re || on (st_inversed s)) hi (st || on (st_crosslined s)) (ov || on (st_overlined s)).

Lemma opt_actl (b : bool) p f : acts p f -> actl (if b then [p] else []) (fun a => if b then f a else a).
Proof. intros H. destruct b; [apply (actl_cons p [] f _ H actl_nil)|apply actl_nil]. Qed.

Definition X_blink v (a : xattrs) := let '(mkX f b bo di it un dou bl re hi st ov) := a in mkX f b bo di it un dou v re hi st ov.
Definition X_bold v (a : xattrs) := let '(mkX f b bo di it un dou bl re hi st ov) := a in mkX f b v di it un dou bl re hi st ov.
Definition X_dim v (a : xattrs) := let '(mkX f b bo di it un dou bl re hi st ov) := a in mkX f b bo v it un dou bl re hi st ov.
Definition X_strike v (a : xattrs) := let '(mkX f b bo di it un dou bl re hi st ov) := a in mkX f b bo di it un dou bl re hi v ov.
Definition X_double v (a : xattrs) := let '(mkX f b bo di it un dou bl re hi st ov) := a in mkX f b bo di it un v bl re hi st ov.
Definition X_reverse v (a : xattrs) := let '(mkX f b bo di it un dou bl re hi st ov) := a in mkX f b bo di it un dou bl v hi st ov.
Definition X_italics v (a : xattrs) := let '(mkX f b bo di it un dou bl re hi st ov) := a in mkX f b bo di v un dou bl re hi st ov.
Definition X_over v (a : xattrs) := let '(mkX f b bo di it un dou bl re hi st ov) := a in mkX f b bo di it un dou bl re hi st v.
Definition X_under v (a : xattrs) := let '(mkX f b bo di it un dou bl re hi st ov) := a in mkX f b bo di it v dou bl re hi st ov.
Definition X_thin (a : xattrs) := let '(mkX f b bo di it un dou bl re hi st ov) := a in mkX f b false false it un dou bl re hi st ov.

Lemma attrs_act s : actl (attribute_seqs s) (flag s).
Proof.
  unfold attribute_seqs. rewrite !truthy_on. eapply actl_ext; cycle 1.
  - repeat (eapply actl_app; [apply opt_actl|]); [| | | | | | | |apply opt_actl].
    1: instantiate (1 := X_blink true); one_attr. 1: instantiate (1 := X_bold true); one_attr.
    1: instantiate (1 := X_strike true); one_attr. 1: instantiate (1 := X_dim true); one_attr.
    1: instantiate (1 := X_double true); one_attr. 1: instantiate (1 := X_reverse true); one_attr.
    1: instantiate (1 := X_italics true); one_attr. 1: instantiate (1 := X_over true); one_attr.
    instantiate (1 := X_under true); one_attr.
  - intros [f b bo di it un dou bl re hi st ov]. unfold flag.
    destruct (on (st_blink s)), (on (st_bold s)), (on (st_crosslined s)), (on (st_dim s)), (on (st_double_underlined s)),
      (on (st_inversed s)), (on (st_italic s)), (on (st_overlined s)), (on (st_underlined s));
      cbn; now rewrite ?orb_true_r, ?orb_false_r.
Qed.

(** switching off what the style switched on, except that a double underline stays *)
Definition unflag (s : style) (a : xattrs) : xattrs :=
  let '(mkX f b bo di it un dou bl re hi st ov) := a in
  let w := on (st_bold s) || on (st_dim s) in
  mkX f b (bo && negb w) (di && negb w) (it && negb (on (st_italic s)))
    (un && negb (on (st_underlined s) || on (st_double_underlined s))) dou
    (bl && negb (on (st_blink s))) (re && negb (on (st_inversed s))) hi (st && negb (on (st_crosslined s))) (ov && negb (on (st_overlined s))).

Lemma map_if {A B} (f : A -> B) (b : bool) x : map f (if b then [x] else []) = if b then [f x] else [].
Proof. destruct b; reflexivity. Qed.
Lemma attrs_closing_act s : actl (map closing_seq (attribute_seqs s)) (unflag s).
Proof.
  unfold attribute_seqs. rewrite !truthy_on, !map_app, !map_if. eapply actl_ext; cycle 1.
  - repeat (eapply actl_app; [apply opt_actl|]); [| | | | | | | |apply opt_actl].
    1: instantiate (1 := X_blink false); one_attr. 1: instantiate (1 := X_thin); one_attr.
    1: instantiate (1 := X_strike false); one_attr. 1: instantiate (1 := X_thin); one_attr.
    1: instantiate (1 := X_under false); one_attr. 1: instantiate (1 := X_reverse false); one_attr.
    1: instantiate (1 := X_italics false); one_attr. 1: instantiate (1 := X_over false); one_attr.
    instantiate (1 := X_under false); one_attr.
  - intros [f b bo di it un dou bl re hi st ov]. unfold unflag.
    destruct (on (st_blink s)), (on (st_bold s)), (on (st_crosslined s)), (on (st_dim s)), (on (st_double_underlined s)),
      (on (st_inversed s)), (on (st_italic s)), (on (st_overlined s)), (on (st_underlined s));
      cbn; now rewrite ?andb_true_r, ?andb_false_r.
Qed.

Lemma tmux_lines o c a ls : xpaints xattrs0 o a [] -> xpaints a c xattrs0 [] -> Forall (fun c => c <> 35) (concat ls) ->
  xpaints xattrs0 (flat_map (fun line => o ++ line ++ c) ls) xattrs0 (map (fun c => XGlyph c a) (concat ls)).
Proof.
  intros O C. induction ls as [|l ls IH]; intros H; [apply xpaints_nil|]. cbn [flat_map concat] in *.
  apply Forall_app in H as [H1 H2]. rewrite map_app. eapply xpaints_app; [|now apply IH].
  change (map (fun c0 => XGlyph c0 a) l) with ([] ++ map (fun c0 => XGlyph c0 a) l).
  eapply xpaints_app; [exact O|]. rewrite <- (app_nil_r (map _ l)). eapply xpaints_app; [now apply xpaints_plain|exact C].
Qed.

Lemma tmux_render_painted cf st text s : styled_output cf -> reached st -> standard s -> on (st_double_underlined s) = false ->
  Forall (fun c => c <> 35) text ->
  exists out st' a, tmux_render cf st text s = (Ok out, st') /\ reached st' /\ xlooks (depth_of cf) s a /\
    xpaints xattrs0 out xattrs0 (map (fun c => XGlyph c a) text).
Proof.
  intros A R S D H. destruct (render_colors_ok cf st s A R S) as (fg & bg & st' & x & y & E & R' & Ff & Fb & X & Y).
  unfold tmux_render. rewrite E. cbn [bind]. unfold render_attributes. apply allowed in A. rewrite A.
  pose proof (actl_app _ _ _ _ (attrs_act s) (actl_cons _ _ _ _ (color_acts _ _ _ Ff) (actl_cons _ _ _ _ (color_acts _ _ _ Fb) actl_nil))) as (o & O & HO).
  pose proof (actl_app _ _ _ _ (attrs_closing_act s) (actl_cons _ _ _ _ (color_closing_acts _ _ _ Ff) (actl_cons _ _ _ _ (color_closing_acts _ _ _ Fb) actl_nil))) as (c & C & HC).
  rewrite map_app. cbn [map]. rewrite O, C. cbn [bind]. specialize (HO xattrs0).
  set (a := (match y with ColDefault => _ | _ => _ end)) in HO.
  exists (flat_map (fun line => o ++ line ++ c) (splitlines text)), st', a. split; [reflexivity|]. split; [exact R'|].
  assert (Ea : a = mkX x y (on (st_bold s)) (on (st_dim s)) (on (st_italic s)) (on (st_underlined s)) (on (st_double_underlined s))
                 (on (st_blink s)) (on (st_inversed s)) false (on (st_crosslined s)) (on (st_overlined s))).
  { subst a. unfold flag, xattrs0. cbn [orb]. destruct x, y; reflexivity. }
  split; [rewrite Ea; unfold xlooks; cbn; auto 20|].
  rewrite <- (splitlines_concat text) at 2. apply tmux_lines; [exact HO| |now rewrite splitlines_concat].
  specialize (HC a). replace (xattrs0) with (match y with ColDefault => match x with ColDefault => unflag s a | _ => xset false ColDefault (unflag s a) end
    | _ => xset true ColDefault (match x with ColDefault => unflag s a | _ => xset false ColDefault (unflag s a) end) end) at 1; [exact HC|].
  rewrite Ea, D. unfold unflag, xset, xattrs0.
  destruct x, y, (on (st_bold s)), (on (st_dim s)), (on (st_italic s)), (on (st_underlined s)),
      (on (st_blink s)), (on (st_inversed s)), (on (st_crosslined s)), (on (st_overlined s)); reflexivity.
Qed.

Lemma tmux_runs_painted e rs : styled_output (re_conf e) ->
  Forall (fun r => run_standard r /\ match run_style r with None => True | Some s => on (st_double_underlined s) = false end) rs ->
  Forall (fun c => c <> 35) (flat_map run_string rs) -> forall st, reached st ->
  exists out st' looks_of, render_runs e R_tmux st rs = (Ok out, st') /\ reached st' /\
    Forall2 (fun r a => match run_style r with None => a = xattrs0 | Some s => xlooks (depth_of (re_conf e)) s a end) rs looks_of /\
    tmux_shows out (concat (map (fun ra => map (fun c => XGlyph c (snd ra)) (run_string (fst ra))) (combine rs looks_of))) xattrs0.
Proof.
  intros A. induction rs as [|r rs IH]; intros S H st R; cbn [render_runs].
  - exists [], st, []. repeat split; auto.
  - inversion S as [|? ? [S1 D1] S2]; subst. cbn [flat_map] in H. apply Forall_app in H as [H1 H2].
    assert (One : exists out st1 a, render_run e R_tmux st r = (Ok out, st1) /\ reached st1 /\
              match run_style r with None => a = xattrs0 | Some s => xlooks (depth_of (re_conf e)) s a end /\
              xpaints xattrs0 out xattrs0 (map (fun c => XGlyph c a) (run_string r))).
    { unfold render_run, run_standard in *. destruct (run_style r) as [s|].
      - cbn [render]. apply tmux_render_painted; assumption.
      - exists (run_string r), st, xattrs0. repeat split; auto. now apply xpaints_plain. }
    destruct One as (out1 & st1 & a & E1 & R1 & L1 & P1). rewrite E1.
    destruct (IH S2 H2 st1 R1) as (out2 & st2 & las & E2 & R2 & L2 & P2). rewrite E2. cbn [bind].
    exists (out1 ++ out2), st2, (a :: las). split; [reflexivity|]. split; [exact R2|]. split; [now constructor|].
    cbn [combine map concat fst snd]. eapply xpaints_app; eassumption.
Qed.
