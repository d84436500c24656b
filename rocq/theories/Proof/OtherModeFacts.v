(** Lemmas for C111: options of the other mode have no effect *)
From Coq Require Import List Arith NArith ZArith Bool Lia.
From Verif.Model Require Import Base Ansi Regex Settings Segment Template Parser Console Formatter Reader Runner Options Messages Legend Process.
From Verif.Spec Require Import OtherMode Conditions.
Import ListNotations.

(** ** settings which differ in the options of one mode *)
Definition set_binary_options (s : settings) (co : option Z) (de : bool) (dc : option bool) (no : bool) : settings :=
  match s with
  | mkSettings bi te dm bu _ _ db _ fi fo ig le ma mb ml cm nl ns _ ve dem =>
      mkSettings bi te dm bu co de db dc fi fo ig le ma mb ml cm nl ns no ve dem
  end.
Definition set_text_options (s : settings) (ma : Z) (nl ns : bool) : settings :=
  match s with
  | mkSettings bi te dm bu co de db dc fi fo ig le _ mb ml cm _ _ no ve dem =>
      mkSettings bi te dm bu co de db dc fi fo ig le ma mb ml cm nl ns no ve dem
  end.
Definition same_text (s s' : settings) : Prop := exists co de dc no, s' = set_binary_options s co de dc no.
Definition same_binary (s s' : settings) : Prop := exists ma nl ns, s' = set_text_options s ma nl ns.

(** ** the reader *)
Lemma read_loop_ext {St} (cb cb' : St -> bytes -> Z -> bool -> St * cb_res) mb ml src :
  (forall st raw off f, cb st raw off f = cb' st raw off f) ->
  forall evs off lines st, read_loop cb mb ml src evs off lines st = read_loop cb' mb ml src evs off lines st.
Proof.
  intros H. assert (F : forall raw off st, read_finish cb raw off st = read_finish cb' raw off st) by (intros; unfold read_finish; now rewrite H).
  induction evs as [|ev evs IH]; intros off lines st; cbn [read_loop]; [now rewrite F|].
  destruct ev as [raw| |]; try reflexivity. destruct raw as [|b raw]; [now rewrite F|].
  destruct (tell_fails src); [reflexivity|]. destruct (apply_max_lines ml (b :: raw) lines) as [raw1 lines1].
  destruct (match limit_on mb with Some m => _ | None => _ end); [now rewrite F|].
  rewrite H. destruct (cb' st raw1 off false) as [st1 r]. destruct r; try reflexivity. now rewrite F, IH.
Qed.
Lemma read_ext {St} (cb cb' : St -> bytes -> Z -> bool -> St * cb_res) mb ml src evs st :
  (forall st raw off f, cb st raw off f = cb' st raw off f) -> read cb mb ml src evs st = read cb' mb ml src evs st.
Proof. intros H. unfold read. destruct src; try reflexivity; now rewrite (read_loop_ext cb cb' mb ml _ H). Qed.

(** ** the parser *)
Lemma parse_ext e e' p sb ss : (forall t ss raw, substitute e t ss raw = substitute e' t ss raw) -> parse e p sb ss = parse e' p sb ss.
Proof.
  intros H. unfold parse. assert (R : forall evs ss, run_scan e evs ss = run_scan e' evs ss).
  { induction evs as [|ev evs IH]; intros ss'; [reflexivity|]. destruct ev as [b|g w]; cbn [run_scan]; [now rewrite IH|].
    assert (M : handle_match e g ss' = handle_match e' g ss').
    { unfold handle_match. destruct (primary_mgroup g); [|reflexivity]. destruct (resolve_match g n ss') as [[t ss2]|x]; [|reflexivity].
      cbn [bind]. now rewrite H. }
    rewrite M. destruct (handle_match e' g ss') as [[segs1 ss1]|x]; [|reflexivity]. cbn [bind]. now rewrite IH. }
  now rewrite R.
Qed.
(** in text mode it does not matter whether decoding is asked for *)
Lemma substitute_text disp md d d' ns cm t ss raw :
  substitute (mkTenv disp RM_text md d ns cm) t ss raw = substitute (mkTenv disp RM_text md d' ns cm) t ss raw.
Proof.
  set (e := mkTenv disp RM_text md d ns cm). set (e' := mkTenv disp RM_text md d' ns cm).
  assert (P : forall r, process e t r = process e' t r).
  { intros r. unfold process. destruct (t_kind t); try reflexivity. }
  assert (C : forall r, control_loop e t ss r = control_loop e' t ss r).
  { induction r as [|b r IH]; [reflexivity|]. cbn [control_loop]. rewrite IH. reflexivity. }
  unfold substitute, substitute_base. rewrite !P, C. destruct (t_kind t); try reflexivity.
Qed.
(** in binary mode it does not matter whether separators are asked for *)
Lemma substitute_binary disp d ns ns' cm t ss raw :
  substitute (mkTenv disp RM_binary MD_strict d ns cm) t ss raw = substitute (mkTenv disp RM_binary MD_strict d ns' cm) t ss raw.
Proof. unfold substitute. destruct (t_kind t); reflexivity. Qed.

(** ** the formatters *)
Lemma text_same s s' : same_text s s' -> forall fuel closed sb ln, text_format fuel s closed sb ln = text_format fuel s' closed sb ln.
Proof.
  intros (co & de & dc & no & ->) fuel closed sb ln. unfold text_format. generalize (@nil N) as w. revert sb ln.
  induction fuel as [|f IH]; intros sb ln w; [reflexivity|]. cbn [text_loop]. destruct (detach_line sb closed) as [[els|x] sb']; [|reflexivity].
  replace (text_line (set_binary_options s co de dc no) els ln) with (text_line s els ln) by (destruct s; reflexivity). apply IH.
Qed.
Lemma binary_same s s' : same_binary s s' -> forall fuel tc closed sb off, binary_format fuel s tc closed sb off = binary_format fuel s' tc closed sb off.
Proof.
  intros (ma & nl & ns & ->) fuel tc closed sb off. unfold binary_format.
  replace (current_cols (set_text_options s ma nl ns) tc off) with (current_cols s tc off) by (destruct s; reflexivity).
  set (cols := current_cols s tc off). set (req := if closed then _ else _). clearbody req.
  assert (L : forall fuel sb off w, binary_loop fuel s cols req closed sb off w = binary_loop fuel (set_text_options s ma nl ns) cols req closed sb off w).
  { clear. induction fuel as [|f IH]; intros sb0 off0 w; [reflexivity|]. cbn [binary_loop]. destruct (detach_bytes sb0 req closed) as [[els|x] sb']; [|reflexivity].
    replace (binary_row (set_text_options s ma nl ns) cols (sb_last sb') els off0) with (binary_row s cols (sb_last sb') els off0) by (destruct s; reflexivity). apply IH. }
  rewrite L. destruct (binary_loop fuel (set_text_options s ma nl ns) cols req closed sb off []) as [[[w sb'] off']|x w|w]; try reflexivity.
  destruct s; reflexivity.
Qed.

(** ** a run *)
Definition mode_of (s : settings) : read_mode := fst (get_read_mode s).
Lemma byteio_same_text s s' tc tc' src evs : same_text s s' -> mode_of s = RM_text -> byteio_run s' tc' src evs = byteio_run s tc src evs.
Proof.
  intros T M. unfold byteio_run.
  assert (E : same_text (snd (get_read_mode s)) (snd (get_read_mode s')) /\ te_read (update_settings s) = RM_text /\
              s_max_bytes (snd (get_read_mode s')) = s_max_bytes (snd (get_read_mode s)) /\ s_max_lines (snd (get_read_mode s')) = s_max_lines (snd (get_read_mode s)) /\
              exists d, update_settings s' = mkTenv (te_display (update_settings s)) RM_text (te_details (update_settings s)) d (te_no_separators (update_settings s)) (te_color_markers (update_settings s))).
  { destruct T as (co & de & dc & no & ->). destruct s as [bi te dm bu co0 de0 db dc0 fi fo ig le ma mb ml cm nl ns no0 ve dem].
    unfold mode_of, get_read_mode in M. cbn in M. destruct bi; [discriminate M|]. destruct te; [|cbn in M; subst dm];
      (split; [exists co, de, dc, no; reflexivity|]; split; [reflexivity|]; split; [reflexivity|]; split; [reflexivity|]; eexists; reflexivity). }
  destruct (get_read_mode s) as [m1 s1]. destruct (get_read_mode s') as [m2 s2]. simpl in E. destruct E as (S & R & E1 & E2 & d & E3).
  rewrite E1, E2. apply read_ext. intros st raw off f. unfold process_chunk.
  rewrite (parse_ext (update_settings s') (update_settings s)).
  2:{ intros t ss r. rewrite E3. destruct (update_settings s) as [disp rm md d0 ns cm]. simpl in *. subst rm. apply substitute_text. }
  destruct (parse (update_settings s) (append_raw (pr_pb st) raw f) (pr_sb st) (pr_ss st)) as [[[pb' sb'] ss']|x]; [|reflexivity].
  rewrite R. replace (te_read (update_settings s')) with RM_text by now rewrite E3.
  unfold format. rewrite <- (text_same s1 s2 S). reflexivity.
Qed.
Lemma byteio_same_binary s s' tc src evs : same_binary s s' -> mode_of s = RM_binary -> byteio_run s' tc src evs = byteio_run s tc src evs.
Proof.
  intros T M. unfold byteio_run.
  assert (E : same_binary (snd (get_read_mode s)) (snd (get_read_mode s')) /\ te_read (update_settings s) = RM_binary /\ te_details (update_settings s) = MD_strict /\
              s_max_bytes (snd (get_read_mode s')) = s_max_bytes (snd (get_read_mode s)) /\ s_max_lines (snd (get_read_mode s')) = s_max_lines (snd (get_read_mode s)) /\
              exists ns, update_settings s' = mkTenv (te_display (update_settings s)) RM_binary MD_strict (te_decode (update_settings s)) ns (te_color_markers (update_settings s))).
  { destruct T as (ma & nl & ns & ->). destruct s as [bi te dm bu co0 de0 db dc0 fi fo ig le ma0 mb ml cm nl0 ns0 no0 ve dem].
    unfold mode_of, get_read_mode in M. cbn in M. destruct bi.
    - split; [exists ma, nl, ns; reflexivity|]. do 4 (split; [reflexivity|]). exists ns. reflexivity.
    - destruct te; [discriminate M|]. cbn in M. subst dm.
      split; [exists ma, nl, ns; reflexivity|]. do 4 (split; [reflexivity|]). exists ns. reflexivity. }
  destruct (get_read_mode s) as [m1 s1]. destruct (get_read_mode s') as [m2 s2]. simpl in E. destruct E as (S & R & D & E1 & E2 & ns & E3).
  rewrite E1, E2. apply read_ext. intros st raw off f. unfold process_chunk.
  rewrite (parse_ext (update_settings s') (update_settings s)).
  2:{ intros t ss r. rewrite E3. destruct (update_settings s) as [disp rm md d0 ns0 cm]. simpl in *. subst rm md. apply substitute_binary. }
  destruct (parse (update_settings s) (append_raw (pr_pb st) raw f) (pr_sb st) (pr_ss st)) as [[[pb' sb'] ss']|x]; [|reflexivity].
  rewrite R. replace (te_read (update_settings s')) with RM_binary by now rewrite E3.
  unfold format. rewrite <- (binary_same s1 s2 S). reflexivity.
Qed.

(** ** the whole program *)
(** the settings the input is processed with; irrelevant for --legend and --version *)
Definition final_settings (s : settings) : settings :=
  let s1 := after_parse_args s in if s_demo s1 then demo_settings s1 else s1.
Lemma kolombos_same (R : settings -> settings -> Prop) w s s' :
  (forall x y, R x y -> s_legend y = s_legend x /\ s_version y = s_version x /\ s_demo y = s_demo x /\ s_debug y = s_debug x /\
                        s_filename y = s_filename x /\ s_buffer y = s_buffer x) ->
  (forall x y, R x y -> R (after_parse_args x) (after_parse_args y)) ->
  (forall x y, R x y -> R (demo_settings x) (demo_settings y)) ->
  (forall src evs, byteio_run (final_settings s') (w_columns w) src evs = byteio_run (final_settings s) (w_columns w) src evs) ->
  R s s' -> kolombos_with w s' = kolombos_with w s.
Proof.
  intros F A D E H. pose proof (A _ _ H) as H1. unfold kolombos_with. unfold final_settings in E.
  assert (AM : create_runner (after_parse_args s) = LegendRunner \/ create_runner (after_parse_args s) = VersionRunner ->
               app_main s' (w_columns w) SrcStdin [] [] = app_main s (w_columns w) SrcStdin [] []).
  { destruct (F _ _ H1) as (L & V & M & _). destruct (F _ _ H) as (L0 & V0 & M0 & G0 & _ & _).
    assert (C1 : create_runner (after_parse_args s') = create_runner (after_parse_args s)) by (unfold create_runner; now rewrite L, V, M).
    assert (C2 : create_runner s' = create_runner s) by (unfold create_runner; now rewrite L0, V0, M0).
    intros K. unfold app_main, app_run, app_input_settings. rewrite C1, C2, G0. now destruct K as [-> | ->]. }
  set (s1 := after_parse_args s) in *. set (s1' := after_parse_args s') in *. clearbody s1 s1'.
  destruct (F _ _ H1) as (L & V & M & G & FN & B). destruct (F _ _ H) as (L0 & V0 & M0 & G0 & _ & _).
  assert (CR : create_runner s1' = create_runner s1) by (unfold create_runner; now rewrite L, V, M).
  assert (BM : forall demo x y, R x y -> (forall src evs, byteio_run y (w_columns w) src evs = byteio_run x (w_columns w) src evs) ->
               byteio_main w demo y = byteio_main w demo x).
  { intros demo x y RX EX. destruct (F _ _ RX) as (_ & _ & _ & G2 & FN2 & B2). unfold byteio_main.
    assert (CS : chunk_size y = chunk_size x) by (unfold chunk_size; now rewrite G2, B2).
    assert (IO : input_of w demo y = input_of w demo x) by (unfold input_of; now rewrite CS, FN2).
    rewrite IO, CS. destruct (input_of w demo x) as [src evs]. now rewrite EX. }
  assert (AF : forall x y ep r, R x y -> app_finish y ep r = app_finish x ep r).
  { intros x y ep r RX. destruct (F _ _ RX) as (_ & _ & _ & G2 & _). unfold app_finish. now rewrite G2. }
  rewrite CR. unfold create_runner in *. destruct (s_legend s1) eqn:EL; [|destruct (s_version s1) eqn:EV; [|destruct (s_demo s1) eqn:ED]].
  - apply AM. now left.
  - apply AM. now right.
  - rewrite M in E. rewrite (BM true _ _ (D _ _ H1) E). apply AF. now apply D.
  - rewrite M in E. rewrite (BM false _ _ H1 E). now apply AF.
Qed.

Ltac open_settings s := destruct s as [bi te dm bu co0 de0 db dc0 fi fo ig le ma0 mb ml cm nl0 ns0 no0 ve dem].
Lemma text_fields x y : same_text x y -> s_legend y = s_legend x /\ s_version y = s_version x /\ s_demo y = s_demo x /\ s_debug y = s_debug x /\
  s_filename y = s_filename x /\ s_buffer y = s_buffer x.
Proof. intros (co & de & dc & no & ->). open_settings x. repeat split. Qed.
Lemma binary_fields x y : same_binary x y -> s_legend y = s_legend x /\ s_version y = s_version x /\ s_demo y = s_demo x /\ s_debug y = s_debug x /\
  s_filename y = s_filename x /\ s_buffer y = s_buffer x.
Proof. intros (ma & nl & ns & ->). open_settings x. repeat split. Qed.
Lemma text_after x y : same_text x y -> same_text (after_parse_args x) (after_parse_args y).
Proof.
  intros (co & de & dc & no & ->). exists co, de, dc, no. open_settings x. unfold after_parse_args, get_read_mode.
  cbn [set_binary_options s_debug s_binary s_text s_default_read_mode]. destruct (4 <=? db)%nat; [|reflexivity]. destruct bi; [reflexivity|]. now destruct te.
Qed.
Lemma binary_after x y : same_binary x y -> same_binary (after_parse_args x) (after_parse_args y).
Proof.
  intros (ma & nl & ns & ->). exists ma, nl, ns. open_settings x. unfold after_parse_args, get_read_mode.
  cbn [set_text_options s_debug s_binary s_text s_default_read_mode]. destruct (4 <=? db)%nat; [|reflexivity]. destruct bi; [reflexivity|]. now destruct te.
Qed.
Lemma text_demo x y : same_text x y -> same_text (demo_settings x) (demo_settings y).
Proof. intros (co & de & dc & no & ->). open_settings x. do 4 eexists. reflexivity. Qed.
Lemma binary_demo x y : same_binary x y -> same_binary (demo_settings x) (demo_settings y).
Proof. intros (ma & nl & ns & ->). exists ma, nl, ns. open_settings x. reflexivity. Qed.

Lemma kolombos_text w s s' : same_text s s' -> mode_of (final_settings s) = RM_text -> kolombos_with w s' = kolombos_with w s.
Proof.
  intros H M. apply (kolombos_same same_text); auto using text_fields, text_after, text_demo.
  intros src evs. apply byteio_same_text; [|exact M]. unfold final_settings. pose proof (text_after _ _ H) as A. destruct (text_fields _ _ A) as (_ & _ & -> & _).
  destruct (s_demo (after_parse_args s)); [now apply text_demo|exact A].
Qed.
Lemma kolombos_binary w s s' : same_binary s s' -> mode_of (final_settings s) = RM_binary -> kolombos_with w s' = kolombos_with w s.
Proof.
  intros H M. apply (kolombos_same same_binary); auto using binary_fields, binary_after, binary_demo.
  intros src evs. apply byteio_same_binary; [|exact M]. unfold final_settings. pose proof (binary_after _ _ H) as A. destruct (binary_fields _ _ A) as (_ & _ & -> & _).
  destruct (s_demo (after_parse_args s)); [now apply binary_demo|exact A].
Qed.

(** ** command lines *)
Lemma parse_without (R : settings -> settings -> Prop) (f : opt -> bool) :
  (forall x y o, R x y -> R (apply_opt x o) (if f o then y else apply_opt y o)) ->
  forall l seen x y r, R x y -> parse_opts seen x l = Some r ->
  exists r', parse_opts (without f seen) y (without f l) = Some r' /\ R r r'.
Proof.
  intros A. induction l as [|o l IH]; intros seen x y r H P; [injection P as <-; exists y; now split|].
  cbn [parse_opts] in P. destruct (existsb (conflict o) seen) eqn:C; [discriminate P|].
  destruct (is_file o && existsb is_file seen)%bool eqn:FI; [discriminate P|].
  specialize (A x y o H). cbn [without filter]. destruct (f o) eqn:FO; cbn [negb].
  - destruct (IH (o :: seen) _ _ _ A P) as (r' & E & S). exists r'. split; [|exact S]. unfold without in E. cbn [filter] in E. rewrite FO in E. exact E.
  - destruct (IH (o :: seen) _ _ _ A P) as (r' & E & S). exists r'. split; [|exact S].
    assert (SUB : forall g : opt -> bool, existsb g seen = false -> existsb g (without f seen) = false).
    { clear. intros g. unfold without. induction seen as [|x seen IH]; [reflexivity|]. cbn [existsb filter]. intros E. apply orb_false_iff in E as [E1 E2].
      destruct (f x); cbn [negb existsb]; [now apply IH|]. now rewrite E1, IH. }
    cbn [parse_opts]. fold (without f l). rewrite (SUB _ C).
    assert (FF : (is_file o && existsb is_file (without f seen))%bool = false).
    { destruct (is_file o); [|reflexivity]. cbn [andb] in *. now apply SUB. }
    rewrite FF. unfold without in E at 1. cbn [filter] in E. rewrite FO in E. exact E.
Qed.
Lemma text_opt x y o : same_text x y -> same_text (apply_opt x o) (if binary_option o then y else apply_opt y o).
Proof. intros (co & de & dc & no & ->). open_settings x. destruct o; cbn; do 4 eexists; reflexivity. Qed.
Lemma binary_opt x y o : same_binary x y -> same_binary (apply_opt x o) (if text_option o then y else apply_opt y o).
Proof. intros (ma & nl & ns & ->). open_settings x. destruct o; cbn; do 3 eexists; reflexivity. Qed.

(** the mode *)
Lemma parse_mode : forall l seen x r, parse_opts seen x l = Some r ->
  s_binary r = (s_binary x || existsb wants_binary l)%bool /\ s_text r = (s_text x || existsb wants_text l)%bool /\
  s_demo r = (s_demo x || existsb wants_demo l)%bool /\ s_debug r = (s_debug x + length (filter wants_debug l))%nat /\
  s_default_read_mode r = s_default_read_mode x.
Proof.
  induction l as [|o l IH]; intros seen x r P.
  - injection P as <-. cbn. rewrite !orb_false_r, Nat.add_0_r. repeat split.
  - cbn [parse_opts] in P. destruct (existsb (conflict o) seen); [discriminate P|]. destruct (is_file o && existsb is_file seen)%bool; [discriminate P|].
    destruct (IH _ _ _ P) as (A & B & C & D & E). clear IH P. open_settings x.
    destruct o; cbn in A, B, C, D, E |- *; rewrite ?orb_true_r; repeat split; try assumption; rewrite D; lia.
Qed.
Lemma selected l r : parse_args l = Some r -> mode_of (final_settings r) = if selects_binary l then RM_binary else RM_text.
Proof.
  intros P. destruct (parse_mode _ _ _ _ P) as (A & B & C & D & E). cbn in A, B, C, D, E. unfold selects_binary. rewrite <- A, <- B, <- C, <- D. clear -E.
  open_settings r. cbn in *. subst dm. unfold mode_of, final_settings, after_parse_args, get_read_mode. cbn [s_debug s_binary s_text s_default_read_mode].
  destruct db as [|[|[|[|db]]]]; destruct bi, te, dem; reflexivity.
Qed.

Lemma same_refl_text s : same_text s s.
Proof. open_settings s. do 4 eexists. reflexivity. Qed.
Lemma same_refl_binary s : same_binary s s.
Proof. open_settings s. do 3 eexists. reflexivity. Qed.
Lemma text_ignores w l : parse_args l <> None -> selects_binary l = false -> kolombos w (without binary_option l) = kolombos w l.
Proof.
  intros P M. unfold kolombos. destruct (parse_args l) as [r|] eqn:E; [|congruence].
  destruct (parse_without same_text binary_option text_opt l [] default_settings default_settings r (same_refl_text _) E) as (r' & E' & S).
  unfold parse_args at 1. cbn [without filter] in E'. rewrite E'. apply kolombos_text; [exact S|]. now rewrite (selected l r E), M.
Qed.
Lemma binary_ignores w l : parse_args l <> None -> selects_binary l = true -> kolombos w (without text_option l) = kolombos w l.
Proof.
  intros P M. unfold kolombos. destruct (parse_args l) as [r|] eqn:E; [|congruence].
  destruct (parse_without same_binary text_option binary_opt l [] default_settings default_settings r (same_refl_binary _) E) as (r' & E' & S).
  unfold parse_args at 1. cbn [without filter] in E'. rewrite E'. apply kolombos_binary; [exact S|]. now rewrite (selected l r E), M.
Qed.

Lemma byteio_columns s c tc tc' src evs : s_columns s = Some c -> byteio_run s tc' src evs = byteio_run s tc src evs.
Proof.
  intros C. unfold byteio_run. assert (E : s_columns (snd (get_read_mode s)) = Some c).
  { unfold get_read_mode. destruct (s_binary s); [exact C|]. destruct (s_text s); exact C. }
  destruct (get_read_mode s) as [m s1]. cbn [snd] in E. apply read_ext. intros st raw off f. unfold process_chunk.
  destruct (parse (update_settings s) (append_raw (pr_pb st) raw f) (pr_sb st) (pr_ss st)) as [[[pb' sb'] ss']|x]; [|reflexivity].
  unfold format. destruct (te_read (update_settings s)); [|reflexivity]. unfold binary_format, current_cols. now rewrite E.
Qed.
Lemma width_same w c s : (forall src evs, byteio_run (final_settings s) c src evs = byteio_run (final_settings s) (w_columns w) src evs) ->
  kolombos_with (on_terminal w c) s = kolombos_with w s.
Proof.
  intros E. unfold final_settings in E. unfold kolombos_with.
  assert (AM : create_runner (after_parse_args s) = LegendRunner \/ create_runner (after_parse_args s) = VersionRunner ->
               app_main s (w_columns (on_terminal w c)) SrcStdin [] [] = app_main s (w_columns w) SrcStdin [] []).
  { intros K. unfold app_main, app_run, app_input_settings. now destruct K as [-> | ->]. }
  assert (IO : forall demo x, input_of (on_terminal w c) demo x = input_of w demo x) by reflexivity.
  set (s1 := after_parse_args s) in *. clearbody s1. destruct (create_runner s1) eqn:K; unfold create_runner in K.
  - apply AM. now left.
  - apply AM. now right.
  - destruct (s_legend s1); [discriminate|]. destruct (s_version s1); [discriminate|]. destruct (s_demo s1); [|discriminate].
    f_equal. unfold byteio_main. rewrite IO. destruct (input_of w true (demo_settings s1)) as [src evs]. cbn [on_terminal w_columns]. now rewrite E.
  - destruct (s_legend s1); [discriminate|]. destruct (s_version s1); [discriminate|]. destruct (s_demo s1); [discriminate|].
    f_equal. unfold byteio_main. rewrite IO. destruct (input_of w false s1) as [src evs]. cbn [on_terminal w_columns]. now rewrite E.
Qed.
Lemma parse_columns : forall l seen x r, parse_opts seen x l = Some r -> (s_columns x <> None \/ existsb gives_columns l = true) -> s_columns r <> None.
Proof.
  induction l as [|o l IH]; intros seen x r P H.
  - injection P as <-. destruct H as [H|H]; [exact H|discriminate H].
  - cbn [parse_opts] in P. destruct (existsb (conflict o) seen); [discriminate P|]. destruct (is_file o && existsb is_file seen)%bool; [discriminate P|].
    apply (IH _ _ _ P). open_settings x. cbn [existsb] in H. destruct o; cbn in H |- *; try (destruct H as [H|H]; [now left|now right]); left; discriminate.
Qed.
Lemma final_columns r : s_columns r <> None \/ s_demo r = true -> exists c, s_columns (final_settings r) = Some c.
Proof.
  open_settings r. unfold final_settings, after_parse_args, get_read_mode. cbn [s_columns s_demo s_debug s_binary s_text].
  destruct (4 <=? db)%nat; [destruct bi; [|destruct te]|]; cbn; destruct dem; cbn; destruct co0 as [c|]; intros [H|H]; try congruence; eexists; reflexivity.
Qed.
Lemma width_ignored w c l : width_matters l = false -> kolombos (on_terminal w c) l = kolombos w l.
Proof.
  intros M. unfold kolombos. destruct (parse_args l) as [r|] eqn:E; [|reflexivity]. apply width_same. intros src evs.
  unfold width_matters in M. destruct (selects_binary l) eqn:B.
  - assert (C : s_columns r <> None \/ s_demo r = true).
    { cbn [andb] in M. destruct (existsb gives_columns l) eqn:G; [left; apply (parse_columns _ _ _ _ E); now right|].
      cbn [negb andb] in M. apply negb_false_iff in M. right. destruct (parse_mode _ _ _ _ E) as (_ & _ & D & _). now rewrite D, M. }
    destruct (final_columns r C) as (c' & C'). now apply (byteio_columns _ c').
  - apply byteio_same_text; [apply same_refl_text|]. now rewrite (selected l r E), B.
Qed.
