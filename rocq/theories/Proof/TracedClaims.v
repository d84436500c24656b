(** Claims about the whole program at any debug level *)
From Coq Require Import Ascii String.
From Coq Require Import List Arith NArith ZArith Bool Lia.
From Verif.Model Require Import Base Ansi Settings Reader Runner Options Messages Legend Process Trace SettingsDump TracedProcess.
From Verif.Spec Require Import Numbers Terminal Lexical Display Output Weave SettingsShown Conditions.
From Verif.Proof Require Import BaseFacts TraceFacts TraceRun TraceClaims SettingsFacts SettingsClaims.
Import ListNotations.
Local Open Scope N_scope.

(** the list of settings, whatever the file name *)
Lemma print_attrs_keep p names s d : Forall (fun a => snd (get_attr a s) = s /\ snd (get_attr a d) = d) names ->
  exists l, Forall (fun e => exists t, e = TDbg 3 t) l /\ forall rest, print_attrs p (names ++ rest) s d = let '(l2, s2, d2) := print_attrs p rest s d in (l ++ l2, s2, d2).
Proof.
  induction 1 as [|a names [H1 H2] H (l & L & E)].
  - exists []. split; [constructor|]. intros rest. cbn [app]. now destruct (print_attrs p rest s d) as [[? ?] ?].
  - destruct (get_attr a s) as [v s1] eqn:G1, (get_attr a d) as [x d1] eqn:G2. cbn [snd] in H1, H2. subst s1 d1.
    exists (debug_print p s a v x :: l). split; [constructor; [eexists; reflexivity|exact L]|].
    intros rest. cbn [app print_attrs]. rewrite G1, G2, E. now destruct (print_attrs p rest s d) as [[? ?] ?].
Qed.
Lemma keep_own s d : Forall (fun a => snd (get_attr a s) = s /\ snd (get_attr a d) = d) own_names.
Proof. unfold own_names. repeat (apply Forall_cons; [split; reflexivity|]). apply Forall_nil. Qed.
Lemma keep_before s d : Forall (fun a => snd (get_attr a s) = s /\ snd (get_attr a d) = d) derived_before.
Proof. unfold derived_before. repeat (apply Forall_cons; [split; reflexivity|]). apply Forall_nil. Qed.
Lemma dump_any p s columns : Forall (fun e => exists t, e = TDbg 3 t) (fst (debug_settings p s columns)) /\
  snd (debug_settings p s columns) = after_parse_args s.
Proof.
  unfold debug_settings, after_parse_args. destruct (Nat.ltb_spec (s_debug s) 3) as [Q|Q].
  { destruct (Nat.leb_spec 4 (s_debug s)); [lia|]. split; [constructor|reflexivity]. }
  rewrite dump_attrs_eq. destruct (print_attrs_keep p own_names s default_settings (keep_own _ _)) as (l & L & E). rewrite E.
  destruct (4 <=? s_debug s)%nat.
  - destruct (print_attrs_keep p derived_before s default_settings (keep_before _ _)) as (l2 & L2 & E2). unfold derived_names. rewrite E2.
    cbn [print_attrs].
    change (get_attr (lit "read_mode") s) with (let '(m, s1) := get_read_mode s in (read_mode_value m, s1)).
    change (get_attr (lit "read_mode") default_settings) with (read_mode_value RM_text, decided default_settings).
    rewrite get_read_mode_eq.
    change (get_attr (lit "set_default_read_mode") (decided s)) with (VMethod (lit "set_default_read_mode") (decided s), decided s).
    change (get_attr (lit "set_default_read_mode") (decided default_settings))
      with (VMethod (lit "set_default_read_mode") (decided default_settings), decided default_settings).
    cbn [fst snd]. split; [|reflexivity].
    assert (M : forall d m s, exists t, dbg s d 3 m = TDbg 3 t) by (intros; eexists; reflexivity).
    assert (D : forall s a v w, exists t, debug_print p s a v w = TDbg 3 t) by (intros; eexists; reflexivity).
    apply Forall_app. split; [constructor; [apply M|constructor; [apply M|constructor]]|].
    apply Forall_app. split; [apply Forall_app; split; [exact L|]; apply Forall_app; split; [exact L2|]; constructor; [apply D|constructor; [apply D|constructor]]|].
    apply Forall_app. split; [apply Forall_forall; intros e He; apply in_map_iff in He; destruct He as (x & <- & _); apply D|].
    constructor; [apply M|constructor].
  - cbn [print_attrs fst snd]. split; [|reflexivity].
    apply Forall_app. split; [constructor; [eexists; reflexivity|constructor; [eexists; reflexivity|constructor]]|].
    apply Forall_app. split; [apply Forall_app; split; [exact L|constructor]|].
    apply Forall_app. split; [constructor|constructor; [eexists; reflexivity|constructor]].
Qed.

Lemma line_end_last t : line_end (t ++ [10]).
Proof. exists t, []. split; [reflexivity|constructor]. Qed.
Lemma regular_app a b : regular (a ++ b) = regular a ++ regular b.
Proof. apply flat_map_app. Qed.

Section Everything.
  Variable P : tev -> Prop.
  Variable traceback : exn -> str.
  Hypothesis Htidy : forall l t, tidy_ev (TDbg l t) -> P (TDbg l t).
  Hypothesis Hout : forall t, line_end t -> P (TOut t).
  Hypothesis Htrace : forall e, P (TDbg 1 (FMT_ERROR_TRACE (traceback e) ++ [10])).

  Lemma report_events debug e : Forall P (error_report debug traceback e) /\
    regular (error_report debug traceback e) = (if (0 <? debug)%nat then [] else debug_hint ++ [10]) ++ [10].
  Proof.
    unfold error_report. destruct (0 <? debug)%nat; (split; [|reflexivity]).
    - constructor; [apply Htrace|constructor; [apply Hout, (line_end_last [])|constructor]].
    - constructor; [apply Hout, line_end_last|constructor; [apply Hout, (line_end_last [])|constructor]].
  Qed.

  Lemma main_events w demo s : (forall src, src <> SrcMissing -> (demo = false -> src = SrcStdin -> reading_stdin (s_filename s) = true) -> Forall P (open_trace (snd (get_read_mode s)) src)) ->
    let '(l, en) := tbyteio_main w demo s in
    let '(p, _, en') := byteio_main w demo s in en = en' /\ pr_out p = regular l /\ Forall P l.
  Proof.
    intros Ho. unfold tbyteio_main, byteio_main. destruct (input_of w demo s) as [src evs] eqn:IO.
    assert (HO : src = SrcMissing \/ Forall P (open_trace (snd (get_read_mode s)) src)).
    { destruct src; [right|right|now left]; (apply Ho; [discriminate|]).
      - intros -> _. unfold input_of in IO. destruct (reading_stdin (s_filename s)); [reflexivity|].
        destruct (lookup_file w _) as [[]|]; discriminate.
      - intros _ ?; discriminate. }
    destruct ((chunk_size s <? -1)%Z && match src with SrcMissing => false | _ => true end) eqn:C.
    - destruct (get_read_mode s) as [rm s1]. cbn [snd] in HO.
      assert (HO' : Forall P (open_trace s1 src)) by (destruct HO as [->|HO]; [rewrite andb_false_r in C; discriminate|exact HO]).
      split; [reflexivity|]. split; [now destruct (3 <=? s_debug s1)%nat|]. apply Forall_app. split; [|exact HO'].
      destruct (3 <=? s_debug s1)%nat; [constructor|]. constructor; [|constructor]. apply Htidy.
      apply (dbg_tidy s1 RUNNER 1); [named|]. apply separator_line_tidy. easy.
    - pose proof (run_events P s (w_columns w) src evs Htidy Hout HO) as K.
      destruct (tbyteio_run s (w_columns w) src evs) as [[t acts] en]. destruct K as (K1 & K2 & K3). rewrite K1. auto.
  Qed.

  Lemma finish_events debug s epilogue l en p acts : debug = s_debug s -> Forall P l -> pr_out p = regular l ->
    Forall P (traced_finish debug traceback epilogue (l, en)) /\
    regular (traced_finish debug traceback epilogue (l, en)) = ap_out (app_finish s epilogue (p, acts, en)).
  Proof.
    intros -> HL HR. unfold traced_finish, app_finish. rewrite regular_app, HR. destruct en as [|e|]; cbn [ap_out].
    - split.
      + apply Forall_app. split; [exact HL|]. constructor; [apply Hout, line_end_last|constructor].
      + cbn [regular flat_map]. now rewrite app_nil_r.
    - destruct (report_events (s_debug s) e) as [R1 R2]. split; [apply Forall_app; split; assumption|now rewrite R2].
    - split; [rewrite app_nil_r; exact HL|cbn [regular flat_map]; now rewrite app_nil_r].
  Qed.
End Everything.

Lemma after_parse_debug s : s_debug (after_parse_args s) = s_debug s.
Proof. unfold after_parse_args. destruct (4 <=? s_debug s)%nat; [apply decided_debug|reflexivity]. Qed.
Lemma after_parse_file s : s_filename (after_parse_args s) = s_filename s.
Proof. unfold after_parse_args. destruct (4 <=? s_debug s)%nat; [apply decided_file|reflexivity]. Qed.
Lemma after_parse_runner s : create_runner (after_parse_args s) = create_runner s.
Proof.
  unfold after_parse_args. destruct (4 <=? s_debug s)%nat; [|reflexivity]. unfold create_runner, get_read_mode.
  destruct (s_binary s); [reflexivity|]. destruct (s_text s); reflexivity.
Qed.

Lemma everything (P : tev -> Prop) printable traceback w s :
  (forall l t, tidy_ev (TDbg l t) -> P (TDbg l t)) -> (forall t, line_end t -> P (TOut t)) ->
  (forall e, P (TDbg 1 (FMT_ERROR_TRACE (traceback e) ++ [10]))) ->
  Forall P (fst (debug_settings printable s (w_columns w))) ->
  (forall s1 src, src <> SrcMissing -> s_filename s1 = s_filename s \/ s_filename s1 = Some DEMO_FILENAME -> Forall P (open_trace s1 src)) ->
  Forall P (traced_with printable traceback w s) /\ regular (traced_with printable traceback w s) = ap_out (kolombos_with w s).
Proof.
  intros Ht Ho Hb Hd Hn. unfold traced_with, kolombos_with. pose proof (proj2 (dump_any printable s (w_columns w))) as E.
  pose proof (proj1 (dump_any printable s (w_columns w))) as D.
  destruct (debug_settings printable s (w_columns w)) as [dump s1]. cbn [fst snd] in *. subst s1. rewrite regular_app.
  assert (RD : regular dump = []).
  { clear - D. induction D as [|e l (t & ->) D IH]; [reflexivity|exact IH]. }
  rewrite RD, app_nil_l, after_parse_runner.
  destruct (create_runner s) eqn:R.
  - unfold app_main, app_run, app_input_settings. rewrite after_parse_runner, R.
    destruct (legend_run legend_bytes) as [out|e].
    + cbn [ap_out regular flat_map]. rewrite app_nil_r. split; [|reflexivity]. apply Forall_app. split; [exact Hd|]. constructor; [apply Ho, line_end_last|constructor].
    + destruct (report_events P traceback Ho Hb (s_debug (after_parse_args s)) e) as [R1 R2]. rewrite R2, after_parse_debug. cbn [ap_out].
      split; [|reflexivity]. apply Forall_app. split; [exact Hd|]. rewrite after_parse_debug in R1. exact R1.
  - unfold app_main, app_run, app_input_settings. rewrite after_parse_runner, R. cbn [ap_out].
    unfold regular. cbn [flat_map]. rewrite app_nil_r. split; [|reflexivity]. apply Forall_app. split; [exact Hd|]. constructor; [apply Ho, line_end_last|constructor].
  - set (s2 := demo_settings (after_parse_args s)).
    pose proof (main_events P Ht Ho w true s2) as K.
    destruct (tbyteio_main w true s2) as [l en]. destruct (byteio_main w true s2) as [[p acts] en'].
    destruct K as (-> & K2 & K3).
    { intros src Hs _. apply Hn; [exact Hs|]. right. pose proof (get_read_mode_keeps s2) as G. destruct (get_read_mode s2). cbn [snd]. destruct G as (_ & -> & _). reflexivity. }
    destruct (finish_events P traceback Ho Hb (s_debug s2) s2 demo_epilogue l en' p acts eq_refl K3 K2) as [F1 F2].
    rewrite F2. split; [|reflexivity]. apply Forall_app. split; [exact Hd|exact F1].
  - set (s2 := after_parse_args s).
    pose proof (main_events P Ht Ho w false s2) as K.
    destruct (tbyteio_main w false s2) as [l en]. destruct (byteio_main w false s2) as [[p acts] en'].
    destruct K as (-> & K2 & K3).
    { intros src Hs _. apply Hn; [exact Hs|]. left. pose proof (get_read_mode_keeps s2) as G. destruct (get_read_mode s2). cbn [snd]. destruct G as (_ & -> & _). apply after_parse_file. }
    destruct (finish_events P traceback Ho Hb (s_debug s2) s2 [] l en' p acts eq_refl K3 K2) as [F1 F2].
    rewrite F2. split; [|reflexivity]. apply Forall_app. split; [exact Hd|exact F1].
Qed.

Theorem process_woven printable traceback w s :
  exists traces, Woven (ap_out (kolombos_with w s)) traces (shown (s_debug s) (traced_with printable traceback w s)) /\
  (s_debug s = 0%nat -> traces = []).
Proof.
  destruct (everything (fun e => ends_line e /\ leveled e) printable traceback w s) as [K1 K2].
  - intros l x (L & _). split; [exact I|exact L].
  - intros x L. split; [exact L|exact I].
  - intros e. split; [exact I|]. cbn [leveled]. auto.
  - eapply Forall_impl; [|apply dump_any]. intros e (t & ->). split; [exact I|]. cbn [leveled]. auto.
  - intros s1 src _ _. apply open_leveled.
  - exists (shown_traces (s_debug s) (traced_with printable traceback w s)). split.
    + rewrite <- K2. apply woven_events. eapply Forall_impl; [|exact K1]. now intros x [H _].
    + intros ->. clear - K1. unfold shown_traces. induction K1 as [|[x|k x] l [_ H] K IH]; [reflexivity|exact IH|].
      cbn [flat_map leveled] in *. destruct (Nat.ltb_spec 0 k); [exact IH|lia].
Qed.
Theorem process_harmless printable traceback w s : safe_printable printable -> safe_name s ->
  exists traces, Woven (ap_out (kolombos_with w s)) traces (shown (s_debug s) (traced_with printable traceback w s)) /\
  Forall (fun m => harmless_line m \/ exists e, m = FMT_ERROR_TRACE (traceback e) ++ [10]) traces.
Proof.
  intros HP HS.
  set (Q := fun m => harmless_line m \/ exists e, m = FMT_ERROR_TRACE (traceback e) ++ [10]).
  destruct (everything (fun e => ends_line e /\ match e with TOut _ => True | TDbg _ m => Q m end) printable traceback w s) as [K1 K2].
  - intros l x L. split; [exact I|]. left. eapply tidy_harmless. exact L.
  - intros x L. split; [exact L|exact I].
  - intros e. split; [exact I|]. right. now exists e.
  - apply Forall_forall. intros m Hm. destruct (harmless_list _ _ _ HP HS m Hm) as (t & -> & H). split; [exact I|now left].
  - intros s1 src _ HF. eapply Forall_impl with (P := fun e => (ends_line e /\ leveled e) /\ tidy_ev e).
    + intros [t|l t] [[E _] L]; (split; [exact E|]); [exact I|]. left. eapply tidy_harmless. exact L.
    + apply Forall_and; [apply open_leveled|]. apply open_tidy. right. intros n Hn. destruct HF as [HF|HF]; rewrite HF in Hn.
      * unfold safe_name in HS. rewrite Hn in HS. exact HS.
      * injection Hn as <-. now apply one_line_dec.
  - exists (shown_traces (s_debug s) (traced_with printable traceback w s)). split.
    + rewrite <- K2. apply woven_events. eapply Forall_impl; [|exact K1]. now intros x [H _].
    + clear - K1. unfold shown_traces. induction K1 as [|[x|k x] l [_ H] K IH]; [constructor|exact IH|].
      cbn [flat_map]. destruct (s_debug s <? k)%nat; [exact IH|]. constructor; assumption.
Qed.

(** * Cases *)
Definition latin (c : N) : bool := between 0xA1 c 0x24F.
Lemma latin_safe : safe_printable latin.
Proof.
  intros c H. unfold latin, between in H. apply andb_true_iff in H. rewrite !N.leb_le in H. split; [|lia].
  unfold displayable, between. replace (32 <=? c) with true by (symmetry; apply N.leb_le; lia).
  replace (c =? 127) with false by (symmetry; apply N.eqb_neq; lia). replace (c <=? 159) with false by (symmetry; apply N.leb_gt; lia).
  replace (0xD800 <=? c) with false by (symmetry; apply N.leb_gt; lia). replace (c <? 0x110000) with true by (symmetry; apply N.ltb_lt; lia).
  now rewrite andb_false_r, orb_true_r.
Qed.
Definition case_settings (debug : nat) (name : str) : settings :=
  mkSettings true false RM_text (Some 16%Z) None false debug None (Some name)
             (fun c => match c with CC_utf8 => true | _ => false end) (fun _ => false) false 1%Z None (Some (-2)%Z) false false false true false false.
(** a name with an escape sequence that clears the screen *)
Definition clearing_name : str := [65; 27; 91; 50; 74].
Lemma list_harmless_refuted : exists p s columns l t, safe_printable p /\ In (TDbg l t) (fst (debug_settings p s columns)) /\ ~ clean t.
Proof.
  exists latin, (case_settings 3 clearing_name), 80%Z.
  set (bad := fun e => match e with TOut _ => false | TDbg _ t => negb (forallb (fun x => negb (is_leak x)) (screen t)) end).
  assert (E : existsb bad (fst (debug_settings latin (case_settings 3 clearing_name) 80%Z)) = true) by (vm_compute; reflexivity).
  apply existsb_exists in E. destruct E as (e & I & B). destruct e as [t|l t]; [discriminate|]. exists l, t.
  split; [exact latin_safe|]. split; [exact I|]. intros C. unfold clean in C. unfold bad in B. rewrite C in B. discriminate.
Qed.
Definition case_world : world := mkWorld [([102; 111; 111], Regular [65; 10; 27; 91; 109; 66])] [] [] false 80.
Lemma process_case : let s := case_settings 3 [102; 111; 111] in
  safe_name s /\ safe_printable latin /\
  let l := traced_with latin (fun _ => []) case_world s in
  (0 < length (ap_out (kolombos_with case_world s)))%nat /\ (45 < length (shown_traces 3 l))%nat.
Proof. split; [now apply one_line_dec|]. split; [exact latin_safe|]. set (l := traced_with _ _ _ _). vm_compute in l. split; vm_compute; lia. Qed.
Lemma listed_refuted : exists printable s columns, (3 <= s_debug s)%nat /\ (exists name, s_filename s = Some name /\ Forall (fun c => c < 0x110000) name) /\
  forall method, ~ shows (shown (s_debug s) (fst (debug_settings printable s columns))) (concat (settings_rows s columns method)).
Proof.
  exists latin, (case_settings 3 [102; 27; 91; 49; 109]), 80%Z. split; [vm_compute; lia|]. split; [exists [102; 27; 91; 49; 109]; split; [reflexivity|repeat constructor; lia]|].
  intros m [H _]. apply (f_equal (@length cell)) in H. rewrite map_length in H. revert H.
  replace (settings_rows (case_settings 3 [102; 27; 91; 49; 109]) 80 m) with (settings_rows (case_settings 3 [102; 27; 91; 49; 109]) 80 ([], [])) by reflexivity.
  vm_compute. discriminate.
Qed.
Lemma list_case : let s := case_settings 4 [102; 39; 0x2028] in
  debugged s /\ usable_name s /\ filter (fun e => if value_dec (e_value e) (e_default e) then false else true) (options s) =
    [ mkEntry (lit "binary") (Flag true) (Flag false); mkEntry (lit "buffer") (Number 16) Unset; mkEntry (lit "debug") (Number 4) (Number 0);
      mkEntry (lit "filename") (Words [102; 39; 0x2028]) Unset; mkEntry (lit "focus_utf8") (Flag true) (Flag false);
      mkEntry (lit "marker") (Number 1) (Number 0); mkEntry (lit "max_lines") (Number (-2)) Unset; mkEntry (lit "no_offsets") (Flag true) (Flag false) ] /\
  py_repr latin [102; 39; 0x2028] = lit """f'\u2028""".
Proof.
  split; [unfold debugged; cbn; lia|]. split; [unfold usable_name; cbn; repeat constructor; (lia || discriminate)|].
  split; vm_compute; reflexivity.
Qed.
Lemma determines_case : let s := case_settings 3 [102] in let s' := case_settings 3 [103] in
  debugged s /\ debugged s' /\ safe_name s /\ safe_name s' /\ options s <> options s'.
Proof.
  split; [unfold debugged; cbn; lia|]. split; [unfold debugged; cbn; lia|]. split; [now apply one_line_dec|]. split; [now apply one_line_dec|].
  intros H. apply (f_equal (fun l => nth 8 l (mkEntry [] Unset Unset))) in H. vm_compute in H. discriminate.
Qed.
