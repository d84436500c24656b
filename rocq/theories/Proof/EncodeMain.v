(** C101: the whole program, at any debug level *)
From Coq Require Import Ascii String.
From Coq Require Import List Arith NArith ZArith Bool Lia.
From Verif.Model Require Import Base Ansi Regex Strip Settings Segment Template Parser Console Formatter Reader Runner Options Messages Legend Process Filters Trace SettingsDump TracedProcess Args Help.
From Verif.Spec Require Import Numbers Terminal Sgr Utf8 Lexical SgrParams Display Output Input Weave Process Encoding.
From Verif.Proof Require Import BaseFacts TermFacts TokFacts PaintFacts DisplayFacts RunFacts ReaderFacts RunMain ProcessFacts LegendFacts TraceFacts TraceRun TraceClaims SettingsFacts SettingsClaims TracedClaims HelpFacts EncodeClaims.
From Verif.Proof Require HelpClaims.
Import ListNotations.
Local Open Scope N_scope.

(** ** the reader *)
Section Reading.
  Context {St : Type}.
  Variable cb : St -> bytes -> Z -> bool -> St * cb_res.
  Variable mb ml : option Z.
  Variable src : source.
  Variable Good Fine : St -> Prop.
  Hypothesis weaken : forall st, Good st -> Fine st.
  Hypothesis step : forall st raw off fin, is_bytes raw -> Good st ->
    Fine (fst (cb st raw off fin)) /\ (snd (cb st raw off fin) = CbOk -> Good (fst (cb st raw off fin))).
  Definition fine3 (x : St * list action * reader_end) : Prop := Fine (fst (fst x)).
  Lemma fine_pre a x : fine3 x -> fine3 (pre a x).
  Proof. destruct x as [[st l] en]. auto. Qed.
  Lemma fine_finish raw off st : is_bytes raw -> Good st -> fine3 (read_finish cb raw off st).
  Proof.
    intros Hb H. unfold read_finish. destruct (step st raw off true Hb H) as [F _]. destruct (cb st raw off true) as [st' r]. cbn [fst] in F. destruct r; exact F.
  Qed.
  Lemma fine_loop : forall evs off lines st, Forall (fun e => match e with RData d => is_bytes d | _ => True end) evs -> Good st ->
    fine3 (read_loop cb mb ml src evs off lines st).
  Proof.
    assert (N0 : is_bytes []) by constructor.
    induction evs as [|ev evs IH]; intros off lines st HE H; cbn [read_loop]; [apply fine_pre; now apply fine_finish|].
    inversion HE as [|? ? H1 H2]; subst. destruct ev as [raw| |]; [|now apply weaken|now apply weaken].
    destruct raw as [|b raw]; [apply fine_pre; now apply fine_finish|]. set (r0 := b :: raw) in *. clearbody r0.
    destruct (tell_fails src); [now apply weaken|]. destruct (apply_max_lines ml r0 lines) as [raw1 lines1] eqn:A.
    assert (B1 : is_bytes raw1) by (destruct (apply_prefix _ _ _ _ _ A) as [rest ->]; apply Forall_app in H1; tauto).
    match goal with |- context [if ?c then _ else _] => destruct c end.
    - apply fine_pre, fine_finish; [|exact H]. apply Forall_forall. intros c Hc. apply take_in in Hc. unfold is_bytes in B1. rewrite Forall_forall in B1. auto.
    - destruct (step st raw1 off false B1 H) as [F G]. destruct (cb st raw1 off false) as [st1 r]. cbn [fst snd] in *.
      destruct r; try exact F. specialize (G eq_refl). match goal with |- context [if ?c then _ else _] => destruct c end; apply fine_pre; [now apply fine_finish|now apply IH].
  Qed.
  Lemma fine_read evs st : Forall (fun e => match e with RData d => is_bytes d | _ => True end) evs -> Good st -> fine3 (read cb mb ml src evs st).
  Proof. intros HE H. unfold read. pose proof (fine_loop evs 0%Z 0%Z st HE H) as L. destruct src; [| |now apply weaken]; apply fine_pre; exact L. Qed.
End Reading.

Lemma run_scalars s tc src evs : Forall (fun e => match e with RData d => is_bytes d | _ => True end) evs ->
  scalars (pr_out (fst (fst (byteio_run s tc src evs)))).
Proof.
  intros H. rewrite run_read. apply (fine_read _ _ _ _ PInv (fun p => scalars (pr_out p))); [intros p K; apply K| |exact H|].
  - intros p raw off fin Hb K. now apply chunk_ok; [apply env_of| |].
  - split; [reflexivity|]. split; constructor.
Qed.

(** ** the program *)
Definition content_of (f : file) : bytes := match f with Regular c | Pipe c => c end.
Definition made_of_bytes (w : world) : Prop :=
  Forall (fun x => is_bytes (content_of (snd x))) (w_files w) /\ is_bytes (w_demo w) /\ is_bytes (w_typed w).
Lemma blocks_all (P : N -> Prop) n : forall fuel l, Forall P l -> Forall (Forall P) (blocks_fuel fuel n l).
Proof.
  induction fuel as [|f IH]; intros l H; cbn [blocks_fuel]; [constructor|]. destruct l as [|x l]; [constructor|].
  rewrite <- (firstn_skipn n (x :: l)) in H. apply Forall_app in H as [H1 H2]. constructor; auto.
Qed.
Lemma reads_bytes n c : is_bytes c -> Forall (fun e => match e with RData d => is_bytes d | _ => True end) (file_reads n c).
Proof.
  intros H. unfold file_reads. apply Forall_map. destruct (n <? 0)%Z; [constructor; [exact H|constructor]|]. now apply (blocks_all (fun b => b < 256)).
Qed.
Lemma input_bytes w demo s src evs : made_of_bytes w -> input_of w demo s = (src, evs) -> Forall (fun e => match e with RData d => is_bytes d | _ => True end) evs.
Proof.
  intros (H1 & H2 & H3). unfold input_of. destruct demo; [intros [= <- <-]; now apply reads_bytes|].
  destruct (reading_stdin (s_filename s)).
  - intros [= <- <-]. unfold stdin_reads. destruct (w_interrupted w); [|now apply reads_bytes]. apply Forall_app. split; [|constructor; [exact I|constructor]].
    destruct (_ <? 0)%Z; [constructor|]. apply Forall_map. apply (blocks_all (fun b => b < 256)). apply Forall_forall. intros c Hc. apply in_firstn in Hc. unfold is_bytes in H3. rewrite Forall_forall in H3. auto.
  - unfold lookup_file. match goal with |- context [find ?p ?l] => destruct (find p l) as [[name f]|] eqn:F end; [|intros [= <- <-]; constructor].
    apply find_some in F as [F _]. rewrite Forall_forall in H1. specialize (H1 _ F). cbn [snd] in H1. destruct f as [c|c]; intros [= <- <-]; now apply reads_bytes.
Qed.
Lemma main_scalars w demo s : made_of_bytes w -> scalars (pr_out (fst (fst (byteio_main w demo s)))).
Proof.
  intros H. unfold byteio_main. destruct (input_of w demo s) as [src evs] eqn:E. destruct (_ && _)%bool; [constructor|].
  apply run_scalars. eapply input_bytes; eassumption.
Qed.
Lemma hint_scalars : scalars debug_hint.
Proof. now apply lowb_ok. Qed.
Lemma finish_scalars s epi x : scalars epi -> scalars (pr_out (fst (fst x))) -> scalars (ap_out (app_finish s epi x)).
Proof.
  intros He H. destruct x as [[p acts] en]. cbn [fst] in H. unfold app_finish. destruct en as [|e|]; cbn [ap_out]; [| |exact H].
  - rewrite !scalars_app. repeat split; [exact H|exact He|now apply lowb_ok].
  - rewrite !scalars_app. repeat split; [exact H| |now apply lowb_ok]. destruct (_ <? _)%nat; [constructor|]. apply scalars_app. split; [apply hint_scalars|now apply lowb_ok].
Qed.
Lemma legend_scalars : scalars legend_out.
Proof. apply lowb_ok. vm_compute. reflexivity. Qed.
Theorem program_scalars_with w s : made_of_bytes w -> scalars (ap_out (kolombos_with w s)).
Proof.
  intros H. unfold kolombos_with. destruct (create_runner (after_parse_args s)) eqn:C.
  - unfold app_main, app_run, app_input_settings. rewrite C. rewrite after_parse_runner in C. rewrite C, legend_runs. cbn [ap_out].
    apply scalars_app. split; [apply legend_scalars|now apply lowb_ok].
  - unfold app_main, app_run, app_input_settings. rewrite C. rewrite after_parse_runner in C. rewrite C. cbn [ap_out]. now apply lowb_ok.
  - apply finish_scalars; [now apply lowb_ok|]. now apply main_scalars.
  - apply finish_scalars; [constructor|]. now apply main_scalars.
Qed.
Theorem program_scalars w opts : made_of_bytes w -> scalars (ap_out (kolombos w opts)).
Proof. intros H. unfold kolombos. destruct (parse_args opts) as [s|]; [now apply program_scalars_with|constructor]. Qed.

(** ** debug output *)
Definition dbg_ok (e : tev) : Prop := match e with TOut _ => True | TDbg _ t => scalars t end.
Lemma displayable_scalar c : displayable c = true -> scalar c.
Proof.
  unfold displayable, scalar, between.
  destruct (N.eqb_spec c 9); [lia|]. destruct (N.eqb_spec c 10); [lia|]. cbn [orb]. rewrite !andb_true_iff, !negb_true_iff, N.ltb_lt.
  intros ((_ & H) & K). apply andb_false_iff in H as [H|H]; apply N.leb_gt in H; lia.
Qed.
Lemma tidy_scalars l t : tidy_ev (TDbg l t) -> dbg_ok (TDbg l t).
Proof.
  intros (_ & m & -> & v & cs & HP & HV & HI). cbn [dbg_ok]. apply scalars_app. split; [|now apply lowb_ok].
  eapply painted_scalars; [exact HP|]. rewrite HV. eapply Forall_impl; [|exact HI]. intros c [Hc _]. now apply displayable_scalar.
Qed.
Definition plain_name (s : settings) : Prop := match s_filename s with Some f => scalars f | None => True end.
Lemma sc_dbg s d l m : scalars match db_key d with Some k => k | None => [] end -> scalars m -> dbg_ok (dbg s d l m).
Proof.
  intros Hk H. unfold dbg. cbn [dbg_ok]. rewrite !scalars_app. repeat split; [|exact H|now apply lowb_ok].
  destruct (db_key d); [now apply sc_prefix|constructor].
Qed.
Lemma open_scalars s src : plain_name s -> Forall dbg_ok (open_trace s src).
Proof.
  intros H. unfold plain_name in H. unfold open_trace. constructor; [|constructor; [|constructor]]; (apply sc_dbg; [now apply lowb_ok|]).
  - assert (K : scalars (lit "Opened file: " ++ span_wrap [c_BOLD] match s_filename s with Some n => n | None => [] end)).
    { apply scalars_app. split; [now apply lowb_ok|]. apply sc_wrap. destruct (s_filename s); [exact H|constructor]. }
    destruct src; [now apply lowb_ok|exact K|exact K].
  - apply scalars_app. split; [now apply lowb_ok|]. apply sc_wrap. unfold zdec. apply scalars_app. split; [destruct (_ <? _)%Z; now apply lowb_ok|apply sc_dec].
Qed.

(** values *)
Definition wide (printable : N -> bool) : Prop := forall c, printable c = true -> scalar c.
Lemma sc_zdec n : scalars (zdec n).
Proof. unfold zdec. apply scalars_app. split; [destruct (_ <? _)%Z; now apply lowb_ok|apply sc_dec]. Qed.
Lemma sc_escape l w c : l < 128 -> scalars (hex_escape l w c).
Proof. intros H. unfold hex_escape. apply scalars_app. split; [|apply sc_hex]. constructor; [now apply scb_ok|]. constructor; [apply low; lia|constructor]. Qed.
Lemma sc_repr_char p q c : wide p -> q < 128 -> scalars (repr_char p q c).
Proof.
  intros HP HQ. unfold repr_char. destruct ((c =? q) || (c =? 92)) eqn:E1.
  { constructor; [now apply scb_ok|]. constructor; [|constructor]. apply orb_true_iff in E1 as [E|E]; apply N.eqb_eq in E; subst; apply low; lia. }
  clear E1. destruct (c =? 9); [now apply lowb_ok|]. destruct (c =? 10); [now apply lowb_ok|]. destruct (c =? 13); [now apply lowb_ok|].
  destruct (_ || _); [now apply sc_escape|]. destruct (N.ltb_spec c 127); [constructor; [apply low; lia|constructor]|].
  destruct (p c) eqn:E2; [constructor; [now apply HP|constructor]|]. destruct (c <=? 0xFF); [now apply sc_escape|]. destruct (c <=? 0xFFFF); now apply sc_escape.
Qed.
Lemma sc_repr p t : wide p -> scalars (py_repr p t).
Proof.
  intros HP. unfold py_repr. cbv zeta.
  match goal with |- context [if ?a then 34 else 39] => assert (Q : (if a then 34 else 39) < 128) by (destruct a; lia); set (q := if a then 34 else 39) in *; clearbody q end. rewrite !scalars_app. repeat split; try (constructor; [apply low; lia|constructor]).
  apply Forall_flat_map, Forall_forall. intros c _. now apply sc_repr_char.
Qed.
Definition val_ok (v : pyval) : Prop :=
  match v with
  | VStr t => scalars t
  | VEnum cls name value => scalars cls /\ scalars name
  | VMethod name _ => scalars name
  | _ => True
  end.
Lemma sc_plain p v : wide p -> val_ok v -> scalars (plain_repr p v).
Proof.
  intros HP HV. destruct v as [|[|]|n|t|a b c|n s]; cbn [plain_repr]; try (now apply lowb_ok); [apply sc_zdec|now apply sc_repr|].
  cbn in HV. rewrite !scalars_app. repeat split; try (now apply lowb_ok); [apply HV|apply HV|now apply sc_repr].
Qed.
Lemma own_val_ok p s : wide p -> Forall (fun x => scalars (fst x) /\ scalars (plain_repr p (snd x))) (own_attrs s).
Proof.
  intros HP. assert (O : forall o, scalars (plain_repr p (opt_int o))) by (intros [n|]; [apply sc_zdec|now apply lowb_ok]).
  assert (B : forall b, scalars (plain_repr p (VBool b))) by (intros [|]; now apply lowb_ok).
  unfold own_attrs. repeat (apply Forall_cons; [split; cbn [fst snd]; [now apply lowb_ok|first [apply O|apply B|apply sc_zdec|idtac]]|]); [..|apply Forall_nil].
  - destruct (s_decode s); [apply B|now apply lowb_ok].
  - destruct (s_filename s); [now apply sc_repr|now apply lowb_ok].
  - apply sc_plain; [exact HP|]. destruct (s_default_read_mode s); split; now apply lowb_ok.
Qed.
Lemma sc_settings p s : wide p -> scalars (settings_repr p s).
Proof.
  intros HP. unfold settings_repr. rewrite !scalars_app. repeat split; try (now apply lowb_ok). apply TextDisplay.join_Forall; [now apply lowb_ok|].
  apply Forall_map. eapply Forall_impl; [|apply (own_val_ok p s HP)]. intros x [H1 H2]. rewrite !scalars_app. repeat split; [exact H1|now apply lowb_ok|exact H2].
Qed.
Lemma sc_str p v : wide p -> val_ok v -> scalars (py_str p v).
Proof.
  intros HP HV. destruct v as [|b|n|t|a b c|n s]; cbn [py_str]; try (now apply sc_plain); [exact HV| |].
  - cbn in HV. rewrite !scalars_app. repeat split; [apply HV|now apply lowb_ok|apply HV].
  - rewrite !scalars_app. repeat split; try (now apply lowb_ok); [exact HV|now apply sc_settings].
Qed.
Lemma read_mode_ok m : val_ok (read_mode_value m).
Proof. destruct m; split; now apply lowb_ok. Qed.
Lemma own_ok s : plain_name s -> Forall (fun x => val_ok (snd x)) (own_attrs s).
Proof.
  intros H. assert (O : forall o, val_ok (opt_int o)) by (intros [n|]; exact I). unfold plain_name in H.
  unfold own_attrs. repeat (apply Forall_cons; [cbn [snd]; first [exact I|apply O|idtac]|]); [..|apply Forall_nil].
  - destruct (s_decode s); exact I.
  - destruct (s_filename s); [exact H|exact I].
  - apply read_mode_ok.
Qed.
Lemma assoc_ok {A} (P : A -> Prop) k (l : list (str * A)) v : Forall (fun x => P (snd x)) l -> assoc k l = Some v -> P v.
Proof.
  induction 1 as [|[k' x] l Hx H IH]; cbn [assoc]; [discriminate|]. destruct (eqb_list k k'); [intros [= <-]; exact Hx|exact IH].
Qed.
Lemma decided_plain s : plain_name s -> plain_name (snd (get_read_mode s)).
Proof. intros H. pose proof (get_read_mode_keeps s) as G. destruct (get_read_mode s). destruct G as (_ & G & _). unfold plain_name. cbn [snd]. now rewrite G. Qed.
Lemma get_ok name s : plain_name s -> scalars name -> val_ok (fst (get_attr name s)) /\ plain_name (snd (get_attr name s)).
Proof.
  intros H HN. unfold get_attr. destruct (assoc name (own_attrs s)) as [v|] eqn:A.
  - split; [|exact H]. exact (assoc_ok val_ok _ _ _ (own_ok s H) A).
  - repeat (match goal with |- context [if ?c then _ else _] => destruct c end; [|]);
      try (split; [exact I|exact H]); try (split; [exact HN|exact H]).
    + pose proof (decided_plain s H) as D. destruct (get_read_mode s) as [m s1]. split; [apply read_mode_ok|exact D].
    + split; [|exact H]. destruct (effective_marker_details s); split; now apply lowb_ok.
Qed.
Lemma sc_print p s a v w : wide p -> scalars a -> val_ok v -> val_ok w -> dbg_ok (debug_print p s a v w).
Proof.
  intros HP Ha Hv Hw. unfold debug_print. cbv zeta. apply sc_dbg; [constructor|]. rewrite !scalars_app. repeat split.
  - apply sc_wrap. now apply sc_rjust.
  - apply sc_separator.
  - destruct (negb _); [|apply sc_wrap; now apply sc_str]. rewrite !scalars_app. repeat split; [apply sc_wrap; now apply sc_str|now apply lowb_ok|].
    apply sc_wrap. rewrite !scalars_app. repeat split; try (now apply lowb_ok). now apply sc_str.
Qed.
Lemma sc_attrs p : wide p -> forall names s d, Forall scalars names -> plain_name s -> plain_name d ->
  let '(l, s1, d1) := print_attrs p names s d in Forall dbg_ok l /\ plain_name s1 /\ plain_name d1.
Proof.
  intros HP. induction names as [|a names IH]; intros s d HN Hs Hd; cbn [print_attrs]; [repeat split; [constructor|exact Hs|exact Hd]|].
  inversion HN as [|? ? N1 N2]; subst. destruct (get_ok a s Hs N1) as [V1 P1]. destruct (get_ok a d Hd N1) as [V2 P2].
  destruct (get_attr a s) as [v s1], (get_attr a d) as [w d1]. cbn [fst snd] in *. specialize (IH s1 d1 N2 P1 P2).
  destruct (print_attrs p names s1 d1) as [[l s2] d2]. destruct IH as (I1 & I2 & I3). repeat split; [|exact I2|exact I3].
  constructor; [now apply sc_print|exact I1].
Qed.
Lemma dump_names_ok s : Forall scalars (dump_attrs s).
Proof.
  rewrite dump_attrs_eq. apply Forall_app. split; [|destruct (_ <=? _)%nat; [|constructor]].
  all: apply Forall_forall; intros x Hx; apply lowb_ok; revert x Hx; apply forallb_forall; vm_compute; reflexivity.
Qed.
Lemma sc_repeat c n : scalar c -> scalars (repeat c n).
Proof. intros H. apply Forall_forall. intros x Hx. apply repeat_spec in Hx. now subst. Qed.
Lemma sc_settings_line s col a b : scalar a -> scalar b -> scalars (settings_line s col a b).
Proof.
  intros Ha Hb. unfold settings_line. cbv zeta. assert (R : forall n, scalars (repeat 0x2500 n)) by (intros; apply sc_repeat; now apply scb_ok).
  match goal with |- scalars (if _ then span_wrap _ ?x else _) => assert (L : scalars x); [|destruct (_ <? _)%nat; now apply sc_wrap] end.
  rewrite !scalars_app. repeat split; [|apply sc_wrap, R|constructor; [exact Ha|constructor]|apply R].
  apply sc_wrap. apply scalars_app. split; [apply R|]. constructor; [exact Hb|constructor].
Qed.
Lemma sc_header s : scalars (header_text s).
Proof.
  apply lowb_ok. unfold header_text. cbv zeta. unfold max_attr_len. rewrite dump_attrs_eq. destruct (4 <=? s_debug s)%nat; vm_compute; reflexivity.
Qed.
Lemma dump_scalars p s col : wide p -> plain_name s -> Forall dbg_ok (fst (debug_settings p s col)).
Proof.
  intros HP H. unfold debug_settings. destruct (s_debug s <? 3)%nat; [constructor|].
  pose proof (sc_attrs p HP (dump_attrs s) s default_settings (dump_names_ok s) H I) as K.
  destruct (print_attrs p (dump_attrs s) s default_settings) as [[l s1] d1]. destruct K as (K1 & K2 & K3). cbn [fst].
  rewrite !Forall_app. repeat split; [|exact K1| |].
  - constructor; [|constructor; [|constructor]]; (apply sc_dbg; [constructor|]).
    + apply sc_settings_line; now apply scb_ok.
    + apply scalars_app. split; [apply sc_wrap, sc_header|apply sc_separator].
  - destruct (4 <=? s_debug s)%nat; [|constructor]. apply Forall_map.
    assert (C : Forall (fun x : char_class * str => scalars (snd x)) char_classes) by (repeat (apply Forall_cons; [now apply lowb_ok|]); apply Forall_nil).
    eapply Forall_impl; [|exact C]. intros x Hx. apply sc_print; [exact HP|apply scalars_app; split; [now apply lowb_ok|exact Hx]| |];
      (destruct (get_display_mode _ _); split; now apply lowb_ok).
  - constructor; [|constructor]. apply sc_dbg; [constructor|]. apply sc_settings_line; now apply scb_ok.
Qed.

Theorem debug_scalars printable traceback w s : made_of_bytes w -> plain_name s -> wide printable -> (forall e, scalars (traceback e)) ->
  scalars (shown (s_debug s) (traced_with printable traceback w s)).
Proof.
  intros HW HN HP HT. destruct (everything dbg_ok printable traceback w s) as [K1 K2].
  - exact tidy_scalars.
  - intros; exact I.
  - intros e. cbn [dbg_ok]. apply scalars_app. split; [now apply sc_wrap|now apply lowb_ok].
  - now apply dump_scalars.
  - intros s1 src _ HF. apply open_scalars. unfold plain_name. destruct HF as [-> | ->]; [exact HN|now apply lowb_ok].
  - pose proof (program_scalars_with w s HW) as R. rewrite <- K2 in R. clear K2 HW HN HP HT. revert R. generalize (s_debug s). intros d.
    induction K1 as [|[t|k t] l He Hl IH]; intros R; [constructor| |]; cbn [shown regular flat_map ev_shown dbg_ok] in *.
    + apply scalars_app in R as [R1 R2]. apply scalars_app. split; [exact R1|now apply IH].
    + apply scalars_app. split; [destruct (_ <? _)%nat; [constructor|exact He]|]. apply IH. exact R.
Qed.

(** ** the codecs *)
Lemma utf_8_some c : scalar c -> utf_8 c = Some (utf8_encode c).
Proof.
  unfold utf_8. intros [H|[H1 H2]]; [now rewrite (proj2 (N.ltb_lt _ _) H)|]. rewrite (proj2 (N.leb_le _ _) H1), (proj2 (N.ltb_lt _ _) H2). now rewrite orb_true_r.
Qed.
Lemma encoded_utf8 t : scalars t -> encoded utf_8 t = Some (utf8_text t).
Proof. induction 1 as [|c t Hc H IH]; [reflexivity|]. cbn [encoded]. rewrite (utf_8_some c Hc), IH. reflexivity. Qed.
Lemma encoded_all e t b : encoded e t = Some b -> Forall (fun c => e c <> None) t.
Proof.
  revert b. induction t as [|c t IH]; intros b; [constructor|]. cbn [encoded]. destruct (e c) eqn:E; [|discriminate]. destruct (encoded e t); [|discriminate].
  intros _. constructor; [now rewrite E|eauto].
Qed.
Lemma well_bytes w : well_formed w -> made_of_bytes w.
Proof.
  intros (H1 & H2 & H3). split; [|split; assumption]. eapply Forall_impl; [|exact H3]. intros [n [c|c]] K; exact K.
Qed.

Lemma help_low columns tty : lowb (help_page columns tty) = true.
Proof.
  unfold lowb. pose proof (HelpClaims.low_page tty columns) as L. rewrite forallb_forall in *. intros c H. unfold scb. rewrite (L c H). reflexivity.
Qed.
Theorem started_encoded w tty argv : well_formed w -> encoded utf_8 (ap_out (started w tty argv)) = Some (utf8_text (ap_out (started w tty argv))).
Proof.
  intros H. apply encoded_utf8. unfold started, main. destruct (command_line argv) as [| |s]; cbn [ap_out]; [constructor|apply lowb_ok, help_low|].
  apply program_scalars_with. now apply well_bytes.
Qed.
Theorem traced_encoded printable traceback w s : well_formed w ->
  match s_filename s with Some f => Forall scalar f | None => True end ->
  (forall c, printable c = true -> scalar c) -> (forall e, Forall scalar (traceback e)) ->
  encoded utf_8 (shown (s_debug s) (traced_with printable traceback w s)) = Some (utf8_text (shown (s_debug s) (traced_with printable traceback w s))).
Proof. intros H1 H2 H3 H4. apply encoded_utf8. apply debug_scalars; try assumption. now apply well_bytes. Qed.

(** a file whose name is the byte 0xFF *)
Definition byte_world : world := mkWorld [([0xDCFF], Regular [65])] [] [] false 80.
Definition byte_argv (d : list str) : list str := d ++ [[0xDCFF]].
Lemma debug_fails : exists w argv s, well_formed w /\ Forall (Forall from_bytes) argv /\ command_line argv = C_run s /\
  forall printable traceback, encoded utf_8 (shown (s_debug s) (traced_with printable traceback w s)) = None /\
  exists argv' s', command_line argv' = C_run s' /\ s_debug s' = 0%nat /\ s_filename s' = s_filename s /\
    ap_code (kolombos_with w s') = Some 0%Z /\ encoded utf_8 (shown (s_debug s') (traced_with printable traceback w s')) <> None.
Proof.
  eexists byte_world, (byte_argv [lit "--debug"]), _. split; [repeat split; repeat constructor|].
  split.
  { apply Forall_cons; [|apply Forall_cons; [|apply Forall_nil]]; [|apply Forall_cons; [|apply Forall_nil]; right; split; discriminate].
    eapply Forall_impl; [intros c Hc; left; exact Hc|now apply lowb_ok]. }
  split; [vm_compute; reflexivity|]. intros p tb. split; [vm_compute; reflexivity|].
  eexists (byte_argv []), _. split; [vm_compute; reflexivity|]. split; [reflexivity|]. split; [reflexivity|]. split; [vm_compute; reflexivity|]. vm_compute. discriminate.
Qed.
Lemma latin_fails : exists w argv, well_formed w /\ encoded latin_1 (ap_out (started w false argv)) = None /\ ap_code (started w false argv) = Some 0%Z.
Proof.
  exists (mkWorld [] [] [65; 10] false 80), []. split; [repeat split; repeat constructor|]. split; vm_compute; reflexivity.
Qed.
Lemma encode_case :
  let w := mkWorld [([102; 111; 111], Regular (map N.of_nat (seq 0 256) ++ [0xED; 0xA0; 0x80; 0xF0; 0x9F; 0x98; 0x80]))] [] [] false 80 in
  well_formed w /\ (256 < List.length (ap_out (started w true [[102; 111; 111]%N])))%nat /\
  (let s := case_settings 3 [102; 111; 111] in
   Forall scalar [102; 111; 111] /\ (forall c, latin c = true -> scalar c) /\ (1000 < List.length (shown (s_debug s) (traced_with latin (fun _ => []) w s)))%nat).
Proof.
  split. { split; [constructor|]. split; [constructor|]. apply Forall_cons; [|apply Forall_nil]. cbn [snd]. apply Forall_forall. intros c Hc. apply N.ltb_lt. revert c Hc. apply forallb_forall. vm_compute. reflexivity. }
  split; [apply Nat.ltb_lt; vm_compute; reflexivity|]. split; [now apply lowb_ok|]. split.
  - intros c. unfold latin, between. intros H. apply low. rewrite ?orb_true_iff, ?andb_true_iff, ?N.ltb_lt, ?N.leb_le in H. lia.
  - apply Nat.ltb_lt. vm_compute. reflexivity.
Qed.
