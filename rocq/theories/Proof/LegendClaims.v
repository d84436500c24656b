(** The claims about --legend and --version in terms of runs of the program *)
From Coq Require Import Ascii String.
From Coq Require Import List Arith NArith ZArith Bool Lia.
From Verif.Model Require Import Base Settings Reader Runner Render Legend.
From Verif.Spec Require Import Numbers Utf8 Terminal Lexical SgrParams Display Output Input Legend Conditions.
From Verif.Proof Require Import ExampleFacts LegendFacts DecodeFacts.
Import ListNotations.
Local Open Scope N_scope.

Lemma legend_scr sl tc src evs epi : s_legend sl = true -> screen (ap_out (app_main sl tc src evs epi)) = legend_screen.
Proof. intros H. rewrite main_legend by exact H. unfold legend_screen. reflexivity. Qed.

Lemma sample_in_text sl tcl srcl evl epi x s tc src evs chunks before next after : s_legend sl = true ->
  In x legend_samples -> is_text_sample x = true -> applies x s ->
  opens src -> Processed s evs chunks -> Finishes s evs -> Tokens chunks (before ++ sample_token x :: next :: after) ->
  exists p acts rows row l r, byteio_run s tc src evs = (p, acts, REnd) /\ displays (pr_out p) rows /\ In row rows /\
    map to_cell row = l ++ sample_region (screen (ap_out (app_main sl tcl srcl evl epi))) x ++ r.
Proof. intros H. rewrite legend_scr by exact H. apply legend_text. Qed.
Lemma sample_in_binary sl tcl srcl evl epi x s tc c src evs chunks before after : s_legend sl = true ->
  In x legend_samples -> is_text_sample x = false -> applies x s -> columns s tc = Z.of_nat c -> (0 < c)%nat ->
  opens src -> Processed s evs chunks -> Finishes s evs -> Tokens chunks (before ++ sample_token x :: after) ->
  exists p acts l cells r, byteio_run s tc src evs = (p, acts, REnd) /\ displays (pr_out p) (binary_rows s c (l ++ cells ++ r)) /\
    List.length l = List.length (flat_map tok_bytes before) /\
    match sm_where x with
    | In_hex _ => sample_region (screen (ap_out (app_main sl tcl srcl evl epi))) x = firstn (sm_width x) (map to_cell (flat_map hex_cells cells))
    | _ => sample_region (screen (ap_out (app_main sl tcl srcl evl epi))) x = map to_cell (map char_cell cells)
    end.
Proof. intros H. rewrite legend_scr by exact H. apply legend_binary. Qed.
Lemma sigil_shown sl tc src evs epi y c m k foc s : s_legend sl = true ->
  In (y, c, m, k, foc) sigils -> s_focus s (class_of k) = foc -> (forall b, m = Some b -> binary_mode s = b) ->
  map cell_char (region (screen (ap_out (app_main sl tc src evs epi))) y c 1) = [marker s k].
Proof. intros H. rewrite legend_scr by exact H. apply legend_sigils. Qed.

Lemma classes_stated sl tc src evs epi k w rest b : s_legend sl = true -> Token k w rest -> In b w -> single_kind k = true ->
  let scr := screen (ap_out (app_main sl tc src evs epi)) in
  (class_of k = CC_space <-> in_ranges (class_ranges scr 8) b) /\
  (class_of k = CC_printable <-> in_ranges (class_ranges scr 10) b) /\
  (class_of k = CC_binary <-> in_ranges (class_ranges scr 11) b) /\
  (in_ranges (class_ranges scr 9) b -> class_of k = CC_control) /\
  (class_of k = CC_control -> in_ranges (class_ranges scr 9) b \/ b = 0 \/ b = 127).
Proof. intros H. cbv zeta. rewrite legend_scr by exact H. apply legend_classes. Qed.
Definition legend_settings : settings := mkSettings false false RM_text None None false 0 None None
             (fun _ => false) (fun _ => false) true 0%Z None None false false false false false false.
Lemma classes_wrong : exists sl k w rest b, s_legend sl = true /\ Token k w rest /\ In b w /\ class_of k = CC_control /\
  ~ in_ranges (class_ranges (screen (ap_out (app_main sl 80 SrcStdin [] []))) 9) b.
Proof.
  exists legend_settings, (K_run R_null), [0], [], 0. split; [reflexivity|]. destruct legend_classes_witness as [(T & C & W) _].
  split; [exact T|]. split; [now left|]. split; [exact C|]. rewrite legend_scr by reflexivity. exact W.
Qed.
Lemma classes_wrong_del : exists sl k w rest b, s_legend sl = true /\ Token k w rest /\ In b w /\ class_of k = CC_control /\
  ~ in_ranges (class_ranges (screen (ap_out (app_main sl 80 SrcStdin [] []))) 9) b /\ b <> 0.
Proof.
  exists legend_settings, (K_run R_delete), [127], [], 127. split; [reflexivity|]. destruct legend_classes_witness as [_ (T & C & W)].
  split; [exact T|]. split; [now left|]. split; [exact C|]. split; [|discriminate]. rewrite legend_scr by reflexivity. exact W.
Qed.

(** the whole file *)
Definition decoded (o : option str) : str := match o with Some s => s | None => [] end.
Definition legend_lines : list str := split_on 10 (decoded (decode legend_bytes)).
Definition file_lines : list str := removelast legend_lines.
Definition file_rest : str := last legend_lines [].
Definition bounded (l : str) : bool := forallb (fun c => negb (is_boundary c)) l.
Lemma bounded_ok l : bounded l = true -> no_boundary l.
Proof.
  unfold bounded. intros A. apply Forall_forall. intros c Hc. rewrite forallb_forall in A. specialize (A c Hc). now destruct (is_boundary c).
Qed.
Lemma file_decoded : decode legend_bytes = Some (as_lines file_lines ++ file_rest).
Proof. vm_compute. reflexivity. Qed.
Lemma file_bounded : forallb bounded file_lines = true.
Proof. vm_compute. reflexivity. Qed.
Lemma rest_bounded : bounded file_rest = true.
Proof. vm_compute. reflexivity. Qed.
Lemma rest_hash : starts_hash file_rest = true.
Proof. vm_compute. reflexivity. Qed.
Lemma Ok_inj {A} (a b : A) : Ok a = Ok b -> a = b.
Proof. congruence. Qed.
Lemma legend_as_lines : exists ls l, legend_bytes = utf8_text (as_lines ls ++ l) /\ Forall no_boundary ls /\ no_boundary l /\ starts_hash l = true /\
  forall sl tc src evs epi, s_legend sl = true ->
  ap_out (app_main sl tc src evs epi) = as_lines (filter (fun l => negb (starts_hash l)) ls) ++ [10] /\
  ap_err (app_main sl tc src evs epi) = None /\ ap_code (app_main sl tc src evs epi) = Some 0%Z.
Proof.
  destruct (decode_sound _ _ file_decoded) as [E S]. apply Forall_app in S. destruct S as [S1 S2].
  assert (B : Forall no_boundary file_lines).
  { pose proof file_bounded as A. rewrite forallb_forall in A. apply Forall_forall. intros l Hl. exact (bounded_ok _ (A l Hl)). }
  exists file_lines, file_rest. split; [exact E|]. split; [exact B|]. split; [exact (bounded_ok _ rest_bounded)|]. split; [exact rest_hash|].
  intros sl tc src evs epi H. rewrite main_legend by exact H. cbn [ap_out ap_err ap_code]. split; [|split; reflexivity].
  assert (F : Ok legend_out = Ok (as_lines (filter (fun l => negb (starts_hash l)) file_lines) ++ [])).
  { rewrite <- legend_runs, E. rewrite legend_run_lines; [rewrite rest_hash; reflexivity|exact B| |exact (bounded_ok _ rest_bounded)|exact S2].
    apply Forall_forall. intros l Hl. rewrite Forall_forall in S1. apply Forall_forall. intros c Hc. apply S1. unfold as_lines. apply in_flat_map.
    exists l. split; [exact Hl|]. apply in_or_app. exact (or_introl Hc). }
  rewrite app_nil_r in F. apply Ok_inj in F. rewrite F. reflexivity.
Qed.

Lemma legend_harmless sl tc src evs epi : s_legend sl = true ->
  clean (ap_out (app_main sl tc src evs epi)) /\ final_attrs (ap_out (app_main sl tc src evs epi)) = attrs0.
Proof. intros H. rewrite main_legend by exact H. exact legend_clean. Qed.

Lemma version_out sl tc src evs epi : s_legend sl = false -> s_version sl = true ->
  ap_out (app_main sl tc src evs epi) = txt "es7s/kolombos   1.5.4" ++ [10] ++ txt "pytermor        2.1.0-dev15" ++ [10] ++ [10] /\
  ap_err (app_main sl tc src evs epi) = None /\ ap_code (app_main sl tc src evs epi) = Some 0%Z.
Proof. intros H V. rewrite main_version by assumption. repeat split; vm_compute; reflexivity. Qed.
Definition version_settings : settings := mkSettings false false RM_text None None false 0 None None
             (fun _ => false) (fun _ => false) false 0%Z None None false false false false true false.

(** the legend gives another version *)
Lemma stale_version : exists sl sv, s_legend sl = true /\ s_legend sv = false /\ s_version sv = true /\
  map cell_char (region (screen (ap_out (app_main sl 80 SrcStdin [] []))) 5 44 6) = txt "v1.5.3" /\
  map cell_char (region (screen (ap_out (app_main sv 80 SrcStdin [] []))) 0 16 5) = txt "1.5.4".
Proof.
  exists legend_settings, version_settings. split; [reflexivity|]. split; [reflexivity|]. split; [reflexivity|]. split.
  - rewrite legend_scr by reflexivity. etransitivity; [exact legend_version_shown|]. reflexivity.
  - rewrite main_version by reflexivity. vm_compute. reflexivity.
Qed.
Lemma width_but_one sl tc src evs epi y : s_legend sl = true -> y <> 16%nat ->
  (List.length (nth y (screen_lines (screen (ap_out (app_main sl tc src evs epi)))) []) <= 88)%nat.
Proof. intros H. rewrite legend_scr by exact H. apply legend_widths. Qed.
Lemma width_wrong : exists sl y, s_legend sl = true /\
  map cell_char (region (screen (ap_out (app_main sl 80 SrcStdin [] []))) 63 42 13) = txt "88 chars wide" /\
  List.length (nth y (screen_lines (screen (ap_out (app_main sl 80 SrcStdin [] [])))) []) = 101%nat.
Proof.
  exists legend_settings, 16%nat. split; [reflexivity|]. rewrite legend_scr by reflexivity. split; [exact legend_width_stated|exact legend_wide].
Qed.

(** an instance: a tab in text mode *)
Definition tab_sample : sample := mkSample 19 12 1 (In_text None None) (K_run R_tab) [9] [] false.
Lemma tab_sample_in : In tab_sample legend_samples.
Proof. now left. Qed.
Lemma tab_applies : applies tab_sample default_settings.
Proof. repeat split; intros; discriminate. Qed.
