(** The examples of the help page *)
From Coq Require Import Ascii String.
From Coq Require Import List Arith NArith ZArith Bool Lia.
From Verif.Model Require Import Base Settings Reader Runner Options Render Messages Legend Process Args Help.
From Verif.Spec Require Import Utf8 Conditions Terminal Numbers Lexical Input Display Output Compare Dump Process Invocation CommandLine HelpShown HelpExamples.
From Verif.Proof Require Import RunClaims MoreClaims RunExtra ProcessFacts ProcessClaims LookClaims LegendFacts LegendClaims ArgsMain HelpFacts HelpClaims.
Import ListNotations.
Local Open Scope N_scope.


Ltac settings_for opts s s1 HP HS :=
  let v := eval vm_compute in (parse_args opts) in
  match v with Some ?x => pose (s := x) end;
  assert (HP : parse_args opts = Some s) by (vm_compute; reflexivity);
  let u := eval vm_compute in (app_input_settings s) in
  match u with Some ?x => pose (s1 := x) end;
  assert (HS : app_input_settings s = Some s1) by (vm_compute; reflexivity).
Ltac not_in := intros X; repeat (destruct X as [X|X]; [discriminate X|]); exact X.

Lemma blocks_process s n content chunks : no_limit (s_max_bytes s) -> no_limit (s_max_lines s) -> (0 < n)%Z -> Blocks (Z.to_nat n) content chunks -> ToProcess s n content chunks.
Proof.
  intros H1 H2 Hn BL. exists chunks, content. split; [left; split; assumption|]. split; [now constructor|].
  assert (E : concat chunks = content) by (clear -BL; induction BL; cbn; [reflexivity|apply app_nil_r|now rewrite IHBL]).
  rewrite <- E. clear. induction chunks as [|c r IH]; [reflexivity|]. cbn [concat first_bytes]. rewrite app_length.
  destruct (Nat.leb_spec (length c) (length c + length (concat r))); [|lia]. f_equal. replace (length c + length (concat r) - length c)%nat with (length (concat r)) by lia. exact IH.
Qed.

Lemma first_main w content chunks toks : Named w (Some (txt "file.txt")) content -> is_bytes content -> Blocks 4096 content chunks -> Tokens chunks toks ->
  exists out, main w first_command = Some (mkApp (out ++ [10]) None (Some 0%Z)) /\ displays out (lines_with (line_number_cells plain) in_text 1 (token_lines toks)).
Proof.
  intros N B BL T. pose (opts := [O_focus CC_esc; O_marker 2; O_file (txt "file.txt")]).
  assert (I : Invocation first_command opts) by (apply invocation_computed; vm_compute; reflexivity).
  rewrite (main_invocation w _ _ I). settings_for opts s s1 HP HS.
  assert (R : reads_input opts) by (split; [|split]; not_in).
  destruct (main_text w opts s s1 content 4096 chunks toks HP R HS) as (out & E & D); try assumption; try reflexivity.
  - right. split; [now left|left; split; reflexivity].
  - discriminate.
  - apply blocks_process; [now left|now left|reflexivity|exact BL].
  - exists out. rewrite E. split; [reflexivity|]. rewrite (numbered_with s1 (line_number_cells plain) in_text) in D; [exact D|reflexivity|].
    intros [[k x] codes]. unfold in_text, escape_with_bytes, tok_cells, tok_kind, tok_bytes, tok_codes. cbn [fst snd].
    destruct k as [cp| |p i f| | | | | | |r]; try reflexivity.
    + cbn. destruct (csi_sort p f); reflexivity.
    + destruct r; reflexivity.
Qed.

Lemma fit_ok s w : binary_mode s = true -> s_columns s = None -> s_decimal_offsets s = false -> (48 <= w)%Z -> binary_ok s w (fitting_columns w).
Proof.
  intros B C D H. split; [exact B|]. unfold columns, fitting_columns. rewrite C, D. assert (1 <= (w - 31) / 17)%Z by (apply Z.div_le_lower_bound; lia). lia.
Qed.
Lemma byte_cells_with s f toks : (forall t, binary_cells s (tok_kind t) (tok_bytes t) (tok_codes t) = f t) -> byte_cells s toks = flat_map f toks.
Proof. intros H. unfold byte_cells. induction toks as [|t r IH]; [reflexivity|]. cbn [flat_map]. now rewrite H, IH. Qed.

Lemma rows_alike s u c l : s_decimal_offsets s = s_decimal_offsets u -> s_debug s = s_debug u -> s_no_offsets s = s_no_offsets u -> binary_rows s c l = binary_rows u c l.
Proof.
  intros E1 E2 E3. assert (O : forall a n, offset_cells s a n = offset_cells u a n) by (intros; unfold offset_cells; now rewrite E1).
  assert (W : with_offsets s = with_offsets u) by (unfold with_offsets, debugging; now rewrite E2, E3).
  assert (B : bar s = bar u) by (unfold bar, debugging; now rewrite E2). unfold binary_rows, total_cells. rewrite W, O, B. f_equal.
  generalize 0. induction (groups c l) as [|r rest IH]; intros off; [reflexivity|]. cbn [rows_cells]. unfold row_cells. now rewrite W, O, B, IH.
Qed.

Lemma second_main w content chunks toks : Named w (Some (txt "file.bin")) content -> is_bytes content -> Blocks 4096 content chunks -> Tokens chunks toks -> (48 <= w_columns w)%Z ->
  let c := fitting_columns (w_columns w) in
  exists out, main w second_command = Some (mkApp (out ++ [10]) None (Some 0%Z)) /\ displays out (binary_rows (as_binary None None false) c (flat_map without_texts toks)) /\
    read_dump (as_binary None None false) c (visible out) = content.
Proof.
  intros N B BL T W c. pose (opts := [O_binary; O_ignore CC_utf8; O_ignore CC_space; O_ignore CC_printable; O_file (txt "file.bin")]).
  assert (I : Invocation second_command opts) by (apply invocation_computed; vm_compute; reflexivity).
  rewrite (main_invocation w _ _ I). settings_for opts s s1 HP HS.
  assert (R : reads_input opts) by (split; [|split]; not_in).
  destruct (main_binary w opts s s1 content 4096 chunks toks c content HP R HS) as (out & E & D & RD); try assumption.
  - apply fit_ok; try reflexivity. exact W.
  - right. split; [now left|left; split; reflexivity].
  - discriminate.
  - constructor; now left.
  - apply blocks_process; [now left|now left|reflexivity|exact BL].
  - exists out. rewrite E. split; [reflexivity|]. split; [|exact RD]. rewrite (rows_alike s1 (as_binary None None false)) in D by reflexivity. rewrite (byte_cells_with s1 without_texts) in D; [exact D|].
    intros [[k x] codes]. unfold without_texts, plain_bytes, ignored_bytes, tok_kind, tok_bytes, tok_codes. cbn [fst snd].
    destruct k as [cp| |p i f| | | | | | |r]; try reflexivity. destruct r; reflexivity.
Qed.

(** ** the first 128 bytes *)
Lemma firstn_whole {A} n (l : list A) : (length l <= n)%nat -> firstn n l = l.
Proof. intros H. apply firstn_all2. exact H. Qed.
Lemma first_block x cs : Blocks 4096 x cs -> x <> [] -> first_bytes (length (firstn 128 x)) cs = [firstn 128 x].
Proof.
  intros B H. assert (K : forall b, first_bytes (length (firstn 128 b)) [b] = [firstn 128 b]).
  { intros b. cbn [first_bytes]. rewrite firstn_length. destruct (Nat.leb_spec (length b) (Nat.min 128 (length b))).
    - now rewrite firstn_whole by lia.
    - f_equal. replace (Nat.min 128 (length b)) with 128%nat by lia. reflexivity. }
  inversion B as [|b Hb HL|b l cs' HL Hl B']; subst.
  - now destruct H.
  - apply K.
  - cbn [first_bytes]. rewrite !firstn_length, app_length, HL. destruct (Nat.leb_spec 4096 (Nat.min 128 (4096 + length l))); [lia|]. f_equal.
    replace (Nat.min 128 (4096 + length l)) with 128%nat by lia. rewrite firstn_app. replace (128 - length b)%nat with 0%nat by lia. cbn [firstn]. now rewrite app_nil_r.
Qed.
Lemma nil_tokens toks : Tokens [[]] toks -> Tokens [] toks.
Proof.
  intros (tss & F & C). inversion F as [|? ts ? r LX F2]; subst. inversion F2; subst. exists []. split; [constructor|].
  replace (concat [ts]) with (@nil (kind * list BinNums.N)) in C; [exact C|]. cbn. rewrite app_nil_r. inversion LX as [E0|k x rest ts' TK L2 E1 E2]; [reflexivity|].
  exfalso. apply LexFacts.token_nonempty in TK. apply app_eq_nil in E1 as [E1 _]. now apply TK.
Qed.

Definition third_opts := [O_binary; O_focus CC_control; O_max_bytes 128].
Lemma third_main w toks : w_interrupted w = false \/ (4096 <= length (w_typed w))%nat -> is_bytes (w_typed w) -> Tokens [firstn 128 (w_typed w)] toks -> (48 <= w_columns w)%Z ->
  let c := fitting_columns (w_columns w) in
  exists out, main w third_command = Some (mkApp (out ++ [10]) None (Some 0%Z)) /\ displays out (binary_rows (as_binary None None false) c (flat_map inverse_controls toks)) /\
    read_dump (as_binary None None false) c (visible out) = firstn 128 (w_typed w).
Proof.
  intros HI B T W c.
  assert (I : Invocation third_command third_opts) by (apply invocation_computed; vm_compute; reflexivity).
  rewrite (main_invocation w _ _ I). settings_for third_opts s s1 HP HS.
  assert (R : reads_input third_opts) by (split; [|split]; not_in).
  assert (BS : buffer_size s1 4096) by (right; split; [now left|left; split; reflexivity]).
  assert (NS : names_stdin (last_value file_of third_opts None)) by now left.
  assert (EV : exists src evs x, opens src /\ kolombos w third_opts = app_finish s1 [] (byteio_run s1 (w_columns w) src evs) /\ Blocks 4096 x (provided evs) /\ firstn 128 x = firstn 128 (w_typed w) /\ is_bytes x /\
                 (ending_of evs = At_eof \/ (128 <= length x)%nat)).
  { destruct (w_interrupted w) eqn:EI.
    - destruct HI as [HI|HI]; [discriminate|]. destruct (main_interrupted w third_opts s s1 4096 HP R HS NS EI BS eq_refl) as (evs & k & K & BL & E & [q D] & L).
      change (Z.to_nat 4096) with 4096%nat in *. exists SrcStdin, evs, (firstn k (w_typed w)). split; [now left|]. split; [exact K|]. split; [exact BL|].
      assert (4096 <= k)%nat by (destruct q; lia). split; [rewrite firstn_firstn; f_equal; lia|]. split; [now apply forall_firstn|]. right. rewrite firstn_length. lia.
    - destruct (main_input w third_opts s s1 HP R HS (w_typed w) 4096) as (src & evs & O & K & RB & E & _); try assumption; [constructor; assumption|discriminate|].
      exists src, evs, (w_typed w). split; [exact O|]. split; [exact K|]. destruct RB as [[_ RB]|[RB _]]; [|discriminate RB]. split; [exact RB|]. split; [reflexivity|]. split; [exact B|]. now left. }
  destruct EV as (src & evs & x & O & K & BL & EX & BX & E). rewrite K. destruct (Blocks_concat 4096 _ _ ltac:(lia) BL) as [C _]. rewrite <- EX in *.
  assert (L : Limited (s_max_bytes s1) (s_max_lines s1) (concat (provided evs)) (firstn 128 x)) by (rewrite C; apply Lim_bytes; [split; [reflexivity|lia]|now left]).
  assert (F : Finishes s1 evs).
  { destruct E as [E|E]; [now left|]. right. apply (Stop_bytes _ _ _ 128 (firstn 128 x)); [split; [reflexivity|lia]|exact L|rewrite firstn_length; lia]. }
  assert (FB : Forall is_bytes (provided evs)).
  { rewrite <- C in BX. clear - BX. unfold is_bytes in *. induction (provided evs) as [|y l IH]; [constructor|]. cbn in BX. apply Forall_app in BX. destruct BX. constructor; auto. }
  assert (P : exists chunks, Processed s1 evs chunks /\ Tokens chunks toks /\ concat chunks = firstn 128 x).
  { destruct x as [|b l].
    - exists []. inversion BL as [E0 E1|b Hb|b l cs Hb Hl]; [|now destruct Hb|destruct b; [discriminate Hb|discriminate]]. split; [|split; [now apply nil_tokens|reflexivity]].
      split; [exact FB|]. exists []. split; [exact L|]. now rewrite <- E1.
    - exists [firstn 128 (b :: l)]. split; [|split; [exact T|cbn [concat]; apply app_nil_r]]. split; [exact FB|]. exists (firstn 128 (b :: l)). split; [exact L|]. symmetry. now apply first_block. }
  destruct P as (chunks & P & TC & EC).
  destruct (dump_run s1 (w_columns w) c src evs chunks toks O (fit_ok s1 _ eq_refl eq_refl eq_refl W) P F TC) as (p & acts & Q & D & RD). rewrite Q. exists (pr_out p). split; [reflexivity|].
  rewrite EC in RD. split; [|exact RD]. rewrite (rows_alike s1 (as_binary None None false)) in D by reflexivity. rewrite (byte_cells_with s1 inverse_controls) in D; [exact D|].
  intros [[k y] codes]. unfold inverse_controls, plain_bytes, tok_kind, tok_bytes, tok_codes. cbn [fst snd].
  destruct k as [cp| |q i f| | | | | | |r]; try reflexivity. destruct r; reflexivity.
Qed.

(** but nothing is shown before 4096 bytes have arrived *)
Lemma third_waits w : w_interrupted w = true -> (length (w_typed w) < 4096)%nat -> (48 <= w_columns w)%Z -> main w third_command = Some (mkApp [10] None (Some 0%Z)).
Proof.
  intros EI HL W. assert (I : Invocation third_command third_opts) by (apply invocation_computed; vm_compute; reflexivity).
  rewrite (main_invocation w _ _ I). settings_for third_opts s s1 HP HS.
  assert (R : reads_input third_opts) by (split; [|split]; not_in).
  assert (BS : buffer_size s1 4096) by (right; split; [now left|left; split; reflexivity]).
  destruct (main_interrupted w third_opts s s1 4096 HP R HS (or_introl eq_refl) EI BS eq_refl) as (evs & k & K & BL & E & [q D] & L).
  change (Z.to_nat 4096) with 4096%nat in *. assert (k = 0%nat) by (destruct q; lia). subst k. rewrite H in BL. cbn [firstn] in BL.
  assert (PE : provided evs = []) by (inversion BL as [E0|b Hb|b l cs Hb Hl]; [reflexivity|now destruct Hb|destruct b; [discriminate Hb|discriminate]]).
  assert (P : Processed s1 evs []).
  { split; [rewrite PE; constructor|]. exists []. rewrite PE. split; [|reflexivity]. apply (Lim_bytes _ _ 128 []); [split; [reflexivity|lia]|now left]. }
  assert (NS : ~ Stops (s_max_bytes s1) (s_max_lines s1) (concat (provided evs))).
  { rewrite PE. intros [b d [L1 L2] L3 L4|l [L1 L2] L3]; [|discriminate L1]. injection L1 as L1.
    assert (DN : d = []) by (clear - L3; inversion L3; subst; cbn [before_line concat]; rewrite ?firstn_nil; reflexivity). rewrite DN in L4. cbn in L4. lia. }
  destruct (bin_stop s1 (w_columns w) (fitting_columns (w_columns w)) SrcStdin evs [] [] (or_introl eq_refl) (fit_ok s1 _ eq_refl eq_refl eq_refl W) P NS) as [Q _];
    [exists []; split; constructor|]. destruct (Q E) as (p & acts & QE & [_ (parts & EO & F)]). rewrite K, QE. unfold binary_rows_so_far in F. cbn in F.
  replace (groups _ _) with (@nil (list bcell)) in F by (destruct (fitting_columns (w_columns w)); reflexivity). inversion F; subst. cbn [app_finish]. now rewrite EO.
Qed.

(** ** demonstration and legend *)
Lemma fourth_main w chunks toks : is_bytes (w_demo w) -> Blocks 4096 (w_demo w) chunks -> Tokens chunks toks ->
  let s := as_binary (Some 32%Z) (Some true) true in
  exists out, main w fourth_command = Some (mkApp (out ++ demo_epilogue ++ [10]) None (Some 0%Z)) /\ displays out (binary_rows s 32 (flat_map (plain_bytes (Some true)) toks)) /\
    read_dump s 32 (visible out) = w_demo w.
Proof.
  intros B BL T u. pose (opts := [O_columns 32; O_decimal_offsets; O_demo]).
  assert (I : Invocation fourth_command opts) by (apply invocation_computed; vm_compute; reflexivity).
  rewrite (main_invocation w _ _ I). settings_for opts s s1 HP HS.
  destruct (main_demo_binary w opts s s1 4096 chunks toks 32 (w_demo w) HP) as (out & E & D & RD); try assumption.
  - right. right. now left.
  - not_in.
  - not_in.
  - split; [reflexivity|]. split; [reflexivity|lia].
  - right. split; [now left|left; split; reflexivity].
  - discriminate.
  - constructor; now left.
  - apply blocks_process; [now left|now left|reflexivity|exact BL].
  - exists out. rewrite E. split; [reflexivity|]. split; [|exact RD]. rewrite (rows_alike s1 u) in D by reflexivity. rewrite (byte_cells_with s1 (plain_bytes (Some true))) in D; [exact D|].
    intros [[k y] codes]. unfold plain_bytes, tok_kind, tok_bytes, tok_codes. cbn [fst snd].
    destruct k; reflexivity.
Qed.
Lemma legend_alone w s : s_legend s = true -> create_runner (after_parse_args s) = LegendRunner -> kolombos_with w s = mkApp (legend_out ++ [10]) None (Some 0%Z).
Proof.
  intros L C. unfold kolombos_with. cbv zeta. rewrite C. apply main_legend. exact L.
Qed.
Lemma legend_main w : main w fifth_command = Some (mkApp (legend_out ++ [10]) None (Some 0%Z)).
Proof.
  assert (I : Invocation fifth_command [O_legend]) by (apply invocation_computed; vm_compute; reflexivity). rewrite (main_invocation w _ _ I). apply f_equal.
  unfold kolombos. destruct (parse_args [O_legend]) as [s|] eqn:HP; [|exfalso; vm_compute in HP; discriminate].
  assert (H : option_map (fun s => (s_legend s, create_runner (after_parse_args s))) (parse_args [O_legend]) = Some (true, LegendRunner)) by (vm_compute; reflexivity).
  rewrite HP in H. cbn [option_map] in H. apply (f_equal (fun x => match x with Some y => y | None => (false, LegendRunner) end)) in H.
  apply legend_alone; [exact (f_equal fst H)|exact (f_equal snd H)].
Qed.
Lemma out_of r x y e c : ap_out r = x -> r = mkApp y e c -> y = x.
Proof. intros <- ->. reflexivity. Qed.
Lemma fifth_main : exists ls l, legend_bytes = utf8_text (as_lines ls ++ l) /\ Forall no_boundary ls /\ no_boundary l /\ starts_hash l = true /\
  forall w, main w fifth_command = Some (mkApp (as_lines (filter (fun l => negb (starts_hash l)) ls) ++ [10]) None (Some 0%Z)).
Proof.
  destruct LegendClaims.legend_as_lines as (ls & l & H1 & H2 & H3 & H4 & H5). exists ls, l. split; [exact H1|]. split; [exact H2|]. split; [exact H3|]. split; [exact H4|]. intros w.
  rewrite legend_main. destruct (H5 (apply_opt default_settings O_legend) 80%Z SrcStdin [] [] eq_refl) as (E & _).
  rewrite (out_of _ _ _ _ _ E (main_legend (apply_opt default_settings O_legend) 80%Z SrcStdin [] [] eq_refl)). reflexivity.
Qed.
(** ** details that are shown by default *)
Definition soh_world : world := mkWorld [(txt "a", Regular [1; 65])] [] [] false 80.
Lemma levels : main soh_world [txt "a"] <> main soh_world [txt "-m1"; txt "a"] /\ main soh_world [txt "a"] = main soh_world [txt "-m0"; txt "a"].
Proof. split; [vm_compute; discriminate|vm_compute; reflexivity]. Qed.
Lemma parse_seen m : forall l seen1 seen2 s, parse_opts (seen1 ++ O_marker m :: seen2) s l = parse_opts (seen1 ++ seen2) s l.
Proof.
  induction l as [|o l IH]; intros seen1 seen2 s; [reflexivity|]. cbn [parse_opts].
  assert (E1 : existsb (conflict o) (seen1 ++ O_marker m :: seen2) = existsb (conflict o) (seen1 ++ seen2)).
  { rewrite !existsb_app. cbn [existsb]. replace (conflict o (O_marker m)) with false by (destruct o; reflexivity). reflexivity. }
  assert (E2 : existsb is_file (seen1 ++ O_marker m :: seen2) = existsb is_file (seen1 ++ seen2)) by (rewrite !existsb_app; reflexivity).
  rewrite E1, E2. pose proof (IH (o :: seen1) seen2 (apply_opt s o)) as H. cbn [app] in H. now rewrite H.
Qed.
Lemma level_zero w opts : kolombos w (O_marker 0 :: opts) = kolombos w opts.
Proof. unfold kolombos, parse_args. cbn [parse_opts existsb is_file andb]. pose proof (parse_seen 0 opts [] []) as H. cbn [app] in H. rewrite H. reflexivity. Qed.
