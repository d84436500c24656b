(** Claims about the program in its surroundings *)
From Coq Require Import List Arith NArith ZArith Bool Lia.
From Verif.Model Require Import Base Settings Reader Runner Options Messages Legend Process.
From Verif.Spec Require Import Terminal Lexical Display Output Input Dump Invocation Process.
From Verif.Proof Require Import BaseFacts ReaderExtra RunMain RunClaims MoreClaims RunExtra AppClaims ProcessFacts.
Import ListNotations.
Local Open Scope Z_scope.

Lemma ReadBy_fun n l cs1 cs2 : ReadBy n l cs1 -> ReadBy n l cs2 -> cs1 = cs2.
Proof.
  intros [[H1 B1]|[H1 R1]] [[H2 B2]|[H2 R2]]; try lia; [apply (Blocks_fun (Z.to_nat n) l); auto; lia|].
  destruct R1 as [[E1 ->]|[E1 ->]], R2 as [[E2 ->]|[E2 ->]]; congruence.
Qed.
Lemma limited_first size content cs d mb ml : ReadBy size content cs -> Limited mb ml content d -> concat (first_bytes (length d) cs) = d.
Proof.
  intros R L. rewrite concat_first. destruct (ReadBy_concat _ _ _ R) as [-> _]. destruct (limited_prefix _ _ _ _ L) as [rest ->].
  rewrite firstn_app, Nat.sub_diag, firstn_all. apply app_nil_r.
Qed.

(** an openable input that is read to its end, with settings [s1] *)
Lemma text_finish s1 tc epilogue n content src evs chunks toks : opens src -> is_bytes content -> ReadBy n content (provided evs) -> ending_of evs = At_eof -> binary_mode s1 = false ->
  ToProcess s1 n content chunks -> Tokens chunks toks ->
  exists out, app_finish s1 epilogue (byteio_run s1 tc src evs) = mkApp (out ++ epilogue ++ [10%N]) None (Some 0) /\ displays out (numbered s1 1 (token_lines toks)).
Proof.
  intros O HB RB EO B (cs & d & RB' & L & E) T. rewrite (ReadBy_fun _ _ _ _ RB' RB) in E. destruct (ReadBy_concat _ _ _ RB) as [C _].
  assert (P : Processed s1 evs chunks).
  { split; [|exists d; rewrite C; now split]. unfold is_bytes in *. rewrite <- C in HB. clear - HB. induction (provided evs) as [|c l IH]; [constructor|]. cbn in HB. apply Forall_app in HB. destruct HB. constructor; auto. }
  destruct (text_eof s1 tc src evs chunks toks O B P (or_introl EO) T) as (p & acts & R & D). exists (pr_out p). rewrite R. split; [reflexivity|exact D].
Qed.
Lemma binary_finish s1 tc epilogue n content src evs chunks toks c d : opens src -> is_bytes content -> ReadBy n content (provided evs) -> ending_of evs = At_eof -> binary_ok s1 tc c ->
  Limited (s_max_bytes s1) (s_max_lines s1) content d -> ToProcess s1 n content chunks -> Tokens chunks toks ->
  exists out, app_finish s1 epilogue (byteio_run s1 tc src evs) = mkApp (out ++ epilogue ++ [10%N]) None (Some 0) /\ displays out (binary_rows s1 c (byte_cells s1 toks)) /\ read_dump s1 c (visible out) = d.
Proof.
  intros O HB RB EO B L (cs & d' & RB' & L' & E) T. rewrite <- (limited_det _ _ _ _ _ L L') in E. clear d' L'. rewrite (ReadBy_fun _ _ _ _ RB' RB) in E. destruct (ReadBy_concat _ _ _ RB) as [C _].
  assert (P : Processed s1 evs chunks).
  { split; [|exists d; rewrite C; now split]. unfold is_bytes in *. rewrite <- C in HB. clear - HB. induction (provided evs) as [|x l IH]; [constructor|]. cbn in HB. apply Forall_app in HB. destruct HB. constructor; auto. }
  destruct (dump_run s1 tc c src evs chunks toks O B P (or_introl EO) T) as (p & acts & R & D & K). exists (pr_out p). rewrite R. split; [reflexivity|]. split; [exact D|].
  rewrite K, E. eapply limited_first; eassumption.
Qed.

Lemma main_text w opts s s1 content n chunks toks : parse_args opts = Some s -> reads_input opts -> app_input_settings s = Some s1 -> binary_mode s1 = false ->
  Named w (last_value file_of opts None) content -> is_bytes content -> buffer_size s1 n -> -1 <= n -> ToProcess s1 n content chunks -> Tokens chunks toks ->
  exists out, kolombos w opts = mkApp (out ++ [10%N]) None (Some 0) /\ displays out (numbered s1 1 (token_lines toks)).
Proof.
  intros HP HR HS B N HB BS Hn TP T. destruct (main_input w opts s s1 HP HR HS content n N HB BS Hn) as (src & evs & O & K & RB & EO & _). rewrite K.
  eapply (text_finish s1 (w_columns w) []); eassumption.
Qed.
Lemma main_binary w opts s s1 content n chunks toks c d : parse_args opts = Some s -> reads_input opts -> app_input_settings s = Some s1 -> binary_ok s1 (w_columns w) c ->
  Named w (last_value file_of opts None) content -> is_bytes content -> buffer_size s1 n -> -1 <= n -> Limited (s_max_bytes s1) (s_max_lines s1) content d ->
  ToProcess s1 n content chunks -> Tokens chunks toks ->
  exists out, kolombos w opts = mkApp (out ++ [10%N]) None (Some 0) /\ displays out (binary_rows s1 c (byte_cells s1 toks)) /\ read_dump s1 c (visible out) = d.
Proof.
  intros HP HR HS B N HB BS Hn L TP T. destruct (main_input w opts s s1 HP HR HS content n N HB BS Hn) as (src & evs & O & K & RB & EO & _). rewrite K.
  eapply (binary_finish s1 (w_columns w) []); eassumption.
Qed.
Lemma main_demo w opts s s1 n : parse_args opts = Some s -> In O_demo opts -> ~ In O_legend opts -> ~ In O_version opts -> app_input_settings s = Some s1 ->
  buffer_size s1 n -> -1 <= n ->
  exists evs, kolombos w opts = app_finish s1 demo_epilogue (byteio_run s1 (w_columns w) (SrcFile true) evs) /\ ReadBy n (w_demo w) (provided evs) /\ ending_of evs = At_eof.
Proof.
  intros HP HD HL HV HS BS Hn. destruct (runner_choice opts s HP) as (_ & _ & R & _). specialize (R HL HV HD). apply chunk_size_iff in BS. subst n.
  unfold app_input_settings in HS. rewrite R in HS. injection HS as <-. unfold kolombos, kolombos_with. rewrite HP, R. unfold byteio_main, input_of.
  destruct (Z.ltb_spec (chunk_size (demo_settings (after_parse_args s))) (-1)); [lia|]. cbn [andb]. exists (file_reads (chunk_size (demo_settings (after_parse_args s))) (w_demo w)). split; [reflexivity|].
  apply file_reads_ok; [apply chunk_size_nonzero|assumption].
Qed.
Lemma main_demo_text w opts s s1 n chunks toks : parse_args opts = Some s -> In O_demo opts -> ~ In O_legend opts -> ~ In O_version opts -> app_input_settings s = Some s1 ->
  binary_mode s1 = false -> is_bytes (w_demo w) -> buffer_size s1 n -> -1 <= n -> ToProcess s1 n (w_demo w) chunks -> Tokens chunks toks ->
  exists out, kolombos w opts = mkApp (out ++ demo_epilogue ++ [10%N]) None (Some 0) /\ displays out (numbered s1 1 (token_lines toks)).
Proof.
  intros HP HD HL HV HS B HB BS Hn TP T. destruct (main_demo w opts s s1 n HP HD HL HV HS BS Hn) as (evs & K & RB & EO). rewrite K.
  eapply text_finish; try eassumption. now right.
Qed.
Lemma main_demo_binary w opts s s1 n chunks toks c d : parse_args opts = Some s -> In O_demo opts -> ~ In O_legend opts -> ~ In O_version opts -> app_input_settings s = Some s1 ->
  binary_ok s1 (w_columns w) c -> is_bytes (w_demo w) -> buffer_size s1 n -> -1 <= n -> Limited (s_max_bytes s1) (s_max_lines s1) (w_demo w) d -> ToProcess s1 n (w_demo w) chunks -> Tokens chunks toks ->
  exists out, kolombos w opts = mkApp (out ++ demo_epilogue ++ [10%N]) None (Some 0) /\ displays out (binary_rows s1 c (byte_cells s1 toks)) /\ read_dump s1 c (visible out) = d.
Proof.
  intros HP HD HL HV HS B HB BS Hn L TP T. destruct (main_demo w opts s s1 n HP HD HL HV HS BS Hn) as (evs & K & RB & EO). rewrite K.
  eapply binary_finish; try eassumption. now right.
Qed.

(** blocks always exist, and so do the data within the limits *)
Lemma to_process s size content d : size <> 0 -> -1 <= size -> Limited (s_max_bytes s) (s_max_lines s) content d ->
  exists chunks, ToProcess s size content chunks /\ concat chunks = d.
Proof.
  intros H0 H L. destruct (file_reads_ok size content H0 H) as [R _]. eexists. split; [exists (provided (file_reads size content)), d; split; [exact R|]; split; [exact L|reflexivity]|].
  eapply limited_first; eassumption.
Qed.

(** only the input named matters *)
Lemma named_run w s content : Named w (s_filename s) content ->
  byteio_main w false s = if chunk_size s <? -1 then (proc_init, [AOpen; ARead; AClose], RError ValueError) else byteio_run s (w_columns w) SrcStdin (file_reads (chunk_size s) content).
Proof.
  intros N. unfold byteio_main, input_of. destruct N as [NS NI|n c FN NS FA].
  - apply reading_stdin_iff in NS. rewrite NS, NI. cbn [stdin_reads]. now rewrite andb_true_r.
  - destruct (reading_stdin (s_filename s)) eqn:R; [apply reading_stdin_iff in R; contradiction|]. rewrite FN, (lookup_iff _ _ _ FA), andb_true_r, seekable_same. reflexivity.
Qed.
Lemma reads_settings opts s : parse_args opts = Some s -> reads_input opts -> app_input_settings s = Some (after_parse_args s).
Proof.
  intros HP (L & V & D). destruct (runner_choice opts s HP) as (_ & _ & _ & R). unfold app_input_settings. now rewrite (R L V D).
Qed.
Lemma main_same w1 w2 opts content : w_columns w1 = w_columns w2 -> reads_input opts ->
  Named w1 (last_value file_of opts None) content -> Named w2 (last_value file_of opts None) content -> kolombos w1 opts = kolombos w2 opts.
Proof.
  intros C HR N1 N2. destruct (parse_args opts) as [s|] eqn:HP; [|unfold kolombos, kolombos_with; now rewrite HP].
  pose proof (reads_settings opts s HP HR) as HS.
  destruct (main_reads w1 opts s _ HP HR HS) as [-> _]. destruct (main_reads w2 opts s _ HP HR HS) as [-> _]. f_equal.
  destruct (main_filename w1 opts s _ HP HR HS) as (F & _). rewrite <- F in N1, N2. rewrite (named_run w1 _ _ N1), (named_run w2 _ _ N2), C. reflexivity.
Qed.

(** ** failures *)
Lemma main_usage w opts : Rejected opts <-> ap_code (kolombos w opts) = Some 2.
Proof.
  split; intros H.
  - apply parse_args_none in H. unfold kolombos, kolombos_with. now rewrite H.
  - apply parse_args_none. unfold kolombos, kolombos_with in H. destruct (parse_args opts) as [s|] eqn:HP; [|reflexivity]. exfalso.
    assert (G : forall s e x, ap_code (app_finish s e x) <> Some 2). { intros s' e [[p a] en]. destruct en; cbn; discriminate. }
    destruct (create_runner (after_parse_args s)) eqn:R; try (revert H; apply G);
      (unfold app_main in H; destruct (app_run s (w_columns w) SrcStdin [] []) as [r|] eqn:Q;
       [unfold app_run, app_input_settings in Q; rewrite R in Q; discriminate|]);
      (revert H; generalize (legend_run legend_bytes), version_run; intros l v H; destruct (create_runner s); try discriminate; destruct l; discriminate).
Qed.
Lemma finish_failed s1 p acts e : pr_out p = [] -> failed s1 e (app_finish s1 [] (p, acts, RError e)).
Proof. intros H. unfold failed, app_finish. cbn [ap_err ap_code ap_out]. rewrite H. split; [reflexivity|]. split; [reflexivity|]. destruct (0 <? s_debug s1)%nat; [reflexivity|]. cbn [app]. now rewrite <- app_assoc. Qed.
Section Failures.
  Variables (w : world) (opts : list opt) (s s1 : settings) (name : str).
  Hypothesis HP : parse_args opts = Some s.
  Hypothesis HR : reads_input opts.
  Hypothesis HS : app_input_settings s = Some s1.
  Hypothesis HN : last_value file_of opts None = Some name.
  Hypothesis HI : ~ names_stdin (Some name).
  Lemma named_lookup : input_of w false s1 = match lookup_file w name with
       | Some (Regular c) => (SrcFile true, file_reads (chunk_size s1) c) | Some (Pipe c) => (SrcFile false, file_reads (chunk_size s1) c) | None => (SrcMissing, []) end.
  Proof.
    destruct (main_filename w opts s s1 HP HR HS) as (F & _). unfold input_of. rewrite F, HN. destruct (reading_stdin (Some name)) eqn:R; [apply reading_stdin_iff in R; contradiction|reflexivity].
  Qed.
  Lemma main_missing : no_file w name -> failed s1 OSError (kolombos w opts).
  Proof.
    intros H. destruct (main_reads w opts s s1 HP HR HS) as [-> _]. unfold byteio_main. rewrite named_lookup, (lookup_none _ _ H), andb_false_r, run_read. now apply finish_failed.
  Qed.
  Lemma main_pipe content n : file_at w name (Pipe content) -> content <> [] -> buffer_size s1 n -> -1 <= n -> failed s1 OSError (kolombos w opts).
  Proof.
    intros H HC BS Hn. destruct (main_reads w opts s s1 HP HR HS) as [-> _]. unfold byteio_main. rewrite named_lookup, (lookup_iff _ _ _ H), andb_true_r. apply chunk_size_iff in BS. subst n.
    destruct (Z.ltb_spec (chunk_size s1) (-1)); [lia|]. destruct (file_reads_ok (chunk_size s1) content (chunk_size_nonzero s1) Hn) as [RB _]. destruct (ReadBy_concat _ _ _ RB) as [C _].
    destruct (unseekable_fails s1 (w_columns w) (file_reads (chunk_size s1) content)) as (p & acts & E & O); [intros K; rewrite K in C; now apply HC|]. rewrite E. now apply finish_failed.
  Qed.
End Failures.
Lemma main_negative w opts s s1 content n : parse_args opts = Some s -> reads_input opts -> app_input_settings s = Some s1 ->
  Named w (last_value file_of opts None) content -> buffer_size s1 n -> n < -1 -> failed s1 ValueError (kolombos w opts).
Proof.
  intros HP HR HS N BS Hn. destruct (main_reads w opts s s1 HP HR HS) as [-> _]. destruct (main_filename w opts s s1 HP HR HS) as (F & _). rewrite <- F in N. apply chunk_size_iff in BS. subst n.
  rewrite (named_run _ _ _ N). destruct (Z.ltb_spec (chunk_size s1) (-1)); [|lia]. now apply finish_failed.
Qed.

(** ** interruption: the blocks completed before are processed *)
Lemma main_interrupted w opts s s1 n : parse_args opts = Some s -> reads_input opts -> app_input_settings s = Some s1 ->
  names_stdin (last_value file_of opts None) -> w_interrupted w = true -> buffer_size s1 n -> 0 < n ->
  exists evs k, kolombos w opts = app_finish s1 [] (byteio_run s1 (w_columns w) SrcStdin evs) /\ Blocks (Z.to_nat n) (firstn k (w_typed w)) (provided evs) /\ ending_of evs = At_interrupt /\
    Nat.divide (Z.to_nat n) k /\ (k <= length (w_typed w) < k + Z.to_nat n)%nat.
Proof.
  intros HP HR HS N I BS Hn. destruct (main_reads w opts s s1 HP HR HS) as [-> _]. destruct (main_filename w opts s s1 HP HR HS) as (F & _). rewrite <- F in N. apply chunk_size_iff in BS. subst n.
  unfold byteio_main, input_of. apply reading_stdin_iff in N. rewrite N, I, andb_true_r. destruct (Z.ltb_spec (chunk_size s1) (-1)); [lia|].
  destruct (stdin_interrupted (chunk_size s1) (w_typed w) Hn) as (k & B & E & D & K). eexists _, k. split; [reflexivity|]. now repeat split.
Qed.
Lemma no_limit_goes mb ml d : no_limit mb -> no_limit ml -> ~ Stops mb ml d.
Proof.
  intros H1 H2 K. assert (C : forall l m, no_limit l -> limit_is l m -> False) by (intros l m [Q|Q] [Q1 Q2]; rewrite Q in Q1; [discriminate|injection Q1 as Q1; lia]).
  destruct K as [b d' L _ _|l L _]; [exact (C _ _ H1 L)|exact (C _ _ H2 L)].
Qed.
Lemma first_all cs : first_bytes (length (concat cs)) cs = cs.
Proof.
  induction cs as [|c cs IH]; [reflexivity|]. cbn [concat first_bytes]. rewrite app_length. destruct (Nat.leb_spec (length c) (length c + length (concat cs))); [|lia]. f_equal.
  replace (length c + length (concat cs) - length c)%nat with (length (concat cs)) by lia. exact IH.
Qed.
Lemma complete_fun n l cs1 cs2 : (0 < n)%nat -> complete_blocks n l cs1 -> complete_blocks n l cs2 -> cs1 = cs2.
Proof.
  intros Hn (k1 & B1 & [q1 D1] & K1) (k2 & B2 & [q2 D2] & K2). assert (q1 = q2) by nia. assert (E : k2 = k1) by congruence. rewrite E in B2. exact (Blocks_fun n _ _ Hn B1 _ B2).
Qed.
Lemma forall_firstn (P : N -> Prop) k l : Forall P l -> Forall P (firstn k l).
Proof. intros H. rewrite <- (firstn_skipn k l) in H. now apply Forall_app in H. Qed.
Section Interrupted.
  Variables (w : world) (opts : list opt) (s s1 : settings) (n : Z) (cs : list (list N)) (toks : list token).
  Hypothesis HP : parse_args opts = Some s.
  Hypothesis HR : reads_input opts.
  Hypothesis HS : app_input_settings s = Some s1.
  Hypothesis HN : names_stdin (last_value file_of opts None).
  Hypothesis HI : w_interrupted w = true.
  Hypothesis HW : is_bytes (w_typed w).
  Hypothesis HB : buffer_size s1 n.
  Hypothesis Hn : 0 < n.
  Hypothesis HC : complete_blocks (Z.to_nat n) (w_typed w) cs.
  Hypothesis L1 : no_limit (s_max_bytes s1).
  Hypothesis L2 : no_limit (s_max_lines s1).
  Hypothesis HT : Tokens cs toks.
  Lemma interrupted_input : exists evs, kolombos w opts = app_finish s1 [] (byteio_run s1 (w_columns w) SrcStdin evs) /\ Processed s1 evs cs /\ ending_of evs = At_interrupt.
  Proof.
    destruct (main_interrupted w opts s s1 n HP HR HS HN HI HB Hn) as (evs & k & K & B & E & D & KK). exists evs. split; [exact K|]. split; [|exact E].
    assert (provided evs = cs) as P by (apply (complete_fun (Z.to_nat n) (w_typed w)); [lia|exists k; auto|exact HC]).
    destruct (Blocks_concat (Z.to_nat n) _ _ ltac:(lia) B) as [C _]. rewrite P in *. split.
    - rewrite P. assert (Q : is_bytes (concat cs)) by (rewrite C; now apply forall_firstn). unfold is_bytes in *. clear - Q. induction cs as [|c l IH]; [constructor|]. cbn in Q. apply Forall_app in Q. destruct Q. constructor; auto.
    - exists (concat cs). rewrite P. split; [now constructor|]. now rewrite first_all.
  Qed.
  Lemma interrupted_text : binary_mode s1 = false -> exists out, kolombos w opts = mkApp (out ++ [10%N]) None (Some 0) /\ displays out (text_rows_so_far s1 toks).
  Proof.
    intros B. destruct interrupted_input as (evs & K & P & E).
    destruct (text_stop s1 (w_columns w) SrcStdin evs cs toks (or_introl eq_refl) B P (no_limit_goes _ _ _ L1 L2) HT) as [R _]. destruct (R E) as (p & acts & Q & D).
    exists (pr_out p). rewrite K, Q. split; [reflexivity|exact D].
  Qed.
  Lemma interrupted_binary c : binary_ok s1 (w_columns w) c -> exists out, kolombos w opts = mkApp (out ++ [10%N]) None (Some 0) /\ displays out (binary_rows_so_far s1 c (byte_cells s1 toks)).
  Proof.
    intros B. destruct interrupted_input as (evs & K & P & E).
    destruct (bin_stop s1 (w_columns w) c SrcStdin evs cs toks (or_introl eq_refl) B P (no_limit_goes _ _ _ L1 L2) HT) as [R _]. destruct (R E) as (p & acts & Q & D).
    exists (pr_out p). rewrite K, Q. split; [reflexivity|exact D].
  Qed.
End Interrupted.
