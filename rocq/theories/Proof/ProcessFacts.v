(** Proofs about the program in its surroundings *)
From Coq Require Import List Arith NArith ZArith Bool Lia.
From Verif.Model Require Import Base Settings Reader Runner Options Messages Legend Process.
From Verif.Spec Require Import Terminal Lexical Display Output Input Dump Invocation Process.
From Verif.Proof Require Import BaseFacts ReaderExtra RunMain RunClaims RunExtra AppClaims.
Import ListNotations.
Local Open Scope Z_scope.

(** * Blocks *)
Lemma blocks_ok fuel n l : (0 < n)%nat -> (length l <= fuel)%nat -> Blocks n l (blocks_fuel fuel n l).
Proof.
  intros Hn. revert l. induction fuel as [|fuel IH]; intros l H.
  - destruct l; [constructor|cbn in H; lia].
  - destruct l as [|b l]; [constructor|]. cbn [blocks_fuel]. set (c := b :: l) in *.
    destruct (le_lt_dec (length c) n) as [K|K].
    + rewrite firstn_all2, skipn_all2 by exact K. replace (blocks_fuel fuel n []) with (@nil (list N)) by (now destruct fuel). apply Bl_last; [easy|exact K].
    + rewrite <- (firstn_skipn n c) at 1. apply Bl_more.
      * apply firstn_length_le. lia.
      * intros E. apply (f_equal (@length N)) in E. rewrite skipn_length in E. change (length (@nil N)) with 0%nat in E. lia.
      * apply IH. rewrite skipn_length. lia.
Qed.
Lemma Blocks_concat n l cs : (0 < n)%nat -> Blocks n l cs -> concat cs = l /\ Forall (fun c => c <> []) cs.
Proof.
  intros Hn. induction 1 as [|b H1 H2|b l cs H1 H2 H3 IH]; [now split| |].
  - cbn. rewrite app_nil_r. split; [reflexivity|now constructor].
  - destruct IH as [IH1 IH2]. cbn. rewrite IH1. split; [reflexivity|]. constructor; [|exact IH2]. intros ->. cbn in H1. lia.
Qed.
Lemma provided_data cs : Forall (fun c => c <> []) cs -> provided (map RData cs) = cs /\ ending_of (map RData cs) = At_eof.
Proof.
  induction 1 as [|c cs H _ [IH1 IH2]]; [now split|]. destruct c as [|x c]; [easy|]. cbn. now rewrite IH1, IH2.
Qed.
Lemma provided_stop cs evs : Forall (fun c => c <> []) cs -> provided (map RData cs ++ RInterrupt :: evs) = cs /\ ending_of (map RData cs ++ RInterrupt :: evs) = At_interrupt.
Proof.
  induction 1 as [|c cs H _ [IH1 IH2]]; [now split|]. destruct c as [|x c]; [easy|]. cbn. now rewrite IH1, IH2.
Qed.
Lemma ReadBy_concat n l cs : ReadBy n l cs -> concat cs = l /\ Forall (fun c => c <> []) cs.
Proof.
  intros [[H B]|[_ [[-> ->]|[H ->]]]].
  - apply (Blocks_concat (Z.to_nat n)); [lia|exact B].
  - now split.
  - cbn. rewrite app_nil_r. split; [reflexivity|now constructor].
Qed.
Lemma file_reads_ok n c : n <> 0 -> -1 <= n -> ReadBy n c (provided (file_reads n c)) /\ ending_of (file_reads n c) = At_eof.
Proof.
  intros H0 H. unfold file_reads. destruct (Z.ltb_spec n 0) as [K|K].
  - destruct c as [|b c]; cbn; (split; [right; split; [lia|]|reflexivity]); [now left|right; now split].
  - pose proof (blocks_ok (length c) (Z.to_nat n) c ltac:(lia) (le_n _)) as B. fold (blocks (Z.to_nat n) c) in B.
    destruct (Blocks_concat (Z.to_nat n) _ _ ltac:(lia) B) as [_ F]. destruct (provided_data _ F) as [P E]. rewrite P, E. split; [|reflexivity]. left. split; [lia|exact B].
Qed.
Lemma stdin_interrupted n c : 0 < n ->
  exists k, Blocks (Z.to_nat n) (firstn k c) (provided (stdin_reads n c true)) /\ ending_of (stdin_reads n c true) = At_interrupt /\
    Nat.divide (Z.to_nat n) k /\ (k <= length c < k + Z.to_nat n)%nat.
Proof.
  intros H. unfold stdin_reads. destruct (Z.ltb_spec n 0); [lia|]. set (m := Z.to_nat n). set (k := (m * (length c / m))%nat). exists k.
  pose proof (blocks_ok (length (firstn k c)) m (firstn k c) ltac:(lia) (le_n _)) as B. fold (blocks m (firstn k c)) in B.
  destruct (Blocks_concat m _ _ ltac:(lia) B) as [_ F]. destruct (provided_stop _ [] F) as [P E]. rewrite P, E. split; [exact B|]. split; [reflexivity|].
  split; [exists (length c / m)%nat; unfold k; lia|]. pose proof (Nat.div_mod (length c) m ltac:(lia)). pose proof (Nat.mod_upper_bound (length c) m ltac:(lia)). unfold k. lia.
Qed.

(** * Choice of the input *)
Lemma reading_stdin_iff name : reading_stdin name = true <-> names_stdin name.
Proof.
  unfold reading_stdin, names_stdin. destruct name as [[|c t]|].
  - split; auto.
  - rewrite eqb_list_spec. split; [intros ->; auto|]. intros [K|[K|K]]; congruence.
  - split; auto.
Qed.
Lemma chunk_size_iff s n : chunk_size s = n <-> buffer_size s n.
Proof.
  unfold chunk_size, buffer_size, READ_CHUNK_SIZE, READ_CHUNK_SIZE_DEBUG.
  assert (D : (if (0 <? s_debug s)%nat then 128 else 4096) = n <-> (s_debug s = 0%nat /\ n = 4096) \/ ((0 < s_debug s)%nat /\ n = 128)) by (destruct (Nat.ltb_spec 0 (s_debug s)); lia).
  destruct (s_buffer s) as [b|].
  - destruct (Z.eqb_spec b 0) as [->|N].
    + rewrite D. split; [intros H; right; auto|]. intros [[H1 H2]|[_ H]]; [congruence|exact H].
    + split; [intros ->; left; auto|]. intros [[H1 H2]|[[H|H] _]]; congruence.
  - rewrite D. split; [intros H; right; auto|]. intros [[H1 H2]|[_ H]]; [congruence|exact H].
Qed.
Lemma chunk_size_nonzero s : chunk_size s <> 0.
Proof. unfold chunk_size, READ_CHUNK_SIZE, READ_CHUNK_SIZE_DEBUG. destruct (s_buffer s) as [b|]; [destruct (Z.eqb_spec b 0)|]; try assumption; destruct (0 <? s_debug s)%nat; lia. Qed.
Lemma lookup_iff w n f : file_at w n f -> lookup_file w n = Some f.
Proof.
  intros (b & a & E & N). unfold lookup_file. rewrite E. clear E. induction b as [|[x y] b IH]; cbn in *.
  - now rewrite eqb_list_refl.
  - destruct (eqb_list x n) eqn:Q; [apply eqb_list_spec in Q; tauto|]. apply IH. tauto.
Qed.
Lemma lookup_none w n : no_file w n -> lookup_file w n = None.
Proof.
  unfold no_file, lookup_file. intros H. induction (w_files w) as [|[x y] l IH]; [reflexivity|]. cbn in *. destruct (eqb_list x n) eqn:Q; [apply eqb_list_spec in Q; tauto|]. apply IH. tauto.
Qed.

Lemma input_named w s content : Named w (s_filename s) content -> -1 <= chunk_size s ->
  exists src evs, opens src /\ byteio_main w false s = byteio_run s (w_columns w) src evs /\ ReadBy (chunk_size s) content (provided evs) /\ ending_of evs = At_eof.
Proof.
  intros N H. pose proof (chunk_size_nonzero s) as NZ. pose proof (file_reads_ok (chunk_size s) content NZ H) as [RB EO].
  unfold byteio_main, input_of. destruct N as [NS NI|n c FN NS FA].
  - apply reading_stdin_iff in NS. rewrite NS, NI. cbn [stdin_reads]. destruct (Z.ltb_spec (chunk_size s) (-1)); [lia|]. cbn [andb].
    eexists _, _. split; [left; reflexivity|]. split; [reflexivity|]. now split.
  - destruct (reading_stdin (s_filename s)) eqn:R; [apply reading_stdin_iff in R; contradiction|]. rewrite FN, (lookup_iff _ _ _ FA). destruct (Z.ltb_spec (chunk_size s) (-1)); [lia|]. cbn [andb].
    eexists _, _. split; [right; reflexivity|]. split; [reflexivity|]. now split.
Qed.

Section Main.
  Variables (w : world) (opts : list opt) (s s1 : settings).
  Hypothesis HP : parse_args opts = Some s.
  Hypothesis HR : reads_input opts.
  Hypothesis HS : app_input_settings s = Some s1.

  Lemma main_reads : kolombos w opts = app_finish s1 [] (byteio_main w false s1) /\ s1 = after_parse_args s.
  Proof.
    destruct HR as (L & V & D). destruct (runner_choice opts s HP) as (_ & _ & _ & R). specialize (R L V D).
    unfold app_input_settings in HS. rewrite R in HS. injection HS as <-. unfold kolombos, kolombos_with. rewrite HP, R. now split.
  Qed.
  Lemma main_filename : s_filename s1 = last_value file_of opts None /\ s_buffer s1 = last_value buffer_of opts None /\ s_debug s1 = debug_count opts.
  Proof.
    destruct main_reads as [_ ->]. destruct (options_values opts s HP) as (_ & B & _ & _ & F & _ & _ & D & _). rewrite <- F, <- B, <- D. unfold after_parse_args, get_read_mode.
    destruct (4 <=? s_debug s)%nat; [|auto]. destruct (s_binary s); [auto|]. destruct (s_text s); auto.
  Qed.

  Lemma main_input content n : Named w (last_value file_of opts None) content -> is_bytes content -> buffer_size s1 n -> -1 <= n ->
    exists src evs, opens src /\ kolombos w opts = app_finish s1 [] (byteio_run s1 (w_columns w) src evs) /\ ReadBy n content (provided evs) /\ ending_of evs = At_eof /\
      (forall chunks, (exists d, Limited (s_max_bytes s1) (s_max_lines s1) content d /\ chunks = first_bytes (length d) (provided evs)) -> Processed s1 evs chunks) /\ Finishes s1 evs.
  Proof.
    intros N HB BS Hn. apply chunk_size_iff in BS. subst n. destruct main_filename as (F & _). rewrite <- F in N.
    destruct (input_named w s1 content N Hn) as (src & evs & O & R & RB & EO). exists src, evs. split; [exact O|].
    split; [rewrite <- R; apply main_reads|]. split; [exact RB|]. split; [exact EO|]. destruct (ReadBy_concat _ _ _ RB) as [C _].
    split; [|left; exact EO]. intros chunks (d & L & E). split; [|exists d; rewrite C; now split].
    unfold is_bytes in *. rewrite <- C in HB. clear - HB. induction (provided evs) as [|c l IH]; [constructor|]. cbn in HB. apply Forall_app in HB. destruct HB. constructor; auto.
  Qed.
End Main.
Lemma app_same_len (a b c d : list N) : length a = length b -> a ++ c = b ++ d -> a = b /\ c = d.
Proof.
  revert b. induction a as [|x a IH]; intros [|y b] L E; try discriminate; [now split|]. cbn in *. injection E as -> E. injection L as L. destruct (IH b L E) as [-> ->]. now split.
Qed.
Lemma Blocks_fun n l cs1 : (0 < n)%nat -> Blocks n l cs1 -> forall cs2, Blocks n l cs2 -> cs1 = cs2.
Proof.
  intros Hn. induction 1 as [|b H1 H2|b l cs H1 H2 H3 IH]; intros cs2 K.
  - inversion K as [|b H1 H2|b l cs H1 H2 H3 E]; subst; [reflexivity|easy|]. destruct b; [cbn in Hn; lia|discriminate].
  - inversion K as [|b' K1 K2|b' l' cs' K1 K2 K3 E]; subst; [easy|reflexivity|]. rewrite app_length in H2. destruct l'; [easy|cbn in H2; lia].
  - inversion K as [E|b' K1 K2 E|b' l' cs' K1 K2 K3 E].
    + destruct b; [cbn in H1; lia|discriminate].
    + subst b'. rewrite app_length in K2. destruct l; [easy|cbn in K2; lia].
    + assert (b = b' /\ l = l') as [-> ->]; [|f_equal; now apply IH].
      apply app_same_len; [congruence|now symmetry].
Qed.
