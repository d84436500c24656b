(** Names of SGR codes: proofs *)
From Coq Require Import Ascii String.
From Coq Require Import List NArith ZArith Bool Lia.
From Verif.Model Require Import Base Ansi Render SgrNames.
From Verif.Spec Require Import Terminal Sgr SgrNames.
From Verif.Proof Require Import BaseFacts TermFacts StripFacts ClosingFacts.
Import ListNotations.
Local Open Scope N_scope.

Definition meant : list (string * N * (attrs -> attrs)) :=
  let numbered := combine (seq 0 (List.length hues)) hues in
  attributes
  ++ map (fun '(i, n) => (n, 30 + N.of_nat i, set_fg (ColIdx (N.of_nat i)))) numbered
  ++ map (fun '(i, n) => (String.append "BG_" n, 40 + N.of_nat i, set_bg (ColIdx (N.of_nat i)))) numbered
  ++ map (fun '(i, n) => (bright n, 90 + N.of_nat i, set_fg (ColIdx (8 + N.of_nat i)))) numbered
  ++ map (fun '(i, n) => (String.append "BG_" (bright n), 100 + N.of_nat i, set_bg (ColIdx (8 + N.of_nat i)))) numbered.
Lemma numbered_iff i n : In (i, n) (combine (seq 0 (List.length hues)) hues) <-> nth_error hues i = Some n.
Proof.
  split.
  - cbn [combine seq hues List.length]. intros H. repeat (destruct H as [[= <- <-]|H]; [reflexivity|]). destruct H.
  - intros H. do 8 (destruct i as [|i]; [injection H as <-; cbn; tauto|]). destruct i; discriminate H.
Qed.
Lemma meant_iff n c f : Means n c f <-> In (n, c, f) meant.
Proof.
  unfold meant. rewrite !in_app_iff. split.
  - intros [n' c' f' H|n' i H|n' i H|n' i H|n' i H]; [now left|right..]; apply numbered_iff in H.
    + left. now apply (in_map (fun '(i, n) => (n, 30 + N.of_nat i, set_fg (ColIdx (N.of_nat i)))) _ (i, n')).
    + right; left. now apply (in_map (fun '(i, n) => (String.append "BG_" n, 40 + N.of_nat i, set_bg (ColIdx (N.of_nat i)))) _ (i, n')).
    + right; right; left. now apply (in_map (fun '(i, n) => (bright n, 90 + N.of_nat i, set_fg (ColIdx (8 + N.of_nat i)))) _ (i, n')).
    + right; right; right. now apply (in_map (fun '(i, n) => (String.append "BG_" (bright n), 100 + N.of_nat i, set_bg (ColIdx (8 + N.of_nat i)))) _ (i, n')).
  - intros [H|[H|[H|[H|H]]]]; [now constructor|..]; apply in_map_iff in H; destruct H as ([i n'] & [= <- <- <-] & H); apply numbered_iff in H.
    + now apply Means_color.
    + now apply Means_background.
    + now apply Means_bright.
    + now apply Means_bright_background.
Qed.
Definition all_named : list (string * N) := map fst meant ++ extended.
Lemma named_iff n c : Named n c <-> In (n, c) all_named.
Proof.
  unfold Named, all_named. rewrite in_app_iff, in_map_iff. split; (intros [H|H]; [left|now right]).
  - destruct H as [f H]. apply meant_iff in H. now exists (n, c, f).
  - destruct H as ([[n' c'] f] & [= <- <-] & H). exists f. now apply meant_iff.
Qed.

(** the model's table against the specified one *)
Definition entry_named (x : string * code_value) : bool :=
  match snd x with
  | V_int c => existsb (fun y => String.eqb (fst x) (fst y) && (c =? snd y)) all_named
  | V_list _ => true
  end.
Lemma table_named : forallb entry_named int_codes = true. Proof. vm_compute. reflexivity. Qed.
Lemma named_table : forallb (fun y => match named (txt (fst y)) int_codes with Some (V_int c) => c =? snd y | _ => false end) all_named = true.
Proof. vm_compute. reflexivity. Qed.

Lemma named_in {A} s (l : list (string * A)) v : named s l = Some v -> exists n, In (n, v) l /\ s = txt n.
Proof.
  induction l as [|[n w] l IH]; cbn [named]; [discriminate|].
  destruct (eqb_list s (txt n)) eqn:E.
  - intros [= <-]. apply eqb_list_spec in E. exists n. split; [now left|exact E].
  - intros H. destruct (IH H) as (m & I & ->). exists m. split; [now right|reflexivity].
Qed.
Lemma code_iff s c : named s int_codes = Some (V_int c) <-> exists n, Named n c /\ s = chars n.
Proof.
  split.
  - intros H. apply named_in in H. destruct H as (n & I & ->). exists n. split; [|reflexivity].
    pose proof table_named as T. rewrite forallb_forall in T. specialize (T _ I). unfold entry_named in T. cbn [snd fst] in T.
    apply existsb_exists in T. destruct T as ([m d] & I2 & T). cbn [fst snd] in T.
    apply andb_true_iff in T. destruct T as [T1 T2]. apply String.eqb_eq in T1. apply N.eqb_eq in T2. subst.
    now apply named_iff.
  - intros (n & H & ->). apply named_iff in H. pose proof named_table as T. rewrite forallb_forall in T. specialize (T _ H). cbn [fst snd] in T.
    change (chars n) with (txt n). destruct (named (txt n) int_codes) as [[d|l]|]; try discriminate T. apply N.eqb_eq in T. now subst.
Qed.
Definition list_names : list string := ["LIST_COLORS"; "LIST_BG_COLORS"; "LIST_HI_COLORS"; "LIST_BG_HI_COLORS"; "LIST_ALL_COLORS"]%string.
Lemma list_iff s : (exists l, named s int_codes = Some (V_list l)) <-> exists n, In n list_names /\ s = chars n.
Proof.
  split.
  - intros (l & H). apply named_in in H. destruct H as (n & I & ->). exists n. split; [|reflexivity].
    assert (T : forallb (fun x => match snd x with V_list _ => existsb (String.eqb (fst x)) list_names | _ => true end) int_codes = true) by (vm_compute; reflexivity).
    rewrite forallb_forall in T. specialize (T _ I). cbn [fst snd] in T. apply existsb_exists in T. destruct T as (m & I2 & T).
    apply String.eqb_eq in T. now subst.
  - intros (n & H & ->).
    assert (T : forallb (fun y => match named (txt y) int_codes with Some (V_list _) => true | _ => false end) list_names = true) by (vm_compute; reflexivity).
    rewrite forallb_forall in T. specialize (T _ H). cbv beta in T. change (chars n) with (txt n).
    destruct (named (txt n) int_codes) as [[d|l]|]; try discriminate T. now exists l.
Qed.

(** ** Constructor *)
Theorem name_accepted up s n c : Named n c -> capital up s = chars n -> sequence_sgr up [SA_name s] = Ok [c].
Proof.
  intros H E. cbn [sequence_sgr arg_params]. unfold resolve. unfold capital in E. rewrite E.
  assert (X : named (chars n) int_codes = Some (V_int c)) by (apply code_iff; now exists n).
  rewrite X. reflexivity.
Qed.
Theorem name_refused up s : (forall n c, Named n c -> capital up s <> chars n) ->
  sequence_sgr up [SA_name s] = Err (if existsb (fun n => eqb_list (capital up s) (chars n)) list_names then ValueError else KeyError).
Proof.
  intros H. cbn [sequence_sgr arg_params]. unfold resolve. unfold capital in *.
  destruct (named (flat_map up s) int_codes) as [[c|l]|] eqn:E.
  - apply code_iff in E. destruct E as (n & N & E). now apply H in N.
  - assert (X : exists l, named (flat_map up s) int_codes = Some (V_list l)) by now exists l.
    apply list_iff in X. destruct X as (n & I & X). cbn [bind].
    replace (existsb _ list_names) with true; [reflexivity|]. symmetry. apply existsb_exists. exists n. split; [exact I|].
    rewrite X. apply eqb_list_refl.
  - cbn [bind]. replace (existsb _ list_names) with false; [reflexivity|]. symmetry. apply not_true_iff_false. intros X.
    apply existsb_exists in X. destruct X as (n & I & X). apply eqb_list_spec in X.
    assert (Y : exists l, named (flat_map up s) int_codes = Some (V_list l)) by (apply list_iff; now exists n).
    destruct Y as [l Y]. rewrite Y in E. discriminate E.
Qed.

Lemma hue_bound i n : nth_error hues i = Some n -> (i < 8)%nat.
Proof. intros H. apply (nth_error_Some hues i). rewrite H. discriminate. Qed.
Lemma means_effect n c f a : Means n c f -> sgr_apply [c] a = f a.
Proof.
  intros H. apply meant_iff in H. unfold meant in H. cbn [attributes hues combine seq List.length map app] in H.
  repeat (destruct H as [[= <- <- <-]|H]; [reflexivity|]). destruct H.
Qed.
Theorem name_effect up s n c f a rest : Means n c f -> capital up s = chars n ->
  exists p, sequence_sgr up [SA_name s] = Ok p /\ trun Ground a (assemble p ++ rest) = trun Ground (f a) rest.
Proof.
  intros H E. exists [c]. split.
  - apply (name_accepted up s n); [left; now exists f|exact E].
  - rewrite assemble_run. now rewrite (means_effect n c f).
Qed.
Theorem any_case up s n : ascii_capitals up -> AnyCase s n -> (forall c, In c (chars n) -> between 97 c 122 = false /\ c < 128) -> capital up s = chars n.
Proof.
  intros U A. unfold AnyCase in A. revert A. generalize (chars n). intros t A.
  induction A as [|x y l t [->|(B & ->)] _ IH]; intros H; [reflexivity|..]; cbn [capital flat_map].
  - rewrite U by (apply H; now left). rewrite (proj1 (H y (or_introl eq_refl))). cbn [app]. f_equal. apply IH. intros c I. apply H. now right.
  - assert (x < 128) by (unfold between in B; apply andb_true_iff in B as [_ B2]; apply N.leb_le in B2; lia).
    rewrite U by assumption. rewrite B. cbn [app]. f_equal. apply IH. intros c I. apply H. now right.
Qed.
Lemma names_capital n c : Named n c -> forall d, In d (chars n) -> between 97 d 122 = false /\ d < 128.
Proof.
  intros H d D. apply named_iff in H.
  assert (T : forallb (fun y => forallb (fun d => negb (between 97 d 122) && (d <? 128)) (chars (fst y))) all_named = true) by (vm_compute; reflexivity).
  rewrite forallb_forall in T. specialize (T _ H). rewrite forallb_forall in T. specialize (T _ D).
  apply andb_true_iff in T. destruct T as [A B]. apply N.ltb_lt in B. split; [now apply negb_true_iff|exact B].
Qed.
Theorem name_any_case up s n c : ascii_capitals up -> Named n c -> AnyCase s n -> sequence_sgr up [SA_name s] = Ok [c].
Proof. intros U H A. apply (name_accepted up s n c H). apply (any_case up s n U A). exact (names_capital n c H). Qed.

Theorem arguments_joined up a b :
  sequence_sgr up (a ++ b) = bind (sequence_sgr up a) (fun p => bind (sequence_sgr up b) (fun q => Ok (sgr_add p q))).
Proof.
  induction a as [|x a IH]; cbn [app sequence_sgr].
  - cbn [bind]. destruct (sequence_sgr up b); reflexivity.
  - rewrite IH. destruct (arg_params up x); [|reflexivity]. cbn [bind]. destruct (sequence_sgr up a); [|reflexivity]. cbn [bind].
    destruct (sequence_sgr up b); [|reflexivity]. cbn [bind]. unfold sgr_add. now rewrite app_assoc.
Qed.
Theorem argument_kinds up n p : sequence_sgr up [SA_int n] = Ok [Z.to_N (Z.max 0 n)] /\ sequence_sgr up [SA_seq p] = Ok p /\ sequence_sgr up [SA_other] = Err TypeError.
Proof.
  repeat split; cbn [sequence_sgr arg_params bind].
  - cbn [app]. do 2 f_equal. lia.
  - now rewrite app_nil_r.
Qed.

(** ** The registries *)
Lemma seqs_named : forallb (fun x => String.eqb (fst x) "BLINK_DEFAULT" ||
    existsb (fun y => String.eqb (fst x) (fst y) && eqb_list (snd x) [snd y]) all_named) seqs = true.
Proof. vm_compute. reflexivity. Qed.
Theorem seqs_agree up s n p : In (n, p) seqs -> n <> "BLINK_DEFAULT"%string -> capital up s = chars n -> sequence_sgr up [SA_name s] = Ok p.
Proof.
  intros I D E. pose proof seqs_named as T. rewrite forallb_forall in T. specialize (T _ I). cbn [fst snd] in T.
  apply orb_true_iff in T. destruct T as [T|T]; [apply String.eqb_eq in T; now subst|].
  apply existsb_exists in T. destruct T as ([m c] & J & T). cbn [fst snd] in T. apply andb_true_iff in T. destruct T as [T1 T2].
  apply String.eqb_eq in T1. apply eqb_list_spec in T2. subst. apply (name_accepted up s m c); [now apply named_iff|exact E].
Qed.
Theorem seqs_refuted : exists n p, In (n, p) seqs /\
  forall up s, ascii_capitals up -> AnyCase s n -> sequence_sgr up [SA_name s] = Err KeyError.
Proof.
  exists "BLINK_DEFAULT"%string, [5]. split; [now vm_compute; tauto|].
  intros up s U A. assert (E : capital up s = chars "BLINK_DEFAULT").
  { apply (any_case up s _ U A). intros c I.
    assert (T : forallb (fun d => negb (between 97 d 122) && (d <? 128)) (chars "BLINK_DEFAULT") = true) by (vm_compute; reflexivity).
    rewrite forallb_forall in T. specialize (T _ I). apply andb_true_iff in T. destruct T as [X Y]. apply N.ltb_lt in Y. split; [now apply negb_true_iff|exact Y]. }
  cbn [sequence_sgr arg_params]. unfold resolve. change (flat_map up s) with (capital up s). rewrite E. vm_compute. reflexivity.
Qed.
Theorem constants_refuted : exists n v, In (n, V_list v) int_codes /\
  forall up s, ascii_capitals up -> AnyCase s n -> sequence_sgr up [SA_name s] = Err ValueError.
Proof.
  exists "LIST_COLORS"%string, LIST_COLORS. split; [unfold int_codes; repeat (first [left; reflexivity|right])|].
  intros up s U A. assert (E : capital up s = chars "LIST_COLORS").
  { apply (any_case up s _ U A). intros c I.
    assert (T : forallb (fun d => negb (between 97 d 122) && (d <? 128)) (chars "LIST_COLORS") = true) by (vm_compute; reflexivity).
    rewrite forallb_forall in T. specialize (T _ I). apply andb_true_iff in T. destruct T as [X Y]. apply N.ltb_lt in Y. split; [now apply negb_true_iff|exact Y]. }
  cbn [sequence_sgr arg_params]. unfold resolve. change (flat_map up s) with (capital up s). rewrite E. vm_compute. reflexivity.
Qed.

Lemma span_entries : forallb (fun x => match snd x with
    | [c] => existsb (fun y => String.eqb (fst x) (fst y) && (c =? snd y)) all_named && match code_group c with Some _ => true | None => false end
    | _ => false end) span_openings = true.
Proof. vm_compute. reflexivity. Qed.
Lemma span_entry n x : In (n, x) spans -> exists c, Named n c /\ code_group c <> None /\ x = ([c], closing_seq [c]).
Proof.
  intros I. unfold spans in I. apply in_map_iff in I. destruct I as ([m p] & [= -> <-] & I).
  pose proof span_entries as T. rewrite forallb_forall in T. specialize (T _ I). cbn [fst snd] in T.
  destruct p as [|c [|]]; try discriminate T. apply andb_true_iff in T. destruct T as [T G].
  apply existsb_exists in T. destruct T as ([m c'] & J & T). cbn [fst snd] in T. apply andb_true_iff in T. destruct T as [T1 T2].
  apply String.eqb_eq in T1. apply N.eqb_eq in T2. subst. exists c'. split; [now apply named_iff|]. split; [|reflexivity].
  destruct (code_group c'); [discriminate|discriminate G].
Qed.
Theorem spans_agree up s n x : In (n, x) spans -> capital up s = chars n -> span_of up [SA_name s] = Ok x.
Proof.
  intros I E. destruct (span_entry n x I) as (c & N & _ & ->). unfold span_of. rewrite (name_accepted up s n c N E). reflexivity.
Qed.
Lemma named_once n c d : Named n c -> Named n d -> c = d.
Proof.
  intros A B. assert (X : named (chars n) int_codes = Some (V_int c)) by (apply code_iff; now exists n).
  assert (Y : named (chars n) int_codes = Some (V_int d)) by (apply code_iff; now exists n). congruence.
Qed.
Theorem spans_wrap n x c f text a l : In (n, x) spans -> Means n c f -> trun Ground (f a) text = (Ground, f a, l) ->
  exists b, trun Ground a (wrap_with x text) = (Ground, b, l) /\
    forall g, (code_group c = Some g -> same g b attrs0) /\ (code_group c <> Some g -> same g b a).
Proof.
  intros I M T. destruct (span_entry n x I) as (c' & N' & G & ->).
  assert (c' = c) as -> by (apply (named_once n); [exact N'|left; now exists f]).
  assert (S : Supported [c] [I_code c]) by (split; [reflexivity|constructor; [exact G|constructor]]).
  exists (sgr_apply (closing_seq [c]) (sgr_apply [c] a)). split.
  - unfold wrap_with. cbn [fst snd]. rewrite assemble_run, (means_effect n c f _ M). rewrite trun_app, T.
    rewrite <- (app_nil_r (assemble (closing_seq [c]))), assemble_run. cbn [trun]. now rewrite app_nil_r.
  - intros g. destruct (closing_undoes [c] _ a g S) as [A B]. split.
    + intros H. apply A. exists (I_code c). split; [now left|exact H].
    + intros H. apply B. intros (i & [<-|[]] & K). contradiction.
Qed.
