(** Filters of strings *)
From Coq Require Import List Arith NArith ZArith Bool Lia.
From Verif.Model Require Import Base Regex Strip Trace Filters.
From Verif.Spec Require Import Numbers Terminal Lexical Filtered.
From Verif.Proof Require Import BaseFacts RegexFacts TermFacts.
Import ListNotations.
Local Open Scope N_scope.

(** ** templates *)
Lemma template_fuel_enough g : forall f1 s f2, (length s <= f1)%nat -> (length s <= f2)%nat -> parse_template_fuel g f1 s = parse_template_fuel g f2 s.
Proof.
  assert (U : forall s a b, until_gt s = Some (a, b) -> (length b < length s)%nat).
  { induction s as [|c s IH]; intros a b H; [discriminate|]. cbn [until_gt] in H. destruct (c =? 62); [injection H as <- <-; cbn; lia|].
    destruct (until_gt s) as [[a' b']|]; [|discriminate]. injection H as <- <-. specialize (IH _ _ eq_refl). cbn. lia. }
  induction f1 as [|f1 IH]; intros [|b t] [|f2] H1 H2; cbn [length] in *; try lia; try reflexivity. cbn [parse_template_fuel].
  assert (R : forall x, (length x <= length t)%nat -> parse_template_fuel g f1 x = parse_template_fuel g f2 x) by (intros x Hx; apply IH; lia).
  clear IH. rewrite (R t) by lia. destruct (negb (b =? 92)); [reflexivity|]. destruct t as [|c t1]; [reflexivity|]. cbn [length] in *.
  rewrite (R t1) by lia. destruct (c =? 103).
  - destruct t1 as [|l t2]; [reflexivity|]. destruct (l =? 60); [|reflexivity]. destruct (until_gt t2) as [[a r]|] eqn:E; [|reflexivity].
    apply U in E. cbn [length] in *. rewrite (R r) by lia. reflexivity.
  - destruct t1 as [|d t2]; [reflexivity|]. cbn [length] in *. rewrite (R t2) by lia. destruct t2 as [|e t3]; [reflexivity|]. cbn [length] in *.
    rewrite (R t3) by lia. reflexivity.
Qed.
Lemma template_lit g c s : c <> 92 -> parse_template g (c :: s) = option_map (cons (TLit c)) (parse_template g s).
Proof.
  intros H. unfold parse_template. cbn [length parse_template_fuel]. apply N.eqb_neq in H. rewrite H. reflexivity.
Qed.
Lemma template_text g repl t items : no_backslash repl -> parse_template g t = Some items -> parse_template g (repl ++ t) = Some (map TLit repl ++ items).
Proof.
  unfold no_backslash. intros N H. induction repl as [|c repl IH]; [exact H|]. cbn [app map]. rewrite template_lit by (intros ->; apply N; now left).
  rewrite IH by (intros K; apply N; now right). reflexivity.
Qed.
Lemma template_plain g repl : no_backslash repl -> parse_template g repl = Some (map TLit repl).
Proof. intros H. rewrite <- (app_nil_r repl) at 1. erewrite template_text; [|exact H|reflexivity]. now rewrite app_nil_r. Qed.
Lemma expand_lits l g w : expand (map TLit l) g w = l.
Proof. unfold expand. induction l as [|c l IH]; [reflexivity|]. cbn [map flat_map app]. now rewrite IH. Qed.
Lemma expand_app a b g w : expand (a ++ b) g w = expand a g w ++ expand b g w.
Proof. apply flat_map_app. Qed.

(** ** white space *)
Definition is_white (c : N) : bool := in_cls SPACES c.
Lemma white_spec c : is_white c = true <-> white c.
Proof.
  unfold is_white, in_cls, white. split.
  - intros H. apply existsb_exists in H as ((lo & hi) & I & H). cbn [fst snd] in H. apply andb_true_iff in H as [H1 H2]. apply N.leb_le in H1, H2.
    unfold SPACES in I. cbn [In] in I |- *. repeat (destruct I as [I|I]; [injection I as <- <-; lia|]). contradiction.
  - intros H. cbn [In] in H. repeat (destruct H as [<-|H]; [vm_compute; reflexivity|]). contradiction.
Qed.
Definition white_re : re := RAlt (RGrp 1 (RChr 10)) (RCls SPACES).
Lemma white_match c s : re_match white_re (c :: s) = if c =? 10 then Some ([(1%nat, [10])], s) else if is_white c then Some ([], s) else None.
Proof.
  unfold re_match, white_re, is_white. cbn [mt RChr]. rewrite in_cls_single. destruct (N.eqb_spec c 10) as [->|]; [|reflexivity].
  pose proof (firstn_minus_app [10] s) as F. cbn [app] in F. cbn [app]. rewrite F. reflexivity.
Qed.
Lemma scan_one r c s g : re_match r (c :: s) = Some (g, s) -> re_scan r (c :: s) = Matched g [c] :: re_scan r s.
Proof. intros H. exact (re_scan_match r [c] s g ltac:(discriminate) H). Qed.
Lemma whitespace_marked repl s : no_backslash repl -> forall out, filter_apply (visualize_whitespace repl) s = Some out <-> Marked repl s out.
Proof.
  intros N. unfold filter_apply, visualize_whitespace. cbn [f_groups f_repl f_regex]. fold white_re.
  rewrite (template_text 1 repl [92; 49] [TGroup 1] N eq_refl).
  assert (E : forall g w, expand (map TLit repl ++ [TGroup 1]) g w = repl ++ match group 1 g with Some x => x | None => [] end).
  { intros g w. rewrite expand_app, expand_lits. cbn [expand flat_map]. change (1 =? 0) with false. change (N.to_nat 1) with 1%nat. now rewrite app_nil_r. }
  set (items := map TLit repl ++ [TGroup 1]) in *. clearbody items.
  set (F := flat_map _). assert (K : Marked repl s (F (re_scan white_re s))).
  { induction s as [|c s IH]; [constructor|]. pose proof (white_match c s) as M. destruct (N.eqb_spec c 10) as [->|Hc].
    - rewrite (scan_one _ _ _ _ M). unfold F in *. cbn [flat_map]. rewrite E. cbn [with_last group Nat.eqb]. rewrite <- app_assoc. now constructor.
    - destruct (is_white c) eqn:W.
      + rewrite (scan_one _ _ _ _ M). unfold F in *. cbn [flat_map]. rewrite E. cbn [with_last group]. rewrite app_nil_r. constructor; auto. now apply white_spec.
      + rewrite re_scan_unmatched by exact M. unfold F in *. cbn [flat_map app]. constructor; auto. rewrite <- white_spec. congruence. }
  intros out. split; [intros [= <-]; exact K|]. intros H. f_equal. revert K. generalize (F (re_scan white_re s)). clear F E items.
  induction H as [|s out H IH|c s out W C H IH|c s out W H IH]; intros o K; inversion K; subst; try congruence; try contradiction; f_equal; auto.
  - f_equal. auto.
  - exfalso. match goal with X : ~ white 10 |- _ => apply X end. unfold white. cbn [In]. auto.
  - exfalso. apply W. unfold white. cbn [In]. auto.
Qed.
Lemma marked_gone repl s out : Marked repl s out -> Forall (fun c => ~ white c) repl -> Forall (fun c => c = 10 \/ ~ white c) out.
Proof.
  intros H R. assert (R' : Forall (fun c => c = 10 \/ ~ white c) repl) by (eapply Forall_impl; [|exact R]; auto).
  induction H; auto; try (apply Forall_app; split; auto).
Qed.
(** the lines *)
Fixpoint lines_of (s : list N) : list (list N) :=
  match s with
  | [] => [[]]
  | c :: t => if c =? 10 then [] :: lines_of t else match lines_of t with l :: r => (c :: l) :: r | [] => [[c]] end
  end.
Lemma marked_breaks repl s out : ~ In 10 repl -> Marked repl s out -> count_occ N.eq_dec out 10 = count_occ N.eq_dec s 10.
Proof.
  intros R H. apply (count_occ_not_In N.eq_dec) in R.
  induction H; rewrite ?count_occ_app, ?R; [reflexivity| | |].
  - cbn [count_occ plus]. destruct (N.eq_dec 10 10); congruence.
  - rewrite count_occ_cons_neq by assumption. exact IHMarked.
  - cbn [count_occ]. rewrite IHMarked. reflexivity.
Qed.
Theorem whitespace_shown repl s : no_backslash repl -> exists out, filter_apply (visualize_whitespace repl) s = Some out /\ Marked repl s out.
Proof.
  intros N. pose proof (whitespace_marked repl s N) as H. unfold filter_apply, visualize_whitespace in *. cbn [f_groups f_repl f_regex] in *.
  rewrite (template_text 1 repl [92; 49] [TGroup 1] N eq_refl) in *. eexists. split; [reflexivity|]. now apply H.
Qed.
Theorem whitespace_gone repl s out : no_backslash repl -> Forall (fun c => ~ white c) repl -> filter_apply (visualize_whitespace repl) s = Some out ->
  Forall (fun c => c = 10 \/ ~ white c) out /\ count_occ N.eq_dec out 10 = count_occ N.eq_dec s 10.
Proof.
  intros N W H. apply whitespace_marked in H; [|exact N]. split; [eapply marked_gone; eassumption|]. apply (marked_breaks repl); [|exact H].
  intros K. rewrite Forall_forall in W. apply (W _ K). unfold white. cbn [In]. auto.
Qed.
(** a backslash as the sign: line breaks are lost *)
Theorem whitespace_backslash_refuted : exists s out, filter_apply (visualize_whitespace [92]) s = Some out /\ In 10 s /\ ~ In 10 out.
Proof. exists [97; 10; 98], [97; 92; 49; 98]. split; [reflexivity|]. cbn [In]. intuition discriminate. Qed.
(** control characters and white space of no width stay invisible *)
Theorem whitespace_invisible_refuted : exists s, filter_apply (visualize_whitespace [0xB7]) s = Some s /\ In 0x200B s /\ In 7 s.
Proof. exists [0x200B; 7]. split; [reflexivity|]. cbn [In]. auto. Qed.

(** ** control sequences *)
Definition csi_re (P F : cls) : re := rcats [ RGrp 1 (RChr 27); RGrp 2 (RChr 91); RGrp 3 (RStar P); RGrp 5 (RCls F) ].
Definition disjoint (P F : cls) : Prop := forall b, in_cls P b = true -> in_cls F b = false.
Section Csi.
  Variables (P F : cls).
  Hypothesis D : disjoint P F.
  Definition seq_of (p : list N) (c : N) : list N := 27 :: 91 :: p ++ [c].
  Lemma csi_match p c t : Forall (fun b => in_cls P b = true) p -> in_cls F c = true ->
    re_match (csi_re P F) (seq_of p c ++ t) = Some ([(5%nat, [c]); (3%nat, p); (2%nat, [91]); (1%nat, [27])], t).
  Proof.
    intros HP HF. unfold re_match, csi_re, rcats, fold_right, seq_of. cbn [mt RChr app]. rewrite !in_cls_single. change (27 =? 27) with true. change (91 =? 91) with true.
    cbn iota. rewrite <- app_assoc. cbn [app].
    pose proof (firstn_minus_app [27] (91 :: p ++ c :: t)) as E1. pose proof (firstn_minus_app [91] (p ++ c :: t)) as E2. cbn [app] in E1, E2. rewrite E1, E2.
    apply star_k_greedy. rewrite dropw_app_all by exact HP. assert (NP : in_cls P c = false) by (destruct (in_cls P c) eqn:K; [apply D in K; congruence|reflexivity]).
    rewrite dropw_stop by exact NP. rewrite HF. rewrite firstn_minus_app. pose proof (firstn_minus_app [c] t) as E3. cbn [app] in E3. rewrite E3. reflexivity.
  Qed.
  Lemma csi_inv s g r : re_match (csi_re P F) s = Some (g, r) -> exists p c, s = seq_of p c ++ r /\ Forall (fun b => in_cls P b = true) p /\ in_cls F c = true.
  Proof.
    unfold re_match, csi_re, rcats, fold_right. cbn [mt RChr]. intros H.
    destruct s as [|c1 s]; [discriminate|]. rewrite in_cls_single in H. destruct (N.eqb_spec c1 27) as [->|]; [|discriminate].
    destruct s as [|c2 s]; [discriminate|]. rewrite in_cls_single in H. destruct (N.eqb_spec c2 91) as [->|]; [|discriminate].
    rewrite star_k_disjoint in H.
    - pose proof (takew_dropw (in_cls P) s) as E. pose proof (takew_forall (in_cls P) s) as K.
      destruct (dropw (in_cls P) s) as [|c3 u]; [discriminate|]. destruct (in_cls F c3) eqn:HF; [|discriminate].
      injection H as _ <-. exists (takew (in_cls P) s), c3. split; [|split; [exact K|exact HF]]. unfold seq_of. cbn [app]. rewrite <- app_assoc. cbn [app]. now rewrite E.
    - intros b u Hb. rewrite (D _ Hb). reflexivity.
  Qed.
  Definition csi_seq (w : list N) : Prop := exists p c, w = seq_of p c /\ Forall (fun b => in_cls P b = true) p /\ in_cls F c = true.
  Variables (f : list N -> list N) (h : caps -> list N -> list N).
  Hypothesis HF : forall p c, Forall (fun b => in_cls P b = true) p -> in_cls F c = true ->
    h [(5%nat, [c]); (3%nat, p); (2%nat, [91]); (1%nat, [27])] (seq_of p c) = f (seq_of p c).
  Definition subbed (s : list N) : list N := flat_map (fun e => match e with Unmatched b => [b] | Matched g w => h g w end) (re_scan (csi_re P F) s).
  Lemma csi_replaced s : Replaced csi_seq f s (subbed s).
  Proof.
    remember (length s) as n eqn:En. revert s En. induction n as [n IH] using lt_wf_ind. intros s ->. destruct s as [|c s]; [constructor|].
    destruct (re_match (csi_re P F) (c :: s)) as [[g r]|] eqn:M.
    - destruct (csi_inv _ _ _ M) as (p & x & E & HP & HX). pose proof (csi_match p x r HP HX) as M2. rewrite E. unfold subbed. 
      assert (NE : seq_of p x <> []) by discriminate. rewrite (re_scan_match _ _ _ _ NE M2). cbn [flat_map]. rewrite HF by assumption. apply Rp_part; [exists p, x; auto|].
      apply (IH (length r)); [rewrite E, app_length; cbn; lia|reflexivity].
    - unfold subbed. rewrite re_scan_unmatched by exact M. cbn [flat_map app]. apply Rp_char.
      + intros w r' (p & x & -> & HP & HX) E. rewrite E, (csi_match p x r' HP HX) in M. discriminate.
      + apply (IH (length s)); [cbn; lia|reflexivity].
  Qed.
  Lemma seq_prefix p c r p' c' r' : Forall (fun b => in_cls P b = true) p -> in_cls F c = true -> Forall (fun b => in_cls P b = true) p' -> in_cls F c' = true ->
    seq_of p c ++ r = seq_of p' c' ++ r' -> seq_of p c = seq_of p' c' /\ r = r'.
  Proof.
    intros H1 H2 H3 H4 E. pose proof (csi_match p c r H1 H2) as A. rewrite E, (csi_match p' c' r' H3 H4) in A. injection A as -> -> ->. auto.
  Qed.
End Csi.
Lemma Replaced_ext M M' f s out : (forall w, M w <-> M' w) -> Replaced M f s out -> Replaced M' f s out.
Proof. intros E. induction 1; [constructor|apply Rp_part; [now apply E|assumption]|apply Rp_char; [|assumption]]. intros w r' K. apply H. now apply E. Qed.
(** at most one result if no part continues another *)
Lemma Replaced_unique (M : list N -> Prop) f s : (forall a b r r', M a -> M b -> a ++ r = b ++ r' -> a = b /\ r = r') -> ~ M [] ->
  forall x y, Replaced M f s x -> Replaced M f s y -> x = y.
Proof.
  intros U NM x y H. revert y. induction H as [|w r out Hw H IH|c r out Hc H IH]; intros y K.
  - assert (Z : forall t o, Replaced M f t o -> t = [] -> [] = o) by (intros t o [|w2 r2 o2 Hw2 _|c2 r2 o2 _ _] E; [reflexivity|destruct w2; [contradiction|discriminate]|discriminate]).
    exact (Z _ _ K eq_refl).
  - remember (w ++ r) as t eqn:E. destruct K as [|w2 r2 out2 Hw2 K|c2 r2 out2 Hc2 K].
    + destruct w; [contradiction|discriminate].
    + destruct (U _ _ _ _ Hw2 Hw E) as [-> ->]. f_equal. now apply IH.
    + exfalso. exact (Hc2 _ _ Hw E).
  - remember (c :: r) as t eqn:E. destruct K as [|w2 r2 out2 Hw2 K|c2 r2 out2 Hc2 K].
    + discriminate.
    + exfalso. exact (Hc _ _ Hw2 eq_refl).
    + injection E as -> ->. f_equal. now apply IH.
Qed.

Definition SGR_P : cls := [(48, 57); (59, 59)].
Definition SGR_F : cls := [(109, 109)].
Definition CSI_P : cls := [(48, 57); (59, 59); (58, 58); (60, 60); (61, 61); (62, 62); (63, 63)].
Definition CSI_F : cls := [(64, 64); (65, 90); (97, 122)].
Lemma in_cls_iff c b : in_cls c b = true <-> exists r, In r c /\ fst r <= b /\ b <= snd r.
Proof.
  unfold in_cls. rewrite existsb_exists. split; intros (r & I & H); exists r; (split; [exact I|]).
  - apply andb_true_iff in H as [H1 H2]. apply N.leb_le in H1, H2. auto.
  - apply andb_true_iff. split; apply N.leb_le; apply H.
Qed.
Ltac cls_cases H := apply in_cls_iff in H as (?r & ?I & ?H); cbn [In SGR_P SGR_F CSI_P CSI_F] in *;
  repeat match goal with X : _ \/ _ |- _ => destruct X as [<-|X] end; try contradiction; cbn [fst snd] in *.
Lemma sgr_disjoint : disjoint SGR_P SGR_F.
Proof. intros b H. destruct (in_cls SGR_F b) eqn:K; [|reflexivity]. unfold SGR_P, SGR_F in *. cls_cases K; cls_cases H; lia. Qed.
Lemma csi_disjoint : disjoint CSI_P CSI_F.
Proof. intros b H. destruct (in_cls CSI_F b) eqn:K; [|reflexivity]. unfold CSI_P, CSI_F in *. cls_cases K; cls_cases H; lia. Qed.
Lemma sgr_p b : in_cls SGR_P b = true <-> rng 48 57 b \/ b = 59.
Proof.
  rewrite in_cls_iff. unfold SGR_P, rng. cbn [In]. split.
  - intros (r & [<-|[<-|[]]] & H); cbn [fst snd] in H; [left|right]; lia.
  - intros [H| ->]; [exists (48, 57)|exists (59, 59)]; cbn [fst snd]; (split; [auto|lia]).
Qed.
Lemma sgr_f b : in_cls SGR_F b = true <-> 109 = b.
Proof.
  rewrite in_cls_iff. unfold SGR_F. cbn [In]. split.
  - intros (r & [<-|[]] & H); cbn [fst snd] in H; lia.
  - intros <-. exists (109, 109). cbn [fst snd]. split; [auto|lia].
Qed.
Lemma csi_p b : in_cls CSI_P b = true <-> rng 48 63 b.
Proof.
  unfold rng. split.
  - rewrite in_cls_iff. unfold CSI_P. cbn [In]. intros (r & I & H). repeat (destruct I as [<-|I]; [cbn [fst snd] in H; lia|]). contradiction.
  - intros [H1 H2]. unfold in_cls, CSI_P. cbn [existsb fst snd].
    assert (C : b = 58 \/ b = 59 \/ b = 60 \/ b = 61 \/ b = 62 \/ b = 63 \/ b <= 57) by lia.
    destruct C as [->|[->|[->|[->|[->|[->|C]]]]]]; try reflexivity. apply N.leb_le in H1, C. now rewrite H1, C.
Qed.
Lemma csi_f b : in_cls CSI_F b = true <-> rng 64 90 b \/ rng 97 122 b.
Proof.
  unfold rng. rewrite in_cls_iff. unfold CSI_F. cbn [In]. split.
  - intros (r & [<-|[<-|[<-|[]]]] & H); cbn [fst snd] in H; lia.
  - intros [H|H]; [|exists (97, 122); cbn [fst snd]; auto]. destruct (N.eq_dec b 64) as [->|]; [exists (64, 64)|exists (65, 90)]; cbn [fst snd]; (split; [auto|lia]).
Qed.
Lemma csi_seq_spec P F (Q G : N -> Prop) : (forall b, in_cls P b = true <-> Q b) -> (forall b, in_cls F b = true <-> G b) -> forall w, csi_seq P F w <-> introduced Q G w.
Proof.
  intros HP HF w. unfold csi_seq, introduced, seq_of. split; intros (p & c & E & A & B); exists p, c; (split; [exact E|split]);
    try (now apply HF); (eapply Forall_impl; [|exact A]; intros b; apply HP).
Qed.
Lemma csi_unique P F (Q G : N -> Prop) : disjoint P F -> (forall b, in_cls P b = true <-> Q b) -> (forall b, in_cls F b = true <-> G b) ->
  forall f s x y, Replaced (introduced Q G) f s x -> Replaced (introduced Q G) f s y -> x = y.
Proof.
  intros D HP HF f s. apply Replaced_unique.
  - intros a b r r' Ha Hb. apply (csi_seq_spec P F Q G HP HF) in Ha as (p & c & -> & A1 & A2). apply (csi_seq_spec P F Q G HP HF) in Hb as (p' & c' & -> & B1 & B2).
    now apply (seq_prefix P F D).
  - intros (p & c & E & _). discriminate.
Qed.

(** any template: what replaces a sequence depends on the sequence only *)
Definition image (t : list titem) (w : list N) : list N :=
  let p := removelast (skipn 2 w) in let c := [last w 0] in
  expand t (with_last [(5%nat, c); (3%nat, p); (2%nat, [91]); (1%nat, [27])]) w.
Lemma image_seq t p c : image t (seq_of p c) = expand t (with_last [(5%nat, [c]); (3%nat, p); (2%nat, [91]); (1%nat, [27])]) (seq_of p c).
Proof.
  unfold image, seq_of. cbn [skipn]. rewrite removelast_last.
  replace (last (27 :: 91 :: p ++ [c]) 0) with c; [reflexivity|]. rewrite !app_comm_cons. now rewrite last_last.
Qed.
Lemma sequences_replaced P F (Q G : N -> Prop) t : disjoint P F -> (forall b, in_cls P b = true <-> Q b) -> (forall b, in_cls F b = true <-> G b) ->
  forall f, (forall w, introduced Q G w -> image t w = f w) ->
  forall s out, Some (flat_map (fun e => match e with Unmatched b => [b] | Matched g w => expand t (with_last g) w end) (re_scan (csi_re P F) s)) = Some out <-> Replaced (introduced Q G) f s out.
Proof.
  intros D HP HF f I s out.
  pose proof (csi_replaced P F D f (fun g w => expand t (with_last g) w)) as K.
  assert (K1 : forall p c, Forall (fun b => in_cls P b = true) p -> in_cls F c = true ->
    expand t (with_last [(5%nat, [c]); (3%nat, p); (2%nat, [91]); (1%nat, [27])]) (seq_of p c) = f (seq_of p c)).
  { intros p c A B. rewrite <- image_seq. apply I. apply (csi_seq_spec P F Q G HP HF). exists p, c. auto. }
  specialize (K K1 s). apply (Replaced_ext _ _ _ _ _ (csi_seq_spec P F Q G HP HF)) in K. unfold subbed in K. split.
  - intros [= <-]. exact K.
  - intros H. f_equal. eapply csi_unique; eassumption.
Qed.
Theorem sgr_replaced repl s out : no_backslash repl -> filter_apply (replace_sgr repl) s = Some out <-> Replaced sgr_sequence (fun _ => repl) s out.
Proof.
  intros N. unfold filter_apply, replace_sgr. cbn [f_groups f_repl f_regex]. rewrite (template_plain 5 repl N).
  apply (sequences_replaced SGR_P SGR_F _ _ _ sgr_disjoint sgr_p sgr_f). intros w _. apply expand_lits.
Qed.
Theorem csi_filtered repl s out : no_backslash repl -> filter_apply (replace_csi repl) s = Some out <-> Replaced lettered_sequence (fun _ => repl) s out.
Proof.
  intros N. unfold filter_apply, replace_csi. cbn [f_groups f_repl f_regex]. rewrite (template_plain 5 repl N).
  apply (sequences_replaced CSI_P CSI_F _ _ _ csi_disjoint csi_p csi_f). intros w _. apply expand_lits.
Qed.
(** the template of the documentation: E\2\3\5 *)
Definition DOC_TEMPLATE : list N := [69; 92; 50; 92; 51; 92; 53].
Lemma doc_image w : (exists p c, w = seq_of p c) -> image [TLit 69; TGroup 2; TGroup 3; TGroup 5] w = 69 :: tl w.
Proof.
  intros (p & c & ->). rewrite image_seq. unfold expand, seq_of. cbn [flat_map tl N.eqb]. change (N.to_nat 2) with 2%nat. change (N.to_nat 3) with 3%nat. change (N.to_nat 5) with 5%nat.
  assert (G : forall n, n <> 4%nat -> group n (with_last [(5%nat, [c]); (3%nat, p); (2%nat, [91]); (1%nat, [27])]) = group n [(5%nat, [c]); (3%nat, p); (2%nat, [91]); (1%nat, [27])]).
  { intros n Hn. unfold with_last. cbn [group Nat.eqb]. destruct (rev p) as [|x l]; [reflexivity|]. cbn [group]. destruct (Nat.eqb_spec n 4); [contradiction|reflexivity]. }
  rewrite !G by discriminate. cbn [group Nat.eqb app]. reflexivity.
Qed.
Theorem escapes_shown s out : filter_apply (replace_sgr DOC_TEMPLATE) s = Some out <-> Replaced sgr_sequence (fun w => 69 :: tl w) s out.
Proof.
  unfold filter_apply, replace_sgr. cbn [f_groups f_repl f_regex]. change (parse_template 5 DOC_TEMPLATE) with (Some [TLit 69; TGroup 2; TGroup 3; TGroup 5]).
  apply (sequences_replaced SGR_P SGR_F _ _ _ sgr_disjoint sgr_p sgr_f). intros w (p & c & -> & _). apply doc_image. exists p, c. reflexivity.
Qed.
(** every SGR sequence is a lettered sequence, every lettered sequence a control sequence *)
Theorem more_specific w : (sgr_sequence w -> lettered_sequence w) /\ (lettered_sequence w -> control_sequence w).
Proof.
  split.
  - intros (p & c & -> & A & <-). exists p, 109. split; [reflexivity|]. split; [|right; unfold rng; lia]. eapply Forall_impl; [|exact A]. unfold rng. intros b [H| ->]; lia.
  - intros (p & c & -> & A & B). exists p, [], c. split; [reflexivity|]. split; [exact A|]. split; [constructor|]. unfold rng in *. lia.
Qed.
(** some control sequences are left: ESC [ 3 ~ *)
Theorem csi_all_refuted : exists w, control_sequence w /\ filter_apply (replace_csi []) w = Some w.
Proof.
  exists [27; 91; 51; 126]. split; [|reflexivity]. exists [51], [], 126. split; [reflexivity|]. split; [repeat constructor; unfold rng; lia|]. split; [constructor|unfold rng; lia].
Qed.

(** ** bytes above 127 *)
Theorem non_ascii_replaced repl s : no_backslash repl ->
  filter_apply (replace_non_ascii repl) s = Some (flat_map (fun b => if in_cls [(128, 255)] b then repl else [b]) s).
Proof.
  intros N. unfold filter_apply, replace_non_ascii. cbn [f_groups f_repl f_regex]. rewrite (template_plain 0 repl N). f_equal.
  induction s as [|b s IH]; [reflexivity|]. destruct (in_cls [(128, 255)] b) eqn:E.
  - rewrite (scan_one _ _ _ []); [|unfold re_match; cbn [mt]; now rewrite E]. cbn [flat_map]. rewrite E, IH, expand_lits. reflexivity.
  - rewrite re_scan_unmatched; [|unfold re_match; cbn [mt]; now rewrite E]. cbn [flat_map]. rewrite E, IH. reflexivity.
Qed.
Theorem non_ascii_default s : Forall (fun b => b < 256) s ->
  exists out, filter_apply (replace_non_ascii [63]) s = Some out /\ Forall2 (fun b c => b < 128 /\ c = b \/ 128 <= b /\ c = 63) s out.
Proof.
  intros B. eexists. split; [apply non_ascii_replaced; unfold no_backslash; cbn; intuition discriminate|].
  induction B as [|b s Hb H IH]; [constructor|]. cbn [flat_map]. unfold in_cls at 1. cbn [existsb fst snd]. rewrite orb_false_r.
  destruct (N.leb_spec 128 b); cbn [andb].
  - destruct (N.leb_spec b 255); [|lia]. cbn [app]. constructor; auto.
  - cbn [app]. constructor; auto.
Qed.

(** ** several filters *)
Lemma apply_none l : fold_left (fun acc a => match acc with Some x => filter_apply (arg_filter a) x | None => None end) l None = None.
Proof. induction l; auto. Qed.
Theorem filters_in_turn s a b : apply_filters s (a ++ b) = match apply_filters s a with Some x => apply_filters x b | None => None end.
Proof. unfold apply_filters. rewrite fold_left_app. destruct (fold_left _ a (Some s)); [reflexivity|apply apply_none]. Qed.

(** ** groups of digits *)
Lemma replace_app c by_ a b : replace_char c by_ (a ++ b) = replace_char c by_ a ++ replace_char c by_ b.
Proof. apply flat_map_app. Qed.
Lemma replace_id c by_ a : ~ In c a -> replace_char c by_ a = a.
Proof.
  induction a as [|x a IH]; intros H; [reflexivity|]. unfold replace_char. cbn [flat_map]. fold (replace_char c by_ a).
  destruct (N.eqb_spec x c) as [->|]; [exfalso; apply H; now left|]. rewrite IH by (intros K; apply H; now right). reflexivity.
Qed.
Lemma joined_cons sep c l r : joined sep ((c :: l) :: r) = c :: joined sep (l :: r).
Proof. destruct r; reflexivity. Qed.
Lemma underscored_grouped sep l : ~ In 95 l -> l <> [] -> Grouped sep l (replace_char 95 sep (underscored l)).
Proof.
  induction l as [|c t IH]; intros N E; [congruence|]. cbn [underscored]. unfold replace_char. cbn [flat_map].
  destruct (N.eqb_spec c 95) as [->|Hc]; [exfalso; apply N; now left|]. fold (replace_char 95 sep ((if (0 <? length t)%nat && (length t mod 3 =? 0)%nat then [95] else []) ++ underscored t)).
  rewrite replace_app. destruct t as [|d t].
  - exists [c], []. cbn. repeat split; auto; lia.
  - destruct (IH ltac:(intros K; apply N; now right) ltac:(discriminate)) as (first & more & E1 & L & G & E2). rewrite E2.
    assert (Len : length (d :: t) = (length first + 3 * length more)%nat).
    { rewrite E1, app_length. f_equal. clear - G. induction G as [|g more Hg G IH]; [reflexivity|]. cbn [concat length]. rewrite app_length, Hg, IH. lia. }
    set (t0 := d :: t) in *. assert (Pos : (0 <? length t0)%nat = true) by (apply Nat.ltb_lt; subst t0; cbn; lia). rewrite Pos. cbn [andb].
    assert (M : (length t0 mod 3 = length first mod 3)%nat).
    { rewrite Len, Nat.mul_comm. apply Nat.mod_add. lia. }
    rewrite M. assert (C : length first = 1%nat \/ length first = 2%nat \/ length first = 3%nat) by lia.
    destruct C as [C|[C|C]]; rewrite C; cbn [Nat.modulo Nat.divmod Nat.eqb snd Nat.sub app].
    + exists (c :: first), more. rewrite E1. cbn [length replace_char flat_map app]. rewrite joined_cons, C. repeat split; auto; lia.
    + exists (c :: first), more. rewrite E1. cbn [length replace_char flat_map app]. rewrite joined_cons, C. repeat split; auto; lia.
    + exists [c], (first :: more). rewrite E1. cbn [length concat]. repeat split; auto.
      unfold replace_char. cbn [flat_map N.eqb Pos.eqb joined app]. now rewrite app_nil_r.
Qed.
Theorem thousands n sep : exists out, format_thousand_sep n sep = (if (n <? 0)%Z then [45] else []) ++ out /\ Grouped sep (dec (Z.to_N (Z.abs n))) out.
Proof.
  unfold format_thousand_sep, fmt_underscore. rewrite replace_app. eexists. split; [f_equal; destruct (n <? 0)%Z; reflexivity|].
  apply underscored_grouped; [|apply dec_nonempty]. intros K. pose proof (dec_digits (Z.to_N (Z.abs n))) as D. rewrite Forall_forall in D. specialize (D _ K). lia.
Qed.
(** grouping is unique *)
Theorem grouped_unique sep d x y : Grouped sep d x -> Grouped sep d y -> x = y.
Proof.
  assert (A : forall more more' : list (list N), Forall (fun g => length g = 3%nat) more -> Forall (fun g => length g = 3%nat) more' -> concat more = concat more' -> more = more').
  { induction more as [|g more IH]; intros [|g' more'] H H' E; [reflexivity| | |].
    - inversion H' as [|? ? L _]; subst. cbn [concat] in E. destruct g'; [discriminate|discriminate].
    - inversion H as [|? ? L _]; subst. cbn [concat] in E. destruct g; [discriminate|discriminate].
    - inversion H as [|? ? L H2]; inversion H' as [|? ? L' H2']; subst. cbn [concat] in E.
      assert (g = g' /\ concat more = concat more') as [-> E2].
      { assert (K : firstn 3 (g ++ concat more) = firstn 3 (g' ++ concat more')) by now rewrite E.
        rewrite !firstn_app, L, L', <- L, firstn_all, L, <- L', firstn_all, L', Nat.sub_diag in K. cbn [firstn] in K. rewrite !app_nil_r in K. subst. split; [reflexivity|]. eapply app_inv_head. exact E. }
      f_equal. now apply IH. }
  assert (Len : forall more : list (list N), Forall (fun g => length g = 3%nat) more -> length (concat more) = (3 * length more)%nat).
  { induction 1 as [|g more Hg G IH]; [reflexivity|]. cbn [concat length]. rewrite app_length, Hg, IH. lia. }
  intros (f & m & -> & L & G & ->) (f' & m' & E & L' & G' & ->).
  assert (LE : length f = length f').
  { pose proof (f_equal (@length N) E) as Q. rewrite !app_length, (Len _ G), (Len _ G') in Q. lia. }
  assert (f = f' /\ concat m = concat m') as [-> E2].
  { pose proof (f_equal (firstn (length f)) E) as K. rewrite !firstn_app, firstn_all, Nat.sub_diag in K. rewrite LE in K. rewrite firstn_all, Nat.sub_diag in K. cbn [firstn] in K.
    rewrite !app_nil_r in K. subst. split; [reflexivity|]. eapply app_inv_head. exact E. }
  now rewrite (A m m' G G' E2).
Qed.
