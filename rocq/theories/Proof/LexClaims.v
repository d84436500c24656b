(** C01-C05, C13: consequences of the lexical facts in the form of the claims *)
From Coq Require Import List Arith NArith ZArith Bool Lia.
From Verif.Model Require Import Base Ansi Regex Settings Segment Template Parser.
From Verif.Spec Require Import Numbers Utf8 Lexical SgrParams Terminal Display.
From Verif.Proof Require Import BaseFacts RegexFacts LexFacts TokFacts DisplayFacts.
Import ListNotations.
Local Open Scope N_scope.

(** ** C01 *)
Definition piece (ev : sub_ev) : bytes := match ev with Matched _ w => w | Unmatched b => [b] end.

Lemma scan_pieces b : is_bytes b ->
  Forall (fun ev => exists g w, ev = Matched g w /\ w <> []) (re_scan F_SEPARATOR b) /\
  concat (map piece (re_scan F_SEPARATOR b)) = b.
Proof.
  intros H. destruct (lexes_total b H) as [ts L]. pose proof (scan_tokens b ts H L) as S.
  split.
  - clear H. revert S. generalize (re_scan F_SEPARATOR b). induction L as [|k w rest ts T L IH]; intros evs S; inversion S; subst; constructor; auto.
    destruct H1 as (g & -> & _). exists g, w. split; [reflexivity|]. eapply token_nonempty; eassumption.
  - rewrite (lexes_concat b ts L) at 2. f_equal. clear -S. induction S as [|t ev ts evs (g & -> & _) S IH]; [reflexivity|]. cbn. now rewrite IH.
Qed.

Lemma toks_segs_err e b ts x : is_bytes b -> Lexes b ts -> toks_segs e ts = Err x -> x = ValueError.
Proof.
  intros H L. revert H. induction L as [|k w rest ts T L IH]; intros H; [discriminate|]. cbn [toks_segs].
  apply is_bytes_app in H as [_ H].
  destruct (tok_segs_result e k w rest T) as [[_ ->]|[_ [segs ->]]]; cbn [bind]; [congruence|].
  destruct (toks_segs e ts) eqn:E; cbn [bind]; [discriminate|]. intros K. injection K as <-. auto.
Qed.

Lemma parse_consumes e p sb ss : is_bytes (pb_raw p) ->
  match parse e p sb ss with
  | Ok (p', sb', ss') => pb_raw p' = [] /\ pb_closed p' = pb_closed p
  | Err x => x = ValueError
  end.
Proof.
  intros H. destruct (lexes_total _ H) as [ts L]. pose proof (parse_toks e p sb ss ts H L) as P.
  destruct (toks_segs e ts) as [segs|x] eqn:E.
  - destruct P as [ss' ->]. auto.
  - rewrite P. eapply toks_segs_err; eassumption.
Qed.

(** ** C02 *)
(** the pieces found by the program are those of the grammar *)
Lemma scan_grammar b : is_bytes b ->
  exists ts, Lexes b ts /\ (forall ts', Lexes b ts' -> ts' = ts) /\
    Forall2 (fun t ev => exists g, ev = Matched g (snd t) /\ primary_mgroup g = Some (mgroup_of (fst t)) /\ group (S (mgroup_of (fst t))) g = Some (snd t))
            ts (re_scan F_SEPARATOR b).
Proof.
  intros H. destruct (lexes_total b H) as [ts L]. exists ts. split; [exact L|]. split.
  - intros ts' L'. now apply (lexes_det b).
  - pose proof (scan_tokens b ts H L) as S. clear -S. induction S as [|t ev ts evs (g & -> & V) S IH]; constructor; auto.
    exists g. split; [reflexivity|]. destruct V as (V1 & V2 & _). auto.
Qed.

Lemma lexes_in b ts k w : Lexes b ts -> In (k, w) ts -> exists rest, Token k w rest.
Proof.
  induction 1 as [|k' w' rest ts T L IH]; [easy|]. intros [E|K]; [injection E as <- <-; eauto|auto].
Qed.

Lemma scan_in b g w : is_bytes b -> In (Matched g w) (re_scan F_SEPARATOR b) ->
  exists k rest, Token k w rest /\ view k w g.
Proof.
  intros H I. destruct (lexes_total b H) as [ts L]. pose proof (scan_tokens b ts H L) as S.
  assert (exists k, In (k, w) ts /\ view k w g) as (k & K & V).
  { clear L. induction S as [|t ev ts evs (g' & -> & V) S IH]; [easy|]. destruct I as [E|I].
    - injection E as -> E. subst. exists (fst t). split; [left; now destruct t|exact V].
    - destruct (IH I) as (k & K & V'). exists k. split; [now right|exact V']. }
  destruct (lexes_in b ts k w L K) as [rest T]. eauto.
Qed.

(** ** C03 *)
Lemma utf8_piece b g w : is_bytes b -> In (Matched g w) (re_scan F_SEPARATOR b) ->
  (primary_mgroup g = Some 0%nat <-> exists cp, scalar cp /\ 128 <= cp /\ w = utf8_encode cp).
Proof.
  intros H I. destruct (scan_in b g w H I) as (k & rest & T & V & G & X). rewrite V. split.
  - intros E. destruct T; cbn [mgroup_of] in E; try discriminate E; [exists cp; auto|]. destruct k; discriminate.
  - intros (cp & Hs & Hc & ->). pose proof (utf8_high cp Hs Hc) as F.
    assert (NE : utf8_encode cp <> []) by (apply (token_nonempty (K_utf8 cp) _ []); now constructor).
    remember (utf8_encode cp) as u eqn:Eu. destruct T; try reflexivity; exfalso;
      try (inversion F; subst; unfold high, rng in *; lia).
    + apply (H3 cp rest Hs Hc). now rewrite Eu.
    + destruct w as [|x w]; [easy|]. match goal with K : Forall (run_member _) _ |- _ => inversion K as [|? ? K1 K2]; subst end. apply run_member_low in K1. inversion F; subst. unfold high, rng in *. lia.
Qed.

(** class of the template chosen *)
Lemma view_class k w g ss : view k w g ->
  match resolve_match g (mgroup_of k) ss with
  | Ok (t, _) => t_class t = class_of k /\ t = tok_tpl k
  | Err x => x = ValueError
  end.
Proof.
  intros (V & G & X). unfold resolve_match.
  destruct k as [cp| |p i f| | | | | | |r]; try (split; reflexivity); [|destruct r; split; reflexivity].
  cbn [mgroup_of MGROUP_TO_TPL_MAP]. destruct X as [X1 X2]. unfold resolve_csi, group_is. rewrite X1, X2.
  unfold tok_tpl. cbn [eqb_list]. rewrite andb_true_r.
  destruct (f =? 109); [|split; reflexivity]. destruct (eqb_list p [] || eqb_list p [48])%bool; [split; reflexivity|].
  destruct (set_details_fmt_str p) as [ss'|x] eqn:E; cbn [bind]; [split; reflexivity|].
  unfold set_details_fmt_str in E. destruct (parse_pcodes p) as [c|y] eqn:P; cbn [bind] in E; [destruct (brief_loop c); discriminate|].
  injection E as <-. eapply parse_pcodes_err; eassumption.
Qed.

(** the grammar determines class of template *)
Lemma scan_classes b : is_bytes b ->
  exists ts, Lexes b ts /\ (forall ts', Lexes b ts' -> ts' = ts) /\
    Forall2 (fun t ev => exists g mg, ev = Matched g (snd t) /\ primary_mgroup g = Some mg /\ group (S mg) g = Some (snd t) /\
               forall ss, match resolve_match g mg ss with Ok (tpl, _) => t_class tpl = class_of (fst t) | Err x => x = ValueError end)
            ts (re_scan F_SEPARATOR b).
Proof.
  intros H. destruct (lexes_total b H) as [ts L]. exists ts. split; [exact L|]. split.
  - intros ts' L'. now apply (lexes_det b).
  - pose proof (scan_tokens b ts H L) as S. clear -S. induction S as [|t ev ts evs (g & -> & V) S IH]; constructor; auto.
    exists g, (mgroup_of (fst t)). pose proof (view_class _ _ _ sgr_state_init V) as _. split; [reflexivity|].
    split; [apply V|]. split; [apply V|]. intros ss. pose proof (view_class _ _ _ ss V) as K.
    destruct (resolve_match g (mgroup_of (fst t)) ss) as [[tpl ?]|]; [apply K|exact K].
Qed.

(** ** C13 *)
Lemma esc_label s e k : Env s e -> is_escape_seq k = true -> s_ignore s (class_of k) = false ->
  t_kind (tok_tpl k) = T_esc \/ t_kind (tok_tpl k) = T_esc_sgr.
Proof.
  intros _ H _. destruct k as [| |p i f| | | | | | |r]; try discriminate; auto. rewrite tpl_csi. destruct (csi_sort p f); auto.
Qed.
Lemma esc_marker s e k w segs ss ss' : Env s e -> is_escape_seq k = true -> s_ignore s (class_of k) = false -> hd 0 w = 27 -> w <> [] ->
  tok_handle e k w ss = Ok (segs, ss') -> exists g, In g segs /\ seg_raw g = [27] /\ seg_proc g = [marker s k].
Proof.
  intros E Hk Hi Hw Hn H. unfold tok_handle in H. destruct (tok_state k ss) as [ss1|]; [|discriminate]. cbn [bind] in H.
  assert (HD : is_ignored (t_disp e (tok_tpl k)) = false).
  { unfold t_disp. rewrite tok_class, (env_display s e E), Hi. now destruct (s_focus s (class_of k)). }
  destruct w as [|b w]; [easy|]. cbn [hd] in Hw. subst b.
  assert (HP : process e (tok_tpl k) [27] = [marker s k]).
  { unfold process, process_base, process_byte, process_byte_base, mode_get, t_disp. rewrite tok_class, (env_display s e E), Hi.
    destruct k as [| |p i f| | | | | | |r]; try discriminate Hk;
    [rewrite tpl_csi; unfold marker; destruct (csi_sort p f)| | | |]; destruct (s_focus s (class_of _)), (te_read e); reflexivity. }
  unfold substitute in H. assert (X : forall A (a b c : A), match t_kind (tok_tpl k) with T_control => a | T_esc | T_esc_sgr => b | _ => c end = b).
  { intros. destruct (esc_label s e k E Hk Hi) as [-> | ->]; reflexivity. }
  rewrite X, HD in H. cbn [firstn skipn] in H. rewrite HP in H.
  destruct (label_opening_seq e (tok_tpl k) ss1) as [o|]; [|discriminate]. cbn [bind] in H.
  destruct (esc_details e (tok_tpl k) ss1 w) as [det|]; [|discriminate]. cbn [bind] in H.
  injection H as <- <-. eexists. split; [|split; [|]].
  2:{ instantiate (1 := mkSeg o _ [27] [marker s k]). reflexivity. }
  2: reflexivity.
  destruct (_ && _)%bool; [right; apply in_or_app; left; left; reflexivity|left; reflexivity].
Qed.

(** ** C04 *)
Lemma prefix_before (P : N -> Prop) l r a x b : l ++ r = a ++ x :: b -> Forall P l -> ~ P x -> exists r', a = l ++ r' /\ r = r' ++ x :: b.
Proof.
  revert a. induction l as [|y l IH]; intros a E H Hx; [exists a; auto|].
  inversion H; subst. destruct a as [|z a]; cbn [app] in E; injection E as -> E.
  - contradiction.
  - destruct (IH a E) as (r' & -> & ->); auto. now exists r'.
Qed.

(** a byte >= 128 behind the text does not change its pieces, unless the last one is a binary run *)

Lemma token_extend k w rest h x : Token k w rest -> high h -> (rest = [] -> k <> K_binary) -> Token k w (rest ++ h :: x).
Proof.
  intros T Hh HB.
  assert (HL : forall b, b < 128 -> h <> b) by (unfold high, rng in Hh; lia).
  assert (ST : forall P : N -> Prop, (forall b, P b -> b < 128) -> ~ starts P rest -> ~ starts P (rest ++ h :: x)).
  { intros P HP K (b & t & E & Hb). destruct rest as [|y rest]; cbn [app] in E; injection E as -> _.
    - apply (HL b); auto.
    - apply K. now exists b, rest. }
  destruct T as [cp rest Hs Hc|w rest Hw Hf Hr Hu|p i f rest Hc|i f rest Hn|c rest Hc|c rest Hc Hn|c rest Hc|rest Hr Hn|rest|k w rest Hw Hm Hr].
  - now constructor.
  - destruct rest as [|y rest]; [now destruct (HB eq_refl)|]. constructor; auto.
    + intros (b & t & E & Hb). cbn [app] in E. injection E as -> _. apply Hr. now exists b, rest.
    + intros cp r Hs Hc E. assert (Hy : ~ high y) by (intros ?; apply Hr; now exists y, rest).
      symmetry in E. cbn [app] in E.
      destruct (prefix_before high _ _ _ _ _ E (utf8_high cp Hs Hc) Hy) as (r' & -> & _).
      apply (Hu cp (r' ++ y :: rest) Hs Hc). now rewrite <- app_assoc.
  - now constructor.
  - now constructor.
  - now constructor.
  - constructor; [exact Hc|]. intros -> p i f r Hcs E. destruct Hcs as (Hp & Hi & Hf).
    assert (E' : (p ++ i ++ [f]) ++ r = rest ++ h :: x) by (rewrite <- !app_assoc; now symmetry).
    apply (prefix_before (fun b => b < 128)) in E' as (r' & -> & _).
    + apply (Hn eq_refl p i f r'); [repeat split; auto; apply Hf|]. now rewrite <- !app_assoc.
    + unfold rng in Hf. rewrite !Forall_app. split; [|split; [|constructor; [lia|constructor]]];
        (eapply Forall_impl; [|eassumption]; unfold rng; intros; lia).
    + unfold high, rng in Hh. lia.
  - now constructor.
  - constructor.
    + apply ST; [unfold rng; intros; lia|exact Hr].
    + intros i f r (Hi & Hi2 & Hf) E. assert (E' : (i ++ [f]) ++ r = rest ++ h :: x) by (rewrite <- !app_assoc; now symmetry).
      apply (prefix_before (fun b => b < 128)) in E' as (r' & -> & _).
      * apply (Hn i f r'); [repeat split; auto; apply Hf|]. now rewrite <- !app_assoc.
      * unfold rng in Hf. rewrite !Forall_app. split; [|constructor; [lia|constructor]]. eapply Forall_impl; [|eassumption]; unfold rng; intros; lia.
      * unfold high, rng in Hh. lia.
  - constructor.
  - constructor; auto. apply ST; [|exact Hr]. intros b Hb. apply run_member_low in Hb. lia.
Qed.

Lemma lexes_extend s ts h x ts' : Lexes s ts -> last_binary ts = false -> high h -> Lexes (h :: x) ts' -> Lexes (s ++ h :: x) (ts ++ ts').
Proof.
  intros L HB Hh L'. induction L as [|k w rest ts T L IH]; [exact L'|].
  rewrite <- app_assoc. cbn [app]. constructor.
  - apply token_extend; auto. intros ->. assert (ts = []) as ->.
    { inversion L as [|k' w' r' ts'' T' L2 E]; [reflexivity|]. apply token_nonempty in T'. destruct w'; [easy|discriminate]. }
    unfold last_binary in HB. cbn in HB. now destruct k.
  - apply IH. destruct ts; [reflexivity|]. exact HB.
Qed.

Lemma enc_cons cp : scalar cp -> 128 <= cp -> exists h t, utf8_encode cp = h :: t /\ high h.
Proof.
  intros Hs Hc. pose proof (utf8_high cp Hs Hc) as F.
  assert (NE : utf8_encode cp <> []) by (apply (token_nonempty (K_utf8 cp) _ []); now constructor).
  destruct (utf8_encode cp) as [|h t]; [easy|]. inversion F; subst. eauto.
Qed.

Lemma utf8_recognised pre cp post ts ts' :
  scalar cp -> 128 <= cp -> Lexes pre ts -> last_binary ts = false -> Lexes post ts' ->
  Lexes (pre ++ utf8_encode cp ++ post) (ts ++ (K_utf8 cp, utf8_encode cp) :: ts').
Proof.
  intros Hs Hc L HB L'. destruct (enc_cons cp Hs Hc) as (h & t & E & Hh).
  assert (L2 : Lexes (utf8_encode cp ++ post) ((K_utf8 cp, utf8_encode cp) :: ts')) by (constructor; [now constructor|exact L']).
  rewrite E in *. cbn [app] in *. now apply lexes_extend.
Qed.

(** behind a binary run it is swallowed *)
Lemma enc_lead cp : scalar cp -> 128 <= cp -> exists h t, utf8_encode cp = h :: t /\ 192 <= h /\ h < 256 /\ Forall (fun b => b < 192) t.
Proof.
  intros Hs Hc. destruct (enc_shape cp Hs Hc) as [(x1 & x2 & E & ?)|[(x1 & x2 & x3 & E & ?)|(x1 & x2 & x3 & x4 & E & ?)]]; rewrite E;
  do 2 eexists; (split; [reflexivity|]); repeat split; try lia; repeat constructor; lia.
Qed.

Lemma high_split l : exists v r, l = v ++ r /\ Forall high v /\ ~ starts high r.
Proof.
  induction l as [|b l (v & r & -> & Hv & Hr)].
  - exists [], []. split; [reflexivity|]. split; [constructor|]. intros (? & ? & ? & ?). discriminate.
  - destruct (N.le_gt_cases 128 b) as [H1|H1]; [destruct (N.le_gt_cases b 255) as [H2|H2]|].
    + exists (b :: v), r. split; [reflexivity|]. split; [constructor; [split; assumption|exact Hv]|exact Hr].
    + exists [], (b :: v ++ r). split; [reflexivity|]. split; [constructor|]. intros (y & t & E & Hy). injection E as -> _. unfold high, rng in Hy. lia.
    + exists [], (b :: v ++ r). split; [reflexivity|]. split; [constructor|]. intros (y & t & E & Hy). injection E as -> _. unfold high, rng in Hy. lia.
Qed.

Lemma last_split {A} (l : list A) : l = [] \/ exists i x, l = i ++ [x].
Proof. destruct l as [|a l] using rev_ind; [now left|right; eauto]. Qed.

Lemma binary_swallows pre w post ts cp : scalar cp -> 128 <= cp -> Lexes pre (ts ++ [(K_binary, w)]) -> is_bytes (pre ++ utf8_encode cp ++ post) ->
  exists v ts', Lexes (pre ++ utf8_encode cp ++ post) (ts ++ (K_binary, w ++ utf8_encode cp ++ v) :: ts').
Proof.
  intros Hs Hc L. destruct (enc_lead cp Hs Hc) as (h & t & EU & H1 & H2 & H3). pose proof (utf8_high cp Hs Hc) as HU.
  remember (utf8_encode cp) as u eqn:Eu. clear Eu.
  remember (ts ++ [(K_binary, w)]) as ts0 eqn:E0. revert ts E0. induction L as [|k w0 rest ts0 T L IH]; intros ts E0 Hb.
  - destruct ts; discriminate.
  - destruct ts as [|t0 ts]; cbn [app] in E0.
    + injection E0 as -> -> ->. inversion L; subst rest. rewrite app_nil_r in *. clear IH L.
      inversion T as [|w1 r1 Hw Hf Hr Hu| | | | | | | |]; subst w1 r1.
      destruct (high_split post) as (v & r & -> & Hv & Hr').
      assert (Hbr : is_bytes r) by (unfold is_bytes in *; rewrite !Forall_app in Hb; tauto).
      destruct (lexes_total r Hbr) as [ts' L'].
      exists v, ts'. replace (w ++ u ++ v ++ r) with ((w ++ u ++ v) ++ r) by now rewrite <- !app_assoc.
      constructor; [|exact L']. constructor; auto.
      * destruct w; [easy|discriminate].
      * rewrite !Forall_app. auto.
      * intros a r' Ha Ha' E. destruct (enc_lead a Ha Ha') as (h' & t' & E' & _ & _ & K).
        pose proof (Hu a) as Hu'. rewrite E' in *. rewrite <- !app_assoc, EU in E.
        destruct w as [|y w]; [easy|]. cbn [app] in E. injection E as <- E. symmetry in E.
        assert (Hh : ~ h < 192) by lia.
        destruct (prefix_before _ _ _ _ _ _ E K Hh) as (q & -> & _).
        apply (Hu' q Ha Ha'). cbn [app]. now rewrite app_nil_r.
    + injection E0 as <- E0. rewrite <- app_assoc in *. apply is_bytes_app in Hb as Hb'.
      destruct (IH ts E0) as (v & ts' & L'); [tauto|]. exists v, ts'. cbn [app]. constructor; [|exact L'].
      rewrite EU in *. cbn [app]. apply token_extend; [exact T|unfold high, rng; lia|].
      intros ->. subst ts0. assert (Q : ts ++ [(K_binary, w)] = []) by (apply (lexes_det []); [constructor|exact L|constructor]). destruct ts; discriminate.
Qed.

(** recognised if and only if it does not follow a binary run *)
Lemma C04_exact pre cp post ts : scalar cp -> 128 <= cp -> is_bytes (pre ++ utf8_encode cp ++ post) -> Lexes pre ts ->
  ((exists ts', Lexes (pre ++ utf8_encode cp ++ post) (ts ++ (K_utf8 cp, utf8_encode cp) :: ts')) <-> last_binary ts = false).
Proof.
  intros Hs Hc Hb L. split.
  - intros (ts' & L'). destruct (last_binary ts) eqn:E; [|reflexivity]. exfalso.
    destruct (last_split ts) as [->|(ts0 & [k w] & ->)]; [discriminate|].
    assert (k = K_binary) as ->.
    { unfold last_binary in E. rewrite map_app in E. cbn in E. rewrite last_last in E. now destruct k. }
    destruct (binary_swallows pre w post ts0 cp Hs Hc L Hb) as (v & ts2 & L2).
    pose proof (lexes_det _ _ _ Hb L' L2) as K. rewrite <- app_assoc in K. apply app_inv_head in K. cbn [app] in K. injection K as K K'.
    destruct (enc_lead cp Hs Hc) as (h & t & EU & _). rewrite EU in K.
    assert (length w = length (w ++ (h :: t) ++ v)) as Q by now rewrite <- K. rewrite !app_length in Q. cbn in Q. lia.
  - intros E. assert (Hp : is_bytes post) by (unfold is_bytes in *; rewrite !Forall_app in Hb; tauto).
    destruct (lexes_total post Hp) as [ts' L']. exists ts'. now apply utf8_recognised.
Qed.
