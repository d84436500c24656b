(** C05, C06, C10, C12, C16, C17: what is shown, for runs *)
From Coq Require Import List Arith NArith ZArith Bool Lia.
From Verif.Model Require Import Base Ansi Regex Settings Segment Template Parser Console Formatter Reader Runner.
From Verif.Spec Require Import Numbers Terminal Utf8 Lexical SgrParams Display Output Input Dump Fragments Compare.
From Verif.Proof Require Import BaseFacts RegexFacts TermFacts LexFacts TokFacts PaintFacts DisplayFacts BinDisplay TextDisplay TextFormat RunFacts ReaderFacts RunMain LexClaims RunClaims BinClaims TextClaims FragClaims.
Import ListNotations.
Local Open Scope N_scope.

(** ** C05 *)
Definition text_kind (t : kind * list N) : Prop := (exists cp, t = (K_utf8 cp, utf8_encode cp)) \/ (exists w, t = (K_run R_printable, w)).
Definition kind_text (t : kind * list N) : list N := match fst t with K_utf8 cp => [cp] | _ => snd t end.

Lemma ascii_prefix cps : Forall visible_char cps -> exists a b, cps = a ++ b /\ Forall (fun c => 33 <= c /\ c <= 126) a /\ (b = [] \/ exists c b', b = c :: b' /\ 128 <= c).
Proof.
  induction 1 as [|c cps (S & H1 & H2 & H3) H IH]; [exists [], []; auto|].
  destruct (N.ltb_spec c 128) as [L|L]; [|exists [], (c :: cps); split; [reflexivity|split; [constructor|right; eauto]]].
  destruct IH as (a & b & -> & A & B). exists (c :: a), b. split; [reflexivity|]. split; [constructor; [lia|exact A]|exact B].
Qed.
Lemma utf8_ascii a : Forall (fun c => 33 <= c /\ c <= 126) a -> utf8_text a = a.
Proof.
  induction 1 as [|c a Hc H IH]; [reflexivity|]. unfold utf8_text in *. cbn [flat_map]. rewrite IH. unfold utf8_encode. destruct (N.ltb_spec c 128); [reflexivity|lia].
Qed.
Lemma utf8_app a b : utf8_text (a ++ b) = utf8_text a ++ utf8_text b.
Proof. apply flat_map_app. Qed.
Lemma utf8_text_bytes cps : Forall visible_char cps -> is_bytes (utf8_text cps).
Proof.
  induction 1 as [|c cps (S & H1 & H2 & H3) H IH]; [constructor|]. unfold utf8_text in *. cbn [flat_map]. apply is_bytes_app. split; [|exact IH].
  destruct (N.ltb_spec c 128) as [L|L].
  - unfold utf8_encode. destruct (N.ltb_spec c 128); [|lia]. constructor; [lia|constructor].
  - eapply Forall_impl; [|apply (utf8_high c S L)]. unfold high, rng. intros; lia.
Qed.
Lemma lex_text cps ts : Forall visible_char cps -> Lexes (utf8_text cps) ts -> Forall text_kind ts /\ flat_map kind_text ts = cps.
Proof.
  intros H L. remember (utf8_text cps) as x eqn:E. revert cps H E.
  induction L as [|k w rest ts T L IH]; intros cps H E.
  - destruct cps as [|c cps]; [split; [constructor|reflexivity]|]. exfalso. unfold utf8_text in E. cbn [flat_map] in E. symmetry in E. apply app_eq_nil in E as [E _].
    unfold utf8_encode in E. destruct (c <? 128); [discriminate|]. destruct (c <? 2048); [discriminate|]. destruct (c <? 65536); discriminate.
  - pose proof (utf8_text_bytes cps H) as HB. rewrite <- E in HB.
    destruct cps as [|c cps]; [cbn in E; apply app_eq_nil in E as [E _]; apply token_nonempty in T; contradiction|].
    destruct (ascii_prefix _ H) as (a & b & Eab & A & B).
    destruct a as [|c0 a].
    + cbn [app] in Eab. destruct B as [->|(c' & b' & -> & B)]; [discriminate|]. injection Eab as <- <-. inversion H as [|? ? (S & _) H']; subst.
      unfold utf8_text in E. cbn [flat_map] in E. fold (utf8_text cps) in E.
      assert (T2 : Token (K_utf8 c) (utf8_encode c) (utf8_text cps)) by now constructor.
      destruct (token_det k w rest (K_utf8 c) (utf8_encode c) (utf8_text cps)) as (-> & -> & ->); auto.
      destruct (IH cps) as [I1 I2]; auto.
      split; [constructor; [left; eauto|exact I1]|]. cbn [flat_map]. now rewrite I2.
    + rewrite Eab, utf8_app, (utf8_ascii _ A) in E.
      assert (T2 : Token (K_run R_printable) (c0 :: a) (utf8_text b)).
      { constructor; [easy|exact A|]. destruct B as [->|(c' & b' & -> & B)]; [intros (? & ? & ? & _); discriminate|].
        rewrite Eab in H. apply Forall_app in H as [_ H]. inversion H as [|? ? (S & _) H']; subst.
        intros (x & t & E2 & Hx). pose proof (utf8_high c' S B) as U. unfold utf8_text in E2. cbn [flat_map] in E2.
        destruct (utf8_encode c') as [|h tl] eqn:EU; [destruct (enc_cons c' S B) as (? & ? & ? & _); congruence|]. cbn [app] in E2. injection E2 as <- _.
        inversion U; subst. unfold high, rng in *. cbn in Hx. unfold rng in Hx. lia. }
      destruct (token_det k w rest (K_run R_printable) (c0 :: a) (utf8_text b)) as (-> & -> & ->); auto.
      rewrite Eab in H. apply Forall_app in H as [_ H].
      destruct (IH b) as [I1 I2]; auto. split; [constructor; [right; eauto|exact I1]|]. cbn [flat_map]. rewrite I2, Eab. reflexivity.
Qed.

Definition bare (t : kind * list N) : token := (t, []).
Lemma text_tokens cpss : Forall (Forall visible_char) cpss ->
  exists ts, Tokens (map utf8_text cpss) (map bare ts) /\ Forall text_kind ts /\ flat_map kind_text ts = concat cpss.
Proof.
  induction 1 as [|cps cpss Hc H IH]; [exists []; repeat split; [apply tokens_nil|constructor]|].
  destruct IH as (ts & T & K & E). destruct (lexes_total _ (utf8_text_bytes cps Hc)) as [lx L]. destruct (lex_text cps lx Hc L) as [K1 E1].
  exists (lx ++ ts). rewrite map_app. cbn [map concat]. split; [|split; [now apply Forall_app|rewrite flat_map_app; congruence]].
  eapply tokens_cons; [exact L| |exact T]. clear -K1. induction K1 as [|t lx Ht K IH]; [constructor|]. cbn [map]. constructor; [|exact IH].
  split; [reflexivity|]. destruct Ht as [(cp & ->)|(w & ->)]; reflexivity.
Qed.
Lemma text_pieces s ts : s_ignore s CC_utf8 = false -> s_ignore s CC_printable = false -> Forall text_kind ts -> map fst (pieces_cells s (map bare ts)) = flat_map kind_text ts.
Proof.
  intros I1 I2. induction 1 as [|t ts Ht H IH]; [reflexivity|].
  assert (C : map fst (fst (tok_cells s (bare t))) = kind_text t /\ snd (tok_cells s (bare t)) = []).
  { destruct Ht as [(cp & ->)|(w & ->)]; unfold tok_cells, text_cells, bare; cbn [tok_kind tok_bytes tok_codes fst snd class_of is_escape_seq].
    - rewrite I1. split; reflexivity.
    - rewrite I2. cbn [fst snd]. split; [|reflexivity]. apply map_fst_styled. }
  destruct C as [C1 C2]. cbn [map flat_map]. destruct ts as [|t2 ts].
  - cbn [map pieces_cells flat_map]. now rewrite app_nil_r.
  - rewrite pieces_cons by easy. rewrite C2. cbn [app]. etransitivity; [apply map_app|]. exact (f_equal2 (@app N) C1 IH).
Qed.
Lemma text_one_line ts : ts <> [] -> Forall text_kind ts -> token_lines (map bare ts) = [map bare ts] /\ terminated (map bare ts) = false.
Proof.
  intros Hn H. assert (NB : Forall (fun t => is_line_break (bare t) = false) ts).
  { eapply Forall_impl; [|exact H]. intros t [(cp & ->)|(w & ->)]; reflexivity. }
  clear H. revert Hn. induction NB as [|t ts Ht NB IH]; intros Hn; [easy|]. cbn [map token_lines]. rewrite Ht. unfold terminated. cbn [existsb]. rewrite Ht.
  destruct ts as [|t2 ts]; [split; reflexivity|]. destruct IH as [I1 I2]; [easy|]. rewrite I1. split; [reflexivity|]. exact I2.
Qed.
Lemma text_exact s tc src evs cpss : opens src -> binary_mode s = false -> s_ignore s CC_utf8 = false -> s_ignore s CC_printable = false ->
  Forall (Forall visible_char) cpss -> concat cpss <> [] -> Processed s evs (map utf8_text cpss) -> Finishes s evs ->
  exists p acts, byteio_run s tc src evs = (p, acts, REnd) /\ visible (pr_out p) = map fst (line_number_cells s 1) ++ concat cpss ++ [10].
Proof.
  intros HS HB I1 I2 HV HN HP HE. destruct (text_tokens cpss HV) as (ts & T & K & E).
  destruct (text_eof s tc src evs _ _ HS HB HP HE T) as (p & acts & R & D). exists p, acts. split; [exact R|].
  rewrite (displays_visible _ _ D). unfold text_rows. destruct (text_one_line ts) as [L1 L2]; [intros ->; apply HN; now rewrite <- E|exact K|].
  rewrite L1. cbn [numbered concat]. rewrite app_nil_r. unfold line_cells. rewrite L2. etransitivity; [apply map_app|]. f_equal. etransitivity; [apply map_app|]. cbn [map fst].
  f_equal. rewrite <- E. now apply text_pieces.
Qed.

(** ** C06 *)
Lemma cuts_text s tc src1 src2 evs1 evs2 cs1 cs2 ts toks : opens src1 -> opens src2 -> binary_mode s = false ->
  Processed s evs1 cs1 -> Processed s evs2 cs2 -> Finishes s evs1 -> Finishes s evs2 ->
  Lexes (concat cs1) ts -> Cuts ts cs1 -> Cuts ts cs2 -> Tokens cs1 toks ->
  exists p1 p2 a1 a2, byteio_run s tc src1 evs1 = (p1, a1, REnd) /\ byteio_run s tc src2 evs2 = (p2, a2, REnd) /\ screen (pr_out p1) = screen (pr_out p2).
Proof.
  intros S1 S2 B P1 P2 E1 E2 L C1 C2 T.
  assert (HB : is_bytes (concat cs1)) by (apply Forall_concat; eapply processed_bytes; exact P1).
  destruct (cuts_same s cs1 cs2 ts toks HB L C1 C2 T) as (_ & toks2 & T2 & ER & _).
  destruct (text_eof s tc src1 evs1 _ _ S1 B P1 E1 T) as (p1 & a1 & R1 & [[D1 _] _]).
  destruct (text_eof s tc src2 evs2 _ _ S2 B P2 E2 T2) as (p2 & a2 & R2 & [[D2 _] _]).
  exists p1, p2, a1, a2. repeat split; auto. rewrite D1, D2, ER. reflexivity.
Qed.
Lemma cuts_binary s tc c src1 src2 evs1 evs2 cs1 cs2 ts toks : opens src1 -> opens src2 -> binary_ok s tc c ->
  Processed s evs1 cs1 -> Processed s evs2 cs2 -> Finishes s evs1 -> Finishes s evs2 ->
  Lexes (concat cs1) ts -> Cuts ts cs1 -> Cuts ts cs2 -> Tokens cs1 toks ->
  exists p1 p2 a1 a2, byteio_run s tc src1 evs1 = (p1, a1, REnd) /\ byteio_run s tc src2 evs2 = (p2, a2, REnd) /\ screen (pr_out p1) = screen (pr_out p2).
Proof.
  intros S1 S2 B P1 P2 E1 E2 L C1 C2 T.
  assert (HB : is_bytes (concat cs1)) by (apply Forall_concat; eapply processed_bytes; exact P1).
  destruct (cuts_same s cs1 cs2 ts toks HB L C1 C2 T) as (_ & toks2 & T2 & _ & ER).
  destruct (bin_eof s tc c src1 evs1 _ _ S1 B P1 E1 T) as (p1 & a1 & R1 & [[D1 _] _]).
  destruct (bin_eof s tc c src2 evs2 _ _ S2 B P2 E2 T2) as (p2 & a2 & R2 & [[D2 _] _]).
  exists p1, p2, a1, a2. repeat split; auto. rewrite D1, D2, ER. reflexivity.
Qed.
