(** The table of character classes in the README *)
From Coq Require Import Ascii String.
From Coq Require Import List Arith NArith ZArith Bool Lia.
From Verif.Model Require Import Base Settings Reader Runner Options Render Process Args.
From Verif.Spec Require Import Utf8 Terminal Lexical Input Display Output Compare Dump Process Invocation CommandLine HelpExamples ReadmeTable.
From Verif.Proof Require Import RunClaims ProcessFacts ProcessClaims ReadBackFacts LookClaims ArgsMain HelpExamples.
Import ListNotations.
Local Open Scope N_scope.

Lemma lexes_token : forall x ts, Lexes x ts -> forall k y, In (k, y) ts -> exists rest, Token k y rest.
Proof.
  induction 1 as [|k y rest ts TK L IH]; intros k' y' I; [destruct I|]. destruct I as [I|I]; [|exact (IH _ _ I)]. injection I as <- <-. exists rest. exact TK.
Qed.
Lemma coded_in l toks : Forall2 Coded l toks -> forall t, In t toks -> exists ky, In ky l /\ Coded ky t.
Proof.
  induction 1 as [|ky t l toks C F IH]; intros u I; [destruct I|]. destruct I as [<-|I]; [exists ky; split; [now left|exact C]|].
  destruct (IH _ I) as (z & H1 & H2). exists z. split; [now right|exact H2].
Qed.
Lemma tokens_token chunks toks t : Tokens chunks toks -> In t toks -> exists rest, Token (tok_kind t) (tok_bytes t) rest.
Proof.
  intros (tss & F & C) I. destruct (coded_in _ _ C _ I) as ([k y] & H1 & H2). apply in_concat in H1 as (ts & H3 & H4).
  assert (LX : exists x, Lexes x ts). { clear - F H3. induction F as [|x u l r L F IH]; [destruct H3|]. destruct H3 as [<-|H3]; [now exists x|exact (IH H3)]. }
  destruct LX as (x & LX). destruct (lexes_token _ _ LX _ _ H4) as (rest & TK). exists rest.
  destruct H2 as [E _]. destruct t as [[k' y'] c]. cbn in E. injection E as <- <-. exact TK.
Qed.

Lemma row_of (c : char_class) : exists r, In r readme_table /\ row_class r = c.
Proof.
  apply Exists_exists. unfold readme_table. destruct c; repeat first [apply Exists_cons_hd; reflexivity|apply Exists_cons_tl].
Qed.
Lemma token_described k x rest r : Token k x rest -> In r readme_table -> row_class r = class_of k -> described_by r x.
Proof.
  intros TK I E. cbn in I. unfold described_by. rewrite E.
  destruct TK as [cp rest H1 H2|w rest H1 H2 H3 H4|p i f rest (H1 & H2 & H3)|i f rest (H1 & H2 & H3)|c rest H|c rest H H'|c rest H|rest H1 H2|rest|rk w rest H1 H2 H3]; cbn [class_of] in *.
  - exists cp. auto.
  - destruct I as [<-|[<-|[<-|[<-|[<-|[<-|[]]]]]]]; try discriminate E. eapply Forall_impl; [|exact H2]. intros b [? ?]. repeat first [apply Exists_cons_hd; cbn; lia|apply Exists_cons_tl].
  - exists (91 :: p ++ i ++ [f]). split; [reflexivity|]. split; [discriminate|]. constructor; [lia|]. repeat rewrite Forall_app. split; [|split].
    + eapply Forall_impl; [|exact H1]. intros b [? ?]. lia.
    + eapply Forall_impl; [|exact H2]. intros b [? ?]. lia.
    + destruct H3. constructor; [lia|constructor].
  - exists (i ++ [f]). split; [reflexivity|]. split; [now destruct i|]. rewrite Forall_app. split; [eapply Forall_impl; [|exact H2]; intros b [? ?]; lia|]. destruct H3. constructor; [lia|constructor].
  - destruct H. exists [c]. repeat split; try discriminate. constructor; [lia|constructor].
  - destruct H. exists [c]. repeat split; try discriminate. constructor; [lia|constructor].
  - destruct H. exists [c]. repeat split; try discriminate. constructor; [lia|constructor].
  - destruct I as [<-|[<-|[<-|[<-|[<-|[<-|[]]]]]]]; try discriminate E. constructor; [|constructor]. left. apply Exists_cons_tl, Exists_cons_hd. cbn. lia.
  - destruct I as [<-|[<-|[<-|[<-|[<-|[<-|[]]]]]]]; try discriminate E. constructor; [|constructor]. apply Exists_cons_hd. cbn. lia.
  - destruct I as [<-|[<-|[<-|[<-|[<-|[<-|[]]]]]]]; destruct rk; try discriminate E; (eapply Forall_impl; [|exact H2]); cbn; unfold rng; intros b Hb;
      unfold in_ranges; rewrite ?Exists_cons, ?Exists_nil; cbn [fst snd]; lia.
Qed.
Lemma tokens_described chunks toks t r : Tokens chunks toks -> In t toks -> In r readme_table -> row_class r = class_of (tok_kind t) -> described_by r (tok_bytes t).
Proof. intros T I R E. destruct (tokens_token _ _ _ T I) as (rest & TK). exact (token_described _ _ _ _ TK R E). Qed.

(** the flags *)
Ltac by_run opts N B BL T W s s1 HP HS R out E D :=
  let I := fresh "I" in
  match goal with |- exists out, main ?w ?argv = _ /\ _ =>
    assert (I : Invocation argv opts) by (apply invocation_computed; vm_compute; reflexivity); rewrite (main_invocation w _ _ I) end;
  settings_for opts s s1 HP HS;
  assert (R : reads_input opts) by (split; [|split]; not_in);
  match type of BL with Blocks _ ?content ?chunks => match type of T with Tokens _ ?toks => match type of N with Named ?w _ _ =>
    destruct (main_binary w opts s s1 content 4096 chunks toks (fitting_columns (w_columns w)) content HP R HS) as (out & E & D & _);
    [apply fit_ok; [reflexivity|reflexivity|reflexivity|exact W]|exact N|exact B|right; split; [now left|left; split; reflexivity]|discriminate
    |constructor; now left|apply blocks_process; [now left|now left|reflexivity|exact BL]|exact T|] end end end.
Lemma ignore_flag r : In r readme_table -> forall w content chunks toks, Named w None content -> is_bytes content -> Blocks 4096 content chunks -> Tokens chunks toks -> (48 <= w_columns w)%Z ->
  exists out, main w [txt "-b"; row_ignore r] = Some (mkApp (out ++ [10]) None (Some 0%Z)) /\
    displays out (binary_rows (as_binary None None false) (fitting_columns (w_columns w)) (flat_map (bytes_hidden (row_class r)) toks)).
Proof.
  intros IR w content chunks toks N B BL T W. cbn in IR. destruct IR as [<-|[<-|[<-|[<-|[<-|[<-|[]]]]]]]; cbn [row_ignore row_class].
  - by_run [O_binary; O_ignore CC_space] N B BL T W s s1 HP HS R out E D. exists out. rewrite E. split; [reflexivity|]. rewrite (rows_alike s1 (as_binary None None false)) in D by reflexivity.
    rewrite (byte_cells_with s1 (bytes_hidden CC_space)) in D; [exact D|]. intros [[k x] codes]. destruct k; try reflexivity. destruct r; reflexivity.
  - by_run [O_binary; O_ignore CC_control] N B BL T W s s1 HP HS R out E D. exists out. rewrite E. split; [reflexivity|]. rewrite (rows_alike s1 (as_binary None None false)) in D by reflexivity.
    rewrite (byte_cells_with s1 (bytes_hidden CC_control)) in D; [exact D|]. intros [[k x] codes]. destruct k; try reflexivity. destruct r; reflexivity.
  - by_run [O_binary; O_ignore CC_printable] N B BL T W s s1 HP HS R out E D. exists out. rewrite E. split; [reflexivity|]. rewrite (rows_alike s1 (as_binary None None false)) in D by reflexivity.
    rewrite (byte_cells_with s1 (bytes_hidden CC_printable)) in D; [exact D|]. intros [[k x] codes]. destruct k; try reflexivity. destruct r; reflexivity.
  - by_run [O_binary; O_ignore CC_esc] N B BL T W s s1 HP HS R out E D. exists out. rewrite E. split; [reflexivity|]. rewrite (rows_alike s1 (as_binary None None false)) in D by reflexivity.
    rewrite (byte_cells_with s1 (bytes_hidden CC_esc)) in D; [exact D|]. intros [[k x] codes]. destruct k; try reflexivity. destruct r; reflexivity.
  - by_run [O_binary; O_ignore CC_utf8] N B BL T W s s1 HP HS R out E D. exists out. rewrite E. split; [reflexivity|]. rewrite (rows_alike s1 (as_binary None None false)) in D by reflexivity.
    rewrite (byte_cells_with s1 (bytes_hidden CC_utf8)) in D; [exact D|]. intros [[k x] codes]. destruct k; try reflexivity. destruct r; reflexivity.
  - by_run [O_binary; O_ignore CC_binary] N B BL T W s s1 HP HS R out E D. exists out. rewrite E. split; [reflexivity|]. rewrite (rows_alike s1 (as_binary None None false)) in D by reflexivity.
    rewrite (byte_cells_with s1 (bytes_hidden CC_binary)) in D; [exact D|]. intros [[k x] codes]. destruct k; try reflexivity. destruct r; reflexivity.
Qed.
Lemma focus_flag r : In r readme_table -> forall w content chunks toks, Named w None content -> is_bytes content -> Blocks 4096 content chunks -> Tokens chunks toks -> (48 <= w_columns w)%Z ->
  exists out, main w [txt "-b"; row_focus r] = Some (mkApp (out ++ [10]) None (Some 0%Z)) /\
    displays out (binary_rows (as_binary None None false) (fitting_columns (w_columns w)) (flat_map (bytes_highlighted (row_class r)) toks)).
Proof.
  intros IR w content chunks toks N B BL T W. cbn in IR. destruct IR as [<-|[<-|[<-|[<-|[<-|[<-|[]]]]]]]; cbn [row_focus row_class].
  - by_run [O_binary; O_focus CC_space] N B BL T W s s1 HP HS R out E D. exists out. rewrite E. split; [reflexivity|]. rewrite (rows_alike s1 (as_binary None None false)) in D by reflexivity.
    rewrite (byte_cells_with s1 (bytes_highlighted CC_space)) in D; [exact D|]. intros [[k x] codes]. destruct k; try reflexivity. destruct r; reflexivity.
  - by_run [O_binary; O_focus CC_control] N B BL T W s s1 HP HS R out E D. exists out. rewrite E. split; [reflexivity|]. rewrite (rows_alike s1 (as_binary None None false)) in D by reflexivity.
    rewrite (byte_cells_with s1 (bytes_highlighted CC_control)) in D; [exact D|]. intros [[k x] codes]. destruct k; try reflexivity. destruct r; reflexivity.
  - by_run [O_binary; O_focus CC_printable] N B BL T W s s1 HP HS R out E D. exists out. rewrite E. split; [reflexivity|]. rewrite (rows_alike s1 (as_binary None None false)) in D by reflexivity.
    rewrite (byte_cells_with s1 (bytes_highlighted CC_printable)) in D; [exact D|]. intros [[k x] codes]. destruct k; try reflexivity. destruct r; reflexivity.
  - by_run [O_binary; O_focus CC_esc] N B BL T W s s1 HP HS R out E D. exists out. rewrite E. split; [reflexivity|]. rewrite (rows_alike s1 (as_binary None None false)) in D by reflexivity.
    rewrite (byte_cells_with s1 (bytes_highlighted CC_esc)) in D; [exact D|]. intros [[k x] codes]. destruct k; try reflexivity. destruct r; reflexivity.
  - by_run [O_binary; O_focus CC_utf8] N B BL T W s s1 HP HS R out E D. exists out. rewrite E. split; [reflexivity|]. rewrite (rows_alike s1 (as_binary None None false)) in D by reflexivity.
    rewrite (byte_cells_with s1 (bytes_highlighted CC_utf8)) in D; [exact D|]. intros [[k x] codes]. destruct k; try reflexivity. destruct r; reflexivity.
  - by_run [O_binary; O_focus CC_binary] N B BL T W s s1 HP HS R out E D. exists out. rewrite E. split; [reflexivity|]. rewrite (rows_alike s1 (as_binary None None false)) in D by reflexivity.
    rewrite (byte_cells_with s1 (bytes_highlighted CC_binary)) in D; [exact D|]. intros [[k x] codes]. destruct k; try reflexivity. destruct r; reflexivity.
Qed.

(** ** byte by byte *)
Lemma single_kind k x rest : Token k x rest -> Forall plain_byte x -> Forall (fun b => kind_of_byte b = k) x /\ forall cp, k <> K_utf8 cp.
Proof.
  intros TK H. unfold plain_byte in H.
  destruct TK as [cp rest H1 H2|w rest H1 H2 H3 H4|p i f rest H1|i f rest H1|c rest H1|c rest H1 H2|c rest H1|rest H1 H2|rest|rk w rest H1 H2 H3];
    try (exfalso; inversion H; lia).
  - exfalso. assert (X : exists b y, utf8_encode cp = b :: y /\ 128 <= b).
    { unfold utf8_encode. rewrite (proj2 (N.ltb_ge cp 128)) by lia. destruct (cp <? 2048); [|destruct (cp <? 65536)]; eexists; eexists; (split; [reflexivity|]); lia. }
    destruct X as (b & y & E & L). rewrite E in H. inversion H. lia.
  - exfalso. destruct w as [|b w]; [now apply H1|]. inversion H; inversion H2 as [|? ? [? ?]]. lia.
  - split; [|discriminate]. constructor; [reflexivity|constructor].
  - split; [|discriminate]. rewrite Forall_forall in *. intros b I. specialize (H b I). specialize (H2 b I). unfold kind_of_byte.
    destruct rk; cbn in H2; unfold rng in H2; try (subst b; reflexivity);
    repeat (match goal with |- context [?a =? ?c] => destruct (N.eqb_spec a c); [exfalso; lia|] | |- context [?a <? ?c] => destruct (N.ltb_spec a c); try (exfalso; lia) end); reflexivity.
Qed.
Lemma small_bytes : forall (P : N -> bool), forallb P (map N.of_nat (seq 0 128)) = true -> forall b, b < 128 -> P b = true.
Proof.
  intros P H b L. rewrite forallb_forall in H. apply H. apply in_map_iff. exists (N.to_nat b). split; [apply N2Nat.id|]. apply in_seq. lia.
Qed.
Lemma listed_class r b : In r readme_table -> b < 128 -> b <> 27 -> listed r b = is_class (row_class r) (class_of (kind_of_byte b)).
Proof.
  intros I L E. pose (P b := (b =? 27) || forallb (fun r => Bool.eqb (listed r b) (is_class (row_class r) (class_of (kind_of_byte b)))) readme_table).
  assert (H : P b = true) by (apply small_bytes; [vm_compute; reflexivity|exact L]). unfold P in H. rewrite (proj2 (N.eqb_neq b 27) E) in H. cbn [orb] in H.
  rewrite forallb_forall in H. now apply eqb_prop, H.
Qed.
Lemma piece_hidden r t rest : In r readme_table -> Token (tok_kind t) (tok_bytes t) rest -> Forall plain_byte (tok_bytes t) ->
  bytes_hidden (row_class r) t = map (byte_hidden r) (tok_bytes t).
Proof.
  intros I TK H. destruct (single_kind _ _ _ TK H) as [K U]. unfold plain_byte in H. destruct t as [[k x] codes]. cbn [tok_kind tok_bytes fst snd] in *.
  unfold bytes_hidden, hidden_bytes, ignored_bytes. cbn [tok_kind tok_bytes tok_codes fst snd].
  transitivity (map (fun b => if is_class (row_class r) (class_of k) then (b, ignored_sign, ignored_style) else byte_shown b) x).
  - destruct (is_class (row_class r) (class_of k)); [reflexivity|].
    assert (NE : is_escape_seq k = false) by (destruct k; try reflexivity; exfalso; inversion TK; subst; inversion H; lia).
    unfold binary_cells. cbn [with_ignore as_binary s_ignore]. rewrite NE.
    assert (X : forall b, In b x -> byte_shown b = (b, (match k with K_run R_printable => b | _ => marker plain k end), base_style k)).
    { intros b Ib. rewrite Forall_forall in K, H. specialize (K b Ib). specialize (H b Ib). unfold byte_shown. rewrite K. f_equal. f_equal.
      destruct ((33 <=? b) && (b <=? 126)) eqn:E.
      - apply andb_true_iff in E as [E1 E2]. apply N.leb_le in E1, E2. unfold kind_of_byte in K.
        repeat (match type of K with context [?a =? ?c] => destruct (N.eqb_spec a c); [exfalso; lia|] | context [?a <? ?c] => destruct (N.ltb_spec a c); [exfalso; lia|] end). now rewrite <- K.
      - destruct k as [| | | | | | | | |rk]; try reflexivity. destruct rk; try reflexivity. exfalso. inversion TK as [| | | | | | | | |? ? ? H1 H2 H3]. rewrite Forall_forall in H2. specialize (H2 b Ib). destruct H2 as [L1 L2].
        apply N.leb_le in L1, L2. rewrite L1, L2 in E. discriminate. }
    destruct k as [cp| | | | | | | | |rk]; try discriminate NE; try (exfalso; eapply U; reflexivity); try (apply map_ext_in; intros b Ib; rewrite (X b Ib); reflexivity).
    { destruct x as [|b x]; [reflexivity|]. exfalso. inversion K as [|? ? K1 _]. unfold kind_of_byte in K1. destruct (b =? 10); discriminate. }
    destruct rk; apply map_ext_in; intros b Ib; rewrite (X b Ib); reflexivity.
  - apply map_ext_in. intros b Ib. rewrite Forall_forall in K, H. specialize (K b Ib). destruct (H b Ib). unfold byte_hidden. now rewrite (listed_class r b I), K.
Qed.
Lemma flat_map_in {A B} (f g : A -> list B) l : (forall x, In x l -> f x = g x) -> flat_map f l = flat_map g l.
Proof. induction l as [|x l IH]; intros H; [reflexivity|]. cbn. rewrite (H x) by now left. now rewrite IH by (intros; apply H; now right). Qed.
Lemma map_flat {A B C} (f : B -> C) (g : A -> list B) l : flat_map (fun x => map f (g x)) l = map f (flat_map g l).
Proof. induction l as [|x l IH]; [reflexivity|]. cbn. now rewrite map_app, IH. Qed.
Lemma hidden_each r w : In r readme_table -> w_interrupted w = false -> Forall plain_byte (w_typed w) -> (48 <= w_columns w)%Z ->
  exists out, main w [txt "-b"; row_ignore r] = Some (mkApp (out ++ [10]) None (Some 0%Z)) /\
    displays out (binary_rows (as_binary None None false) (fitting_columns (w_columns w)) (map (byte_hidden r) (w_typed w))).
Proof.
  intros I NI H W. pose (cs := blocks_fuel (length (w_typed w)) 4096 (w_typed w)).
  assert (BL : Blocks 4096 (w_typed w) cs) by (apply blocks_ok; lia). destruct (Blocks_concat 4096 _ _ ltac:(lia) BL) as [C _].
  assert (B : is_bytes (w_typed w)) by (eapply Forall_impl; [|exact H]; cbn; intros b [? ?]; lia).
  destruct (RunExtra.plain_tokens cs) as (toks & T); [rewrite C; exact H|].
  destruct (ignore_flag r I w (w_typed w) cs toks) as (out & E & D); try assumption; [constructor; [now left|exact NI]|].
  exists out. split; [exact E|]. pose proof (ReadBackFacts.tokens_bytes _ _ T) as TB. rewrite C in TB.
  rewrite (flat_map_in _ (fun t => map (byte_hidden r) (tok_bytes t))) in D.
  - rewrite map_flat, TB in D. exact D.
  - intros t It. destruct (tokens_token _ _ _ T It) as (rest & TK). apply (piece_hidden r t rest I TK). apply Forall_forall. intros b Ib. rewrite Forall_forall in H. apply H. rewrite <- TB.
    apply in_flat_map. now exists t.
Qed.
Lemma class_described chunks toks t : Tokens chunks toks -> In t toks -> exists r, In r readme_table /\ row_class r = class_of (tok_kind t) /\ described_by r (tok_bytes t).
Proof. intros T I. destruct (row_of (class_of (tok_kind t))) as (r & R & E). exists r. split; [exact R|]. split; [exact E|]. exact (tokens_described _ _ _ _ T I R E). Qed.
Lemma rows_apart r1 r2 : In r1 readme_table -> In r2 readme_table -> row_class r1 = row_class r2 -> r1 = r2.
Proof.
  intros H1 H2 E. cbn in H1, H2. destruct H1 as [<-|[<-|[<-|[<-|[<-|[<-|[]]]]]]]; destruct H2 as [<-|[<-|[<-|[<-|[<-|[<-|[]]]]]]]; try discriminate E; reflexivity.
Qed.
Lemma null_and_delete b : b = 0 \/ b = 127 -> exists r toks, In r readme_table /\ row_class r = CC_control /\ ~ in_ranges (row_ranges r) b /\
  Tokens [[b]] toks /\ map (fun t => class_of (tok_kind t)) toks = [CC_control].
Proof.
  intros H. exists (mkRow CC_control [(0x01, 0x08); (0x0E, 0x1F)] (txt "-c") (txt "-C")), [(kind_of_byte b, [b], [])].
  split; [cbn; tauto|]. split; [reflexivity|]. split; [unfold in_ranges; cbn [row_ranges]; rewrite !Exists_cons, Exists_nil; cbn; lia|].
  destruct H as [->| ->]; (split; [|reflexivity]).
  - exists [[(K_run R_null, [0])]]. split; [|cbn; constructor; [split; reflexivity|constructor]]. constructor; [|constructor].
    change [0] with ([0] ++ []). apply (Lexes_cons _ [0] [] []); [|constructor]. constructor; [discriminate|constructor; [reflexivity|constructor]|intros (c & u & X & _); discriminate].
  - exists [[(K_run R_delete, [127])]]. split; [|cbn; constructor; [split; reflexivity|constructor]]. constructor; [|constructor].
    change [127] with ([127] ++ []). apply (Lexes_cons _ [127] [] []); [|constructor]. constructor; [discriminate|constructor; [reflexivity|constructor]|intros (c & u & X & _); discriminate].
Qed.

(** ** text mode *)
Ltac by_text opts f N B BL T s s1 HP HS R out E D :=
  let I := fresh "I" in
  match goal with |- exists out, main ?w ?argv = _ /\ _ =>
    assert (I : Invocation argv opts) by (apply invocation_computed; vm_compute; reflexivity); rewrite (main_invocation w _ _ I) end;
  settings_for opts s s1 HP HS;
  assert (R : reads_input opts) by (split; [|split]; not_in);
  match type of BL with Blocks _ ?content ?chunks => match type of T with Tokens _ ?toks => match type of N with Named ?w _ _ =>
    destruct (main_text w opts s s1 content 4096 chunks toks HP R HS) as (out & E & D);
    [reflexivity|exact N|exact B|right; split; [now left|left; split; reflexivity]|discriminate|apply blocks_process; [now left|now left|reflexivity|exact BL]|exact T|] end end end;
  exists out; rewrite E; split; [reflexivity|]; rewrite (numbered_with s1 (line_number_cells plain) f) in D; [exact D|reflexivity|];
  intros [[k x] codes]; destruct k; try reflexivity; match goal with r : run_kind |- _ => destruct r; reflexivity end.
Lemma ignore_text r : In r readme_table -> forall w content chunks toks, Named w None content -> is_bytes content -> Blocks 4096 content chunks -> Tokens chunks toks ->
  exists out, main w [row_ignore r] = Some (mkApp (out ++ [10]) None (Some 0%Z)) /\
    displays out (lines_with (line_number_cells plain) (hidden plain (is_class (row_class r))) 1 (token_lines toks)).
Proof.
  intros IR w content chunks toks N B BL T. cbn in IR. destruct IR as [<-|[<-|[<-|[<-|[<-|[<-|[]]]]]]]; cbn [row_ignore row_class].
  - by_text [O_ignore CC_space] (hidden plain (is_class CC_space)) N B BL T s s1 HP HS R out E D.
  - by_text [O_ignore CC_control] (hidden plain (is_class CC_control)) N B BL T s s1 HP HS R out E D.
  - by_text [O_ignore CC_printable] (hidden plain (is_class CC_printable)) N B BL T s s1 HP HS R out E D.
  - by_text [O_ignore CC_esc] (hidden plain (is_class CC_esc)) N B BL T s s1 HP HS R out E D.
  - by_text [O_ignore CC_utf8] (hidden plain (is_class CC_utf8)) N B BL T s s1 HP HS R out E D.
  - by_text [O_ignore CC_binary] (hidden plain (is_class CC_binary)) N B BL T s s1 HP HS R out E D.
Qed.
Lemma focus_text r : In r readme_table -> forall w content chunks toks, Named w None content -> is_bytes content -> Blocks 4096 content chunks -> Tokens chunks toks ->
  exists out, main w [row_focus r] = Some (mkApp (out ++ [10]) None (Some 0%Z)) /\
    displays out (lines_with (line_number_cells plain) (highlighted plain (is_class (row_class r))) 1 (token_lines toks)).
Proof.
  intros IR w content chunks toks N B BL T. cbn in IR. destruct IR as [<-|[<-|[<-|[<-|[<-|[<-|[]]]]]]]; cbn [row_focus row_class].
  - by_text [O_focus CC_space] (highlighted plain (is_class CC_space)) N B BL T s s1 HP HS R out E D.
  - by_text [O_focus CC_control] (highlighted plain (is_class CC_control)) N B BL T s s1 HP HS R out E D.
  - by_text [O_focus CC_printable] (highlighted plain (is_class CC_printable)) N B BL T s s1 HP HS R out E D.
  - by_text [O_focus CC_esc] (highlighted plain (is_class CC_esc)) N B BL T s s1 HP HS R out E D.
  - by_text [O_focus CC_utf8] (highlighted plain (is_class CC_utf8)) N B BL T s s1 HP HS R out E D.
  - by_text [O_focus CC_binary] (highlighted plain (is_class CC_binary)) N B BL T s s1 HP HS R out E D.
Qed.

(** ** highlighting byte by byte *)
Lemma plain_forms k x rest : Token k x rest -> Forall plain_byte x -> (k = K_newline /\ x = [10]) \/ exists rk, k = K_run rk /\ Forall (run_member rk) x.
Proof.
  intros TK H. destruct (single_kind _ _ _ TK H) as [_ U]. unfold plain_byte in H.
  destruct TK as [cp rest H1 H2|w rest H1 H2 H3 H4|p i f rest H1|i f rest H1|c rest H1|c rest H1 H2|c rest H1|rest H1 H2|rest|rk w rest H1 H2 H3];
    try (exfalso; inversion H; lia).
  - now destruct (U cp).
  - exfalso. destruct w as [|b w]; [now apply H1|]. inversion H; inversion H2 as [|? ? [? ?]]. lia.
  - now left.
  - right. now exists rk.
Qed.
Lemma in_printables b : rng 33 126 b -> (33 <=? b) && (b <=? 126) = true.
Proof. intros [H1 H2]. apply N.leb_le in H1, H2. now rewrite H1, H2. Qed.
Lemma not_printables b : b < 33 \/ 126 < b -> (33 <=? b) && (b <=? 126) = false.
Proof. intros [H|H]; apply N.leb_gt in H; rewrite H; [reflexivity|apply andb_false_r]. Qed.
Lemma piece_highlighted r t rest : In r readme_table -> Token (tok_kind t) (tok_bytes t) rest -> Forall plain_byte (tok_bytes t) ->
  bytes_highlighted (row_class r) t = map (byte_highlighted r) (tok_bytes t).
Proof.
  intros I TK H. destruct (single_kind _ _ _ TK H) as [K _]. pose proof (plain_forms _ _ _ TK H) as F. destruct t as [[k x] codes]. cbn [tok_kind tok_bytes fst snd] in *.
  assert (L : forall b, In b x -> listed r b = is_class (row_class r) (class_of k)).
  { intros b Ib. rewrite Forall_forall in K, H. specialize (K b Ib). destruct (H b Ib). now rewrite (listed_class r b I), K. }
  unfold bytes_highlighted, highlighted_bytes. cbn [tok_kind tok_bytes tok_codes fst snd as_binary s_ignore negb]. rewrite andb_true_r.
  destruct F as [[-> ->]|(rk & -> & F)].
  - cbn [map]. unfold byte_highlighted. rewrite (L 10) by now left. destruct (is_class (row_class r) (class_of K_newline)); reflexivity.
  - assert (X : forall b, In b x -> kind_of_byte b = K_run rk /\ run_member rk b) by (intros b Ib; rewrite Forall_forall in K, F; auto).
    clear K TK H F. set (q := is_class (row_class r) (class_of (K_run rk))) in *. clearbody q. destruct rk; destruct q;
      (apply map_ext_in; intros b Ib; unfold byte_highlighted; rewrite (L b Ib); unfold byte_shown; destruct (X b Ib) as [E M]; rewrite ?E; cbn in M;
       first [rewrite (in_printables b M)|rewrite (not_printables b) by (unfold rng in M; lia)]; try (subst b); try reflexivity;
       try (destruct (N.eqb_spec b 32) as [Z|Z]; [exfalso; unfold rng in M; lia|]); reflexivity).
Qed.
Lemma highlighted_each r w : In r readme_table -> w_interrupted w = false -> Forall plain_byte (w_typed w) -> (48 <= w_columns w)%Z ->
  exists out, main w [txt "-b"; row_focus r] = Some (mkApp (out ++ [10]) None (Some 0%Z)) /\
    displays out (binary_rows (as_binary None None false) (fitting_columns (w_columns w)) (map (byte_highlighted r) (w_typed w))).
Proof.
  intros I NI H W. pose (cs := blocks_fuel (length (w_typed w)) 4096 (w_typed w)).
  assert (BL : Blocks 4096 (w_typed w) cs) by (apply blocks_ok; lia). destruct (Blocks_concat 4096 _ _ ltac:(lia) BL) as [C _].
  assert (B : is_bytes (w_typed w)) by (eapply Forall_impl; [|exact H]; cbn; intros b [? ?]; lia).
  destruct (RunExtra.plain_tokens cs) as (toks & T); [rewrite C; exact H|].
  destruct (focus_flag r I w (w_typed w) cs toks) as (out & E & D); try assumption; [constructor; [now left|exact NI]|].
  exists out. split; [exact E|]. pose proof (ReadBackFacts.tokens_bytes _ _ T) as TB. rewrite C in TB.
  rewrite (flat_map_in _ (fun t => map (byte_highlighted r) (tok_bytes t))) in D.
  - rewrite map_flat, TB in D. exact D.
  - intros t It. destruct (tokens_token _ _ _ T It) as (rest & TK). apply (piece_highlighted r t rest I TK). apply Forall_forall. intros b Ib. rewrite Forall_forall in H. apply H. rewrite <- TB.
    apply in_flat_map. now exists t.
Qed.
