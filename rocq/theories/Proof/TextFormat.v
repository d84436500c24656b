(** The text formatter writes the lines of the specification *)
From Coq Require Import List Arith NArith ZArith Bool Lia.
From Verif.Model Require Import Base Ansi Strip Settings Segment Template Console Formatter Runner.
From Verif.Spec Require Import Numbers Terminal Sgr Lexical SgrParams Display Output.
From Verif.Proof Require Import BaseFacts TermFacts ClosingFacts LexFacts TokFacts PaintFacts DisplayFacts BinDisplay TextDisplay BufFacts BufHistory ConsoleFacts.
Import ListNotations.
Local Open Scope N_scope.

Definition Group (s : settings) (t : token) (segs : list segment) : Prop :=
  shows_text (tok_cells s t) (is_line_break t) segs /\ (is_line_break t = true -> exists g, segs = [g]).

Lemma lexes_tokens s ts : Lexes s ts -> Forall (fun t => exists rest, Token (fst t) (snd t) rest) ts.
Proof. induction 1 as [|k w rest ts HT H IH]; constructor; eauto. Qed.

Lemma toks_groups s e ts toks segs : Env s e -> binary_mode s = false ->
  Forall (fun t => exists rest, Token (fst t) (snd t) rest) ts -> Forall2 Coded ts toks -> toks_segs e ts = Ok segs ->
  exists gs, Forall2 (Group s) toks gs /\ segs = concat gs.
Proof.
  intros E B HT HC. revert segs. induction HC as [|[k w] [[k' w'] c] ts toks [H1 H2] HC IH]; intros segs HS; cbn [toks_segs] in HS.
  - injection HS as <-. exists []. auto.
  - injection H1 as <- <-. inversion HT as [|x l [rest Hx] HT']; subst. cbn [fst snd] in Hx.
    destruct (tok_segs e k w) as [a|] eqn:Ha; [|discriminate]. cbn [bind] in HS.
    destruct (toks_segs e ts) as [b|]; [|discriminate]. injection HS as <-.
    destruct (IH HT' b eq_refl) as (gs & G1 & ->). exists (a :: gs). split; [|reflexivity]. constructor; [|exact G1].
    split.
    + exact (text_tok s e k w rest a c E B Hx Ha H2).
    + destruct k; try discriminate. intros _. unfold tok_segs in Ha. cbn [tok_state bind tok_tpl] in Ha. injection Ha as <-. eexists. reflexivity.
Qed.

(** ** painting a list of segments *)
Lemma wraps_painted segs cs : Forall2 seg_shows segs cs -> Painted attrs0 (flat_map (wrap seg_processed_noop) segs) attrs0 (concat cs).
Proof.
  induction 1 as [|g c segs cs Hg H IH]; [constructor|]. cbn [flat_map concat]. eapply Painted_app; [|exact IH].
  unfold wrap, seg_processed_noop. destruct (no_formatting (seg_open g)) eqn:NF.
  - apply seg_shows_wrapped in Hg as K. rewrite (no_formatting_zeros _ NF (proj1 Hg)) in K. cbn [assemble app closing_seq closing_loop length] in K.
    now rewrite app_nil_r in K.
  - now apply seg_shows_wrapped.
Qed.
Lemma Painted_no10 a s a' cs : Painted a s a' cs -> ~ In 10 s -> ~ In 10 (map cell_char cs).
Proof.
  induction 1 as [a|a p s a' cs H IH|a c s a' cs Hc H IH]; intros K; [easy| |].
  - apply IH. intros L. apply K. apply in_or_app. now right.
  - cbn [map]. rewrite to_cell_char. intros [->|L]; [apply K; now left|]. apply IH; [|exact L]. intros M. apply K. now right.
Qed.
Lemma shows_no10 segs cs : Forall2 seg_shows segs cs -> Forall (fun g => seg_is_newline g = false) segs -> ~ In 10 (map cell_char (concat cs)).
Proof.
  induction 1 as [|g c segs cs Hg H IH]; intros HN; [easy|]. inversion HN; subst. cbn [concat]. rewrite map_app. intros K.
  apply in_app_or in K as [K|K]; [|now apply IH]. destruct Hg as (_ & a' & HP & _).
  apply (Painted_no10 _ _ _ _ HP); [|exact K]. intros L. assert (seg_is_newline g = true); [|congruence].
  unfold seg_is_newline. apply existsb_exists. exists 10. split; [exact L|reflexivity].
Qed.

Lemma ends_with_newline_snoc l c : ends_with_newline (l ++ [c]) = (c =? 10).
Proof.
  unfold ends_with_newline. rewrite rev_app_distr. cbn [rev app]. destruct (N.eqb_spec c 10) as [->|H]; [reflexivity|].
  destruct c as [|c]; [reflexivity|]. repeat (destruct c as [c|c|]; try reflexivity; try easy).
Qed.
Lemma ends_with_newline_none l : ~ In 10 l -> ends_with_newline l = false.
Proof.
  intros H. destruct l as [|x l] using rev_ind; [reflexivity|]. rewrite ends_with_newline_snoc. apply N.eqb_neq. intros ->. apply H. apply in_or_app. right. now left.
Qed.

(** ** lines of tokens and lines of segments *)
Definition no_break (t : token) : Prop := is_line_break t = false.

Lemma token_lines_none ts : Forall no_break ts -> token_lines ts = match ts with [] => [] | _ => [ts] end.
Proof.
  induction 1 as [|t ts Ht H IH]; [reflexivity|]. cbn [token_lines]. unfold no_break in Ht. rewrite Ht, IH. destruct ts; reflexivity.
Qed.
Lemma token_lines_break a t b : Forall no_break a -> is_line_break t = true -> token_lines (a ++ t :: b) = (a ++ [t]) :: token_lines b.
Proof.
  intros H Ht. induction H as [|x a Hx H IH]; cbn [app token_lines]; [now rewrite Ht|]. unfold no_break in Hx. now rewrite Hx, IH.
Qed.
Lemma split_tokens ts : Forall no_break ts \/ exists a t b, ts = a ++ t :: b /\ Forall no_break a /\ is_line_break t = true.
Proof.
  induction ts as [|x ts IH]; [left; constructor|]. destruct (is_line_break x) eqn:E.
  - right. exists [], x, ts. auto.
  - destruct IH as [IH|(a & t & b & -> & H & Ht)]; [left; now constructor|]. right. exists (x :: a), t, b. repeat split; auto.
Qed.
Lemma terminated_none ts : Forall no_break ts -> terminated ts = false.
Proof. intros H. unfold terminated. induction H as [|x ts Hx H IH]; [reflexivity|]. cbn. unfold no_break in Hx. now rewrite Hx. Qed.
Lemma terminated_break a t : is_line_break t = true -> terminated (a ++ [t]) = true.
Proof. intros H. unfold terminated. rewrite existsb_app. cbn. rewrite H. apply orb_true_r. Qed.

Definition all_cells (s : settings) (ts : list token) : list tcell := flat_map (fun t => fst (tok_cells s t) ++ snd (tok_cells s t)) ts.
Lemma pieces_snoc s a t : pieces_cells s (a ++ [t]) = all_cells s a ++ fst (tok_cells s t).
Proof.
  induction a as [|x a IH]; [reflexivity|]. cbn [app]. change (all_cells s (x :: a)) with ((fst (tok_cells s x) ++ snd (tok_cells s x)) ++ all_cells s a).
  rewrite <- !app_assoc, <- IH. cbn [pieces_cells]. destruct (a ++ [t]) eqn:E; [|reflexivity]. destruct a; discriminate.
Qed.

Lemma groups_plain s ts gs : Forall2 (Group s) ts gs -> Forall no_break ts ->
  Forall (fun g => seg_is_newline g = false) (concat gs) /\
  exists cs, Forall2 seg_shows (concat gs) cs /\ concat cs = map to_cell (all_cells s ts).
Proof.
  induction 1 as [|t g ts gs Hg H IH]; intros HN; [split; [constructor|exists []; split; [constructor|reflexivity]]|]. inversion HN as [|x l Hx HN']; subst.
  destruct (IH HN') as (I1 & cs & I2 & I3). destruct Hg as [(body & trail & bc & tc & -> & H1 & H2 & H3 & H4 & (l & x & -> & H5 & H6 & H7) & H8) _].
  cbn [concat]. unfold no_break in Hx. rewrite Hx in H6. split.
  - apply Forall_app. split; [|exact I1]. apply Forall_app. split; [apply Forall_app; auto|]. eapply Forall_impl; [|exact H8]. cbn beta. tauto.
  - exists ((bc ++ tc) ++ cs). split.
    + apply Forall2_app; [|exact I2]. now apply Forall2_app.
    + cbn [all_cells flat_map]. rewrite !concat_app, !map_app, H3, H4, I3. reflexivity.
Qed.

(** every group has bytes *)
Lemma group_raw s t g : Group s t g -> raw_of g <> [].
Proof.
  intros [(body & trail & bc & tc & -> & H1 & H2 & H3 & H4 & (l & x & -> & H5 & H6 & H7) & H8) _].
  rewrite !raw_of_app. cbn [raw_of flat_map]. rewrite app_nil_r. intros K. apply app_eq_nil in K as [K _]. now apply app_eq_nil in K as [_ K].
Qed.
Lemma groups_chain s ts gs : Forall2 (Group s) ts gs -> (length ts <= length (concat gs))%nat.
Proof.
  induction 1 as [|t g ts gs Hg H IH]; [auto|]. cbn [concat length]. rewrite app_length. apply group_raw in Hg. destruct g; [easy|]. cbn [length]. lia.
Qed.

(** ** the loop *)
Lemma text_line_painted s els ln fin cells segs cs (nl : bool) :
  format_elems seg_processed_noop els = flat_map (wrap seg_processed_noop) segs ->
  Forall2 seg_shows segs cs -> concat cs = map to_cell cells ->
  (if nl then exists l a, cells = l ++ [(10, a)] else ~ In 10 (map fst cells)) ->
  fin = cells ++ (if nl then [] else [(10, attrs0)]) ->
  Painted attrs0 (text_line s els ln) attrs0 (map to_cell (line_number_cells s ln ++ fin)).
Proof.
  intros HF H1 H2 Hnl ->. unfold text_line. rewrite HF. pose proof (wraps_painted _ _ H1) as P. rewrite H2 in P.
  rewrite (Painted_strip _ _ _ _ P), map_to_cell_char, app_assoc, to_cell_map_app.
  eapply Painted_app; [apply line_number_painted; exact P|]. destruct nl.
  - destruct Hnl as (l & a & ->). rewrite map_app. cbn [map fst]. rewrite ends_with_newline_snoc. constructor.
  - rewrite (ends_with_newline_none _ Hnl). apply Pt_chr; [easy|constructor].
Qed.

Lemma newline_cells_end s t : is_line_break t = true -> tok_bytes t <> [] -> exists l a, fst (tok_cells s t) = l ++ [(10, a)] /\ snd (tok_cells s t) = [].
Proof.
  unfold is_line_break, tok_cells, text_cells. destruct (tok_kind t) eqn:K; try discriminate. intros _ Hw. cbn [class_of is_escape_seq].
  destruct (s_ignore s CC_space).
  - destruct (tok_bytes t) as [|b w] using rev_ind; [easy|]. rewrite flat_map_app. cbn [flat_map fst snd app].
    exists (flat_map (fun _ : N => [(ignored_sign, ignored_style); (10, ignored_style)]) w ++ [(ignored_sign, ignored_style)]), ignored_style.
    rewrite <- app_assoc. auto.
  - exists [(marker s K_newline, plain_style s K_newline)], attrs0. auto.
Qed.

(** What the loop does with the segments of tokens [ts]: it writes all complete lines, at the
    end of the input also the rest. *)
Definition rest_after (closed : bool) (ts : list token) : list token := if closed then [] else
  (fix go ts := match ts with [] => [] | t :: r => if existsb is_line_break ts then go r else ts end) ts.
Definition done_lines (closed : bool) (ts : list token) : list (list token) :=
  if closed then token_lines ts else filter terminated (token_lines ts).

Lemma rest_none ts : Forall no_break ts -> rest_after false ts = ts.
Proof.
  intros H. unfold rest_after. destruct H as [|t ts Ht H]; [reflexivity|]. replace (existsb is_line_break (t :: ts)) with false; [reflexivity|].
  symmetry. apply (terminated_none (t :: ts)). now constructor.
Qed.
Lemma rest_break a t b : is_line_break t = true -> rest_after false (a ++ t :: b) = rest_after false b.
Proof.
  intros Ht. unfold rest_after. induction a as [|x a IH]; cbn [app].
  - cbn [existsb]. now rewrite Ht.
  - replace (existsb is_line_break (x :: a ++ t :: b)) with true; [exact IH|]. symmetry. apply existsb_exists. exists t.
    split; [right; apply in_or_app; right; now left|exact Ht].
Qed.
Lemma rest_no_break c ts : Forall no_break (rest_after c ts).
Proof.
  destruct c; [constructor|]. remember (length ts) as n eqn:Hn. revert ts Hn. induction n as [n IH] using lt_wf_ind. intros ts ->.
  destruct (split_tokens ts) as [H|(a & t & b & -> & H & Ht)]; [now rewrite rest_none|].
  rewrite rest_break by exact Ht. apply (IH (length b)); [|reflexivity]. rewrite app_length. cbn [length]. lia.
Qed.

Definition byteful (t : token) : Prop := tok_bytes t <> [].

Lemma concat_app_gs {A} (a b : list (list A)) : concat (a ++ b) = concat a ++ concat b.
Proof. apply concat_app. Qed.

Lemma text_loop_spec s : forall ts gs closed sb ln w fuel,
  Forall2 (Group s) ts gs -> Forall byteful ts -> Rep sb (concat gs) -> (length ts < fuel)%nat ->
  exists out sb' gs' extra, text_loop fuel s closed sb ln w = Fin (w ++ out, sb', ln + N.of_nat (length (done_lines closed ts))) /\
    Rows out (numbered s ln (done_lines closed ts)) /\
    Forall2 (Group s) (rest_after closed ts) gs' /\ Rep sb' (concat gs' ++ extra) /\ (closed = false -> extra = []) /\ raw_of extra = [].
Proof.
  intros ts. remember (length ts) as n eqn:Hn. revert ts Hn. induction n as [n IH] using lt_wf_ind. intros ts -> gs closed sb ln w fuel HG HB HR Hf.
  destruct fuel as [|fuel]; [lia|]. cbn [text_loop].
  pose proof (detach_line_spec sb (concat gs) closed seg_processed_noop HR) as D.
  destruct (split_tokens ts) as [HN|(a & t & b & -> & HN & Ht)].
  - (* no complete line *)
    destruct (groups_plain s ts gs HG HN) as (NL & cs & CS & CE).
    assert (SL : split_line (concat gs) = (concat gs, [], false)).
    { clear -NL. induction NL as [|g l Hg H IH]; [reflexivity|]. cbn [split_line]. now rewrite Hg, IH. }
    rewrite SL in D. rewrite app_nil_r in D.
    assert (TL : token_lines ts = match ts with [] => [] | _ => [ts] end) by now apply token_lines_none.
    destruct ts as [|t0 ts0].
    + inversion HG; subst. cbn [concat raw_of flat_map] in D. change (zlen (@nil N) =? 0)%Z with true in D. cbn iota in D. rewrite D.
      exists [], sb, [], []. rewrite app_nil_r. replace (done_lines closed []) with (@nil (list token)) by (destruct closed; reflexivity).
      replace (rest_after closed []) with (@nil token) by (destruct closed; reflexivity).
      split; [cbn [length]; now rewrite N.add_0_r|]. split; [apply Rows_nil|]. split; [constructor|]. auto.
    + set (ts := t0 :: ts0) in *.
      assert (RW : raw_of (concat gs) <> []).
      { inversion HG as [|x g l gs' Hg HG']; subst. cbn [concat]. rewrite raw_of_app. apply group_raw in Hg. intros K. apply app_eq_nil in K as [K _]. easy. }
      destruct (Z.eqb_spec (zlen (raw_of (concat gs))) 0) as [E|_]; [exfalso; apply zlen_nil in E; easy|]. cbn [orb] in D.
      destruct closed.
      * (* rest of the input *)
        destruct D as (p & r & out & sb' & D0 & D1 & D2 & D3 & D4 & D5 & D6 & D7). rewrite D3.
        assert (Hlast : exists a t, ts = a ++ [t]) by (destruct (exists_last (l := ts) ltac:(easy)) as (a & t & K); eauto).
        destruct Hlast as (a & t & Ets). rewrite Ets in HG, HN. apply Forall2_app_inv_l in HG as (ga & gt & HGa & HGt & ->).
        inversion HGt as [|x g l l' Hg Hnil]; subst. inversion Hnil; subst.
        apply Forall_app in HN as [HNa HNt]. destruct (groups_plain s a ga HGa HNa) as (NLa & csa & CSa & CEa).
        inversion HNt as [|x l Hx _]; subst. unfold no_break in Hx.
        pose proof Hg as Hg0.
        destruct Hg as [(body & trail & bc & tc & -> & G1 & G2 & G3 & G4 & (l & x & -> & G5 & G6 & G7) & G8) _].
        rewrite concat_app_gs in *. cbn [concat] in *. rewrite app_nil_r in *.
        assert (Rtr : raw_of trail = []) by (clear -G8; induction G8 as [|g l [Hg _] H IH]; [reflexivity|]; cbn [raw_of flat_map]; now rewrite Hg).
        assert (Zr : raw_of (concat ga ++ (l ++ [x]) ++ trail) = raw_of ((concat ga ++ l) ++ [x])).
        { rewrite app_assoc, raw_of_app, Rtr, app_nil_r. now rewrite <- app_assoc. }
        rewrite Zr in D0. replace (concat ga ++ (l ++ [x]) ++ trail) with (((concat ga ++ l) ++ [x]) ++ trail) in D0 by (rewrite <- !app_assoc; reflexivity).
        rewrite (cut_prefix_exact (concat ga ++ l) x trail G5) in D0. injection D0 as D0 <-. rewrite <- D0 in D6.
        assert (LP : Painted attrs0 (text_line s out ln) attrs0 (map to_cell (line_number_cells s ln ++ line_cells s (a ++ [t])))).
        { eapply (text_line_painted s out ln (line_cells s (a ++ [t])) (pieces_cells s (a ++ [t])) ((concat ga ++ l) ++ [x]) (csa ++ bc) false); eauto.
          - rewrite <- app_assoc. apply Forall2_app; [exact CSa|exact G1].
          - rewrite concat_app, CEa, G3, pieces_snoc, map_app. reflexivity.
          - rewrite <- map_to_cell_char, pieces_snoc, map_app, <- CEa, <- G3, <- concat_app.
            apply (shows_no10 ((concat ga ++ l) ++ [x])).
            + rewrite <- app_assoc. apply Forall2_app; assumption.
            + rewrite <- app_assoc. apply Forall_app. split; [exact NLa|]. apply Forall_app. split; [exact G7|]. constructor; [congruence|constructor].
          - unfold line_cells. rewrite terminated_none; [reflexivity|]. apply Forall_app. auto. }
        (* one more round: end of input *)
        destruct fuel as [|fuel]; [rewrite Ets, app_length in Hf; cbn [length] in Hf; lia|]. cbn [text_loop].
        pose proof (detach_line_spec sb' trail true seg_processed_noop D4) as D'.
        assert (SL' : split_line trail = (trail, [], false)).
        { clear -G8. induction G8 as [|g l [_ Hg] H IH]; [reflexivity|]. cbn [split_line]. now rewrite Hg, IH. }
        rewrite SL', Rtr in D'. change (zlen (@nil N) =? 0)%Z with true in D'. cbn iota in D'. rewrite D'.
        exists (text_line s out ln), sb', [], trail. unfold done_lines, rest_after. rewrite TL. cbn [length N.of_nat numbered].
        change ts with (t0 :: ts0) in *. rewrite Ets. split; [reflexivity|]. split; [now apply Rows_one|]. split; [constructor|]. split; [exact D4|]. split; [discriminate|exact Rtr].
      * rewrite D. exists [], sb, gs, []. rewrite !app_nil_r. unfold done_lines. rewrite TL. cbn [filter]. rewrite (terminated_none ts HN). cbn [length N.of_nat numbered].
        rewrite N.add_0_r, (rest_none ts HN). split; [reflexivity|]. split; [apply Rows_nil|]. auto.
  - (* a complete line *)
    apply Forall2_app_inv_l in HG as (ga & gt & HGa & HGt & ->). inversion HGt as [|x g l gb Hg HGb]; subst.
    apply Forall_app in HB as [HBa HBt]. inversion HBt as [|x l Hbt HBb]; subst.
    destruct Hg as [Sg Og]. destruct (Og Ht) as (x & ->).
    destruct (groups_plain s a ga HGa HN) as (NLa & csa & CSa & CEa).
    destruct Sg as (body & trail & bc & tc & Eb & G1 & G2 & G3 & G4 & (l & y & -> & G5 & G6 & G7) & G8).
    assert (l = [] /\ y = x /\ trail = []) as (-> & -> & ->).
    { destruct l as [|z l]; [cbn in Eb; injection Eb as -> Eb; auto|]. injection Eb as _ Eb. destruct l; discriminate. }
    cbn [app] in G1. inversion G2; subst. clear G2 G7 G8 Eb.
    assert (SL : split_line (concat (ga ++ [x] :: gb)) = (concat ga ++ [x], concat gb, true)).
    { rewrite concat_app. cbn [concat app]. apply split_line_here; [congruence|exact NLa]. }
    rewrite SL in D.
    assert (RW : raw_of (concat ga ++ [x]) <> []).
    { rewrite raw_of_app. cbn [raw_of flat_map]. rewrite app_nil_r. intros K. now apply app_eq_nil in K as [_ K]. }
    destruct (Z.eqb_spec (zlen (raw_of (concat ga ++ [x]))) 0) as [E|_]; [exfalso; apply zlen_nil in E; easy|]. cbn [orb] in D.
    destruct D as (p & r & out & sb' & D0 & D1 & D2 & D3 & D4 & D5 & D6 & D7). rewrite D3.
    rewrite (cut_prefix_exact (concat ga) x (concat gb) G5) in D0. injection D0 as <- <-.
    destruct (newline_cells_end s t Ht Hbt) as (lc & la & NE & NS).
    assert (LP : Painted attrs0 (text_line s out ln) attrs0 (map to_cell (line_number_cells s ln ++ line_cells s (a ++ [t])))).
    { eapply (text_line_painted s out ln (line_cells s (a ++ [t])) (pieces_cells s (a ++ [t])) (concat ga ++ [x]) (csa ++ bc) true); eauto.
      - apply Forall2_app; [exact CSa|exact G1].
      - rewrite concat_app, CEa, G3, pieces_snoc, map_app. reflexivity.
      - rewrite pieces_snoc, NE, app_assoc. eauto.
      - unfold line_cells. rewrite (terminated_break a t Ht), app_nil_r. reflexivity. }
    destruct (IH (length b) ltac:(rewrite app_length; cbn [length]; lia) b eq_refl gb closed sb' (ln + 1) (w ++ text_line s out ln) fuel HGb HBb D4
               ltac:(rewrite app_length in Hf; cbn [length] in Hf; lia)) as (out' & sb2 & gs' & extra & T1 & T2 & T3 & T4 & T5 & T6).
    exists (text_line s out ln ++ out'), sb2, gs', extra. rewrite T1.
    assert (DL : done_lines closed (a ++ t :: b) = (a ++ [t]) :: done_lines closed b).
    { unfold done_lines. rewrite (token_lines_break a t b HN Ht). destruct closed; [reflexivity|]. cbn [filter]. now rewrite (terminated_break a t Ht). }
    rewrite DL. cbn [length numbered]. split; [rewrite <- app_assoc; replace (ln + N.of_nat (S (length (done_lines closed b)))) with (ln + 1 + N.of_nat (length (done_lines closed b))) by lia; reflexivity|]. split.
    { now apply Rows_cons. }
    split; [|auto]. destruct closed; [exact T3|]. rewrite (rest_break a t b Ht). exact T3.
Qed.
