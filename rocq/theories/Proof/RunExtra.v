(** Claims about runs, put together from the claims about what is displayed *)
From Coq Require Import List Arith NArith ZArith Bool Lia.
From Verif.Model Require Import Base Ansi Regex Settings Segment Template Parser Console Formatter Reader Runner Options.
From Verif.Spec Require Import Numbers Terminal Utf8 Lexical SgrParams Display Output Input Dump Fragments Compare.
From Verif.Proof Require Import BaseFacts LexFacts BinFormat RunMain LexClaims RunClaims BinClaims TextClaims FragClaims ShowClaims LookClaims MoreClaims ReaderFacts LexExtra ExampleFacts.
Import ListNotations.
Local Open Scope N_scope.

(** ** C06: plain data *)
Definition simple (t : kind * list N) : Prop := (exists r, fst t = K_run r) \/ (fst t = K_newline /\ snd t = [10]).
Lemma plain_simple d ts : Lexes d ts -> Forall plain_byte d -> Forall simple ts.
Proof.
  induction 1 as [|k w rest ts T L IH]; intros H; [constructor|]. apply Forall_app in H as [H1 H2]. constructor; [|now apply IH].
  unfold plain_byte in *.
  destruct T as [cp r Hs Hc|w r Hw Hf Hr Hu|p i f r Hc|i f r Hn|c r Hc|c r Hc Hn|c r Hc|r Hr Hn|r|k w r Hw Hm Hr]; try (inversion H1; lia).
  - exfalso. destruct (enc_cons cp Hs Hc) as (h & t & E & Hh). rewrite E in H1. inversion H1; subst. unfold high, rng in Hh. lia.
  - exfalso. destruct w; [easy|]. inversion H1; inversion Hf; subst. unfold high, rng in *. lia.
  - right. split; reflexivity.
  - left. exists k. reflexivity.
Qed.
Lemma simple_split ts : Forall simple ts -> Forall (fun t => snd t <> []) ts -> forall c rest, concat (map snd ts) = c ++ rest ->
  (exists a b, ts = a ++ b /\ c = concat (map snd a)) \/
  (exists a r w1 w2 b, ts = a ++ (K_run r, w1 ++ w2) :: b /\ w1 <> [] /\ w2 <> [] /\ c = concat (map snd a) ++ w1).
Proof.
  induction 1 as [|[k w] ts Ht H IH]; intros HN c rest E.
  - left. exists [], []. split; [reflexivity|]. cbn in *. destruct c; [reflexivity|discriminate].
  - inversion HN as [|? ? N1 N2]; subst. cbn [map concat snd] in *. specialize (IH N2).
    assert (SP : (exists c', c = w ++ c' /\ concat (map snd ts) = c' ++ rest) \/ (exists w2, w2 <> [] /\ w = c ++ w2)).
    { clear -E. revert w E. induction c as [|x c IH]; intros w E; [destruct w as [|y w]; [left; exists []; split; [reflexivity|exact E]|right; exists (y :: w); split; [discriminate|reflexivity]]|].
      destruct w as [|y w]; [left; exists (x :: c); split; [reflexivity|exact E]|]. cbn [app] in E. injection E as -> E.
      destruct (IH w E) as [(c' & -> & K)|(w2 & K & ->)]; [left; exists c'; split; [reflexivity|exact K]|right; exists w2; split; [exact K|reflexivity]]. }
    destruct SP as [(c' & -> & K)|(w2 & K & ->)].
    + destruct (IH c' rest K) as [(a & b & -> & ->)|(a & r & w1 & w2 & b & -> & K1 & K2 & ->)].
      * left. exists ((k, w) :: a), b. split; reflexivity.
      * right. exists ((k, w) :: a), r, w1, w2, b. cbn [map concat snd app]. rewrite app_assoc. auto.
    + destruct c as [|x c]; [left; exists [], ((k, w2) :: ts); split; reflexivity|].
      destruct Ht as [[r Ht]|[_ Ht]]; cbn [fst snd] in Ht.
      * subst k. right. exists [], r, (x :: c), w2, ts. repeat split; auto. discriminate.
      * exfalso. cbn [app] in Ht. injection Ht as _ Ht. apply app_eq_nil in Ht as [_ Ht]. contradiction.
Qed.
Lemma lexes_nonempty d ts : Lexes d ts -> Forall (fun t => snd t <> []) ts.
Proof. induction 1 as [|k w rest ts T L IH]; constructor; [|exact IH]. eapply token_nonempty. exact T. Qed.
Lemma plain_cuts cs : forall ts, Lexes (concat cs) ts -> Forall plain_byte (concat cs) -> Cuts ts cs.
Proof.
  induction cs as [|c cs IH]; intros ts L H; [inversion L as [|k w rest ts' T L' E]; [constructor|]; apply app_eq_nil in E as [-> _]; now apply token_nonempty in T|].
  cbn [concat] in *. pose proof (plain_simple _ _ L H) as S. pose proof (lexes_nonempty _ _ L) as NE. pose proof (lexes_concat _ _ L) as E. symmetry in E. apply Forall_app in H as [_ H].
  destruct (simple_split ts S NE _ _ E) as [(a & b & -> & ->)|(a & r & w1 & w2 & b & -> & K1 & K2 & ->)].
  - apply lexes_app_inv in L as (s2 & E2 & _ & L2). apply app_inv_head in E2. subst s2. apply Cuts_between. now apply IH.
  - apply lexes_snoc in L as (s2 & E2 & _ & L2); auto. apply app_inv_head in E2. subst s2. apply Cuts_within; auto.
Qed.
Lemma simple_coded ts : Forall simple ts -> Forall2 Coded ts (map (fun t => (t, [])) ts).
Proof.
  induction 1 as [|[k w] ts Ht H IH]; cbn [map]; constructor; [|exact IH]. split; [reflexivity|]. cbn. destruct Ht as [[r Ht]|[Ht _]]; cbn in Ht; subst k; reflexivity.
Qed.
Lemma plain_tokens cs : Forall plain_byte (concat cs) -> exists toks, Tokens cs toks.
Proof.
  induction cs as [|c cs IH]; intros H; [exists []; apply tokens_nil|]. cbn [concat] in H. apply Forall_app in H as [H1 H2].
  destruct (IH H2) as [t2 T2]. assert (B : is_bytes c) by (eapply Forall_impl; [|exact H1]; unfold plain_byte; intros; lia).
  destruct (lexes_total c B) as [lx L]. eexists. eapply tokens_cons; [exact L|apply simple_coded; eapply plain_simple; eassumption|exact T2].
Qed.

Lemma limited_det mb ml data d d' : Limited mb ml data d -> Limited mb ml data d' -> d = d'.
Proof.
  intros H H'. destruct (limited_within _ _ _ _ H) as (rb & rn & R1 & R2 & ->), (limited_within _ _ _ _ H') as (rb' & rn' & R1' & R2' & ->).
  assert (K : forall l r r', Remains l 0 r -> Remains l 0 r' -> r = r').
  { intros l [n|] [n'|] A A'; cbn in *; auto.
    - destruct A as (m & -> & A & _ & ->), A' as (m' & E & A' & _ & ->). injection E as ->. reflexivity.
    - destruct A as (m & -> & A & _ & ->). destruct A' as [A'|A']; [discriminate|]. injection A' as ->. lia.
    - destruct A' as (m & -> & A' & _ & ->). destruct A as [A|A]; [discriminate|]. injection A as ->. lia. }
  now rewrite (K _ _ _ R1 R1'), (K _ _ _ R2 R2').
Qed.
Lemma limited_plain (P : N -> Prop) mb ml data d : Limited mb ml data d -> Forall P data -> Forall P d.
Proof. intros H K. apply limited_prefix in H as [rest ->]. apply Forall_app in K. tauto. Qed.

Lemma plain_same s evs1 evs2 cs1 cs2 : Processed s evs1 cs1 -> Processed s evs2 cs2 -> concat (provided evs1) = concat (provided evs2) -> Forall plain_byte (concat (provided evs1)) ->
  exists ts toks, Lexes (concat cs1) ts /\ Cuts ts cs1 /\ Cuts ts cs2 /\ Tokens cs1 toks.
Proof.
  intros P1 P2 E H. pose proof (processed_data _ _ _ P1) as L1. pose proof (processed_data _ _ _ P2) as L2. rewrite <- E in L2.
  pose proof (limited_det _ _ _ _ _ L1 L2) as EC. pose proof (limited_plain _ _ _ _ _ L1 H) as H1.
  assert (B : is_bytes (concat cs1)) by (eapply Forall_impl; [|exact H1]; unfold plain_byte; intros; lia).
  destruct (lexes_total _ B) as [ts L]. destruct (plain_tokens cs1 H1) as [toks T]. exists ts, toks. split; [exact L|]. split; [now apply plain_cuts|]. split; [|exact T].
  apply plain_cuts; now rewrite <- EC.
Qed.
Lemma plain_text s tc src1 src2 evs1 evs2 cs1 cs2 : opens src1 -> opens src2 -> binary_mode s = false ->
  Processed s evs1 cs1 -> Processed s evs2 cs2 -> Finishes s evs1 -> Finishes s evs2 ->
  concat (provided evs1) = concat (provided evs2) -> Forall plain_byte (concat (provided evs1)) ->
  exists p1 p2 a1 a2, byteio_run s tc src1 evs1 = (p1, a1, REnd) /\ byteio_run s tc src2 evs2 = (p2, a2, REnd) /\ screen (pr_out p1) = screen (pr_out p2).
Proof.
  intros S1 S2 B P1 P2 F1 F2 E H. destruct (plain_same s evs1 evs2 cs1 cs2 P1 P2 E H) as (ts & toks & L & C1 & C2 & T).
  eapply cuts_text; eassumption.
Qed.
Lemma plain_binary s tc c src1 src2 evs1 evs2 cs1 cs2 : opens src1 -> opens src2 -> binary_ok s tc c ->
  Processed s evs1 cs1 -> Processed s evs2 cs2 -> Finishes s evs1 -> Finishes s evs2 ->
  concat (provided evs1) = concat (provided evs2) -> Forall plain_byte (concat (provided evs1)) ->
  exists p1 p2 a1 a2, byteio_run s tc src1 evs1 = (p1, a1, REnd) /\ byteio_run s tc src2 evs2 = (p2, a2, REnd) /\ screen (pr_out p1) = screen (pr_out p2).
Proof.
  intros S1 S2 B P1 P2 F1 F2 E H. destruct (plain_same s evs1 evs2 cs1 cs2 P1 P2 E H) as (ts & toks & L & C1 & C2 & T).
  eapply cuts_binary; eassumption.
Qed.
Lemma fragment_witness : exists s tc evs1 evs2 p1 a1 p2 a2, binary_mode s = false /\ provided evs1 = [[195; 169]] /\ provided evs2 = [[195]; [169]] /\
  byteio_run s tc SrcStdin evs1 = (p1, a1, REnd) /\ byteio_run s tc SrcStdin evs2 = (p2, a2, REnd) /\ visible (pr_out p1) <> visible (pr_out p2).
Proof.
  exists default_settings, 80%Z, [RData [195; 169]], [RData [195]; RData [169]]. do 4 eexists.
  split; [reflexivity|]. split; [reflexivity|]. split; [reflexivity|]. split; [vm_compute; reflexivity|]. split; [vm_compute; reflexivity|].
  vm_compute. discriminate.
Qed.

(** ** C07 *)
Lemma readable_codes k : readable k <-> exists codes, TokCodes k codes.
Proof.
  unfold readable, TokCodes. split.
  - intros H. destruct k as [cp| |p i f| | | | | | |r]; try (exists []; reflexivity). destruct (csi_sort p f) eqn:E; try (exists []; reflexivity). destruct (H p i f eq_refl E); eauto.
  - intros [codes H] p i f -> E. rewrite E in H. eauto.
Qed.
Lemma readable_tokens chunks : Forall is_bytes chunks ->
  (exists toks, Tokens chunks toks) <-> Forall (fun c => forall ts, Lexes c ts -> Forall (fun t => readable (fst t)) ts) chunks.
Proof.
  intros HB. rewrite <- good_tokens by exact HB. rewrite !Forall_forall. rewrite Forall_forall in HB. split.
  - intros H c Hc ts L. destruct (H c Hc) as (_ & lx & toks & L' & C). rewrite (lexes_det c ts lx (HB c Hc) L L').
    clear -C. induction C as [|t x l l' [E K] C IH]; constructor; auto. apply readable_codes. subst t. eauto.
  - intros H c Hc. split; [exact (HB c Hc)|]. destruct (lexes_total c (HB c Hc)) as [lx L]. specialize (H c Hc lx L). exists lx.
    assert (K : exists toks, Forall2 Coded lx toks).
    { clear -H. induction H as [|t l Ht H [toks IH]]; [exists []; constructor|]. apply readable_codes in Ht as [codes Ht]. exists ((t, codes) :: toks). constructor; [split; [reflexivity|exact Ht]|exact IH]. }
    destruct K as [toks K]. eauto.
Qed.
Lemma tokens_dec chunks : Forall is_bytes chunks -> (exists toks, Tokens chunks toks) \/ ~ exists toks, Tokens chunks toks.
Proof.
  intros HB. rewrite <- good_tokens by exact HB. induction HB as [|c cs Hc HB IH]; [left; constructor|].
  destruct (good_chunk_dec c Hc) as [G|G]; [|right; intros K; now inversion K]. destruct IH as [IH|IH]; [left; now constructor|right; intros K; now inversion K].
Qed.
(** both modes *)
Definition shows_something (s : settings) (tc : Z) : Prop := binary_mode s = true -> (0 <= columns s tc)%Z.
Lemma run_ok s tc src evs chunks : opens src -> shows_something s tc -> Processed s evs chunks -> Finishes s evs ->
  ((exists p acts, byteio_run s tc src evs = (p, acts, REnd)) <-> Forall (fun c => forall ts, Lexes c ts -> Forall (fun t => readable (fst t)) ts) chunks) /\
  ((exists p acts, byteio_run s tc src evs = (p, acts, REnd)) \/ (exists p acts, byteio_run s tc src evs = (p, acts, RError ValueError))).
Proof.
  intros HS HM HP HF. pose proof (processed_bytes _ _ _ HP) as HB. rewrite <- (readable_tokens chunks HB).
  assert (M : (binary_mode s = false) \/ (exists c, binary_ok s tc c) \/ (binary_mode s = true /\ columns s tc = 0%Z)).
  { destruct (binary_mode s) eqn:B; [|auto]. right. specialize (HM B). destruct (Z.eq_dec (columns s tc) 0) as [E|E]; [auto|]. left.
    exists (Z.to_nat (columns s tc)). split; [exact B|]. split; lia. }
  destruct (tokens_dec chunks HB) as [[toks T]|NT].
  - assert (R : exists p acts, byteio_run s tc src evs = (p, acts, REnd)).
    { destruct M as [M|[[c M]|[M1 M2]]].
      - destruct (text_eof s tc src evs chunks toks HS M HP HF T) as (p & acts & E & _). eauto.
      - destruct (bin_eof s tc c src evs chunks toks HS M HP HF T) as (p & acts & E & _). eauto.
      - destruct (zero_eof s tc src evs chunks toks HS M1 M2 HP HF T) as (p & acts & E & _). eauto. }
    split; [split; eauto|now left].
  - assert (R : exists p acts, byteio_run s tc src evs = (p, acts, RError ValueError)).
    { destruct M as [M|[[c M]|[M1 M2]]].
      - destruct (text_bad s tc src evs chunks HS M HP NT) as (p & acts & E & _). eauto.
      - destruct (bin_bad s tc c src evs chunks HS M HP NT) as (p & acts & E & _). eauto.
      - destruct (both_bad s tc src _ _ (zero_run_result s tc src HS M1 M2) evs chunks HP NT) as (p & acts & E & _). eauto. }
    split; [|now right]. split; [|intros; contradiction]. intros (p & acts & E). destruct R as (p' & acts' & E'). congruence.
Qed.
(** any ending *)
Lemma run_ends s tc src evs chunks p acts en : opens src -> shows_something s tc -> Processed s evs chunks -> byteio_run s tc src evs = (p, acts, en) ->
  en = REnd \/ en = RError ValueError \/ (en = RError OSError /\ ending_of evs = At_failure).
Proof.
  intros HS HM (H & d & HL & _) E.
  assert (M : exists so_far all, Result so_far all evs (first_bytes (length d) (provided evs)) (Stops (s_max_bytes s) (s_max_lines s) (concat (provided evs))) p en).
  { assert (K : forall so_far all, (forall evs d, Forall is_bytes (provided evs) -> Limited (s_max_bytes s) (s_max_lines s) (concat (provided evs)) d ->
      exists p acts en, byteio_run s tc src evs = (p, acts, en) /\ Result so_far all evs (first_bytes (length d) (provided evs)) (Stops (s_max_bytes s) (s_max_lines s) (concat (provided evs))) p en) ->
      exists so_far all, Result so_far all evs (first_bytes (length d) (provided evs)) (Stops (s_max_bytes s) (s_max_lines s) (concat (provided evs))) p en).
    { intros so_far all R. destruct (R evs d H HL) as (p' & a' & e' & E' & RR). exists so_far, all. rewrite E in E'. now injection E' as <- <- <-. }
    destruct (binary_mode s) eqn:B.
    - specialize (HM B). destruct (Z.eq_dec (columns s tc) 0) as [E0|E0].
      + eapply K. exact (zero_run_result s tc src HS B E0).
      + eapply K. apply (binary_run_result s tc (Z.to_nat (columns s tc)) src HS B); lia.
    - eapply K. intros evs' d'. exact (text_run_result s tc src HS B evs' d'). }
  destruct M as (so_far & all & []); auto.
Qed.
(** a number of more than 4300 digits is not read *)
Lemma long_number ds c : Forall ascii_digit ds -> 4300 < N.of_nat (length ds) -> ~ ParamCodes ds c.
Proof.
  intros HD HL H. rewrite Forall_forall in HD. unfold ascii_digit in HD.
  destruct H as [p c H1 H2|p c rest cs H1 H2 H3]; [|specialize (HD 59); rewrite in_app_iff in HD; cbn in HD; lia].
  destruct H2 as [|e sub H3 H4 H5 [->|[r ->]]]; [cbn in HL; lia|rewrite app_nil_r in HL; lia|].
  specialize (HD 58). rewrite in_app_iff in HD. cbn in HD. lia.
Qed.
Definition long_sgr (ds : list N) : list N := 27 :: 91 :: ds ++ [109].
Lemma long_sgr_lexes ds : Forall ascii_digit ds -> Lexes (long_sgr ds) [(K_csi ds [] 109, 27 :: 91 :: ds ++ [] ++ [109])].
Proof.
  intros HD. unfold long_sgr. change (27 :: 91 :: ds ++ [109]) with (27 :: 91 :: ds ++ [] ++ [109]). rewrite <- (app_nil_r (27 :: 91 :: ds ++ [] ++ [109])) at 1.
  constructor; [|constructor]. apply Tok_csi. split; [|split; [constructor|unfold rng; lia]].
  eapply Forall_impl; [|exact HD]. intros c. unfold ascii_digit, rng. lia.
Qed.
Lemma long_sgr_bytes ds : Forall ascii_digit ds -> is_bytes (long_sgr ds).
Proof.
  intros HD. unfold long_sgr. constructor; [lia|]. constructor; [lia|]. apply Forall_app. split; [|repeat constructor].
  eapply Forall_impl; [|exact HD]. intros c. unfold ascii_digit. lia.
Qed.
Lemma long_sgr_run s tc src evs ds : opens src -> shows_something s tc -> Processed s evs [long_sgr ds] -> Finishes s evs -> Forall ascii_digit ds ->
  (N.of_nat (length ds) <= 4300 -> exists p acts, byteio_run s tc src evs = (p, acts, REnd)) /\
  (4300 < N.of_nat (length ds) -> exists p acts, byteio_run s tc src evs = (p, acts, RError ValueError)).
Proof.
  intros HS HM HP HF HD. destruct (run_ok s tc src evs _ HS HM HP HF) as [E R]. split; intros HL.
  - apply E. constructor; [|constructor]. intros ts L.
    rewrite (lexes_det _ _ _ (long_sgr_bytes ds HD) L (long_sgr_lexes ds HD)). constructor; [|constructor]. cbn [fst].
    intros p i f K S. injection K as <- <- <-. destruct ds as [|x ds]; [discriminate S|].
    exists [num_value 10 (map (fun c => c - 48) (x :: ds))]. apply PC_last.
    + rewrite Forall_forall in HD. intros K. apply HD in K. unfold ascii_digit in K. lia.
    + rewrite <- (app_nil_r (x :: ds)) at 1. apply Part_number; [discriminate|exact HD|exact HL|now left].
  - destruct R as [R|R]; [exfalso|exact R].
    apply E in R. inversion R as [|x l R1 _]. subst.
    specialize (R1 _ (long_sgr_lexes ds HD)). inversion R1 as [|x l R2 _]. subst. cbn [fst] in R2.
    destruct (R2 ds [] 109 eq_refl) as [c C]; [destruct ds as [|x [|y ds]]; [cbn in HL; lia|cbn in HL; lia|reflexivity]|]. exact (long_number ds c HD HL C).
Qed.
Lemma long_sgr_processed ds : Forall ascii_digit ds -> Processed default_settings [RData (long_sgr ds)] [long_sgr ds] /\ Finishes default_settings [RData (long_sgr ds)].
Proof.
  intros HD. split; [|now left]. split; [constructor; [now apply long_sgr_bytes|constructor]|].
  exists (long_sgr ds ++ []). split; [apply Lim_none; now left|]. rewrite app_nil_r. change (provided _) with [long_sgr ds]. cbn [first_bytes]. now rewrite Nat.leb_refl.
Qed.
Lemma zeros_digits n : Forall ascii_digit (repeat 48 n).
Proof. apply Forall_forall. intros c H. apply repeat_spec in H. subst. split; lia. Qed.

Lemma sgr_private_witness : exists s tc evs, binary_mode s = false /\ provided evs = [[65; 10; 27; 91; 62; 52; 109]] /\ ending_of evs = At_eof /\
  exists p acts, byteio_run s tc SrcStdin evs = (p, acts, RError ValueError) /\ pr_out p = [].
Proof.
  exists default_settings, 80%Z, [RData [65; 10; 27; 91; 62; 52; 109]]. split; [reflexivity|]. split; [reflexivity|]. split; [reflexivity|].
  eexists. eexists. split; vm_compute; reflexivity.
Qed.
Lemma sgr_private_binary_witness : exists s tc evs, binary_mode s = true /\ provided evs = [[27; 91; 62; 52; 109]] /\ ending_of evs = At_eof /\
  exists p acts, byteio_run s tc SrcStdin evs = (p, acts, RError ValueError).
Proof.
  exists (bin_columns 4), 80%Z, [RData [27; 91; 62; 52; 109]]. split; [reflexivity|]. split; [reflexivity|]. split; [reflexivity|].
  eexists. eexists. vm_compute; reflexivity.
Qed.

(** ** C12 *)
Lemma lost_details_witness : exists s tc evs p acts, binary_mode s = false /\ provided evs = [[1]] /\ ending_of evs = At_eof /\
  byteio_run s tc SrcStdin evs = (p, acts, REnd) /\ visible (pr_out p) = [32; 49; 0x2502; 0x2C6F; 10] /\
  trailing s [(K_run R_control, [1], [])] <> [].
Proof.
  exists (text_marked 1), 80%Z, [RData [1]]. do 2 eexists. split; [reflexivity|]. split; [reflexivity|]. split; [reflexivity|].
  split; [vm_compute; reflexivity|]. split; [vm_compute; reflexivity|]. vm_compute. discriminate.
Qed.

(** ** C22-C24 *)
Lemma dump_run s tc c src evs chunks toks : opens src -> binary_ok s tc c -> Processed s evs chunks -> Finishes s evs -> Tokens chunks toks ->
  exists p acts, byteio_run s tc src evs = (p, acts, REnd) /\ displays (pr_out p) (binary_rows s c (byte_cells s toks)) /\
    read_dump s c (visible (pr_out p)) = concat chunks.
Proof.
  intros HS HO HP HF HT. destruct (bin_eof s tc c src evs chunks toks HS HO HP HF HT) as (p & acts & E & D). exists p, acts. split; [exact E|]. split; [exact D|].
  eapply dump_back; eauto; [apply HO|eapply processed_bytes; exact HP].
Qed.
Lemma offset_run s tc c src evs chunks toks : opens src -> binary_ok s tc c -> Processed s evs chunks -> Finishes s evs -> Tokens chunks toks -> with_offsets s = true ->
  exists p acts, byteio_run s tc src evs = (p, acts, REnd) /\
    forall i line, nth_error (data_lines s (visible (pr_out p))) i = Some line -> N.of_nat (i * c) < offset_bound s -> read_offset s line = Some (N.of_nat (i * c)).
Proof.
  intros HS HO HP HF HT HW. destruct (bin_eof s tc c src evs chunks toks HS HO HP HF HT) as (p & acts & E & D). exists p, acts. split; [exact E|].
  intros i line Hn Hb. eapply offset_column; eauto. apply HO.
Qed.
Lemma total_run s tc c src evs chunks toks : opens src -> binary_ok s tc c -> Processed s evs chunks -> Finishes s evs -> Tokens chunks toks -> with_offsets s = true ->
  N.of_nat (length (concat chunks)) < offset_bound s ->
  exists p acts, byteio_run s tc src evs = (p, acts, REnd) /\ read_offset s (last (text_lines (visible (pr_out p))) []) = Some (N.of_nat (length (concat chunks))).
Proof.
  intros HS HO HP HF HT HW HB. destruct (bin_eof s tc c src evs chunks toks HS HO HP HF HT) as (p & acts & E & D). exists p, acts. split; [exact E|].
  apply (total_back s c chunks toks); auto. apply HO.
Qed.

Lemma repeat_A n : Forall plain_byte (repeat 65 n).
Proof. apply Forall_forall. intros x H. apply repeat_spec in H. subst x. split; [lia|easy]. Qed.
Lemma one_chunk s c : is_bytes c -> c <> [] -> no_limit (s_max_bytes s) -> no_limit (s_max_lines s) -> Processed s [RData c] [c].
Proof.
  intros Hb Hc H1 H2. destruct c as [|b c]; [easy|]. split; [constructor; [exact Hb|constructor]|]. exists (b :: c). split.
  - cbn [provided concat]. rewrite app_nil_r. now apply Lim_none.
  - cbn [provided first_bytes]. rewrite Nat.leb_refl. reflexivity.
Qed.
(** a large input: the total size is not the one shown *)
Lemma total_wrong : exists s tc evs, binary_ok s tc 16 /\ with_offsets s = true /\ ending_of evs = At_eof /\ N.of_nat (length (concat (provided evs))) = 1000000 /\
  exists p acts, byteio_run s tc SrcStdin evs = (p, acts, REnd) /\ read_offset s (last (text_lines (visible (pr_out p))) []) = Some 3906.
Proof.
  remember (N.to_nat 1000000) as n eqn:En. assert (N0 : n <> 0%nat) by lia. assert (EN : N.of_nat n = 1000000) by lia. clear En. set (d := repeat 65 n).
  assert (Hd : d <> []) by (unfold d; destruct n; [easy|discriminate]).
  assert (Hb : is_bytes d) by (eapply Forall_impl; [|apply repeat_A]; unfold plain_byte; intros; lia).
  exists (bin_columns 16), 80%Z, [RData d].
  assert (PD : provided [RData d] = [d]) by (destruct d; [easy|reflexivity]).
  assert (HO : binary_ok (bin_columns 16) 80 16) by (repeat split; lia).
  assert (HP : Processed (bin_columns 16) [RData d] [d]) by (apply one_chunk; auto; now left).
  destruct (plain_tokens [d]) as [toks T]; [cbn [concat]; rewrite app_nil_r; apply repeat_A|].
  assert (HE : ending_of [RData d] = At_eof) by (destruct d; reflexivity).
  split; [exact HO|]. split; [reflexivity|]. split; [exact HE|]. split; [rewrite PD; cbn [concat]; rewrite app_nil_r; unfold d; now rewrite repeat_length|].
  destruct (bin_eof (bin_columns 16) 80 16 SrcStdin _ _ _ (or_introl eq_refl) HO HP (or_introl HE) T) as (p & acts & E & D). exists p, acts. split; [exact E|].
  destruct (total_row (bin_columns 16) 16 _ _ _ ltac:(lia) T eq_refl D) as (lines & ->). rewrite last_last. cbn [concat]. rewrite app_nil_r.
  unfold d. rewrite repeat_length, EN. vm_compute. reflexivity.
Qed.
Lemma read_offset_front s a b : length a = 8%nat -> read_offset s (a ++ b) = read_offset s a.
Proof. intros H. unfold read_offset. rewrite firstn_app, H. cbn [Nat.sub firstn]. now rewrite app_nil_r. Qed.
Lemma offset_wrong : exists s tc c evs, binary_ok s tc c /\ with_offsets s = true /\ ending_of evs = At_eof /\
  exists p acts line, byteio_run s tc SrcStdin evs = (p, acts, REnd) /\ nth_error (data_lines s (visible (pr_out p))) 1 = Some line /\
    N.of_nat (1 * c) = 1000000 /\ read_offset s line = Some 3906.
Proof.
  remember (N.to_nat 1000000) as n eqn:En. assert (N0 : n <> 0%nat) by lia. assert (EN : N.of_nat n = 1000000) by lia. clear En. set (d := repeat 65 (S n)).
  assert (Hb : is_bytes d) by (eapply Forall_impl; [|apply repeat_A]; unfold plain_byte; intros; lia).
  set (s := bin_columns 1000000). exists s, 80%Z, n, [RData d].
  assert (HO : binary_ok s 80 n).
  { split; [reflexivity|]. split; [|lia]. change (columns s 80) with 1000000%Z. lia. }
  assert (HP : Processed s [RData d] [d]) by (apply one_chunk; [exact Hb|discriminate|now left|now left]).
  destruct (plain_tokens [d]) as [toks T]; [cbn [concat]; rewrite app_nil_r; apply repeat_A|].
  split; [exact HO|]. split; [reflexivity|]. split; [reflexivity|].
  destruct (bin_eof s 80 n SrcStdin _ _ _ (or_introl eq_refl) HO HP (or_introl eq_refl) T) as (p & acts & E & D). exists p, acts.
  assert (L : length (byte_cells s toks) = S n) by (rewrite (byte_cells_length s _ _ T); cbn [concat]; rewrite app_nil_r; unfold d; apply repeat_length).
  assert (LR : data_lines s (visible (pr_out p)) = map (fun r => removelast (map fst r)) (rows_cells s n 0 (groups n (byte_cells s toks)))).
  { rewrite (displays_visible _ _ D). apply data_lines_rows; [lia|]. eapply byte_cells_chars. exact T. }
  assert (GC : exists g1 g2 gs, groups n (byte_cells s toks) = g1 :: g2 :: gs /\ length g1 = n).
  { destruct (byte_cells s toks) as [|x l] eqn:El; [discriminate|]. rewrite groups_cons by (try discriminate; lia).
    assert (K : exists y z, skipn n (x :: l) = y :: z).
    { assert (length (skipn n (x :: l)) = 1%nat) as K by (rewrite skipn_length, L; lia). destruct (skipn n (x :: l)) as [|y z]; [discriminate|eauto]. }
    destruct K as (y & z & K). rewrite K. rewrite (groups_cons n (y :: z)) by (try discriminate; lia). do 3 eexists. split; [reflexivity|]. rewrite firstn_length, L. lia. }
  destruct GC as (g1 & g2 & gs & GC & L1). exists (removelast (map fst (row_cells s n 1000000 g2))).
  split; [exact E|]. split; [|split; [lia|]].
  - rewrite LR, GC. cbn [rows_cells map nth_error]. rewrite L1, EN. reflexivity.
  - unfold row_cells. change (with_offsets s) with true. cbv iota. rewrite <- !app_assoc, map_app. rewrite removelast_app by (cbn [app map]; easy).
    etransitivity; [apply read_offset_front; rewrite map_length; apply offset_cells_length|]. vm_compute. reflexivity.
Qed.

(** ** C25 *)
Lemma rows_so_far_form s c l : (0 < c)%nat -> Forall (fun x : bcell => snd (fst x) <> 10) l ->
  Forall (fun r : list tcell => exists x, map fst r = x ++ [10] /\ Forall (fun c => c <> 10) x) (binary_rows_so_far s c l).
Proof. intros Hc H. unfold binary_rows_so_far. apply rows_form, groups_Forall; [exact Hc|]. now apply firstn_Forall'. Qed.
Lemma rows_so_far_length s c l : (0 < c)%nat -> Forall (fun y : bcell => fst (fst y) < 256) l ->
  Forall (fun r : list tcell => (length r <= offset_width s + 4 * c + 3)%nat) (binary_rows_so_far s c l).
Proof.
  intros Hc H. unfold binary_rows_so_far. apply rows_length; [now apply groups_length|]. apply groups_Forall; [exact Hc|]. now apply firstn_Forall'.
Qed.
Lemma prefix_bytes chunks cs (rest : list N) : Forall is_bytes chunks -> concat chunks = concat cs ++ rest -> Forall is_bytes cs.
Proof.
  intros H E. assert (B : is_bytes (concat chunks)) by now apply Forall_concat. rewrite E in B. apply is_bytes_app in B as [B _]. now apply concat_Forall.
Qed.
Lemma width_run s tc c src evs chunks p acts en : opens src -> s_columns s = None -> binary_ok s tc c -> Processed s evs chunks -> byteio_run s tc src evs = (p, acts, en) ->
  Forall (fun l => (Z.of_nat (length l) <= tc)%Z) (text_lines (visible (pr_out p))).
Proof.
  intros HS HN HO HP E. destruct (bin_any s tc c src evs chunks HS HO HP) as (p' & a' & e' & cs & toks & rows & rest & E' & HT & HR & EC & D).
  rewrite E in E'. injection E' as <- <- <-. pose proof (processed_bytes _ _ _ HP) as HB. pose proof (prefix_bytes _ _ _ HB EC) as HBc.
  destruct HO as (B & HC & Hc). pose proof (auto_width s tc c HN HC Hc) as W. pose proof (byte_cells_chars s cs toks HT) as CH. pose proof (is_bytes_cells s cs toks HBc HT) as IB.
  assert (F : Forall (fun r : list tcell => exists x, map fst r = x ++ [10] /\ Forall (fun c => c <> 10) x) rows).
  { destruct HR as [->| ->]; [now apply rows_so_far_form|now apply binary_rows_form]. }
  assert (L : Forall (fun r : list tcell => (length r <= offset_width s + 4 * c + 3)%nat) rows).
  { destruct HR as [->| ->]; [now apply rows_so_far_length|now apply (binary_rows_length s c cs toks)]. }
  rewrite (displays_visible _ _ D), lines_of_rows by exact F.
  apply Forall_forall. intros l Hl. apply in_map_iff in Hl as (r & <- & Hr). rewrite Forall_forall in L, F. specialize (L r Hr). destruct (F r Hr) as (x & Ex & _).
  unfold tcell in *. rewrite Ex, removelast_last. assert (length (map fst r) = length (x ++ [10])) as K by now rewrite Ex. rewrite map_length, app_length in K. cbn [length] in K. lia.
Qed.

(** ** C26 *)
Lemma no_rows_witness : exists tc evs p acts, let s := apply_opt default_settings O_binary in
  binary_mode s = true /\ s_columns s = None /\ provided evs = [[65; 66]] /\ ending_of evs = At_eof /\ tc = 40%Z /\
  byteio_run s tc SrcStdin evs = (p, acts, REnd) /\ read_offset s (last (text_lines (visible (pr_out p))) []) = Some 0 /\ data_lines s (visible (pr_out p)) = [].
Proof.
  exists 40%Z, [RData [65; 66]]. do 2 eexists. cbv zeta. split; [reflexivity|]. split; [reflexivity|]. split; [reflexivity|]. split; [reflexivity|]. split; [reflexivity|].
  split; [vm_compute; reflexivity|]. split; vm_compute; reflexivity.
Qed.
Lemma hang_witness : exists tc evs p acts, let s := apply_opt default_settings O_binary in
  binary_mode s = true /\ s_columns s = None /\ provided evs = [[65]] /\ tc = 20%Z /\ byteio_run s tc SrcStdin evs = (p, acts, RHang).
Proof.
  exists 20%Z, [RData [65]]. cbv zeta. set (s := apply_opt default_settings O_binary).
  destruct (negative_run s 20 SrcStdin [65] [] [(K_run R_printable, [65], [])]) as [(p & acts & E) _].
  - now left.
  - reflexivity.
  - reflexivity.
  - now left.
  - now left.
  - discriminate.
  - repeat constructor.
  - exists [[(K_run R_printable, [65])]]. split; [constructor; [apply lexes_A|constructor]|]. constructor; [split; reflexivity|constructor].
  - exists p, acts. repeat split; auto.
Qed.

(** ** C27, C28 *)
Lemma lines_run s tc src evs chunks toks : opens src -> binary_mode s = false -> Processed s evs chunks -> Finishes s evs -> Tokens chunks toks ->
  exists p acts, byteio_run s tc src evs = (p, acts, REnd) /\ length (text_lines (visible (pr_out p))) = line_count (concat chunks) /\
    forall i line, nth_error (text_lines (visible (pr_out p))) i = Some line ->
      exists l, nth_error (token_lines toks) i = Some l /\ line ++ [10] = map fst (line_number_cells s (1 + N.of_nat i)) ++ map fst (line_cells s l) /\
        nth_error (byte_lines (concat chunks)) i = Some (concat (map tok_bytes l)) /\
        ((debugging s = true \/ s_no_line_numbers s = false) -> (debugging s = true -> 1 + N.of_nat i < 100000000) -> read_line_number line = Some (1 + N.of_nat i)).
Proof.
  intros HS HB HP HF HT. destruct (text_eof s tc src evs chunks toks HS HB HP HF HT) as (p & acts & E & D). exists p, acts. split; [exact E|].
  split; [now apply (text_line_count s chunks toks)|]. intros i line Hn. destruct (text_line_pieces s chunks toks _ i line HT D Hn) as (l & K1 & K2 & K3).
  exists l. repeat split; auto. intros H1 H2. now apply (text_line_number s chunks toks (pr_out p)).
Qed.
Lemma token_lines_so_far toks : Forall Piece toks -> Forall Line (filter terminated (token_lines toks)).
Proof. intros H. apply token_lines_form in H. apply Forall_forall. intros l Hl. apply filter_In in Hl as [Hl _]. rewrite Forall_forall in H. auto. Qed.
Lemma text_parts s tc src evs chunks p acts en : opens src -> binary_mode s = false -> Processed s evs chunks -> byteio_run s tc src evs = (p, acts, en) ->
  exists parts, pr_out p = concat parts /\ Forall (fun part => exists v, visible part = v ++ [10] /\ ~ In 10 v /\ final_attrs part = attrs0) parts.
Proof.
  intros HS HB HP E. destruct (text_any s tc src evs chunks HS HB HP) as (p' & a' & e' & cs & toks & rows & rest & E' & HT & HR & EC & D).
  rewrite E in E'. injection E' as <- <- <-. destruct (parts_end (pr_out p) rows D) as (parts & K1 & _ & K3); [|eauto].
  destruct HR as [->| ->]; [|now apply (text_rows_end s cs)]. apply numbered_ends, token_lines_so_far. eapply pieces_of. exact HT.
Qed.
Lemma rows_ends (rows : list (list tcell)) : Forall (fun r : list tcell => exists l, map fst r = l ++ [10] /\ Forall (fun c => c <> 10) l) rows -> Forall ends_once rows.
Proof.
  intros H. eapply Forall_impl; [|exact H]. intros r (l & E & Hl). unfold tcell in *.
  destruct (last_split r) as [->|(i & [c a] & ->)]; [destruct l; discriminate|]. rewrite map_app in E. cbn [map fst] in E. apply app_inj_tail in E as [<- ->].
  exists i, a. split; [reflexivity|]. unfold no10. rewrite Forall_map in Hl. exact Hl.
Qed.
Lemma bin_parts s tc c src evs chunks p acts en : opens src -> binary_ok s tc c -> Processed s evs chunks -> byteio_run s tc src evs = (p, acts, en) ->
  exists parts, pr_out p = concat parts /\ Forall (fun part => exists v, visible part = v ++ [10] /\ ~ In 10 v /\ final_attrs part = attrs0) parts.
Proof.
  intros HS HO HP E. destruct (bin_any s tc c src evs chunks HS HO HP) as (p' & a' & e' & cs & toks & rows & rest & E' & HT & HR & EC & D).
  rewrite E in E'. injection E' as <- <- <-. destruct (parts_end (pr_out p) rows D) as (parts & K1 & _ & K3); [|eauto]. apply rows_ends.
  pose proof (byte_cells_chars s cs toks HT) as CH. destruct HO as (_ & _ & Hc). destruct HR as [->| ->]; [now apply rows_so_far_form|now apply binary_rows_form].
Qed.
