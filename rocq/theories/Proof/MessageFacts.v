(** Proofs about messages *)
From Coq Require Import Ascii String.
From Coq Require Import List Arith NArith ZArith Bool Lia.
From Verif.Model Require Import Base Ansi Settings Reader Runner Render Messages.
From Verif.Spec Require Import Numbers Terminal Lexical SgrParams Display Output Messages Conditions.
From Verif.Proof Require Import PaintFacts ConsoleFacts.
Import ListNotations.
Local Open Scope N_scope.

Lemma txt_plain x : forallb (fun c => negb (c =? 27)) (txt x) = true -> plain_text (txt x).
Proof. intros H. apply Forall_forall. intros c Hc E. subst. rewrite forallb_forall in H. specialize (H _ Hc). discriminate. Qed.

Lemma Painted_shows s cells : Painted attrs0 s attrs0 (map to_cell cells) -> shows s cells.
Proof. intros H. split; [exact (Painted_screen _ _ _ H)|exact (Painted_final _ _ _ H)]. Qed.

(** a span of a color around a bold headline and a text *)
Lemma Painted_message c a head msg :
  sgr_apply [c] attrs0 = a -> a_bold a = false -> a_dim a = false -> sgr_apply (closing_seq [c]) a = attrs0 -> plain_text head -> plain_text msg ->
  Painted attrs0 (span_wrap [c] (span_wrap [c_BOLD] head ++ msg) ++ [10]) attrs0 (map to_cell (message_cells a head msg)).
Proof.
  intros HA HB HD HC Hh Hm. unfold message_cells. rewrite !map_app. unfold span_wrap. rewrite <- !app_assoc. apply Pt_sgr. rewrite HA.
  apply Pt_sgr. change (sgr_apply [c_BOLD] a) with (set_bold true a).
  eapply Painted_app; [now apply Painted_plain|].
  change (map to_cell (styled a msg) ++ map to_cell [(10, attrs0)]) with ([] ++ map to_cell (styled a msg) ++ map to_cell [(10, attrs0)]).
  eapply Painted_app; [apply Painted_assemble|].
  change (sgr_apply (closing_seq [c_BOLD]) (set_bold true a)) with (set_bold false (set_dim false (set_bold true a))).
  replace (set_bold false (set_dim false (set_bold true a))) with a by (destruct a; cbn in HB, HD |- *; now subst).
  eapply Painted_app; [now apply Painted_plain|]. apply Pt_sgr. rewrite HC. apply (Painted_plain attrs0 [10]). now repeat constructor.
Qed.

Lemma error_painted msg : plain_text msg ->
  Painted attrs0 (on_stream Stderr (console_error msg)) attrs0 (map to_cell (message_cells bright_red (txt "ERROR: ") msg)).
Proof.
  intros H. unfold console_error, on_stream, FMT_ERROR, BOLD. cbn [flat_map fst snd]. rewrite app_nil_r.
  apply Painted_message; try reflexivity; [apply txt_plain; reflexivity|exact H].
Qed.
Lemma warn_painted msg : plain_text msg ->
  Painted attrs0 (on_stream Stderr (console_warn msg)) attrs0 (map to_cell (message_cells yellow (txt "WARN: ") msg)).
Proof.
  intros H. unfold console_warn, on_stream, FMT_WARNING, BOLD. cbn [flat_map fst snd]. rewrite app_nil_r.
  apply Painted_message; try reflexivity; [apply txt_plain; reflexivity|exact H].
Qed.

Lemma Painted_hint a b c : plain_text a -> plain_text b -> plain_text c ->
  Painted attrs0 (a ++ span_wrap [c_BOLD] b ++ c) attrs0 (map to_cell (hint_cells a b c)).
Proof.
  intros Ha Hb Hc. unfold hint_cells. rewrite !map_app. eapply Painted_app; [now apply Painted_plain|].
  eapply Painted_app; [|now apply Painted_plain]. apply (Painted_span [c_BOLD] b); [solve_good|exact Hb].
Qed.

Lemma error_out msg : on_stream Stdout (console_error msg) = [].
Proof. reflexivity. Qed.
Lemma on_stream_app x a b : on_stream x (a ++ b) = on_stream x a ++ on_stream x b.
Proof. apply flat_map_app. Qed.
Lemma on_stream_info_err s : on_stream Stderr (console_info s) = [].
Proof. reflexivity. Qed.
Lemma on_stream_info s : on_stream Stdout (console_info s) = s ++ [10].
Proof. unfold on_stream, console_info. cbn [flat_map fst snd]. now rewrite app_nil_r. Qed.

Lemma Some_eq {A} (a b : A) : Some a = Some b -> b = a.
Proof. congruence. Qed.

(** level 0 and argument errors *)
Lemma report_brief debug e ps : plain_text (x_class e) -> plain_text (x_message e) -> debug = 0%nat \/ x_argument e = true ->
  on_exception debug e = Some ps ->
  shows (on_stream Stderr ps) (message_cells bright_red (txt "ERROR: ") (x_class e ++ txt ": " ++ x_message e)) /\
  shows (on_stream Stdout ps)
    (hint_cells (txt "Run the app with '") (if x_argument e then txt "--help" else txt "--debug")
       (if x_argument e then txt "' argument to see the usage" else txt "' argument to see the details") ++ [(10, attrs0)]).
Proof.
  intros HC HM HD. unfold on_exception.
  assert (P : plain_text (x_class e ++ txt ": " ++ x_message e)).
  { apply Forall_app. split; [exact HC|]. apply Forall_app. split; [apply txt_plain; reflexivity|exact HM]. }
  destruct (x_argument e).
  - intros H. apply Some_eq in H. subst ps. rewrite !on_stream_app, error_out, on_stream_info_err, on_stream_info, app_nil_r.
    split; [now apply Painted_shows, error_painted|]. apply Painted_shows. cbn [app]. rewrite map_app.
    eapply Painted_app; [apply Painted_hint; apply txt_plain; reflexivity|]. apply (Painted_plain attrs0 [10]). now repeat constructor.
  - destruct HD as [->|HD]; [|discriminate]. intros H. apply Some_eq in H. subst ps. rewrite !on_stream_app, error_out, on_stream_info_err, on_stream_info, app_nil_r.
    split; [now apply Painted_shows, error_painted|]. apply Painted_shows. cbn [app]. rewrite map_app.
    eapply Painted_app; [|apply (Painted_plain attrs0 [10]); now repeat constructor].
    exact (Painted_hint (txt "Run the app with '") (txt "--debug") (txt "' argument to see the details")
             (txt_plain "Run the app with '" eq_refl) (txt_plain "--debug" eq_refl) (txt_plain "' argument to see the details" eq_refl)).
Qed.

(** what a line of a traceback is without the line feeds at its end *)
Lemma strip_front_spec s : exists k t, s = repeat 10 k ++ t /\ strip_lf_front s = t /\ (forall r, t <> 10 :: r).
Proof.
  induction s as [|c s IH].
  - exists 0%nat, []. repeat split. intros r; discriminate.
  - cbn [strip_lf_front]. destruct (N.eqb_spec c 10) as [->|Hc].
    + destruct IH as (k & t & E & F & G). exists (S k), t. cbn [repeat app]. rewrite E at 1. auto.
    + exists 0%nat, (c :: s). repeat split. intros r [= E _]. now apply Hc.
Qed.
Lemma rstrip_spec s : exists k, s = rstrip_lf s ++ repeat 10 k /\ (forall r, rstrip_lf s <> r ++ [10]).
Proof.
  unfold rstrip_lf. destruct (strip_front_spec (rev s)) as (k & t & E & F & G). exists k. rewrite F. split.
  - rewrite <- (rev_involutive s), E, rev_app_distr. f_equal.
    clear. induction k; [reflexivity|]. cbn [repeat rev]. rewrite IHk. clear. induction k; [reflexivity|]. cbn. now rewrite IHk.
  - intros r H. apply (f_equal (@rev _)) in H. rewrite rev_involutive, rev_app_distr in H. cbn in H. exact (G _ H).
Qed.

Lemma join_plain l : Forall plain_text l -> plain_text (join [10] l).
Proof.
  induction 1 as [|x l Hx Hl IH]; [constructor|]. cbn [join]. destruct l; [exact Hx|].
  apply Forall_app. split; [exact Hx|]. apply Forall_app. split; [now repeat constructor|exact IH].
Qed.
Lemma rstrip_plain s : plain_text s -> plain_text (rstrip_lf s).
Proof. destruct (rstrip_spec s) as (k & E & _). intros H. rewrite E in H. apply Forall_app in H. apply H. Qed.

(** debug levels: traceback on stdout, last line on stderr *)
Lemma report_debug debug e lines last : (0 < debug)%nat -> x_argument e = false -> x_trace e = lines ++ [last] -> Forall plain_text (x_trace e) ->
  exists ps, on_exception debug e = Some ps /\
  shows (on_stream Stderr ps) (message_cells bright_red (txt "ERROR: ") (rstrip_lf last)) /\
  shows (on_stream Stdout ps) (styled dark_red (join [10] (map rstrip_lf lines)) ++ [(10, attrs0)]).
Proof.
  intros HD HA HT HP. unfold on_exception. rewrite HA. apply Nat.ltb_lt in HD. rewrite HD, HT, map_app, rev_app_distr.
  cbn [map rev app]. rewrite rev_involutive. eexists. split; [reflexivity|].
  rewrite HT in HP. apply Forall_app in HP. destruct HP as [HL HLst]. inversion HLst; subst.
  split.
  - apply Painted_shows. change (on_stream Stderr ((Stdout, FMT_ERROR_TRACE (join [10] (map rstrip_lf lines)) ++ [10]) :: console_error (rstrip_lf last)))
      with (on_stream Stderr (console_error (rstrip_lf last))). apply error_painted. now apply rstrip_plain.
  - apply Painted_shows. rewrite map_app. unfold on_stream, console_error. cbn [flat_map fst snd]. rewrite app_nil_r.
    eapply Painted_app; [|apply (Painted_plain attrs0 [10]); now repeat constructor].
    apply (Painted_span [c_RED]); [solve_good|]. apply join_plain. apply Forall_map. eapply Forall_impl; [|exact HL]. intros; now apply rstrip_plain.
Qed.

(** what the model of a whole run appends to stdout is what is printed there *)
Lemma report_stdout e ps : x_argument e = false -> on_exception 0 e = Some ps -> on_stream Stdout ps = debug_hint ++ [10].
Proof. intros HA. unfold on_exception. rewrite HA. intros H. apply Some_eq in H. subst ps. rewrite on_stream_app, error_out, on_stream_info. reflexivity. Qed.

Lemma epilogue_shown : shows demo_epilogue
  ([(10, attrs0)] ++ hint_cells (txt "Run the app with '") (txt "--legend") (txt "' option to learn how to read the output") ++ [(10, attrs0)]).
Proof.
  apply Painted_shows. unfold demo_epilogue. rewrite !map_app. eapply Painted_app; [apply (Painted_plain attrs0 [10]); now repeat constructor|].
  rewrite <- map_app, map_app, 2 app_assoc. eapply Painted_app; [|apply (Painted_plain attrs0 [10]); now repeat constructor].
  rewrite <- app_assoc. apply Painted_hint; apply txt_plain; reflexivity.
Qed.
Definition ex_raised : raised := mkRaised (txt "FileNotFoundError") false (txt "No such file") [txt "Traceback" ++ [10]; txt "FileNotFoundError: No such file" ++ [10]].
