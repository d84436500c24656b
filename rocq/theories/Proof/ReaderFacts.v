(** The reader loop *)
From Coq Require Import List Arith NArith ZArith Bool Lia.
From Verif.Model Require Import Base Settings Reader.
From Verif.Spec Require Import Input.
From Verif.Proof Require Import BaseFacts.
Import ListNotations.
Local Open Scope Z_scope.

Lemma calls_app a b : calls (a ++ b) = calls a ++ calls b.
Proof. induction a as [|x a IH]; [reflexivity|]. cbn [app calls]. rewrite IH. destruct x; reflexivity. Qed.
Lemma data_app a b : data_of (a ++ b) = data_of a ++ data_of b.
Proof. unfold data_of. rewrite calls_app. apply flat_map_app. Qed.

Lemma crop_prefix m raw lines r l : crop_lines m raw lines = (r, l) -> exists rest, raw = r ++ rest.
Proof.
  revert lines r l. induction raw as [|b t IH]; intros lines r l H; cbn [crop_lines] in H.
  - injection H as <- <-. exists []. reflexivity.
  - destruct (b =? 10)%N.
    + destruct (m <=? lines + 1); [injection H as <- <-; exists (b :: t); reflexivity|].
      destruct (crop_lines m t (lines + 1)) as [r' l'] eqn:E. injection H as <- <-. destruct (IH _ _ _ E) as [rest ->]. exists rest. reflexivity.
    + destruct (crop_lines m t lines) as [r' l'] eqn:E. injection H as <- <-. destruct (IH _ _ _ E) as [rest ->]. exists rest. reflexivity.
Qed.
(** either nothing was cropped, or the limit has been reached *)
Lemma crop_full m raw lines r l : crop_lines m raw lines = (r, l) -> r = raw \/ m <= l.
Proof.
  revert lines r l. induction raw as [|b t IH]; intros lines r l H; cbn [crop_lines] in H.
  - injection H as <- <-. now left.
  - destruct (b =? 10)%N.
    + destruct (Z.leb_spec m (lines + 1)); [injection H as <- <-; right; lia|].
      destruct (crop_lines m t (lines + 1)) as [r' l'] eqn:E. injection H as <- <-. destruct (IH _ _ _ E) as [->|]; auto.
    + destruct (crop_lines m t lines) as [r' l'] eqn:E. injection H as <- <-. destruct (IH _ _ _ E) as [->|]; auto.
Qed.
Lemma apply_prefix ml raw lines r l : apply_max_lines ml raw lines = (r, l) -> exists rest, raw = r ++ rest.
Proof. unfold apply_max_lines. destruct (limit_on ml); [apply crop_prefix|]. intros [= <- <-]. exists []. now rewrite app_nil_r. Qed.
Lemma apply_full ml raw lines r l : apply_max_lines ml raw lines = (r, l) ->
  r = raw \/ exists m, limit_on ml = Some m /\ m <= l.
Proof. unfold apply_max_lines. destruct (limit_on ml); [|intros [= <- <-]; now left]. intros H. destruct (crop_full _ _ _ _ _ H); eauto. Qed.

Lemma py_take_prefix {A} n (l : list A) : exists rest, l = py_take n l ++ rest.
Proof. unfold py_take. destruct (n <? 0); eexists; symmetry; apply firstn_skipn. Qed.

Section Any.
  Context {St : Type}.
  Variable cb : St -> bytes -> Z -> bool -> St * cb_res.
  Variable max_bytes max_lines : option Z.
  Variable src : source.
  Notation rl := (read_loop cb max_bytes max_lines src).

  Lemma finish_shape raw off st st' acts en : read_finish cb raw off st = (st', acts, en) ->
    calls acts = [(raw, off, true)] /\ acts = ACall raw off true :: (if match en with RHang => true | _ => false end then [] else [AClose]).
  Proof. unfold read_finish. destruct (cb st raw off true) as [s' []]; intros [= <- <- <-]; auto. Qed.

  Lemma pre_inv (a : list action) (x : St * list action * reader_end) st acts en : pre a x = (st, acts, en) -> exists l, x = (st, l, en) /\ acts = a ++ l.
  Proof. destruct x as [[s l] e]. intros [= <- <- <-]. eauto. Qed.

  Lemma finish_closes raw off st st' acts en : read_finish cb raw off st = (st', acts, en) -> closes acts en.
  Proof.
    unfold read_finish. destruct (cb st raw off true) as [s' []]; intros [= <- <- <-]; unfold closes; (split; [intros a [<-|[<-|[]]] || intros a [<-|[]]; discriminate|]);
      try (exists [ACall raw off true]; split; [reflexivity|]; intros [K|[]]; discriminate).
    intros [K|[]]; discriminate.
  Qed.
  Lemma closes_pre l acts en : (forall a, In a l -> a <> AOpen /\ a <> AClose) -> closes acts en -> closes (l ++ acts) en.
  Proof.
    intros Hl [H1 H2]. split.
    - intros a [Ha|Ha]%in_app_or; [now apply Hl|now apply H1].
    - destruct en; try (destruct H2 as (k & -> & Hk); exists (l ++ k); rewrite app_assoc; split; [reflexivity|]; intros [K|K]%in_app_or; [now apply Hl in K|auto]).
      intros [K|K]%in_app_or; [now apply Hl in K|auto].
  Qed.

  Ltac noclose := intros ? K; cbn [In] in K; repeat (destruct K as [<-|K]; [split; discriminate|]); destruct K.

  Lemma loop_shape evs : forall off lines st st' acts en, rl evs off lines st = (st', acts, en) ->
    Contiguous off (calls acts) /\ closes acts en /\ (exists rest, concat (provided evs) = data_of acts ++ rest).
  Proof.
    assert (Stop1 : forall off e, Contiguous off (calls [ARead; AClose]) /\ closes [ARead; AClose] e \/ e = RHang).
    { intros off e. destruct e; auto; left; (split; [constructor|]); (split; [intros a [<-|[<-|[]]]; discriminate|]); exists [ARead]; (split; [reflexivity|]); intros [K|[]]; discriminate. }
    induction evs as [|ev evs IH]; intros off lines st st' acts en H; cbn [read_loop] in H.
    - apply pre_inv in H as (l & H & ->). pose proof (finish_closes _ _ _ _ _ _ H) as HC. apply finish_shape in H as [H _].
      rewrite calls_app, H. split; [apply Ct_last|]. split; [apply closes_pre; [noclose|exact HC]|]. exists []. rewrite data_app. unfold data_of. rewrite H. reflexivity.
    - destruct ev as [[|b raw]| |].
      + apply pre_inv in H as (l & H & ->). pose proof (finish_closes _ _ _ _ _ _ H) as HC. apply finish_shape in H as [H _].
        rewrite calls_app, H. split; [apply Ct_last|]. split; [apply closes_pre; [noclose|exact HC]|]. exists []. rewrite data_app. unfold data_of. rewrite H. reflexivity.
      + set (data := b :: raw) in *. change (provided (RData data :: evs)) with (data :: provided evs). cbn [concat]. destruct (tell_fails src).
        { injection H as <- <- <-. destruct (Stop1 off (RError OSError)) as [[? ?]|?]; [|discriminate]. split; [assumption|split; [assumption|]]. eexists. reflexivity. }
        destruct (apply_max_lines max_lines data lines) as [raw1 lines1] eqn:EL.
        destruct (apply_prefix _ _ _ _ _ EL) as [rest ER]. pose proof (apply_full _ _ _ _ _ EL) as EF.
        match type of H with (if ?c then _ else _) = _ => destruct c eqn:EO end.
        { apply pre_inv in H as (l & H & ->). pose proof (finish_closes _ _ _ _ _ _ H) as HC. apply finish_shape in H as [H _].
          rewrite calls_app, H. split; [apply Ct_last|]. split; [apply closes_pre; [noclose|exact HC]|].
          rewrite data_app. unfold data_of at 2. rewrite H. cbn [data_of calls flat_map call_data fst app]. rewrite app_nil_r.
          match goal with |- context [py_take ?n raw1] => destruct (py_take_prefix n raw1) as [rest' ER'] end. exists (rest' ++ rest ++ concat (provided evs)). rewrite ER, (app_assoc (py_take _ _)), <- ER', app_assoc. reflexivity. }
        destruct (cb st raw1 off false) as [st1 r] eqn:EC.
        assert (D1 : data_of [ARead; ACall raw1 off false] = raw1) by (unfold data_of; cbn [calls flat_map call_data fst]; apply app_nil_r).
        assert (Stop2 : forall e, e <> RHang -> Contiguous off (calls [ARead; ACall raw1 off false; AClose]) /\ closes [ARead; ACall raw1 off false; AClose] e /\
                         exists rest0, data ++ concat (provided evs) = data_of [ARead; ACall raw1 off false; AClose] ++ rest0).
        { intros e He. split; [apply Ct_more; constructor|]. split.
          - split; [intros a [<-|[<-|[<-|[]]]]; discriminate|]. destruct e; try easy; exists [ARead; ACall raw1 off false]; (split; [reflexivity|]); intros [K|[K|[]]]; discriminate.
          - change [ARead; ACall raw1 off false; AClose] with ([ARead; ACall raw1 off false] ++ [AClose]). rewrite data_app, D1. cbn [data_of calls flat_map]. rewrite app_nil_r, ER, <- app_assoc. eauto. }
        destruct r.
        * match type of H with (if ?c then _ else _) = _ => destruct c eqn:ES end.
          -- apply pre_inv in H as (l & H & ->). pose proof (finish_closes _ _ _ _ _ _ H) as HC. apply finish_shape in H as [H _].
             rewrite calls_app, H. split; [apply Ct_more, Ct_last|]. split; [apply closes_pre; [noclose|exact HC]|].
             rewrite data_app. rewrite D1. unfold data_of. rewrite H. cbn [flat_map call_data fst app]. rewrite app_nil_r, ER, <- app_assoc. eauto.
          -- apply pre_inv in H as (l & H & ->). destruct (IH _ _ _ _ _ _ H) as (I1 & I2 & rest2 & I3).
             rewrite calls_app. split; [apply Ct_more; exact I1|]. split; [apply closes_pre; [noclose|exact I2]|].
             rewrite data_app, D1. destruct EF as [->|(m & EM & Hm)]; [exists rest2; rewrite I3; apply app_assoc|].
             exfalso. rewrite EM in ES. apply orb_false_iff in ES as [_ ES]. apply Z.leb_gt in ES. lia.
        * injection H as <- <- <-. now apply Stop2.
        * injection H as <- <- <-. now apply Stop2.
        * injection H as <- <- <-. split; [apply Ct_more; constructor|]. split.
          -- split; [intros a [<-|[<-|[]]]; discriminate|]. intros [K|[K|[]]]; discriminate.
          -- rewrite D1, ER, <- app_assoc. eauto.
      + injection H as <- <- <-. destruct (Stop1 off REnd) as [[? ?]|?]; [|discriminate]. split; [assumption|split; [assumption|]]. exists []. reflexivity.
      + injection H as <- <- <-. destruct (Stop1 off (RError OSError)) as [[? ?]|?]; [|discriminate]. split; [assumption|split; [assumption|]]. exists []. reflexivity.
  Qed.
End Any.

(** ** limits *)
Fixpoint feeds (l : list N) : nat := match l with [] => 0%nat | b :: t => ((if (b =? 10)%N then 1 else 0) + feeds t)%nat end.
Lemma before_line_all n l : (feeds l < n)%nat -> before_line n l = l.
Proof.
  revert n. induction l as [|b l IH]; intros n H; [reflexivity|]. cbn [before_line feeds] in *. destruct (b =? 10)%N.
  - destruct n as [|[|m]]; try lia. f_equal. apply IH. lia.
  - f_equal. apply IH. lia.
Qed.
Lemma before_line_app n a b : (0 < n)%nat -> before_line n (a ++ b) = if (feeds a <? n)%nat then a ++ before_line (n - feeds a) b else before_line n a.
Proof.
  revert n. induction a as [|x a IH]; intros n Hn; cbn [app before_line feeds].
  - destruct (Nat.ltb_spec 0 n) as [H|H]; [now rewrite Nat.sub_0_r|lia].
  - destruct (x =? 10)%N.
    + destruct n as [|[|m]]; [lia| |].
      * destruct (Nat.ltb_spec (1 + feeds a) 1); [lia|reflexivity].
      * rewrite IH by lia. destruct (Nat.ltb_spec (feeds a) (S m)), (Nat.ltb_spec (1 + feeds a) (S (S m))); try lia; reflexivity.
    + rewrite IH by lia. cbn [Nat.add]. destruct (feeds a <? n)%nat; reflexivity.
Qed.
Lemma before_line_prefix n l : exists rest, l = before_line n l ++ rest.
Proof.
  revert n. induction l as [|b l IH]; intros n; [exists []; reflexivity|]. cbn [before_line].
  destruct (b =? 10)%N.
  - destruct n as [|[|m]]; try (eexists; reflexivity). destruct (IH (S m)) as [rest E]. exists rest. cbn [app]. now rewrite <- E.
  - destruct (IH n) as [rest E]. exists rest. cbn [app]. now rewrite <- E.
Qed.
Lemma crop_spec m raw lines : lines < m ->
  crop_lines m raw lines = (before_line (Z.to_nat (m - lines)) raw, Z.min m (lines + Z.of_nat (feeds raw))).
Proof.
  revert lines. induction raw as [|b t IH]; intros lines H; cbn [crop_lines before_line feeds]; [f_equal; lia|].
  destruct (b =? 10)%N.
  - destruct (Z.leb_spec m (lines + 1)).
    + replace (Z.to_nat (m - lines)) with 1%nat by lia. f_equal. lia.
    + rewrite IH by lia. replace (Z.to_nat (m - lines)) with (S (S (Z.to_nat (m - lines - 2)))) by lia.
      replace (Z.to_nat (m - (lines + 1))) with (S (Z.to_nat (m - lines - 2))) by lia. f_equal. lia.
  - rewrite IH by lia. reflexivity.
Qed.

(** remaining limits, as natural numbers *)
Definition within (rb rn : option nat) (data : list N) : list N :=
  let d := match rn with Some l => before_line l data | None => data end in
  match rb with Some b => firstn b d | None => d end.
(** [Remains l used r]: of limit [l], [r] remains when [used] has been used up *)
Definition Remains (l : option Z) (used : Z) (r : option nat) : Prop :=
  match r with
  | None => no_limit l
  | Some n => exists m, l = Some m /\ 0 < m /\ 0 <= used < m /\ n = Z.to_nat (m - used)
  end.
Lemma limit_on_none l : no_limit l -> limit_on l = None.
Proof. intros [->| ->]; reflexivity. Qed.
Lemma limit_on_some m : 0 < m -> limit_on (Some m) = Some m.
Proof. intros H. unfold limit_on. destruct (Z.eqb_spec m 0); [lia|reflexivity]. Qed.

Definition nonempty (l : list (list N)) : list (list N) := filter (fun c => match c with [] => false | _ => true end) l.
Lemma nonempty_app a b : nonempty (a ++ b) = nonempty a ++ nonempty b.
Proof. apply filter_app. Qed.
Lemma nonempty_id l : Forall (fun c => c <> []) l -> nonempty l = l.
Proof. induction 1 as [|c l Hc H IH]; [reflexivity|]. cbn [nonempty filter]. destruct c; [easy|]. f_equal. exact IH. Qed.
Lemma provided_nonempty evs : Forall (fun c => c <> []) (provided evs).
Proof. induction evs as [|[[|b l]| |] evs IH]; cbn [provided]; constructor; [discriminate|exact IH]. Qed.
Lemma nonempty_one c : nonempty [c] = match c with [] => [] | _ => [c] end.
Proof. destruct c; reflexivity. Qed.
Lemma first_bytes_0 l : Forall (fun c => c <> []) l -> nonempty (first_bytes 0 l) = [].
Proof. intros [|c r Hc H]; [reflexivity|]. cbn [first_bytes]. destruct c; [easy|]. reflexivity. Qed.
(** the first bytes of chunks of which the first one is cut *)
Lemma first_bytes_cut p rest r : Forall (fun c => c <> []) r -> nonempty (first_bytes (length p) ((p ++ rest) :: r)) = nonempty [p].
Proof.
  intros H. cbn [first_bytes]. rewrite app_length. destruct (Nat.leb_spec (length p + length rest) (length p)) as [L|L].
  - assert (rest = []) by (destruct rest; [reflexivity|cbn in L; lia]). subst rest. rewrite app_nil_r. cbn [length]. rewrite Nat.add_0_r, Nat.sub_diag.
    change (p :: first_bytes 0 r) with ([p] ++ first_bytes 0 r). rewrite nonempty_app, first_bytes_0 by exact H. apply app_nil_r.
  - rewrite firstn_app, firstn_all, Nat.sub_diag. cbn [firstn]. now rewrite app_nil_r.
Qed.
Lemma first_bytes_more n c r : (length c <= n)%nat -> first_bytes n (c :: r) = c :: first_bytes (n - length c) r.
Proof. intros H. cbn [first_bytes]. destruct (Nat.leb_spec (length c) n); [reflexivity|lia]. Qed.

Section Forward.
  Context {St : Type}.
  Variable cb : St -> bytes -> Z -> bool -> St * cb_res.
  Variable max_bytes max_lines : option Z.
  Variable src : source.
  Notation rl := (read_loop cb max_bytes max_lines src).
  Variable Inv Fin Bad : St -> list (list N) -> Prop.
  Variable Valid Good : list N -> Prop.
  Variable x : exn.
  Hypothesis valid_prefix : forall a b, Valid (a ++ b) -> Valid a.
  Hypothesis good_dec : forall c, Valid c -> Good c \/ ~ Good c.
  Hypothesis good_nil : Good [].
  Hypothesis cb_good : forall st done c off fin, Inv st done -> Good c ->
    exists st', cb st c off fin = (st', CbOk) /\ if fin then Fin st' (done ++ [c]) else Inv st' (done ++ [c]).
  Hypothesis cb_bad : forall st done c off fin, Inv st done -> Valid c -> ~ Good c -> exists st', cb st c off fin = (st', CbErr x) /\ Bad st' done.
  Hypothesis seekable : tell_fails src = false.

  (** how a run ends, [fb] being the data within the limits *)
  Inductive Ends (evs : list read_ev) (fb : list (list N)) (complete : Prop) (done : list (list N)) (st : St) : reader_end -> Prop :=
  | Ends_all cs : Forall Good cs -> nonempty cs = nonempty fb -> Fin st (done ++ cs) -> (ending_of evs = At_eof \/ complete) -> Ends evs fb complete done st REnd
  | Ends_bad cs c rest : Forall Good cs -> ~ Good c -> nonempty fb = nonempty cs ++ c :: rest -> Bad st (done ++ cs) -> Ends evs fb complete done st (RError x)
  | Ends_interrupt cs : ending_of evs = At_interrupt -> ~ complete -> Forall Good cs -> nonempty cs = nonempty fb -> Inv st (done ++ cs) -> Ends evs fb complete done st REnd
  | Ends_failure cs : ending_of evs = At_failure -> ~ complete -> Forall Good cs -> nonempty cs = nonempty fb -> Inv st (done ++ cs) -> Ends evs fb complete done st (RError OSError).

  (** a limit has been reached *)
  Definition reached (rb rn : option nat) (data : list N) : Prop :=
    (exists b, rb = Some b /\ (b <= length (within rb rn data))%nat) \/ (exists l, rn = Some l /\ (l <= feeds data)%nat).

  Lemma not_reached rb rn off lines : Remains max_bytes off rb -> Remains max_lines lines rn -> ~ reached rb rn (concat []).
  Proof.
    intros HB HN [(b & -> & L)|(l & -> & L)].
    - destruct HB as (m & _ & _ & K & ->). unfold within in L. assert (length (match rn with Some l => before_line l (concat []) | None => concat [] end) = 0)%nat by (destruct rn; reflexivity).
      rewrite firstn_length in L. lia.
    - destruct HN as (m & _ & _ & K & ->). cbn in L. lia.
  Qed.

  Lemma finish_good raw off st done : Inv st done -> Good raw ->
    exists st', read_finish cb raw off st = (st', [ACall raw off true; AClose], REnd) /\ Fin st' (done ++ [raw]).
  Proof. intros HI HG. unfold read_finish. destruct (cb_good st done raw off true HI HG) as (st' & -> & H). eauto. Qed.
  Lemma finish_bad raw off st done : Inv st done -> Valid raw -> ~ Good raw ->
    exists st', read_finish cb raw off st = (st', [ACall raw off true; AClose], RError x) /\ Bad st' done.
  Proof. intros HI HV HG. unfold read_finish. destruct (cb_bad st done raw off true HI HV HG) as (st' & -> & H). eauto. Qed.

  Lemma loop_forward evs : Forall Valid (provided evs) -> forall rb rn off lines st done, Remains max_bytes off rb -> Remains max_lines lines rn -> Inv st done ->
    exists st' acts en, rl evs off lines st = (st', acts, en) /\
      Ends evs (first_bytes (length (within rb rn (concat (provided evs)))) (provided evs)) (reached rb rn (concat (provided evs))) done st' en.
  Proof.
    induction evs as [|ev evs IH]; intros HV rb rn off lines st done HB HN HI; cbn [read_loop].
    - destruct (finish_good [] off st done HI good_nil) as (st' & -> & HF). cbn [pre].
      do 3 eexists. split; [reflexivity|]. cbn [provided]. eapply (Ends_all _ _ _ _ _ [[]]); auto.
    - destruct ev as [[|b raw]| |].
      + destruct (finish_good [] off st done HI good_nil) as (st' & -> & HF). cbn [pre].
        do 3 eexists. split; [reflexivity|]. cbn [provided]. eapply (Ends_all _ _ _ _ _ [[]]); auto.
      + set (c := b :: raw) in *. rewrite seekable. change (provided (RData c :: evs)) with (c :: provided evs) in *.
        inversion HV as [|c' l' HVc HV']; subst c' l'. specialize (IH HV'). cbn [concat]. set (tl := concat (provided evs)).
        assert (EA : apply_max_lines max_lines c lines = (within None rn c, match rn with Some l => Z.min (lines + Z.of_nat l) (lines + Z.of_nat (feeds c)) | None => lines end)).
        { unfold apply_max_lines, within. destruct rn as [l|]; cbn in HN.
          - destruct HN as (m & -> & Hm & Hu & ->). rewrite limit_on_some by exact Hm. rewrite crop_spec by lia. f_equal. lia.
          - now rewrite limit_on_none. }
        rewrite EA. set (raw1 := within None rn c) in *. set (lines1 := match rn with Some l => _ | None => lines end).
        assert (PR : exists rest, c = raw1 ++ rest).
        { unfold raw1, within. destruct rn; [apply before_line_prefix|exists []; now rewrite app_nil_r]. }
        destruct PR as [rest PR]. pose proof (provided_nonempty evs) as NE.
        assert (HV1 : Valid raw1) by (apply (valid_prefix raw1 rest); now rewrite <- PR).
        (* what is within the line limit *)
        assert (WL : within None rn (c ++ tl) = if match rn with Some l => (feeds c <? l)%nat | None => true end
                     then c ++ within None (option_map (fun l => l - feeds c)%nat rn) tl else raw1).
        { unfold raw1, within. destruct rn as [l|]; [|reflexivity]. cbn [option_map]. apply before_line_app. destruct HN as (m & _ & _ & ? & ->). lia. }
        assert (WR : match rn with Some l => (feeds c <? l)%nat | None => true end = true -> raw1 = c).
        { unfold raw1, within. destruct rn as [l|]; [|reflexivity]. intros K. apply before_line_all. now apply Nat.ltb_lt. }
        assert (WP : exists more, within None rn (c ++ tl) = raw1 ++ more).
        { rewrite WL. destruct (match rn with Some l => _ | None => true end) eqn:K; [rewrite WR by reflexivity; eauto|exists []; now rewrite app_nil_r]. }
        assert (WB : forall d, within rb rn d = match rb with Some n => firstn n (within None rn d) | None => within None rn d end) by reflexivity.
        (* over the byte limit *)
        assert (EO : match limit_on max_bytes with Some m => m <? off + zlen raw1 | None => false end = match rb with Some n => (n <? length raw1)%nat | None => false end).
        { destruct rb as [n|]; cbn in HB; [|now rewrite limit_on_none]. destruct HB as (m & -> & Hm & Hu & ->). rewrite limit_on_some by exact Hm.
          unfold zlen. destruct (Z.ltb_spec m (off + Z.of_nat (length raw1))), (Nat.ltb_spec (Z.to_nat (m - off)) (length raw1)); try reflexivity; lia. }
        rewrite EO. destruct (match rb with Some n => (n <? length raw1)%nat | None => false end) eqn:OV.
        { destruct rb as [n|]; [|discriminate]. apply Nat.ltb_lt in OV. pose proof HB as HB'. cbn in HB'. destruct HB' as (m & EM & Hm & Hu & En).
          rewrite EM. assert (EP : py_take (m - off) raw1 = firstn n raw1) by (unfold py_take; destruct (Z.ltb_spec (m - off) 0); [lia|now rewrite En]).
          rewrite EP. destruct WP as [more WP].
          assert (WD : within (Some n) rn (c ++ tl) = firstn n raw1).
          { rewrite WB, WP, firstn_app. replace (n - length raw1)%nat with 0%nat by lia. cbn [firstn]. apply app_nil_r. }
          rewrite WD.
          assert (FB : nonempty (first_bytes (length (firstn n raw1)) (c :: provided evs)) = nonempty [firstn n raw1]).
          { rewrite PR. rewrite <- (firstn_skipn n raw1) at 2. rewrite <- app_assoc. now apply first_bytes_cut. }
          assert (HV2 : Valid (firstn n raw1)) by (apply (valid_prefix _ (skipn n raw1)); now rewrite firstn_skipn).
          destruct (good_dec (firstn n raw1) HV2) as [HG|HG].
          - destruct (finish_good _ off st done HI HG) as (st' & -> & HF). cbn [pre]. do 3 eexists. split; [reflexivity|].
            eapply (Ends_all _ _ _ _ _ [firstn n raw1]); auto. right. left. exists n. split; [reflexivity|]. rewrite WD, firstn_length. lia.
          - destruct (finish_bad _ off st done HI HV2 HG) as (st' & -> & HF). cbn [pre]. do 3 eexists. split; [reflexivity|].
            eapply (Ends_bad _ _ _ _ _ [] (firstn n raw1) []); auto; [|now rewrite app_nil_r].
            rewrite FB, nonempty_one. destruct (firstn n raw1); [easy|reflexivity]. }
        destruct (good_dec raw1 HV1) as [HG|HG].
        2:{ destruct (cb_bad st done raw1 off false HI HV1 HG) as (st' & -> & HF). do 3 eexists. split; [reflexivity|].
            destruct raw1 as [|r1 raw1'] eqn:ER1; [easy|]. rewrite <- ER1 in *.
            assert (RB : exists k, within rb rn (c ++ tl) = raw1 ++ k).
            { rewrite WB. destruct WP as [more ->]. destruct rb as [n|]; [|eauto]. apply Nat.ltb_ge in OV. rewrite firstn_app, firstn_all2 by lia. eauto. }
            destruct RB as [k RB]. rewrite RB. rewrite app_length.
            destruct (Nat.le_gt_cases (length c) (length raw1 + length k)) as [L|L].
            - rewrite first_bytes_more by exact L. destruct rest as [|r0 rest].
              + rewrite app_nil_r in PR. eapply (Ends_bad _ _ _ _ _ [] raw1); auto; [|now rewrite app_nil_r].
                rewrite <- PR. reflexivity.
              + (* cut before the end: nothing follows *)
                exfalso. destruct (match rn with Some l => (feeds c <? l)%nat | None => true end) eqn:K.
                * specialize (WR eq_refl). rewrite WR in PR. apply (f_equal (@length N)) in PR. rewrite app_length in PR. cbn [length] in PR. lia.
                * rewrite WB, WL in RB. assert (k = []).
                  { destruct rb as [n|]; [|now apply (app_inv_head raw1); rewrite app_nil_r].
                    apply Nat.ltb_ge in OV. rewrite firstn_all2 in RB by lia. now apply (app_inv_head raw1); rewrite app_nil_r. }
                  subst k. rewrite PR, app_length in L. cbn [length] in L. lia.
            - assert (K0 : k = []).
              { destruct (match rn with Some l => (feeds c <? l)%nat | None => true end) eqn:K.
                - exfalso. specialize (WR eq_refl). rewrite WR in L. lia.
                - rewrite WB, WL in RB. destruct rb as [n|]; [|now apply (app_inv_head raw1); rewrite app_nil_r].
                  apply Nat.ltb_ge in OV. rewrite firstn_all2 in RB by lia. now apply (app_inv_head raw1); rewrite app_nil_r. }
              subst k. cbn [length]. rewrite Nat.add_0_r. eapply (Ends_bad _ _ _ _ _ [] raw1 []); auto; [|now rewrite app_nil_r].
              rewrite PR, first_bytes_cut by exact NE. rewrite nonempty_one, ER1. reflexivity. }
        destruct (cb_good st done raw1 off false HI HG) as (st1 & -> & HI1). cbn beta iota in HI1.
        set (stop := orb _ _).
        assert (ES : stop = (match rb with Some n => (n <=? length raw1)%nat | None => false end || match rn with Some l => (l <=? feeds c)%nat | None => false end)%bool).
        { unfold stop, lines1. f_equal.
          - destruct rb as [n|]; cbn in HB; [|now rewrite limit_on_none]. destruct HB as (m & -> & Hm & Hu & ->). rewrite limit_on_some by exact Hm.
            unfold zlen. destruct (Z.leb_spec m (off + Z.of_nat (length raw1))), (Nat.leb_spec (Z.to_nat (m - off)) (length raw1)); try reflexivity; lia.
          - destruct rn as [l|]; cbn in HN; [|now rewrite limit_on_none]. destruct HN as (m & -> & Hm & Hu & ->). rewrite limit_on_some by exact Hm.
            destruct (Z.leb_spec m (Z.min (lines + Z.of_nat (Z.to_nat (m - lines))) (lines + Z.of_nat (feeds c)))), (Nat.leb_spec (Z.to_nat (m - lines)) (feeds c)); try reflexivity; lia. }
        rewrite ES. destruct (match rb with Some n => (n <=? length raw1)%nat | None => false end || match rn with Some l => (l <=? feeds c)%nat | None => false end)%bool eqn:SP.
        * destruct (finish_good [] (off + zlen raw1) st1 _ HI1 good_nil) as (st' & -> & HF). cbn [pre]. do 3 eexists. split; [reflexivity|].
          assert (WD : within rb rn (c ++ tl) = raw1).
          { rewrite WB. apply orb_true_iff in SP as [SP|SP].
            - destruct rb as [n|]; [|discriminate]. apply Nat.leb_le in SP. apply Nat.ltb_ge in OV. destruct WP as [more ->].
              rewrite firstn_app. replace (n - length raw1)%nat with 0%nat by lia. cbn [firstn]. rewrite app_nil_r, firstn_all2 by lia. reflexivity.
            - destruct rn as [l|]; [|discriminate]. apply Nat.leb_le in SP. rewrite WL. destruct (Nat.ltb_spec (feeds c) l); [lia|].
              destruct rb as [n|]; [|reflexivity]. apply Nat.ltb_ge in OV. now apply firstn_all2. }
          rewrite WD. eapply (Ends_all _ _ _ _ _ [raw1; []]); auto.
          -- rewrite PR, first_bytes_cut by exact NE. change [raw1; []] with ([raw1] ++ [[]]). rewrite nonempty_app. apply app_nil_r.
          -- rewrite <- app_assoc in HF. exact HF.
          -- right. unfold reached. rewrite WD. apply orb_true_iff in SP as [SP|SP].
             ++ left. destruct rb as [n|]; [|discriminate]. apply Nat.leb_le in SP. eauto.
             ++ right. destruct rn as [l|]; [|discriminate]. apply Nat.leb_le in SP. exists l. split; [reflexivity|].
                clear -SP. induction c as [|y c IHc]; cbn [feeds app] in *; [lia|]. 
                assert (forall a b, feeds (a ++ b) = feeds a + feeds b)%nat as FA by (induction a; intros; cbn [app feeds]; [reflexivity|]; rewrite IHa; lia).
                rewrite FA. lia.
        * apply orb_false_iff in SP as [SP1 SP2].
          assert (RC : raw1 = c) by (apply WR; destruct rn as [l|]; [|reflexivity]; apply Nat.ltb_lt; apply Nat.leb_gt in SP2; lia).
          assert (HB1 : Remains max_bytes (off + zlen raw1) (option_map (fun n => n - length raw1)%nat rb)).
          { destruct rb as [n|]; cbn in *; [|exact HB]. apply Nat.leb_gt in SP1. destruct HB as (m & E & Hm & Hu & ->). exists m. unfold zlen. repeat split; auto; lia. }
          assert (HN1 : Remains max_lines lines1 (option_map (fun l => l - feeds c)%nat rn)).
          { unfold lines1. destruct rn as [l|]; cbn in *; [|exact HN]. apply Nat.leb_gt in SP2. destruct HN as (m & E & Hm & Hu & ->). exists m. repeat split; auto; lia. }
          destruct (IH _ _ _ _ st1 _ HB1 HN1 HI1) as (st' & acts & en & -> & HE). cbn [pre]. do 3 eexists. split; [reflexivity|].
          fold tl in HE.
          assert (WD : within rb rn (c ++ tl) = c ++ within (option_map (fun n => n - length raw1)%nat rb) (option_map (fun l => l - feeds c)%nat rn) tl).
          { rewrite WB, WL. replace (match rn with Some l => (feeds c <? l)%nat | None => true end) with true by (destruct rn; [|reflexivity]; symmetry; apply Nat.ltb_lt; apply Nat.leb_gt in SP2; lia).
            unfold within. destruct rb as [n|]; [|reflexivity]. cbn [option_map]. apply Nat.leb_gt in SP1. rewrite RC in *. rewrite firstn_app, (firstn_all2 c) by lia. reflexivity. }
          rewrite WD, app_length, first_bytes_more by lia. rewrite Nat.add_comm, Nat.add_sub.
          set (fb := first_bytes _ _) in *. rewrite RC in HE.
          assert (RE : reached (option_map (fun n => n - length c)%nat rb) (option_map (fun l => l - feeds c)%nat rn) tl <-> reached rb rn (c ++ tl)).
          { split; intros [(b' & E & L)|(l' & E & L)].
            - left. destruct rb as [n|]; [|discriminate]. exists n. split; [reflexivity|]. rewrite WD, RC, app_length. cbn [option_map] in *. assert (b' = (n - length c)%nat) as -> by congruence. lia.
            - right. destruct rn as [l|]; [|discriminate]. exists l. split; [reflexivity|]. cbn [option_map] in E. assert (l' = (l - feeds c)%nat) as -> by congruence.
              assert (forall a b, feeds (a ++ b) = feeds a + feeds b)%nat as FA by (clear; induction a; intros; cbn [app feeds]; [reflexivity|]; rewrite IHa; lia).
              rewrite FA. apply Nat.leb_gt in SP2. lia.
            - left. destruct rb as [n|]; [|discriminate]. assert (b' = n) as -> by congruence. exists (n - length c)%nat. split; [reflexivity|]. rewrite WD, RC, app_length in L. cbn [option_map] in *. lia.
            - right. destruct rn as [l|]; [|discriminate]. assert (l' = l) as -> by congruence. exists (l - feeds c)%nat. split; [reflexivity|].
              assert (forall a b, feeds (a ++ b) = feeds a + feeds b)%nat as FA by (clear; induction a; intros; cbn [app feeds]; [reflexivity|]; rewrite IHa; lia).
              rewrite FA in L. lia. }
          assert (NC : forall l, nonempty (c :: l) = c :: nonempty l) by reflexivity.
          inversion HE as [cs G1 G2 G3 G4|cs c' r' G1 G2 G3 G4|cs G1 G0 G2 G3 G4|cs G1 G0 G2 G3 G4]; subst en.
          -- eapply (Ends_all _ _ _ _ _ (c :: cs)); [constructor; [now rewrite <- RC|exact G1]|now rewrite !NC, G2|now rewrite <- app_assoc in G3|]. destruct G4 as [G4|G4]; [left; exact G4|right; now apply RE].
          -- eapply (Ends_bad _ _ _ _ _ (c :: cs) c' r'); [constructor; [now rewrite <- RC|exact G1]|exact G2|now rewrite !NC, G3|now rewrite <- app_assoc in G4].
          -- eapply (Ends_interrupt _ _ _ _ _ (c :: cs)); [exact G1|now rewrite <- RE|constructor; [now rewrite <- RC|exact G2]|now rewrite !NC, G3|now rewrite <- app_assoc in G4].
          -- eapply (Ends_failure _ _ _ _ _ (c :: cs)); [exact G1|now rewrite <- RE|constructor; [now rewrite <- RC|exact G2]|now rewrite !NC, G3|now rewrite <- app_assoc in G4].
      + do 3 eexists. split; [reflexivity|]. cbn [provided]. eapply (Ends_interrupt _ _ _ _ _ []); auto; [apply (not_reached _ _ _ _ HB HN)|]. now rewrite app_nil_r.
      + do 3 eexists. split; [reflexivity|]. cbn [provided]. eapply (Ends_failure _ _ _ _ _ []); auto; [apply (not_reached _ _ _ _ HB HN)|]. now rewrite app_nil_r.
  Qed.
End Forward.
