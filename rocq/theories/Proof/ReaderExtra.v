(** Claims about the reader with any callback: C31, C32, C34, C35 *)
From Coq Require Import List Arith NArith ZArith Bool Lia.
From Verif.Model Require Import Base Settings Template Parser Reader Runner Options.
From Verif.Spec Require Import Terminal Display Output Dump Input.
From Verif.Proof Require Import ReaderFacts RunMain MoreClaims.
Import ListNotations.
Local Open Scope Z_scope.

(** ** the calls as part of the state *)
Section Log.
  Context {St : Type}.
  Variable cb : St -> bytes -> Z -> bool -> St * cb_res.
  Definition logged (x : St * list (list N * Z * bool)) (raw : bytes) (off : Z) (fin : bool) : (St * list (list N * Z * bool)) * cb_res :=
    let '(st, log) := x in let '(st', r) := cb st raw off fin in ((st', log ++ [(raw, off, fin)]), r).
  Definition with_log (log : list (list N * Z * bool)) (x : St * list action * reader_end) : (St * list (list N * Z * bool)) * list action * reader_end :=
    let '(st, acts, en) := x in ((st, log ++ calls acts), acts, en).

  Lemma finish_logged raw off st log : read_finish logged raw off (st, log) = with_log log (read_finish cb raw off st).
  Proof. unfold read_finish, logged. destruct (cb st raw off true) as [st' []]; reflexivity. Qed.
  Lemma pre_logged a log x : calls a = [] -> pre a (with_log log x) = with_log log (pre a x).
  Proof. intros H. destruct x as [[st l] en]. cbn. now rewrite calls_app, H. Qed.
  Lemma pre_logged_call a raw off fin log x : calls a = [(raw, off, fin)] -> pre a (with_log (log ++ [(raw, off, fin)]) x) = with_log log (pre a x).
  Proof. intros H. destruct x as [[st l] en]. cbn. rewrite calls_app, H. now rewrite <- app_assoc. Qed.
  Lemma loop_logged mb ml src evs : forall off lines st log,
    read_loop logged mb ml src evs off lines (st, log) = with_log log (read_loop cb mb ml src evs off lines st).
  Proof.
    induction evs as [|ev evs IH]; intros off lines st log; cbn [read_loop].
    - rewrite finish_logged. now apply pre_logged.
    - destruct ev as [[|b raw]| |].
      + rewrite finish_logged. now apply pre_logged.
      + destruct (tell_fails src); [cbn; now rewrite app_nil_r|]. destruct (apply_max_lines ml (b :: raw) lines) as [raw1 lines1].
        destruct (match limit_on mb with Some m => m <? off + zlen raw1 | None => false end); [rewrite finish_logged; now apply pre_logged|].
        cbn [logged]. destruct (cb st raw1 off false) as [st1 []]; try reflexivity.
        match goal with |- context [if ?b then _ else _] => destruct b end.
        * rewrite finish_logged. now apply pre_logged_call.
        * rewrite IH. now apply pre_logged_call.
      + cbn. now rewrite app_nil_r.
      + cbn. now rewrite app_nil_r.
  Qed.
End Log.

(** ** C31, C32 *)

Lemma nonempty_concat cs : concat (nonempty cs) = concat cs.
Proof. induction cs as [|[|b c] cs IH]; cbn [nonempty filter concat]; [reflexivity|exact IH|]. cbn. now rewrite <- IH. Qed.

Lemma reader_total {St} (cb : St -> bytes -> Z -> bool -> St * cb_res) mb ml src evs d st st' acts en :
  returns cb -> opens src -> Limited mb ml (concat (provided evs)) d -> read cb mb ml src evs st = (st', acts, en) ->
  data_of acts = d /\
  ((ending_of evs = At_eof \/ Stops mb ml (concat (provided evs))) ->
     en = REnd /\ exists l c, calls acts = l ++ [c] /\ call_last c = true /\ Forall (fun x => call_last x = false) l) /\
  (~ Stops mb ml (concat (provided evs)) -> ending_of evs = At_interrupt -> en = REnd /\ Forall (fun x => call_last x = false) (calls acts)) /\
  (~ Stops mb ml (concat (provided evs)) -> ending_of evs = At_failure -> en = RError OSError /\ Forall (fun x => call_last x = false) (calls acts)).
Proof.
  intros HR HS HL H. destruct (limited_within _ _ _ _ HL) as (rb & rn & RB & RN & ED).
  set (Inv := fun (x : St * list (list N * Z * bool)) (done : list (list N)) => map call_data (snd x) = done /\ Forall (fun c => call_last c = false) (snd x)).
  set (Fin := fun (x : St * list (list N * Z * bool)) (done : list (list N)) => map call_data (snd x) = done /\ exists l c, snd x = l ++ [c] /\ call_last c = true /\ Forall (fun c => call_last c = false) l).
  destruct (loop_forward (logged cb) mb ml src Inv Fin (fun _ _ => False) (fun _ => True) (fun _ => True) OSError) with (evs := evs) (rb := rb) (rn := rn) (off := 0) (lines := 0) (st := (st, @nil (list N * Z * bool))) (done := @nil (list N))
    as (x & acts' & en' & E & R); auto.
  - intros [s0 log] done c off fin [I1 I2] _. unfold logged. specialize (HR s0 c off fin). destruct (cb s0 c off fin) as [s1 r]. cbn in HR. subst r.
    eexists. split; [reflexivity|]. cbn [snd] in *. destruct fin; unfold Fin, Inv; cbn [snd].
    + split; [now rewrite map_app, <- I1|]. do 2 eexists. repeat split; auto.
    + split; [now rewrite map_app, <- I1|]. apply Forall_app. split; auto.
  - intros ? ? ? ? ? ? _ K. now destruct K.
  - now apply opens_tell.
  - apply Forall_forall. auto.
  - split; constructor.
  - rewrite loop_logged in E. unfold read in H. assert (K : exists l, read_loop cb mb ml src evs 0 0 st = (st', l, en) /\ acts = AOpen :: l).
    { destruct HS as [-> | ->]; apply pre_inv in H as (l & -> & ->); eauto. }
    destruct K as (l & K & ->). rewrite K in E. cbn [with_log app] in E. injection E as <- <- <-. change (calls (AOpen :: l)) with (calls l). change (data_of (AOpen :: l)) with (data_of l).
    assert (ST : reached rb rn (concat (provided evs)) <-> Stops mb ml (concat (provided evs))) by now apply reached_stops.
    assert (DD : forall cs, nonempty cs = nonempty (first_bytes (length (within rb rn (concat (provided evs)))) (provided evs)) -> map call_data (calls l) = cs -> data_of l = d).
    { intros cs EN EC. unfold data_of. rewrite flat_map_concat_map, EC, <- nonempty_concat, EN, nonempty_concat, concat_first, <- ED.
      destruct (limited_prefix _ _ _ _ HL) as [rest ER]. rewrite ER, firstn_app, Nat.sub_diag, firstn_all. cbn [firstn]. now rewrite app_nil_r. }
    destruct R as [cs _ EN [F1 F2] C|cs c rest _ NG _ _|cs EE NC _ EN [I1 I2]|cs EE NC _ EN [I1 I2]]; cbn [snd app] in *.
    + split; [now apply (DD cs)|]. split; [|split].
      * intros _. split; [reflexivity|exact F2].
      * intros NS K1. exfalso. destruct C as [C|C]; [congruence|]. now apply NS, ST.
      * intros NS K1. exfalso. destruct C as [C|C]; [congruence|]. now apply NS, ST.
    + now destruct NG.
    + split; [now apply (DD cs)|]. split; [|split].
      * intros [K1|K1]; [congruence|]. exfalso. now apply NC, ST.
      * auto.
      * congruence.
    + split; [now apply (DD cs)|]. split; [|split].
      * intros [K1|K1]; [congruence|]. exfalso. now apply NC, ST.
      * congruence.
      * auto.
Qed.

Lemma reader_contiguous {St} (cb : St -> bytes -> Z -> bool -> St * cb_res) mb ml src evs st st' acts en :
  read cb mb ml src evs st = (st', acts, en) -> Contiguous 0 (calls acts) /\ exists rest, concat (provided evs) = data_of acts ++ rest.
Proof.
  unfold read. destruct src; [| |intros [= <- <- <-]; split; [constructor|eexists; reflexivity]]; intros H; apply pre_inv in H as (l & H & ->);
    apply loop_shape in H as (H1 & _ & H3); auto.
Qed.

(** Contiguous calls carry the number of bytes passed before *)
Lemma contiguous_nth off l : Contiguous off l -> forall i c, nth_error l i = Some c -> call_offset c = off + zlen (flat_map call_data (firstn i l)) /\ (call_last c = true -> S i = length l).
Proof.
  induction 1 as [off|raw off|raw off r H IH]; intros i c Hn.
  - destruct i; discriminate.
  - destruct i as [|[|i]]; try discriminate. injection Hn as <-. cbn. split; [unfold zlen; cbn; lia|reflexivity].
  - destruct i as [|i].
    + injection Hn as <-. cbn. split; [unfold zlen; cbn; lia|discriminate].
    + cbn [nth_error firstn flat_map length] in *. destruct (IH _ _ Hn) as [I1 I2]. split; [|intros K; now rewrite I2].
      rewrite I1. unfold call_data at 2. cbn [fst]. unfold zlen. rewrite app_length. lia.
Qed.
Lemma reader_offsets {St} (cb : St -> bytes -> Z -> bool -> St * cb_res) mb ml src evs st st' acts en :
  read cb mb ml src evs st = (st', acts, en) -> forall i c, nth_error (calls acts) i = Some c ->
    call_offset c = Z.of_nat (length (flat_map call_data (firstn i (calls acts)))) /\ (call_last c = true -> S i = length (calls acts)).
Proof. intros H i c Hn. destruct (reader_contiguous _ _ _ _ _ _ _ _ _ H) as [HC _]. destruct (contiguous_nth _ _ HC i c Hn). auto. Qed.

(** ** C34 *)
Lemma reader_closes {St} (cb : St -> bytes -> Z -> bool -> St * cb_res) mb ml src evs st st' acts en :
  read cb mb ml src evs st = (st', acts, en) ->
  (src = SrcMissing /\ acts = [] /\ en = RError OSError) \/
  (src <> SrcMissing /\ exists l, acts = AOpen :: l /\ closes l en).
Proof.
  unfold read. destruct src; [| |intros [= <- <- <-]; left; repeat split]; intros H; right; (split; [discriminate|]); apply pre_inv in H as (l & H & ->);
    apply loop_shape in H as (_ & H2 & _); exists l; (split; [reflexivity|exact H2]).
Qed.

(** ** limits: nothing is read after a limit has been reached *)
Lemma loop_stops {St} (cb : St -> bytes -> Z -> bool -> St * cb_res) mb ml src head evs1 evs2 : forall rb rn off lines st,
  Remains mb off rb -> Remains ml lines rn -> reached rb rn (concat (provided head)) -> length (provided head) = length head ->
  read_loop cb mb ml src (head ++ evs1) off lines st = read_loop cb mb ml src (head ++ evs2) off lines st.
Proof.
  induction head as [|ev head IH]; intros rb rn off lines st HB HN HR HL.
  - exfalso. apply (not_reached mb ml rb rn off lines HB HN HR).
  - destruct ev as [[|b raw]| |]; try discriminate. cbn [app read_loop]. set (c := b :: raw) in *.
    change (provided (RData c :: head)) with (c :: provided head) in *. cbn [concat] in HR. injection HL as HL.
    destruct (tell_fails src); [reflexivity|].
    assert (EA : apply_max_lines ml c lines = (within None rn c, match rn with Some l => Z.min (lines + Z.of_nat l) (lines + Z.of_nat (feeds c)) | None => lines end)).
    { unfold apply_max_lines, within. destruct rn as [l|]; cbn in HN.
      - destruct HN as (m & -> & Hm & Hu & ->). rewrite limit_on_some by exact Hm. rewrite crop_spec by lia. f_equal. lia.
      - now rewrite limit_on_none. }
    rewrite EA. set (raw1 := within None rn c) in *. set (lines1 := match rn with Some l => _ | None => lines end).
    destruct (match limit_on mb with Some m => m <? off + zlen raw1 | None => false end); [reflexivity|].
    destruct (cb st raw1 off false) as [st1 []]; try reflexivity.
    match goal with |- context [if ?b then _ else _] => destruct b eqn:ES end; [reflexivity|].
    f_equal. apply orb_false_iff in ES as [SB SN].
    assert (L : match rn with Some l => (feeds c < l)%nat | None => True end).
    { destruct rn as [l|]; [|exact I]. destruct HN as (m & EM & Hm & Hu & El). rewrite EM, limit_on_some in SN by exact Hm. apply Z.leb_gt in SN. unfold lines1 in SN. lia. }
    assert (R1 : raw1 = c). { unfold raw1, within. destruct rn; [now apply before_line_all|reflexivity]. }
    rewrite R1 in *. clearbody c.
    apply (IH (option_map (fun n => n - length c)%nat rb) (option_map (fun l => l - feeds c)%nat rn)).
    + destruct rb as [n|]; cbn in HB |- *; [|exact HB]. destruct HB as (m & EM & Hm & Hu & En). rewrite EM, limit_on_some in SB by exact Hm. apply Z.leb_gt in SB. unfold zlen in *.
      exists m. repeat split; auto; lia.
    + unfold lines1. destruct rn as [l|]; cbn in HN |- *; [|exact HN]. destruct HN as (m & EM & Hm & Hu & El). exists m. repeat split; auto; lia.
    + destruct HR as [(n & -> & LB)|(l & -> & LL)].
      * left. exists (n - length c)%nat. split; [reflexivity|]. cbn [option_map]. unfold within in *. destruct rn as [l|]; cbn [option_map].
        -- rewrite before_line_app in LB by lia. destruct (Nat.ltb_spec (feeds c) l); [|lia].
           rewrite firstn_length, app_length in LB. rewrite firstn_length. lia.
        -- rewrite firstn_length, app_length in LB. rewrite firstn_length. lia.
      * right. exists (l - feeds c)%nat. split; [reflexivity|]. rewrite !feeds_filter in *. rewrite filter_app, app_length in LL. lia.
    + exact HL.
Qed.
Lemma reader_stops {St} (cb : St -> bytes -> Z -> bool -> St * cb_res) mb ml src datas evs1 evs2 st :
  Forall (fun c => c <> []) datas -> Stops mb ml (concat datas) -> (exists d, Limited mb ml (concat datas) d) ->
  read cb mb ml src (map RData datas ++ evs1) st = read cb mb ml src (map RData datas ++ evs2) st.
Proof.
  intros HN HS [d HL]. unfold read. assert (EP : provided (map RData datas) = datas).
  { clear HS HL. induction HN as [|c l Hc _ IH]; [reflexivity|]. cbn [map provided]. destruct c; [easy|]. now rewrite IH. }
  destruct (limited_within _ _ _ _ HL) as (rb & rn & RB & RN & ED).
  assert (K : read_loop cb mb ml src (map RData datas ++ evs1) 0 0 st = read_loop cb mb ml src (map RData datas ++ evs2) 0 0 st).
  { apply (loop_stops cb mb ml src (map RData datas) evs1 evs2 rb rn); auto; rewrite EP; [now apply reached_stops with (mb := mb) (ml := ml)|now rewrite map_length]. }
  destruct src; rewrite ?K; reflexivity.
Qed.
Lemma run_stops s tc src datas evs1 evs2 : Forall (fun c => c <> []) datas -> Stops (s_max_bytes s) (s_max_lines s) (concat datas) ->
  (exists d, Limited (s_max_bytes s) (s_max_lines s) (concat datas) d) ->
  byteio_run s tc src (map RData datas ++ evs1) = byteio_run s tc src (map RData datas ++ evs2).
Proof. intros. rewrite !run_read. now apply reader_stops. Qed.

(** ** C35 *)
Lemma seekable_same s tc evs : byteio_run s tc SrcStdin evs = byteio_run s tc (SrcFile true) evs.
Proof.
  rewrite !run_read. unfold read. reflexivity.
Qed.
Lemma unseekable_fails s tc evs : provided evs <> [] -> exists p acts, byteio_run s tc (SrcFile false) evs = (p, acts, RError OSError) /\ pr_out p = [].
Proof.
  intros H. rewrite run_read. destruct evs as [|[[|b raw]| |] evs]; try (now destruct H); do 2 eexists; split; reflexivity.
Qed.
Lemma unseekable_witness : exists s tc evs p acts p' acts',
  byteio_run s tc (SrcFile true) evs = (p, acts, REnd) /\ visible (pr_out p) <> [] /\ byteio_run s tc (SrcFile false) evs = (p', acts', RError OSError) /\ pr_out p' = [].
Proof.
  exists default_settings, 80, [RData [65%N]]. do 4 eexists. split; [vm_compute; reflexivity|]. split; [vm_compute; discriminate|]. split; vm_compute; reflexivity.
Qed.
Lemma max_lines_witness : exists s tc evs p acts, binary_mode s = false /\ s_max_lines s = Some 1 /\ provided evs = [[10%N; 65%N]] /\
  byteio_run s tc SrcStdin evs = (p, acts, REnd) /\ text_lines (visible (pr_out p)) = [].
Proof. exists (apply_opt default_settings (O_max_lines 1)), 80, [RData [10%N; 65%N]]. do 2 eexists. repeat split. Qed.
