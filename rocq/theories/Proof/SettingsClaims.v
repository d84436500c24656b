(** What the list of settings shows *)
From Coq Require Import Ascii String.
From Coq Require Import List Arith NArith ZArith Bool Lia.
From Verif.Model Require Import Base Ansi Settings Console Trace Runner SettingsDump.
From Verif.Spec Require Import Numbers Terminal Lexical SgrParams Display Output Weave SettingsShown Conditions.
From Verif.Proof Require Import BaseFacts PaintFacts ConsoleFacts MessageFacts SettingsFacts.
Import ListNotations.
Local Open Scope N_scope.

Lemma usable_plain s : usable_name s -> file_plain s.
Proof. unfold usable_name, file_plain. destruct (s_filename s); [|auto]. intros H. eapply Forall_impl; [|exact H]. intros c Hc. apply Hc. Qed.

Definition file_shown (p : N -> bool) (s : settings) : str := match s_filename s with None => lit "None" | Some f => py_repr p f end.
Lemma file_shown_text p s : usable_name s -> file_text (s_filename s) (file_shown p s).
Proof.
  unfold usable_name, file_text, file_shown. destruct (s_filename s); [|reflexivity]. intros H. apply py_repr_quoted.
  eapply Forall_impl; [|exact H]. intros c Hc. apply Hc.
Qed.

Lemma cons_eq {A} (a b : A) l r : a = b -> l = r -> a :: l = b :: r.
Proof. now intros -> ->. Qed.
Lemma attr_eq p (n : str) v x : plain_repr p v = x -> attr_text p (n, v) = n ++ lit "=" ++ x.
Proof. now intros <-. Qed.
Lemma attrs_decided p s : map (attr_text p) (own_attrs (decided s))
  = map (fun n => n ++ lit "=" ++ decided_value s (file_shown p s) n) creation_order ++ [lit "_default_read_mode=" ++ default_mode_text s].
Proof.
  unfold own_attrs, creation_order. cbn [map app]. unfold decided, get_read_mode.
  assert (B : value_text (Flag (binary_mode s)) = plain_repr p (VBool (s_binary (decided s)))).
  { unfold decided, get_read_mode, binary_mode. destruct (s_binary s) eqn:E; cbn [snd s_binary]; [now rewrite E|].
    destruct (s_text s); cbn [snd s_binary]; [now rewrite E|]. now destruct (s_default_read_mode s). }
  assert (T : value_text (Flag (s_text s || negb (binary_mode s))) = plain_repr p (VBool (s_text (decided s)))).
  { unfold decided, get_read_mode, binary_mode. destruct (s_binary s) eqn:E; cbn [snd s_text orb negb]; [now rewrite orb_false_r|].
    destruct (s_text s) eqn:E2; cbn [snd s_text orb negb andb]; [now rewrite E2|]. now destruct (s_default_read_mode s). }
  assert (F : file_shown p s = plain_repr p (match s_filename s with None => VNone | Some f => VStr f end)) by (unfold file_shown; now destruct (s_filename s)).
  assert (O : forall o, plain_repr p (opt_int o) = value_text (number_or o)) by (now destruct o).
  assert (D : default_mode_text s = plain_repr p (read_mode_value (s_default_read_mode s))) by (unfold default_mode_text; now destruct (s_default_read_mode s)).
  assert (G : plain_repr p (match s_decode s with None => VNone | Some b => VBool b end) = value_text (match s_decode s with None => Unset | Some b => Flag b end))
    by (now destruct (s_decode s) as [[]|]).
  apply cons_eq; [apply attr_eq; symmetry; exact B|].
  destruct (s_binary s) eqn:EB; [|destruct (s_text s) eqn:ET].
  all: repeat (apply cons_eq; [apply attr_eq; try reflexivity|]); try reflexivity; try apply O; try exact G; try (symmetry; exact F).
  all: try (apply cons_eq; [|reflexivity]; unfold attr_text; cbn [fst snd]; rewrite D; reflexivity).
  all: try (symmetry; change (decided_value s (file_shown p s) (lit "text")) with (value_text (Flag (s_text s || negb (binary_mode s)))); exact T).
  all: change (decided_value s (file_shown p s) (lit "text")) with (value_text (Flag (s_text s || negb (binary_mode s))));
    unfold binary_mode; rewrite EB; cbn [snd s_text orb negb]; rewrite ?orb_false_r; try reflexivity.
  - rewrite ET. reflexivity.
  - rewrite ET. now destruct (s_default_read_mode s).
Qed.
Lemma method_is p s : method_of p s = method_text s (file_shown p s).
Proof.
  unfold method_of, method_text. cbn [py_str]. unfold settings_repr. change (fun x => fst x ++ lit "=" ++ plain_repr p (snd x)) with (attr_text p).
  rewrite attrs_decided. rewrite <- !app_assoc. reflexivity.
Qed.

Lemma listed p s columns : debugged s -> usable_name s ->
  exists f, file_text (s_filename s) f /\
  shows (shown (s_debug s) (fst (debug_settings p s columns)))
        (concat (settings_rows s columns (method_text s f, method_text default_settings (lit "None")))).
Proof.
  intros HD HU. exists (file_shown p s). split; [now apply file_shown_text|].
  destruct (settings_lines p s columns HD (usable_plain _ HU)) as [L _]. apply Painted_shows.
  apply Lines_shown; [exact HD|]. unfold methods in L. rewrite !method_is in L. exact L.
Qed.
Lemma not_listed p s columns : (s_debug s < 3)%nat -> debug_settings p s columns = ([], s).
Proof. intros H. unfold debug_settings. apply Nat.ltb_lt in H. now rewrite H. Qed.
Lemma settings_after p s columns : usable_name s -> snd (debug_settings p s columns) = after_parse_args s.
Proof.
  intros HU. destruct (Nat.lt_ge_cases (s_debug s) 3) as [H|H].
  - rewrite not_listed by exact H. unfold after_parse_args. destruct (Nat.leb_spec 4 (s_debug s)); [lia|reflexivity].
  - now apply settings_lines; [|apply usable_plain].
Qed.

(** * Harmlessness *)
Definition closed_row (r : list tcell) : Prop := exists x, r = x ++ [(10, attrs0)] /\ one_line (map fst x).
Lemma styled_fst a t : map fst (styled a t) = t.
Proof. unfold styled. rewrite map_map. cbn. apply map_id. Qed.
Lemma one_line_app a b : one_line a -> one_line b -> one_line (a ++ b).
Proof. intros. now apply Forall_app. Qed.
Lemma one_line_dec t : forallb (fun c => displayable c && negb (c =? 10)) t = true -> one_line t.
Proof.
  intros H. apply Forall_forall. intros c Hc. rewrite forallb_forall in H. specialize (H _ Hc). apply andb_true_iff in H.
  destruct H as [A B]. split; [exact A|]. intros ->. discriminate.
Qed.
Lemma one_line_repeat c n : displayable c = true -> c <> 10 -> one_line (repeat c n).
Proof. intros. induction n; constructor; auto. Qed.
Lemma dec_one_line n : one_line (dec n).
Proof. eapply Forall_impl; [|apply dec_digits]. cbv beta. intros c Hc. split; [apply ascii_displayable; lia|lia]. Qed.
Lemma zdec_one_line n : one_line (zdec n).
Proof. unfold zdec. apply one_line_app; [destruct (n <? 0)%Z; now apply one_line_dec|apply dec_one_line]. Qed.
Lemma value_one_line v : (forall t, v = Words t -> one_line t) -> one_line (value_text v).
Proof.
  destruct v as [|b|n|t]; cbn [value_text]; intros H; [now apply one_line_dec|destruct b; now apply one_line_dec|apply zdec_one_line|now apply H].
Qed.
Lemma entry_closed s dv e : one_line (e_name e) -> one_line (value_text (e_value e)) -> one_line (value_text (e_default e)) -> closed_row (entry_cells s dv e).
Proof.
  intros HN HV HD. unfold entry_cells. rewrite !app_assoc. eexists. split; [reflexivity|]. rewrite !map_app, !styled_fst.
  apply one_line_app; [apply one_line_app|].
  - unfold aligned. apply one_line_app; [now apply one_line_repeat|exact HN].
  - now apply one_line_dec.
  - destruct (value_dec _ _); rewrite ?map_app, !styled_fst; [exact HD|].
    repeat apply one_line_app; try exact HV; try exact HD; now apply one_line_dec.
Qed.
Lemma rule_closed s columns x y : one_line [x] -> one_line [y] -> closed_row (rule_cells s columns x y).
Proof.
  intros HX HY. unfold rule_cells. rewrite app_assoc. eexists. split; [reflexivity|]. rewrite map_app, !styled_fst.
  assert (R : forall n, one_line (repeat 0x2500 n)) by (intros; now apply one_line_repeat).
  repeat apply one_line_app; auto.
Qed.
Lemma header_closed s : closed_row (header_cells s).
Proof.
  unfold header_cells. change [(9474, gray); (10, attrs0)] with ([(9474, gray)] ++ [(10, attrs0)]). rewrite !app_assoc. eexists. split; [reflexivity|].
  rewrite !map_app, !styled_fst. destruct (deep s); rewrite ?map_app, ?styled_fst; repeat apply one_line_app; try (now apply one_line_repeat); now apply one_line_dec.
Qed.
Lemma options_closed s : safe_name s -> Forall closed_row (map (entry_cells s false) (options s)).
Proof.
  intros HS. unfold options. cbn [map]. unfold safe_name in HS.
  repeat (apply Forall_cons; [apply entry_closed; [now apply one_line_dec| |apply value_one_line; discriminate]|]); [..|apply Forall_nil];
    cbn [e_value]; try (apply value_one_line; discriminate);
    try (match goal with |- one_line (value_text (number_or ?x)) => destruct x; apply value_one_line; discriminate end).
  - destruct (s_decode s); apply value_one_line; discriminate.
  - destruct (s_filename s); apply value_one_line; [intros t [= <-]; exact HS|discriminate].
Qed.
Lemma join_one_line sep l : one_line sep -> Forall one_line l -> one_line (join sep l).
Proof.
  intros HS. induction 1 as [|x l Hx Hl IH]; [constructor|]. cbn [join]. destruct l; [exact Hx|].
  apply one_line_app; [exact Hx|]. apply one_line_app; [exact HS|exact IH].
Qed.
Definition simple_word (v : pyval) : Prop := match v with VEnum c n _ => one_line c /\ one_line n | _ => True end.
Lemma plain_repr_line p v : safe_printable p -> simple_word v -> one_line (plain_repr p v).
Proof.
  intros HP. destruct v as [|b|n|t|c n t|n s']; cbn [plain_repr simple_word]; intros H.
  - now apply one_line_dec.
  - destruct b; now apply one_line_dec.
  - apply zdec_one_line.
  - now apply py_repr_safe.
  - destruct H as [Hc Hn]. apply one_line_app; [now apply one_line_dec|]. apply one_line_app; [exact Hc|]. apply one_line_app; [now apply one_line_dec|].
    apply one_line_app; [exact Hn|]. apply one_line_app; [now apply one_line_dec|]. apply one_line_app; [now apply py_repr_safe|now apply one_line_dec].
  - constructor.
Qed.
Lemma own_attrs_words s : Forall (fun x => one_line (fst x) /\ simple_word (snd x)) (own_attrs s).
Proof.
  unfold own_attrs. repeat (apply Forall_cons; [split; [now apply one_line_dec|]|]); [..|apply Forall_nil];
    cbn [snd]; try exact I;
    repeat match goal with |- simple_word (opt_int ?x) => destruct x; exact I | |- simple_word (match ?x with _ => _ end) => destruct x; exact I end.
  destruct (s_default_read_mode s); split; now apply one_line_dec.
Qed.
Lemma method_line p s : safe_printable p -> one_line (method_of p s).
Proof.
  intros HP. unfold method_of. cbn [py_str]. unfold settings_repr.
  apply one_line_app; [now apply one_line_dec|]. apply one_line_app; [now apply one_line_dec|]. apply one_line_app; [now apply one_line_dec|].
  apply one_line_app; [|now apply one_line_dec]. apply one_line_app; [now apply one_line_dec|]. apply one_line_app; [|now apply one_line_dec].
  apply join_one_line; [now apply one_line_dec|]. apply Forall_map. eapply Forall_impl; [|apply own_attrs_words].
  intros [a v] [Ha Hv]. cbn [fst snd] in *. apply one_line_app; [exact Ha|]. apply one_line_app; [now apply one_line_dec|now apply plain_repr_line].
Qed.
Lemma consequences_closed s m : one_line (fst m) -> one_line (snd m) -> Forall closed_row (map (entry_cells s true) (consequences s m)).
Proof.
  intros H1 H2. unfold consequences, class_entry. cbn [map].
  assert (C : forall c, one_line (class_word s c)) by (intros c; unfold class_word; destruct (s_ignore s c), (s_focus s c); now apply one_line_dec).
  repeat (apply Forall_cons; [apply entry_closed; [now apply one_line_dec| |]|]); [..|apply Forall_nil];
    cbn [e_value e_default]; try (apply value_one_line; discriminate); apply value_one_line; intros t [= <-]; try exact H1; try exact H2; try apply C; try now apply one_line_dec.
  - unfold details_word. destruct (s_binary s); [now apply one_line_dec|]. destruct (marker_level s); now apply one_line_dec.
  - destruct (binary_mode s); now apply one_line_dec.
Qed.
Lemma rows_closed p s columns : safe_printable p -> safe_name s -> Forall closed_row (settings_rows s columns (methods p s)).
Proof.
  intros HP HS. unfold settings_rows. apply Forall_app. split; [constructor; [apply rule_closed; now apply one_line_dec|constructor; [apply header_closed|constructor]]|].
  apply Forall_app. split; [now apply options_closed|]. apply Forall_app. split.
  - destruct (deep s); [|constructor]. apply consequences_closed; now apply method_line.
  - constructor; [apply rule_closed; now apply one_line_dec|constructor].
Qed.

Lemma Painted_harmless m r : Painted attrs0 m attrs0 (map to_cell r) -> closed_row r -> harmless_line m.
Proof.
  intros P (x & -> & O). pose proof (Painted_screen _ _ _ P) as S. split; [|split; [now apply (Painted_final _ _ _ P)|]].
  - unfold clean. rewrite S, map_app, forallb_app. apply andb_true_iff. split; [|reflexivity].
    clear P S. induction x as [|[c a] x IH]; [reflexivity|]. inversion O as [|? ? [D _] O']; subst. cbn [map forallb].
    rewrite (IH O'), andb_true_r. unfold to_cell. cbn in D |- *. rewrite D. reflexivity.
  - rewrite (Painted_visible _ _ _ P), map_to_cell_char, map_app. exists (map fst x). split; [reflexivity|].
    intros I. unfold one_line in O. rewrite Forall_forall in O. destruct (O _ I) as [_ H]. now apply H.
Qed.
Lemma harmless_list p s columns : safe_printable p -> safe_name s ->
  forall m, In m (fst (debug_settings p s columns)) -> exists t, m = TDbg 3 t /\ harmless_line t.
Proof.
  intros HP HS m Hm. destruct (Nat.lt_ge_cases (s_debug s) 3) as [H|H].
  { rewrite not_listed in Hm by exact H. destruct Hm. }
  assert (HF : file_plain s).
  { unfold file_plain, safe_name in *. destruct (s_filename s); [|exact I]. eapply Forall_impl; [|exact HS]. intros c [D _] ->. discriminate. }
  destruct (settings_lines p s columns H HF) as [L _]. pose proof (rows_closed p s columns HP HS) as C.
  revert C m Hm. induction L as [|x r l rows (t & -> & P) L IH]; intros C m Hm; [destruct Hm|].
  inversion C; subst. destruct Hm as [<-|Hm]; [|now apply IH]. exists t. split; [reflexivity|]. eapply Painted_harmless; eassumption.
Qed.

(** * The list determines the options *)
Lemma value_text_inj v w : (forall t, v <> Words t) -> (forall t, w <> Words t) -> value_text v = value_text w -> v = w.
Proof.
  intros HV HW H.
  assert (Z : forall n k, zdec n = k -> exists c, In c k /\ (48 <= c <= 57)).
  { intros n k <-. unfold zdec. pose proof (dec_digits (Z.to_N (Z.abs n))) as D.
    destruct (dec (Z.to_N (Z.abs n))) as [|c r] eqn:E; [now apply dec_nonempty in E|].
    inversion D; subst. exists c. split; [apply in_or_app; right; now left|lia]. }
  destruct v as [|[]|n|t], w as [|[]|m|u]; try reflexivity; try (now elim (HV _ eq_refl)); try (now elim (HW _ eq_refl));
    try discriminate; try (cbn [value_text] in H; now rewrite (zdec_inj _ _ H));
    exfalso; cbn [value_text] in H; [symmetry in H| symmetry in H| symmetry in H|..]; apply Z in H; destruct H as (c & I & B); vm_compute in I;
    repeat (destruct I as [<-|I]; [lia|]); destruct I.
Qed.

Definition is_words (v : value) : bool := match v with Words _ => true | _ => false end.
(** values of the same setting: never texts, or texts whose default is unset *)
Definition Alike (e e' : entry) : Prop :=
  e_name e = e_name e' /\ e_default e = e_default e' /\
  ((is_words (e_value e) = false /\ is_words (e_value e') = false) \/
   (e_default e = Unset /\ (e_value e = Unset \/ is_words (e_value e) = true) /\ (e_value e' = Unset \/ is_words (e_value e') = true))).
Lemma not_words v : is_words v = false -> forall t, v <> Words t.
Proof. intros H t ->. discriminate. Qed.
Lemma styled_inj a x y : styled a x = styled a y -> x = y.
Proof. intros H. rewrite <- (styled_fst a x), <- (styled_fst a y). now rewrite H. Qed.
Lemma aligned_first w t : (0 < w)%nat -> exists c r, aligned w t = c :: r.
Proof. intros H. unfold aligned. destruct t as [|c t]; [destruct w; [lia|]; cbn; eauto|]. destruct (repeat 32 (w - length (c :: t))); cbn; eauto. Qed.
Lemma label_first (a : attrs) w t : (0 < w)%nat -> exists c r, styled a (aligned w t) = (c, a) :: r.
Proof. intros H. destruct (aligned_first w t H) as (c & r & ->). cbn. eauto. Qed.
Lemma cons_inv {A} (a b : A) l r : a :: l = b :: r -> a = b /\ l = r.
Proof. intros [= -> ->]. auto. Qed.

Lemma entry_inj s s' dv e e' : label_width s = label_width s' -> Alike e e' -> entry_cells s dv e = entry_cells s' dv e' -> e = e'.
Proof.
  intros HW (HN & HD & HK) H. unfold entry_cells in H. rewrite <- HW, <- HN, <- HD in H.
  assert (P : (0 < label_width s)%nat) by (unfold label_width; destruct (deep s); lia).
  assert (V : e_value e = e_value e').
  { destruct (value_dec (e_value e) (e_default e)) as [E1|E1]; destruct (value_dec (e_value e') (e_default e)) as [E2|E2].
    - congruence.
    - exfalso. destruct (label_first (set_italic dv (set_bold false on_black)) _ (e_name e) P) as (c & r & Q). rewrite Q in H.
      destruct (label_first (set_italic dv (set_bold true on_black)) _ (e_name e) P) as (c' & r' & Q'). rewrite Q' in H.
      cbn [app] in H. apply cons_inv in H. destruct H as [H _]. discriminate.
    - exfalso. destruct (label_first (set_italic dv (set_bold false on_black)) _ (e_name e) P) as (c & r & Q). rewrite Q in H.
      destruct (label_first (set_italic dv (set_bold true on_black)) _ (e_name e) P) as (c' & r' & Q'). rewrite Q' in H.
      cbn [app] in H. apply cons_inv in H. destruct H as [H _]. discriminate.
    - apply app_inv_head in H. apply app_inv_head in H. apply app_inv_tail in H. apply app_inv_tail in H. apply styled_inj in H.
      destruct HK as [[W1 W2]|(HU & W1 & W2)].
      + apply value_text_inj; [now apply not_words|now apply not_words|exact H].
      + destruct W1 as [W1|W1]; [congruence|]. destruct W2 as [W2|W2]; [congruence|].
        destruct (e_value e), (e_value e'); try discriminate. cbn in H. now subst. }
  destruct e, e'; cbn in *. now subst.
Qed.

Lemma options_alike s s' : Forall2 Alike (options s) (options s').
Proof.
  unfold options.
  assert (O : forall o, is_words (number_or o) = false) by (now destruct o).
  repeat (apply Forall2_cons; [split; [reflexivity|]; split; [reflexivity|]; cbn [e_value e_default]|]); [..|apply Forall2_nil];
    try (left; split; (reflexivity || apply O)).
  - left. split; [now destruct (s_decode s)|now destruct (s_decode s')].
  - right. split; [reflexivity|]. split; [destruct (s_filename s); auto|destruct (s_filename s'); auto].
Qed.

Lemma closed_split r r' x y : closed_row r -> closed_row r' -> r ++ x = r' ++ y -> r = r' /\ x = y.
Proof.
  intros (a & -> & HA) (b & -> & HB) H. rewrite <- !app_assoc in H. cbn [app] in H. revert b HB H.
  induction a as [|[c z] a IH]; intros [|[d w] b] HB H; cbn [app] in H.
  - injection H as ->. auto.
  - exfalso. injection H as E _ _. cbn in HB. inversion HB as [|? ? [_ K] _]; subst. now apply K.
  - exfalso. injection H as E _ _. cbn in HA. inversion HA as [|? ? [_ K] _]; subst. now apply K.
  - injection H as -> -> H. cbn in HA, HB. inversion HA; subst. inversion HB; subst. destruct (IH H3 b H5 H) as [E ->]. cbn [app]. split; [now f_equal|reflexivity].
Qed.
Lemma closed_nonempty r : closed_row r -> r <> [].
Proof. intros (a & -> & _). destruct a; discriminate. Qed.
Lemma rows_inj rows rows' : Forall closed_row rows -> Forall closed_row rows' -> concat rows = concat rows' -> rows = rows'.
Proof.
  intros H. revert rows'. induction H as [|r rows Hr H IH]; intros rows' H' E.
  - destruct H' as [|r' rows' Hr' H']; [reflexivity|]. exfalso. cbn in E. symmetry in E. apply app_eq_nil in E. destruct E as [E _]. now apply closed_nonempty in E.
  - destruct H' as [|r' rows' Hr' H'].
    + exfalso. cbn in E. apply app_eq_nil in E. destruct E as [E _]. now apply closed_nonempty in E.
    + cbn in E. apply closed_split in E; [|exact Hr|exact Hr']. destruct E as [-> E]. now rewrite (IH _ H' E).
Qed.
Lemma to_cell_inj l l' : Forall (fun x => displayable (fst x) = true) l -> Forall (fun x => displayable (fst x) = true) l' -> map to_cell l = map to_cell l' -> l = l'.
Proof.
  intros H. revert l'. induction H as [|[c a] l Hx H IH]; intros l' H' E; destruct H' as [|[d b] l' Hy H']; cbn [map] in E; try discriminate; [reflexivity|].
  unfold to_cell at 1 3 in E. rewrite Hx, Hy in E. cbn [fst snd] in E. apply cons_inv in E. destruct E as [E F]. injection E as -> ->. f_equal. now apply IH.
Qed.
Lemma closed_displayable rows : Forall closed_row rows -> Forall (fun x => displayable (fst x) = true) (concat rows).
Proof.
  induction 1 as [|r rows (x & -> & O) H IH]; [constructor|]. cbn [concat]. apply Forall_app. split; [|exact IH].
  apply Forall_app. split; [|constructor; [reflexivity|constructor]]. clear IH H.
  induction x as [|y x IH]; [constructor|]. cbn in O. inversion O as [|? ? [D _] O']; subst. constructor; [exact D|now apply IH].
Qed.

Lemma map_inj2 {A B} (R : A -> A -> Prop) (f g : A -> B) l l' : (forall a b, R a b -> f a = g b -> a = b) -> Forall2 R l l' -> map f l = map g l' -> l = l'.
Proof.
  intros HR. induction 1 as [|a b l l' H F IH]; intros E; [reflexivity|]. cbn in E. apply cons_inv in E. destruct E as [E1 E2].
  rewrite (HR _ _ H E1), (IH E2). reflexivity.
Qed.
Lemma app_inj_len {A} (a b x y : list A) : length a = length b -> a ++ x = b ++ y -> a = b /\ x = y.
Proof. revert b. induction a as [|c a IH]; intros [|d b] L H; try discriminate; [auto|]. cbn in *. injection L as L. apply cons_inv in H. destruct H as [-> H]. destruct (IH _ L H) as [-> ->]. auto. Qed.

Lemma list_determines p s s' columns : safe_printable p -> debugged s -> debugged s' -> safe_name s -> safe_name s' ->
  screen (shown (s_debug s) (fst (debug_settings p s columns))) = screen (shown (s_debug s') (fst (debug_settings p s' columns))) ->
  options s = options s'.
Proof.
  intros HP HD HD' HS HS' E.
  assert (HF : forall x, safe_name x -> file_plain x).
  { intros x Hx. unfold file_plain, safe_name in *. destruct (s_filename x); [|exact I]. eapply Forall_impl; [|exact Hx]. intros c [D _] ->. discriminate. }
  destruct (settings_lines p s columns HD (HF _ HS)) as [L _]. destruct (settings_lines p s' columns HD' (HF _ HS')) as [L' _].
  apply Lines_shown with (k := s_debug s) in L; [|exact HD]. apply Lines_shown with (k := s_debug s') in L'; [|exact HD'].
  rewrite (Painted_screen _ _ _ L), (Painted_screen _ _ _ L') in E.
  pose proof (rows_closed p s columns HP HS) as C. pose proof (rows_closed p s' columns HP HS') as C'.
  apply to_cell_inj in E; [|now apply closed_displayable|now apply closed_displayable]. apply rows_inj in E; [|exact C|exact C'].
  assert (DD : deep s = deep s').
  { apply (f_equal (@length _)) in E. unfold settings_rows in E. rewrite !app_length in E. destruct (deep s), (deep s'); [reflexivity| | |reflexivity]; vm_compute in E; discriminate. }
  unfold settings_rows in E. apply app_inj_len in E; [|reflexivity]. destruct E as [_ E].
  apply app_inj_len in E; [|rewrite !map_length; reflexivity]. destruct E as [E _].
  eapply map_inj2; [|apply (options_alike s s')|exact E]. intros a b HAB. apply entry_inj; [unfold label_width; now rewrite DD|exact HAB].
Qed.
