(** Proofs about the list of settings *)
From Coq Require Import Ascii String.
From Coq Require Import List Arith NArith ZArith Bool Lia.
From Verif.Model Require Import Base Ansi Regex Strip Settings Console Filters Trace Runner SettingsDump.
From Verif.Spec Require Import Numbers Terminal Lexical SgrParams Display Output Weave SettingsShown Conditions.
From Verif.Proof Require Import BaseFacts PaintFacts ConsoleFacts MessageFacts.
Import ListNotations.
Local Open Scope N_scope.

Definition own_names : list str := Eval vm_compute in
  filter (fun a => negb (is_derived default_settings a)) (dump_attrs default_settings).
Definition derived_before : list str :=
  [ lit "debug_buffer_contents"; lit "debug_buffer_contents_full"; lit "debug_settings"; lit "debug_settings_derived";
    lit "effective_marker_details"; lit "effective_print_offsets" ].
Definition derived_names : list str := derived_before ++ [lit "read_mode"; lit "set_default_read_mode"].

Lemma dump_attrs_eq s : dump_attrs s = own_names ++ (if (4 <=? s_debug s)%nat then derived_names else []).
Proof. unfold dump_attrs. destruct (4 <=? s_debug s)%nat; vm_compute; reflexivity. Qed.
Lemma own_names_eq s : own_names = map e_name (options s).
Proof. vm_compute. reflexivity. Qed.
Lemma max_attr_len_eq s : max_attr_len s = label_width s.
Proof. unfold max_attr_len, label_width, deep. rewrite dump_attrs_eq. destruct (4 <=? s_debug s)%nat; vm_compute; reflexivity. Qed.

Lemma assoc_names {A} k (l l' : list (str * A)) : map fst l = map fst l' ->
  match assoc k l with Some _ => false | None => true end = match assoc k l' with Some _ => false | None => true end.
Proof.
  revert l'. induction l as [|[a x] l IH]; intros [|[b y] l'] H; try discriminate; [reflexivity|].
  cbn in H. injection H as -> H. cbn [assoc]. destruct (eqb_list k b); [reflexivity|]. now apply IH.
Qed.
Lemma is_derived_any s s' a : is_derived s a = is_derived s' a.
Proof. apply assoc_names. vm_compute. reflexivity. Qed.

Lemma label_width_debug s s' : s_debug s = s_debug s' -> label_width s = label_width s'.
Proof. unfold label_width, deep. now intros ->. Qed.
Lemma get_separator_debug s s' : s_debug s = s_debug s' -> get_separator s = get_separator s'.
Proof. unfold get_separator. now intros ->. Qed.
Lemma debug_print_debug p s s' a v w : s_debug s = s_debug s' -> debug_print p s a v w = debug_print p s' a v w.
Proof.
  intros H. unfold debug_print. rewrite !max_attr_len_eq, (label_width_debug s s' H), (get_separator_debug s s' H), (is_derived_any s s' a). reflexivity.
Qed.

Lemma zdec_plain n : plain_text (zdec n).
Proof. unfold zdec. apply Forall_app. split; [destruct (n <? 0)%Z; [now repeat constructor|constructor]|apply dec_no27]. Qed.
Lemma lit_plain x : forallb (fun c => negb (c =? 27)) (lit x) = true -> plain_text (lit x).
Proof. intros H. apply Forall_forall. intros c Hc E. subst. rewrite forallb_forall in H. specialize (H _ Hc). discriminate. Qed.
Lemma plain_app a b : plain_text a -> plain_text b -> plain_text (a ++ b).
Proof. intros. now apply Forall_app. Qed.
Lemma repeat_plain c n : c <> 27 -> plain_text (repeat c n).
Proof. intros H. induction n; constructor; auto. Qed.
Lemma value_plain v : (forall t, v = Words t -> plain_text t) -> plain_text (value_text v).
Proof.
  destruct v as [|b|n|t]; cbn [value_text]; intros H.
  - apply lit_plain. reflexivity.
  - destruct b; apply lit_plain; reflexivity.
  - apply zdec_plain.
  - now apply H.
Qed.

(** one line of the list *)
Record Matches (p : N -> bool) (v w : pyval) (e : entry) : Prop := {
  m_value : py_str p v = value_text (e_value e);
  m_default : py_str p w = value_text (e_default e);
  m_eq : py_eq v w = if value_dec (e_value e) (e_default e) then true else false;
  m_plain : plain_text (value_text (e_value e)) /\ plain_text (value_text (e_default e)) }.

Definition debugged (s : settings) : Prop := (3 <= s_debug s)%nat.
Lemma debugged_bar s : debugged s -> bar s = (0x2502, gray).
Proof. intros H. unfold bar, debugging. destruct (s_debug s) eqn:E; [unfold debugged in H; lia|]. reflexivity. Qed.

Lemma entry_painted p s a v w e : debugged s -> e_name e = a -> plain_text a -> Matches p v w e ->
  exists m, debug_print p s a v w = TDbg 3 m /\ Painted attrs0 m attrs0 (map to_cell (entry_cells s (is_derived s a) e)).
Proof.
  intros HD HN HA [MV MD ME [PV PD]]. unfold debug_print. eexists. split; [reflexivity|].
  cbn [db_key RUNNER]. unfold entry_cells. rewrite ME, MV, MD, HN, max_attr_len_eq, !map_app, <- !app_assoc.
  rewrite app_nil_l. set (dv := is_derived s a).
  assert (Q : plain_text (rjust 32 (label_width s) a)).
  { unfold rjust. apply plain_app; [now apply repeat_plain|exact HA]. }
  set (changed := if value_dec (e_value e) (e_default e) then true else false).
  replace (if value_dec (e_value e) (e_default e) then false else true) with (negb changed) by (unfold changed; now destruct value_dec).
  set (seq := if dv then sgr_add (if negb changed then fmt_header else [c_BG_BLACK]) [c_ITALIC] else if negb changed then fmt_header else [c_BG_BLACK]).
  assert (G : good_open seq) by (unfold seq; destruct dv, changed; cbn [negb]; solve_good).
  assert (A : sgr_apply seq attrs0 = set_italic dv (set_bold (negb changed) on_black)) by (unfold seq; destruct dv, changed; reflexivity).
  eapply Painted_app.
  { rewrite <- A. exact (Painted_span seq _ G Q). }
  eapply Painted_app; [rewrite <- debugged_bar with (s := s) by exact HD; apply separator_painted|].
  eapply Painted_app; [|apply (Painted_plain attrs0 [10]); now repeat constructor].
  destruct changed; cbn [negb].
  - apply (Painted_span [c_YELLOW]); [solve_good|exact PD].
  - rewrite !map_app. eapply Painted_app; [apply (Painted_span [c_GREEN]); [solve_good|exact PV]|].
    eapply Painted_app; [apply (Painted_plain attrs0 [32]); now repeat constructor|].
    apply (Painted_span [c_GRAY]); [solve_good|]. apply plain_app; [now repeat constructor|]. apply plain_app; [exact PD|now repeat constructor].
Qed.

(** attributes that are read without an effect *)
Definition Read (p : N -> bool) (s d : settings) (a : str) (e : entry) : Prop :=
  e_name e = a /\ plain_text a /\ exists v w, get_attr a s = (v, s) /\ get_attr a d = (w, d) /\ Matches p v w e.
Definition Lines (l : list tev) (rows : list (list tcell)) : Prop :=
  Forall2 (fun m r => exists t, m = TDbg 3 t /\ Painted attrs0 t attrs0 (map to_cell r)) l rows.

Lemma print_attrs_read p s d names es dv : debugged s -> Forall2 (Read p s d) names es -> (forall a, In a names -> is_derived s a = dv) ->
  exists l, (forall rest, print_attrs p (names ++ rest) s d = let '(l2, s2, d2) := print_attrs p rest s d in (l ++ l2, s2, d2)) /\
            Lines l (map (entry_cells s dv) es).
Proof.
  intros HD H. induction H as [|a e names es (HN & HP & v & w & G1 & G2 & M) H IH]; intros Hdv.
  - exists []. split; [intros rest; cbn [app]; now destruct (print_attrs p rest s d) as [[? ?] ?]|constructor].
  - destruct IH as (l & E & L); [intros b Hb; apply Hdv; now right|].
    destruct (entry_painted p s a v w e HD HN HP M) as (m & Em & Pm). rewrite (Hdv a (or_introl eq_refl)) in Pm.
    exists (debug_print p s a v w :: l). split.
    + intros rest. cbn [app print_attrs]. rewrite G1, G2, E. now destruct (print_attrs p rest s d) as [[? ?] ?].
    + cbn [map]. constructor; [now exists m|exact L].
Qed.

Lemma matches_flag p b c e : e_value e = Flag b -> e_default e = Flag c -> Matches p (VBool b) (VBool c) e.
Proof.
  intros V D. split; rewrite ?V, ?D.
  - now destruct b.
  - now destruct c.
  - destruct b, c; destruct value_dec; cbn; congruence.
  - split; apply value_plain; discriminate.
Qed.
Lemma matches_number p m n e : e_value e = Number m -> e_default e = Number n -> Matches p (VInt m) (VInt n) e.
Proof.
  intros V D. split; rewrite ?V, ?D; [reflexivity..| |split; apply value_plain; discriminate].
  change (py_eq (VInt m) (VInt n)) with (m =? n)%Z. destruct (Z.eqb_spec m n); destruct value_dec; congruence.
Qed.
Lemma matches_opt p m e : e_value e = number_or m -> e_default e = Unset -> Matches p (opt_int m) VNone e.
Proof.
  intros V D. split; rewrite ?V, ?D.
  - now destruct m.
  - reflexivity.
  - destruct m; destruct value_dec; cbn in *; congruence.
  - split; apply value_plain; destruct m; discriminate.
Qed.
(** members of enumerations: text and comparison agree *)
Lemma matches_words p v w e x y : e_value e = Words x -> e_default e = Words y -> py_str p v = x -> py_str p w = y ->
  py_eq v w = eqb_list x y -> plain_text x -> plain_text y -> Matches p v w e.
Proof.
  intros V D X Y E PX PY. split; rewrite ?V, ?D; [exact X|exact Y| |split; assumption].
  rewrite E. destruct (eqb_list x y) eqn:Q.
  - apply eqb_list_spec in Q. destruct value_dec; congruence.
  - destruct value_dec as [[= H]|]; [|reflexivity]. subst y. rewrite H, eqb_list_refl in Q. discriminate.
Qed.

Definition file_plain (s : settings) : Prop := match s_filename s with Some f => plain_text f | None => True end.

Lemma plain_dec t : forallb (fun c => negb (c =? 27)) t = true -> plain_text t.
Proof. intros H. apply Forall_forall. intros c Hc E. subst. rewrite forallb_forall in H. specialize (H _ Hc). discriminate. Qed.

Lemma own_read p s : file_plain s -> Forall2 (Read p s default_settings) own_names (options s).
Proof.
  intros HF. unfold own_names, options.
  repeat (apply Forall2_cons; [split; [reflexivity|]; split; [apply plain_dec; reflexivity|]; do 2 eexists; split; [reflexivity|]; split; [reflexivity|]|]);
    [..|apply Forall2_nil];
    try (apply matches_flag; reflexivity); try (apply matches_number; reflexivity); try (apply matches_opt; reflexivity).
  - (* decode *) destruct (s_decode s) as [b|]; split; cbn [e_value e_default];
      [destruct b; reflexivity|reflexivity|destruct value_dec; [discriminate|reflexivity]|split; apply value_plain; discriminate
      |reflexivity|reflexivity|destruct value_dec; [reflexivity|congruence]|split; apply value_plain; discriminate].
  - (* filename *) unfold file_plain in HF. destruct (s_filename s) as [f|]; split; cbn [e_value e_default];
      [reflexivity|reflexivity|destruct value_dec; [discriminate|reflexivity]|split; apply value_plain; [intros t [= <-]; exact HF|discriminate]
      |reflexivity|reflexivity|destruct value_dec; [reflexivity|congruence]|split; apply value_plain; discriminate].
Qed.

(** * repr() of strings *)
Lemma repr_char_literal p q c l t : (q = 39 \/ q = 34) -> c < 0x110000 -> Literal q l t -> Literal q (repr_char p q c ++ l) (c :: t).
Proof.
  intros HQ HC H. unfold repr_char, hex_escape.
  assert (X : forall m n, In (m, n) [(120, 2%nat); (117, 4%nat); (85, 8%nat)] -> c < 16 ^ N.of_nat n ->
              Literal q (([92; m] ++ fmt_hex_lo n c) ++ l) (c :: t)).
  { intros m n I B. cbn [app]. eapply Lt_hex; [exact I| |apply read_hex_lo|exact H].
    apply fmt_hex_lo_length; [|exact B]. cbn in I. destruct I as [[= _ <-]|[[= _ <-]|[[= _ <-]|[]]]]; lia. }
  assert (I1 : In (120, 2%nat) [(120, 2%nat); (117, 4%nat); (85, 8%nat)]) by (now left).
  assert (I2 : In (117, 4%nat) [(120, 2%nat); (117, 4%nat); (85, 8%nat)]) by (right; now left).
  assert (I3 : In (85, 8%nat) [(120, 2%nat); (117, 4%nat); (85, 8%nat)]) by (right; right; now left).
  destruct ((c =? q) || (c =? 92)) eqn:E0.
  { apply Lt_self; [|exact H]. apply orb_true_iff in E0. rewrite !N.eqb_eq in E0. exact E0. }
  apply orb_false_iff in E0. rewrite !N.eqb_neq in E0. destruct E0 as [Q1 Q2].
  destruct (N.eqb_spec c 9) as [->|]; [now apply Lt_tab|].
  destruct (N.eqb_spec c 10) as [->|N10]; [now apply Lt_lf|].
  destruct (N.eqb_spec c 13) as [->|]; [now apply Lt_cr|].
  assert (R : Literal q ([c] ++ l) (c :: t)) by (apply Lt_char; assumption).
  destruct ((c <? 32) || (c =? 127)) eqn:E1.
  { apply X; [exact I1|]. apply orb_true_iff in E1. rewrite N.ltb_lt, N.eqb_eq in E1. cbn. lia. }
  destruct (c <? 127); [exact R|]. destruct (p c); [exact R|].
  destruct (N.leb_spec c 0xFF); [apply X; [exact I1|cbn; lia]|].
  destruct (N.leb_spec c 0xFFFF); [apply X; [exact I2|cbn; lia]|]. apply X; [exact I3|cbn; lia].
Qed.
Lemma py_repr_quoted p t : Forall (fun c => c < 0x110000) t -> quoted (py_repr p t) t.
Proof.
  intros H. unfold py_repr. set (q := if existsb (N.eqb 39) t && negb (existsb (N.eqb 34) t) then 34 else 39).
  assert (HQ : q = 39 \/ q = 34) by (unfold q; destruct (_ && _); auto).
  exists q, (flat_map (repr_char p q) t). split; [exact HQ|]. split; [reflexivity|].
  clearbody q. induction H as [|c t Hc H IH]; [constructor|]. cbn [flat_map]. now apply repr_char_literal.
Qed.
(** a quote is escaped only if both kinds occur *)
Lemma ascii_displayable c : 32 <= c -> c < 127 -> displayable c = true.
Proof.
  intros L H. unfold displayable, between. replace (32 <=? c) with true by (symmetry; now apply N.leb_le).
  replace (c =? 127) with false by (symmetry; apply N.eqb_neq; lia). replace (128 <=? c) with false by (symmetry; apply N.leb_gt; lia).
  replace (0xD800 <=? c) with false by (symmetry; apply N.leb_gt; lia). replace (c <? 0x110000) with true by (symmetry; apply N.ltb_lt; lia).
  now rewrite orb_true_r.
Qed.
Lemma repr_char_safe p q c : (q = 39 \/ q = 34) -> (forall c, p c = true -> displayable c = true /\ c <> 10) -> one_line (repr_char p q c).
Proof.
  intros HQ HP. unfold repr_char, hex_escape.
  assert (X : forall m n, In m [120; 117; 85] -> one_line ([92; m] ++ fmt_hex_lo n c)).
  { intros m n I. apply Forall_app. split.
    - constructor; [split; [reflexivity|discriminate]|]. constructor; [|constructor]. cbn in I.
      destruct I as [<-|[<-|[<-|[]]]]; (split; [reflexivity|discriminate]).
    - eapply Forall_impl; [|apply fmt_hex_lo_chars]. intros a Ha. cbv beta in Ha. split; [|lia]. apply ascii_displayable; lia. }
  assert (Y : forall a b, displayable a = true -> displayable b = true -> a <> 10 -> b <> 10 -> one_line [a; b]).
  { intros. repeat constructor; assumption. }
  destruct ((c =? q) || (c =? 92)) eqn:E0.
  { apply orb_true_iff in E0. rewrite !N.eqb_eq in E0. destruct HQ as [-> | ->], E0 as [-> | ->]; apply Y; (reflexivity || discriminate). }
  destruct (N.eqb_spec c 9) as [->|]; [apply Y; (reflexivity || discriminate)|].
  destruct (N.eqb_spec c 10) as [->|N10]; [apply Y; (reflexivity || discriminate)|].
  destruct (N.eqb_spec c 13) as [->|]; [apply Y; (reflexivity || discriminate)|].
  destruct ((c <? 32) || (c =? 127)) eqn:E1; [apply X; now left|].
  apply orb_false_iff in E1. rewrite N.ltb_ge, N.eqb_neq in E1.
  destruct (N.ltb_spec c 127).
  { constructor; [|constructor]. split; [|exact N10]. apply ascii_displayable; lia. }
  destruct (p c) eqn:EP; [constructor; [now apply HP|constructor]|].
  destruct (c <=? 0xFF); [apply X; now left|]. destruct (c <=? 0xFFFF); [apply X; right; now left|apply X; right; right; now left].
Qed.
Lemma py_repr_safe p t : (forall c, p c = true -> displayable c = true /\ c <> 10) -> one_line (py_repr p t).
Proof.
  intros HP. unfold py_repr. set (q := if existsb (N.eqb 39) t && negb (existsb (N.eqb 34) t) then 34 else 39).
  assert (HQ : q = 39 \/ q = 34) by (unfold q; destruct (_ && _); auto).
  assert (O : one_line [q]) by (constructor; [destruct HQ as [-> | ->]; (split; [reflexivity|discriminate])|constructor]).
  apply Forall_app. split; [exact O|]. apply Forall_app. split; [|exact O].
  clearbody q. clear O. induction t as [|c t IH]; [constructor|]. cbn [flat_map]. apply Forall_app. split; [now apply repr_char_safe|exact IH].
Qed.
Lemma repr_char_plain p q c : (q = 39 \/ q = 34) -> plain_text (repr_char p q c).
Proof.
  intros HQ. unfold repr_char, hex_escape.
  assert (X : forall m n, In m [120; 117; 85] -> plain_text ([92; m] ++ fmt_hex_lo n c)).
  { intros m n I. apply plain_app; [|apply hex_no27]. constructor; [discriminate|]. constructor; [|constructor]. cbn in I.
    destruct I as [<-|[<-|[<-|[]]]]; discriminate. }
  assert (Y : forall a b, a <> 27 -> b <> 27 -> plain_text [a; b]) by (intros; repeat constructor; assumption).
  destruct ((c =? q) || (c =? 92)) eqn:E0.
  { apply orb_true_iff in E0. rewrite !N.eqb_eq in E0. destruct HQ as [-> | ->], E0 as [-> | ->]; apply Y; discriminate. }
  destruct (N.eqb_spec c 9) as [->|]; [apply Y; discriminate|].
  destruct (N.eqb_spec c 10) as [->|N10]; [apply Y; discriminate|].
  destruct (N.eqb_spec c 13) as [->|]; [apply Y; discriminate|].
  destruct ((c <? 32) || (c =? 127)) eqn:E1; [apply X; now left|].
  apply orb_false_iff in E1. rewrite N.ltb_ge, N.eqb_neq in E1.
  assert (R : plain_text [c]) by (constructor; [lia|constructor]).
  destruct (c <? 127); [exact R|]. destruct (p c); [exact R|].
  destruct (c <=? 0xFF); [apply X; now left|]. destruct (c <=? 0xFFFF); [apply X; right; now left|apply X; right; right; now left].
Qed.
Lemma py_repr_plain p t : plain_text (py_repr p t).
Proof.
  unfold py_repr. set (q := if existsb (N.eqb 39) t && negb (existsb (N.eqb 34) t) then 34 else 39).
  assert (HQ : q = 39 \/ q = 34) by (unfold q; destruct (_ && _); auto).
  assert (O : plain_text [q]) by (constructor; [destruct HQ as [-> | ->]; discriminate|constructor]).
  apply plain_app; [exact O|]. apply plain_app; [|exact O].
  clearbody q. clear O. induction t as [|c t IH]; [constructor|]. cbn [flat_map]. apply plain_app; [now apply repr_char_plain|exact IH].
Qed.

(** * Derived values *)
Definition decided (s : settings) : settings := snd (get_read_mode s).
Lemma decided_debug s : s_debug (decided s) = s_debug s.
Proof. unfold decided, get_read_mode. destruct (s_binary s); [reflexivity|]. destruct (s_text s); reflexivity. Qed.
Lemma decided_file s : s_filename (decided s) = s_filename s.
Proof. unfold decided, get_read_mode. destruct (s_binary s); [reflexivity|]. destruct (s_text s); reflexivity. Qed.
Lemma decided_display s c : get_display_mode (decided s) c = get_display_mode s c.
Proof. unfold decided, get_read_mode. destruct (s_binary s); [reflexivity|]. destruct (s_text s); reflexivity. Qed.
Lemma read_mode_shown s : fst (get_read_mode s) = if binary_mode s then RM_binary else RM_text.
Proof. unfold get_read_mode, binary_mode. destruct (s_binary s); [reflexivity|]. destruct (s_text s); [reflexivity|]. now destruct (s_default_read_mode s). Qed.

Definition method_of (p : N -> bool) (s : settings) : str := py_str p (VMethod (lit "set_default_read_mode") (decided s)).
Definition methods (p : N -> bool) (s : settings) : str * str := (method_of p s, method_of p default_settings).

Lemma join_plain_sep sep l : plain_text sep -> Forall plain_text l -> plain_text (join sep l).
Proof.
  intros HS. induction 1 as [|x l Hx Hl IH]; [constructor|]. cbn [join]. destruct l; [exact Hx|].
  apply plain_app; [exact Hx|]. apply plain_app; [exact HS|exact IH].
Qed.
Definition simple_value (v : pyval) : Prop := match v with VEnum c n _ => plain_text c /\ plain_text n | _ => True end.
Lemma plain_repr_plain p v : simple_value v -> plain_text (plain_repr p v).
Proof.
  destruct v as [|b|n|t|c n t|n s']; cbn [plain_repr simple_value]; intros H.
  - apply (lit_plain "None"). reflexivity.
  - destruct b; [apply (lit_plain "True")|apply (lit_plain "False")]; reflexivity.
  - apply zdec_plain.
  - apply py_repr_plain.
  - destruct H as [Hc Hn]. apply plain_app; [now apply plain_dec|]. apply plain_app; [exact Hc|]. apply plain_app; [now apply plain_dec|].
    apply plain_app; [exact Hn|]. apply plain_app; [now apply plain_dec|]. apply plain_app; [apply py_repr_plain|now apply plain_dec].
  - constructor.
Qed.
Lemma own_attrs_simple s : Forall (fun x => plain_text (fst x) /\ simple_value (snd x)) (own_attrs s).
Proof.
  unfold own_attrs. repeat (apply Forall_cons; [split; [apply plain_dec; reflexivity|]|]); [..|apply Forall_nil];
    cbn [snd]; try exact I;
    repeat match goal with |- simple_value (opt_int ?x) => destruct x; exact I | |- simple_value (match ?x with _ => _ end) => destruct x; exact I end.
  destruct (s_default_read_mode s); split; apply plain_dec; reflexivity.
Qed.
Lemma method_plain p s : plain_text (method_of p s).
Proof.
  unfold method_of. cbn [py_str]. unfold settings_repr.
  apply plain_app; [now apply plain_dec|]. apply plain_app; [now apply plain_dec|]. apply plain_app; [now apply plain_dec|].
  apply plain_app; [|now apply plain_dec]. apply plain_app; [now apply plain_dec|]. apply plain_app; [|now apply plain_dec].
  apply join_plain_sep; [apply plain_dec; reflexivity|]. apply Forall_map. eapply Forall_impl; [|apply own_attrs_simple].
  intros [a v] [Ha Hv]. cbn [fst snd] in *. apply plain_app; [exact Ha|]. apply plain_app; [now apply plain_dec|now apply plain_repr_plain].
Qed.

Lemma marker_details_word s : py_str (fun _ => true) (marker_details_value (effective_marker_details s)) = lit "MarkerDetailsEnum." ++ details_word s.
Proof.
  unfold effective_marker_details, details_word, marker_level. destruct (s_binary s); [reflexivity|].
  destruct (s_marker s) as [|m|m]; [reflexivity| |reflexivity]. destruct m; reflexivity.
Qed.
Lemma get_read_mode_eq s : get_read_mode s = ((if binary_mode s then RM_binary else RM_text), decided s).
Proof. rewrite <- read_mode_shown. unfold decided. now destruct (get_read_mode s). Qed.

Lemma before_read p s m : (4 <= s_debug s)%nat -> Forall2 (Read p s default_settings) derived_before (firstn 6 (consequences s m)).
Proof.
  intros HD. assert (E4 : (4 <=? s_debug s)%nat = true) by (apply Nat.leb_le; lia). assert (E3 : (3 <=? s_debug s)%nat = true) by (apply Nat.leb_le; lia).
  assert (E0 : (0 <? s_debug s)%nat = true) by (apply Nat.ltb_lt; lia).
  unfold derived_before, consequences. cbn [firstn].
  repeat (apply Forall2_cons; [split; [reflexivity|]; split; [apply plain_dec; reflexivity|]; do 2 eexists; split; [reflexivity|]; split; [reflexivity|]|]);
    [..|apply Forall2_nil].
  1: unfold debug_buffer_contents; rewrite E3. 2: unfold debug_buffer_contents_full; rewrite E4. 3: rewrite E3. 4: rewrite E4. 6: unfold effective_print_offsets at 1; rewrite E0.
  1-4,6: apply matches_flag; reflexivity.
  eapply matches_words with (x := lit "MarkerDetailsEnum." ++ details_word s); [reflexivity|reflexivity| |reflexivity| | |].
  - rewrite <- marker_details_word. now destruct (effective_marker_details s).
  - rewrite <- marker_details_word. now destruct (effective_marker_details s).
  - rewrite <- marker_details_word. destruct (effective_marker_details s); now apply plain_dec.
  - now apply plain_dec.
Qed.

Definition nocomma (t : str) : Prop := Forall (fun c => c <> 44) t.
Lemma first_comma a b x y : nocomma a -> nocomma b -> a ++ 44 :: x = b ++ 44 :: y -> a = b /\ x = y.
Proof.
  intros HA. revert b. induction HA as [|c a Hc HA IH]; intros [|d b] HB H; cbn in H.
  - injection H as ->. auto.
  - injection H as E _. inversion HB; subst; congruence.
  - injection H as E _. congruence.
  - injection H as -> H. inversion HB; subst. destruct (IH b H3 H) as [-> ->]. auto.
Qed.
Lemma nocomma_dec t : forallb (fun c => negb (c =? 44)) t = true -> nocomma t.
Proof. intros H. apply Forall_forall. intros c Hc E. subst. rewrite forallb_forall in H. specialize (H _ Hc). discriminate. Qed.
Lemma dec_nocomma n : nocomma (dec n).
Proof. eapply Forall_impl; [|apply dec_digits]. cbv beta. intros; lia. Qed.
Lemma zdec_nocomma n : nocomma (zdec n).
Proof. unfold zdec. apply Forall_app. split; [destruct (n <? 0)%Z; now apply nocomma_dec|apply dec_nocomma]. Qed.
Lemma zdec_inj m n : zdec m = zdec n -> m = n.
Proof.
  unfold zdec. intros H.
  assert (X : forall k, nth 0 (dec k) 0 <> 45).
  { intros k. pose proof (dec_digits k) as D. destruct (dec k) as [|c r]; [discriminate|]. inversion D; subst. cbn. lia. }
  destruct (Z.ltb_spec m 0), (Z.ltb_spec n 0); cbn [app] in H.
  - injection H as H. apply dec_inj in H. lia.
  - exfalso. apply (X (Z.to_N (Z.abs n))). rewrite <- H. reflexivity.
  - exfalso. apply (X (Z.to_N (Z.abs m))). rewrite H. reflexivity.
  - apply dec_inj in H. lia.
Qed.
Lemma flag_nocomma p b : nocomma (plain_repr p (VBool b)).
Proof. destruct b; now apply nocomma_dec. Qed.
Lemma opt_nocomma p o : nocomma (plain_repr p (opt_int o)).
Proof. destruct o; [apply zdec_nocomma|now apply nocomma_dec]. Qed.
Definition attr_text (p : N -> bool) (x : str * pyval) : str := fst x ++ lit "=" ++ plain_repr p (snd x).
Lemma attr_comma p x y r r' : nocomma (fst x) -> nocomma (fst y) -> nocomma (plain_repr p (snd x)) -> nocomma (plain_repr p (snd y)) ->
  attr_text p x ++ lit ", " ++ r = attr_text p y ++ lit ", " ++ r' -> attr_text p x = attr_text p y /\ r = r'.
Proof.
  intros HX HY VX VY H. apply first_comma in H.
  - destruct H as [A B]. injection B as B. auto.
  - apply Forall_app. split; [exact HX|]. apply Forall_app. split; [now apply nocomma_dec|exact VX].
  - apply Forall_app. split; [exact HY|]. apply Forall_app. split; [now apply nocomma_dec|exact VY].
Qed.
Lemma join_cons sep a b l : join sep (a :: b :: l) = a ++ sep ++ join sep (b :: l).
Proof. reflexivity. Qed.
Lemma repr_debug p s s' : settings_repr p s = settings_repr p s' -> s_debug s = s_debug s'.
Proof.
  unfold settings_repr. intros H. apply app_inv_head in H. apply app_inv_tail in H. revert H.
  change (fun x => fst x ++ lit "=" ++ plain_repr p (snd x)) with (attr_text p). unfold own_attrs. cbn [map].
  rewrite !join_cons. intros H.
  apply attr_comma in H; [|now apply nocomma_dec|now apply nocomma_dec|apply flag_nocomma|apply flag_nocomma]. destruct H as [_ H].
  apply attr_comma in H; [|now apply nocomma_dec|now apply nocomma_dec|apply opt_nocomma|apply opt_nocomma]. destruct H as [_ H].
  apply attr_comma in H; [|now apply nocomma_dec|now apply nocomma_dec|apply opt_nocomma|apply opt_nocomma]. destruct H as [_ H].
  apply attr_comma in H; [|now apply nocomma_dec|now apply nocomma_dec|apply flag_nocomma|apply flag_nocomma]. destruct H as [_ H].
  apply attr_comma in H; [|now apply nocomma_dec|now apply nocomma_dec|apply zdec_nocomma|apply zdec_nocomma]. destruct H as [H _].
  unfold attr_text in H. apply app_inv_head in H. apply app_inv_head in H. cbn [snd plain_repr] in H. apply zdec_inj in H. lia.
Qed.
Lemma method_debug p s s' : method_of p s = method_of p s' -> s_debug s = s_debug s'.
Proof.
  unfold method_of. cbn [py_str]. intros H. do 3 apply app_inv_head in H. apply app_inv_tail in H. apply repr_debug in H.
  now rewrite !decided_debug in H.
Qed.

Lemma Words_inj a b : Words a = Words b -> a = b.
Proof. congruence. Qed.
Lemma derived_lines p s : (4 <= s_debug s)%nat ->
  exists l, print_attrs p derived_names s default_settings = (l, decided s, decided default_settings) /\
            Lines l (map (entry_cells s true) (firstn 8 (consequences s (methods p s)))).
Proof.
  intros HD. assert (HD3 : debugged s) by (unfold debugged; lia).
  destruct (print_attrs_read p s default_settings derived_before (firstn 6 (consequences s (methods p s))) true HD3) as (l & E & L).
  { now apply before_read. }
  { intros a [<-|[<-|[<-|[<-|[<-|[<-|[]]]]]]]; reflexivity. }
  unfold derived_names. rewrite E. cbn [print_attrs].
  change (get_attr (lit "read_mode") s) with (let '(m, s1) := get_read_mode s in (read_mode_value m, s1)).
  change (get_attr (lit "read_mode") default_settings) with (read_mode_value RM_text, decided default_settings).
  rewrite get_read_mode_eq.
  change (get_attr (lit "set_default_read_mode") (decided s)) with (VMethod (lit "set_default_read_mode") (decided s), decided s).
  change (get_attr (lit "set_default_read_mode") (decided default_settings))
    with (VMethod (lit "set_default_read_mode") (decided default_settings), decided default_settings).
  rewrite !(debug_print_debug p (decided s) s) by apply decided_debug.
  eexists. split; [reflexivity|].
  change (firstn 8 (consequences s (methods p s))) with (firstn 6 (consequences s (methods p s)) ++
    [nth 6 (consequences s (methods p s)) (mkEntry [] Unset Unset); nth 7 (consequences s (methods p s)) (mkEntry [] Unset Unset)]).
  rewrite map_app. apply Forall2_app; [exact L|]. cbn [map]. constructor; [|constructor; [|constructor]].
  - destruct (entry_painted p s (lit "read_mode") (read_mode_value (if binary_mode s then RM_binary else RM_text)) (read_mode_value RM_text)
                (nth 6 (consequences s (methods p s)) (mkEntry [] Unset Unset)) HD3) as (m & Em & Pm).
    + reflexivity.
    + now apply plain_dec.
    + eapply matches_words; [reflexivity|reflexivity|now destruct (binary_mode s)|reflexivity|now destruct (binary_mode s)| |].
      * destruct (binary_mode s); now apply plain_dec.
      * now apply plain_dec.
    + exists m. split; [exact Em|]. exact Pm.
  - destruct (entry_painted p s (lit "set_default_read_mode") (VMethod (lit "set_default_read_mode") (decided s))
                (VMethod (lit "set_default_read_mode") (decided default_settings))
                (nth 7 (consequences s (methods p s)) (mkEntry [] Unset Unset)) HD3) as (m & Em & Pm).
    + reflexivity.
    + now apply plain_dec.
    + split; [reflexivity|reflexivity| |split; apply value_plain; intros t [= <-]; apply method_plain].
      cbn [nth consequences e_value e_default]. destruct value_dec as [Q|]; [|reflexivity]. exfalso. apply Words_inj in Q. apply method_debug in Q. cbn in Q. lia.
    + exists m. split; [exact Em|]. exact Pm.
Qed.

Lemma class_lines p s s1 d1 : debugged s -> (forall c, get_display_mode s1 c = get_display_mode s c) -> (forall c, get_display_mode d1 c = DM_default) ->
  s_debug s1 = s_debug s ->
  Lines (map (fun x => debug_print p s1 (lit "CharClass." ++ snd x) (display_mode_value (get_display_mode s1 (fst x)))
                                        (display_mode_value (get_display_mode d1 (fst x)))) char_classes)
        (map (entry_cells s true) (skipn 8 (consequences s (methods p s)))).
Proof.
  intros HD H1 H2 H3.
  assert (X : forall name c, plain_text name -> is_derived s (lit "CharClass." ++ name) = true ->
    exists t, debug_print p s1 (lit "CharClass." ++ name) (display_mode_value (get_display_mode s1 c)) (display_mode_value (get_display_mode d1 c)) = TDbg 3 t /\
              Painted attrs0 t attrs0 (map to_cell (entry_cells s true (class_entry s name c)))).
  { intros name c HN HI. rewrite (debug_print_debug p s1 s _ _ _ H3), H1, H2.
    destruct (entry_painted p s (lit "CharClass." ++ name) (display_mode_value (get_display_mode s c)) (display_mode_value DM_default)
                (class_entry s name c) HD eq_refl) as (m & Em & Pm).
    - apply plain_app; [now apply plain_dec|exact HN].
    - apply (matches_words p _ _ _ (class_word s c) (lit "DisplayMode.DEFAULT")); try reflexivity; unfold get_display_mode, class_word;
        destruct (s_ignore s c); try destruct (s_focus s c); try reflexivity; now apply plain_dec.
    - rewrite HI in Pm. now exists m. }
  unfold char_classes, consequences. cbn [skipn map].
  repeat (apply Forall2_cons; [apply X; [now apply plain_dec|vm_compute; reflexivity]|]). apply Forall2_nil.
Qed.

Lemma rule_painted s columns x y : debugged s -> x <> 27 -> y <> 27 ->
  Painted attrs0 (settings_line s columns x y ++ [10]) attrs0 (map to_cell (rule_cells s columns y x)).
Proof.
  intros HD HX HY. unfold settings_line, rule_cells. rewrite max_attr_len_eq.
  assert (E0 : (0 <? s_debug s)%nat = true) by (apply Nat.ltb_lt; unfold debugged in HD; lia). rewrite E0.
  set (W := label_width s). assert (HW : (9 <= W)%nat) by (unfold W, label_width; destruct (deep s); lia).
  change (repeat 9472 MAIN_PREFIX_LEN) with (repeat 0x2500 8).
  replace (W - MAIN_PREFIX_LEN - 1)%nat with (W - 9)%nat by (unfold MAIN_PREFIX_LEN; lia).
  assert (P : plain_text (repeat 0x2500 8 ++ [y])).
  { apply plain_app; [now apply repeat_plain|now repeat constructor]. }
  assert (Q : plain_text (repeat 0x2500 (W - 9))) by (now apply repeat_plain).
  assert (L : zlen (strip_sgr (span_wrap [c_BG_BLACK] (repeat 0x2500 8 ++ [y]) ++ span_wrap [c_BG_BLACK] (repeat 0x2500 (W - 9)) ++ [x])) = Z.of_nat (W + 1)).
  { erewrite Painted_strip with (a := attrs0).
    2:{ eapply Painted_app; [apply Painted_span; [solve_good|exact P]|]. eapply Painted_app; [apply Painted_span; [solve_good|exact Q]|].
        apply (Painted_plain attrs0 [x]). now repeat constructor. }
    unfold zlen. rewrite !map_app, !map_to_cell_char. unfold styled. rewrite !map_map, !app_length, !map_length. cbn [map length]. rewrite app_length, !repeat_length. cbn [length]. lia. }
  rewrite L. replace (Z.to_nat (columns - Z.of_nat (W + 1))) with (Z.to_nat columns - (W + 1))%nat by lia.
  set (F := (Z.to_nat columns - (W + 1))%nat).
  unfold span_wrap at 1. rewrite <- !app_assoc. apply Pt_sgr.
  change (sgr_apply [c_GRAY] attrs0) with gray. unfold span_wrap. rewrite <- !app_assoc. apply Pt_sgr.
  change (sgr_apply [c_BG_BLACK] gray) with (set_bg (ColIdx 0) gray).
  assert (C : sgr_apply (closing_seq [c_BG_BLACK]) (set_bg (ColIdx 0) gray) = gray) by reflexivity.
  assert (D : sgr_apply (closing_seq [c_GRAY]) gray = attrs0) by reflexivity.
  replace (map to_cell (styled (set_bg (ColIdx 0) gray) (repeat 9472 8 ++ [y] ++ repeat 9472 (W - 9)) ++ styled gray ([x] ++ repeat 9472 F) ++ [(10, attrs0)]))
    with (map to_cell (styled (set_bg (ColIdx 0) gray) (repeat 0x2500 8 ++ [y])) ++ map to_cell (styled (set_bg (ColIdx 0) gray) (repeat 0x2500 (W - 9)))
          ++ map to_cell (styled gray ([x] ++ repeat 0x2500 F)) ++ map to_cell [(10, attrs0)]).
  2:{ unfold styled. rewrite !map_app, <- !app_assoc. reflexivity. }
  rewrite app_assoc. eapply Painted_app; [apply Painted_plain; exact P|]. apply Pt_sgr. rewrite C. apply Pt_sgr.
  change (sgr_apply [c_BG_BLACK] gray) with (set_bg (ColIdx 0) gray).
  eapply Painted_app; [apply Painted_plain; exact Q|]. apply Pt_sgr. rewrite C.
  rewrite app_assoc. eapply Painted_app; [apply Painted_plain; apply plain_app; [now repeat constructor|now apply repeat_plain]|].
  apply Pt_sgr. rewrite D. apply (Painted_plain attrs0 [10]). now repeat constructor.
Qed.
Lemma header_painted s : debugged s ->
  Painted attrs0 (span_wrap fmt_header (header_text s) ++ get_separator s ++ [10]) attrs0 (map to_cell (header_cells s)).
Proof.
  intros HD. unfold header_cells, header_text. rewrite max_attr_len_eq. unfold label_width. fold (deep s).
  rewrite map_app. set (a := set_bold true on_black).
  assert (A : sgr_apply fmt_header attrs0 = a) by reflexivity.
  assert (B : sgr_apply (closing_seq fmt_header) a = attrs0) by reflexivity.
  assert (Sep : Painted attrs0 (get_separator s ++ [10]) attrs0 (map to_cell [(0x2502, gray); (10, attrs0)])).
  { change (map to_cell [(0x2502, gray); (10, attrs0)]) with (map to_cell [(0x2502, gray)] ++ map to_cell [(10, attrs0)]).
    eapply Painted_app; [rewrite <- debugged_bar with (s := s) by exact HD; apply separator_painted|].
    apply (Painted_plain attrs0 [10]). now repeat constructor. }
  destruct (deep s) eqn:E.
  - match goal with |- Painted _ (span_wrap fmt_header ?h ++ _) _ _ =>
      replace h with (lit "SETTINGS " ++ lit "[" ++ assemble [c_ITALIC] ++ lit "DERIVED" ++ assemble [c_ITALIC_OFF] ++ lit "]" ++ repeat 32 11) by (vm_compute; reflexivity)
    end.
    unfold span_wrap. rewrite <- !app_assoc. apply Pt_sgr. rewrite A. rewrite !map_app. repeat rewrite <- app_assoc.
    eapply Painted_app; [apply Painted_plain; now apply plain_dec|].
    eapply Painted_app; [apply Painted_plain; now apply plain_dec|]. apply Pt_sgr.
    eapply Painted_app; [apply (Painted_plain (set_italic true a)); now apply plain_dec|]. apply Pt_sgr.
    change (sgr_apply [c_ITALIC_OFF] (set_italic true a)) with a.
    eapply Painted_app; [apply Painted_plain; now apply plain_dec|].
    eapply Painted_app; [apply Painted_plain; now apply plain_dec|]. apply Pt_sgr. rewrite B. exact Sep.
  - match goal with |- Painted _ (span_wrap fmt_header ?h ++ _) _ _ =>
      replace h with (lit "SETTINGS " ++ repeat 32 9 ++ repeat 32 1) by (vm_compute; reflexivity)
    end.
    unfold span_wrap. rewrite <- !app_assoc. apply Pt_sgr. rewrite A. rewrite !map_app. repeat rewrite <- app_assoc.
    eapply Painted_app; [apply Painted_plain; now apply plain_dec|].
    eapply Painted_app; [apply Painted_plain; now apply plain_dec|].
    eapply Painted_app; [apply Painted_plain; now apply plain_dec|]. apply Pt_sgr. rewrite B. exact Sep.
Qed.

Theorem settings_lines p s columns : debugged s -> file_plain s ->
  Lines (fst (debug_settings p s columns)) (settings_rows s columns (methods p s)) /\ snd (debug_settings p s columns) = after_parse_args s.
Proof.
  intros HD HF. unfold debug_settings. destruct (Nat.ltb_spec (s_debug s) 3) as [Q|_]; [unfold debugged in HD; lia|].
  rewrite dump_attrs_eq.
  destruct (print_attrs_read p s default_settings own_names (options s) false HD (own_read p s HF)) as (l & E & L).
  { intros a Ha. rewrite (is_derived_any s default_settings). revert a Ha. apply Forall_forall. vm_compute. repeat constructor. }
  rewrite E. unfold settings_rows, deep, after_parse_args.
  assert (R1 : exists t, dbg s RUNNER 3 (settings_line s columns 9516 9472) = TDbg 3 t /\ Painted attrs0 t attrs0 (map to_cell (rule_cells s columns 9472 9516))).
  { eexists. split; [reflexivity|]. now apply rule_painted. }
  assert (R2 : exists t, dbg s RUNNER 3 (span_wrap fmt_header (header_text s) ++ get_separator s) = TDbg 3 t /\ Painted attrs0 t attrs0 (map to_cell (header_cells s))).
  { eexists. split; [reflexivity|]. cbn [db_key RUNNER]. rewrite app_nil_l, <- app_assoc. now apply header_painted. }
  destruct (4 <=? s_debug s)%nat eqn:E4.
  - apply Nat.leb_le in E4. destruct (derived_lines p s E4) as (l2 & E2 & L2). rewrite E2. cbn [fst snd]. split; [|reflexivity].
    apply Forall2_app; [constructor; [exact R1|constructor; [exact R2|constructor]]|]. rewrite <- app_assoc. apply Forall2_app; [exact L|].
    rewrite <- (firstn_skipn 8 (consequences s (methods p s))), map_app, <- app_assoc. apply Forall2_app; [exact L2|].
    apply Forall2_app.
    + apply class_lines; [exact HD|apply decided_display|intros c; apply decided_display|apply decided_debug].
    + constructor; [|constructor]. eexists. split; [reflexivity|]. cbn [db_key RUNNER]. rewrite app_nil_l.
      pose proof (rule_painted (decided s) columns 0x2534 0x252C) as K. unfold rule_cells in K. rewrite (label_width_debug (decided s) s (decided_debug s)) in K.
      apply K; [unfold debugged; rewrite decided_debug; exact HD|discriminate|discriminate].
  - cbn [print_attrs fst snd]. split; [|reflexivity]. rewrite app_nil_r.
    apply Forall2_app; [constructor; [exact R1|constructor; [exact R2|constructor]]|]. apply Forall2_app; [exact L|]. cbn [app].
    constructor; [|constructor]. eexists. split; [reflexivity|]. cbn [db_key RUNNER]. now apply rule_painted.
Qed.

(** the whole list *)
Lemma Lines_shown k l rows : (3 <= k)%nat -> Lines l rows -> Painted attrs0 (shown k l) attrs0 (map to_cell (concat rows)).
Proof.
  intros HK. induction 1 as [|m r l rows (t & -> & P) H IH]; [constructor|].
  unfold shown. cbn [flat_map ev_shown concat]. destruct (Nat.ltb_spec k 3); [lia|]. rewrite map_app. eapply Painted_app; [exact P|exact IH].
Qed.
