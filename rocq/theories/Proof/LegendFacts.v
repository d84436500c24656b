(** Proofs about the legend *)
From Coq Require Import List Arith NArith ZArith Bool Lia.
From Verif.Model Require Import Base Settings Segment Reader Runner Render Legend.
From Verif.Spec Require Import Numbers Terminal Lexical SgrParams Display Output Input Legend Conditions.
From Verif.Proof Require Import RunClaims BinClaims ShowClaims LookClaims MoreClaims.
Import ListNotations.
Local Open Scope N_scope.

Definition color_dec : forall a b : color, {a = b} + {a <> b}.
Proof. decide equality; apply N.eq_dec. Defined.
Definition attrs_dec : forall a b : attrs, {a = b} + {a <> b}.
Proof. decide equality; try apply Bool.bool_dec; try apply N.eq_dec; apply color_dec. Defined.
Definition cell_dec : forall a b : cell, {a = b} + {a <> b}.
Proof. decide equality; try apply N.eq_dec; apply attrs_dec. Defined.
Definition cells_dec := list_eq_dec cell_dec.

(** what the program prints *)
Definition printed (r : result str) : str := match r with Ok o => o | Err _ => [] end.
Definition legend_out : str := printed (legend_run legend_bytes).
Definition legend_screen : list cell := screen (legend_out ++ [10]).


(** settings that matter for a piece *)
Definition canon (lvl : level) (nosep col foc bin dec : bool) : settings :=
  mkSettings bin (negb bin) RM_text None None false 0 (Some dec) None (fun _ => foc) (fun _ => false) false
    (match lvl with L_none => 0 | L_brief => 1 | L_full => 2 end)%Z None None col false nosep false false false.
Definition canon_of (s : settings) (foc : bool) : settings :=
  canon (marker_level s) (s_no_separators s) (s_color_markers s) foc (binary_mode s) (decoding s).

Lemma canon_level s foc : marker_level (canon_of s foc) = marker_level s.
Proof. unfold canon_of. destruct (marker_level s); reflexivity. Qed.
Lemma canon_binary s foc : binary_mode (canon_of s foc) = binary_mode s.
Proof. unfold canon_of. destruct (binary_mode s); reflexivity. Qed.
Lemma canon_decoding s foc : decoding (canon_of s foc) = decoding s.
Proof. unfold canon_of. destruct (decoding s); reflexivity. Qed.
Lemma canon_separators s foc : separators (canon_of s foc) = separators s.
Proof. unfold separators. rewrite canon_level. reflexivity. Qed.

Section Agree.
  Context (s : settings) (k : kind) (foc : bool).
  Hypothesis HI : s_ignore s (class_of k) = false.
  Hypothesis HF : s_focus s (class_of k) = foc.
  Let s' := canon_of s foc.
  Lemma canon_plain : plain_style s' k = plain_style s k.
  Proof. unfold plain_style. rewrite HF. reflexivity. Qed.
  Lemma canon_marker : marker s' k = marker s k.
  Proof.
    destruct k as [| | | | | | | | |r]; try reflexivity; cbn [marker].
    - unfold s'. now rewrite canon_binary.
    - destruct r; try reflexivity. cbn [class_of] in HF. rewrite HF. reflexivity.
  Qed.
  Lemma canon_label codes : label_style s' k codes = label_style s k codes.
  Proof. pose proof canon_plain as P. unfold label_style. destruct k; try exact P. destruct (csi_sort params final); try exact P. rewrite P. reflexivity. Qed.
  Lemma canon_details codes : details_style s' k codes = details_style s k codes.
  Proof. unfold details_style. destruct k; reflexivity. Qed.
  Lemma canon_control b : control_details_cells s' b = control_details_cells s b.
  Proof. unfold control_details_cells. unfold s'. rewrite canon_level. reflexivity. Qed.
  Lemma canon_escape w codes : escape_details_cells s' k w codes = escape_details_cells s k w codes.
  Proof. unfold escape_details_cells. rewrite canon_details. unfold s'. rewrite canon_level. reflexivity. Qed.

  Lemma canon_text w codes : text_cells s' k w codes = text_cells s k w codes.
  Proof.
    unfold text_cells. rewrite HI. change (s_ignore s' (class_of k)) with false. cbn iota.
    replace (separators s') with (separators s) by (symmetry; apply canon_separators).
    rewrite canon_marker, canon_label, canon_escape, canon_plain.
    destruct (is_escape_seq k); [reflexivity|]. destruct k as [| | | | | | | | |r]; try reflexivity. destruct r; try reflexivity.
    rewrite canon_control. f_equal. f_equal. apply flat_map_ext. intros b. now rewrite canon_control.
  Qed.
  Lemma canon_bin w codes : binary_cells s' k w codes = binary_cells s k w codes.
  Proof.
    unfold binary_cells. rewrite HI. change (s_ignore s' (class_of k)) with false. cbn iota.
    rewrite canon_marker, canon_label, canon_details, canon_plain.
    replace (decoding s') with (decoding s) by (symmetry; apply canon_decoding). reflexivity.
  Qed.
End Agree.

(** all settings that matter *)
Definition levels := [L_none; L_brief; L_full].
Definition bools := [false; true].
Lemma in_bools b : In b bools.
Proof. destruct b; cbn; auto. Qed.
Lemma in_levels l : In l levels.
Proof. destruct l; cbn; auto. Qed.
Definition level_eqb (a b : level) : bool := match a, b with L_none, L_none | L_brief, L_brief | L_full, L_full => true | _, _ => false end.
Definition opt_is {A} (eqb : A -> A -> bool) (o : option A) (v : A) : bool := match o with Some x => eqb x v | None => true end.

(** a text sample: the cells of the piece are the sample and, for tab and line feed, the character itself *)
Definition kept (k : kind) : list tcell :=
  match k with K_newline => [(10, attrs0)] | _ => [] end.
Definition kept_tab (k : kind) (a : attrs) : list tcell := match k with K_run R_tab => [(9, a)] | _ => [] end.
Definition sample_ok (scr : list (list cell)) (x : sample) : bool :=
  let part := firstn (sm_width x) (skipn (sm_col x) (nth (sm_line x) scr [])) in
  let '(k, w, codes) := sample_token x in
  match sm_where x with
  | In_text lvl col =>
      forallb (fun l => forallb (fun nosep => forallb (fun c => forallb (fun dec =>
        if opt_is level_eqb lvl l && opt_is Bool.eqb col c && (match lvl with Some _ => negb nosep | None => true end) then
          let s := canon l nosep c (sm_focus x) false dec in
          let t := text_cells s k w codes in
          if cells_dec (part ++ map to_cell (kept k ++ kept_tab k (plain_style s k))) (map to_cell (fst t ++ snd t)) then true else false
        else true) bools) bools) bools) levels
  | In_chars dec =>
      forallb (fun l => forallb (fun nosep => forallb (fun c => forallb (fun d =>
        if opt_is Bool.eqb dec d then
          if cells_dec part (map to_cell (map char_cell (binary_cells (canon l nosep c (sm_focus x) true d) k w codes))) then true else false
        else true) bools) bools) bools) levels
  | In_hex col =>
      forallb (fun l => forallb (fun nosep => forallb (fun c => forallb (fun d =>
        if opt_is Bool.eqb col c then
          if cells_dec part (firstn (sm_width x) (map to_cell (flat_map hex_cells (binary_cells (canon l nosep c (sm_focus x) true d) k w codes)))) then true else false
        else true) bools) bools) bools) levels
  end.
Lemma all_ok : (let scr := screen_lines legend_screen in forallb (sample_ok scr) legend_samples) = true.
Proof. vm_compute. reflexivity. Qed.

Lemma ok_sample x : In x legend_samples -> sample_ok (screen_lines legend_screen) x = true.
Proof. intros H. pose proof all_ok as A. cbv zeta in A. rewrite forallb_forall in A. exact (A x H). Qed.

Lemma cells_dec_true (b : bool) l1 l2 : (if cells_dec l1 l2 then true else false) = true -> l1 = l2.
Proof. destruct (cells_dec l1 l2); [easy|discriminate]. Qed.

Lemma text_sample x s : In x legend_samples -> is_text_sample x = true -> applies x s ->
  let '(k, w, codes) := sample_token x in
  exists c1 c2, fst (text_cells s k w codes) ++ snd (text_cells s k w codes) = c1 ++ c2 /\ map to_cell c1 = sample_region legend_screen x.
Proof.
  intros Hx HT (HI & HF & HW). pose proof (ok_sample x Hx) as OK. unfold is_text_sample in HT. unfold sample_ok in OK. unfold sample_region, region.
  unfold sample_token in *.
  destruct (sm_where x) as [lvl col| |] eqn:EW; try discriminate. destruct HW as (HB & HL & HC).
  rewrite forallb_forall in OK. specialize (OK (marker_level s) (in_levels _)).
  rewrite forallb_forall in OK. specialize (OK (s_no_separators s) (in_bools _)).
  rewrite forallb_forall in OK. specialize (OK (s_color_markers s) (in_bools _)).
  rewrite forallb_forall in OK. specialize (OK (decoding s) (in_bools _)).
  assert (G1 : opt_is level_eqb lvl (marker_level s) = true).
  { destruct lvl as [l|]; [|reflexivity]. destruct (HL l eq_refl) as [-> _]. now destruct l. }
  assert (G2 : opt_is Bool.eqb col (s_color_markers s) = true).
  { destruct col as [c|]; [|reflexivity]. rewrite (HC c eq_refl). now destruct c. }
  assert (G3 : match lvl with Some _ => negb (s_no_separators s) | None => true end = true).
  { destruct lvl as [l|]; [|reflexivity]. destruct (HL l eq_refl) as [_ ->]. reflexivity. }
  rewrite G1, G2, G3 in OK. cbn [andb] in OK.
  assert (EC : canon (marker_level s) (s_no_separators s) (s_color_markers s) (sm_focus x) false (decoding s) = canon_of s (sm_focus x)).
  { unfold canon_of. now rewrite HB. }
  rewrite EC in OK. rewrite (canon_text s (sm_kind x) (sm_focus x) HI HF) in OK.
  set (T := fst (text_cells s (sm_kind x) (sm_bytes x) (sm_codes x)) ++ snd (text_cells s (sm_kind x) (sm_bytes x) (sm_codes x))) in *.
  apply cells_dec_true in OK; [|exact true].
  set (P := firstn (sm_width x) (skipn (sm_col x) (nth (sm_line x) (screen_lines legend_screen) []))) in *.
  exists (firstn (length P) T), (skipn (length P) T). split; [symmetry; apply firstn_skipn|].
  rewrite <- firstn_map, <- OK, firstn_app, firstn_all, Nat.sub_diag. cbn [firstn]. apply app_nil_r.
Qed.

Lemma binary_sample x s : In x legend_samples -> is_text_sample x = false -> applies x s ->
  let cells := binary_cells s (sm_kind x) (sm_bytes x) (sm_codes x) in
  sample_region legend_screen x =
  match sm_where x with
  | In_hex _ => firstn (sm_width x) (map to_cell (flat_map hex_cells cells))
  | _ => map to_cell (map char_cell cells)
  end.
Proof.
  intros Hx HT (HI & HF & HW). pose proof (ok_sample x Hx) as OK. unfold is_text_sample in HT. unfold sample_ok in OK. unfold sample_region, region.
  unfold sample_token in *. cbv zeta.
  assert (B : binary_mode s = true) by (destruct (sm_where x); [discriminate|apply HW|apply HW]).
  assert (EC : canon (marker_level s) (s_no_separators s) (s_color_markers s) (sm_focus x) true (decoding s) = canon_of s (sm_focus x)).
  { unfold canon_of. now rewrite B. }
  destruct (sm_where x) as [lvl col|dec|col] eqn:EW; try discriminate; destruct HW as (HB & HC).
  - rewrite forallb_forall in OK. specialize (OK (marker_level s) (in_levels _)).
    rewrite forallb_forall in OK. specialize (OK (s_no_separators s) (in_bools _)).
    rewrite forallb_forall in OK. specialize (OK (s_color_markers s) (in_bools _)).
    rewrite forallb_forall in OK. specialize (OK (decoding s) (in_bools _)).
    assert (G2 : opt_is Bool.eqb dec (decoding s) = true).
    { destruct dec as [c|]; [|reflexivity]. rewrite (HC c eq_refl). now destruct c. }
    rewrite G2, EC, (canon_bin s (sm_kind x) (sm_focus x) HI HF) in OK. apply cells_dec_true in OK; [exact OK|exact true].
  - rewrite forallb_forall in OK. specialize (OK (marker_level s) (in_levels _)).
    rewrite forallb_forall in OK. specialize (OK (s_no_separators s) (in_bools _)).
    rewrite forallb_forall in OK. specialize (OK (s_color_markers s) (in_bools _)).
    rewrite forallb_forall in OK. specialize (OK (decoding s) (in_bools _)).
    assert (G2 : opt_is Bool.eqb col (s_color_markers s) = true).
    { destruct col as [c|]; [|reflexivity]. rewrite (HC c eq_refl). now destruct c. }
    rewrite G2, EC, (canon_bin s (sm_kind x) (sm_focus x) HI HF) in OK. apply cells_dec_true in OK; [exact OK|exact true].
Qed.

(** where a piece is on the lines *)
Lemma token_lines_nonempty l t : token_lines (t :: l) <> [].
Proof. cbn [token_lines]. destruct (is_line_break t); [discriminate|]. destruct (token_lines l); discriminate. Qed.
Lemma token_lines_head t l : exists r rest, token_lines (t :: l) = (t :: r) :: rest.
Proof. cbn [token_lines]. destruct (is_line_break t); [eauto|]. destruct (token_lines l); eauto. Qed.
Lemma token_line_of before t after :
  exists l a b, In l (token_lines (before ++ t :: after)) /\ l = a ++ t :: b /\ (is_line_break t = false -> after <> [] -> b <> []).
Proof.
  induction before as [|u before IH].
  - cbn [app]. destruct (is_line_break t) eqn:E.
    + cbn [token_lines]. rewrite E. exists [t], [], []. split; [now left|]. split; [reflexivity|discriminate].
    + destruct after as [|v after].
      * cbn [token_lines]. rewrite E. exists [t], [], []. split; [now left|]. split; [reflexivity|congruence].
      * destruct (token_lines_head v after) as (r & rest & H).
        assert (T : token_lines (t :: v :: after) = (t :: v :: r) :: rest).
        { change (token_lines (t :: v :: after)) with (if is_line_break t then [t] :: token_lines (v :: after) else match token_lines (v :: after) with [] => [[t]] | l :: ls => (t :: l) :: ls end).
          rewrite E, H. reflexivity. }
        rewrite T. exists (t :: v :: r), [], (v :: r). split; [now left|]. split; [reflexivity|discriminate].
  - destruct IH as (l & a & b & HI & -> & HB). cbn [app token_lines]. destruct (is_line_break u).
    + exists (a ++ t :: b), a, b. split; [now right|]. split; [reflexivity|exact HB].
    + destruct (token_lines (before ++ t :: after)) as [|m ms]; [easy|]. destruct HI as [->|HI].
      * exists (u :: a ++ t :: b), (u :: a), b. split; [now left|]. split; [reflexivity|exact HB].
      * exists (a ++ t :: b), a, b. split; [now right|]. split; [reflexivity|exact HB].
Qed.
Lemma numbered_in s l ls n : In l ls -> exists m, In (line_number_cells s m ++ line_cells s l) (numbered s n ls).
Proof.
  revert n. induction ls as [|x ls IH]; [easy|]. intros n [->|H]; cbn [numbered].
  - exists n. now left.
  - destruct (IH (n + 1) H) as [m Hm]. exists m. now right.
Qed.
Lemma pieces_cells_of s a t b : b <> [] \/ snd (tok_cells s t) = [] ->
  exists c1 c2, pieces_cells s (a ++ t :: b) = c1 ++ (fst (tok_cells s t) ++ snd (tok_cells s t)) ++ c2.
Proof.
  intros H. induction a as [|u a IH].
  - cbn [app]. destruct b as [|v b].
    + destruct H as [H|H]; [easy|]. exists [], []. cbn [pieces_cells]. rewrite H, !app_nil_r. reflexivity.
    + exists [], (pieces_cells s (v :: b)). cbn [pieces_cells app]. now rewrite app_assoc.
  - destruct IH as (c1 & c2 & E). exists (fst (tok_cells s u) ++ snd (tok_cells s u) ++ c1), c2.
    replace (pieces_cells s ((u :: a) ++ t :: b)) with (fst (tok_cells s u) ++ snd (tok_cells s u) ++ pieces_cells s (a ++ t :: b)).
    + rewrite E, <- !app_assoc. reflexivity.
    + cbn [app pieces_cells]. destruct a; reflexivity.
Qed.
Lemma break_plain s t : is_line_break t = true -> snd (tok_cells s t) = [].
Proof.
  destruct t as [[k w] codes]. unfold is_line_break, tok_cells, tok_kind, tok_bytes, tok_codes. cbn [fst snd].
  destruct k; try discriminate. intros _. unfold text_cells. destruct (s_ignore s (class_of K_newline)); reflexivity.
Qed.

Lemma legend_text x s tc src evs chunks before next after :
  In x legend_samples -> is_text_sample x = true -> applies x s ->
  opens src -> Processed s evs chunks -> Finishes s evs -> Tokens chunks (before ++ sample_token x :: next :: after) ->
  exists p acts rows row l r, byteio_run s tc src evs = (p, acts, REnd) /\ displays (pr_out p) rows /\ In row rows /\
    map to_cell row = l ++ sample_region legend_screen x ++ r.
Proof.
  intros Hx HT HA HS HP HE Tk. pose proof HA as (_ & _ & HW).
  assert (HB : binary_mode s = false) by (unfold is_text_sample in HT; destruct (sm_where x); [apply HW|discriminate|discriminate]).
  destruct (text_eof s tc src evs chunks _ HS HB HP HE Tk) as (p & acts & R & D). cbv beta in D.
  destruct (token_line_of before (sample_token x) (next :: after)) as (l & a & b & HI & -> & HN).
  destruct (numbered_in s _ _ 1 HI) as [m Hm].
  pose proof (text_sample x s Hx HT HA) as TS. unfold sample_token in TS. destruct TS as (c1 & c2 & E1 & E2).
  destruct (pieces_cells_of s a (sample_token x) b) as (d1 & d2 & E3).
  { destruct (is_line_break (sample_token x)) eqn:EB; [right; now apply break_plain|left; apply HN; [reflexivity|discriminate]]. }
  exists p, acts, (numbered s 1 (token_lines (before ++ sample_token x :: next :: after))).
  eexists. exists (map to_cell (line_number_cells s m ++ d1)). eexists. split; [exact R|]. split; [exact D|]. split; [exact Hm|].
  unfold line_cells. rewrite E3.
  change (tok_cells s (sample_token x)) with (text_cells s (sm_kind x) (sm_bytes x) (sm_codes x)). rewrite E1.
  rewrite !map_app, E2, <- !app_assoc. reflexivity.
Qed.

Lemma binary_cells_length s k w codes : length (binary_cells s k w codes) = length w.
Proof.
  unfold binary_cells. destruct (s_ignore s (class_of k)); [apply map_length|]. destruct (is_escape_seq k).
  - destruct w; [reflexivity|]. cbn [length]. now rewrite map_length.
  - destruct k as [cp| | | | | | | | |r]; cbv zeta; [destruct (decoding s)|..|destruct r]; try (now rewrite map_length).
    etransitivity; [apply combine_length|]. rewrite combine_length, app_length, repeat_length, repeat_length. cbn [length]. lia.
Qed.
Lemma byte_cells_length s toks : length (byte_cells s toks) = length (flat_map tok_bytes toks).
Proof.
  unfold byte_cells. induction toks as [|t toks IH]; [reflexivity|]. cbn [flat_map]. now rewrite !app_length, IH, binary_cells_length.
Qed.

Lemma legend_binary x s tc c src evs chunks before after :
  In x legend_samples -> is_text_sample x = false -> applies x s -> columns s tc = Z.of_nat c -> (0 < c)%nat ->
  opens src -> Processed s evs chunks -> Finishes s evs -> Tokens chunks (before ++ sample_token x :: after) ->
  exists p acts l cells r, byteio_run s tc src evs = (p, acts, REnd) /\ displays (pr_out p) (binary_rows s c (l ++ cells ++ r)) /\
    length l = length (flat_map tok_bytes before) /\
    match sm_where x with
    | In_hex _ => sample_region legend_screen x = firstn (sm_width x) (map to_cell (flat_map hex_cells cells))
    | _ => sample_region legend_screen x = map to_cell (map char_cell cells)
    end.
Proof.
  intros Hx HT HA HC1 HC2 HS HP HE Tk. pose proof HA as (_ & _ & HW).
  assert (HB : binary_mode s = true) by (unfold is_text_sample in HT; destruct (sm_where x); [discriminate|apply HW|apply HW]).
  destruct (bin_eof s tc c src evs chunks _ HS (conj HB (conj HC1 HC2)) HP HE Tk) as (p & acts & R & D). cbv beta in D.
  exists p, acts, (byte_cells s before), (binary_cells s (sm_kind x) (sm_bytes x) (sm_codes x)), (byte_cells s after).
  split; [exact R|]. split.
  { unfold byte_cells in D. rewrite flat_map_app in D. cbn [flat_map] in D. exact D. }
  split.
  - apply byte_cells_length.
  - pose proof (binary_sample x s Hx HT HA) as B. cbv zeta in B. destruct (sm_where x); exact B.
Qed.

(** * What --legend and --version print *)
Lemma legend_runs : legend_run legend_bytes = Ok legend_out.
Proof. vm_compute. reflexivity. Qed.
Lemma main_legend s tc src evs epi : s_legend s = true -> app_main s tc src evs epi = mkApp (legend_out ++ [10]) None (Some 0%Z).
Proof.
  intros H. unfold app_main, app_run, app_input_settings.
  assert (C : create_runner (after_parse_args s) = LegendRunner).
  { unfold create_runner, after_parse_args. destruct (4 <=? s_debug s)%nat; [|now rewrite H].
    replace (s_legend (snd (get_read_mode s))) with true; [reflexivity|].
    unfold get_read_mode. destruct (s_binary s), (s_text s); now rewrite <- H. }
  rewrite C. unfold create_runner. rewrite H, legend_runs. reflexivity.
Qed.
Lemma main_version s tc src evs epi : s_legend s = false -> s_version s = true ->
  app_main s tc src evs epi = mkApp (version_run ++ [10]) None (Some 0%Z).
Proof.
  intros H V. unfold app_main, app_run, app_input_settings.
  assert (C : create_runner (after_parse_args s) = VersionRunner).
  { unfold create_runner, after_parse_args. destruct (4 <=? s_debug s)%nat; [|now rewrite H, V].
    replace (s_legend (snd (get_read_mode s))) with false; [replace (s_version (snd (get_read_mode s))) with true; [reflexivity|]|].
    - unfold get_read_mode. destruct (s_binary s), (s_text s); now rewrite <- V.
    - unfold get_read_mode. destruct (s_binary s), (s_text s); now rewrite <- H. }
  rewrite C. unfold create_runner. rewrite H, V. reflexivity.
Qed.
Lemma legend_clean : clean (legend_out ++ [10]) /\ final_attrs (legend_out ++ [10]) = attrs0.
Proof. split; vm_compute; reflexivity. Qed.

(** * Sigils *)
Definition sigil_ok (scr : list (list cell)) (x : nat * nat * option bool * kind * bool) : bool :=
  let '(y, c, m, k, foc) := x in
  forallb (fun bin => if opt_is Bool.eqb m bin then
     match skipn c (nth y scr []) with
     | g :: _ => cell_char g =? marker (canon L_none false false foc bin false) k
     | [] => false
     end else true) bools.
Lemma sigils_ok : (let scr := screen_lines legend_screen in forallb (sigil_ok scr) sigils) = true.
Proof. vm_compute. reflexivity. Qed.
Lemma legend_sigils y c m k foc s : In (y, c, m, k, foc) sigils -> s_focus s (class_of k) = foc -> (forall b, m = Some b -> binary_mode s = b) ->
  map cell_char (region legend_screen y c 1) = [marker s k].
Proof.
  intros H HF HM. pose proof sigils_ok as A. cbv zeta in A. rewrite forallb_forall in A. specialize (A _ H). unfold sigil_ok in A.
  rewrite forallb_forall in A. specialize (A (binary_mode s) (in_bools _)).
  assert (G : opt_is Bool.eqb m (binary_mode s) = true).
  { destruct m as [b|]; [|reflexivity]. rewrite (HM b eq_refl). now destruct b. }
  rewrite G in A. unfold region. destruct (skipn c (nth y (screen_lines legend_screen) [])) as [|g gs]; [discriminate|].
  apply N.eqb_eq in A. cbn [firstn map]. rewrite A. f_equal.
  destruct k as [| | | | | | | | |r]; try reflexivity; cbn [marker].
  - now destruct (binary_mode s).
  - destruct r; try reflexivity. cbn [class_of] in HF. rewrite HF. now destruct foc.
Qed.

(** * Classes *)
Lemma ranges_S : class_ranges legend_screen 8 = [(9, 13); (32, 32)].
Proof. vm_compute. reflexivity. Qed.
Lemma ranges_C : class_ranges legend_screen 9 = [(1, 8); (14, 31)].
Proof. vm_compute. reflexivity. Qed.
Lemma ranges_P : class_ranges legend_screen 10 = [(33, 126)].
Proof. vm_compute. reflexivity. Qed.
Lemma ranges_I : class_ranges legend_screen 11 = [(128, 255)].
Proof. vm_compute. reflexivity. Qed.

Lemma in_S b : in_ranges (class_ranges legend_screen 8) b <-> (9 <= b /\ b <= 13) \/ b = 32.
Proof. rewrite ranges_S. unfold in_ranges. split; [intros (r & [<-|[<-|[]]] & H); cbn [fst snd] in H; lia|].
  intros [H| ->]; [exists (9, 13)|exists (32, 32)]; cbn; intuition lia. Qed.
Lemma in_C b : in_ranges (class_ranges legend_screen 9) b <-> (1 <= b /\ b <= 8) \/ (14 <= b /\ b <= 31).
Proof. rewrite ranges_C. unfold in_ranges. split; [intros (r & [<-|[<-|[]]] & H); cbn [fst snd] in H; lia|].
  intros [H|H]; [exists (1, 8)|exists (14, 31)]; cbn; intuition lia. Qed.
Lemma in_P b : in_ranges (class_ranges legend_screen 10) b <-> 33 <= b /\ b <= 126.
Proof. rewrite ranges_P. unfold in_ranges. split; [intros (r & [<-|[]] & H); cbn [fst snd] in H; lia|].
  intros H; exists (33, 126); cbn; intuition lia. Qed.
Lemma in_I b : in_ranges (class_ranges legend_screen 11) b <-> 128 <= b /\ b <= 255.
Proof. rewrite ranges_I. unfold in_ranges. split; [intros (r & [<-|[]] & H); cbn [fst snd] in H; lia|].
  intros H; exists (128, 255); cbn; intuition lia. Qed.

Lemma legend_classes k w rest b : Token k w rest -> In b w -> single_kind k = true ->
  (class_of k = CC_space <-> in_ranges (class_ranges legend_screen 8) b) /\
  (class_of k = CC_printable <-> in_ranges (class_ranges legend_screen 10) b) /\
  (class_of k = CC_binary <-> in_ranges (class_ranges legend_screen 11) b) /\
  (in_ranges (class_ranges legend_screen 9) b -> class_of k = CC_control) /\
  (class_of k = CC_control -> in_ranges (class_ranges legend_screen 9) b \/ b = 0 \/ b = 127).
Proof.
  intros T Hb HK. rewrite in_S, in_C, in_P, in_I. inversion T; subst; try discriminate HK.
  - match goal with H : Forall high _ |- _ => rewrite Forall_forall in H; specialize (H b Hb); unfold high, rng in H end.
    cbn [class_of]. repeat split; intros; try discriminate; try lia; reflexivity.
  - destruct Hb as [<-|[]]. cbn [class_of]. repeat split; intros; try discriminate; try lia; reflexivity.
  - destruct Hb as [<-|[]]. cbn [class_of]. repeat split; intros; try discriminate; try lia; reflexivity.
  - match goal with H : Forall (run_member _) _ |- _ => rewrite Forall_forall in H; specialize (H b Hb) end.
    destruct k0; cbn [run_member] in *; unfold rng in *; cbn [class_of]; repeat split; intros; try discriminate; try reflexivity; lia.
Qed.
Lemma legend_classes_witness :
  (Token (K_run R_null) [0] [] /\ class_of (K_run R_null) = CC_control /\ ~ in_ranges (class_ranges legend_screen 9) 0) /\
  (Token (K_run R_delete) [127] [] /\ class_of (K_run R_delete) = CC_control /\ ~ in_ranges (class_ranges legend_screen 9) 127).
Proof.
  split; (split; [apply Tok_run; [discriminate|repeat constructor|intros (b & t & E & _); discriminate]|split; [reflexivity|rewrite in_C; lia]]).
Qed.

(** version and width *)
Lemma legend_version_shown : map cell_char (region legend_screen 5 44 6) = [118; 49; 46; 53; 46; 51].
Proof. vm_compute. reflexivity. Qed.
Definition line_widths : list nat := map (@length cell) (screen_lines legend_screen).
Lemma legend_width_stated : map cell_char (region legend_screen 63 42 13) = [56; 56; 32; 99; 104; 97; 114; 115; 32; 119; 105; 100; 101].
Proof. vm_compute. reflexivity. Qed.
Lemma legend_widths y : y <> 16%nat -> (length (nth y (screen_lines legend_screen) []) <= 88)%nat.
Proof.
  intros H. destruct (Nat.lt_ge_cases y 69) as [L|L].
  - assert (A : (let scr := screen_lines legend_screen in forallb (fun y => (y =? 16)%nat || (length (nth y scr []) <=? 88)%nat) (seq 0 69)) = true) by (vm_compute; reflexivity).
    cbv zeta in A. rewrite forallb_forall in A. specialize (A y). rewrite in_seq in A. specialize (A ltac:(lia)).
    apply orb_true_iff in A. destruct A as [A|A]; [apply Nat.eqb_eq in A; lia|now apply Nat.leb_le].
  - rewrite nth_overflow; [cbn; lia|]. replace (length (screen_lines legend_screen)) with 69%nat; [exact L|vm_compute; reflexivity].
Qed.
Lemma legend_wide : length (nth 16 (screen_lines legend_screen) []) = 101%nat.
Proof. vm_compute. reflexivity. Qed.
