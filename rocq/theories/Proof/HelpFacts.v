(** The help page at every width *)
From Coq Require Import Ascii String.
From Coq Require Import List NArith ZArith Bool Lia.
From Verif.Model Require Import Base Render Args Wrap Help.
Import ListNotations.
Local Open Scope N_scope.

Definition action_at (pos hw : nat) (tty : bool) (g : arg) : str :=
  let action_width := (pos - section_indent - 2)%nat in
  let header := invocation g in
  let lines := wrap hw (normalise (expand_help tty g)) in
  let tail := flat_map (fun l => indent pos ++ l ++ NL) (List.tl lines) in
  if (length header <=? action_width)%nat
  then indent section_indent ++ ljust action_width header ++ indent 2 ++ List.hd [] lines ++ NL ++ tail
  else indent section_indent ++ header ++ NL ++ indent pos ++ List.hd [] lines ++ NL ++ tail.
Definition raw_at (pos hw : nat) (tty : bool) : str :=
  formatted (usage_items ++ [format_text 0 description]
             ++ map (fun x => section (txt (fst x)) (map (action_at pos hw tty) (snd x))) groups)
  ++ formatted [ format_text 0 (txt " "); format_text 0 (epilog tty);
                 section (txt "examples") [format_text 2 (join NL (examples tty))] ].
Definition page_at (pos hw : nat) (tty : bool) : str := let s := raw_at pos hw tty in no_colons (length s) s.
Lemma page_page columns tty : help_page columns tty = page_at (help_position columns) (help_width columns) tty.
Proof. reflexivity. Qed.

(** the same with everything computed that does not depend on the width *)
Definition arg_data := (str * (nat * list str))%type.
Definition data_of (tty : bool) (g : arg) : arg_data :=
  let s := normalise (expand_help tty g) in (invocation g, (S (2 * length s), split_pieces s)).
Definition all_data (tty : bool) : list (str * list arg_data) := map (fun x => (txt (fst x), map (data_of tty) (snd x))) groups.
Definition data_on : list (str * list arg_data) := Eval vm_compute in all_data true.
Definition data_off : list (str * list arg_data) := Eval vm_compute in all_data false.
Definition data (tty : bool) := if tty then data_on else data_off.
Lemma data_all tty : all_data tty = data tty.
Proof. destruct tty; vm_compute; reflexivity. Qed.

Definition action_data (pos hw : nat) (d : arg_data) : str :=
  let '(header, (fuel, ps)) := d in
  let action_width := (pos - section_indent - 2)%nat in
  let lines := wrap_pieces fuel hw true ps in
  let tail := flat_map (fun l => indent pos ++ l ++ NL) (List.tl lines) in
  if (length header <=? action_width)%nat
  then indent section_indent ++ ljust action_width header ++ indent 2 ++ List.hd [] lines ++ NL ++ tail
  else indent section_indent ++ header ++ NL ++ indent pos ++ List.hd [] lines ++ NL ++ tail.
Definition first_items : list str := Eval vm_compute in usage_items ++ [format_text 0 description].
Definition ending (tty : bool) : str :=
  formatted [ format_text 0 (txt " "); format_text 0 (epilog tty); section (txt "examples") [format_text 2 (join NL (examples tty))] ].
Definition ending_on := Eval vm_compute in ending true.
Definition ending_off := Eval vm_compute in ending false.
Definition fast_formatted (items : list str) : str :=
  match concat items with [] => [] | s => rev' (skip_nl (rev' (skip_nl (long_breaks 0 s)))) ++ NL end.
Lemma fast_formatted_ok items : formatted items = fast_formatted items.
Proof. unfold formatted, fast_formatted, strip_nl, rstrip_nl, rev'. destruct (concat items); [reflexivity|]. now rewrite <- !rev_alt. Qed.
Definition fast_raw (pos hw : nat) (tty : bool) : str :=
  fast_formatted (first_items ++ map (fun x => section (fst x) (map (action_data pos hw) (snd x))) (data tty))
  ++ (if tty then ending_on else ending_off).
(** colons are removed only where there is a colon behind white space, or an escape sequence *)
Fixpoint flags (s : str) : list bool :=
  match s with
  | [] => []
  | c :: r => let fl := flags r in
              (if (33 <=? c) && (c <=? 126) then c =? 58 else if re_space c then hd false fl else false) :: fl
  end.
Fixpoint fast_colons (fuel : nat) (s : str) (fl : list bool) : str :=
  match fuel, s with
  | O, _ | _, [] => s
  | S fuel, c :: r =>
      if hd false fl || (c =? 27) then
        match colon_match s with
        | Some (x, t) => x ++ fast_colons fuel t (flags t)
        | None => c :: fast_colons fuel r (tl fl)
        end
      else c :: fast_colons fuel r (tl fl)
  end.
Lemma plain_not_space c : 33 <= c <= 126 -> re_space c = false.
Proof.
  intros H. unfold re_space, int_space. cbn [existsb].
  repeat match goal with |- context [c =? ?k] => rewrite (proj2 (N.eqb_neq c k)) by lia end.
  repeat match goal with |- context [c <=? ?k] => rewrite (proj2 (N.leb_gt c k)) by lia end. now rewrite !andb_false_r.
Qed.
Lemma flags_colon s : hd false (flags s) = match skip_re_space s with 58 :: _ => true | _ => false end.
Proof.
  induction s as [|c r IH]; [reflexivity|]. cbn [flags hd skip_re_space]. destruct ((33 <=? c) && (c <=? 126)) eqn:E.
  - apply andb_true_iff in E as [E1 E2]. apply N.leb_le in E1, E2. rewrite plain_not_space by lia. destruct (N.eqb_spec c 58) as [->|NE]; [reflexivity|].
    destruct c as [|p]; [reflexivity|]. do 6 (destruct p as [p|p|]; try reflexivity). congruence.
  - destruct (re_space c) eqn:R; [exact IH|]. destruct (N.eqb_spec c 58) as [->|NE]; [discriminate E|].
    destruct c as [|p]; [reflexivity|]. do 6 (destruct p as [p|p|]; try reflexivity). congruence.
Qed.
Lemma fast_colons_ok : forall fuel s, no_colons fuel s = fast_colons fuel s (flags s).
Proof.
  induction fuel as [|fuel IH]; intros s; [reflexivity|]. destruct s as [|c r]; [reflexivity|].
  pose proof (flags_colon (c :: r)) as F. cbn [no_colons fast_colons]. set (fl := flags (c :: r)) in *. assert (T : tl fl = flags r) by reflexivity. clearbody fl. rewrite T.
  destruct (hd false fl) eqn:H; cbn [orb].
  - destruct (colon_match (c :: r)) as [[x t]|]; now rewrite IH.
  - destruct (N.eqb_spec c 27) as [->|NE]; [destruct (colon_match (27 :: r)) as [[x t]|]; now rewrite IH|].
    assert (M : colon_match (c :: r) = None); [|now rewrite M, IH].
    assert (S : sgr_at (c :: r) = None). { unfold sgr_at. destruct c as [|p]; [reflexivity|]. do 5 (destruct p as [p|p|]; try reflexivity). congruence. }
    unfold colon_match. rewrite S. unfold colon. destruct (skip_re_space (c :: r)) as [|d t]; [reflexivity|].
    destruct (N.eqb_spec d 58) as [->|ND]; [discriminate F|]. destruct d as [|p]; [reflexivity|]. do 6 (destruct p as [p|p|]; try reflexivity). congruence.
Qed.
Definition fast_page (pos hw : nat) (tty : bool) : str := let s := fast_raw pos hw tty in fast_colons (length s) s (flags s).
Lemma fast_at pos hw tty : page_at pos hw tty = fast_page pos hw tty.
Proof.
  unfold page_at, fast_page. assert (E : raw_at pos hw tty = fast_raw pos hw tty); [|rewrite E; apply fast_colons_ok].
  unfold raw_at, fast_raw. f_equal; [|destruct tty; vm_compute; reflexivity].
  assert (E0 : usage_items ++ [format_text 0 description] = first_items) by (vm_compute; reflexivity).
  rewrite app_assoc, E0, fast_formatted_ok. f_equal. f_equal. rewrite <- data_all. unfold all_data. rewrite map_map. apply map_ext. intros [n l].
  cbn [fst snd]. f_equal. rewrite map_map. apply map_ext. intros g. reflexivity.
Qed.

(** ** All widths *)
Lemma longest : action_max_length = 24%nat.
Proof. vm_compute. reflexivity. Qed.
Lemma dims_small c : (c <= 17)%Z -> help_position c = help_position 17 /\ help_width c = help_width 17.
Proof.
  intros H. assert (E : help_position c = 4%nat). { unfold help_position, max_help_position, page_width. rewrite longest. lia. }
  unfold help_width. rewrite E. change (help_position 17) with (Z.to_nat (Z.min (Z.of_nat action_max_length + 2) (max_help_position 17))).
  rewrite longest. split; [reflexivity|]. cbv [max_help_position page_width]. lia.
Qed.
Lemma dims_large c : (148 <= c)%Z -> help_position c = 26%nat /\ (120 <= help_width c)%nat.
Proof.
  intros H. assert (E : help_position c = 26%nat). { unfold help_position, max_help_position, page_width. rewrite longest. lia. }
  split; [exact E|]. unfold help_width, page_width. rewrite E. lia.
Qed.

Lemma fitting_all w ps : forall cur, (cur + length (concat ps) <= w)%nat -> fitting w cur ps = (ps, []).
Proof.
  induction ps as [|p r IH]; intros cur H; [reflexivity|]. cbn [concat] in H. rewrite app_length in H. cbn [fitting].
  assert (E : (cur + length p <=? w)%nat = true) by (apply Nat.leb_le; lia). rewrite E, IH by lia. reflexivity.
Qed.
Lemma wrap_single fuel w ps : (length (concat ps) <= w)%nat -> ps <> [] -> blank (last ps []) = false -> wrap_pieces (S fuel) w true ps = [concat ps].
Proof.
  intros L NE B. destruct ps as [|p r]; [now destruct NE|]. cbn [wrap_pieces]. rewrite andb_false_r. rewrite fitting_all by (cbn [plus]; exact L).
  assert (D : drop_last_blank (p :: r) = p :: r).
  { destruct (exists_last NE) as (l & q & E). rewrite E in B |- *. rewrite last_last in B. unfold drop_last_blank. rewrite rev_unit, B. reflexivity. }
  rewrite D. now destruct fuel.
Qed.
Definition short_data (d : arg_data) : bool :=
  let '(_, (fuel, ps)) := d in
  (0 <? fuel)%nat && (length (concat ps) <=? 120)%nat && negb (match ps with [] => true | _ => false end) && negb (blank (last ps [])).
Lemma all_short tty : forallb (fun x => forallb short_data (snd x)) (data tty) = true.
Proof. destruct tty; vm_compute; reflexivity. Qed.
Lemma page_large pos hw tty : (120 <= hw)%nat -> fast_page pos hw tty = fast_page pos 120 tty.
Proof.
  intros H. unfold fast_page. assert (E : fast_raw pos hw tty = fast_raw pos 120 tty); [|now rewrite E]. unfold fast_raw. do 3 f_equal.
  pose proof (all_short tty) as A. rewrite forallb_forall in A. apply map_ext_in. intros x I. f_equal. apply map_ext_in. intros d J.
  specialize (A x I). cbv beta in A. rewrite forallb_forall in A. specialize (A d J). destruct d as [h [fuel ps]]. cbn [short_data] in A.
  repeat (apply andb_true_iff in A as [A ?]). destruct fuel as [|fuel]; [discriminate|]. unfold action_data.
  assert (N0 : ps <> []) by (now destruct ps). assert (B : blank (last ps []) = false) by (now apply negb_true_iff).
  assert (L : (length (concat ps) <= 120)%nat) by (now apply Nat.leb_le).
  rewrite (wrap_single fuel hw), (wrap_single fuel 120) by (lia || assumption). reflexivity.
Qed.

(** a check of all pages *)
Definition check_all (f : bool -> Z -> str -> bool) : bool :=
  forallb (fun tty => forallb (fun n => let c := Z.of_nat n in f tty c (fast_page (help_position c) (help_width c) tty)) (seq 17 132)) [true; false].
Lemma all_pages f : check_all f = true ->
  (forall tty c p, (c <= 17)%Z -> f tty c p = f tty 17%Z p) -> (forall tty c p, (148 <= c)%Z -> f tty c p = f tty 148%Z p) ->
  forall tty c, f tty c (help_page c tty) = true.
Proof.
  intros C LO HI tty c. unfold check_all in C. rewrite forallb_forall in C. assert (I : In tty [true; false]) by (destruct tty; cbn; auto). specialize (C tty I).
  rewrite forallb_forall in C. assert (G : forall z, (17 <= z < 149)%Z -> f tty z (help_page z tty) = true).
  { intros z Hz. assert (J : In (Z.to_nat z) (seq 17 132)) by (apply in_seq; lia). specialize (C _ J). cbv beta zeta in C. rewrite Z2Nat.id in C by lia.
    now rewrite page_page, fast_at. }
  destruct (Z_le_gt_dec c 17) as [H|H].
  - rewrite LO by exact H. destruct (dims_small c H) as [E1 E2]. rewrite page_page, E1, E2, <- page_page. apply G. lia.
  - destruct (Z_lt_le_dec c 148) as [H'|H']; [apply G; lia|]. rewrite HI by exact H'. destruct (dims_large c H') as [E1 E2].
    specialize (G 148%Z ltac:(lia)). destruct (dims_large 148 ltac:(lia)) as [E3 E4].
    rewrite page_page, fast_at, E1, page_large by exact E2. rewrite page_page, fast_at, E3, page_large in G by exact E4. exact G.
Qed.
