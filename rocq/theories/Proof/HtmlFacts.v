(** Rendering as HTML *)
From Coq Require Import Ascii String.
From Coq Require Import List Arith NArith ZArith Bool Lia Permutation.
From Verif.Model Require Import Base Ansi Color Presets Render.
From Verif.Spec Require Import Numbers Terminal Palette Tmux Html Styles.
From Verif.Proof Require Import BaseFacts ColorFacts RenderFacts.
Import ListNotations.
Local Open Scope N_scope.

Definition hpaints (k : list hlook) (s : str) (k' : list hlook) (cells : list hcell) : Prop := hrun HText k s = (HText, k', cells).
Lemma hrun_app s t st k : hrun st k (s ++ t) =
  let '(st1, k1, l1) := hrun st k s in let '(st2, k2, l2) := hrun st1 k1 t in (st2, k2, l1 ++ l2).
Proof.
  revert st k. induction s as [|c s IH]; intros st k; cbn [app hrun].
  - destruct (hrun st k t) as [[? ?] ?]. reflexivity.
  - destruct (hstep st k c) as [[st1 k1] l1]. rewrite IH. destruct (hrun st1 k1 s) as [[st2 k2] l2].
    destruct (hrun st2 k2 t) as [[st3 k3] l3]. now rewrite app_assoc.
Qed.
Lemma hrun_cat s t st k st1 k1 l1 st2 k2 l2 : hrun st k s = (st1, k1, l1) -> hrun st1 k1 t = (st2, k2, l2) ->
  hrun st k (s ++ t) = (st2, k2, l1 ++ l2).
Proof. intros H K. now rewrite hrun_app, H, K. Qed.
Lemma hrun_text k s : Forall (fun c => c <> 60 /\ c <> 38) s -> hrun HText k s = (HText, k, map (fun c => HGlyph c (hd hlook0 k)) s).
Proof.
  induction 1 as [|c s [H1 H2] H IH]; [reflexivity|]. cbn [hrun hstep map]. apply N.eqb_neq in H1, H2. now rewrite H1, H2, IH.
Qed.
Lemma hrun_in k s : Forall (fun c => c <> 34 /\ c <> 62) s -> forall acc attrs, hrun (HIn acc attrs) k s = (HIn (acc ++ s) attrs, k, []).
Proof.
  induction 1 as [|c s [H1 H2] H IH]; intros acc attrs; [now rewrite app_nil_r|]. cbn [hrun hstep]. apply N.eqb_neq in H1, H2.
  rewrite H1, H2, IH, <- app_assoc. reflexivity.
Qed.
Lemma hrun_val k n s : Forall (fun c => c <> 34) s -> forall acc attrs, hrun (HVal n acc attrs) k s = (HVal n (acc ++ s) attrs, k, []).
Proof.
  induction 1 as [|c s H1 H IH]; intros acc attrs; [now rewrite app_nil_r|]. cbn [hrun hstep]. apply N.eqb_neq in H1.
  rewrite H1, IH, <- app_assoc. reflexivity.
Qed.

(** ** separators *)
Lemma parts_none sep s cur : Forall (fun c => c <> sep) s -> parts sep cur s = [rev cur ++ s].
Proof.
  intros H. revert cur. induction H as [|c s Hc H IH]; intros cur; cbn [parts]; [now rewrite app_nil_r|].
  apply N.eqb_neq in Hc. rewrite Hc, IH. cbn [rev]. now rewrite <- app_assoc.
Qed.
Lemma parts_sep sep s t cur : Forall (fun c => c <> sep) s -> parts sep cur (s ++ sep :: t) = (rev cur ++ s) :: parts sep [] t.
Proof.
  intros H. revert cur. induction H as [|c s Hc H IH]; intros cur; cbn [app parts].
  - now rewrite N.eqb_refl, app_nil_r.
  - apply N.eqb_neq in Hc. rewrite Hc, IH. cbn [rev]. now rewrite <- app_assoc.
Qed.
Definition wordlike (w : str) : Prop := w <> [] /\ Forall (fun c => c <> 32) w.
Lemma words_join ws : Forall wordlike ws -> blank_words (join [32] ws) = ws.
Proof.
  unfold blank_words. induction 1 as [|w ws [N1 N2] H IH]; [reflexivity|].
  destruct ws as [|w2 ws].
  - cbn [join]. rewrite parts_none by exact N2. cbn [rev app filter]. destruct w; [easy|reflexivity].
  - change (join [32] (w :: w2 :: ws)) with (w ++ 32 :: join [32] (w2 :: ws)). rewrite parts_sep by exact N2.
    cbn [rev app filter]. rewrite IH. destruct w; [easy|reflexivity].
Qed.
Lemma words_blank s : blank_words (32 :: s) = blank_words s.
Proof. reflexivity. Qed.
Lemma colon_at p v cur : Forall (fun c => c <> 58) p -> at_colon cur (p ++ 58 :: v) = Some (rev cur ++ p, v).
Proof.
  intros H. revert cur. induction H as [|c s Hc H IH]; intros cur; cbn [app at_colon].
  - now rewrite N.eqb_refl, app_nil_r.
  - apply N.eqb_neq in Hc. rewrite Hc, IH. cbn [rev]. now rewrite <- app_assoc.
Qed.

(** ** declarations *)
Definition decl_str (d : str * list str) : str := fst d ++ [58; 32] ++ join [32] (snd d).
Definition decl_ok (d : str * list str) : Prop :=
  fst d <> [] /\ Forall (fun c => c <> 58 /\ c <> 32 /\ c <> 59) (fst d) /\
  Forall (fun w => w <> [] /\ Forall (fun c => c <> 32 /\ c <> 59) w) (snd d).
Lemma join_forall (P : N -> Prop) ws : P 32 -> Forall (Forall P) ws -> Forall P (join [32] ws).
Proof.
  intros P32. induction 1 as [|w ws H1 H IH]; [constructor|]. destruct ws as [|w2 ws]; [exact H1|].
  change (join [32] (w :: w2 :: ws)) with (w ++ 32 :: join [32] (w2 :: ws)). apply Forall_app. split; [exact H1|]. constructor; auto.
Qed.
Lemma decl_no_semicolon d : decl_ok d -> Forall (fun c => c <> 59) (decl_str d).
Proof.
  intros (N1 & P & W). unfold decl_str. apply Forall_app. split; [eapply Forall_impl; [|exact P]; cbn; tauto|].
  repeat (constructor; [discriminate|]). apply join_forall; [discriminate|]. eapply Forall_impl; [|exact W].
  cbn beta. intros w (_ & H). eapply Forall_impl; [|exact H]. cbn beta. tauto.
Qed.
Lemma decl_read d l lead : decl_ok d -> (lead = [] \/ lead = [32]) -> css_decl l (lead ++ decl_str d) = css_set (fst d) (snd d) l.
Proof.
  intros (N1 & P & W) L. unfold css_decl, decl_str.
  assert (A : at_colon [] (lead ++ fst d ++ [58; 32] ++ join [32] (snd d)) = Some (lead ++ fst d, 32 :: join [32] (snd d))).
  { rewrite app_assoc. change ([58; 32] ++ join [32] (snd d)) with (58 :: 32 :: join [32] (snd d)). rewrite colon_at; [reflexivity|].
    apply Forall_app. split; [destruct L as [->| ->]; repeat constructor; discriminate|]. eapply Forall_impl; [|exact P]. cbn beta. tauto. }
  rewrite A. rewrite words_blank, words_join.
  2:{ eapply Forall_impl; [|exact W]. cbn beta. intros w (H1 & H2). split; [exact H1|]. eapply Forall_impl; [|exact H2]. cbn beta. tauto. }
  assert (B : blank_words (lead ++ fst d) = [fst d]).
  { transitivity (blank_words (join [32] [fst d])).
    - destruct L as [->| ->]; [reflexivity|]. apply words_blank.
    - apply words_join. constructor; [|constructor]. split; [exact N1|]. eapply Forall_impl; [|exact P]. cbn beta. tauto. }
  rewrite B. reflexivity.
Qed.
Lemma css_lead ds l lead : Forall decl_ok ds -> ds <> [] -> (lead = [] \/ lead = [32]) ->
  fold_left css_decl (parts 59 [] (lead ++ join [59; 32] (map decl_str ds))) l = fold_left (fun l d => css_set (fst d) (snd d) l) ds l.
Proof.
  intros H. revert l lead. induction H as [|d ds D H IH]; intros l lead N1 L; [easy|].
  assert (S : Forall (fun c => c <> 59) (lead ++ decl_str d)).
  { apply Forall_app. split; [destruct L as [->| ->]; repeat constructor; discriminate|]. now apply decl_no_semicolon. }
  destruct ds as [|d2 ds].
  - cbn [map join]. rewrite parts_none by exact S. cbn [rev app fold_left]. now apply decl_read.
  - change (join [59; 32] (map decl_str (d :: d2 :: ds))) with (decl_str d ++ 59 :: [32] ++ join [59; 32] (map decl_str (d2 :: ds))).
    rewrite app_assoc. rewrite parts_sep by exact S. cbn [rev app fold_left]. rewrite decl_read by assumption.
    exact (IH (css_set (fst d) (snd d) l) [32] ltac:(discriminate) (or_intror eq_refl)).
Qed.
Lemma css_decls ds l : Forall decl_ok ds -> css (join [59; 32] (map decl_str ds)) l = fold_left (fun l d => css_set (fst d) (snd d) l) ds l.
Proof.
  intros H. unfold css. destruct ds as [|d ds]; [reflexivity|]. apply (css_lead (d :: ds) l []); [exact H|discriminate|now left].
Qed.

(** ** the declarations of a style *)

Lemma hex_color_ok h : (0 <= h <= 0xffffff)%Z -> hex_color ([35] ++ fmt_06x h) = Some h.
Proof.
  intros H. unfold fmt_06x. destruct (Z.ltb_spec h 0); [lia|]. unfold hex_color.
  change (after_prefix (chars "#") ([35] ++ fmt_hex_lo 6 (Z.to_N h))) with (Some (fmt_hex_lo 6 (Z.to_N h))). cbn iota.
  rewrite fmt_hex_lo_length; [|lia|change (16 ^ N.of_nat 6)%N with (Z.to_N 16777216); lia]. cbn [Nat.eqb]. rewrite read_hex_lo.
  cbn [option_map]. f_equal. lia.
Qed.
Lemma hex_color_word h : Forall (fun c => c <> 32 /\ c <> 59 /\ c <> 34) ([35] ++ fmt_06x h).
Proof.
  constructor; [lia|]. unfold fmt_06x. destruct (h <? 0)%Z; [constructor; [lia|]|]; (eapply Forall_impl; [|apply fmt_hex_lo_chars]); cbn beta; intros; lia.
Qed.

Definition nonempty (d : string * list str) : bool := negb (Nat.eqb (List.length (snd d)) 0).
Definition set_or (name : string) (ws : list str) (l : hlook) : hlook := if nonempty (name, ws) then css_set (txt name) ws l else l.
Lemma set_all (ds : list (string * list str)) (order : list str -> list str) l :
  fold_left (fun l d => css_set (fst d) (snd d) l) (map (fun d => (txt (fst d), order (snd d))) (filter nonempty ds)) l
  = fold_left (fun l d => if nonempty d then css_set (txt (fst d)) (order (snd d)) l else l) ds l.
Proof.
  revert l. induction ds as [|d ds IH]; intros l; [reflexivity|]. cbn [filter fold_left]. destruct (nonempty d); cbn [map fold_left]; apply IH.
Qed.

Lemma has_perm x a b : Permutation a b -> has x a = has x b.
Proof.
  intros P. unfold has. destruct (existsb (fun w => is_word w x) a) eqn:E; symmetry.
  - apply existsb_exists in E as (w & I & W). apply existsb_exists. exists w. split; [now apply (Permutation_in w P)|exact W].
  - apply not_true_is_false. intros E'. apply existsb_exists in E' as (w & I & W). apply Permutation_sym in P.
    enough (existsb (fun w => is_word w x) a = true) by congruence. apply existsb_exists. exists w. split; [now apply (Permutation_in w P)|exact W].
Qed.
Lemma forallb_perm {A} (f : A -> bool) a b : Permutation a b -> forallb f a = forallb f b.
Proof. induction 1; cbn; try congruence. destruct (f x), (f y); reflexivity. Qed.
Lemma one_perm {A} (x : A) l : Permutation l [x] -> l = [x].
Proof. intros P. apply Permutation_sym in P. now apply Permutation_length_1_inv in P. Qed.

(** the effect of each property does not depend on the order of its words *)
Lemma css_set_perm p a b l : Permutation a b -> css_set p a l = css_set p b l.
Proof.
  intros P. destruct l. unfold css_set. rewrite (has_perm "underline" a b P), (has_perm "overline" a b P), (has_perm "line-through" a b P),
    (has_perm "double" a b P), (has_perm "1px" a b P), (has_perm "dotted" a b P), (has_perm "saturate(0.5)" a b P), (has_perm "brightness(0.75)" a b P),
    (Permutation_length P), (forallb_perm _ a b P).
  assert (O : forall (T : Type) (f : str -> T) (d : T), match a with [w] => f w | _ => d end = match b with [w] => f w | _ => d end).
  { intros T f d. destruct a as [|x [|y a]].
    - apply Permutation_nil in P. now subst.
    - apply Permutation_length_1_inv in P. now subst.
    - pose proof (Permutation_length P) as L. destruct b as [|u [|v b]]; cbn in L; try discriminate. reflexivity. }
  rewrite !O. reflexivity.
Qed.

Definition step_decl (l : hlook) (d : string * list str) : hlook := if nonempty d then css_set (txt (fst d)) (snd d) l else l.
Lemma rest_look (a b : option Z) (blink bold cross dim dou it ov un : bool) :
  let border := if blink then set_update [txt "1px"; txt "dotted"] [] else [] in
  let weight := if bold then [txt "700"] else [] in
  let filter := if dim then set_update [txt "saturate(0.5)"; txt "brightness(0.75)"] [] else [] in
  let deco := if cross then [txt "line-through"] else [] in
  let deco := if dou then set_update [txt "underline"; txt "double"] deco else deco in
  let fstyle := if it then [txt "italic"] else [] in
  let deco := if ov then set_add (txt "overline") deco else deco in
  let deco := if un then set_add (txt "underline") deco else deco in
  fold_left step_decl [ ("font-weight", weight); ("font-style", fstyle);
    ("text-decoration", deco); ("border", border); ("filter", filter) ]%string (mkH a b false false false false false false false false)
  = mkH a b bold it (un || dou) ov cross dou blink dim.
Proof. destruct blink, bold, cross, dim, dou, it, ov, un; vm_compute; reflexivity. Qed.

Lemma decls_look (order : list str -> list str) s : (forall l, Permutation (order l) l) -> color_ok (st_fg s) -> color_ok (st_bg s) ->
  hlooks s (fold_left (fun l d => if nonempty d then css_set (txt (fst d)) (order (snd d)) l else l) (html_decls s) hlook0).
Proof.
  intros ORD FG BG.
  assert (E : fold_left (fun l d => if nonempty d then css_set (txt (fst d)) (order (snd d)) l else l) (html_decls s) hlook0
            = fold_left (fun l d => if nonempty d then css_set (txt (fst d)) (snd d) l else l) (html_decls s) hlook0).
  { generalize hlook0. induction (html_decls s) as [|d ds IH]; intros l; [reflexivity|]. cbn [fold_left]. rewrite IH.
    destruct (nonempty d); [|reflexivity]. f_equal. apply css_set_perm, ORD. }
  rewrite E. clear E.
  set (col := fun c => match hex_value c with None => @nil str | Some _ => [format_value c [35] [126]] end).
  assert (CF : forall c l, color_ok c -> (if nonempty ("color", col c)%string then css_set (txt "color") (col c) l else l)
              = match hex_value c with None => l | Some h => mkH (Some h) (h_bg l) (h_bold l) (h_italic l) (h_under l) (h_over l) (h_through l) (h_double l) (h_boxed l) (h_faint l) end).
  { intros c l C. unfold color_ok in C. subst col. cbn beta. unfold format_value. destruct (hex_value c) as [h|]; [|reflexivity].
    cbn [nonempty snd List.length Nat.eqb negb]. destruct l. unfold css_set. change (is_word (txt "color") "color") with true. cbn iota. now rewrite hex_color_ok. }
  assert (CB : forall c l, color_ok c -> (if nonempty ("background-color", col c)%string then css_set (txt "background-color") (col c) l else l)
              = match hex_value c with None => l | Some h => mkH (h_fg l) (Some h) (h_bold l) (h_italic l) (h_under l) (h_over l) (h_through l) (h_double l) (h_boxed l) (h_faint l) end).
  { intros c l C. unfold color_ok in C. subst col. cbn beta. unfold format_value. destruct (hex_value c) as [h|]; [|reflexivity].
    cbn [nonempty snd List.length Nat.eqb negb]. destruct l. unfold css_set. change (is_word (txt "background-color") "color") with false.
    change (is_word (txt "background-color") "background-color") with true. cbn iota. now rewrite hex_color_ok. }
  unfold html_decls. fold (col (st_fg s)) (col (st_bg s)).
  fold step_decl. set (f := step_decl).
  assert (R : forall a b rest, color_ok a -> color_ok b -> fold_left f (("color", col a) :: ("background-color", col b) :: rest)%string hlook0
            = fold_left f rest (mkH (hex_value a) (hex_value b) false false false false false false false false)).
  { intros a b rest A B. cbn [fold_left]. f_equal. subst f. unfold step_decl. cbn [fst snd]. rewrite CF, CB by assumption.
    destruct (hex_value a), (hex_value b); reflexivity. }
  destruct s as [fg bg blink bold cross dim dou inv it ov un cls].
  cbn [st_fg st_bg st_blink st_bold st_crosslined st_dim st_double_underlined st_inversed st_italic st_overlined st_underlined] in *.
  assert (T : forall o, truthy o = on o) by (intros [[|]|]; reflexivity).
  rewrite !T. unfold hlooks. cbn [st_fg st_bg st_blink st_bold st_crosslined st_dim st_double_underlined st_inversed st_italic st_overlined st_underlined].
  destruct (on inv); cbv zeta iota beta; (rewrite R by assumption); subst f;
  (rewrite (rest_look (hex_value _) (hex_value _) (on blink) (on bold) (on cross) (on dim) (on dou) (on it) (on ov) (on un)));
  cbn; repeat split.
Qed.


Lemma join_sep_forall (P : N -> Prop) sep ws : Forall P sep -> Forall (Forall P) ws -> Forall P (join sep ws).
Proof.
  intros S. induction 1 as [|w ws H1 H IH]; [constructor|]. destruct ws as [|w2 ws]; [exact H1|].
  change (join sep (w :: w2 :: ws)) with (w ++ sep ++ join sep (w2 :: ws)). apply Forall_app. split; [exact H1|]. now apply Forall_app.
Qed.
Lemma set_add_forall (P : str -> Prop) x l : P x -> Forall P l -> Forall P (set_add x l).
Proof. intros H K. unfold set_add. destruct (existsb _ _); [exact K|]. apply Forall_app. auto. Qed.

Definition word_ok (w : str) : Prop := w <> [] /\ Forall (fun c => c <> 32 /\ c <> 59 /\ c <> 34) w.
Lemma html_words s : Forall (fun d => Forall word_ok (snd d)) (html_decls s).
Proof.
  assert (C : forall c, Forall word_ok (match hex_value c with None => [] | Some _ => [format_value c [35] [126]] end)).
  { intros c. unfold format_value. destruct (hex_value c) as [h|]; constructor; [|constructor]. split; [discriminate|]. apply hex_color_word. }
  unfold html_decls. set (fg := match hex_value (st_fg s) with None => _ | _ => _ end). set (bg := match hex_value (st_bg s) with None => _ | _ => _ end).
  assert (F : Forall word_ok fg) by apply C. assert (B : Forall word_ok bg) by apply C. clearbody fg bg.
  assert (S : exists x y, (if truthy (st_inversed s) then (bg, fg) else (fg, bg)) = (x, y) /\ Forall word_ok x /\ Forall word_ok y).
  { destruct (truthy (st_inversed s)); eauto 6. }
  destruct S as (x & y & -> & X & Y).
  assert (CK : forall l, forallb (fun w => match w with [] => false | _ => true end && forallb (fun c => negb (c =? 32) && negb (c =? 59) && negb (c =? 34)) w) l = true ->
             Forall word_ok l).
  { intros l H. rewrite forallb_forall in H. apply Forall_forall. intros w I. specialize (H w I). apply andb_prop in H as [A B'].
    split; [destruct w; discriminate|]. rewrite forallb_forall in B'. apply Forall_forall. intros c J.
    specialize (B' c J). rewrite !andb_true_iff, !negb_true_iff, !N.eqb_neq in B'. tauto. }
  cbv zeta. do 2 (constructor; [assumption|]).
  constructor; [cbn [snd]; destruct (truthy (st_bold s)); apply CK; reflexivity|].
  constructor; [cbn [snd]; destruct (truthy (st_italic s)); apply CK; reflexivity|].
  constructor; [cbn [snd]; destruct (truthy (st_underlined s)), (truthy (st_overlined s)), (truthy (st_double_underlined s)), (truthy (st_crosslined s));
    apply CK; vm_compute; reflexivity|].
  constructor; [cbn [snd]; destruct (truthy (st_blink s)); apply CK; vm_compute; reflexivity|].
  constructor; [cbn [snd]; destruct (truthy (st_dim s)); apply CK; vm_compute; reflexivity|].
  constructor.
Qed.
Definition name_ok (p : str) : Prop := p <> [] /\ Forall (fun c => c <> 58 /\ c <> 32 /\ c <> 59 /\ c <> 34) p.
Lemma html_names s : Forall (fun d => name_ok (txt (fst d))) (html_decls s).
Proof.
  assert (K : Forall (fun n => name_ok (txt n)) ["color"; "background-color"; "font-weight"; "font-style"; "text-decoration"; "border"; "filter"]%string).
  { repeat constructor; try discriminate. }
  assert (M : map fst (html_decls s) = ["color"; "background-color"; "font-weight"; "font-style"; "text-decoration"; "border"; "filter"]%string).
  { unfold html_decls. destruct (truthy (st_inversed s)); reflexivity. }
  rewrite <- M in K. rewrite Forall_map in K. exact K.
Qed.

Lemma style_string order s l : (forall l, Permutation (order l) l) ->
  let str := join (txt "; ") (map (fun d => txt (fst d) ++ txt ": " ++ join [32] (order (snd d)))
         (filter (fun d => negb (Nat.eqb (List.length (snd d)) 0)) (html_decls s))) in
  Forall (fun c => c <> 34) str /\
  css str l = fold_left (fun l d => if nonempty d then css_set (txt (fst d)) (order (snd d)) l else l) (html_decls s) l.
Proof.
  intros ORD str.
  set (ds := map (fun d => (txt (fst d), order (snd d))) (filter nonempty (html_decls s))).
  assert (ES : str = join [59; 32] (map decl_str ds)). { subst str ds. rewrite map_map. reflexivity. }
  assert (W : Forall (fun d => name_ok (fst d) /\ Forall word_ok (snd d)) ds).
  { subst ds. apply Forall_map. apply Forall_forall. intros d I. apply filter_In in I as [I _].
    pose proof (html_words s) as HW. pose proof (html_names s) as HN. rewrite Forall_forall in HW, HN. cbn [fst snd]. split; [now apply HN|].
    eapply Permutation_Forall; [apply Permutation_sym, ORD|]. now apply HW. }
  split.
  - rewrite ES. apply join_sep_forall; [repeat constructor; discriminate|]. apply Forall_map. eapply Forall_impl; [|exact W].
    cbn beta. intros d ((_ & N1) & D). unfold decl_str. apply Forall_app. split; [eapply Forall_impl; [|exact N1]; cbn beta; tauto|].
    repeat (constructor; [discriminate|]). apply join_forall; [discriminate|]. eapply Forall_impl; [|exact D]. cbn beta. intros w (_ & H).
    eapply Forall_impl; [|exact H]. cbn beta. tauto.
  - rewrite ES, css_decls, <- set_all; [reflexivity|]. eapply Forall_impl; [|exact W]. cbn beta. intros d ((N0 & N1) & D). split; [exact N0|].
    split; [eapply Forall_impl; [|exact N1]; cbn beta; tauto|]. eapply Forall_impl; [|exact D]. cbn beta. intros w (W0 & H). split; [exact W0|].
    eapply Forall_impl; [|exact H]. cbn beta. tauto.
Qed.

Lemma html_render_painted order text s : (forall l, Permutation (order l) l) -> color_ok (st_fg s) -> color_ok (st_bg s) -> class_ok s -> plain_html text ->
  exists l, hlooks s l /\ hrun HText [] (html_render order text s) = (HText, [], map (fun c => HGlyph c l) text).
Proof.
  intros ORD FG BG CL PL. destruct (style_string order s hlook0 ORD) as [Q E].
  set (str := join (txt "; ") _) in *. unfold html_render. fold str.
  exists (css str hlook0). split; [rewrite E; now apply decls_look|]. clear E.
  assert (CLOSE : forall k, hrun HText (css str hlook0 :: k) (txt "</span>") = (HText, k, [])) by reflexivity.
  assert (TXT : forall k, hrun HText (css str hlook0 :: k) (text ++ txt "</span>") = (HText, k, map (fun c => HGlyph c (css str hlook0)) text)).
  { intros k. rewrite <- (app_nil_r (map _ text)). eapply hrun_cat; [|apply CLOSE]. rewrite hrun_text by exact PL. reflexivity. }
  assert (REST : forall n attrs, (forall v, style_attr (attrs ++ [(n, v)]) = v) ->
            hrun (HVal n [] attrs) [] (str ++ txt """>" ++ text ++ txt "</span>") = (HText, [], map (fun c => HGlyph c (css str hlook0)) text)).
  { intros n attrs A3. change (map (fun c => HGlyph c (css str hlook0)) text) with ([] ++ map (fun c => HGlyph c (css str hlook0)) text).
    eapply hrun_cat; [apply hrun_val; exact Q|]. change ([] ++ str) with str.
    change (map (fun c => HGlyph c (css str hlook0)) text) with ([] ++ map (fun c => HGlyph c (css str hlook0)) text).
    eapply hrun_cat; [|apply TXT].
    transitivity (HText, [css (style_attr (attrs ++ [(n, str)])) hlook0], @nil hcell); [reflexivity|]. now rewrite A3. }
  unfold class_ok in CL. destruct (st_class_name s) as [c|].
  - assert (P1 : hrun HText [] (txt "<span" ++ (txt " class=""" ++ c ++ [34]) ++ txt " style=""") = (HVal (txt " style=") [] [(txt "span class=", c)], [], [])).
    { change (txt "<span" ++ (txt " class=""" ++ c ++ [34]) ++ txt " style=""") with (txt "<span class=""" ++ (c ++ [34]) ++ txt " style="""). rewrite <- app_assoc.
      change (@nil hcell) with (@nil hcell ++ ([] ++ [])). eapply hrun_cat; [reflexivity|]. eapply hrun_cat; [apply hrun_val; exact CL|].
      change ([] ++ c) with c. reflexivity. }
    replace (txt "<span" ++ (txt " class=""" ++ c ++ [34]) ++ txt " style=""" ++ str ++ txt """>" ++ text ++ txt "</span>")
      with ((txt "<span" ++ (txt " class=""" ++ c ++ [34]) ++ txt " style=""") ++ str ++ txt """>" ++ text ++ txt "</span>").
    2:{ rewrite <- !app_assoc. reflexivity. }
    rewrite <- (app_nil_l (map _ text)). eapply hrun_cat; [exact P1|]. apply REST; reflexivity.
  - replace (txt "<span" ++ [] ++ txt " style=""" ++ str ++ txt """>" ++ text ++ txt "</span>")
      with (txt "<span style=""" ++ str ++ txt """>" ++ text ++ txt "</span>") by reflexivity.
    rewrite <- (app_nil_l (map _ text)). eapply hrun_cat; [reflexivity|]. apply REST; reflexivity.
Qed.

Lemma html_runs_painted e st rs : (forall l, Permutation (re_order e l) l) -> Forall run_html_ok rs ->
  exists out ls, fst (render_runs e R_html st rs) = Ok out /\ Forall2 run_html rs ls /\
    html_shows out (flat_map (fun p => map (fun c => HGlyph c (snd p)) (run_string (fst p))) (combine rs ls)).
Proof.
  intros ORD H. revert st. induction H as [|r rs [P S] H IH]; intros st.
  - exists [], []. split; [reflexivity|]. split; [constructor|reflexivity].
  - cbn [render_runs]. assert (R : exists o l, render_run e R_html st r = (Ok o, st) /\ run_html r l /\ hrun HText [] o = (HText, [], map (fun c => HGlyph c l) (run_string r))).
    { unfold render_run, run_html. destruct (run_style r) as [s|].
      - destruct S as (S1 & S2 & S3). destruct (html_render_painted (re_order e) (run_string r) s ORD S1 S2 S3 P) as (l & L & Q). exists (html_render (re_order e) (run_string r) s), l. auto.
      - exists (run_string r), hlook0. repeat split. now rewrite hrun_text by exact P. }
    destruct R as (o & l & -> & L & Q). destruct (IH st) as (out & ls & E & F & Z). destruct (render_runs e R_html st rs) as [r2 st2]. cbn [fst] in *. subst r2.
    exists (o ++ out), (l :: ls). cbn [bind fst]. split; [reflexivity|]. split; [now constructor|]. cbn [combine flat_map fst snd]. unfold html_shows in *. eapply hrun_cat; eassumption.
Qed.
