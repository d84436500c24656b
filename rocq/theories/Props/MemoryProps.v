(** C102: texts and the styles they share *)
From Coq Require Import Ascii String.
From Coq Require Import List NArith ZArith Bool.
From Verif.Model Require Import Base Color Presets Render RenderSetup StyleMemory.
From Verif.Spec Require Import Terminal Palette Display Styles Preferences SharedStyles Conditions.
From Verif.Proof Require Import RenderClaims SetupClaims StyleMemoryClaims.
Import ListNotations.

(** Every change does what it says, and nothing else. *)
Theorem C102_change : forall s c s', style_change s c = Ok s' <-> effect s c s'.
Proof. exact change_effect. Qed.
Print Assumptions C102_change.

(** A style is what it was, after the changes made to this very object, in their order. *)
Theorem C102_value : forall m os m' i s, mem_steps m os = Ok m' -> nth_error (mem_styles m) i = Some s ->
  exists s', changed s (flat_map (changes_of i) os) s' /\ nth_error (mem_styles m') i = Some s'.
Proof. exact style_history. Qed.
Print Assumptions C102_value.

(** Inheriting copies: what is done to the parent later does not matter. *)
Theorem C102_inherit : forall m j p g os m', nth_error (mem_styles m) j = Some p -> mem_steps m (M_style (Some j) g :: os) = Ok m' ->
  exists s s', style_init (with_inherit g (Some p)) = Ok s /\ changed s (flat_map (changes_of (List.length (mem_styles m))) os) s' /\
  nth_error (mem_styles m') (List.length (mem_styles m)) = Some s'.
Proof. exact child_history. Qed.
Print Assumptions C102_inherit.

(** Whatever a program has done: a text appears with its styles as they are at that moment. *)
Theorem C102_shown : forall os m h0 s p tty order st t, mem_steps mem0 os = Ok m -> setup_steps setup0 h0 = Ok s ->
  (latest sets_default h0 None \/ latest sets_default h0 (Some R_sgr)) ->
  (latest (sets_prefs R_sgr) h0 (Some p) \/ latest (sets_prefs R_sgr) h0 None /\ p = mkPrefs (Some false) false false) ->
  (pf_force p = Some true \/ pf_force p = Some false /\ tty = true) -> reached st ->
  exists rs, Forall2 (as_is m) (mtext_runs m t) rs /\
  (Forall run_standard rs -> Forall (fun c => c <> 27%N) (flat_map run_string rs) ->
   let d := if pf_16 p then Only16 else if pf_256 p then Only256 else Full in
   exists out st' ls, mem_render s tty order st m t = (Ok out, st') /\ reached st' /\ Forall2 (run_looks d) rs ls /\
     screen out = map to_cell (concat (map (fun ra => styled (snd ra) (run_string (fst ra))) (combine rs ls))) /\
     final_attrs out = attrs0 /\ visible out = flat_map run_string rs).
Proof. exact memory_shown. Qed.
Print Assumptions C102_shown.

(** Changes of styles a text does not refer to, and work on other texts, do not change how any
    renderer shows it. *)
Theorem C102_untouched : forall h m os m' t e k st, mem_steps mem0 h = Ok m -> (t < List.length (mem_texts m))%nat -> mem_steps m os = Ok m' ->
  Forall (apart m t) os -> mtext_render e k st m' t = mtext_render e k st m t.
Proof. exact untouched. Qed.
Print Assumptions C102_untouched.

(** Work on texts alone is as if every text had copies of its styles. *)
Theorem C102_copies : forall h m o o', mem_steps mem0 h = Ok m -> text_action m o = Some o' ->
  match mem_step m o with Ok m' => text_step (frozen m) o' = Ok (frozen m') | Err e => text_step (frozen m) o' = Err e end.
Proof. exact copies. Qed.
Print Assumptions C102_copies.
Theorem C102_render_copies : forall e k st m t, mtext_render e k st m t = text_render e k st (frozen m) t.
Proof. exact frozen_render. Qed.
Print Assumptions C102_render_copies.

(** The ready-made styles are the same as long as the program changes none of them; but any part of it can,
    for all others. *)
Theorem C102_ready_partial : forall os m i n s, mem_steps mem0 os = Ok m -> nth_error STYLES i = Some (n, s) -> (forall c, ~ In (M_change (S i) c) os) ->
  nth_error (mem_styles m) (S i) = Some s.
Proof. exact ready_kept. Qed.
Print Assumptions C102_ready_partial.
Theorem C102_ready_refuted : exists i n s a os m out, nth_error STYLES i = Some (n, s) /\ In (n, a) PRESENTED /\ mem_steps mem0 os = Ok m /\
  map mr_style (mtext_runs m 0) = [Some (S i)] /\
  fst (mem_render setup0 true (fun x => x) st0 m 0) = Ok out /\ screen out <> map to_cell (styled a (txt "x")) /\ visible out = txt "x".
Proof. exact ready_changed. Qed.
Print Assumptions C102_ready_refuted.

(** A style, another one inheriting from it, a text in each; the first style becomes blue: *)
Example C102_example : exists m m', mem_steps mem0 family = Ok m /\ mem_steps m [M_change 10 (CH_fg (CA_name (txt "blue")))] = Ok m' /\
  refers m' 0 10 /\ apart m 1 (M_change 10 (CH_fg (CA_name (txt "blue")))) /\
  exists out out1 out2, fst (mem_render setup0 true (fun x => x) st0 m 0) = Ok out /\ fst (mem_render setup0 true (fun x => x) st0 m' 0) = Ok out1 /\
    fst (mem_render setup0 true (fun x => x) st0 m' 1) = Ok out2 /\
    screen out = [Glyph 120 (set_bold true (set_fg (ColIdx 1) attrs0))] /\ screen out1 = [Glyph 120 (set_bold true (set_fg (ColIdx 4) attrs0))] /\
    screen out2 = [Glyph 121 (set_italic true (set_bold true (set_fg (ColIdx 1) attrs0)))].
Proof. exact family_case. Qed.
