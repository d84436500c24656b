From Coq Require Import List NArith ZArith QArith Qabs Bool Lia.
From Verif.Model Require Import Base Ansi Distribute Color Presets TimeDelta.
From Verif.Spec Require Import Terminal Numbers Layout Palette Duration.
From Verif.Proof Require Import BaseFacts DistributeFacts ColorFacts PresetFacts DurationFacts.
Import ListNotations.
Local Open Scope Z_scope.

Lemma distribute_one v max_len : Z.of_nat (length v) <= max_len ->
  snd (distribute_padded [v] max_len false false) = Ok (v ++ blanks (Z.to_nat max_len - length v)).
Proof. intros H. exact (distribute_single [v] max_len false false v eq_refl H). Qed.

Lemma distribute_width values max_len before after :
  let vs := pad_values values before after in
  vs <> [] ->
  (forall out, snd (distribute_padded values max_len before after) = Ok out -> Z.of_nat (length out) = max_len) /\
  ((exists e, snd (distribute_padded values max_len before after) = Err e)
   <-> max_len < Z.of_nat (total_length vs + (length vs - 1))) /\
  (forall e, snd (distribute_padded values max_len before after) = Err e -> e = ValueError).
Proof.
  intros vs H. split; [|exact (distribute_error values max_len before after H)].
  intros out. exact (distribute_length values max_len before after out H).
Qed.

Lemma hex_roundtrip h : 0 <= h < 16777216 ->
  exists r g b, hex_value_to_rgb_channels h = (r, g, b) /\
    0 <= r < 256 /\ 0 <= g < 256 /\ 0 <= b < 256 /\ rgb_channels_to_hex_value r g b = h.
Proof.
  intros H. exists (red h), (green h), (blue h). rewrite channels_spec. destruct (channel_range h) as (R & G & B).
  repeat split; try lia. rewrite hex_of_channels. now apply Z.mod_small.
Qed.
Lemma rgb_roundtrip_back r g b : 0 <= r < 256 -> 0 <= g < 256 -> 0 <= b < 256 ->
  hex_value_to_rgb_channels (rgb_channels_to_hex_value r g b) = (r, g, b) /\
  0 <= rgb_channels_to_hex_value r g b < 16777216.
Proof.
  intros R G B. split; [now apply channels_of_hex|]. unfold rgb_channels_to_hex_value.
  rewrite !Z.shiftl_mul_pow2 by lia. change (2 ^ 16) with 65536. change (2 ^ 8) with 256. lia.
Qed.
Lemma hex_wraps h : exists r g b, hex_value_to_rgb_channels h = (r, g, b) /\
  rgb_channels_to_hex_value r g b = h mod 16777216.
Proof. exists (red h), (green h), (blue h). split; [apply channels_spec|apply hex_of_channels]. Qed.
Lemma rgb_terminal h bg a : exists seq,
  to_sgr (ColorRGB (Some h)) bg = Ok seq /\
  sgr_apply seq a
  = (if bg then set_bg else set_fg) (ColRgb (Z.to_N (red h)) (Z.to_N (green h)) (Z.to_N (blue h))) a.
Proof. eexists. split; [apply rgb_sgr|]. destruct bg; reflexivity. Qed.

Lemma value_printed h prefix noop : 0 <= h < 16777216 ->
  exists digits, format_value (ColorRGB (Some h)) prefix noop = prefix ++ digits /\
    length digits = 6%nat /\ read_number 16 digits = Some (Z.to_N h).
Proof.
  intros H. exists (fmt_hex_lo 6 (Z.to_N h)). unfold format_value, fmt_06x. cbn [hex_value].
  destruct (Z.ltb_spec h 0); [lia|]. split; [reflexivity|]. split; [|apply read_hex_lo].
  apply fmt_hex_lo_length; [lia|]. change (16 ^ N.of_nat 6)%N with (Z.to_N 16777216). lia.
Qed.

Lemma negative_printed h prefix noop : -1048576 < h < 0 ->
  exists digits, format_value (ColorRGB (Some h)) prefix noop = prefix ++ 45%N :: digits /\
    length (45%N :: digits) = 6%nat /\ read_number 16 digits = Some (Z.to_N (- h)).
Proof.
  intros H. exists (fmt_hex_lo 5 (Z.to_N (- h))). unfold format_value, fmt_06x. cbn [hex_value].
  destruct (Z.ltb_spec h 0); [|lia]. split; [reflexivity|]. split; [|apply read_hex_lo]. cbn [length].
  rewrite fmt_hex_lo_length; [lia|lia|]. change (16 ^ N.of_nat 5)%N with (Z.to_N 1048576). lia.
Qed.

Lemma nearest_example :
  let evs := [Register (c256 0x000000 16); Lookup 0x101010; Register (c256 0x121212 233); Lookup 0x080808] in
  registered_in_range evs /\ KnownAt evs 2 0x121212 (c256 0x121212 233) /\
  fst (find_closest (after evs approx_init) 0x101010) = Ok (c256 0x121212 233).
Proof.
  cbv zeta. split; [|split; [|reflexivity]].
  - intros c h I V. cbn in I. repeat destruct I as [I|I]; try contradiction; try discriminate; injection I as <-; cbn in V; injection V as <-; unfold color24; lia.
  - split; [reflexivity|]. split; [reflexivity|]. intros m c' M E. destruct m as [|[|m]]; [|discriminate|lia].
    cbn in E. injection E as <-. discriminate.
Qed.

Lemma noop_rgb bg : to_sgr NOOP_COLOR bg = Ok [].
Proof. reflexivity. Qed.
Lemma noop_indexed : exists bg, to_sgr NOOP_COLOR_INDEXED bg <> Ok [] /\ to_sgr NOOP_COLOR_INDEXED bg = Err TypeError.
Proof. exists false. split; [discriminate|reflexivity]. Qed.

Lemma says_example :
  Says scale10 [115%N] [32%N] [52; 104; 32; 49; 53; 109; 105; 110]%N (4 * 3600 + 15 * 60) (4 * 3600 + 16 * 60) /\
  (inject_Z (4 * 3600 + 15 * 60) <= 15350 # 1 < inject_Z (4 * 3600 + 16 * 60))%Q.
Proof.
  split; [|split; vm_compute; congruence].
  exact (says_two scale10 [115%N] [32%N] 1 [104; 111; 117; 114]%N [104%N] (Some 24) [109; 105; 110]%N [109; 105; 110]%N 60 4 15
           eq_refl eq_refl ltac:(lia) ltac:(lia)).
Qed.

Lemma preset_max_len f n : In f [td3; td4; td6; td10] -> compute_max_len f = Ok n ->
  forall q, exists s, td_format f n (Num q) false = Ok s /\ zlen s <= n.
Proof.
  intros I C q.
  assert (H : exists k, 3 <= k /\ td_for k = (n, f) /\ n = k).
  { cbn in I. repeat destruct I as [<-|I]; try contradiction; vm_compute in C; injection C as <-;
      [exists 3|exists 4|exists 6|exists 10]; (split; [lia|split; reflexivity]). }
  destruct H as (k & K & T & ->). destruct (delta_fits q (Some k) K) as (s & E & _ & L).
  rewrite delta_eq in E by exact K. cbn [wanted] in *. rewrite T in E. exists s. split; [exact E|exact L].
Qed.
