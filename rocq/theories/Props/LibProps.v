(** C45-C48, C53-C57: layout, colors and durations of the bundled library *)
From Coq Require Import List NArith ZArith QArith Qabs Bool Sorting.Sorted.
From Verif.Model Require Import Base Ansi Distribute Color Presets TimeDelta.
From Verif.Spec Require Import Terminal Numbers Layout Palette Duration.
From Verif.Proof Require Import BaseFacts DistributeFacts ColorFacts PresetFacts DurationFacts LibClaims.
Import ListNotations.
Local Open Scope Z_scope.

(** ** C45 *)

(** Two or more values (an empty one added in front or behind on request) that fit with one
    blank between neighbours are laid out with gaps of at least one blank, no two of them
    differing by more than one, over exactly [max_len] characters. *)
Theorem C45_layout : forall (values : list str) (max_len : Z) (before after : bool),
  let vs := (if before then [[]] else []) ++ values ++ (if after then [[]] else []) in
  (2 <= length vs)%nat ->
  Z.of_nat (total_length vs + (length vs - 1)) <= max_len ->
  exists gaps,
    snd (distribute_padded values max_len before after) = Ok (interleave vs gaps) /\
    length gaps = (length vs - 1)%nat /\
    Z.of_nat (total_length vs + list_sum gaps) = max_len /\
    even gaps /\ Forall (fun g => 1 <= g)%nat gaps.
Proof. exact distribute_fits. Qed.
Print Assumptions C45_layout.

(** A single value is followed by blanks. *)
Theorem C45_single : forall v max_len, Z.of_nat (length v) <= max_len ->
  snd (distribute_padded [v] max_len false false) = Ok (v ++ blanks (Z.to_nat max_len - length v)).
Proof. exact distribute_one. Qed.
Print Assumptions C45_single.

(** Whenever there is at least one value, success means exactly [max_len] characters, and
    failure (always ValueError) means that the values do not fit. *)
Theorem C45_width : forall (values : list str) (max_len : Z) (before after : bool),
  let vs := (if before then [[]] else []) ++ values ++ (if after then [[]] else []) in
  vs <> [] ->
  (forall out, snd (distribute_padded values max_len before after) = Ok out -> Z.of_nat (length out) = max_len) /\
  ((exists e, snd (distribute_padded values max_len before after) = Err e)
   <-> max_len < Z.of_nat (total_length vs + (length vs - 1))) /\
  (forall e, snd (distribute_padded values max_len before after) = Err e -> e = ValueError).
Proof. exact distribute_width. Qed.
Print Assumptions C45_width.

(** Without values the result is empty whatever the width. *)
Theorem C45_refuted : exists values max_len out,
  0 <= max_len /\ snd (distribute_padded values max_len false false) = Ok out /\ Z.of_nat (length out) <> max_len.
Proof. exact distribute_empty. Qed.
Print Assumptions C45_refuted.

(** The list of the caller is changed when padding is requested: a second identical call gives
    another line. *)
Theorem C45_repeatable_refuted : exists values max_len out1 out2,
  let '(left1, r1) := distribute_padded values max_len true false in
  r1 = Ok out1 /\ snd (distribute_padded left1 max_len true false) = Ok out2 /\ out1 <> out2.
Proof. exact distribute_grows. Qed.
Print Assumptions C45_repeatable_refuted.

Example C45_example :
  snd (distribute_padded [[97]; [98; 99]; [100]]%N 9 false false) = Ok [97; 32; 32; 98; 99; 32; 32; 32; 100]%N /\
  snd (distribute_padded [[97]; [98; 99]; [100]]%N 5 false false) = Err ValueError.
Proof. split; reflexivity. Qed.

(** ** C46 *)

Theorem C46_hex_roundtrip : forall h, 0 <= h < 16777216 ->
  exists r g b, hex_value_to_rgb_channels h = (r, g, b) /\
    0 <= r < 256 /\ 0 <= g < 256 /\ 0 <= b < 256 /\ rgb_channels_to_hex_value r g b = h.
Proof. exact hex_roundtrip. Qed.
Print Assumptions C46_hex_roundtrip.

Theorem C46_rgb_roundtrip : forall r g b, 0 <= r < 256 -> 0 <= g < 256 -> 0 <= b < 256 ->
  hex_value_to_rgb_channels (rgb_channels_to_hex_value r g b) = (r, g, b) /\
  0 <= rgb_channels_to_hex_value r g b < 16777216.
Proof. exact rgb_roundtrip_back. Qed.
Print Assumptions C46_rgb_roundtrip.

(** Any other integer (also a negative one) is taken modulo 2^24. *)
Theorem C46_wraps : forall h, exists r g b, hex_value_to_rgb_channels h = (r, g, b) /\
  rgb_channels_to_hex_value r g b = h mod 16777216.
Proof. exact hex_wraps. Qed.
Print Assumptions C46_wraps.

(** The sequence of a color makes the terminal use exactly its channels. *)
Theorem C46_terminal : forall h bg a, exists seq,
  to_sgr (ColorRGB (Some h)) bg = Ok seq /\
  sgr_apply seq a
  = (if bg then set_bg else set_fg) (ColRgb (Z.to_N (red h)) (Z.to_N (green h)) (Z.to_N (blue h))) a.
Proof. exact rgb_terminal. Qed.
Print Assumptions C46_terminal.

(** The printed value is six hexadecimal digits that read back as the value. *)
Theorem C46_printed : forall h prefix noop, 0 <= h < 16777216 ->
  exists digits, format_value (ColorRGB (Some h)) prefix noop = prefix ++ digits /\
    length digits = 6%nat /\ read_number 16 digits = Some (Z.to_N h).
Proof. exact value_printed. Qed.
Print Assumptions C46_printed.

(** negative values, which the constructor accepts, are as wide *)
Theorem C46_printed_negative : forall h prefix noop, -1048576 < h < 0 ->
  exists digits, format_value (ColorRGB (Some h)) prefix noop = prefix ++ 45%N :: digits /\
    length (45%N :: digits) = 6%nat /\ read_number 16 digits = Some (Z.to_N (- h)).
Proof. exact negative_printed. Qed.
Print Assumptions C46_printed_negative.

Example C46_example : hex_value_to_rgb_channels 0x80ff01 = (128, 255, 1)
  /\ rgb_channels_to_hex_value 128 255 1 = 0x80ff01
  /\ to_sgr (ColorRGB (Some 0x80ff01)) true = Ok [48; 2; 128; 255; 1]%N
  /\ hex_value_to_rgb_channels (-1) = (255, 255, 255).
Proof. repeat split; reflexivity. Qed.

(** ** C47 *)

(** After any history of registrations and look-ups the answer is a registered color nearest to
    the wanted one, the one registered first if several are equally near; the no-op color if
    none is registered. *)
Theorem C47_nearest_partial : forall evs h, registered_in_range evs ->
  match fst (find_closest (after evs approx_init) h) with
  | Err _ => False
  | Ok c =>
      (c = NOOP_COLOR_INDEXED /\ forall n k c', ~ KnownAt evs n k c') \/
      exists n k, KnownAt evs n k c /\
        forall m k' c', KnownAt evs m k' c' ->
          sq_distance h k <= sq_distance h k' /\ ((m < n)%nat -> sq_distance h k < sq_distance h k')
  end.
Proof. exact nearest. Qed.
Print Assumptions C47_nearest_partial.

Theorem C47_registered_partial : forall evs n k c, registered_in_range evs -> KnownAt evs n k c ->
  fst (find_closest (after evs approx_init) k) = Ok c.
Proof. exact nearest_registered. Qed.
Print Assumptions C47_registered_partial.

Theorem C47_lookups_irrelevant_partial : forall evs h, registered_in_range evs ->
  fst (find_closest (after evs approx_init) h)
  = fst (find_closest (after (filter is_register evs) approx_init) h).
Proof. exact lookups_irrelevant. Qed.
Print Assumptions C47_lookups_irrelevant_partial.

(** Missing: values beyond 24 bits.  With them the answer depends on earlier look-ups. *)
Theorem C47_refuted : exists evs h c c',
  fst (find_closest (after evs approx_init) h) = Ok c /\
  fst (find_closest (after (filter is_register evs) approx_init) h) = Ok c' /\ c <> c'.
Proof. exact out_of_range_history. Qed.
Print Assumptions C47_refuted.

Example C47_example :
  let evs := [Register (c256 0x000000 16); Lookup 0x101010; Register (c256 0x121212 233); Lookup 0x080808] in
  registered_in_range evs /\ KnownAt evs 2 0x121212 (c256 0x121212 233) /\
  fst (find_closest (after evs approx_init) 0x101010) = Ok (c256 0x121212 233).
Proof. exact nearest_example. Qed.

(** ** C53 *)

(** The presets with an index are exactly the colors 16-255 of the xterm palette, each once;
    the basic ones are the 16 basic colors with their codes 30-37, 90-97 and 40-47, 100-107. *)
Theorem C53_palette256 : (forall c, In c presets256 <-> exists n, 16 <= n <= 255 /\ c = c256 (xterm n) n)
  /\ length presets256 = 240%nat.
Proof. exact (conj presets256_spec eq_refl). Qed.
Print Assumptions C53_palette256.
Theorem C53_palette16 : (forall c, In c presets16 <-> exists n, 0 <= n <= 15 /\
     c = c16 (basic n) (if n <? 8 then 30 + n else 82 + n) (if n <? 8 then 40 + n else 92 + n))
  /\ length presets16 = 16%nat.
Proof. exact (conj presets16_spec eq_refl). Qed.
Print Assumptions C53_palette16.

(** So a color asked for in a mode of 256 colors is drawn by the index whose palette color is
    nearest (the smallest such index), whatever has been asked before; with 16 colors by a
    nearest basic color. *)
Theorem C53_closest256 : forall hs h, exists n, 16 <= n <= 255 /\
  fst (find_closest (after (looked_up hs) table256) h) = Ok (c256 (xterm n) n) /\
  forall m, 16 <= m <= 255 ->
    sq_distance h (xterm n) <= sq_distance h (xterm m) /\
    (m < n -> sq_distance h (xterm n) < sq_distance h (xterm m)).
Proof. exact closest256. Qed.
Print Assumptions C53_closest256.
Theorem C53_closest16 : forall hs h, exists n, 0 <= n <= 15 /\
  fst (find_closest (after (looked_up hs) table16) h)
    = Ok (c16 (basic n) (if n <? 8 then 30 + n else 82 + n) (if n <? 8 then 40 + n else 92 + n)) /\
  forall m, 0 <= m <= 15 -> sq_distance h (basic n) <= sq_distance h (basic m).
Proof. exact closest16. Qed.
Print Assumptions C53_closest16.

Example C53_example : xterm 208 = 0xff8700 /\ xterm 240 = 0x585858 /\ basic 3 = 0x808000 /\ basic 12 = 0x0000ff /\
  fst (find_closest (after (looked_up [1; 2]) table256) 0xfe8801) = Ok (c256 0xff8700 208).
Proof. repeat split; vm_compute; reflexivity. Qed.

(** ** C54 *)

(** [approximate] lists the registered colors nearest first (equally near ones in the order of
    registration), cut after the wanted number; it fails only if nothing is registered. *)
Theorem C54_approximate : forall evs h k, 0 <= k ->
  exists order : list (nat * (Z * pcolor)),
    StronglySorted (closer h) order /\
    (forall n v c, In (n, (v, c)) order <-> KnownAt evs n v c) /\
    approximate (after evs approx_init) h k =
      match order with [] => Err LogicError | _ => Ok (map (fun x => snd (snd x)) (firstn (Z.to_nat k) order)) end.
Proof. exact approximate_nearest. Qed.
Print Assumptions C54_approximate.

Example C54_example :
  approximate (after [Register (c256 0x000000 16); Register (c256 0xffffff 231); Register (c256 0x080808 232)] approx_init)
    0x070707 2 = Ok [c256 0x080808 232; c256 0x000000 16].
Proof. vm_compute. reflexivity. Qed.

(** ** C55 *)

(** Of the two no-op colors one gives the empty sequence, the other one an error. *)
Theorem C55_noop_partial : forall bg, to_sgr NOOP_COLOR bg = Ok [].
Proof. exact noop_rgb. Qed.
Print Assumptions C55_noop_partial.
Theorem C55_refuted : exists bg, to_sgr NOOP_COLOR_INDEXED bg <> Ok [] /\ to_sgr NOOP_COLOR_INDEXED bg = Err TypeError.
Proof. exact noop_indexed. Qed.
Print Assumptions C55_refuted.

(** ** C48 *)

(** Every finite duration fits any length from 3 on (10 if none is given), and is not empty. *)
Theorem C48_fits : forall q max_len, 3 <= wanted max_len ->
  exists s, format_time_delta (Num q) max_len = Ok s /\ s <> [] /\ zlen s <= wanted max_len.
Proof. exact delta_fits. Qed.
Print Assumptions C48_fits.

(** Shorter lengths are refused; NaN and infinities are errors. *)
Theorem C48_too_short : forall x n, n < 3 -> format_time_delta x (Some n) = Err ValueError.
Proof. exact delta_short. Qed.
Print Assumptions C48_too_short.
Theorem C48_not_finite : forall sign max_len, 3 <= wanted max_len ->
  format_time_delta NaN max_len = Err ValueError /\ format_time_delta (Inf sign) max_len = Err OverflowError.
Proof. exact delta_special. Qed.
Print Assumptions C48_not_finite.

Example C48_example :
  format_time_delta (Num (15350 # 1)) None = Ok [52; 104; 32; 49; 53; 109; 105; 110]%N /\
  format_time_delta (Num (15350 # 1)) (Some 5) = Ok [52; 32; 104]%N /\
  format_time_delta (Num (- 3455999 # 1)) (Some 3) = Ok [51; 57; 100]%N /\
  format_time_delta (Num (8640000 # 1)) (Some 3) = Ok [69; 82; 82]%N.
Proof. repeat split; vm_compute; reflexivity. Qed.

(** ** C56 *)

(** From one second up to the limit of the chosen length the text names an amount - one count,
    or a count and the rest in the next smaller unit - and the duration lies between it and the
    next amount; the sign is shown by the longest formatter only. *)
Theorem C56_says : forall q max_len, 3 <= wanted max_len ->
  let l := look_for (wanted max_len) in
  (1 <= Qabs q < inject_Z (lk_limit l))%Q ->
  exists body lo hi,
    format_time_delta (Num q) max_len = Ok ((if lk_signed l && Qlt_bool q 0 then [45%N] else []) ++ body) /\
    Says (lk_scale l) (lk_plural l) (lk_gap l) body lo hi /\ (inject_Z lo <= Qabs q < inject_Z hi)%Q.
Proof. exact delta_says. Qed.
Print Assumptions C56_says.

Theorem C56_too_large : forall q max_len, 3 <= wanted max_len ->
  let l := look_for (wanted max_len) in
  (inject_Z (lk_limit l) <= Qabs q)%Q ->
  format_time_delta (Num q) max_len = Ok (lk_too_large l).
Proof. exact delta_overflow. Qed.
Print Assumptions C56_too_large.

(** Below one second: about nothing, nothing, or less than one. *)
Theorem C56_small : forall q max_len, 3 <= wanted max_len ->
  let l := look_for (wanted max_len) in
  (Qabs q < 1)%Q ->
  format_time_delta (Num q) max_len =
    Ok (if lk_signed l && Qlt_bool q 0 then [126; 48]%N ++ lk_gap l ++ first_word l ++ lk_plural l
        else if Qle_bool (Qabs q) thousandth then [48%N] ++ lk_gap l ++ first_word l ++ lk_plural l
        else [60; 49]%N ++ lk_gap l ++ first_word l).
Proof. exact delta_small. Qed.
Print Assumptions C56_small.

(** The same for any formatter with sensible settings, unless the units are exhausted. *)
Theorem C56_says_custom : forall f max_len q text, good_config f -> (1 <= Qabs q)%Q ->
  format_raw f max_len (Num q) = Ok (Some text) ->
  text = [] \/
  exists body lo hi,
    text = (if td_allow_negative f && Qlt_bool q 0 then [45%N] else []) ++ body /\
    Says (scale_of (td_units f)) (plu f) (gap f) body lo hi /\
    (inject_Z lo <= Qabs q < inject_Z hi)%Q.
Proof. exact says_main. Qed.
Print Assumptions C56_says_custom.

Example C56_example :
  Says scale10 [115%N] [32%N] [52; 104; 32; 49; 53; 109; 105; 110]%N (4 * 3600 + 15 * 60) (4 * 3600 + 16 * 60) /\
  (inject_Z (4 * 3600 + 15 * 60) <= 15350 # 1 < inject_Z (4 * 3600 + 16 * 60))%Q.
Proof. exact says_example. Qed.

(** ** C57 *)

(** The [max_len] a formatter computes for itself, documented as the maximum possible output
    length, is not one. *)
Theorem C57_refuted : exists f n q s, good_config f /\ compute_max_len f = Ok n /\
  td_format f n (Num q) false = Ok s /\ n < zlen s.
Proof. exact max_len_exceeded. Qed.
Print Assumptions C57_refuted.

(** For the four formatters of the library it is. *)
Theorem C57_presets_partial : forall f n, In f [td3; td4; td6; td10] -> compute_max_len f = Ok n ->
  forall q, exists s, td_format f n (Num q) false = Ok s /\ zlen s <= n.
Proof. exact preset_max_len. Qed.
Print Assumptions C57_presets_partial.
