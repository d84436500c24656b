(** C01-C04, C13: how the input is cut into pieces *)
From Coq Require Import List NArith ZArith Bool Lia.
From Verif.Model Require Import Base Ansi Regex Settings Segment Template Parser.
From Verif.Spec Require Import Terminal Utf8 Lexical Display Names.
From Verif.Proof Require Import LexFacts LexClaims ParseClaims LexExtra.
Import ListNotations.
Local Open Scope N_scope.

(** ** C01 *)

(** Every event of a scan is a match of a non-empty piece (nothing is left unmatched); together
    the pieces are the input. *)
Theorem C01_pieces_cover : forall b, is_bytes b ->
  Forall (fun ev => exists g w, ev = Matched g w /\ w <> []) (re_scan F_SEPARATOR b) /\
  concat (map (fun ev => match ev with Matched _ w => w | Unmatched c => [c] end) (re_scan F_SEPARATOR b)) = b.
Proof. exact scan_pieces_cover. Qed.
Print Assumptions C01_pieces_cover.

(** Parsing empties the raw buffer; the only exception it can raise is the ValueError of an SGR
    with unreadable parameters, in particular there is never a RuntimeError. *)
Theorem C01_parse_consumes : forall e p sb ss, is_bytes (pb_raw p) ->
  match parse e p sb ss with
  | Ok (p', _, _) => pb_raw p' = [] /\ pb_closed p' = pb_closed p
  | Err x => x = ValueError
  end.
Proof. exact parse_consumes. Qed.
Print Assumptions C01_parse_consumes.

Example C01_example :
  map (fun ev => match ev with Matched _ w => w | Unmatched c => [c] end) (re_scan F_SEPARATOR [65; 66; 27; 91; 49; 109; 255; 195; 169; 0; 0; 10; 10; 32])
  = [[65; 66]; [27; 91; 49; 109]; [255; 195; 169]; [0; 0]; [10]; [10]; [32]].
Proof. vm_compute. reflexivity. Qed.

(** ** C02 *)

(** The grammar describes one and only one segmentation of any input, and the scan finds it: the
    n-th match is the n-th piece and is handled by a template of the class of that piece. *)
Theorem C02_grammar : forall b, is_bytes b ->
  exists ts, Lexes b ts /\ (forall ts', Lexes b ts' -> ts' = ts) /\
  Forall2 (fun t ev => exists g mg, ev = Matched g (snd t) /\ primary_mgroup g = Some mg /\ group (S mg) g = Some (snd t) /\
    forall ss, match resolve_match g mg ss with
               | Ok (tpl, _) => t_class tpl = class_of (fst t)
               | Err x => x = ValueError
               end) ts (re_scan F_SEPARATOR b).
Proof. exact scan_classes. Qed.
Print Assumptions C02_grammar.

Example C02_example : Lexes [27; 91; 27; 40; 66; 65; 10]
  [(K_Fe, [27; 91]); (K_nF, [27; 40; 66]); (K_run R_printable, [65]); (K_newline, [10])].
Proof. exact lexes_example. Qed.

(** ** C03 *)

(** A piece is taken for a UTF-8 sequence iff it is the encoding of a scalar value from 128 on. *)
Theorem C03_utf8_pieces : forall b g w, is_bytes b -> In (Matched g w) (re_scan F_SEPARATOR b) ->
  (primary_mgroup g = Some 0%nat <-> exists cp, scalar cp /\ 128 <= cp /\ w = utf8_encode cp).
Proof. exact utf8_piece. Qed.
Print Assumptions C03_utf8_pieces.

(** In text mode (unless ignored) precisely this scalar is shown for it. *)
Theorem C03_utf8_shown : forall s p sb ss ts p' sb' ss',
  is_bytes (pb_raw p) -> Lexes (pb_raw p) ts -> parse (update_settings s) p sb ss = Ok (p', sb', ss') ->
  binary_mode s = false -> s_ignore s CC_utf8 = false ->
  exists segss, sb' = attach sb (concat segss) /\
    Forall2 (fun t gs => forall cp, fst t = K_utf8 cp -> visible (flat_map seg_proc gs) = [cp]) ts segss.
Proof. exact parse_utf8. Qed.
Print Assumptions C03_utf8_shown.

Example C03_example : scalar 0x20AC /\ utf8_encode 0x20AC = [226; 130; 172] /\
  re_scan F_SEPARATOR [237; 160; 128] <> [] /\
  match re_scan F_SEPARATOR [237; 160; 128] with Matched g _ :: _ => primary_mgroup g <> Some 0%nat | _ => False end /\
  match re_scan F_SEPARATOR [226; 130; 172] with Matched g _ :: _ => primary_mgroup g = Some 0%nat | _ => False end /\
  match parse (update_settings default_settings) (mkPbuf [226; 130; 172] true) sbuf_init sgr_state_init with
  | Ok (_, sb, _) => flat_map (fun e => match e with ESeg g => seg_proc g | _ => [] end) (sb_chain sb) = [0x20AC]
  | Err _ => False
  end.
Proof. split; [unfold scalar; lia|]. repeat split; try (vm_compute; reflexivity); vm_compute; discriminate. Qed.

(** ** C04 *)

(** A valid sequence at a piece boundary is recognised iff the preceding piece is not a binary
    run. *)
Theorem C04_recognised_partial : forall pre cp post ts,
  scalar cp -> 128 <= cp -> is_bytes (pre ++ utf8_encode cp ++ post) -> Lexes pre ts ->
  ((exists ts', Lexes (pre ++ utf8_encode cp ++ post) (ts ++ (K_utf8 cp, utf8_encode cp) :: ts')) <-> last_binary ts = false).
Proof. exact C04_exact. Qed.
Print Assumptions C04_recognised_partial.

(** After stray bytes it is not: e.g. FF C3 A9 is one binary run. *)
Theorem C04_recognised_refuted : exists pre cp post ts,
  scalar cp /\ 128 <= cp /\ Lexes pre [(K_binary, pre)] /\ Lexes (pre ++ utf8_encode cp ++ post) ts /\
  Forall (fun t => fst t = K_binary) ts.
Proof. exact C04_witness. Qed.
Print Assumptions C04_recognised_refuted.

Example C04_example : scalar 0xE9 /\ Lexes [65] [(K_run R_printable, [65])] /\ last_binary [(K_run R_printable, [65])] = false.
Proof. split; [unfold scalar; lia|]. split; [exact lexes_A|reflexivity]. Qed.

(** ** C13 *)

(** Every escape sequence gets a segment holding its ESC, shown as the sign of its sort (in
    either mode, with any marker level); [SeqMarker] lists the signs. *)
Theorem C13_markers : forall s p sb ss ts p' sb' ss',
  is_bytes (pb_raw p) -> Lexes (pb_raw p) ts -> parse (update_settings s) p sb ss = Ok (p', sb', ss') ->
  s_ignore s CC_esc = false ->
  exists segss, sb' = attach sb (concat segss) /\
    Forall2 (fun t gs => forall m, SeqMarker (fst t) m -> exists g, In g gs /\ seg_raw g = [27] /\ seg_proc g = [m]) ts segss.
Proof. exact parse_marker. Qed.
Print Assumptions C13_markers.

(** In text mode the sign comes first, but for a separator. *)
Theorem C13_markers_text : forall s p sb ss ts p' sb' ss',
  is_bytes (pb_raw p) -> Lexes (pb_raw p) ts -> parse (update_settings s) p sb ss = Ok (p', sb', ss') ->
  binary_mode s = false -> s_ignore s CC_esc = false ->
  exists segss, sb' = attach sb (concat segss) /\
    Forall2 (fun t gs => forall m, SeqMarker (fst t) m ->
      exists sep details, visible (flat_map seg_proc gs) = sep ++ m :: details /\ (sep = [] \/ sep = [0x28B8])) ts segss.
Proof. exact parse_marker_text. Qed.
Print Assumptions C13_markers_text.

(** Different sorts have different signs. *)
Theorem C13_markers_distinct : forall k1 k2 m, SeqMarker k1 m -> SeqMarker k2 m ->
  match k1, k2 with
  | K_csi p1 _ f1, K_csi p2 _ f2 => csi_sort p1 f1 = csi_sort p2 f2
  | K_nF, K_nF | K_Fp, K_Fp | K_Fe, K_Fe | K_Fs, K_Fs => True
  | _, _ => False
  end.
Proof. exact marker_only_sort. Qed.
Print Assumptions C13_markers_distinct.

Example C13_example :
  match parse (update_settings default_settings) (mkPbuf [27; 91; 109; 27; 91; 49; 109; 27; 91; 72; 27; 99] true) sbuf_init sgr_state_init with
  | Ok (_, sb, _) => flat_map (fun e => match e with ESeg g => seg_proc g | _ => [] end) (sb_chain sb) = [0x3B8; 0x1DD; 0x3FD; 0xA644]
  | Err _ => False
  end.
Proof. vm_compute. reflexivity. Qed.
