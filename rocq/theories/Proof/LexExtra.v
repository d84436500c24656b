(** Wrappers and witnesses for the claims about lexing *)
From Coq Require Import List Arith NArith ZArith Bool Lia.
From Verif.Model Require Import Base Ansi Regex Settings Segment Template Parser.
From Verif.Spec Require Import Numbers Terminal Utf8 Lexical SgrParams Display Names.
From Verif.Proof Require Import BaseFacts LexFacts TokFacts LexClaims.
Import ListNotations.
Local Open Scope N_scope.

Lemma scan_pieces_cover b : is_bytes b ->
  Forall (fun ev => exists g w, ev = Matched g w /\ w <> []) (re_scan F_SEPARATOR b) /\
  concat (map (fun ev => match ev with Matched _ w => w | Unmatched c => [c] end) (re_scan F_SEPARATOR b)) = b.
Proof. exact (scan_pieces b). Qed.

(** proves [Lexes] for concrete texts *)
Ltac no_starts := let K := fresh in intros (? & ? & K & ?); first [discriminate K | injection K as <- <-; unfold run_member, high, rng in *; lia].
Ltac tok_run := apply Tok_run; [discriminate|repeat (constructor; [cbn [run_member]; unfold rng; lia|]); constructor|no_starts].
Ltac lex1 k w rest := apply (Lexes_cons k w rest).

Lemma lexes_A : Lexes [65] [(K_run R_printable, [65])].
Proof. lex1 (K_run R_printable) [65] (@nil N); [tok_run|constructor]. Qed.

Lemma lexes_example : Lexes [27; 91; 27; 40; 66; 65; 10]
  [(K_Fe, [27; 91]); (K_nF, [27; 40; 66]); (K_run R_printable, [65]); (K_newline, [10])].
Proof.
  lex1 K_Fe [27; 91] [27; 40; 66; 65; 10].
  { constructor; [unfold rng; lia|]. intros _ p i f r (Hp & Hi & Hf) E. destruct p as [|a p]; [destruct i as [|a i]; [|]|];
    injection E as <- E; try (inversion Hp as [|? ? H]; subst; unfold rng in H; lia); try (inversion Hi as [|? ? H]; subst; unfold rng in H; lia).
    unfold rng in Hf. lia. }
  lex1 K_nF (27 :: [40] ++ [66]) [65; 10].
  { constructor. split; [discriminate|]. split; [repeat constructor; unfold rng; lia|unfold rng; lia]. }
  lex1 (K_run R_printable) [65] [10]; [tok_run|]. lex1 K_newline [10] (@nil N); constructor.
Qed.

Lemma tok_bin w : w <> [] -> Forall high w -> (forall cp r, scalar cp -> 128 <= cp -> w <> utf8_encode cp ++ r) -> Lexes w [(K_binary, w)].
Proof.
  intros H1 H2 H3. rewrite <- (app_nil_r w) at 1. constructor; [|constructor]. constructor; auto.
  - intros (? & ? & ? & ?). discriminate.
  - intros cp r Hs Hc. rewrite app_nil_r. now apply H3.
Qed.

Lemma C04_witness : exists pre cp post ts,
  scalar cp /\ 128 <= cp /\ Lexes pre [(K_binary, pre)] /\ Lexes (pre ++ utf8_encode cp ++ post) ts /\
  Forall (fun t => fst t = K_binary) ts.
Proof.
  exists [255], 0xE9, [], [(K_binary, [255; 195; 169])].
  assert (F : forall w cp r, scalar cp -> 128 <= cp -> 255 :: w <> utf8_encode cp ++ r).
  { intros w cp r Hs Hc E. destruct (enc_shape cp Hs Hc) as [(x1 & x2 & H & ?)|[(x1 & x2 & x3 & H & ?)|(x1 & x2 & x3 & x4 & H & ?)]]; rewrite H in E; injection E as E _; lia. }
  repeat split; try (unfold scalar; lia); try (repeat constructor; fail).
  - apply tok_bin; [discriminate|repeat constructor; unfold high, rng; lia|]. intros; apply F; auto.
  - change (Lexes [255; 195; 169] [(K_binary, [255; 195; 169])]). apply tok_bin; [discriminate|repeat constructor; unfold high, rng; lia|]. intros; apply F; auto.
Qed.
