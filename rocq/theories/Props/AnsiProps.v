(** C41-C44: SGR sequences, closing sequences, stripping, justification *)
From Coq Require Import List NArith ZArith Bool.
From Verif.Model Require Import Base Ansi Strip.
From Verif.Spec Require Import Terminal Sgr.
From Verif.Proof Require Import TermFacts ClosingFacts StripFacts.
Import ListNotations.
Local Open Scope N_scope.

(** ** C41 *)

(** An assembled sequence has the form ESC [ parameters m; reading the parameters (digits and
    semicolons, a missing one being 0) gives back exactly those of the sequence; the empty
    sequence is the empty text. *)
Theorem C41_assemble_readback : forall p,
  (p = [] -> assemble p = []) /\
  (p <> [] -> exists ps, assemble p = [27; 91] ++ ps ++ [109] /\
                         Forall (fun c => (48 <= c /\ c <= 57) \/ c = 59) ps /\ csi_params ps 0 = p).
Proof. intros p. split; [intros ->; reflexivity|exact (C41_tokenise p)]. Qed.
Print Assumptions C41_assemble_readback.

(** A terminal that reads it, in whatever attributes and whatever follows, applies these
    parameters and displays nothing. *)
Theorem C41_terminal_applies : forall a p rest,
  trun Ground a (assemble p ++ rest) = trun Ground (sgr_apply p a) rest.
Proof. exact assemble_run. Qed.
Print Assumptions C41_terminal_applies.

Theorem C41_assemble_injective : forall p q, assemble p = assemble q -> p = q.
Proof. exact assemble_inj. Qed.
Print Assumptions C41_assemble_injective.

Theorem C41_add_monoid : forall a b c,
  sgr_add (sgr_add a b) c = sgr_add a (sgr_add b c) /\ sgr_add [] a = a /\ sgr_add a [] = a.
Proof. intros a b c. exact (conj (eq_sym (app_assoc a b c)) (conj (app_nil_l a) (app_nil_r a))). Qed.
Print Assumptions C41_add_monoid.

Example C41_example : assemble [38; 5; 208; 1] = [27; 91; 51; 56; 59; 53; 59; 50; 48; 56; 59; 49; 109]
  /\ assemble [0] = [27; 91; 109].
Proof. split; vm_compute; reflexivity. Qed.

(** ** C42 *)

(** For an opening sequence consisting of supported codes (colors, also extended ones, and the
    attributes), whatever the attributes were before: every group of attributes it sets is at
    its default after the closing sequence, every other group is as it was before. *)
Theorem C42_closing_undoes : forall p items a g,
  Supported p items ->
  (touches items g -> same g (sgr_apply (closing_seq p) (sgr_apply p a)) attrs0) /\
  (~ touches items g -> same g (sgr_apply (closing_seq p) (sgr_apply p a)) a).
Proof. exact closing_undoes. Qed.
Print Assumptions C42_closing_undoes.

(** From default attributes, wrapping a text leaves default attributes. *)
Theorem C42_back_to_default : forall p items,
  Supported p items -> sgr_apply (closing_seq p) (sgr_apply p attrs0) = attrs0.
Proof. exact closing_default. Qed.
Print Assumptions C42_back_to_default.

Example C42_example :
  Supported [1; 38; 2; 10; 20; 30; 48; 5; 7; 4; 97]
            [I_code 1; I_rgb false 10 20 30; I_indexed true 7; I_code 4; I_code 97]
  /\ closing_seq [1; 38; 2; 10; 20; 30; 48; 5; 7; 4; 97] = [22; 39; 49; 24; 39]
  /\ touches [I_code 1; I_indexed true 7] G_bg /\ ~ touches [I_code 1; I_indexed true 7] G_italic.
Proof.
  repeat split.
  - repeat constructor; discriminate.
  - exists (I_indexed true 7). split; [right; left|]; reflexivity.
  - intros (i & [<-|[<-|[]]] & E); discriminate E.
Qed.

(** ** C43 *)

(** For every text a terminal displays without leaks (displayable characters and complete SGR
    sequences), stripping gives the characters displayed ... *)
Theorem C43_strip_is_visible : forall s, clean s -> strip_sgr s = visible s.
Proof. exact strip_visible. Qed.
Print Assumptions C43_strip_is_visible.

(** ... and doing it again changes nothing. *)
Theorem C43_strip_idempotent_partial : forall s, clean s -> strip_sgr (strip_sgr s) = strip_sgr s.
Proof. exact strip_twice. Qed.
Print Assumptions C43_strip_idempotent_partial.

(** For arbitrary texts it is not idempotent: a sequence inside a sequence. *)
Theorem C43_strip_idempotent_refuted : exists s, strip_sgr (strip_sgr s) <> strip_sgr s.
Proof. exact strip_clean_refuted. Qed.
Print Assumptions C43_strip_idempotent_refuted.

Example C43_example : let s := [97] ++ assemble [1; 31] ++ [98; 10] ++ assemble [0] ++ [0x2588] in
  clean s /\ strip_sgr s = [97; 98; 10; 0x2588].
Proof. split; vm_compute; reflexivity. Qed.

(** ** C44 *)

(** Number of fill characters needed: the missing visible width, 0 if there is none. *)
Theorem C44_ljust : forall s width fill, clean s -> displayable fill = true ->
  visible (ljust_sgr s width fill) = visible s ++ repeat fill (Z.to_nat width - length (visible s)) /\
  clean (ljust_sgr s width fill).
Proof. exact ljust_visible. Qed.
Print Assumptions C44_ljust.

Theorem C44_rjust : forall s width fill, clean s -> displayable fill = true ->
  visible (rjust_sgr s width fill) = repeat fill (Z.to_nat width - length (visible s)) ++ visible s /\
  clean (rjust_sgr s width fill).
Proof. exact rjust_visible. Qed.
Print Assumptions C44_rjust.

(** centred: the two sides differ by at most one, the left one being the longer *)
Theorem C44_center : forall s width fill, clean s -> displayable fill = true ->
  exists l r, (l + r = Z.to_nat width - length (visible s))%nat /\ (r <= l <= r + 1)%nat /\
  visible (center_sgr s width fill) = repeat fill l ++ visible s ++ repeat fill r /\
  clean (center_sgr s width fill).
Proof. exact center_visible. Qed.
Print Assumptions C44_center.

Example C44_example : let s := span_wrap [31; 1] [97; 98] in
  clean s /\ visible (ljust_sgr s 5 46) = [97; 98; 46; 46; 46] /\ visible (rjust_sgr s 4 32) = [32; 32; 97; 98]
  /\ visible (center_sgr s 5 46) = [46; 46; 97; 98; 46] /\ visible (ljust_sgr s (-3) 46) = [97; 98].
Proof. vm_compute. auto. Qed.
