(** Decoding UTF-8 files *)
From Coq Require Import List Arith NArith ZArith Bool Lia.
From Verif.Model Require Import Base Legend.
From Verif.Spec Require Import Utf8 Conditions.
Import ListNotations.
Local Open Scope N_scope.
Local Ltac Zify.zify_post_hook ::= Z.to_euclidean_division_equations.

Local Ltac bools :=
  repeat match goal with
  | H : (_ && _)%bool = true |- _ => apply andb_true_iff in H; destruct H
  | H : negb _ = true |- _ => apply negb_true_iff in H
  | H : (_ && _)%bool = false |- _ => apply andb_false_iff in H
  | H : (_ <=? _) = true |- _ => apply N.leb_le in H
  | H : (_ <? _) = true |- _ => apply N.ltb_lt in H
  | H : (_ <=? _) = false |- _ => apply N.leb_gt in H
  | H : (_ <? _) = false |- _ => apply N.ltb_ge in H
  end.

Lemma enc2 x y : is_seq2 x y = true -> utf8_encode (code2 x y) = [x; y] /\ scalar (code2 x y) /\ 128 <= x.
Proof.
  unfold is_seq2, is_cont, code2. intros H. bools. unfold utf8_encode, scalar.
  destruct (N.ltb_spec ((x - 192) * 64 + (y - 128)) 128); [lia|].
  destruct (N.ltb_spec ((x - 192) * 64 + (y - 128)) 2048); [|lia].
  split; [|lia]. f_equal; [|f_equal]; lia.
Qed.
Lemma enc3 x y z : is_seq3 x y z = true -> utf8_encode (code3 x y z) = [x; y; z] /\ scalar (code3 x y z) /\ 128 <= x.
Proof.
  unfold is_seq3, is_cont, code3. intros H. bools.
  assert (~ (55296 <= (x - 224) * 4096 + (y - 128) * 64 + (z - 128) < 57344)) by (match goal with H : _ \/ _ |- _ => destruct H end; bools; lia).
  unfold utf8_encode, scalar. set (c := (x - 224) * 4096 + (y - 128) * 64 + (z - 128)) in *.
  destruct (N.ltb_spec c 128); [lia|].
  destruct (N.ltb_spec c 2048); [lia|].
  destruct (N.ltb_spec c 65536); [|lia].
  split; [|lia]. f_equal; [|f_equal; [|f_equal]]; lia.
Qed.
Lemma enc4 x y z w : is_seq4 x y z w = true -> utf8_encode (code4 x y z w) = [x; y; z; w] /\ scalar (code4 x y z w) /\ 128 <= x.
Proof.
  unfold is_seq4, is_cont, code4. intros H. bools.
  unfold utf8_encode, scalar. set (c := (x - 240) * 262144 + (y - 128) * 4096 + (z - 128) * 64 + (w - 128)) in *.
  destruct (N.ltb_spec c 128); [lia|].
  destruct (N.ltb_spec c 2048); [lia|].
  destruct (N.ltb_spec c 65536); [lia|].
  split; [|lia]. f_equal; [|f_equal; [|f_equal; [|f_equal]]]; lia.
Qed.

Lemma decode_sound b : forall s, decode b = Some s -> b = utf8_text s /\ Forall scalar s.
Proof.
  induction b as [b IH] using (well_founded_induction (well_founded_ltof _ (@length N))). unfold ltof in IH.
  intros s. destruct b as [|x t]; [intros [= <-]; split; [reflexivity|constructor]|].
  cbn [decode]. destruct (N.ltb_spec x 128) as [L|L].
  - destruct (decode t) as [r|] eqn:E; [|discriminate]. intros [= <-]. destruct (IH t ltac:(cbn; lia) r E) as [-> F].
    split; [|constructor; [left; lia|exact F]]. unfold utf8_text. cbn [flat_map].
    replace (utf8_encode x) with [x]; [reflexivity|]. unfold utf8_encode. apply N.ltb_lt in L. now rewrite L.
  - destruct t as [|y t]; [discriminate|]. destruct (is_seq2 x y) eqn:E2.
    { destruct (decode t) as [r|] eqn:E; [|discriminate]. intros [= <-]. destruct (IH t ltac:(cbn; lia) r E) as [-> F].
      destruct (enc2 x y E2) as (Q & S & _). split; [unfold utf8_text; cbn [flat_map]; now rewrite Q|now constructor]. }
    destruct t as [|z t]; [discriminate|]. destruct (is_seq3 x y z) eqn:E3.
    { destruct (decode t) as [r|] eqn:E; [|discriminate]. intros [= <-]. destruct (IH t ltac:(cbn; lia) r E) as [-> F].
      destruct (enc3 x y z E3) as (Q & S & _). split; [unfold utf8_text; cbn [flat_map]; now rewrite Q|now constructor]. }
    destruct t as [|w t]; [discriminate|]. destruct (is_seq4 x y z w) eqn:E4; [|discriminate].
    destruct (decode t) as [r|] eqn:E; [|discriminate]. intros [= <-]. destruct (IH t ltac:(cbn; lia) r E) as [-> F].
    destruct (enc4 x y z w E4) as (Q & S & _). split; [unfold utf8_text; cbn [flat_map]; now rewrite Q|now constructor].
Qed.

Ltac leb_all := repeat match goal with
  | |- context [?a <=? ?b] => destruct (N.leb_spec a b); [|lia]
  | |- context [?a <? ?b] => destruct (N.ltb_spec a b); [|lia] end.

Lemma decode_step cp r : scalar cp -> decode (utf8_encode cp ++ r) = option_map (cons cp) (decode r).
Proof.
  intros S. unfold utf8_encode. destruct (N.ltb_spec cp 128) as [L1|L1].
  { cbn [app decode]. apply N.ltb_lt in L1. now rewrite L1. }
  destruct (N.ltb_spec cp 2048) as [L2|L2].
  { assert (Q : is_seq2 (192 + cp / 64) (128 + cp mod 64) = true).
    { unfold is_seq2, is_cont. rewrite !andb_true_iff, !N.leb_le. lia. }
    assert (C : code2 (192 + cp / 64) (128 + cp mod 64) = cp) by (unfold code2; lia).
    cbn [app decode]. destruct (N.ltb_spec (192 + cp / 64) 128); [lia|]. now rewrite Q, C. }
  destruct (N.ltb_spec cp 65536) as [L3|L3].
  { set (x := 224 + cp / 4096). set (y := 128 + cp / 64 mod 64). set (z := 128 + cp mod 64).
    assert (Rx : 224 <= x <= 239) by (unfold x; lia). assert (Ry : 128 <= y <= 191) by (unfold y; lia). assert (Rz : 128 <= z <= 191) by (unfold z; lia).
    assert (C : code3 x y z = cp) by (unfold code3, x, y, z; lia).
    assert (N2 : is_seq2 x y = false).
    { unfold is_seq2. destruct (N.leb_spec x 223); [lia|]. now rewrite andb_false_r. }
    assert (Q : is_seq3 x y z = true).
    { unfold is_seq3, is_cont. rewrite C, !andb_true_iff, !N.leb_le, negb_true_iff, andb_false_iff, N.leb_gt, N.ltb_ge. unfold scalar in S. lia. }
    cbn [app decode]. destruct (N.ltb_spec x 128); [lia|]. now rewrite N2, Q, C. }
  set (x := 240 + cp / 262144). set (y := 128 + cp / 4096 mod 64). set (z := 128 + cp / 64 mod 64). set (w := 128 + cp mod 64).
  assert (Hcp : cp < 1114112) by (unfold scalar in S; lia).
  assert (Rx : 240 <= x <= 244) by (unfold x; lia). assert (Ry : 128 <= y <= 191) by (unfold y; lia). assert (Rz : 128 <= z <= 191) by (unfold z; lia).
  assert (Rw : 128 <= w <= 191) by (unfold w; lia).
  assert (C : code4 x y z w = cp) by (unfold code4, x, y, z, w; lia).
  assert (N2 : is_seq2 x y = false).
  { unfold is_seq2. destruct (N.leb_spec x 223); [lia|]. now rewrite andb_false_r. }
  assert (N3 : is_seq3 x y z = false).
  { unfold is_seq3. destruct (N.leb_spec x 239); [lia|]. now rewrite andb_false_r. }
  assert (Q : is_seq4 x y z w = true).
  { unfold is_seq4, is_cont. rewrite C, !andb_true_iff, !N.leb_le, N.ltb_lt. lia. }
  cbn [app decode]. destruct (N.ltb_spec x 128); [lia|]. now rewrite N2, N3, Q, C.
Qed.
Lemma decode_complete s : Forall scalar s -> decode (utf8_text s) = Some s.
Proof.
  induction 1 as [|c s Hc Hs IH]; [reflexivity|]. unfold utf8_text in *. cbn [flat_map]. rewrite decode_step by exact Hc. now rewrite IH.
Qed.

Lemma splitlines_line l r : no_boundary l -> splitlines (l ++ 10 :: r) = (l ++ [10]) :: splitlines r.
Proof.
  induction 1 as [|c l Hc Hl IH].
  - cbn [app splitlines]. destruct r as [|x r]; [reflexivity|]. destruct (N.eq_dec x 10) as [->|Hx]; [reflexivity|].
    destruct x as [|p]; [reflexivity|]. do 4 (try (destruct p as [p|p|]; try reflexivity)).
  - cbn [app]. assert (N13 : c <> 13) by (intros ->; discriminate Hc). assert (E : splitlines (c :: l ++ 10 :: r) =
      match splitlines (l ++ 10 :: r) with x :: xs => (c :: x) :: xs | [] => [[c]] end).
    { cbn [splitlines]. destruct (l ++ 10 :: r) as [|x t]; [now rewrite Hc|].
      apply N.eqb_neq in N13. rewrite N13, Hc.
      destruct x as [|p]; [reflexivity|]. do 4 (try (destruct p as [p|p|]; try reflexivity)). }
    rewrite E, IH. reflexivity.
Qed.
Lemma splitlines_rest l : no_boundary l -> splitlines l = match l with [] => [] | _ => [l] end.
Proof.
  induction 1 as [|c l Hc Hl IH]; [reflexivity|].
  assert (E : splitlines (c :: l) = match splitlines l with x :: xs => (c :: x) :: xs | [] => [[c]] end).
  { cbn [splitlines]. assert (N13 : c <> 13) by (intros ->; discriminate Hc). apply N.eqb_neq in N13. rewrite N13, Hc.
    destruct l as [|x t]; [reflexivity|]. destruct x as [|p]; [reflexivity|]. do 4 (try (destruct p as [p|p|]; try reflexivity)). }
  rewrite E, IH. now destruct l.
Qed.
Lemma splitlines_lines ls r : Forall no_boundary ls -> no_boundary r ->
  splitlines (as_lines ls ++ r) = map (fun l => l ++ [10]) ls ++ match r with [] => [] | _ => [r] end.
Proof.
  intros H Hr. induction H as [|l ls Hl Hls IH]; [now apply splitlines_rest|]. unfold as_lines in *. cbn [flat_map map app]. rewrite <- !app_assoc. cbn [app].
  rewrite splitlines_line by exact Hl. now rewrite IH.
Qed.
Lemma is_comment_hash l : is_comment l = starts_hash l.
Proof.
  destruct l as [|c l]; [reflexivity|]. cbn [starts_hash]. destruct (N.eqb_spec c 35) as [->|H]; [reflexivity|].
  unfold is_comment. destruct c as [|p]; [reflexivity|]. do 6 (try (destruct p as [p|p|]; try reflexivity)). now contradiction H.
Qed.
Lemma is_comment_line l : is_comment (l ++ [10]) = starts_hash l.
Proof. rewrite is_comment_hash. now destruct l. Qed.
Lemma legend_run_lines ls r : Forall no_boundary ls -> Forall (Forall scalar) ls -> no_boundary r -> Forall scalar r ->
  legend_run (utf8_text (as_lines ls ++ r)) = Ok (as_lines (filter (fun l => negb (starts_hash l)) ls) ++ if starts_hash r then [] else r).
Proof.
  intros HB HS RB RS. unfold legend_run. rewrite decode_complete.
  - rewrite splitlines_lines by assumption. f_equal. rewrite flat_map_app. f_equal.
    + clear. induction ls as [|l ls IH]; [reflexivity|].
      cbn [map flat_map filter]. rewrite is_comment_line, IH. destruct (starts_hash l); reflexivity.
    + clear. destruct r as [|c r]; [reflexivity|]. cbn [flat_map]. rewrite is_comment_hash, app_nil_r. reflexivity.
  - apply Forall_app. split; [|exact RS].
    unfold as_lines. induction HS as [|l ls Hl _ IH]; [constructor|]. inversion HB; subst. cbn [flat_map]. apply Forall_app. split; [|now apply IH].
    apply Forall_app. split; [exact Hl|]. repeat constructor.
Qed.
