(** Facts about [distribute_padded] *)
From Coq Require Import List NArith ZArith Bool Lia Arith.
From Verif.Model Require Import Base Distribute.
From Verif.Spec Require Import Layout.
Import ListNotations.

Lemma values_len_total : forall vs, fold_right (fun v acc => (zlen v + acc)%Z) 0%Z vs = Z.of_nat (total_length vs).
Proof. unfold total_length. induction vs as [|v vs IH]; [reflexivity|]. cbn [fold_right map list_sum]. rewrite IH. unfold zlen. unfold list_sum. cbn [fold_right]. lia. Qed.

Lemma interleave_cons : forall v w rest gaps,
  interleave (v :: w :: rest) gaps = v ++ blanks (hd 0 gaps) ++ interleave (w :: rest) (tl gaps).
Proof. reflexivity. Qed.

(** [k] further gaps and [s] spaces, [s = q * k + r] *)
Lemma distribute_gaps : forall rest v k q r,
  k = length rest -> (r < k \/ (k = 0 /\ r = 0)) ->
  distribute_loop (v :: rest) (Z.of_nat k) (Z.of_nat (q * k + r))
  = interleave (v :: rest) (repeat q (k - r) ++ repeat (S q) r).
Proof.
  induction rest as [|w rest IH]; intros v k q r Hk Hr.
  - cbn in Hk. subst k. destruct Hr as [Hr|[_ ->]]; [lia|].
    replace (q * 0 + 0) with 0 by lia. cbn. rewrite app_nil_r. reflexivity.
  - cbn [length] in Hk. destruct k as [|k]; [discriminate|]. injection Hk as Hk.
    destruct Hr as [Hr|[Hr _]]; [|discriminate].
    change (distribute_loop (v :: w :: rest) (Z.of_nat (S k)) (Z.of_nat (q * S k + r)))
      with (let g := (Z.of_nat (q * S k + r) / (if (Z.of_nat (S k) =? 0)%Z then 1 else Z.of_nat (S k)))%Z in
            v ++ repeat 32%N (Z.to_nat g)
              ++ distribute_loop (w :: rest) (Z.of_nat (S k) - 1) (Z.of_nat (q * S k + r) - g)).
    cbv zeta.
    replace (Z.of_nat (S k) =? 0)%Z with false by (symmetry; apply Z.eqb_neq; lia).
    replace (Z.of_nat (q * S k + r) / Z.of_nat (S k))%Z with (Z.of_nat q).
    2:{ symmetry. rewrite <- Nat2Z.inj_div. f_equal.
        rewrite Nat.div_add_l by lia. rewrite Nat.div_small by lia. lia. }
    rewrite Nat2Z.id.
    replace (Z.of_nat (S k) - 1)%Z with (Z.of_nat k) by lia.
    replace (Z.of_nat (q * S k + r) - Z.of_nat q)%Z with (Z.of_nat (q * k + r)) by nia.
    rewrite interleave_cons. unfold blanks.
    replace (S k - r) with (S (k - r)) by lia. cbn [repeat app hd tl].
    f_equal. f_equal.
    destruct (Nat.eq_dec r k) as [->|Hne].
    + replace (q * k + k) with (S q * k + 0) by lia.
      rewrite (IH w k (S q) 0 Hk) by lia.
      rewrite Nat.sub_diag, Nat.sub_0_r. cbn [repeat app]. rewrite app_nil_r. reflexivity.
    + rewrite (IH w k q r Hk) by lia. reflexivity.
Qed.

Lemma interleave_length : forall vs gaps,
  S (length gaps) = length vs -> length (interleave vs gaps) = total_length vs + list_sum gaps.
Proof.
  induction vs as [|v vs IH]; intros gaps H; [discriminate|].
  destruct vs as [|w vs].
  - destruct gaps; [|discriminate]. unfold total_length, list_sum. cbn [interleave map fold_right length]. lia.
  - destruct gaps as [|g gaps]; [discriminate|].
    rewrite interleave_cons. cbn [hd tl]. rewrite !app_length.
    rewrite (IH gaps) by (cbn in *; lia).
    unfold blanks. rewrite repeat_length. unfold total_length, list_sum. cbn [map fold_right]. lia.
Qed.

Lemma list_sum_repeat : forall n x, list_sum (repeat x n) = n * x.
Proof. induction n; intros; cbn; [reflexivity|]. rewrite IHn. lia. Qed.

Lemma list_sum_app' : forall a b, list_sum (a ++ b) = list_sum a + list_sum b.
Proof. intros. apply list_sum_app. Qed.

(** the padded list has at least two elements *)
Lemma distribute_fits : forall values max_len before after,
  let vs := pad_values values before after in
  (2 <= length vs)%nat ->
  (Z.of_nat (total_length vs + (length vs - 1)) <= max_len)%Z ->
  exists gaps,
    snd (distribute_padded values max_len before after) = Ok (interleave vs gaps) /\
    length gaps = length vs - 1 /\
    Z.of_nat (total_length vs + list_sum gaps) = max_len /\
    even gaps /\ Forall (fun g => 1 <= g) gaps.
Proof.
  intros values max_len before after vs H2 Hfit.
  set (k := length vs - 1). set (s := Z.to_nat max_len - total_length vs).
  set (q := s / k). set (r := s mod k).
  assert (Hk : k <> 0) by (unfold k; lia).
  assert (Hs : s = q * k + r) by (unfold q, r; pose proof (Nat.div_mod s k Hk); lia).
  assert (Hr : r < k) by (apply Nat.mod_upper_bound; exact Hk).
  assert (Hsk : k <= s) by (unfold s, k; lia).
  assert (Hq : 1 <= q) by (unfold q; apply Nat.div_le_lower_bound; lia).
  exists (repeat q (k - r) ++ repeat (S q) r).
  assert (Hlen : length (repeat q (k - r) ++ repeat (S q) r) = k)
    by (rewrite app_length, !repeat_length; lia).
  assert (Hsum : list_sum (repeat q (k - r) ++ repeat (S q) r) = s).
  { rewrite list_sum_app', !list_sum_repeat. rewrite Hs. nia. }
  repeat split.
  - unfold distribute_padded. cbn [snd]. fold vs. rewrite values_len_total.
    replace (max_len - Z.of_nat (total_length vs) <? zlen vs - 1)%Z with false
      by (symmetry; apply Z.ltb_ge; unfold zlen; lia).
    f_equal.
    replace (max_len - Z.of_nat (total_length vs))%Z with (Z.of_nat s) by (unfold s; lia).
    replace (zlen vs - 1)%Z with (Z.of_nat k) by (unfold zlen, k; lia).
    rewrite Hs. destruct vs as [|v rest]; [cbn in H2; lia|].
    apply distribute_gaps; [unfold k; cbn; lia|left; exact Hr].
  - exact Hlen.
  - rewrite Hsum. unfold s. lia.
  - intros g h Hg Hh. rewrite in_app_iff in Hg, Hh.
    destruct Hg as [Hg|Hg]; apply repeat_spec in Hg; destruct Hh as [Hh|Hh]; apply repeat_spec in Hh; lia.
  - apply Forall_app. split; apply Forall_forall; intros x Hx; apply repeat_spec in Hx; lia.
Qed.

Lemma distribute_length : forall values max_len before after out,
  pad_values values before after <> [] ->
  snd (distribute_padded values max_len before after) = Ok out -> Z.of_nat (length out) = max_len.
Proof.
  intros values max_len before after out Hne H.
  unfold distribute_padded in H. cbn [snd] in H. rewrite values_len_total in H.
  set (vs := pad_values values before after) in *.
  destruct (max_len - Z.of_nat (total_length vs) <? zlen vs - 1)%Z eqn:E; [discriminate|].
  apply Z.ltb_ge in E. unfold zlen in *.
  destruct vs as [|v [|w rest]] eqn:Evs; [contradiction| |].
  - cbn [length] in *. injection H as <-. unfold total_length. cbn -[Z.div Z.sub].
    unfold total_length in E. cbn in E.
    replace (Z.of_nat 1 - 1 =? 0)%Z with true by reflexivity. rewrite Z.div_1_r.
    rewrite !app_length, repeat_length. cbn [length]. lia.
  - destruct (distribute_fits values max_len before after) as (gaps & Hok & Hlen & Hsum & _).
    + fold vs. rewrite Evs. cbn. lia.
    + fold vs. rewrite Evs. cbn [length] in *. lia.
    + fold vs in Hok, Hlen, Hsum. rewrite Evs in *.
      assert (Hok' : Ok (interleave (v :: w :: rest) gaps) = Ok out).
      { rewrite <- Hok, <- H. unfold distribute_padded. cbn [snd]. fold vs. rewrite Evs, values_len_total.
        unfold zlen.
        replace (max_len - Z.of_nat (total_length (v :: w :: rest)) <? Z.of_nat (length (v :: w :: rest)) - 1)%Z
          with false by (symmetry; apply Z.ltb_ge; exact E).
        reflexivity. }
      assert (Ho : out = interleave (v :: w :: rest) gaps) by congruence.
      rewrite Ho. rewrite interleave_length; [exact Hsum|].
      rewrite Hlen.
      reflexivity.
Qed.

Lemma distribute_single : forall values max_len before after v,
  pad_values values before after = [v] -> (Z.of_nat (length v) <= max_len)%Z ->
  snd (distribute_padded values max_len before after)
  = Ok (v ++ blanks (Z.to_nat max_len - length v)).
Proof.
  intros values max_len before after v Ev H. unfold distribute_padded. rewrite Ev. cbn [snd].
  cbn [fold_right distribute_loop]. change (zlen [v] - 1)%Z with 0%Z. unfold zlen.
  destruct (Z.ltb_spec (max_len - (Z.of_nat (length v) + 0)) 0)%Z as [L|L]; [lia|].
  change (0 =? 0)%Z with true. cbv iota. rewrite Z.div_1_r, app_nil_r. unfold blanks.
  replace (Z.to_nat (max_len - (Z.of_nat (length v) + 0))) with (Z.to_nat max_len - length v) by lia.
  reflexivity.
Qed.

Lemma distribute_error : forall values max_len before after,
  let vs := pad_values values before after in vs <> [] ->
  ((exists e, snd (distribute_padded values max_len before after) = Err e)
   <-> (max_len < Z.of_nat (total_length vs + (length vs - 1)))%Z) /\
  (forall e, snd (distribute_padded values max_len before after) = Err e -> e = ValueError).
Proof.
  intros values max_len before after vs Hne. unfold distribute_padded. cbn [snd]. fold vs.
  rewrite values_len_total. unfold zlen.
  assert (1 <= length vs) by (destruct vs; [contradiction|cbn; lia]).
  destruct (max_len - Z.of_nat (total_length vs) <? Z.of_nat (length vs) - 1)%Z eqn:E.
  - apply Z.ltb_lt in E. split; [split|]; intros.
    + lia.
    + eexists; reflexivity.
    + congruence.
  - apply Z.ltb_ge in E. split; [split|]; intros.
    + destruct H0; discriminate.
    + lia.
    + discriminate.
Qed.

Lemma distribute_empty : exists values max_len out,
  (0 <= max_len)%Z /\ snd (distribute_padded values max_len false false) = Ok out /\ Z.of_nat (length out) <> max_len.
Proof. exists [], 5%Z, []. repeat split; try lia. discriminate. Qed.

(** padding adds to the list of the caller: a second identical call lays out more values *)
Lemma distribute_grows : exists values max_len out1 out2,
  let '(left1, r1) := distribute_padded values max_len true false in
  r1 = Ok out1 /\ snd (distribute_padded left1 max_len true false) = Ok out2 /\ out1 <> out2.
Proof. exists [[97%N]; [98%N]], 8%Z. do 2 eexists. cbn. repeat split. discriminate. Qed.
