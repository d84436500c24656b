From Coq Require Import List NArith ZArith QArith Qabs Qround Bool Lia Lqa.
From Verif.Model Require Import Base Strip Color TimeDelta.
From Verif.Spec Require Import Duration.
From Verif.Proof Require Import BinClaims.
Import ListNotations.
Local Open Scope Z_scope.

Lemma Qlt_bool_spec x y : reflect (x < y)%Q (Qlt_bool x y).
Proof.
  unfold Qlt_bool. destruct (Qle_bool y x) eqn:E; cbn; constructor.
  - apply Qle_bool_iff in E. lra.
  - apply Qnot_le_lt. intros H. apply Qle_bool_iff in H. congruence.
Qed.
Lemma Qle_bool_spec x y : reflect (x <= y)%Q (Qle_bool x y).
Proof.
  destruct (Qle_bool x y) eqn:E; constructor.
  - now apply Qle_bool_iff.
  - intros H. apply Qle_bool_iff in H. congruence.
Qed.

Lemma floor_lt q n : Qfloor q < n <-> (q < inject_Z n)%Q.
Proof.
  split; intros H.
  - destruct (Qlt_le_dec q (inject_Z n)) as [|L]; [assumption|].
    apply Qfloor_resp_le in L. rewrite Qfloor_Z in L. lia.
  - pose proof (Qfloor_le q). rewrite Zlt_Qlt. lra.
Qed.
Lemma floor_le q n : n <= Qfloor q <-> (inject_Z n <= q)%Q.
Proof.
  pose proof (floor_lt q n). split; intros H'.
  - apply Qnot_lt_le. intros L. apply H in L. lia.
  - destruct (Z_lt_le_dec (Qfloor q) n) as [L|]; [|assumption]. apply H in L. lra.
Qed.
Lemma floor_unique q n : (inject_Z n <= q < inject_Z (n + 1))%Q <-> Qfloor q = n.
Proof. rewrite <- floor_le, <- floor_lt. lia. Qed.

Lemma floor_div q r : 0 < r -> Qfloor (q / inject_Z r) = Qfloor q / r.
Proof.
  intros R. assert (RQ : (0 < inject_Z r)%Q) by (change 0%Q with (inject_Z 0); now rewrite <- Zlt_Qlt).
  apply floor_unique. pose proof (Z.div_mod (Qfloor q) r) as D. pose proof (Z.mod_pos_bound (Qfloor q) r R) as M.
  set (k := Qfloor q / r) in *. assert (A : k * r <= Qfloor q) by nia. assert (B : Qfloor q < (k + 1) * r) by nia.
  apply floor_le in A. apply floor_lt in B. rewrite inject_Z_mult in A, B.
  split.
  - apply Qle_shift_div_l; assumption.
  - apply Qlt_shift_div_r; assumption.
Qed.
Lemma floor_sub q n : Qfloor (q - inject_Z n) = Qfloor q - n.
Proof.
  apply floor_unique. pose proof (Qfloor_le q). pose proof (Qlt_floor q).
  rewrite ?inject_Z_plus in *. unfold Z.sub. rewrite ?inject_Z_plus, ?inject_Z_opp in *. change (inject_Z 1) with 1%Q in *. lra.
Qed.

(** The loop, from one whole second on, needs the whole part only *)
Section Whole.
  Variable f : td_config.
  Variable max_len : option Z.
  Variable negative : bool.
  Definition sgn : str := if negative then [45%N] else [].
  Definition suffixed (u : time_unit) (n : Z) : str := u_name u ++ (if n =? 1 then [] else plu f).

  Fixpoint zloop (units : list time_unit) (n : Z) (prev : str) : result (option str) :=
    match units with
    | [] => Ok (Some [])
    | u :: rest =>
        if match int_on (u_overflow_after u) with Some k => k <? n | None => false end
        then overflow max_len
        else if match u_collapsible_after u with Some k => n <? k | None => false end
        then Ok (Some (sgn ++ zdec n ++ shrt u ++ gap f ++ prev))
        else match int_on (u_in_next u) with
             | None => Ok (Some (sgn ++ zdec n ++ gap f ++ suffixed u n))
             | Some r => if n <? r then Ok (Some (sgn ++ zdec n ++ gap f ++ suffixed u n))
                         else zloop rest (n / r) (zdec (n mod r) ++ shrt u)
             end
    end.


  Lemma int_on_some o n : int_on o = Some n -> o = Some n /\ n <> 0.
  Proof. destruct o as [z|]; cbn; [|discriminate]. destruct (Z.eqb_spec z 0); intros E; inversion E; subst; auto. Qed.

  Lemma trunc_floor q : (0 <= q)%Q -> Qtrunc q = Qfloor q.
  Proof.
    intros H. unfold Qtrunc, Qfloor. destruct q as [a b]. cbn. unfold Qle in H; cbn in H.
    apply Z.quot_div_nonneg; lia.
  Qed.

  (** overflow limits and fractional parts: only units after the first may have limits *)
  Lemma loop_whole units : Forall good_unit units -> forall num prev,
    (1 <= num)%Q ->
    (num == inject_Z (Qfloor num))%Q \/ match units with u :: _ => int_on (u_overflow_after u) = None | [] => True end ->
    format_loop f max_len negative units num prev = zloop units (Qfloor num) prev.
  Proof.
    induction 1 as [|u rest [NE POS] G IH]; intros num prev N O; [reflexivity|].
    cbn [format_loop zloop].
    assert (OV : match int_on (u_overflow_after u) with Some n => Qlt_bool (inject_Z n) num | None => false end
                 = match int_on (u_overflow_after u) with Some n => n <? Qfloor num | None => false end).
    { destruct (int_on (u_overflow_after u)) as [k|] eqn:E; [|reflexivity].
      destruct O as [O|O]; [|discriminate].
      destruct (Qlt_bool_spec (inject_Z k) num) as [L|L], (Z.ltb_spec k (Qfloor num)) as [L'|L']; try reflexivity; exfalso.
      - rewrite O, <- Zlt_Qlt in L. lia.
      - apply L. rewrite O, <- Zlt_Qlt. lia. }
    rewrite OV. destruct (match int_on (u_overflow_after u) with Some n => n <? Qfloor num | None => false end); [reflexivity|].
    destruct (u_name u) as [|c w] eqn:NM; [congruence|].
    destruct (Qlt_bool_spec (Qabs num) 1) as [L|L]; [rewrite Qabs_pos in L by lra; lra|]. clear L.
    assert (SH : match str_on (u_custom_short u) with Some s => s | None => [c] end = shrt u) by (unfold shrt; rewrite NM; destruct (u_custom_short u) as [[|? ?]|]; reflexivity).
    assert (SU : (c :: w) ++ match str_on (td_plural f) with Some p => if Qtrunc num =? 1 then [] else p | None => [] end
                 = suffixed u (Qfloor num)).
    { unfold suffixed, plu. rewrite NM, trunc_floor by lra. destruct (td_plural f) as [[|? ?]|]; destruct (Qfloor num =? 1); reflexivity. }
    rewrite SH, SU. fold (gap f) sgn.
    assert (LT : forall k, Qlt_bool num (inject_Z k) = (Qfloor num <? k)).
    { intros k. pose proof (floor_lt num k). destruct (Qlt_bool_spec num (inject_Z k)), (Z.ltb_spec (Qfloor num) k); try reflexivity; exfalso; [apply H in q; lia|apply n; apply H; lia]. }
    assert (CO : match u_collapsible_after u with Some n => Qlt_bool num (inject_Z n) | None => false end
                 = match u_collapsible_after u with Some n => Qfloor num <? n | None => false end)
      by (destruct (u_collapsible_after u); auto).
    rewrite CO. destruct (match u_collapsible_after u with Some n => Qfloor num <? n | None => false end); [reflexivity|].
    destruct (int_on (u_in_next u)) as [r|] eqn:NX; [|reflexivity].
    apply int_on_some in NX as [NX _]. specialize (POS r NX).
    rewrite LT. destruct (Z.ltb_spec (Qfloor num) r) as [L|L]; [reflexivity|].
    rewrite floor_div, floor_sub by assumption.
    assert (Q1 : 1 <= Qfloor num / r) by (apply Z.div_le_lower_bound; lia).
    rewrite IH; rewrite ?Qfloor_Z.
    - f_equal. f_equal. f_equal. rewrite (Z.mul_comm _ r), <- Z.mod_eq by lia. reflexivity.
    - change 1%Q with (inject_Z 1). now rewrite <- Zle_Qle.
    - left. reflexivity.
  Qed.
End Whole.

(** ** What the text says *)

Lemma ratio_eq u : ratio u = int_on (u_in_next u).
Proof. unfold ratio, int_on. destruct (u_in_next u) as [[|p|p]|]; reflexivity. Qed.
Lemma scale_of_eq units : scale_of units = map (fun u => (u_name u, shrt u, int_on (u_in_next u))) units.
Proof. apply map_ext. intros u. now rewrite ratio_eq. Qed.

Lemma zdec_nonneg n : 0 <= n -> zdec n = dec (Z.to_N n).
Proof. intros. unfold zdec. destruct (Z.ltb_spec n 0); [lia|reflexivity]. Qed.

Lemma size_S (pre : scale) : forall l sh r rest,
  Forall (fun x => exists r, snd x = Some r) pre ->
  size_of (pre ++ (l, sh, Some r) :: rest) (S (length pre)) = r * size_of (pre ++ (l, sh, Some r) :: rest) (length pre).
Proof.
  induction pre as [|[[a b] c] pre IH]; intros l sh r rest H.
  - cbn. destruct rest as [|[[? ?] [?|]] ?]; reflexivity.
  - inversion H as [|? ? [r' E] H']; subst; cbn [snd] in E. subst c. cbn [length app].
    change (size_of ((a, b, Some r') :: pre ++ (l, sh, Some r) :: rest) (S (S (length pre))))
      with (r' * size_of (pre ++ (l, sh, Some r) :: rest) (S (length pre))).
    change (size_of ((a, b, Some r') :: pre ++ (l, sh, Some r) :: rest) (S (length pre)))
      with (r' * size_of (pre ++ (l, sh, Some r) :: rest) (length pre)).
    rewrite IH by assumption. lia.
Qed.

Lemma says_loop f ml neg units : Forall good_unit units -> forall pre n prev total text,
  let s := scale_of (pre ++ units) in
  Forall (fun u => exists r, int_on (u_in_next u) = Some r) pre ->
  1 <= n -> n = total / size_of s (length pre) -> 0 < size_of s (length pre) ->
  match pre with
  | [] => match units with u :: _ => u_collapsible_after u = None | [] => True end
  | _ => exists p u r m, pre = p ++ [u] /\ int_on (u_in_next u) = Some r /\ prev = zdec m ++ shrt u /\
         0 <= m < r /\ m = (total / size_of s (length p)) mod r /\ 0 < size_of s (length p) /\
         size_of s (length pre) = r * size_of s (length p)
  end ->
  zloop f ml neg units n prev = Ok (Some text) ->
  text = [] \/
  exists body lo hi, text = sgn neg ++ body /\ Says s (plu f) (gap f) body lo hi /\ lo <= total < hi.
Proof.
  induction 1 as [|u rest [NE POS] G IH]; intros pre n prev total text s PRE N1 NT SP PV E; cbn [zloop] in E.
  { left. now inversion E. }
  destruct (match int_on (u_overflow_after u) with Some k => k <? n | None => false end).
  { unfold overflow in E. destruct ml as [z|]; [destruct (z =? 0)|]; discriminate. }
  assert (NTH : nth_error s (length pre) = Some (u_name u, shrt u, int_on (u_in_next u))).
  { unfold s. rewrite scale_of_eq. rewrite map_app, nth_error_app2 by (rewrite map_length; lia).
    rewrite map_length, Nat.sub_diag. reflexivity. }
  pose proof (Z.div_mod total (size_of s (length pre))) as DM.
  pose proof (Z.mod_pos_bound total (size_of s (length pre)) SP) as MB.
  assert (ONE : (forall r, int_on (u_in_next u) = Some r -> n < r) ->
    exists body lo hi, sgn neg ++ zdec n ++ gap f ++ suffixed f u n = sgn neg ++ body /\ Says s (plu f) (gap f) body lo hi /\ lo <= total < hi).
  { intros H. exists (zdec n ++ gap f ++ suffixed f u n), (n * size_of s (length pre)), ((n + 1) * size_of s (length pre)).
    split; [reflexivity|]. split; [|nia]. rewrite zdec_nonneg by lia. unfold suffixed.
    eapply says_one; eauto. }
  destruct (match u_collapsible_after u with Some k => n <? k | None => false end) eqn:CO.
  { right. inversion E; subst text; clear E. destruct pre as [|p0 pre0].
    - rewrite PV in CO. discriminate.
    - destruct PV as (p & v & r & m & PE & NX & PVE & MR & ME & SP' & SS).
      assert (NTH' : nth_error s (length p) = Some (u_name v, shrt v, Some r)).
      { unfold s. rewrite scale_of_eq. rewrite PE, <- app_assoc, map_app, nth_error_app2 by (rewrite map_length; lia).
        rewrite map_length, Nat.sub_diag. cbn. now rewrite NX. }
      assert (LEN : length (p0 :: pre0) = S (length p)) by (rewrite PE, app_length; cbn; lia).
      rewrite LEN in *.
      exists (zdec n ++ shrt u ++ gap f ++ prev), (n * size_of s (S (length p)) + m * size_of s (length p)),
        (n * size_of s (S (length p)) + (m + 1) * size_of s (length p)).
      split; [reflexivity|]. split.
      + rewrite PVE, !zdec_nonneg by lia. eapply says_two; eauto.
      + set (b := size_of s (length p)) in *. rewrite SS in *.
        pose proof (Z.div_mod total b) as D1. pose proof (Z.mod_pos_bound total b SP') as M1.
        pose proof (Z.div_mod (total / b) r) as D2. rewrite Z.mul_comm, <- Z.div_div in NT by lia.
        rewrite <- NT, <- ME in D2. nia. }
  destruct (int_on (u_in_next u)) as [r|] eqn:NX.
  2:{ inversion E; subst. right. apply ONE. discriminate. }
  destruct (Z.ltb_spec n r) as [L|L].
  { inversion E; subst. right. apply ONE. intros r' [= <-]. assumption. }
  apply int_on_some in NX as NX'. destruct NX' as [NX' _]. specialize (POS r NX').
  assert (SS : size_of s (S (length pre)) = r * size_of s (length pre)).
  { unfold s. rewrite scale_of_eq. rewrite map_app. cbn [map]. rewrite NX.
    replace (length pre) with (length (map (fun u0 => (u_name u0, shrt u0, int_on (u_in_next u0))) pre)) by apply map_length.
    apply size_S. apply Forall_map. eapply Forall_impl; [|exact PRE]. intros a [q ?]. exists q. assumption. }
  assert (SE : scale_of ((pre ++ [u]) ++ rest) = s) by (rewrite <- app_assoc; reflexivity).
  assert (LE : length (pre ++ [u]) = S (length pre)) by (rewrite app_length; cbn; lia).
  specialize (IH (pre ++ [u]) (n / r) (zdec (n mod r) ++ shrt u) total text). cbv zeta in IH.
  rewrite SE, LE, SS in IH. apply IH; auto.
  - apply Forall_app. split; [assumption|]. constructor; [eauto|constructor].
  - apply Z.div_le_lower_bound; lia.
  - rewrite NT, Z.mul_comm, Z.div_div by lia. reflexivity.
  - nia.
  - destruct (pre ++ [u]) eqn:PE; [destruct pre; discriminate|]. rewrite <- PE.
    exists pre, u, r, (n mod r). rewrite NT. repeat split; auto.
    all: rewrite <- ?NT; apply Z.mod_pos_bound; lia.
Qed.


Lemma says_main f ml q text : good_config f -> (1 <= Qabs q)%Q ->
  format_raw f ml (Num q) = Ok (Some text) ->
  text = [] \/
  exists body lo hi,
    text = (if td_allow_negative f && Qlt_bool q 0 then [45%N] else []) ++ body /\
    Says (scale_of (td_units f)) (plu f) (gap f) body lo hi /\
    (inject_Z lo <= Qabs q < inject_Z hi)%Q.
Proof.
  intros [G H] Q1 E. unfold format_raw in E. rewrite loop_whole in E; auto.
  2:{ right. destruct (td_units f); tauto. }
  eapply (says_loop f ml _ _ G [] (Qfloor (Qabs q)) [] (Qfloor (Qabs q))) in E; cbn [app length size_of]; auto.
  - destruct E as [E|(b & lo & hi & E & S & B)]; [left; exact E|right].
    exists b, lo, hi. split; [exact E|]. split; [exact S|].
    rewrite <- floor_le, <- floor_lt. exact B.
  - change 1%Q with (inject_Z 1) in Q1. now apply floor_le.
  - assert (S1 : forall s, size_of s 0 = 1) by (intros []; reflexivity). now rewrite S1, Z.div_1_r.
  - assert (S1 : forall s, size_of s 0 = 1) by (intros []; reflexivity). rewrite S1. lia.
  - destruct (td_units f); tauto.
Qed.

(** ** The preset formatters *)
Lemma presets : register [] [td3; td4; td6; td10] = Ok [(3, td3); (4, td4); (6, td6); (10, td10)].
Proof. vm_compute. reflexivity. Qed.

Lemma good_presets f : In f [td3; td4; td6; td10] -> good_config f.
Proof.
  intros H. cbn in H. repeat destruct H as [<-|H]; try contradiction; (split; [|split; reflexivity]);
    repeat constructor; try discriminate; intros r E; inversion E; lia.
Qed.

Lemma dec_len n k : (0 < k)%nat -> 0 <= n < 10 ^ Z.of_nat k -> (length (zdec n) <= k)%nat.
Proof.
  intros K H. rewrite zdec_nonneg by lia. apply dec_length; [assumption|].
  apply N2Z.inj_lt. rewrite Z2N.id, N2Z.inj_pow, nat_N_Z by lia. cbn [Z.of_N]. lia.
Qed.
Lemma dec_len1 n : 0 <= n < 10 -> (length (zdec n) <= 1)%nat. Proof. intros; apply dec_len; [lia|cbn; lia]. Qed.
Lemma dec_len2 n : 0 <= n < 100 -> (length (zdec n) <= 2)%nat. Proof. intros; apply dec_len; [lia|cbn; lia]. Qed.
Lemma dec_len3 n : 0 <= n < 1000 -> (length (zdec n) <= 3)%nat. Proof. intros; apply dec_len; [lia|cbn; lia]. Qed.

Definition within (k : nat) (r : result (option str)) : Prop :=
  match r with Ok (Some s) => (length s <= k)%nat /\ s <> [] | Ok None => True | Err _ => False end.

Ltac lens := unfold gap, plu, suffixed, sgn, shrt; cbn [td_separator td_plural str_on u_custom_short u_name td3 td4 td6 td10 unit_ last_unit firstn];
  repeat match goal with |- context[if ?b then _ else _] => destruct b end;
  rewrite ?app_length; cbn [length].
Ltac decs := repeat match goal with
  | |- context[length (zdec ?n)] => let H := fresh in
     first [assert (H : (length (zdec n) <= 1)%nat) by (apply dec_len1; lia)
           |assert (H : (length (zdec n) <= 2)%nat) by (apply dec_len2; lia)
           |assert (H : (length (zdec n) <= 3)%nat) by (apply dec_len3; lia)];
     generalize dependent (length (zdec n)); intros end.

Ltac unit_step :=
  cbn [zloop u_overflow_after u_collapsible_after u_in_next int_on unit_ last_unit Z.eqb Pos.eqb];
  try match goal with |- context[if ?a <? ?b then _ else _] => destruct (Z.ltb_spec a b) end.

Lemma zloop_preset f k ml neg n : In (k, f) [(3, td3); (4, td4); (6, td6); (10, td10)] -> ml <> 0 -> 1 <= n ->
  (neg = true -> f = td10) ->
  within (Z.to_nat k) (zloop f (Some ml) neg (td_units f) n []).
Proof.
  intros H ML N NEG. assert (M0 : ml =? 0 = false) by (apply Z.eqb_neq; assumption).
  assert (NE : forall (x : Z) (y : str), zdec x ++ y <> []).
  { intros x y E. apply app_eq_nil in E as [E _]. unfold zdec in E. destruct (x <? 0); [discriminate|]. now apply BaseFacts.dec_nonempty in E. }
  assert (NE' : forall b x y, sgn b ++ zdec x ++ y <> []).
  { intros b x y E. apply app_eq_nil in E as [_ E]. now apply NE in E. }
  assert (NG : f <> td10 -> neg = false) by (destruct neg; auto; intros X; elim X; auto).
  cbn in H. repeat destruct H as [[= <- <-]|H]; try contradiction;
    try (rewrite NG by discriminate); clear NG NEG;
    cbn [td_units td3 td4 td6 td10 Z.to_nat Pos.to_nat Pos.iter_op Nat.add].
  all: repeat unit_step; unfold overflow; rewrite ?M0; cbn [within]; auto; (split; [|apply NE']).
  all: Z.to_euclidean_division_equations; lens; decs;
    change (length (plu td3)) with 0%nat; change (length (plu td4)) with 0%nat; change (length (plu td6)) with 0%nat;
    change (length (plu td10)) with 1%nat; try (cbn; lia).
Qed.

Definition td_for (max_len : Z) : Z * td_config :=
  if 10 <=? max_len then (10, td10) else if 6 <=? max_len then (6, td6) else if 4 <=? max_len then (4, td4) else (3, td3).

Lemma find_preset max_len : 3 <= max_len ->
  find_matching [(3, td3); (4, td4); (6, td6); (10, td10)] max_len = Some (td_for max_len).
Proof.
  intros H. unfold find_matching, td_for, best_key. cbn [zdict_get map fst fold_left].
  destruct (Z.eqb_spec max_len 3) as [->|]; [reflexivity|]. destruct (Z.eqb_spec max_len 4) as [->|]; [reflexivity|].
  destruct (Z.eqb_spec max_len 6) as [->|]; [reflexivity|]. destruct (Z.eqb_spec max_len 10) as [->|]; [reflexivity|].
  destruct (Z.leb_spec 3 max_len); [|lia].
  destruct (Z.leb_spec 4 max_len), (Z.leb_spec 6 max_len), (Z.leb_spec 10 max_len); try lia; reflexivity.
Qed.
Lemma no_preset max_len : max_len < 3 ->
  find_matching [(3, td3); (4, td4); (6, td6); (10, td10)] max_len = None.
Proof.
  intros H. unfold find_matching, best_key. cbn [zdict_get map fst fold_left].
  destruct (Z.eqb_spec max_len 3); [lia|]. destruct (Z.eqb_spec max_len 4); [lia|].
  destruct (Z.eqb_spec max_len 6); [lia|]. destruct (Z.eqb_spec max_len 10); [lia|].
  destruct (Z.leb_spec 3 max_len); [lia|]. destruct (Z.leb_spec 4 max_len); [lia|].
  destruct (Z.leb_spec 6 max_len); [lia|]. destruct (Z.leb_spec 10 max_len); [lia|]. reflexivity.
Qed.

Lemma delta_eq x max_len : 3 <= wanted max_len ->
  format_time_delta x max_len = td_format (snd (td_for (wanted max_len))) (fst (td_for (wanted max_len))) x false.
Proof.
  intros H. unfold format_time_delta. rewrite presets. cbn [bind]. unfold format_with. destruct max_len as [n|]; cbn [wanted] in *.
  - rewrite find_preset by assumption. destruct (td_for n). reflexivity.
  - reflexivity.
Qed.
Lemma td_for_in n : In (td_for n) [(3, td3); (4, td4); (6, td6); (10, td10)] /\ (3 <= n -> fst (td_for n) <= n).
Proof. unfold td_for. destruct (Z.leb_spec 10 n), (Z.leb_spec 6 n), (Z.leb_spec 4 n); cbn; split; auto; lia. Qed.

(** the reference tables describe the preset formatters *)
Lemma look_eq n : let '(k, f) := td_for n in let l := look_for n in
  lk_len l = k /\ lk_scale l = scale_of (td_units f) /\ lk_gap l = gap f /\ lk_plural l = plu f /\
  lk_too_large l = py_take k (td_overflow_msg f) /\ lk_signed l = td_allow_negative f.
Proof. unfold td_for, look_for. destruct (10 <=? n), (6 <=? n), (4 <=? n); vm_compute; repeat split; reflexivity. Qed.

Lemma raw_whole k f q : In (k, f) [(3, td3); (4, td4); (6, td6); (10, td10)] -> (1 <= Qabs q)%Q ->
  format_raw f (Some k) (Num q) =
  zloop f (Some k) (td_allow_negative f && Qlt_bool q 0) (td_units f) (Qfloor (Qabs q)) [].
Proof.
  intros H Q1. assert (G : good_config f).
  { apply good_presets. cbn in *. repeat destruct H as [[= <- <-]|H]; try contradiction; auto. }
  destruct G as [G T]. unfold format_raw. apply loop_whole; auto. right. destruct (td_units f); tauto.
Qed.

Lemma zloop_limit n f k lim neg : In (k, f, lim) [(3, td3, 100 * day); (4, td4, 100 * year); (6, td6, 100 * year); (10, td10, 1000 * year)] ->
  1 <= n ->
  (zloop f (Some k) neg (td_units f) n [] = Ok None <-> lim <= n).
Proof.
  intros H N. unfold year, day in *. cbn in H. repeat destruct H as [[= <- <- <-]|H]; try contradiction;
    cbn [td_units td3 td4 td6 td10];
    repeat unit_step; unfold overflow; cbn [Z.eqb]; (split; [intros E; try discriminate|intros E; first [reflexivity|exfalso; revert E]]).
  all: Z.to_euclidean_division_equations; lia.
Qed.
Lemma limit_in n : In (fst (td_for n), snd (td_for n), lk_limit (look_for n))
  [(3, td3, 100 * day); (4, td4, 100 * year); (6, td6, 100 * year); (10, td10, 1000 * year)].
Proof. unfold td_for, look_for. destruct (10 <=? n), (6 <=? n), (4 <=? n); cbn; auto. Qed.

Lemma floor_abs_ge q n : n <= Qfloor (Qabs q) <-> (inject_Z n <= Qabs q)%Q.
Proof. apply floor_le. Qed.

(** one whole second and more, below the limit *)
Lemma delta_says q max_len : 3 <= wanted max_len ->
  let l := look_for (wanted max_len) in
  (1 <= Qabs q < inject_Z (lk_limit l))%Q ->
  exists body lo hi,
    format_time_delta (Num q) max_len = Ok ((if lk_signed l && Qlt_bool q 0 then [45%N] else []) ++ body) /\
    Says (lk_scale l) (lk_plural l) (lk_gap l) body lo hi /\ (inject_Z lo <= Qabs q < inject_Z hi)%Q.
Proof.
  intros M l [Q1 QL]. pose proof (td_for_in (wanted max_len)) as [IN _]. pose proof (look_eq (wanted max_len)) as LE.
  pose proof (limit_in (wanted max_len)) as LI. fold l in LE, LI.
  rewrite (delta_eq (Num q) max_len) by assumption. destruct (td_for (wanted max_len)) as [k f]. cbn [fst snd] in *.
  destruct LE as (E1 & E2 & E3 & E4 & E5 & E6). unfold td_format.
  assert (N1 : 1 <= Qfloor (Qabs q)) by (apply floor_le; exact Q1).
  assert (NK : (td_allow_negative f && Qlt_bool q 0 = true -> f = td10)).
  { cbn in IN. repeat destruct IN as [[= <- <-]|IN]; try contradiction; auto; cbn; discriminate. }
  assert (K0 : k <> 0) by (cbn in IN; repeat destruct IN as [[= <- <-]|IN]; try contradiction; lia).
  pose proof (zloop_preset f k k _ _ IN K0 N1 NK) as W.
  pose proof (zloop_limit (Qfloor (Qabs q)) f k _ (td_allow_negative f && Qlt_bool q 0) LI N1) as ZL.
  assert (R := raw_whole k f q IN Q1). rewrite <- R in W, ZL.
  assert (G : good_config f).
  { apply good_presets. cbn in *. repeat destruct IN as [[= <- <-]|IN]; try contradiction; auto. }
  destruct (format_raw f (Some k) (Num q)) as [[s|]|e] eqn:E; cbn [within] in W; [| |contradiction].
  - destruct W as [_ NE]. destruct (says_main f (Some k) q s G Q1 E) as [->|(b & lo & hi & -> & S & B)]; [congruence|].
    exists b, lo, hi. rewrite E2, E3, E4, E6. auto.
  - destruct ZL as [ZL _]. specialize (ZL eq_refl). apply floor_le in ZL. exfalso. lra.
Qed.

Lemma delta_overflow q max_len : 3 <= wanted max_len ->
  let l := look_for (wanted max_len) in
  (inject_Z (lk_limit l) <= Qabs q)%Q ->
  format_time_delta (Num q) max_len = Ok (lk_too_large l).
Proof.
  intros M l QL. pose proof (td_for_in (wanted max_len)) as [IN _]. pose proof (look_eq (wanted max_len)) as LE.
  pose proof (limit_in (wanted max_len)) as LI. fold l in LE, LI.
  assert (L1 : 1 <= lk_limit l).
  { revert LI. unfold year, day. cbn. intuition (match goal with H : (_, _, _) = _ |- _ => inversion H end; lia). }
  rewrite (delta_eq (Num q) max_len) by assumption. destruct (td_for (wanted max_len)) as [k f]. cbn [fst snd] in *.
  destruct LE as (E1 & E2 & E3 & E4 & E5 & E6). unfold td_format.
  assert (N1 : lk_limit l <= Qfloor (Qabs q)) by (apply floor_le; exact QL).
  assert (Q1 : (1 <= Qabs q)%Q) by (change 1%Q with (inject_Z 1); apply floor_le; lia).
  rewrite (raw_whole k f q IN Q1).
  destruct (zloop_limit (Qfloor (Qabs q)) f k _ (td_allow_negative f && Qlt_bool q 0) LI) as [_ ->]; try lia.
  cbn [bind]. now rewrite E5.
Qed.

(** less than a second *)
Lemma delta_small q max_len : 3 <= wanted max_len ->
  let l := look_for (wanted max_len) in
  (Qabs q < 1)%Q ->
  format_time_delta (Num q) max_len =
    Ok (if lk_signed l && Qlt_bool q 0 then [126; 48]%N ++ lk_gap l ++ first_word l ++ lk_plural l
        else if Qle_bool (Qabs q) abs_tol then [48%N] ++ lk_gap l ++ first_word l ++ lk_plural l
        else [60; 49]%N ++ lk_gap l ++ first_word l).
Proof.
  intros M l Q1. rewrite (delta_eq (Num q) max_len) by assumption. subst l.
  assert (T : Qtrunc (Qabs q) =? 1 = false).
  { rewrite trunc_floor by apply Qabs_nonneg. apply Z.eqb_neq. apply floor_lt in Q1. lia. }
  assert (A : Qlt_bool (Qabs (Qabs q)) 1 = true).
  { destruct (Qlt_bool_spec (Qabs (Qabs q)) 1) as [|X]; auto. rewrite (Qabs_pos (Qabs q)) in X by apply Qabs_nonneg. contradiction. }
  assert (B : Qle_bool (Qabs (Qabs q)) abs_tol = Qle_bool (Qabs q) abs_tol).
  { destruct (Qle_bool_spec (Qabs (Qabs q)) abs_tol) as [X|X], (Qle_bool_spec (Qabs q) abs_tol) as [Y|Y]; auto; rewrite (Qabs_pos (Qabs q)) in X by apply Qabs_nonneg; contradiction. }
  unfold td_for, look_for. destruct (10 <=? wanted max_len), (6 <=? wanted max_len), (4 <=? wanted max_len);
    cbn [fst snd]; unfold td_format, format_raw;
    cbn [td_units td3 td4 td6 td10 format_loop u_overflow_after unit_ int_on u_name str_on td_plural td_separator u_custom_short
         td_allow_negative andb lk_signed look3 look4 look6 look10 lk_gap lk_plural first_word lk_scale scale3 scale4 scale6 scale10];
    rewrite ?T, ?A, ?B; cbn [bind]; destruct (Qlt_bool q 0), (Qle_bool (Qabs q) abs_tol); reflexivity.
Qed.

Lemma delta_fits q max_len : 3 <= wanted max_len ->
  exists s, format_time_delta (Num q) max_len = Ok s /\ s <> [] /\ zlen s <= wanted max_len.
Proof.
  intros M. destruct (Qlt_le_dec (Qabs q) 1) as [L|L].
  - rewrite delta_small by assumption. eexists. split; [reflexivity|].
    unfold look_for. destruct (Z.leb_spec 10 (wanted max_len)), (Z.leb_spec 6 (wanted max_len)), (Z.leb_spec 4 (wanted max_len));
      try lia; cbn [lk_signed look3 look4 look6 look10 andb];
      destruct (Qlt_bool q 0), (Qle_bool (Qabs q) abs_tol); (split; [discriminate|]); unfold zlen; cbn; lia.
  - rewrite delta_eq by assumption. pose proof (td_for_in (wanted max_len)) as [IN LE]. specialize (LE M).
    destruct (td_for (wanted max_len)) as [k f]. cbn [fst snd] in *. unfold td_format.
    assert (N1 : 1 <= Qfloor (Qabs q)) by (apply floor_le; exact L).
    assert (NK : (td_allow_negative f && Qlt_bool q 0 = true -> f = td10)).
    { cbn in IN. repeat destruct IN as [[= <- <-]|IN]; try contradiction; auto; cbn; discriminate. }
    assert (K0 : k <> 0 /\ zlen (py_take k (td_overflow_msg f)) <= k /\ py_take k (td_overflow_msg f) <> [])
      by (cbn in IN; repeat destruct IN as [[= <- <-]|IN]; try contradiction; (split; [lia|vm_compute; split; [intros|]; discriminate])).
    destruct K0 as (K0 & O1 & O2).
    pose proof (zloop_preset f k k _ _ IN K0 N1 NK) as W. rewrite <- (raw_whole k f q IN L) in W.
    destruct (format_raw f (Some k) (Num q)) as [[s|]|e]; cbn [within bind] in *; [| |contradiction].
    + exists s. destruct W as [W NE]. split; [reflexivity|]. split; [exact NE|]. unfold zlen.
      assert (0 < k) by (cbn in IN; repeat destruct IN as [[= <- <-]|IN]; try contradiction; lia). lia.
    + eexists. split; [reflexivity|]. split; [exact O2|lia].
Qed.

Lemma delta_short x n : n < 3 -> format_time_delta x (Some n) = Err ValueError.
Proof. intros H. unfold format_time_delta. rewrite presets. cbn [bind]. unfold format_with. now rewrite no_preset. Qed.
Lemma delta_special x max_len : 3 <= wanted max_len ->
  format_time_delta NaN max_len = Err ValueError /\ format_time_delta (Inf x) max_len = Err OverflowError.
Proof.
  intros H. rewrite !delta_eq by assumption. unfold td_for.
  destruct (10 <=? wanted max_len), (6 <=? wanted max_len), (4 <=? wanted max_len); split; reflexivity.
Qed.

(** The computed [max_len] of a formatter does not bound its output: units sec, min (shown as
    "min" when short), hour (always with minutes) *)
Definition odd_config : td_config :=
  mkTd [unit_ [115; 101; 99]%N (Some 60); mkUnit [109; 105; 110]%N (Some 60) (Some [109; 105; 110]%N) None None;
        mkUnit [104; 111; 117; 114]%N (Some 24) None (Some 24) None] true (Some [32%N]) (Some [115%N]) OVERFLOW_MSG.
Lemma max_len_exceeded : exists f n q s, good_config f /\ compute_max_len f = Ok n /\
  td_format f n (Num q) false = Ok s /\ n < zlen s.
Proof.
  exists odd_config, 9, (- inject_Z 86399)%Q. eexists. split; [|split; [vm_compute; reflexivity|split; [vm_compute; reflexivity|vm_compute; reflexivity]]].
  split; [|split; reflexivity]. repeat constructor; try discriminate; intros r E; inversion E; lia.
Qed.
