(** The parser's regular expression recognises exactly the tokens of the specification grammar *)
From Coq Require Import List Arith NArith ZArith Bool Lia.
From Verif.Model Require Import Base Regex Parser.
From Verif.Spec Require Import Utf8 Lexical.
From Verif.Proof Require Import BaseFacts RegexFacts.
Import ListNotations.
Local Open Scope N_scope.

(** * deciding membership in classes *)
Lemma in_cls_spec c b : in_cls c b = true <-> Exists (fun r => fst r <= b /\ b <= snd r) c.
Proof.
  unfold in_cls. rewrite existsb_exists, Exists_exists. split; intros (r & Hr & H); exists r; split; auto.
  - now rewrite andb_true_iff, !N.leb_le in H.
  - now rewrite andb_true_iff, !N.leb_le.
Qed.
Definition c_par : cls := [(0x30, 0x3F)].
Definition c_int : cls := [(0x20, 0x2F)].
Ltac exs := unfold c_par, c_int; repeat rewrite Exists_cons; repeat rewrite Exists_nil; cbn [fst snd].
Ltac exs_in H := unfold c_par, c_int in H; repeat rewrite Exists_cons in H; repeat rewrite Exists_nil in H; cbn [fst snd] in H.
Ltac cls_true := apply in_cls_spec; exs; lia.
Ltac cls_false := apply not_true_iff_false; rewrite in_cls_spec; exs; lia.
Ltac cls_inv H := apply in_cls_spec in H; exs_in H.

Lemma in_cls_false_inv c b : in_cls c b = false -> ~ Exists (fun r => fst r <= b /\ b <= snd r) c.
Proof. intros H K. apply in_cls_spec in K. congruence. Qed.

Lemma firstn_split {A} (s a b : list A) : s = a ++ b -> firstn (length s - length b) s = a.
Proof. intros ->. apply firstn_minus_app. Qed.

(** * single alternatives *)
Lemma match_plus n c b t :
  re_match (RGrp n (RPlus c)) (b :: t) =
  if in_cls c b then Some ([(n, takew (in_cls c) (b :: t))], dropw (in_cls c) (b :: t)) else None.
Proof.
  unfold re_match, RPlus. cbn [mt]. destruct (in_cls c b) eqn:E; [|reflexivity].
  rewrite (star_k_greedy c t _ ([(n, takew (in_cls c) (b :: t))], dropw (in_cls c) t)).
  - cbn [dropw]. now rewrite E.
  - do 3 f_equal. f_equal.
    apply firstn_split. cbn. rewrite E. cbn. now rewrite takew_dropw.
Qed.
Lemma match_chr n x b t :
  re_match (RGrp n (RChr x)) (b :: t) = if b =? x then Some ([(n, [b])], t) else None.
Proof.
  unfold re_match. cbn [mt RChr]. rewrite in_cls_single. destruct (b =? x); [|reflexivity].
  do 3 f_equal. f_equal. change (b :: t) with ([b] ++ t). apply firstn_minus_app.
Qed.


Lemma head_not_esc_csi b t : b <> 27 -> re_match RE_CSI (b :: t) = None.
Proof. intros H. unfold re_match, RE_CSI, rcats, fold_right. cbn [mt RChr]. rewrite in_cls_single. apply N.eqb_neq in H. now rewrite H. Qed.
Lemma head_not_esc_nf b t : b <> 27 -> re_match RE_NF (b :: t) = None.
Proof. intros H. unfold re_match, RE_NF, rcats, fold_right. cbn [mt RChr]. rewrite in_cls_single. apply N.eqb_neq in H. now rewrite H. Qed.
Lemma head_not_esc_fp b t : b <> 27 -> re_match RE_FP (b :: t) = None.
Proof. intros H. unfold re_match, RE_FP, rcats, fold_right. cbn [mt RChr]. rewrite in_cls_single. apply N.eqb_neq in H. now rewrite H. Qed.
Lemma head_not_esc_fe b t : b <> 27 -> re_match RE_FE (b :: t) = None.
Proof. intros H. unfold re_match, RE_FE, rcats, fold_right. cbn [mt RChr]. rewrite in_cls_single. apply N.eqb_neq in H. now rewrite H. Qed.
Lemma head_not_esc_fs b t : b <> 27 -> re_match RE_FS (b :: t) = None.
Proof. intros H. unfold re_match, RE_FS, rcats, fold_right. cbn [mt RChr]. rewrite in_cls_single. apply N.eqb_neq in H. now rewrite H. Qed.

(** two-byte escape sequences *)
Lemma match_fp t :
  re_match RE_FP (27 :: t) =
  match t with c :: r => if in_cls [(0x30, 0x3F)] c then Some ([(14%nat, [27; c]); (16%nat, [c]); (15%nat, [27])], r) else None
             | [] => None end.
Proof.
  unfold re_match, RE_FP, rcats, fold_right. cbn [mt RChr]. rewrite in_cls_single. change (27 =? 27) with true. cbn iota.
  destruct t as [|c r]; [reflexivity|]. destruct (in_cls _ c); [|reflexivity]. do 3 f_equal.
  - f_equal. change (27 :: c :: r) with ([27; c] ++ r). apply firstn_minus_app.
  - f_equal.
    + f_equal. change (c :: r) with ([c] ++ r). apply firstn_minus_app.
    + do 2 f_equal. change (27 :: c :: r) with ([27] ++ c :: r). apply firstn_minus_app.
Qed.
Lemma match_fe t :
  re_match RE_FE (27 :: t) =
  match t with c :: r => if in_cls [(0x40, 0x5F)] c then Some ([(17%nat, [27; c]); (19%nat, [c]); (18%nat, [27])], r) else None
             | [] => None end.
Proof.
  unfold re_match, RE_FE, rcats, fold_right. cbn [mt RChr]. rewrite in_cls_single. change (27 =? 27) with true. cbn iota.
  destruct t as [|c r]; [reflexivity|]. destruct (in_cls _ c); [|reflexivity]. do 3 f_equal.
  - f_equal. change (27 :: c :: r) with ([27; c] ++ r). apply firstn_minus_app.
  - f_equal.
    + f_equal. change (c :: r) with ([c] ++ r). apply firstn_minus_app.
    + do 2 f_equal. change (27 :: c :: r) with ([27] ++ c :: r). apply firstn_minus_app.
Qed.
Lemma match_fs t :
  re_match RE_FS (27 :: t) =
  match t with c :: r => if in_cls [(0x60, 0x7E)] c then Some ([(20%nat, [27; c]); (22%nat, [c]); (21%nat, [27])], r) else None
             | [] => None end.
Proof.
  unfold re_match, RE_FS, rcats, fold_right. cbn [mt RChr]. rewrite in_cls_single. change (27 =? 27) with true. cbn iota.
  destruct t as [|c r]; [reflexivity|]. destruct (in_cls _ c); [|reflexivity]. do 3 f_equal.
  - f_equal. change (27 :: c :: r) with ([27; c] ++ r). apply firstn_minus_app.
  - f_equal.
    + f_equal. change (c :: r) with ([c] ++ r). apply firstn_minus_app.
    + do 2 f_equal. change (27 :: c :: r) with ([27] ++ c :: r). apply firstn_minus_app.
Qed.

(** control sequences *)
Definition csi_caps (p i : bytes) (f : N) : caps :=
  [(3%nat, 27 :: 91 :: p ++ i ++ [f]); (8%nat, [f]); (7%nat, i); (6%nat, p); (5%nat, [91]); (4%nat, [27])].

Lemma match_csi t :
  re_match RE_CSI (27 :: t) =
  match t with
  | [] => None
  | c :: t0 =>
      if c =? 91 then
        let p := takew (in_cls c_par) t0 in
        let t1 := dropw (in_cls c_par) t0 in
        let i := takew (in_cls c_int) t1 in
        match dropw (in_cls c_int) t1 with
        | f :: r => if in_cls [(0x40, 0x7E)] f then Some (csi_caps p i f, r) else None
        | [] => None
        end
      else None
  end.
Proof.
  unfold re_match, RE_CSI, rcats, fold_right. cbn [mt RChr]. rewrite in_cls_single. change (27 =? 27) with true. cbn iota.
  destruct t as [|c t0]; [reflexivity|]. rewrite in_cls_single. destruct (c =? 91) eqn:Ec; [|reflexivity].
  apply N.eqb_eq in Ec. subst c. fold c_par. fold c_int.
  rewrite star_k_disjoint.
  2:{ intros b r Hb. cls_inv Hb. rewrite star_k_disjoint.
      - rewrite dropw_stop by cls_false. destruct (in_cls [(0x40, 0x7E)] b) eqn:E; [cls_inv E; lia|reflexivity].
      - intros b' r' Hb'. cls_inv Hb'. destruct (in_cls [(0x40, 0x7E)] b') eqn:E; [cls_inv E; lia|reflexivity]. }
  rewrite star_k_disjoint.
  2:{ intros b' r' Hb'. cls_inv Hb'. destruct (in_cls [(0x40, 0x7E)] b') eqn:E; [cls_inv E; lia|reflexivity]. }
  cbv zeta. set (t1 := dropw (in_cls c_par) t0). set (p := takew (in_cls c_par) t0).
  set (i := takew (in_cls c_int) t1).
  assert (Hp : t0 = p ++ t1) by (symmetry; apply takew_dropw).
  assert (Hi : t1 = i ++ dropw (in_cls c_int) t1) by (symmetry; apply takew_dropw).
  destruct (dropw (in_cls c_int) t1) as [|f r] eqn:E; [reflexivity|].
  destruct (in_cls [(0x40, 0x7E)] f); [|reflexivity].
  do 2 f_equal. unfold csi_caps. repeat f_equal.
  - apply firstn_split. rewrite Hp, Hi. cbn. now rewrite <- !app_assoc.
  - change (f :: r) with ([f] ++ r). apply firstn_minus_app.
  - now apply firstn_split.
  - now apply firstn_split.
  - change (91 :: t0) with ([91] ++ t0). apply firstn_minus_app.
  - change (27 :: 91 :: t0) with ([27] ++ 91 :: t0). apply firstn_minus_app.
Qed.

(** nF sequences *)
Definition nf_caps (i0 : N) (i : bytes) (f : N) : caps :=
  [(9%nat, 27 :: i0 :: i ++ [f]); (13%nat, [f]); (12%nat, i); (11%nat, [i0]); (10%nat, [27])].

Lemma match_nf t :
  re_match RE_NF (27 :: t) =
  match t with
  | [] => None
  | c :: t0 =>
      if in_cls c_int c then
        let i := takew (in_cls c_int) t0 in
        match dropw (in_cls c_int) t0 with
        | f :: r => if in_cls [(0x30, 0x7E)] f then Some (nf_caps c i f, r) else None
        | [] => None
        end
      else None
  end.
Proof.
  unfold re_match, RE_NF, rcats, fold_right. cbn [mt RChr]. rewrite in_cls_single. change (27 =? 27) with true. cbn iota.
  destruct t as [|c t0]; [reflexivity|]. fold c_int. destruct (in_cls c_int c) eqn:Ec; [|reflexivity].
  rewrite star_k_disjoint.
  2:{ intros b' r' Hb'. cls_inv Hb'. destruct (in_cls [(0x30, 0x7E)] b') eqn:E; [cls_inv E; lia|reflexivity]. }
  cbv zeta. set (i := takew (in_cls c_int) t0).
  assert (Hi : t0 = i ++ dropw (in_cls c_int) t0) by (symmetry; apply takew_dropw).
  destruct (dropw (in_cls c_int) t0) as [|f r] eqn:E; [reflexivity|].
  destruct (in_cls [(0x30, 0x7E)] f); [|reflexivity].
  do 2 f_equal. unfold nf_caps. repeat f_equal.
  - apply firstn_split. rewrite Hi. cbn. now rewrite <- !app_assoc.
  - change (f :: r) with ([f] ++ r). apply firstn_minus_app.
  - now apply firstn_split.
  - change (c :: t0) with ([c] ++ t0). apply firstn_minus_app.
  - change (27 :: c :: t0) with ([27] ++ c :: t0). apply firstn_minus_app.
Qed.

(** * UTF-8 *)
Ltac Zify.zify_post_hook ::= Z.to_euclidean_division_equations.
Lemma enc2 a b : 194 <= a <= 223 -> 128 <= b <= 191 ->
  [a; b] = utf8_encode ((a - 192) * 64 + (b - 128)).
Proof.
  intros Ha Hb. unfold utf8_encode.
  replace (_ <? 0x80) with false by (symmetry; apply N.ltb_ge; lia).
  replace (_ <? 0x800) with true by (symmetry; apply N.ltb_lt; lia).
  repeat f_equal; lia.
Qed.
Lemma enc3 a b c : 224 <= a <= 239 -> 128 <= b <= 191 -> 128 <= c <= 191 -> (a = 224 -> 160 <= b) ->
  [a; b; c] = utf8_encode ((a - 224) * 4096 + (b - 128) * 64 + (c - 128)).
Proof.
  intros Ha Hb Hc Hab. unfold utf8_encode.
  replace (_ <? 0x80) with false by (symmetry; apply N.ltb_ge; lia).
  replace (_ <? 0x800) with false by (symmetry; apply N.ltb_ge; lia).
  replace (_ <? 0x10000) with true by (symmetry; apply N.ltb_lt; lia).
  repeat f_equal; lia.
Qed.
Lemma enc4 a b c d : 240 <= a <= 244 -> 128 <= b <= 191 -> 128 <= c <= 191 -> 128 <= d <= 191 -> (a = 240 -> 144 <= b) ->
  [a; b; c; d] = utf8_encode ((a - 240) * 262144 + (b - 128) * 4096 + (c - 128) * 64 + (d - 128)).
Proof.
  intros Ha Hb Hc Hd Hab. unfold utf8_encode.
  replace (_ <? 0x80) with false by (symmetry; apply N.ltb_ge; lia).
  replace (_ <? 0x800) with false by (symmetry; apply N.ltb_ge; lia).
  replace (_ <? 0x10000) with false by (symmetry; apply N.ltb_ge; lia).
  repeat f_equal; lia.
Qed.
(** ranges of the bytes of an encoding *)
Lemma enc_shape cp : scalar cp -> 128 <= cp ->
  (exists a b, utf8_encode cp = [a; b] /\ 194 <= a <= 223 /\ 128 <= b <= 191 /\ cp < 0x800) \/
  (exists a b c, utf8_encode cp = [a; b; c] /\ 224 <= a <= 239 /\ 128 <= b <= 191 /\ 128 <= c <= 191 /\
     (a = 224 -> 160 <= b) /\ (a = 237 -> b <= 159) /\ 0x800 <= cp < 0x10000) \/
  (exists a b c d, utf8_encode cp = [a; b; c; d] /\ 240 <= a <= 244 /\ 128 <= b <= 191 /\ 128 <= c <= 191 /\ 128 <= d <= 191 /\
     (a = 240 -> 144 <= b) /\ (a = 244 -> b <= 143) /\ 0x10000 <= cp).
Proof.
  unfold scalar, utf8_encode. intros Hs H.
  replace (cp <? 0x80) with false by (symmetry; apply N.ltb_ge; lia).
  destruct (cp <? 0x800) eqn:E2; [apply N.ltb_lt in E2|apply N.ltb_ge in E2].
  - left. do 2 eexists. split; [reflexivity|]. lia.
  - right. destruct (cp <? 0x10000) eqn:E3; [apply N.ltb_lt in E3|apply N.ltb_ge in E3].
    + left. do 3 eexists. split; [reflexivity|]. lia.
    + right. do 4 eexists. split; [reflexivity|]. lia.
Qed.
Lemma utf8_encode_inj a b : scalar a -> scalar b -> 128 <= a -> 128 <= b -> utf8_encode a = utf8_encode b -> a = b.
Proof.
  unfold scalar, utf8_encode. intros Ha Hb Ha' Hb'.
  replace (a <? 0x80) with false by (symmetry; apply N.ltb_ge; lia).
  replace (b <? 0x80) with false by (symmetry; apply N.ltb_ge; lia).
  destruct (a <? 0x800) eqn:A2; [apply N.ltb_lt in A2|apply N.ltb_ge in A2];
  (destruct (b <? 0x800) eqn:B2; [apply N.ltb_lt in B2|apply N.ltb_ge in B2]); try discriminate.
  1: intros H; injection H; lia.
  all: (destruct (a <? 0x10000) eqn:A3; [apply N.ltb_lt in A3|apply N.ltb_ge in A3]); try discriminate;
       (destruct (b <? 0x10000) eqn:B3; [apply N.ltb_lt in B3|apply N.ltb_ge in B3]); try discriminate;
       intros H; injection H; lia.
Qed.
Ltac Zify.zify_post_hook ::= idtac.

(** a fixed sequence of classes *)
Fixpoint classes (l : list cls) (s : bytes) : option (bytes * bytes) :=
  match l with
  | [] => Some ([], s)
  | c :: l' => match s with
               | b :: t => if in_cls c b then option_map (fun p => (b :: fst p, snd p)) (classes l' t) else None
               | [] => None
               end
  end.
Lemma mt_classes {A} l s g (k : bytes -> caps -> option A) :
  mt (rcats (map RCls l)) s g k = match classes l s with Some (_, r) => k r g | None => None end.
Proof.
  revert s. induction l as [|c l IH]; intros s; [reflexivity|].
  cbn [map rcats fold_right mt classes]. destruct s as [|b t]; [reflexivity|].
  destruct (in_cls c b); [|reflexivity]. change (fold_right RCat REps (map RCls l)) with (rcats (map RCls l)).
  rewrite IH. destruct (classes l t) as [[w r]|]; reflexivity.
Qed.
Lemma classes_spec l s w r : classes l s = Some (w, r) <-> s = w ++ r /\ Forall2 (fun c b => in_cls c b = true) l w.
Proof.
  revert s w. induction l as [|c l IH]; intros s w; cbn [classes].
  - split.
    + intros H. injection H as <- <-. split; [reflexivity|constructor].
    + intros [-> H]. inversion H. reflexivity.
  - split.
    + destruct s as [|b t]; [discriminate|]. destruct (in_cls c b) eqn:E; [|discriminate].
      destruct (classes l t) as [[w' r']|] eqn:F; [|discriminate]. cbn. intros H. injection H as <- <-.
      apply IH in F as [-> F]. split; [reflexivity|]. now constructor.
    + intros [-> H]. inversion H as [|c' b l' w' Hb Hw]; subst. cbn. rewrite Hb.
      replace (classes l (w' ++ r)) with (Some (w', r)); [reflexivity|]. symmetry. apply IH. auto.
Qed.
Lemma match_classes n l s :
  re_match (RGrp n (rcats (map RCls l))) s = match classes l s with Some (w, r) => Some ([(n, w)], r) | None => None end.
Proof.
  unfold re_match. cbn [mt]. rewrite mt_classes. destruct (classes l s) as [[w r]|] eqn:E; [|reflexivity].
  apply classes_spec in E as [-> _]. do 4 f_equal. apply firstn_minus_app.
Qed.
Fixpoint first_classes (ll : list (list cls)) (s : bytes) : option (bytes * bytes) :=
  match ll with
  | [] => None
  | l :: ll' => match classes l s with Some x => Some x | None => first_classes ll' s end
  end.
Definition cc : cls := [(0x80, 0xBF)].
Definition utf8_classes : list (list cls) :=
  [ [[(0xC2, 0xDF)]; cc]; [[(0xE0, 0xE0)]; [(0xA0, 0xBF)]; cc]; [[(0xE1, 0xEC); (0xEE, 0xEE); (0xEF, 0xEF)]; cc; cc];
    [[(0xED, 0xED)]; [(0x80, 0x9F)]; cc]; [[(0xF0, 0xF0)]; [(0x90, 0xBF)]; cc; cc];
    [[(0xF1, 0xF3)]; cc; cc; cc]; [[(0xF4, 0xF4)]; [(0x80, 0x8F)]; cc; cc] ].
Lemma match_utf8 s :
  re_match (RGrp 1 RE_UTF8) s = match first_classes utf8_classes s with Some (w, r) => Some ([(1%nat, w)], r) | None => None end.
Proof.
  assert (Alt : forall n a b s, re_match (RGrp n (RAlt a b)) s = match re_match (RGrp n a) s with Some x => Some x | None => re_match (RGrp n b) s end) by reflexivity.
  assert (E : RE_UTF8 = (let u i := rcats (map RCls (nth i utf8_classes [])) in
     RAlt (u 0) (RAlt (u 1) (RAlt (u 2) (RAlt (u 3) (RAlt (u 4) (RAlt (u 5) (u 6)))))))%nat) by reflexivity.
  rewrite E. cbv zeta. rewrite !Alt, !match_classes. unfold utf8_classes. cbn [first_classes nth].
  repeat match goal with |- context [classes ?l s] => destruct (classes l s) as [[? ?]|]; try reflexivity end.
Qed.
Lemma first_classes_spec ll s x : first_classes ll s = Some x -> exists l, In l ll /\ classes l s = Some x.
Proof.
  induction ll as [|l ll IH]; [discriminate|]. cbn. destruct (classes l s) eqn:E.
  - intros H. injection H as <-. exists l. auto.
  - intros H. destruct (IH H) as (l' & ? & ?). exists l'. auto.
Qed.

(** the first alternative matches exactly the encodings of non-ASCII scalar values *)
Lemma utf8_alt_complete s w r :
  first_classes utf8_classes s = Some (w, r) -> exists cp, scalar cp /\ 128 <= cp /\ s = w ++ r /\ w = utf8_encode cp.
Proof.
  intros H. apply first_classes_spec in H as (l & Hl & H). apply classes_spec in H as [-> H].
  unfold utf8_classes, cc in Hl. cbn [In] in Hl.
  repeat match type of Hl with _ \/ _ => destruct Hl as [Hl|Hl] end; try easy; subst l;
  repeat match goal with
  | H : Forall2 _ (_ :: _) _ |- _ => inversion H; clear H; subst
  | H : Forall2 _ [] _ |- _ => inversion H; clear H; subst
  | C : in_cls _ _ = true |- _ => cls_inv C
  end.
  all: eexists; (split; [|split; [|split; [reflexivity|]]]);
    [ | | first [apply enc4; lia | apply enc3; lia | apply enc2; lia ] ]; unfold scalar; lia.
Qed.
Lemma first_classes_here ll l s x : In l ll -> classes l s = Some x -> exists y, first_classes ll s = Some y.
Proof.
  induction ll as [|l' ll IH]; [easy|]. cbn. intros [->|Hl] H.
  - rewrite H. eauto.
  - destruct (classes l' s); eauto.
Qed.

(** encodings are prefix free *)
Lemma utf8_prefix_free a b r r' : scalar a -> scalar b -> 128 <= a -> 128 <= b ->
  utf8_encode a ++ r = utf8_encode b ++ r' -> a = b.
Proof.
  intros Ha Hb Ha' Hb' H. apply utf8_encode_inj; auto.
  destruct (enc_shape a Ha Ha') as [(x1 & x2 & E & ?)|[(x1 & x2 & x3 & E & ?)|(x1 & x2 & x3 & x4 & E & ?)]]; rewrite E in *;
  destruct (enc_shape b Hb Hb') as [(y1 & y2 & F & ?)|[(y1 & y2 & y3 & F & ?)|(y1 & y2 & y3 & y4 & F & ?)]]; rewrite F in *;
  cbn [app] in H; try (exfalso; assert (x1 = y1) by congruence; lia); congruence.
Qed.

Lemma utf8_first cp r : scalar cp -> 128 <= cp ->
  first_classes utf8_classes (utf8_encode cp ++ r) = Some (utf8_encode cp, r).
Proof.
  intros Hs Hc.
  assert (exists l, In l utf8_classes /\ Forall2 (fun c b => in_cls c b = true) l (utf8_encode cp)) as (l & Hl & HF).
  { destruct (enc_shape cp Hs Hc) as [(x1 & x2 & E & ?)|[(x1 & x2 & x3 & E & ?)|(x1 & x2 & x3 & x4 & E & ?)]]; rewrite E.
    - eexists. split; [left; reflexivity|]. unfold cc. repeat constructor; cls_true.
    - destruct (N.eq_dec x1 224); [|destruct (N.eq_dec x1 237)].
      + eexists. split; [right; left; reflexivity|]. unfold cc. repeat constructor; cls_true.
      + eexists. split; [do 3 right; left; reflexivity|]. unfold cc. repeat constructor; cls_true.
      + eexists. split; [do 2 right; left; reflexivity|]. unfold cc. repeat constructor; cls_true.
    - destruct (N.eq_dec x1 240); [|destruct (N.eq_dec x1 244)].
      + eexists. split; [do 4 right; left; reflexivity|]. unfold cc. repeat constructor; cls_true.
      + eexists. split; [do 6 right; left; reflexivity|]. unfold cc. repeat constructor; cls_true.
      + eexists. split; [do 5 right; left; reflexivity|]. unfold cc. repeat constructor; cls_true. }
  assert (C : classes l (utf8_encode cp ++ r) = Some (utf8_encode cp, r)) by (apply classes_spec; auto).
  destruct (first_classes_here _ _ _ _ Hl C) as [[w r'] E]. rewrite E.
  apply utf8_alt_complete in E as (cp' & Hs' & Hc' & E & ->).
  assert (cp = cp') by (eapply utf8_prefix_free; eauto). subst cp'. apply app_inv_head in E. now subst.
Qed.
Lemma utf8_none s : (forall cp r, scalar cp -> 128 <= cp -> s <> utf8_encode cp ++ r) -> first_classes utf8_classes s = None.
Proof.
  intros H. destruct (first_classes utf8_classes s) as [[w r]|] eqn:E; [|reflexivity].
  apply utf8_alt_complete in E as (cp & Hs & Hc & E & ->). destruct (H cp r Hs Hc E).
Qed.
Lemma utf8_high cp : scalar cp -> 128 <= cp -> Forall high (utf8_encode cp).
Proof.
  intros Hs Hc. unfold high, rng.
  destruct (enc_shape cp Hs Hc) as [(x1 & x2 & E & ?)|[(x1 & x2 & x3 & E & ?)|(x1 & x2 & x3 & x4 & E & ?)]]; rewrite E;
  repeat constructor; lia.
Qed.
Lemma utf8_low b t : b < 128 -> first_classes utf8_classes (b :: t) = None.
Proof.
  intros Hb. apply utf8_none. intros cp r Hs Hc H. pose proof (utf8_high cp Hs Hc) as F.
  destruct (utf8_encode cp) as [|x w] eqn:E.
  - destruct (enc_shape cp Hs Hc) as [(x1 & x2 & E' & ?)|[(x1 & x2 & x3 & E' & ?)|(x1 & x2 & x3 & x4 & E' & ?)]]; congruence.
  - injection H as -> _. inversion F; subst. unfold high, rng in *. lia.
Qed.

(** * the whole alternation *)
Definition orelse {A} (a b : option A) : option A := match a with Some x => Some x | None => b end.

Lemma fsep_alts s :
  re_match F_SEPARATOR s =
  orelse (re_match (RGrp 1 RE_UTF8) s)
  (orelse (re_match (RGrp 2 (RPlus [(0x80, 0xFF)])) s)
  (orelse (re_match RE_CSI s)
  (orelse (re_match RE_NF s)
  (orelse (re_match RE_FP s)
  (orelse (re_match RE_FE s)
  (orelse (re_match RE_FS s)
  (orelse (re_match (RGrp 23 (RPlus [(0x01, 0x07); (0x0E, 0x1A); (0x1C, 0x1F)])) s)
  (orelse (re_match (RGrp 24 (RPlus [(0x00, 0x00)])) s)
  (orelse (re_match (RGrp 25 (RPlus [(0x08, 0x08)])) s)
  (orelse (re_match (RGrp 26 (RChr 0x1B)) s)
  (orelse (re_match (RGrp 27 (RPlus [(0x7F, 0x7F)])) s)
  (orelse (re_match (RGrp 28 (RPlus [(0x09, 0x09)])) s)
  (orelse (re_match (RGrp 29 (RChr 0x0A)) s)
  (orelse (re_match (RGrp 30 (RPlus [(0x0B, 0x0B)])) s)
  (orelse (re_match (RGrp 31 (RPlus [(0x0C, 0x0C)])) s)
  (orelse (re_match (RGrp 32 (RPlus [(0x0D, 0x0D)])) s)
  (orelse (re_match (RGrp 33 (RPlus [(0x20, 0x20)])) s)
          (re_match (RGrp 34 (RPlus [(0x21, 0x7E)])) s)))))))))))))))))).
Proof. reflexivity. Qed.

(** a low byte other than ESC *)
Lemma fsep_low b t :
  b < 128 -> b <> 27 ->
  re_match F_SEPARATOR (b :: t) =
  let run n c (e : option (caps * bytes)) :=
    if in_cls c b then Some ([(n, takew (in_cls c) (b :: t))], dropw (in_cls c) (b :: t)) else e in
  run 23%nat [(0x01, 0x07); (0x0E, 0x1A); (0x1C, 0x1F)]
  (run 24%nat [(0x00, 0x00)] (run 25%nat [(0x08, 0x08)]
  (run 27%nat [(0x7F, 0x7F)] (run 28%nat [(0x09, 0x09)]
  (if b =? 10 then Some ([(29%nat, [b])], t) else
  (run 30%nat [(0x0B, 0x0B)] (run 31%nat [(0x0C, 0x0C)] (run 32%nat [(0x0D, 0x0D)] (run 33%nat [(0x20, 0x20)]
  (run 34%nat [(0x21, 0x7E)] None)))))))))).
Proof.
  intros H1 H2. rewrite fsep_alts, match_utf8, utf8_low by exact H1.
  rewrite head_not_esc_csi, head_not_esc_nf, head_not_esc_fp, head_not_esc_fe, head_not_esc_fs by exact H2.
  rewrite !match_plus, !match_chr.
  replace (in_cls [(0x80, 0xFF)] b) with false by (symmetry; cls_false).
  apply N.eqb_neq in H2. rewrite H2. cbv zeta. unfold orelse.
  repeat match goal with |- context [if ?x then _ else _] => destruct x; [reflexivity|] end. reflexivity.
Qed.

(** a high byte that does not start an encoding *)
Lemma fsep_high b t :
  128 <= b -> b < 256 -> (forall cp r, scalar cp -> 128 <= cp -> b :: t <> utf8_encode cp ++ r) ->
  re_match F_SEPARATOR (b :: t) =
  Some ([(2%nat, takew (in_cls [(0x80, 0xFF)]) (b :: t))], dropw (in_cls [(0x80, 0xFF)]) (b :: t)).
Proof.
  intros H1 H2 H3. rewrite fsep_alts, match_utf8, utf8_none by exact H3. cbn [orelse].
  rewrite match_plus. replace (in_cls [(0x80, 0xFF)] b) with true by (symmetry; cls_true). reflexivity.
Qed.

(** ESC *)
Lemma fsep_esc t :
  re_match F_SEPARATOR (27 :: t) =
  orelse (re_match RE_CSI (27 :: t))
  (orelse (re_match RE_NF (27 :: t))
  (orelse (re_match RE_FP (27 :: t))
  (orelse (re_match RE_FE (27 :: t))
  (orelse (re_match RE_FS (27 :: t)) (Some ([(26%nat, [27])], t)))))).
Proof.
  rewrite fsep_alts, match_utf8, utf8_low by reflexivity. cbn [orelse].
  rewrite !match_plus, !match_chr. reflexivity.
Qed.

(** * tokens *)
Definition mgroup_of (k : kind) : nat :=
  match k with
  | K_utf8 _ => 0 | K_binary => 1 | K_csi _ _ _ => 2 | K_nF => 8 | K_Fp => 13 | K_Fe => 16 | K_Fs => 19
  | K_escape => 25 | K_newline => 28
  | K_run R_control => 22 | K_run R_null => 23 | K_run R_backspace => 24 | K_run R_delete => 26
  | K_run R_tab => 27 | K_run R_vtab => 29 | K_run R_ff => 30 | K_run R_cr => 31 | K_run R_space => 32
  | K_run R_printable => 33
  end.

(** what the callback sees of a match *)
Definition view (k : kind) (w : bytes) (g : caps) : Prop :=
  primary_mgroup g = Some (mgroup_of k) /\ group (S (mgroup_of k)) g = Some w /\
  match k with K_csi p i f => group 6 g = Some p /\ group 8 g = Some [f] | _ => True end.

Definition run_class (k : run_kind) : cls :=
  match k with
  | R_control => [(0x01, 0x07); (0x0E, 0x1A); (0x1C, 0x1F)]
  | R_null => [(0x00, 0x00)]
  | R_backspace => [(0x08, 0x08)]
  | R_delete => [(0x7F, 0x7F)]
  | R_tab => [(0x09, 0x09)]
  | R_vtab => [(0x0B, 0x0B)]
  | R_ff => [(0x0C, 0x0C)]
  | R_cr => [(0x0D, 0x0D)]
  | R_space => [(0x20, 0x20)]
  | R_printable => [(0x21, 0x7E)]
  end.
Lemma run_class_spec k b : in_cls (run_class k) b = true <-> run_member k b.
Proof.
  rewrite in_cls_spec. destruct k; cbn [run_class run_member]; exs; unfold rng; lia.
Qed.
Lemma run_member_low k b : run_member k b -> b < 128 /\ b <> 27 /\ b <> 10.
Proof. destruct k; cbn [run_member]; unfold rng; lia. Qed.

Lemma span_run c (P : N -> Prop) w rest :
  (forall b, in_cls c b = true <-> P b) -> Forall P w -> ~ starts P rest ->
  takew (in_cls c) (w ++ rest) = w /\ dropw (in_cls c) (w ++ rest) = rest.
Proof.
  intros HP Hw Hr.
  assert (Forall (fun x => in_cls c x = true) w) by (eapply Forall_impl; [|exact Hw]; intros; now apply HP).
  rewrite takew_app_all, dropw_app_all by assumption.
  destruct rest as [|b t]; [cbn; now rewrite app_nil_r|].
  assert (in_cls c b = false).
  { apply not_true_iff_false. intros E. apply Hr. exists b, t. split; [reflexivity|]. now apply HP. }
  rewrite takew_stop, dropw_stop by assumption. now rewrite app_nil_r.
Qed.

Lemma high_class b : in_cls [(0x80, 0xFF)] b = true <-> high b.
Proof. rewrite in_cls_spec. exs. unfold high, rng. lia. Qed.

Lemma view_single k n w : n = S (mgroup_of k) -> w <> [] -> (match k with K_csi _ _ _ => False | _ => True end) -> view k w [(n, w)].
Proof.
  intros -> Hw Hk. unfold view. destruct w as [|b t]; [easy|].
  destruct k as [| | | | | | | | |r]; try easy; try (destruct r); repeat split; reflexivity.
Qed.

Lemma fsep_run k b t : run_member k b ->
  re_match F_SEPARATOR (b :: t) =
  Some ([(S (mgroup_of (K_run k)), takew (in_cls (run_class k)) (b :: t))], dropw (in_cls (run_class k)) (b :: t)).
Proof.
  intros Hb. destruct (run_member_low k b Hb) as (H1 & H2 & H3).
  rewrite fsep_low by assumption. cbv zeta. apply N.eqb_neq in H3 as H4. rewrite H4.
  destruct k; cbn [run_class mgroup_of]; unfold run_member, rng in Hb;
  repeat match goal with
  | |- context [if in_cls ?c b then _ else _] =>
      first [ replace (in_cls c b) with false by (symmetry; cls_false)
            | replace (in_cls c b) with true by (symmetry; cls_true) ]; cbn iota
  end; reflexivity.
Qed.

Lemma csi_span p i f rest : csi_tail p i f ->
  takew (in_cls c_par) (p ++ i ++ f :: rest) = p /\
  dropw (in_cls c_par) (p ++ i ++ f :: rest) = i ++ f :: rest /\
  takew (in_cls c_int) (i ++ f :: rest) = i /\
  dropw (in_cls c_int) (i ++ f :: rest) = f :: rest /\ in_cls [(0x40, 0x7E)] f = true.
Proof.
  intros (Hp & Hi & Hf). unfold rng in *.
  destruct (span_run c_par (rng 48 63) p (i ++ f :: rest)) as [E1 E2].
  - intros b. rewrite in_cls_spec. exs. unfold rng. lia.
  - exact Hp.
  - intros (b & t & E & Hb). unfold rng in Hb. destruct i as [|x i].
    + cbn in E. injection E as -> _. lia.
    + cbn in E. injection E as -> _. inversion Hi; subst. lia.
  - destruct (span_run c_int (rng 32 47) i (f :: rest)) as [E3 E4].
    + intros b. rewrite in_cls_spec. exs. unfold rng. lia.
    + exact Hi.
    + intros (b & t & E & Hb). injection E as -> _. unfold rng in Hb. lia.
    + repeat split; auto. cls_true.
Qed.
Lemma csi_none rest : (forall p i f r, csi_tail p i f -> rest <> p ++ i ++ f :: r) ->
  re_match RE_CSI (27 :: 91 :: rest) = None.
Proof.
  intros H. rewrite match_csi. change (91 =? 91) with true. cbv zeta iota.
  destruct (dropw (in_cls c_int) (dropw (in_cls c_par) rest)) as [|f r] eqn:E; [reflexivity|].
  destruct (in_cls [(0x40, 0x7E)] f) eqn:F; [|reflexivity].
  destruct (H (takew (in_cls c_par) rest) (takew (in_cls c_int) (dropw (in_cls c_par) rest)) f r).
  - repeat split.
    + eapply Forall_impl; [|apply takew_forall]. cbn beta. intros b Hb. cls_inv Hb. unfold rng. lia.
    + eapply Forall_impl; [|apply takew_forall]. cbn beta. intros b Hb. cls_inv Hb. unfold rng. lia.
    + cls_inv F. lia.
    + cls_inv F. lia.
  - rewrite <- E, takew_dropw, takew_dropw. reflexivity.
Qed.
Lemma nf_none rest : (forall i f r, nf_tail i f -> rest <> i ++ f :: r) -> re_match RE_NF (27 :: rest) = None.
Proof.
  intros H. rewrite match_nf. destruct rest as [|c t0]; [reflexivity|].
  destruct (in_cls c_int c) eqn:C; [|reflexivity]. cbv zeta.
  destruct (dropw (in_cls c_int) t0) as [|f r] eqn:E; [reflexivity|].
  destruct (in_cls [(0x30, 0x7E)] f) eqn:F; [|reflexivity].
  destruct (H (c :: takew (in_cls c_int) t0) f r).
  - cls_inv C. split; [easy|]. split.
    + constructor; [unfold rng; lia|]. eapply Forall_impl; [|apply takew_forall]. cbn beta. intros b Hb. cls_inv Hb. unfold rng. lia.
    + cls_inv F. unfold rng. lia.
  - cbn. f_equal. rewrite <- E. now rewrite takew_dropw.
Qed.

Lemma token_match k w rest : is_bytes (w ++ rest) -> Token k w rest ->
  exists g, re_match F_SEPARATOR (w ++ rest) = Some (g, rest) /\ view k w g.
Proof.
  intros Hb HT.
  destruct HT as [cp rest Hs Hc|w rest Hw Hh Hr Hu|p i f rest Hc|i f rest Hn|c rest Hc|c rest Hc Hn|c rest Hc|rest Hr Hn|rest|k w rest Hw Hm Hr].
  - exists [(1%nat, utf8_encode cp)]. split.
    + rewrite fsep_alts, match_utf8, utf8_first by assumption. reflexivity.
    + apply view_single; auto.
      destruct (enc_shape cp Hs Hc) as [(x1 & x2 & E' & ?)|[(x1 & x2 & x3 & E' & ?)|(x1 & x2 & x3 & x4 & E' & ?)]]; rewrite E'; easy.
  - destruct (span_run [(0x80, 0xFF)] high w rest high_class Hh Hr) as [E1 E2].
    exists [(2%nat, w)]. split; [|apply view_single; auto].
    destruct w as [|b t]; [easy|]. cbn [app] in *. rewrite fsep_high.
    + now rewrite E1, E2.
    + inversion Hh; subst. unfold high, rng in *. lia.
    + inversion Hb; subst. assumption.
    + exact Hu.
  - exists (csi_caps p i f). split.
    + cbn [app]. rewrite <- !app_assoc. rewrite fsep_esc, match_csi. change (91 =? 91) with true. cbv zeta iota.
      destruct (csi_span p i f rest Hc) as (E1 & E2 & E3 & E4 & E5).
      cbn [app]. rewrite E1, E2, E3, E4, E5. reflexivity.
    + repeat split; reflexivity.
  - destruct Hn as (Hi0 & Hi & Hf). destruct i as [|i0 i]; [easy|]. exists (nf_caps i0 i f). split.
    + inversion Hi as [|x y Hx Hy]; subst.
      cbn [app]. rewrite <- app_assoc. rewrite fsep_esc, match_csi, match_nf.
      unfold rng in Hx, Hf.
      replace (i0 =? 91) with false by (symmetry; apply N.eqb_neq; lia).
      replace (in_cls c_int i0) with true by (symmetry; cls_true). cbv zeta. cbn [orelse app].
      destruct (span_run c_int (rng 32 47) i (f :: rest)) as [E3 E4].
      * intros b. rewrite in_cls_spec. exs. unfold rng. lia.
      * exact Hy.
      * intros (b & t & E & HH). injection E as -> _. unfold rng in HH. lia.
      * rewrite E3, E4. replace (in_cls [(0x30, 0x7E)] f) with true by (symmetry; cls_true). reflexivity.
    + repeat split; reflexivity.
  - unfold rng in Hc. exists [(14%nat, [27; c]); (16%nat, [c]); (15%nat, [27])]. split.
    + cbn [app]. rewrite fsep_esc, match_csi, match_nf, match_fp.
      replace (c =? 91) with false by (symmetry; apply N.eqb_neq; lia).
      replace (in_cls c_int c) with false by (symmetry; cls_false).
      replace (in_cls [(0x30, 0x3F)] c) with true by (symmetry; cls_true). reflexivity.
    + repeat split; reflexivity.
  - unfold rng in Hc. exists [(17%nat, [27; c]); (19%nat, [c]); (18%nat, [27])]. split.
    + cbn [app]. rewrite fsep_esc.
      replace (re_match RE_CSI (27 :: c :: rest)) with (@None (caps * bytes)).
      2:{ symmetry. destruct (N.eq_dec c 91) as [->|H]; [now apply csi_none, Hn|]. rewrite match_csi. apply N.eqb_neq in H. now rewrite H. }
      rewrite match_nf, match_fp, match_fe.
      replace (in_cls c_int c) with false by (symmetry; cls_false).
      replace (in_cls [(0x30, 0x3F)] c) with false by (symmetry; cls_false).
      replace (in_cls [(0x40, 0x5F)] c) with true by (symmetry; cls_true). reflexivity.
    + repeat split; reflexivity.
  - unfold rng in Hc. exists [(20%nat, [27; c]); (22%nat, [c]); (21%nat, [27])]. split.
    + cbn [app]. rewrite fsep_esc, match_csi, match_nf, match_fp, match_fe, match_fs.
      replace (c =? 91) with false by (symmetry; apply N.eqb_neq; lia).
      replace (in_cls c_int c) with false by (symmetry; cls_false).
      replace (in_cls [(0x30, 0x3F)] c) with false by (symmetry; cls_false).
      replace (in_cls [(0x40, 0x5F)] c) with false by (symmetry; cls_false).
      replace (in_cls [(0x60, 0x7E)] c) with true by (symmetry; cls_true). reflexivity.
    + repeat split; reflexivity.
  - exists [(26%nat, [27])]. split; [|apply view_single; auto; easy].
    cbn [app]. rewrite fsep_esc, nf_none by exact Hn.
    rewrite match_csi, match_fp, match_fe, match_fs. destruct rest as [|c t]; [reflexivity|].
    assert (~ (48 <= c /\ c <= 126)). { intros K. apply Hr. exists c, t. auto. }
    replace (c =? 91) with false by (symmetry; apply N.eqb_neq; lia).
    replace (in_cls [(0x30, 0x3F)] c) with false by (symmetry; cls_false).
    replace (in_cls [(0x40, 0x5F)] c) with false by (symmetry; cls_false).
    replace (in_cls [(0x60, 0x7E)] c) with false by (symmetry; cls_false). reflexivity.
  - exists [(29%nat, [10])]. split; [|apply view_single; auto; easy].
    cbn [app]. rewrite fsep_low by (reflexivity || lia). reflexivity.
  - exists [(S (mgroup_of (K_run k)), w)]. split; [|apply view_single; auto].
    destruct (span_run (run_class k) (run_member k) w rest (run_class_spec k) Hm Hr) as [E1 E2].
    destruct w as [|b t]; [easy|]. cbn [app] in *. rewrite (fsep_run k).
    + now rewrite E1, E2.
    + now inversion Hm.
Qed.

(** every byte string has a first token *)
Lemma token_total s : is_bytes s -> s <> [] -> exists k w rest, s = w ++ rest /\ Token k w rest.
Proof.
  intros Hb Hs. destruct s as [|b t]; [easy|]. clear Hs.
  assert (b < 256) by now inversion Hb.
  destruct (N.lt_ge_cases b 128) as [Hlow|Hhigh].
  2:{ destruct (first_classes utf8_classes (b :: t)) as [[w r]|] eqn:E.
      - apply utf8_alt_complete in E as (cp & Hs & Hc & E & ->).
        exists (K_utf8 cp), (utf8_encode cp), r. split; [exact E|]. now constructor.
      - assert (Hu : forall cp r, scalar cp -> 128 <= cp -> b :: t <> utf8_encode cp ++ r).
        { intros cp r Hs Hc K. rewrite K in E. rewrite utf8_first in E by assumption. discriminate. }
        exists K_binary, (takew (in_cls [(0x80, 0xFF)]) (b :: t)), (dropw (in_cls [(0x80, 0xFF)]) (b :: t)).
        split; [now rewrite takew_dropw|]. constructor.
        + cbn. replace ((128 <=? b) && (b <=? 255) || false)%bool with true; [easy|].
          symmetry. rewrite orb_false_r. apply andb_true_iff. rewrite !N.leb_le. lia.
        + eapply Forall_impl; [|apply takew_forall]. cbn beta. intros x Hx. now apply high_class.
        + pose proof (dropw_head (in_cls [(0x80, 0xFF)]) (b :: t)) as D. intros (x & r & Er & Hx).
          rewrite Er in D. apply high_class in Hx. congruence.
        + rewrite takew_dropw. exact Hu. }
  destruct (N.eq_dec b 27) as [->|H27].
  { destruct (re_match RE_NF (27 :: t)) as [[g r]|] eqn:Enf.
    { rewrite match_nf in Enf. destruct t as [|c t0]; [discriminate|].
      destruct (in_cls c_int c) eqn:C; [|discriminate]. cbv zeta in Enf.
      destruct (dropw (in_cls c_int) t0) as [|f r'] eqn:E; [discriminate|].
      destruct (in_cls [(0x30, 0x7E)] f) eqn:F; [|discriminate].
      exists K_nF, (27 :: (c :: takew (in_cls c_int) t0) ++ [f]), r'. split.
      - cbn. rewrite <- app_assoc. cbn. rewrite <- E. now rewrite takew_dropw.
      - constructor. cls_inv C. cls_inv F. split; [easy|]. split; [|unfold rng; lia].
        constructor; [unfold rng; lia|]. eapply Forall_impl; [|apply takew_forall]. cbn beta. intros x Hx. cls_inv Hx. unfold rng. lia. }
    destruct t as [|c t0].
    { exists K_escape, [27], []. split; [reflexivity|]. constructor.
      - intros (x & r & E & _). discriminate.
      - intros i f r _ E. destruct i; discriminate. }
    destruct (N.lt_ge_cases c 48) as [C1|C1]; [|destruct (N.lt_ge_cases 126 c) as [C2|C2]].
    3:{ destruct (N.lt_ge_cases c 64) as [D1|D1]; [|destruct (N.lt_ge_cases c 96) as [D2|D2]].
        - exists K_Fp, [27; c], t0. split; [reflexivity|]. constructor. unfold rng; lia.
        - destruct (re_match RE_CSI (27 :: c :: t0)) as [[g r]|] eqn:Ec.
          + rewrite match_csi in Ec. destruct (c =? 91) eqn:C91; [|discriminate]. apply N.eqb_eq in C91. subst c.
            cbv zeta in Ec. destruct (dropw (in_cls c_int) (dropw (in_cls c_par) t0)) as [|f r'] eqn:E; [discriminate|].
            destruct (in_cls [(0x40, 0x7E)] f) eqn:F; [|discriminate].
            exists (K_csi (takew (in_cls c_par) t0) (takew (in_cls c_int) (dropw (in_cls c_par) t0)) f),
                   (27 :: 91 :: takew (in_cls c_par) t0 ++ takew (in_cls c_int) (dropw (in_cls c_par) t0) ++ [f]), r'.
            split.
            * cbn [app]. rewrite <- !app_assoc. cbn [app]. rewrite <- E. now rewrite !takew_dropw.
            * constructor. cls_inv F. repeat split; try (unfold rng; lia).
              -- eapply Forall_impl; [|apply takew_forall]. cbn beta. intros b Hx. cls_inv Hx. unfold rng. lia.
              -- eapply Forall_impl; [|apply takew_forall]. cbn beta. intros b Hx. cls_inv Hx. unfold rng. lia.
          + exists K_Fe, [27; c], t0. split; [reflexivity|]. constructor; [unfold rng; lia|].
            intros -> p i f r Ht E. rewrite match_csi in Ec. change (91 =? 91) with true in Ec. cbv zeta iota in Ec.
            destruct (csi_span p i f r Ht) as (E1 & E2 & E3 & E4 & E5).
            rewrite E, E2, E4, E5 in Ec. discriminate.
        - exists K_Fs, [27; c], t0. split; [reflexivity|]. constructor. unfold rng; lia. }
    all: exists K_escape, [27], (c :: t0); (split; [reflexivity|]); constructor;
      [ intros (x & r & E & Hx); injection E as -> _; unfold rng in Hx; lia |].
    all: intros i f r (Hi0 & Hi & Hf) E; destruct i as [|i0 i]; [easy|]; injection E as -> ->;
      inversion Hi as [|x y Hx Hy]; subst; unfold rng in *.
    - rewrite match_nf in Enf. replace (in_cls c_int i0) with true in Enf by (symmetry; cls_true). cbv zeta in Enf.
      destruct (span_run c_int (rng 32 47) i (f :: r)) as [E3 E4].
      + intros b. rewrite in_cls_spec. exs. unfold rng. lia.
      + exact Hy.
      + intros (b & t & E & HH). injection E as -> _. unfold rng in HH. lia.
      + rewrite E3, E4 in Enf. replace (in_cls [(0x30, 0x7E)] f) with true in Enf by (symmetry; cls_true). discriminate.
    - lia. }
  destruct (N.eq_dec b 10) as [->|H10].
  { exists K_newline, [10], t. split; [reflexivity|]. constructor. }
  assert (exists k, run_member k b) as [k Hk].
  { destruct (N.eq_dec b 0); [exists R_null; assumption|].
    destruct (N.eq_dec b 8); [exists R_backspace; assumption|].
    destruct (N.eq_dec b 127); [exists R_delete; assumption|].
    destruct (N.eq_dec b 9); [exists R_tab; assumption|].
    destruct (N.eq_dec b 11); [exists R_vtab; assumption|].
    destruct (N.eq_dec b 12); [exists R_ff; assumption|].
    destruct (N.eq_dec b 13); [exists R_cr; assumption|].
    destruct (N.eq_dec b 32); [exists R_space; assumption|].
    destruct (N.lt_ge_cases 32 b); [exists R_printable; cbn; unfold rng; lia|].
    exists R_control. cbn. unfold rng. lia. }
  exists (K_run k), (takew (in_cls (run_class k)) (b :: t)), (dropw (in_cls (run_class k)) (b :: t)).
  split; [now rewrite takew_dropw|]. constructor.
  - cbn. apply run_class_spec in Hk. now rewrite Hk.
  - eapply Forall_impl; [|apply takew_forall]. cbn beta. intros x Hx. now apply run_class_spec.
  - pose proof (dropw_head (in_cls (run_class k)) (b :: t)) as D. intros (x & r & Er & Hx).
    rewrite Er in D. apply run_class_spec in Hx. congruence.
Qed.

Lemma token_nonempty k w rest : Token k w rest -> w <> [].
Proof.
  intros H. destruct H; try easy.
  destruct (enc_shape cp H H0) as [(x1 & x2 & E' & ?)|[(x1 & x2 & x3 & E' & ?)|(x1 & x2 & x3 & x4 & E' & ?)]]; rewrite E'; easy.
Qed.

Lemma app_snoc_inv {A} (a b : list A) x y : a ++ [x] = b ++ [y] -> a = b /\ x = y.
Proof. intros H. apply app_inj_tail in H. exact H. Qed.

(** the grammar is deterministic: which text and kind comes next depends on the input only *)
Lemma token_det k w rest k' w' rest' :
  is_bytes (w ++ rest) -> Token k w rest -> Token k' w' rest' -> w ++ rest = w' ++ rest' ->
  k = k' /\ w = w' /\ rest = rest'.
Proof.
  intros Hb H H' E.
  destruct (token_match k w rest Hb H) as (g & M & V & G & X).
  rewrite E in Hb. destruct (token_match k' w' rest' Hb H') as (g' & M' & V' & G' & X').
  rewrite E, M' in M. injection M as <- <-. apply app_inv_tail in E. subst w'.
  repeat split. assert (Em : mgroup_of k = mgroup_of k') by congruence.
  destruct k as [cp| |p i f| | | | | | |r]; destruct k' as [cp'| |p' i' f'| | | | | | |r']; try discriminate Em; try reflexivity;
    try (destruct r; discriminate Em); try (destruct r'; discriminate Em).
  - f_equal. inversion H; inversion H'; subst. apply utf8_encode_inj; congruence.
  - destruct X as [X1 X2], X' as [Y1 Y2]. assert (p = p') by congruence. assert (f = f') by congruence. subst.
    f_equal. inversion H; inversion H'; subst.
    match goal with K : _ = _ |- i = i' => injection K end. intros K. apply app_inv_head in K. now apply app_snoc_inv in K.
  - destruct r; destruct r'; (reflexivity || discriminate Em).
Qed.

(** every byte string is segmented in exactly one way *)
Lemma is_bytes_app a b : is_bytes (a ++ b) <-> is_bytes a /\ is_bytes b.
Proof. apply Forall_app. Qed.

Lemma lexes_total s : is_bytes s -> exists ts, Lexes s ts.
Proof.
  remember (length s) as n eqn:En. assert (Hn : (length s <= n)%nat) by lia. clear En.
  revert s Hn. induction n as [|n IH]; intros s Hn Hb.
  - destruct s; [|cbn in Hn; lia]. exists []. constructor.
  - destruct s as [|b t]; [exists []; constructor|].
    destruct (token_total (b :: t) Hb ltac:(easy)) as (k & w & rest & E & HT).
    pose proof (token_nonempty _ _ _ HT) as Hw. rewrite E in *.
    apply is_bytes_app in Hb as [_ Hr].
    destruct (IH rest) as [ts Hts]; [|assumption|].
    + rewrite app_length in Hn. destruct w; [easy|]. cbn [length] in Hn. lia.
    + exists ((k, w) :: ts). now constructor.
Qed.
Lemma lexes_det s ts ts' : is_bytes s -> Lexes s ts -> Lexes s ts' -> ts = ts'.
Proof.
  intros Hb H. revert ts' Hb. induction H as [|k w rest ts HT H IH]; intros ts' Hb H'.
  - inversion H' as [|k w rest ts'' HT H'' E]; [reflexivity|].
    apply token_nonempty in HT. destruct w; [easy|discriminate].
  - inversion H' as [E|k' w' rest' ts'' HT' H'' E].
    + apply token_nonempty in HT. destruct w; [easy|discriminate].
    + destruct (token_det _ _ _ _ _ _ Hb HT HT' (eq_sym E)) as (<- & <- & <-). f_equal.
      apply IH; [|assumption]. now apply is_bytes_app in Hb.
Qed.
Lemma lexes_concat s ts : Lexes s ts -> s = concat (map snd ts).
Proof. induction 1 as [|k w rest ts HT H IH]; [reflexivity|]. cbn. now rewrite <- IH. Qed.

(** the scan of the program goes over these tokens *)
Definition tok_view (t : kind * bytes) (ev : sub_ev) : Prop :=
  exists g, ev = Matched g (snd t) /\ view (fst t) (snd t) g.
Lemma scan_tokens s ts : is_bytes s -> Lexes s ts -> Forall2 tok_view ts (re_scan F_SEPARATOR s).
Proof.
  intros Hb H. induction H as [|k w rest ts HT H IH].
  - constructor.
  - destruct (token_match k w rest Hb HT) as (g & M & V).
    rewrite (re_scan_match _ w rest g); [|eapply token_nonempty; eassumption|exact M].
    constructor; [exists g; auto|]. apply IH. now apply is_bytes_app in Hb.
Qed.
