(** The claims about texts of numbers *)
From Coq Require Import List Arith NArith ZArith QArith Qabs Qround Qpower Bool Lia Lqa.
From Verif.Model Require Import Base Color TimeDelta FloatText.
From Verif.Spec Require Import Numbers FloatText.
From Verif.Proof Require Import BaseFacts TokFacts BinClaims DurationFacts FloatFacts.
Import ListNotations.
Local Open Scope Z_scope.

Lemma exponent_len_eq e : zlen (zdec e) + 1 = exponent_len e.
Proof.
  unfold exponent_len, zdec, zlen. destruct (Z.ltb_spec e 0).
  - cbn [length]. unfold dec. rewrite map_length. replace (Z.abs e) with (- e) by lia. lia.
  - unfold dec. rewrite map_length. replace (Z.abs e) with e by lia. lia.
Qed.
Lemma exponent_len_pos e : 2 <= exponent_len e.
Proof. unfold exponent_len. pose proof (digits_nonempty 10 (Z.to_N (Z.abs e)) ltac:(lia)). destruct (digits _ _); [easy|]. cbn [length]. destruct (e <? 0); lia. Qed.
Lemma zlen_repeat (c : N) n : 0 <= n -> zlen (repeat c (Z.to_nat n)) = n.
Proof. intros H. unfold zlen. rewrite repeat_length. lia. Qed.

(** the number without its magnitude *)
Lemma significand a e : magnitude a e -> magnitude (a / p10 e) 0.
Proof.
  intros [A B]. unfold magnitude. change (p10 0) with 1%Q. change (p10 (0 + 1)) with 10%Q. pose proof (p10_pos e) as P. rewrite p10_S in B. split.
  - apply Qle_shift_div_l; [exact P|]. lra.
  - apply Qlt_shift_div_r; [exact P|]. lra.
Qed.
Lemma p10_opp_div a e : (a / p10 e * p10 e == a)%Q.
Proof. field. apply p10_nz. Qed.
Lemma log_is x e : (0 < x)%Q -> magnitude x e -> log10_floor x = e.
Proof. intros H M. exact (magnitude_unique _ _ _ (log_spec x H) M). Qed.

(** * Positive numbers *)
Lemma abs_lit v : (0 < v)%Q -> Qabs v = v.
Proof. intros Hv. destruct v as [p q]. unfold Qabs. f_equal. apply Z.abs_eq. unfold Qlt in Hv. cbn in Hv. lia. Qed.
Section Positive.
  Variables (v : Q) (e : Z).
  Hypothesis Hv : (0 < v)%Q.
  Hypothesis HM : magnitude v e.

  Lemma v_flags : Qlt_bool v 0 = false /\ Qeq_bool v 0 = false /\ (Qabs v == v)%Q.
  Proof.
    split; [destruct (Qlt_bool_spec v 0); [lra|reflexivity]|]. split; [destruct (Qeq_bool v 0) eqn:E; [apply Qeq_bool_iff in E; lra|reflexivity]|].
    apply Qabs_pos. lra.
  Qed.
  Lemma small_iff : (v < 1)%Q <-> e < 0.
  Proof.
    destruct HM as [A B]. split; intros H.
    - apply p10_lt_inv. change (p10 0) with 1%Q. lra.
    - pose proof (p10_le (e + 1) 0 ltac:(lia)) as P. change (p10 0) with 1%Q in P. lra.
  Qed.

  (** ** not allowing exponents *)
  Lemma no_exp_fits n : 1 <= n -> e < n ->
    exists s q, auto_float_no_exp v n = Ok s /\ numeral s q /\ (zlen s = n \/ zlen s = n + 1) /\
      (zlen s = n + 1 <-> 0 <= e /\ rounds_up v e (n - e - 2)) /\
      (int_digits e = n -> (Qabs (q - v) < 1)%Q) /\
      (int_digits e <> n -> (Qabs (q - v) <= (1 # 2) * p10 (- (n - int_digits e - 1)))%Q).
  Proof.
    intros Hn He. unfold auto_float_no_exp, float_head. destruct v_flags as (F1 & F2 & _). rewrite F1, F2, (abs_lit v Hv).
    destruct (Z.ltb_spec n (-1)); [lia|]. destruct (Z.eqb_spec n 0); [lia|].
    destruct (Qlt_bool_spec v 1) as [S|S]; cbn [andb].
    - apply small_iff in S. destruct (Z.eqb_spec n 1) as [->|N1].
      + exists [48%N], (inject_Z 0). split; [reflexivity|]. split; [apply (numeral_dec 1 0); lia|]. split; [left; reflexivity|].
        split; [change (zlen [48%N]) with 1; split; [lia|intros [K _]; lia]|]. apply small_iff in S. split.
        * intros _. change (inject_Z 0) with 0%Q. apply Qabs_Qlt_condition. split; lra.
        * intros K. unfold int_digits in K. apply small_iff in S. lia.
      + rewrite (log_is v e Hv HM). destruct (Z.ltb_spec (n - 1) e); [lia|].
        destruct (plain_spec [] v n e Hn He Hv HM) as (s & q & P & R). exists s, q. split; [exact P|exact R].
    - rewrite (log_is v e Hv HM). destruct (Z.ltb_spec (n - 1) e); [lia|].
      destruct (plain_spec [] v n e Hn He Hv HM) as (s & q & P & R). exists s, q. split; [exact P|exact R].
  Qed.
  Lemma no_exp_too_big n : 1 <= n -> n <= e -> auto_float_no_exp v n = Err ValueError.
  Proof.
    intros Hn He. unfold auto_float_no_exp, float_head. destruct v_flags as (F1 & F2 & _). rewrite F1, F2, (abs_lit v Hv).
    destruct (Z.ltb_spec n (-1)); [lia|]. destruct (Z.eqb_spec n 0); [lia|].
    destruct (Qlt_bool_spec v 1) as [S|S]; [apply small_iff in S; lia|]. cbn [andb]. rewrite (log_is v e Hv HM). destruct (Z.ltb_spec (n - 1) e); [reflexivity|lia].
  Qed.

  (** ** allowing exponents *)
  Lemma exp_plain n : 1 <= n -> e < n -> -2 <= e -> auto_float_exp v n = auto_float_no_exp v n.
  Proof.
    intros Hn He H2. unfold auto_float_exp, auto_float_no_exp, float_head. rewrite (abs_lit v Hv), (log_is v e Hv HM).
    destruct v_flags as (F1 & F2 & _). rewrite F1, F2.
    destruct (n <? -1); [reflexivity|]. destruct (n =? 0); [reflexivity|]. destruct (Qlt_bool v 1 && (n =? 1)); [reflexivity|].
    destruct (Z.ltb_spec e (-2)); [lia|]. destruct (Z.ltb_spec (n - 1) e); [lia|]. reflexivity.
  Qed.
  Definition exp_body (n : Z) : result str :=
    if n <? exponent_len e then Ok (repeat 33%N (Z.to_nat n))
    else match auto_float_no_exp (v / p10 e) (n - exponent_len e) with
         | Ok s => Ok (s ++ [101%N] ++ zdec e)
         | Err ValueError => Ok (wide n ([101%N] ++ zdec e))
         | Err x => Err x
         end.
  Lemma exp_eq n : 1 <= n -> ~ (n = 1 /\ e < 0) -> (e < -2 \/ n <= e) -> auto_float_exp v n = exp_body n.
  Proof.
    intros Hn Hs He. unfold auto_float_exp, float_head, exp_body. destruct v_flags as (F1 & F2 & _). rewrite F1, F2, (abs_lit v Hv), (log_is v e Hv HM).
    destruct (Z.ltb_spec n (-1)); [lia|]. destruct (Z.eqb_spec n 0); [lia|].
    replace (Qlt_bool v 1 && (n =? 1)) with false.
    - replace ((e <? -2) || (n - 1 <? e)) with true; [|symmetry; apply orb_true_iff; rewrite !Z.ltb_lt; lia].
      rewrite exponent_len_eq. reflexivity.
    - symmetry. apply andb_false_iff. destruct (Qlt_bool_spec v 1) as [S|S]; [|now left]. apply small_iff in S. right. apply Z.eqb_neq. lia.
  Qed.
End Positive.

Lemma div_pos v e : (0 < v)%Q -> (0 < v / p10 e)%Q.
Proof. intros H. apply Qlt_shift_div_l; [apply p10_pos|]. lra. Qed.

Lemma exp_spec v e n : (0 < v)%Q -> magnitude v e -> 1 <= n -> ~ (n = 1 /\ e < 0) -> (e < -2 \/ n <= e) ->
  exists s, auto_float_exp v n = Ok s /\ (zlen s = n \/ zlen s = n + 1) /\ (zlen s = n + 1 <-> rounds_up (v / p10 e) 0 (n - exponent_len e - 2)) /\
   (n < exponent_len e -> s = repeat 33%N (Z.to_nat n)) /\
   (n = exponent_len e -> s = [101%N] ++ zdec e) /\
   (exponent_len e < n -> exists q, read_float s = Some q /\
      (n = exponent_len e + 1 -> (Qabs (q - v) < p10 e)%Q) /\
      (n <> exponent_len e + 1 -> (Qabs (q - v) <= (1 # 2) * p10 (e - (n - exponent_len e - 2)))%Q)).
Proof.
  intros Hv HM Hn Hs He. rewrite (exp_eq v e Hv HM n Hn Hs He). unfold exp_body. pose proof (exponent_len_pos e) as XL.
  destruct (Z.ltb_spec n (exponent_len e)) as [L|L].
  { exists (repeat 33%N (Z.to_nat n)). split; [reflexivity|]. rewrite zlen_repeat by lia. split; [now left|]. split; [unfold rounds_up; lia|].
    split; [reflexivity|]. split; [lia|lia]. }
  assert (ZL : zlen ([101%N] ++ zdec e) = exponent_len e). { rewrite zlen_app, <- exponent_len_eq. change (zlen [101%N]) with 1. lia. }
  destruct (Z.eq_dec n (exponent_len e)) as [E|N].
  { subst n. rewrite Z.sub_diag. assert (Z0 : auto_float_no_exp (v / p10 e) 0 = Ok []).
    { unfold auto_float_no_exp, float_head. replace (Qlt_bool (v / p10 e) 0) with false; [reflexivity|].
      symmetry. destruct (Qlt_bool_spec (v / p10 e) 0) as [K|K]; [|reflexivity]. pose proof (div_pos v e Hv). lra. }
    rewrite Z0. exists ([101%N] ++ zdec e). split; [reflexivity|]. split; [left; exact ZL|]. split; [rewrite ZL; unfold rounds_up; lia|].
    split; [lia|]. split; [reflexivity|lia]. }
  set (m := n - exponent_len e). assert (Hm : 1 <= m) by (unfold m; lia).
  destruct (no_exp_fits (v / p10 e) 0 (div_pos v e Hv) (significand v e HM) m Hm ltac:(lia)) as (s & q & R & NU & LN & UP & T1 & T2).
  rewrite R. exists (s ++ [101%N] ++ zdec e). split; [reflexivity|]. rewrite zlen_app, ZL. split; [unfold m in *; lia|].
  split.
  { assert (EM : m - 2 = m - 0 - 2) by lia. rewrite EM. split.
    - intros K. assert (K1 : zlen s = m + 1) by (unfold m; lia). apply UP in K1. apply K1.
    - intros K. assert (zlen s = m + 1) by (apply UP; split; [lia|exact K]). unfold m in *. lia. }
  split; [lia|]. split; [lia|]. intros _. destruct (numeral_exp s q e NU) as (q' & RD & QE). exists q'. split; [exact RD|].
  pose proof (p10_pos e) as P.
  assert (D : (Qabs (q' - v) == Qabs (q - v / p10 e) * p10 e)%Q).
  { transitivity (Qabs ((q - v / p10 e) * p10 e)); [apply Qabs_wd|rewrite Qabs_Qmult, (Qabs_pos (p10 e)) by lra; reflexivity].
    rewrite QE. transitivity (q * p10 e - v / p10 e * p10 e)%Q; [rewrite p10_opp_div; reflexivity|ring]. }
  split; intros K; rewrite D.
  - specialize (T1 ltac:(unfold int_digits, m; lia)). apply (Qmult_lt_r _ _ (p10 e) P) in T1. lra.
  - specialize (T2 ltac:(unfold int_digits, m; lia)). apply (Qmult_le_r _ _ (p10 e) P) in T2.
    replace (e - (m - 2)) with (- (m - int_digits 0 - 1) + e) by (unfold m, int_digits; lia). rewrite p10_plus. lra.
Qed.

(** * Signs *)
Definition signed (v : Q) (s : str) : str := if Qlt_bool v 0 then (match s with 33%N :: _ => 33%N | _ => 45%N end) :: s else s.
Lemma plain_sign sign a n e : plain_float sign a n e = bind (plain_float [] a n e) (fun s => Ok (sign ++ s)).
Proof. unfold plain_float. destruct (_ =? n); [reflexivity|]. destruct (_ <? 0); reflexivity. Qed.
Lemma abs_neg v : (v < 0)%Q -> (0 < Qabs v)%Q.
Proof. intros H. rewrite Qabs_neg by lra. lra. Qed.
Lemma neg_flags v : (v < 0)%Q -> Qlt_bool v 0 = true /\ Qeq_bool v 0 = false /\ Qlt_bool (Qabs v) 0 = false /\ Qeq_bool (Qabs v) 0 = false /\ Qabs (Qabs v) = Qabs v.
Proof.
  intros H. pose proof (abs_neg v H) as A. split; [destruct (Qlt_bool_spec v 0); [reflexivity|lra]|].
  split; [destruct (Qeq_bool v 0) eqn:E; [apply Qeq_bool_iff in E; lra|reflexivity]|].
  split; [destruct (Qlt_bool_spec (Qabs v) 0); [lra|reflexivity]|].
  split; [destruct (Qeq_bool (Qabs v) 0) eqn:E; [apply Qeq_bool_iff in E; lra|reflexivity]|].
  exact (abs_lit (Qabs v) A).
Qed.
Lemma numeral_head s q : numeral s q -> match s with 33%N :: _ => False | [] => False | _ => True end.
Proof.
  intros (k & t & q' & -> & (c & u & -> & Hc) & _). destruct k; [|exact I]. cbn [repeat app]. destruct Hc as [H1 H2].
  assert (c <> 33%N) by lia. clear - H. destruct c as [|p]; [exact I|]. do 6 (try (destruct p as [p|p|]; try exact I)). now contradiction H.
Qed.
Lemma signed_numeral v s q : (v < 0)%Q -> numeral s q -> signed v s = 45%N :: s.
Proof.
  intros H N. unfold signed. destruct (neg_flags v H) as (-> & _). pose proof (numeral_head s q N) as K. destruct s as [|c s]; [easy|].
  destruct c as [|p]; [reflexivity|]. do 6 (try (destruct p as [p|p|]; try reflexivity)). easy.
Qed.

Lemma neg_no_exp v n : (v < 0)%Q -> 1 <= n -> auto_float_no_exp v (n + 1) = bind (auto_float_no_exp (Qabs v) n) (fun s => Ok (45%N :: s)).
Proof.
  intros H Hn. unfold auto_float_no_exp, float_head. destruct (neg_flags v H) as (-> & -> & -> & -> & ->). replace (n + 1 - 1) with n by lia.
  destruct (Z.ltb_spec (n + 1) (-1)); [lia|]. destruct (Z.ltb_spec n (-1)); [lia|]. destruct (Z.eqb_spec n 0); [lia|].
  destruct (Qlt_bool (Qabs v) 1 && (n =? 1)); [reflexivity|]. destruct (n - 1 <? log10_floor (Qabs v)); [reflexivity|].
  rewrite plain_sign. reflexivity.
Qed.
Lemma neg_exp v n : (v < 0)%Q -> 1 <= n -> auto_float_exp v (n + 1) = bind (auto_float_exp (Qabs v) n) (fun s => Ok (signed v s)).
Proof.
  intros H Hn. pose proof (abs_neg v H) as A. pose proof (log_spec (Qabs v) A) as M. set (e := log10_floor (Qabs v)) in *.
  assert (N : forall s q, numeral s q -> signed v s = 45%N :: s) by (intros s q; now apply signed_numeral).
  unfold auto_float_exp at 1, float_head. destruct (neg_flags v H) as (F1 & -> & F2 & F3 & F4). rewrite F1. replace (n + 1 - 1) with n by lia.
  destruct (Z.ltb_spec (n + 1) (-1)); [lia|]. destruct (Z.eqb_spec n 0); [lia|]. fold e.
  destruct (Qlt_bool (Qabs v) 1 && (n =? 1)) eqn:B1.
  { unfold auto_float_exp, float_head. rewrite F2, F4, B1. destruct (Z.ltb_spec n (-1)); [lia|]. destruct (Z.eqb_spec n 0); [lia|]. cbn [bind app].
    rewrite (N [48%N] (inject_Z 0)); [reflexivity|]. apply (numeral_dec 1 0). lia. }
  destruct ((e <? -2) || (n - 1 <? e)) eqn:B2.
  - assert (He : e < -2 \/ n <= e) by (apply orb_true_iff in B2; rewrite !Z.ltb_lt in B2; lia).
    assert (Hs : ~ (n = 1 /\ e < 0)).
    { intros [-> K]. apply (small_iff (Qabs v) e M) in K. apply andb_false_iff in B1. destruct (Qlt_bool_spec (Qabs v) 1); [|contradiction]. now destruct B1. }
    rewrite (exp_eq (Qabs v) e A M n Hn Hs He). unfold exp_body. rewrite exponent_len_eq. change (zlen [45%N]) with 1.
    pose proof (exponent_len_pos e) as XL. destruct (Z.ltb_spec n (exponent_len e)) as [L|L].
    + cbn [bind]. unfold signed. rewrite F1. replace (Z.to_nat (1 + n)) with (S (Z.to_nat n)) by lia. replace (Z.to_nat n) with (S (Z.to_nat (n - 1))) by lia. reflexivity.
    + destruct (Z.eq_dec n (exponent_len e)) as [E|NE].
      * subst n. rewrite Z.sub_diag. change (ten e) with (p10 e). assert (Z0 : auto_float_no_exp (Qabs v / p10 e) 0 = Ok []).
        { unfold auto_float_no_exp, float_head. replace (Qlt_bool (Qabs v / p10 e) 0) with false; [reflexivity|].
          symmetry. destruct (Qlt_bool_spec (Qabs v / p10 e) 0) as [K|K]; [|reflexivity]. pose proof (div_pos (Qabs v) e A). lra. }
        rewrite Z0. cbn [bind]. unfold signed. rewrite F1. reflexivity.
      * change (ten e) with (p10 e).
        destruct (no_exp_fits (Qabs v / p10 e) 0 (div_pos _ e A) (significand _ e M) (n - exponent_len e) ltac:(lia) ltac:(lia)) as (s & q & R & NU & _).
        rewrite R. cbn [bind]. unfold signed. rewrite F1. pose proof (numeral_head s q NU) as K. destruct s as [|c s]; [easy|]. cbn [app].
        destruct c as [|p]; [reflexivity|]. do 6 (try (destruct p as [p|p|]; try reflexivity)). easy.
  - assert (He : -2 <= e /\ e < n) by (apply orb_false_iff in B2; rewrite !Z.ltb_ge in B2; lia).
    rewrite (exp_plain (Qabs v) e A M n Hn ltac:(lia) ltac:(lia)). rewrite plain_sign.
    destruct (no_exp_fits (Qabs v) e A M n Hn ltac:(lia)) as (s & q & R & NU & _).
    assert (PL : plain_float [] (Qabs v) n e = Ok s).
    { unfold auto_float_no_exp, float_head in R. rewrite F2, F3, F4, B1 in R. destruct (Z.ltb_spec n (-1)); [lia|]. destruct (Z.eqb_spec n 0); [lia|].
      fold e in R. destruct (Z.ltb_spec (n - 1) e); [lia|]. exact R. }
    rewrite PL, R. cbn [bind]. now rewrite (N s q NU).
Qed.

(** * All numbers *)
Lemma zero_eq v n rest : (v == 0)%Q -> 0 <= n -> float_head v n rest = Ok (if n =? 0 then [] else wide n [48%N]).
Proof.
  intros H Hn. unfold float_head. destruct (Z.ltb_spec n (-1)); [lia|]. destruct (Qlt_bool_spec v 0); [lra|].
  destruct (Z.eqb_spec n 0); [reflexivity|]. replace (Qeq_bool v 0) with true by (symmetry; now apply Qeq_bool_iff).
  destruct (Qlt_bool (Qabs v) 1 && (n =? 1)) eqn:B; [|reflexivity]. apply andb_true_iff in B. destruct B as [_ B]. apply Z.eqb_eq in B. subst. reflexivity.
Qed.
Lemma zero_auto v n allow : (v == 0)%Q -> 0 <= n -> auto_float v n allow = Ok (if n =? 0 then [] else wide n [48%N]).
Proof. intros H Hn. destruct allow; apply (zero_eq v n _ H Hn). Qed.

Lemma carries_pos v n allow e : (0 < v)%Q -> magnitude v e ->
  carries v n allow <-> (written_plain allow n e /\ 0 <= e /\ rounds_up v e (n - e - 2)) \/
     (allow = true /\ ~ written_plain true n e /\ rounds_up (v / p10 e) 0 (n - exponent_len e - 2)).
Proof.
  intros H M. unfold carries. rewrite (abs_lit v H). split.
  - intros (e' & M' & K). now rewrite (magnitude_unique _ _ _ M' M) in K.
  - intros K. now exists e.
Qed.
Lemma carries_abs v n allow : carries v n allow <-> carries (Qabs v) n allow.
Proof.
  unfold carries. assert (E : Qabs (Qabs v) = Qabs v) by (destruct v as [p q]; unfold Qabs; f_equal; lia). now rewrite E.
Qed.
(** length of a positive number *)
Lemma length_pos v n allow s : (0 < v)%Q -> 1 <= n -> auto_float v n allow = Ok s ->
  (zlen s = n \/ zlen s = n + 1) /\ (zlen s = n + 1 <-> carries v n allow).
Proof.
  intros H Hn E. pose proof (log_spec v H) as M. set (e := log10_floor v) in *. rewrite (carries_pos v n allow e H M).
  assert (NP : forall s, auto_float_no_exp v n = Ok s -> e < n -> (zlen s = n \/ zlen s = n + 1) /\ (zlen s = n + 1 <-> 0 <= e /\ rounds_up v e (n - e - 2))).
  { intros s' E' L. destruct (no_exp_fits v e H M n Hn L) as (s2 & q & R & _ & L1 & L2 & _). rewrite R in E'. injection E' as <-. now split. }
  destruct allow; unfold auto_float in E.
  - destruct (Z_lt_dec e (-2)) as [C1|C1]; [|destruct (Z_lt_dec e n) as [C2|C2]].
    + destruct (Z.eq_dec n 1) as [->|N1].
      * assert (S : auto_float_exp v 1 = Ok [48%N]).
        { unfold auto_float_exp, float_head. destruct (v_flags v H) as (-> & _). rewrite (abs_lit v H).
          replace (Qlt_bool v 1) with true; [reflexivity|]. symmetry. destruct (Qlt_bool_spec v 1) as [|K]; [reflexivity|]. exfalso. apply K. apply (small_iff v e M). lia. }
        rewrite S in E. injection E as <-. change (zlen [48%N]) with 1. split; [now left|]. unfold written_plain, rounds_up. pose proof (exponent_len_pos e).
        split; [lia|]. intros [(K & _)|(_ & _ & K)]; lia.
      * destruct (exp_spec v e n H M Hn ltac:(lia) ltac:(lia)) as (s2 & R & L1 & L2 & _). rewrite R in E. injection E as <-. split; [exact L1|].
        rewrite L2. split; [intros K; right; split; [reflexivity|]; split; [unfold written_plain; lia|exact K]|].
        intros [((_ & K) & _)|(_ & _ & K)]; [specialize (K eq_refl); lia|exact K].
    + rewrite (exp_plain v e H M n Hn C2 ltac:(lia)) in E. destruct (NP s E C2) as [L1 L2]. split; [exact L1|]. rewrite L2. unfold written_plain.
      split; [intros K; left; split; [lia|exact K]|]. intros [(_ & K)|(_ & K & _)]; [exact K|]. exfalso. apply K. lia.
    + destruct (exp_spec v e n H M Hn ltac:(lia) ltac:(lia)) as (s2 & R & L1 & L2 & _). rewrite R in E. injection E as <-. split; [exact L1|].
      rewrite L2. split; [intros K; right; split; [reflexivity|]; split; [unfold written_plain; lia|exact K]|].
      intros [((K & _) & _)|(_ & _ & K)]; [lia|exact K].
  - destruct (Z_lt_dec e n) as [C2|C2]; [|rewrite (no_exp_too_big v e H M n Hn) in E by lia; discriminate].
    destruct (NP s E C2) as [L1 L2]. split; [exact L1|]. rewrite L2. unfold written_plain.
    split; [intros K; left; split; [lia|exact K]|]. intros [(_ & K)|(K & _)]; [exact K|discriminate].
Qed.

Lemma room_nonneg v n : (0 <= v)%Q -> room_of v n = n.
Proof. intros H. unfold room_of. destruct (Qlt_le_dec v 0); [lra|reflexivity]. Qed.
Lemma room_neg v n : (v < 0)%Q -> room_of v n = n - 1.
Proof. intros H. unfold room_of. destruct (Qlt_le_dec v 0); [reflexivity|lra]. Qed.
Lemma carries_room v n allow : carries v n allow -> 3 <= n.
Proof. intros (e & _ & [(_ & H & K & _)|(_ & _ & K & _)]); [lia|]. pose proof (exponent_len_pos e). lia. Qed.

Lemma neg_auto v n allow : (v < 0)%Q -> 1 <= n -> auto_float v (n + 1) allow = bind (auto_float (Qabs v) n allow) (fun s => Ok (signed v s)).
Proof.
  intros H Hn. destruct allow; unfold auto_float; [now apply neg_exp|]. rewrite neg_no_exp by assumption.
  pose proof (abs_neg v H) as A. pose proof (log_spec _ A) as M. destruct (Z_lt_dec (log10_floor (Qabs v)) n) as [C|C].
  - destruct (no_exp_fits _ _ A M n Hn C) as (s & q & R & NU & _). rewrite R. cbn [bind]. now rewrite (signed_numeral v s q H NU).
  - now rewrite (no_exp_too_big _ _ A M n Hn) by lia.
Qed.
Lemma zlen_signed v s : (v < 0)%Q -> zlen (signed v s) = zlen s + 1.
Proof. intros H. unfold signed. destruct (neg_flags v H) as (-> & _). unfold zlen. cbn [length]. lia. Qed.

Lemma neg_zero v allow s : (v < 0)%Q -> auto_float v 0 allow = Ok s -> s = [].
Proof.
  intros H. destruct (neg_flags v H) as (F1 & F2 & _). set (e := log10_floor (Qabs v)). pose proof (exponent_len_pos e) as XL.
  assert (P : plain_float [45%N] (Qabs v) (-1) e = Err ValueError).
  { unfold plain_float. destruct (Z.eqb_spec (Z.max 1 (e + 1)) (-1)); [lia|]. destruct (Z.ltb_spec (-1 - Z.max 1 (e + 1) - 1) 0); [reflexivity|lia]. }
  destruct allow; unfold auto_float, auto_float_exp, auto_float_no_exp at 1, float_head; rewrite F1, F2; change (0 <? -1) with false; change (0 - 1) with (-1);
    change (-1 =? 0) with false; change (-1 =? 1) with false; rewrite andb_false_r; cbv beta iota zeta; fold e; rewrite P.
  - destruct (_ || _); [|discriminate]. rewrite exponent_len_eq. destruct (Z.ltb_spec (-1) (exponent_len e)); [|lia].
    change (Z.to_nat (zlen [45%N] + -1)) with O. now intros [= <-].
  - destruct (_ <? _); discriminate.
Qed.

(** the length of the result *)
Lemma auto_length v n allow s : 0 <= n -> auto_float v n allow = Ok s ->
  (zlen s = n \/ zlen s = n + 1) /\ (zlen s = n + 1 <-> carries v (room_of v n) allow).
Proof.
  intros Hn E. destruct (Q_dec v 0) as [[H|H]|H].
  - rewrite room_neg by exact H. destruct (Z.eq_dec n 0) as [->|N0]; [|destruct (Z.eq_dec n 1) as [->|N1]].
    + assert (S : s = []) by exact (neg_zero v allow s H E).
      subst s. change (zlen (@nil N)) with 0. split; [now left|]. split; [lia|]. intros K. apply carries_room in K. lia.
    + assert (S : s = [33%N]).
      { destruct (neg_flags v H) as (F1 & F2 & _).
        destruct allow; unfold auto_float, auto_float_exp, auto_float_no_exp at 1, float_head in E; rewrite F1 in E;
          change (1 <? -1) with false in E; change (1 - 1 =? 0) with true in E; cbv beta iota zeta in E; injection E as <-; reflexivity. }
      subst s. change (zlen [33%N]) with 1. split; [now left|]. split; [lia|]. intros K. apply carries_room in K. lia.
    + replace n with (n - 1 + 1) in E by lia. rewrite neg_auto in E by (try assumption; lia).
      destruct (auto_float (Qabs v) (n - 1) allow) as [t|x] eqn:T; [|discriminate]. cbn [bind] in E. injection E as <-.
      destruct (length_pos (Qabs v) (n - 1) allow t (abs_neg v H) ltac:(lia) T) as [L1 L2]. rewrite zlen_signed by exact H.
      rewrite carries_abs, <- L2. lia.
  - rewrite room_nonneg by lra. destruct (Z.eq_dec n 0) as [->|N0].
    + assert (S : s = []).
      { assert (F : Qlt_bool v 0 = false) by (destruct (Qlt_bool_spec v 0); [lra|reflexivity]).
        destruct allow; unfold auto_float, auto_float_exp, auto_float_no_exp at 1, float_head in E; rewrite F in E;
          change (0 <? -1) with false in E; change (0 =? 0) with true in E; cbv beta iota zeta in E; injection E as <-; reflexivity. }
      subst s. change (zlen (@nil N)) with 0. split; [now left|]. split; [lia|]. intros K. apply carries_room in K. lia.
    + apply length_pos; [exact H|lia|exact E].
  - rewrite room_nonneg by lra. rewrite zero_auto in E by assumption. injection E as <-.
    assert (L : zlen (if n =? 0 then [] else wide n [48%N]) = n).
    { destruct (Z.eqb_spec n 0) as [->|]; [reflexivity|]. unfold wide. rewrite zlen_rjust by lia. change (zlen [48%N]) with 1. lia. }
    rewrite L. split; [now left|]. split; [lia|]. intros (e & [M _] & _). exfalso. pose proof (p10_pos e).
    assert (A : (Qabs v == 0)%Q) by (rewrite H; reflexivity). lra.
Qed.

(** when it fails *)
Lemma auto_total v n : 0 <= room_of v n -> exists s, auto_float v n true = Ok s.
Proof.
  intros Hn. unfold auto_float. destruct (Q_dec v 0) as [[H|H]|H].
  - rewrite room_neg in Hn by exact H. destruct (Z.eq_dec n 1) as [->|N1].
    + destruct (neg_flags v H) as (F1 & _). exists [33%N]. unfold auto_float_exp, float_head. now rewrite F1.
    + replace n with (n - 1 + 1) by lia. rewrite neg_exp by (try assumption; lia). pose proof (abs_neg v H) as A. pose proof (log_spec _ A) as M.
      set (e := log10_floor (Qabs v)) in *.
      assert (T : exists t, auto_float_exp (Qabs v) (n - 1) = Ok t).
      { destruct (Z_lt_dec e (-2)) as [C1|C1]; [|destruct (Z_lt_dec e (n - 1)) as [C2|C2]].
        - destruct (Z.eq_dec (n - 1) 1) as [E1|E1].
          + exists [48%N]. rewrite E1. unfold auto_float_exp, float_head. destruct (neg_flags v H) as (_ & _ & -> & _ & ->).
            replace (Qlt_bool (Qabs v) 1) with true; [reflexivity|]. symmetry. destruct (Qlt_bool_spec (Qabs v) 1) as [|K]; [reflexivity|]. exfalso. apply K. apply (small_iff _ e M). lia.
          + destruct (exp_spec _ e (n - 1) A M ltac:(lia) ltac:(lia) ltac:(lia)) as (s & R & _). eauto.
        - rewrite (exp_plain _ e A M) by lia. destruct (no_exp_fits _ e A M (n - 1) ltac:(lia) C2) as (s & q & R & _). eauto.
        - destruct (exp_spec _ e (n - 1) A M ltac:(lia) ltac:(lia) ltac:(lia)) as (s & R & _). eauto. }
      destruct T as [t ->]. cbn [bind]. eauto.
  - rewrite room_nonneg in Hn by lra. pose proof (log_spec _ H) as M. set (e := log10_floor v) in *.
    destruct (Z.eq_dec n 0) as [->|N0].
    { exists []. unfold auto_float_exp, float_head. destruct (v_flags v H) as (-> & _). reflexivity. }
    destruct (Z_lt_dec e (-2)) as [C1|C1]; [|destruct (Z_lt_dec e n) as [C2|C2]].
    + destruct (Z.eq_dec n 1) as [->|E1].
      * exists [48%N]. unfold auto_float_exp, float_head. destruct (v_flags v H) as (-> & _). rewrite (abs_lit v H).
        replace (Qlt_bool v 1) with true; [reflexivity|]. symmetry. destruct (Qlt_bool_spec v 1) as [|K]; [reflexivity|]. exfalso. apply K. apply (small_iff _ e M). lia.
      * destruct (exp_spec _ e n H M ltac:(lia) ltac:(lia) ltac:(lia)) as (s & R & _). eauto.
    + rewrite (exp_plain _ e H M) by lia. destruct (no_exp_fits _ e H M n ltac:(lia) C2) as (s & q & R & _). eauto.
    + destruct (exp_spec _ e n H M ltac:(lia) ltac:(lia) ltac:(lia)) as (s & R & _). eauto.
  - rewrite room_nonneg in Hn by lra. eexists. exact (zero_auto v n true H Hn).
Qed.
Lemma auto_too_big v n : 1 <= room_of v n -> auto_float v n false = Err ValueError <-> (p10 (room_of v n) <= Qabs v)%Q.
Proof.
  assert (POS : forall v n, (0 < v)%Q -> 1 <= n -> auto_float_no_exp v n = Err ValueError <-> (p10 n <= v)%Q).
  { intros w m H Hm. pose proof (log_spec _ H) as M. set (e := log10_floor w) in *. destruct (Z_lt_dec e m) as [C|C].
    - destruct (no_exp_fits _ e H M m Hm C) as (s & q & -> & _). split; [discriminate|]. intros K. exfalso. destruct M as [_ M2].
      pose proof (p10_le (e + 1) m ltac:(lia)). lra.
    - rewrite (no_exp_too_big _ e H M m Hm) by lia. split; [|reflexivity]. intros _. destruct M as [M1 _]. pose proof (p10_le m e ltac:(lia)). lra. }
  intros Hn. unfold auto_float. destruct (Q_dec v 0) as [[H|H]|H].
  - rewrite room_neg in * by exact H. replace n with (n - 1 + 1) at 1 by lia. rewrite neg_no_exp by (try assumption; lia).
    rewrite <- (POS (Qabs v) (n - 1) (abs_neg v H) Hn). destruct (auto_float_no_exp (Qabs v) (n - 1)) as [t|x]; cbn [bind]; [split; discriminate|reflexivity].
  - rewrite room_nonneg in * by lra. rewrite (POS v n H Hn), (abs_lit v H). reflexivity.
  - rewrite room_nonneg in * by lra. unfold auto_float_no_exp; rewrite (zero_eq v n _ H) by lia. split; [discriminate|]. intros K.
    exfalso. pose proof (p10_pos n). assert (A : (Qabs v == 0)%Q) by (rewrite H; reflexivity). lra.
Qed.

(** what is shown *)
Lemma minus_neg v : (v < 0)%Q -> minus_sign v = [45%N].
Proof. intros H. unfold minus_sign. destruct (Qlt_le_dec v 0); [reflexivity|lra]. Qed.
Lemma minus_pos v : (0 < v)%Q -> minus_sign v = [].
Proof. intros H. unfold minus_sign. destruct (Qlt_le_dec v 0); [lra|reflexivity]. Qed.
Lemma nonzero v : ~ (v == 0)%Q -> (v < 0 \/ 0 < v)%Q.
Proof. intros H. destruct (Q_dec v 0) as [[K|K]|K]; [now left|now right|contradiction]. Qed.

Lemma tiny_exp v e : (0 < v)%Q -> magnitude v e -> e < 0 -> auto_float_exp v 1 = auto_float_no_exp v 1.
Proof.
  intros H M E. unfold auto_float_exp, auto_float_no_exp, float_head. destruct (v_flags v H) as (-> & -> & _). rewrite (abs_lit v H).
  destruct (Qlt_bool_spec v 1) as [K|K]; [reflexivity|]. exfalso. apply K. now apply (small_iff _ e M).
Qed.
Lemma auto_plain v n e allow : ~ (v == 0)%Q -> 1 <= room_of v n -> magnitude (Qabs v) e ->
  written_plain allow (room_of v n) e \/ (room_of v n = 1 /\ e < 0) ->
  exists t q, auto_float v n allow = Ok (minus_sign v ++ t) /\ numeral t q /\ shown_near q (Qabs v) (room_of v n) e.
Proof.
  intros Hv Hn M W.
  assert (POS : forall a m, (0 < a)%Q -> magnitude a e -> 1 <= m -> written_plain allow m e \/ (m = 1 /\ e < 0) ->
    exists t q, auto_float a m allow = Ok t /\ numeral t q /\ shown_near q a m e).
  { intros a m Ha Ma Hm Wm. assert (Hem : e < m) by (destruct Wm as [[K _]|[K1 K2]]; lia).
    destruct (no_exp_fits a e Ha Ma m Hm Hem) as (s & q & R & NU & _ & _ & T). exists s, q. split; [|split; [exact NU|exact T]].
    destruct allow; [|exact R]. unfold auto_float. rewrite <- R. destruct Wm as [[_ K]|[-> K]].
    - apply (exp_plain a e Ha Ma m Hm Hem). apply K. reflexivity.
    - exact (tiny_exp a e Ha Ma K). }
  destruct (nonzero v Hv) as [H|H].
  - rewrite room_neg in * by exact H. destruct (POS (Qabs v) (n - 1) (abs_neg v H) M Hn W) as (t & q & R & NU & T).
    exists t, q. split; [|split; [exact NU|exact T]]. replace n with (n - 1 + 1) by lia. rewrite neg_auto by assumption. rewrite R. cbn [bind].
    rewrite (signed_numeral v t q H NU), minus_neg by exact H. reflexivity.
  - rewrite room_nonneg in * by lra. destruct (POS v n H) as (t & q & R & NU & T); [now rewrite (abs_lit v H) in M|exact Hn|exact W|].
    exists t, q. rewrite minus_pos by exact H. rewrite (abs_lit v H). split; [exact R|now split].
Qed.
Lemma auto_exp v n e : ~ (v == 0)%Q -> 1 <= room_of v n -> magnitude (Qabs v) e ->
  ~ written_plain true (room_of v n) e -> ~ (room_of v n = 1 /\ e < 0) ->
  (room_of v n < exponent_len e -> auto_float v n true = Ok (repeat 33%N (Z.to_nat n))) /\
  (room_of v n = exponent_len e -> auto_float v n true = Ok (minus_sign v ++ [101%N] ++ zdec e)) /\
  (exponent_len e < room_of v n -> exists t q, auto_float v n true = Ok (minus_sign v ++ t) /\ read_float t = Some q /\ shown_near_exp q (Qabs v) (room_of v n) e).
Proof.
  intros Hv Hn M W W1.
  assert (WE : forall m, ~ written_plain true m e -> e < -2 \/ m <= e).
  { intros m K. unfold written_plain in K. destruct (Z_lt_dec e m); [|lia]. destruct (Z_lt_dec e (-2)); [lia|]. exfalso. apply K. split; lia. }
  destruct (nonzero v Hv) as [H|H].
  - rewrite room_neg in * by exact H. destruct (exp_spec (Qabs v) e (n - 1) (abs_neg v H) M Hn ltac:(lia) (WE _ W)) as (s & R & _ & _ & T1 & T2 & T3).
    assert (E : auto_float v n true = Ok (signed v s)).
    { replace n with (n - 1 + 1) by lia. rewrite neg_auto by assumption. unfold auto_float. rewrite R. reflexivity. }
    rewrite E, minus_neg by exact H. unfold signed. destruct (neg_flags v H) as (-> & _). split; [|split].
    + intros L. rewrite (T1 L). replace (Z.to_nat n) with (S (Z.to_nat (n - 1))) by lia. cbn [repeat]. destruct (Z.to_nat (n - 1)) eqn:Z1; [lia|]. reflexivity.
    + intros L. rewrite (T2 L). reflexivity.
    + intros L. destruct (T3 L) as (q & RF & T). exists s, q. split; [|split; [exact RF|exact T]].
      destruct s as [|c s]; [reflexivity|]. destruct (N.eq_dec c 33) as [->|C]; [exfalso; unfold read_float in RF; cbn [skip_blanks] in RF|].
      * clear - RF. unfold read_unsigned in RF. destruct (split_on 101 (33%N :: s)) as [|x [|y [|z l]]] eqn:SP; try discriminate.
        -- assert (K : exists x', x = 33%N :: x') by (cbn in SP; destruct (split_on 101 s); injection SP; intros; subst; eauto). destruct K as [x' ->].
           unfold read_fixed in RF. cbn [split_on] in RF. change (33 =? 46)%N with false in RF. cbv iota in RF. destruct (split_on 46 x') as [|i [|j [|]]]; cbn in RF; discriminate.
        -- assert (K : exists x', x = 33%N :: x') by (cbn in SP; destruct (split_on 101 s); injection SP; intros; subst; eauto). destruct K as [x' ->].
           unfold read_fixed in RF. cbn [split_on] in RF. change (33 =? 46)%N with false in RF. cbv iota in RF. destruct (split_on 46 x') as [|i [|j [|]]]; cbn in RF; discriminate.
      * clear - C. destruct c as [|p]; [reflexivity|]. do 6 (try (destruct p as [p|p|]; try reflexivity)). now contradiction C.
  - rewrite room_nonneg in * by lra. assert (M' : magnitude v e) by (now rewrite (abs_lit v H) in M).
    destruct (exp_spec v e n H M' Hn W1 (WE _ W)) as (s & R & _ & _ & T1 & T2 & T3).
    rewrite minus_pos by exact H. rewrite (abs_lit v H). unfold auto_float. rewrite R. cbn [app]. split; [|split].
    + intros L. now rewrite (T1 L).
    + intros L. now rewrite (T2 L).
    + intros L. destruct (T3 L) as (q & RF & T). exists s, q. split; [reflexivity|now split].
Qed.
Lemma auto_plain_read v n e allow : ~ (v == 0)%Q -> 1 <= room_of v n -> magnitude (Qabs v) e ->
  written_plain allow (room_of v n) e \/ (room_of v n = 1 /\ e < 0) ->
  exists t q, auto_float v n allow = Ok (minus_sign v ++ t) /\ read_float t = Some q /\ shown_near q (Qabs v) (room_of v n) e.
Proof.
  intros Hv Hn M W. destruct (auto_plain v n e allow Hv Hn M W) as (t & q & R & NU & [N1 N2]). destruct (numeral_read t q NU) as (q' & RF & E).
  exists t, q'. split; [exact R|]. split; [exact RF|]. split; intros X; rewrite E; auto.
Qed.
Lemma auto_zero v n allow : (v == 0)%Q -> 0 <= n -> auto_float v n allow = Ok (if n =? 0 then [] else repeat 32%N (Z.to_nat (n - 1)) ++ [48%N]).
Proof.
  intros H Hn. rewrite (zero_auto v n allow H Hn). destruct (Z.eqb_spec n 0); [reflexivity|]. unfold wide, rjust. cbn [length].
  replace (Z.to_nat n - 1)%nat with (Z.to_nat (n - 1)) by lia. reflexivity.
Qed.
