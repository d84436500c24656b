(** Durations of ints and doubles *)
From Coq Require Import List NArith ZArith QArith Qabs Qround Qpower Bool Lia Lqa.
From Verif.Model Require Import Base Strip Color TimeDelta TimeFloat.
From Verif.Spec Require Import Doubles Duration.
From Verif.Proof Require Import RoundFacts DurationFacts LibClaims TimeFloatFacts.
Import ListNotations.
Local Open Scope Z_scope.

Lemma float_presets : float_register [] [td3; td4; td6; td10] = Ok [(3, td3); (4, td4); (6, td6); (10, td10)].
Proof. vm_compute. reflexivity. Qed.

Lemma float_delta_eq x max_len : 3 <= wanted max_len ->
  float_time_delta x max_len = float_format (snd (td_for (wanted max_len))) (fst (td_for (wanted max_len))) x false.
Proof.
  intro M. unfold float_time_delta. rewrite float_presets. cbn [bind]. destruct max_len as [n|]; cbn [wanted] in *.
  - rewrite find_preset by easy. now destruct (td_for n).
  - reflexivity.
Qed.

Lemma float_delta_short x n : n < 3 -> float_time_delta x (Some n) = Err ValueError.
Proof. intro H. unfold float_time_delta. rewrite float_presets. cbn [bind]. now rewrite no_preset. Qed.

Lemma presets_positive f : In f [td3; td4; td6; td10] -> positive_ratios (td_units f).
Proof.
  intro H. cbn in H. repeat destruct H as [<-|H]; try contradiction; repeat constructor; intros r E; inversion E; lia.
Qed.

Lemma delta_exact x max_len : held x -> (Qabs (val x) < pow2 1023)%Q ->
  float_time_delta x max_len = format_time_delta (Num (val x)) max_len.
Proof.
  intros H B. destruct (Z_lt_le_dec (wanted max_len) 3) as [S|M].
  - destruct max_len as [n|]; cbn [wanted] in S; [|lia]. now rewrite float_delta_short, delta_short.
  - destruct (td_for_in (wanted max_len)) as [IN _].
    assert (In (snd (td_for (wanted max_len))) [td3; td4; td6; td10] /\ fst (td_for (wanted max_len)) <> 0 /\
            lk_limit (look_for (wanted max_len)) <= 1000 * year /\
            lk_too_large (look_for (wanted max_len)) = py_take (fst (td_for (wanted max_len))) (td_overflow_msg (snd (td_for (wanted max_len)))))
      as (I & K0 & LM & TL).
    { unfold td_for, look_for. destruct (10 <=? wanted max_len), (6 <=? wanted max_len), (4 <=? wanted max_len);
        (split; [cbn [snd In]; tauto|split; [discriminate|split; [vm_compute; discriminate|reflexivity]]]). }
    destruct (Qlt_le_dec (Qabs (val x)) (pow2 53)) as [L|G].
    + rewrite float_delta_eq, delta_eq by easy. apply format_exact; [now apply presets_positive|easy|easy].
    + rewrite delta_overflow.
      * rewrite float_delta_eq by easy. unfold float_format. rewrite (presets_large _ _ _ I K0 H G B). cbn [bind]. now rewrite TL.
      * easy.
      * apply Qle_trans with (2 := G). apply Qle_trans with (inject_Z (1000 * year)); [now rewrite <- Zle_Qle|].
        rewrite pow2_Z by lia. rewrite <- Zle_Qle. vm_compute. discriminate.
Qed.

Lemma delta_exact_int z max_len : Z.abs z < 2 ^ 1023 ->
  float_time_delta (PyInt z) max_len = format_time_delta (Num (inject_Z z)) max_len.
Proof.
  intro H. apply (delta_exact (PyInt z)); [exact I|]. cbn [val]. change (Qabs (inject_Z z)) with (inject_Z (Z.abs z)).
  rewrite pow2_Z by lia. now rewrite <- Zlt_Qlt.
Qed.
Lemma pow2_1023 : pow2 1023 = inject_Z (2 ^ 1023).
Proof. vm_compute. reflexivity. Qed.
Lemma pow2_1024 : pow2 1024 = inject_Z (2 ^ 1024).
Proof. vm_compute. reflexivity. Qed.
Lemma pow2_53 : pow2 53 = inject_Z (2 ^ 53).
Proof. vm_compute. reflexivity. Qed.
Lemma delta_exact_float q max_len : double q -> (Qabs q < inject_Z (2 ^ 1023))%Q ->
  float_time_delta (PyFloat q) max_len = format_time_delta (Num q) max_len.
Proof. intros H B. apply (delta_exact (PyFloat q)); [exact H|]. rewrite pow2_1023. exact B. Qed.

Lemma round_nearest x y : (Qabs (round64 x) < inject_Z (2 ^ 1024))%Q -> (nearest x y <-> (y == round64 x)%Q).
Proof.
  intro H. rewrite <- pow2_1024 in H. pose proof (round64_nearest x H) as N. split.
  - intros K. exact (nearest_unique x _ _ K N).
  - intros E. apply (nearest_ext x (round64 x)); [now symmetry|exact N].
Qed.

Lemma any_formatter f len wide : (forall u r, In u (td_units f) -> u_in_next u = Some r -> 0 <= r) ->
  (forall z, Z.abs z < 2 ^ 53 -> float_format f len (PyInt z) wide = td_format f len (Num (inject_Z z)) wide) /\
  (forall q, double q -> (Qabs q < inject_Z (2 ^ 53))%Q -> float_format f len (PyFloat q) wide = td_format f len (Num q) wide).
Proof.
  intro P. assert (positive_ratios (td_units f)) as PR by (apply Forall_forall; intros u U r; now apply P).
  split.
  - intros z H. apply (format_exact f len (PyInt z)); [easy|exact I|]. cbn [val].
    change (Qabs (inject_Z z)) with (inject_Z (Z.abs z)). rewrite pow2_Z by lia. now rewrite <- Zlt_Qlt.
  - intros q D H. apply (format_exact f len (PyFloat q)); [easy|exact D|]. rewrite pow2_53. exact H.
Qed.

Lemma double_max : double (inject_Z (2 ^ 1024 - 2 ^ 971)).
Proof. exists (2 ^ 53 - 1), 971. split; [reflexivity|]. split; [lia|]. vm_compute. reflexivity. Qed.

Lemma largest_fails max_len : 3 <= wanted max_len ->
  float_time_delta (PyFloat (inject_Z (2 ^ 1024 - 2 ^ 971))) max_len = Err OverflowError.
Proof.
  intro M. rewrite float_delta_eq by easy. unfold td_for.
  destruct (10 <=? wanted max_len), (6 <=? wanted max_len), (4 <=? wanted max_len); vm_compute; reflexivity.
Qed.
Lemma large_int_fails max_len : 3 <= wanted max_len ->
  float_time_delta (PyInt (10 ^ 400)) max_len = Err OverflowError.
Proof.
  intro M. rewrite float_delta_eq by easy. unfold td_for.
  destruct (10 <=? wanted max_len), (6 <=? wanted max_len), (4 <=? wanted max_len); vm_compute; reflexivity.
Qed.

Definition minutes : td_config :=
  mkTd [unit_ [115%N] (Some 60); mkUnit [109%N] None None None None] false None None [].
Lemma off_by_one : good_config minutes /\
  float_format minutes 20 (PyInt (60 * (2 ^ 53 + 2) - 1)) false = Ok (dec (2 ^ 53 + 2) ++ [109%N]) /\
  td_format minutes 20 (Num (inject_Z (60 * (2 ^ 53 + 2) - 1))) false = Ok (dec (2 ^ 53 + 1) ++ [109%N]).
Proof.
  split; [|split; vm_compute; reflexivity].
  split; [|split; reflexivity]. repeat constructor; try discriminate; intros r E; inversion E; lia.
Qed.
