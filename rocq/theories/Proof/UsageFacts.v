(** Usage errors: agreement with Model/Args.v, and how a command line is read *)
From Coq Require Import Ascii String.
From Coq Require Import List Arith NArith ZArith Bool Lia.
From Verif.Model Require Import Base Settings Runner Options Render SettingsDump Process Args Help UsageErrors.
From Verif.Spec Require Import Invocation CommandLine HelpAsked UsageReasons.
From Verif.Proof Require Import BaseFacts ArgsInt ArgsFacts ArgsClaims ArgsMain ArgsHelp AppClaims.
Import ListNotations.
Local Open Scope N_scope.

(** * Agreement *)
Definition erase (y : why_event) : arg_event := match y with Y_opt o => V_opt o | Y_help => V_help | Y_extra _ => V_extra | Y_fail _ => V_fail end.
Lemma classify_erase argv : classify argv = match classify_why argv with inl _ => None | inr l => Some (map snd l) end.
Proof.
  induction argv as [|s r IH]; [reflexivity|]. cbn [classify classify_why]. destruct (eqb_list s [45; 45]).
  - cbn [map snd]. rewrite map_map. reflexivity.
  - rewrite IH. destruct (parse_optional s) as [i|]; [|reflexivity]. destruct (classify_why r); reflexivity.
Qed.
Lemma take_erase n f v : erase (take_value n f v) = take_int f v.
Proof. unfold take_value, take_int. now destruct (int_of v). Qed.
Lemma bundle_erase e : forall a n sep, bundle a n sep e = match bundle_why a n sep e with inl _ => None | inr (l, m) => Some (map erase l, option_map snd m) end.
Proof.
  induction e as [e IH] using (well_founded_induction (Wf_nat.well_founded_ltof _ (@List.length N))). unfold Wf_nat.ltof in IH. intros a n sep.
  assert (K : forall (here : why_event) (hv : arg_event), hv = erase here ->
    match e with
      | [] => None
      | c :: r =>
          if eqb_list (firstn 1 (skipn 1 n)) [45] then None
          else if sep || (c =? 45) then None
          else match find_option [45; c] with
               | None => Some ([hv; V_extra], None)
               | Some a' =>
                   match r with
                   | [] => match a' with
                           | A_int f => Some ([hv], Some f)
                           | A_flag o => Some ([hv; V_opt o], None)
                           | A_help => Some ([hv; V_help], None)
                           end
                   | 61 :: r' =>
                       match bundle a' [45; c] true r' with Some (l, m) => Some (hv :: l, m) | None => None end
                   | _ => match bundle a' [45; c] false r with Some (l, m) => Some (hv :: l, m) | None => None end
                   end
               end
      end =
    match match e with
      | [] => inl (R_ignored (title n) e)
      | c :: r =>
          if eqb_list (firstn 1 (skipn 1 n)) [45] then inl (R_ignored (title n) e)
          else if sep || (c =? 45) then inl (R_ignored (title n) e)
          else match find_option [45; c] with
               | None => inr ([here; Y_extra (45 :: e)], None)
               | Some a' =>
                   match r with
                   | [] => match a' with
                           | A_int f => inr ([here], Some ([45; c], f))
                           | A_flag o => inr ([here; Y_opt o], None)
                           | A_help => inr ([here; Y_help], None)
                           end
                   | 61 :: r' =>
                       match bundle_why a' [45; c] true r' with inr (l, m) => inr (here :: l, m) | inl x => inl x end
                   | _ => match bundle_why a' [45; c] false r with inr (l, m) => inr (here :: l, m) | inl x => inl x end
                   end
               end
      end with inl _ => None | inr (l, m) => Some (map erase l, option_map snd m) end).
  { intros here hv ->. destruct e as [|c r]; [reflexivity|]. destruct (eqb_list _ _); [reflexivity|]. destruct (sep || (c =? 45)); [reflexivity|]. destruct (find_option [45; c]) as [a'|]; [|reflexivity].
    destruct r as [|y r]; [destruct a'; reflexivity|].
    assert (Q : match bundle a' [45; c] false (y :: r) with Some (l, m) => Some (erase here :: l, m) | None => None end =
      match match bundle_why a' [45; c] false (y :: r) with inr (l, m) => inr (here :: l, m) | inl x => inl x end with inl _ => None | inr (l, m) => Some (map erase l, option_map snd m) end).
    { rewrite (IH (y :: r)) by (cbn; lia). destruct (bundle_why a' [45; c] false (y :: r)) as [x|[l m]]; reflexivity. }
    destruct (N.eq_dec y 61) as [->|NY].
    - rewrite (IH r) by (cbn; lia). destruct (bundle_why a' [45; c] true r) as [x|[l m]]; reflexivity.
    - destruct y as [|y]; [exact Q|]. do 6 (try (destruct y as [y|y|]; try exact Q)). now destruct NY. }
  destruct a as [o|f|].
  - destruct e; apply (K (Y_opt o) (V_opt o) eq_refl).
  - destruct e; cbn [bundle bundle_why map option_map]; now rewrite take_erase.
  - destruct e; apply (K Y_help V_help eq_refl).
Qed.
Lemma events_erase n : forall l u, (List.length l <= n)%nat -> events u (map snd l) = map erase (events_why u l).
Proof.
  induction n as [|n IH]; intros l u HN; [destruct l; [reflexivity|cbn in HN; lia]|].
  destruct l as [|[s i] l]; [reflexivity|]. cbn [List.length] in HN. cbn [map snd].
  assert (H1 : forall u, events u (map snd l) = map erase (events_why u l)) by (intros; apply IH; lia).
  destruct i as [v| |a nm [[sep e]|]|].
  - cbn [events events_why]. destruct u; [cbn [map erase]; now rewrite H1|]. cbn [map erase]. f_equal.
    destruct l as [|[s' i'] l]; [reflexivity|]. cbn [map snd] in *. destruct i'; try apply H1. apply IH. cbn in HN. lia.
  - cbn [events events_why]. destruct u; [cbn [map erase]; now rewrite H1|]. destruct l as [|[s' i'] l]; [reflexivity|]. cbn [map snd]. destruct i'; try reflexivity. cbn [map erase]. f_equal. apply IH. cbn in HN. lia.
  - assert (Q : match bundle a nm sep e with
       | None => [V_fail]
       | Some (l0, None) => l0 ++ events u (map snd l)
       | Some (l0, Some f) => match map snd l with I_arg v :: r' => l0 ++ take_int f v :: events u r' | _ => [V_fail] end
       end = map erase match bundle_why a nm sep e with
       | inl x => [Y_fail x]
       | inr (l0, None) => l0 ++ events_why u l
       | inr (l0, Some (n0, f)) => match l with (_, I_arg v) :: r' => l0 ++ take_value n0 f v :: events_why u r' | _ => [Y_fail (R_expected (title n0))] end
       end).
    { rewrite bundle_erase. destruct (bundle_why a nm sep e) as [x|[l0 [[n0 f]|]]]; cbn [option_map snd].
      - reflexivity.
      - destruct l as [|[s' i'] l]; [reflexivity|]. cbn [map snd]. destruct i'; try reflexivity. rewrite map_app. cbn [map]. rewrite take_erase. do 2 f_equal. apply IH. cbn in HN. lia.
      - now rewrite map_app, H1. }
    destruct a; exact Q.
  - destruct a as [o|f|]; cbn [events events_why map erase]; try (now rewrite H1). destruct l as [|[s' i'] l]; [reflexivity|]. cbn [map snd]. destruct i'; try reflexivity. cbn [map]. rewrite take_erase. f_equal. apply IH. cbn in HN. lia.
  - cbn [events events_why map erase]. now rewrite H1.
Qed.

(** * The titles *)
Lemma rivals_conflict o p : existsb (eqb_list (opt_title p)) (rivals (opt_title o)) = conflict o p.
Proof. destruct o as [v| | | | | |c|c| | | | | | | | | | | |]; try destruct c; destruct p as [v'| | | | | |c'|c'| | | | | | | | | | | |]; try destruct c'; vm_compute; reflexivity. Qed.
Lemma conflict_same o b p : conflict o b = true -> conflict o p = true -> conflict b p = false -> opt_title b = opt_title p.
Proof.
  intros H1 H2 H3. destruct o; try discriminate H1; destruct b; try discriminate H1; destruct p; try discriminate H2; try discriminate H3; try reflexivity;
  cbn [conflict] in H1, H2; repeat match goal with c : char_class |- _ => destruct c; try discriminate H1; try discriminate H2 end; reflexivity.
Qed.
