(** The legend is what its generator makes: proofs *)
From Coq Require Import Ascii String.
From Coq Require Import List Arith NArith ZArith Bool Lia.
From Verif.Model Require Import Base Ansi Regex Filters Render Legend Args SgrNames Es7sTemplate LegendGen.
From Verif.Spec Require Import Terminal Filtered SgrNames TemplateText.
From Verif.Proof Require Import BaseFacts TokFacts SgrNamesClaims TemplateFacts TemplateClaims.
Import ListNotations.
Local Open Scope N_scope.

(** Unicode restricted to ASCII *)
Definition plain_unicode : unicode := mkUnicode ascii_word (fun c => [if between 97 c 122 then c - 32 else c]).
Definition like_plain (u : unicode) : Prop := words (u_word u) /\ ascii_capitals (u_upper u).

(** every brace behind a sign is closed, with characters of ASCII before that *)
Fixpoint closed (s : str) : bool :=
  match s with [] => false | c :: t => (c =? 125) || (c <? 128) && closed t end.
Definition settled_here (s : str) : bool :=
  match s with a :: b :: t => if ((a =? 94) || (a =? 58)) && (b =? 123) then closed t else true | _ => true end.
Fixpoint settled (s : str) : bool := settled_here s && match s with [] => true | _ :: t => settled t end.

Section Same.
Variable u : unicode.
Hypothesis U : like_plain u.
Definition agree (x y : N -> bool) : Prop := (forall c, c < 128 -> x c = y c) /\ x 125 = false.
Lemma agree_take x y t : agree x y -> closed t = true -> take_while x t = take_while y t /\ drop_while x t = drop_while y t /\ closed (drop_while x t) = true /\ Forall (fun c => c < 128) (take_while x t).
Proof.
  intros [A B]. induction t as [|c t IH]; intros C; [discriminate C|]. cbn [closed] in C. cbn [take_while drop_while].
  destruct (N.eqb_spec c 125) as [->|D].
  - rewrite <- (A 125) by lia. rewrite B. repeat split; constructor.
  - cbn [orb] in C. apply andb_true_iff in C. destruct C as [C1 C2]. apply N.ltb_lt in C1. rewrite <- (A c) by exact C1. destruct (x c).
    + destruct (IH C2) as (-> & -> & K & F). repeat split; [exact K|now constructor].
    + repeat split; [|constructor]. cbn [closed]. apply orb_true_iff. right. apply andb_true_iff. split; [now apply N.ltb_lt|exact C2].
Qed.
Lemma agree_braces x y t : agree x y -> closed t = true -> braces x (123 :: t) = braces y (123 :: t) /\ forall w m r, braces x (123 :: t) = Some (w, m, r) -> Forall (fun c => c < 128) w.
Proof.
  intros A C. unfold braces. assert (S : agree is_space is_space) by (split; [reflexivity|reflexivity]).
  destruct (agree_take is_space is_space t S C) as (_ & _ & C1 & _). destruct (agree_take x y _ A C1) as (-> & -> & _ & F). split; [reflexivity|].
  intros w m r H. destruct (drop_while is_space (drop_while y (drop_while is_space t))) as [|d r']; [discriminate H|].
  destruct (N.eq_dec d 125) as [->|D].
  - cbv zeta in H. assert (X : take_while y (drop_while is_space t) = w) by congruence. now rewrite <- X.
  - exfalso. destruct d as [|p]; [discriminate H|]. do 7 (try (destruct p as [p|p|]; try discriminate H)). congruence.
Qed.
Lemma agree_word : agree (u_word u) ascii_word.
Proof. destruct U as [[A _] _]. split; [exact A|]. rewrite A by lia. reflexivity. Qed.
Lemma agree_fmt : agree (fun c => u_word u c || (c =? 59)) (fun c => ascii_word c || (c =? 59)).
Proof. destruct agree_word as [A B]. split; [intros c C; now rewrite A|now rewrite B]. Qed.
Lemma same_fmt s : settled s = true -> fmt_at u s = fmt_at plain_unicode s /\ forall w m r, fmt_at u s = Some (w, m, r) -> Forall (fun c => c < 128) w.
Proof.
  intros H. destruct s as [|a s]; [split; [reflexivity|discriminate]|]. unfold fmt_at. destruct (N.eq_dec a 94) as [->|D].
  2:{ destruct a as [|p]; [split; [reflexivity|discriminate]|]. do 7 (try (destruct p as [p|p|]; try (split; [reflexivity|discriminate]; fail))). congruence. }
  destruct s as [|b s]; [split; [reflexivity|discriminate]|]. destruct (N.eq_dec b 123) as [->|D].
  2:{ unfold braces. destruct b as [|p]; [split; [reflexivity|discriminate]|]. do 7 (try (destruct p as [p|p|]; try (split; [reflexivity|discriminate]; fail))). congruence. }
  cbn [settled settled_here N.eqb Pos.eqb orb andb] in H. apply andb_true_iff in H. destruct H as [H _].
  destruct (agree_braces _ _ s agree_fmt H) as [E F]. cbn [u_word plain_unicode]. rewrite <- E. split; [reflexivity|].
  intros w m r K. destruct (braces _ _) as [[[w' m'] r']|]; [|discriminate K]. injection K as -> _ ->. now apply (F w m' r).
Qed.
Lemma same_var s : settled s = true -> var_at u s = var_at plain_unicode s.
Proof.
  intros H. destruct s as [|a s]; [reflexivity|]. unfold var_at. destruct (N.eq_dec a 58) as [->|D].
  2:{ destruct a as [|p]; [reflexivity|]. do 7 (try (destruct p as [p|p|]; try reflexivity)). congruence. }
  destruct s as [|b s]; [reflexivity|]. destruct (N.eq_dec b 123) as [->|D].
  2:{ unfold braces. destruct b as [|p]; [reflexivity|]. do 7 (try (destruct p as [p|p|]; try reflexivity)). congruence. }
  cbn [settled settled_here N.eqb Pos.eqb orb andb] in H. apply andb_true_iff in H. destruct H as [H _].
  destruct (agree_braces _ _ s agree_word H) as [E F]. cbn [u_word plain_unicode]. now rewrite <- E.
Qed.
Lemma same_upper s : Forall (fun c => c < 128) s -> flat_map (u_upper u) s = flat_map (u_upper plain_unicode) s.
Proof. destruct U as [_ C]. induction 1 as [|c s H _ IH]; [reflexivity|]. cbn [flat_map]. rewrite C by exact H. now rewrite IH. Qed.
Lemma split_all (P : N -> Prop) c s : Forall P s -> Forall (Forall P) (split_on c s).
Proof.
  induction 1 as [|x s H _ IH]; cbn [split_on]; [repeat constructor|]. destruct (x =? c); [now constructor|].
  destruct (split_on c s) as [|y l]; [constructor; [now constructor|constructor]|]. inversion IH; subst. constructor; [now constructor|assumption].
Qed.
Definition low_arg (a : sgr_arg) : Prop := match a with SA_name s => Forall (fun c => c < 128) s | _ => True end.
Lemma try_low e x : Forall (fun c => c < 128) e -> try_int e = Ok x -> low_arg x.
Proof.
  intros F. unfold try_int. destruct e as [|c e]; [intros [= <-]; exact F|]. destruct (forallb _ _); [|intros [= <-]; exact F].
  destruct (unsigned_int _); [intros [= <-]; exact I|discriminate].
Qed.
Lemma same_args l : Forall low_arg l -> sequence_sgr (u_upper u) l = sequence_sgr (u_upper plain_unicode) l.
Proof.
  induction 1 as [|a l H _ IH]; [reflexivity|]. cbn [sequence_sgr]. rewrite IH.
  assert (E : arg_params (u_upper u) a = arg_params (u_upper plain_unicode) a); [|now rewrite E].
  destruct a as [s|n|p|]; [|reflexivity..]. cbn [arg_params]. unfold resolve. now rewrite same_upper.
Qed.
Lemma all_low es : Forall (Forall (fun c => c < 128)) es -> forall l, all_ok try_int es = Ok l -> Forall low_arg l.
Proof.
  induction 1 as [|e es H _ IH]; intros l; cbn [all_ok]; [intros [= <-]; constructor|].
  destruct (try_int e) as [x|] eqn:E; [|discriminate]. cbn [bind]. destruct (all_ok try_int es) as [ys|]; [|discriminate]. cbn [bind].
  intros [= <-]. constructor; [now apply (try_low e)|now apply IH].
Qed.
Lemma same_resolve w m : Forall (fun c => c < 128) w -> resolve_fmt u w m = resolve_fmt plain_unicode w m.
Proof.
  intros F. unfold resolve_fmt. destruct w as [|c w]; [reflexivity|]. destruct (all_ok try_int _) as [l|] eqn:E; [|reflexivity]. cbn [bind].
  rewrite same_args; [reflexivity|]. refine (all_low _ _ _ E). now apply split_all.
Qed.
Lemma settled_app a b : settled (a ++ b) = true -> settled b = true.
Proof. induction a as [|c a IH]; [auto|]. cbn [app settled]. intros H. apply andb_true_iff in H. now apply IH. Qed.
Lemma same_pass_fmt fuel : forall s, settled s = true -> sub_with fuel (fmt_at u) (resolve_fmt u) s = sub_with fuel (fmt_at plain_unicode) (resolve_fmt plain_unicode) s.
Proof.
  induction fuel as [|fuel IH]; intros [|c s] H; try reflexivity. cbn [sub_with]. destruct (same_fmt (c :: s) H) as [E F].
  destruct (fmt_at u (c :: s)) as [[[w m] r]|] eqn:E1; rewrite <- E.
  - rewrite (same_resolve w m) by (now apply (F w m r)). rewrite IH; [reflexivity|]. destruct U as [W _].
    apply (fmt_iff u _ _ _ _ W) in E1. destruct E1 as [E1 _]. rewrite E1 in H. now apply settled_app in H.
  - rewrite IH; [reflexivity|]. now apply (settled_app [c]).
Qed.
Lemma same_pass_var f fuel : forall s, settled s = true -> sub_with fuel (var_at u) f s = sub_with fuel (var_at plain_unicode) f s.
Proof.
  induction fuel as [|fuel IH]; intros [|c s] H; try reflexivity. cbn [sub_with]. pose proof (same_var (c :: s) H) as E.
  destruct (var_at u (c :: s)) as [[[w m] r]|] eqn:E1; rewrite <- E.
  - rewrite IH; [reflexivity|]. destruct U as [W _].
    apply (var_iff u _ _ _ _ W) in E1. destruct E1 as [E1 _]. rewrite E1 in H. now apply settled_app in H.
  - rewrite IH; [reflexivity|]. now apply (settled_app [c]).
Qed.
Lemma same_substitute vars s s2 w2 : settled (no_comments (List.length s) s) = true ->
  sub_with (List.length (no_comments (List.length s) s)) (fmt_at plain_unicode) (resolve_fmt plain_unicode) (no_comments (List.length s) s) = Ok (s2, w2) -> settled s2 = true ->
  substitute_template u vars s = substitute_template plain_unicode vars s.
Proof. intros S1 E S2. unfold substitute_template. cbv zeta. rewrite same_pass_fmt by exact S1. rewrite E. cbn [bind]. now rewrite same_pass_var by exact S2. Qed.
End Same.

Definition found (o : option str) : str := match o with Some t => t | None => [] end.
Definition text_of (a : answer) : str := match a with Ok (s, _) => s | _ => [] end.
Definition quiet (a : answer) : bool := match a with Ok (_, []) => true | _ => false end.
Definition pass_one (s : str) : answer := sub_with (List.length s) (fmt_at plain_unicode) (resolve_fmt plain_unicode) s.
Definition settled_for (t : str) : bool :=
  let s := no_comments (List.length t) t in let p := pass_one s in settled s && settled (text_of p) && quiet p.
Lemma quiet_text a : quiet a = true -> a = Ok (text_of a, []).
Proof. destruct a as [[s [|]]|]; [reflexivity|discriminate..]. Qed.
Lemma settled_same u vars t : like_plain u -> settled_for t = true -> substitute_template u vars t = substitute_template plain_unicode vars t.
Proof.
  intros U S. unfold settled_for in S. cbv zeta in S. apply andb_true_iff in S. destruct S as [S Q]. apply andb_true_iff in S. destruct S as [S1 S2].
  apply quiet_text in Q. exact (same_substitute u U vars t _ [] S1 Q S2).
Qed.
Lemma settled_ok : settled_for (found (decode template_bytes)) = true.
Proof. exact (eq_refl true <: settled_for (found (decode template_bytes)) = true). Qed.

(** the legend around the version and before the date *)
Definition legend_text : str := found (decode legend_bytes).
Definition before_version : str := firstn (N.to_nat 393) legend_text.
Definition after_version : str := firstn (N.to_nat (22620 - 398)) (skipn (N.to_nat 398) legend_text).
Definition given (cf : rconf) (v : str) : result (list (str * str)) := all_ok (fun '(n, r) => bind r (fun v => Ok (txt n, v))) (variables cf v).
Definition made (cf : rconf) (v : str) : answer := bind (given cf v) (fun vars => substitute_template plain_unicode vars (found (decode template_bytes))).
Definition rgb_on : list rconf := [mkRconf (Some true) false false true; mkRconf (Some true) false false false; mkRconf (Some false) false false true].
Lemma rgb_on_iff cf : is_sgr_usage_allowed cf = true -> rc_256 cf = false -> rc_16 cf = false -> In cf rgb_on.
Proof. destruct cf as [[[]|] x y []]; cbn; intros A -> ->; try discriminate A; auto. Qed.
Definition v0 : str := txt "1.5.3".
Definition d0 : str := txt "22-May-23 04:12".
Lemma legend_cut : decode legend_bytes = Some (before_version ++ v0 ++ after_version ++ txt "# Generated at " ++ d0).
Proof. vm_cast_no_check (@eq_refl (option str) (decode legend_bytes)). Qed.
Lemma made_plain cf v : In cf rgb_on -> made cf v = Ok (before_version ++ v ++ after_version, []).
Proof.
  intros [<-|[<-|[<-|[]]]].
  - vm_cast_no_check (@eq_refl answer (Ok (before_version ++ v ++ after_version, []))).
  - vm_cast_no_check (@eq_refl answer (Ok (before_version ++ v ++ after_version, []))).
  - vm_cast_no_check (@eq_refl answer (Ok (before_version ++ v ++ after_version, []))).
Qed.
Definition is_found (o : option str) : bool := match o with Some _ => true | None => false end.
Lemma found_some o : is_found o = true -> o = Some (found o).
Proof. destruct o; [reflexivity|discriminate]. Qed.
Lemma template_found : decode template_bytes = Some (found (decode template_bytes)).
Proof. apply found_some. exact (eq_refl true <: is_found (decode template_bytes) = true). Qed.
Lemma newline_tail a b c : ends_with_newline (a ++ c :: b) = ends_with_newline (c :: b).
Proof.
  unfold ends_with_newline, rev'. rewrite <- !rev_alt. rewrite rev_app_distr. destruct (rev (c :: b)) as [|x l] eqn:E; [|reflexivity].
  apply (f_equal (@List.length N)) in E. rewrite rev_length in E. discriminate E.
Qed.
Lemma after_shape : exists c b, after_version = c :: b.
Proof.
  assert (H : (match after_version with [] => false | _ => true end) = true) by exact (eq_refl true <: (match after_version with [] => false | _ => true end) = true).
  destruct after_version as [|c b]; [discriminate H|]. now exists c, b.
Qed.
Lemma after_newline : ends_with_newline after_version = true.
Proof. exact (eq_refl true <: ends_with_newline after_version = true). Qed.

Lemma generate_steps u cf v d tpl t vars out : decode tpl = Some t -> given cf v = Ok vars -> substitute_template u vars t = Ok (out, []) -> ends_with_newline out = true ->
  generate u cf v d tpl = Ok (out ++ txt "# Generated at " ++ d, []).
Proof. intros D G S N. unfold generate. rewrite D. unfold given in G. rewrite G. cbn [bind]. rewrite S. cbn [bind]. now rewrite N. Qed.
Lemma made_steps cf v r : made cf v = Ok r -> exists vars, given cf v = Ok vars /\ substitute_template plain_unicode vars (found (decode template_bytes)) = Ok r.
Proof.
  unfold made. generalize (found (decode template_bytes)). intros t. destruct (given cf v) as [vars|e]; [|discriminate]. intros M. now exists vars.
Qed.
Theorem legend_generated u cf v d : words (u_word u) -> ascii_capitals (u_upper u) ->
  is_sgr_usage_allowed cf = true -> rc_256 cf = false -> rc_16 cf = false ->
  generate u cf v d template_bytes = Ok ((before_version ++ v ++ after_version) ++ txt "# Generated at " ++ d, []).
Proof.
  intros W C A B1 B2. destruct (made_steps cf v _ (made_plain cf v (rgb_on_iff cf A B1 B2))) as (vars & G & M).
  refine (generate_steps u cf v d template_bytes _ vars _ template_found G _ _).
  - exact (eq_trans (settled_same u vars _ (conj W C) settled_ok) M).
  - destruct after_shape as (c & b & E). pose proof after_newline as N. rewrite E in N |- *. rewrite app_assoc, newline_tail. exact N.
Qed.
Theorem legend_is_generated : exists a b,
  decode legend_bytes = Some (a ++ chars "1.5.3" ++ b ++ chars "22-May-23 04:12") /\
  forall u cf v d, words (u_word u) -> ascii_capitals (u_upper u) -> is_sgr_usage_allowed cf = true -> rc_256 cf = false -> rc_16 cf = false ->
    generate u cf v d template_bytes = Ok (a ++ v ++ b ++ d, []).
Proof.
  exists before_version, (after_version ++ txt "# Generated at "). split.
  - rewrite legend_cut. repeat rewrite <- app_assoc. reflexivity.
  - intros u cf v d W C A B1 B2. rewrite (legend_generated u cf v d W C A B1 B2). repeat rewrite <- app_assoc. reflexivity.
Qed.
