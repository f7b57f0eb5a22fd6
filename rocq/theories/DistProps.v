(** Claims about action distributions, value policies and exploration: C54, C55, C70-C75.

    Specification vocabulary, independent of the model: [is_argmax] (an index of a greatest entry),
    [within] (inside the given bounds), lists of allowed actions as filtered ranges, and plain
    formulas over the reals. *)

From Coq Require Import String List ZArith Reals Bool Lia Lra Psatz.
From Verif Require Import OptVec ParModel SolveModel OptModel OptProofs DistModel DistProofs DistProofs2 DistProofs3.
Import ListNotations.
Open Scope R_scope.

(** an argmax, for the examples *)
Fixpoint first_max (l : list R) : nat :=
  match l with
  | [] => 0%nat
  | x :: l' => match l' with [] => 0%nat | _ => if Rleb (nth (first_max l') l' 0) x then 0%nat else S (first_max l') end
  end.
Lemma first_max_is_argmax : is_argmax first_max.
Proof.
  intros l. induction l as [|x l IH]; [congruence|]. intros _. destruct l as [|y l].
  - cbn. split; [lia|]. intros [|i] H; cbn in *; [lra|lia].
  - destruct IH as [I M]; [congruence|].
    change (first_max (x :: y :: l)) with (if Rleb (nth (first_max (y :: l)) (y :: l) 0) x then 0%nat else S (first_max (y :: l))).
    destruct (Rleb_spec (nth (first_max (y :: l)) (y :: l) 0) x) as [C|C].
    + split; [cbn; lia|]. intros [|i] H; [cbn; lra|]. cbn [nth]. apply Rle_trans with (nth (first_max (y :: l)) (y :: l) 0); [|exact C].
      apply M. cbn in *. lia.
    + split; [cbn in *; lia|]. intros [|i] H; [cbn [nth] in *; lra|]. cbn [nth]. apply M. cbn in *. lia.
Qed.

(** ** C54: masked actions are never selected *)

(** the mode is allowed and has the greatest value of the allowed actions *)
Theorem C54_mode : forall argmax temperature mask values i, is_argmax argmax ->
  length mask = length values -> (i < length values)%nat -> nth i mask false = true -> min_float < nth i values 0 ->
  let a := cat_mode argmax (cat_parametrize temperature (Some mask) values) in
  (a < length values)%nat /\ nth a mask false = true /\
  (forall j, (j < length values)%nat -> nth j mask false = true -> nth j values 0 <= nth a values 0).
Proof. intros argmax t mask v i A E I M V. exact (masked_argmax argmax mask v i A E I M V). Qed.

Example C54_mode_example :
  nth (cat_mode first_max (cat_parametrize None (Some [false; true; true]) [7; 1; 2])) [false; true; true] false = true.
Proof.
  destruct (C54_mode first_max None [false; true; true] [7; 1; 2] 1 first_max_is_argmax) as [_ [H _]]; try reflexivity; cbn; try lia; [|exact H].
  pose proof min_float_low. pose proof two120_big as B. rewrite ten30 in B. lra.
Qed.

(** so is the action of a value policy, with or without a separate state value *)
Theorem C54_value_policy : forall argmax state_value mask values i, is_argmax argmax ->
  length mask = length values -> (i < length values)%nat -> nth i mask false = true ->
  min_float < match state_value with
              | None => nth i values 0
              | Some s => s + (nth i values 0 - rsum values / INR (length values))
              end ->
  let a := q_act argmax state_value (Some mask) values in
  (a < length values)%nat /\ nth a mask false = true /\
  (forall j, (j < length values)%nat -> nth j mask false = true -> nth j values 0 <= nth a values 0).
Proof.
  intros argmax s mask v i A E I M V.
  assert (V' : min_float < nth i (q_values s v) 0).
  { destruct s; [|exact V]. cbn [q_values]. rewrite (nth_map_lt _ _ 0) by exact I. exact V. }
  pose proof (masked_argmax argmax mask (q_values s v) i A) as H. rewrite q_length in H. specialize (H E I M V').
  cbv zeta in *. fold (q_act argmax s (Some mask) v) in H. destruct H as [H1 [H2 H3]].
  split; [exact H1|]. split; [exact H2|]. intros j J Mj. specialize (H3 j J Mj).
  pose proof (q_order s v j (q_act argmax s (Some mask) v) J H1). lra.
Qed.

Example C54_value_policy_example :
  nth (q_act first_max (Some 5) (Some [false; true; true]) [7; 1; 2]) [false; true; true] false = true.
Proof.
  destruct (C54_value_policy first_max (Some 5) [false; true; true] [7; 1; 2] 1 first_max_is_argmax) as [_ [H _]]; try reflexivity; cbn; try lia; [|exact H].
  pose proof min_float_low. pose proof two120_big as B. rewrite ten30 in B. lra.
Qed.

(** a sample is allowed for every draw of the uniform distribution, if there are at most 10^6 actions;
    its probability is not negligible *)
Theorem C54_sample : forall argmax t mask values temperature uniform i, is_argmax argmax ->
  length mask = length values -> (Z.of_nat (length values) <= 1000000)%Z ->
  (i < length values)%nat -> nth i mask false = true -> - 2 ^ 120 <= nth i values 0 ->
  length uniform = length values -> Forall (fun u => epsilon6 <= u <= 1 - epsilon6) uniform ->
  let c := cat_parametrize t (Some mask) values in
  let a := cat_sample argmax c temperature uniform in
  (a < length values)%nat /\ nth a mask false = true /\
  (epsilon6 <= temperature -> epsilon6 <= nth a (c_probabilities c) 0).
Proof.
  intros argmax t mask v temperature uniform i A E B I M V LU U. cbv zeta.
  pose proof (probabilities_length t mask v E) as L.
  pose proof min_float_low as F. pose proof two120_big as T. rewrite ten30 in T.
  destruct (Rltb_spec temperature epsilon6) as [C|C].
  - destruct (C54_mode argmax t mask v i A E I M ltac:(lra)) as [H1 [H2 _]].
    assert (X : cat_sample argmax (cat_parametrize t (Some mask) v) temperature uniform = cat_mode argmax (cat_parametrize t (Some mask) v)).
    { unfold cat_sample, cat_mode. destruct (Rltb_spec temperature epsilon6); [reflexivity|lra]. }
    rewrite X. repeat split; auto. lra.
  - set (c := cat_parametrize t (Some mask) v) in *.
    destruct (sample_probable argmax c temperature uniform A) as [H1 H2]; try (rewrite ?L; auto; fail).
    + intros N. rewrite N in L. cbn in L. lia.
    + intros j J. rewrite L in J. unfold c. rewrite cat_probabilities. apply softmax_pos. rewrite masked_length; rewrite raw_length; auto.
    + rewrite L. apply some_probable; auto; [destruct v; [cbn in I; lia|congruence]|now apply masked_length].
    + lra.
    + rewrite L in H1. split; [exact H1|]. split; [|intros _; exact H2].
      destruct (nth (cat_sample argmax c temperature uniform) mask false) eqn:D; [reflexivity|].
      pose proof (forbidden_improbable t mask v _ i E H1 I D M V). fold c in H. lra.
Qed.

Example C54_sample_example :
  nth (cat_sample first_max (cat_parametrize (Some 0) (Some [false; true; true]) [7; 1; 2]) 1 [1 / 2; 1 / 4; 3 / 4]) [false; true; true] false = true.
Proof.
  destruct (C54_sample first_max (Some 0) [false; true; true] [7; 1; 2] 1 [1 / 2; 1 / 4; 3 / 4] 1 first_max_is_argmax) as [_ [H _]]; try reflexivity; cbn [length nth]; try lia; [| |exact H].
  - pose proof two120_big as B. rewrite ten30 in B. lra.
  - unfold epsilon6. repeat constructor; lra.
Qed.

(** with more actions all probabilities can be negligible: then a forbidden action can win *)
Lemma nth_repeat_lt {A} (x d : A) n : forall i, (i < n)%nat -> nth i (repeat x n) d = x.
Proof. induction n as [|n IH]; intros [|i] H; cbn; try lia; auto. apply IH. lia. Qed.
Lemma rsum_repeat x n : rsum (repeat x n) = INR n * x.
Proof. unfold rsum. induction n as [|n IH]; [cbn; lra|]. rewrite S_INR. cbn [repeat fold_right]. rewrite IH. lra. Qed.
Lemma map_repeat_eq {A B} (f : A -> B) x n : map f (repeat x n) = repeat (f x) n.
Proof. induction n; cbn; congruence. Qed.
Lemma map2_repeat_eq {A B C} (f : A -> B -> C) x y n : map2 f (repeat x n) (repeat y n) = repeat (f x y) n.
Proof. induction n; cbn; congruence. Qed.

Theorem C54_many_actions_refuted : exists mask values uniform,
  length mask = length values /\ length uniform = length values /\
  Forall (fun u => epsilon6 <= u <= 1 - epsilon6) uniform /\ In true mask /\ Forall (fun v => v = 0) values /\
  (forall argmax, is_argmax argmax ->
   nth (cat_sample argmax (cat_parametrize None (Some mask) values) 1 uniform) mask false = false).
Proof.
  destruct (IZN 2000000 ltac:(lia)) as [n Z]. assert (N : INR n = 2000000) by now rewrite INR_IZR_INZ, <- Z.
  assert (N1 : (0 < n)%nat) by lia. clear Z.
  exists (false :: repeat true n), (0 :: repeat 0 n), (1 / 2 :: repeat (1 / 4) n).
  assert (Hin : forall x, In x (repeat (1 / 4) n) -> x = 1 / 4) by (intros x H; exact (repeat_spec _ _ _ H)).
  repeat split.
  - cbn. now rewrite !repeat_length.
  - cbn. now rewrite !repeat_length.
  - constructor; [unfold epsilon6; lra|]. apply Forall_forall. intros x H. rewrite (Hin x H). unfold epsilon6. lra.
  - right. destruct n; [lia|now left].
  - constructor; [reflexivity|]. apply Forall_forall. intros x H. exact (repeat_spec _ _ _ H).
  - intros argmax A. unfold cat_sample. destruct (Rltb_spec 1 epsilon6) as [C|_]; [unfold epsilon6 in C; lra|].
    rewrite cat_logits, cat_probabilities.
    assert (R0 : masked (Some (false :: repeat true n)) (raw None (0 :: repeat 0 n)) = min_float :: repeat 0 n).
    { unfold raw. cbn [map masked map2]. rewrite map_repeat_eq, map2_repeat_eq. unfold Rdiv. do 2 f_equal. lra. }
    rewrite R0. set (s := exp min_float + INR n).
    assert (S0 : softmax (min_float :: repeat 0 n) = exp min_float / s :: repeat (1 / s) n).
    { unfold softmax. cbn [map]. rewrite !map_repeat_eq, exp_0.
      assert (Q : rsum (exp min_float :: repeat 1 n) = s).
      { change (rsum (exp min_float :: repeat 1 n)) with (exp min_float + rsum (repeat 1 n)). rewrite rsum_repeat. unfold s. lra. }
      now rewrite Q. }
    rewrite S0.
    assert (X : 0 < exp min_float < 1).
    { split; [apply exp_pos|]. rewrite <- exp_0. apply exp_increasing. pose proof min_float_low. pose proof two120_big as B. rewrite ten30 in B. lra. }
    assert (P2 : 1 / s < epsilon6).
    { unfold s, epsilon6. rewrite N. unfold Rdiv. rewrite Rmult_1_l. apply Rinv_lt_contravar; lra || nra. }
    assert (P1 : exp min_float / s < epsilon6).
    { apply Rle_lt_trans with (1 / s); [|exact P2]. unfold Rdiv. apply Rmult_le_compat_r; [|lra]. left. apply Rinv_0_lt_compat. unfold s. rewrite N. lra. }
    cbn [map map2]. rewrite !map_repeat_eq, !map2_repeat_eq.
    destruct (Rltb_spec (exp min_float / s) epsilon6) as [_|?]; [|lra]. destruct (Rltb_spec (1 / s) epsilon6) as [_|?]; [|lra].
    set (y := (min_float + gumbel (1 / 2)) :: repeat (min_float + gumbel (1 / 4)) n).
    destruct (A y) as [A1 A2]; [unfold y; congruence|]. specialize (A2 O ltac:(cbn; lia)).
    destruct (argmax y) as [|k]; [reflexivity|exfalso]. cbn in A1. rewrite repeat_length in A1. cbn [y nth] in A2.
    unfold y in A2. cbn [nth] in A2. rewrite nth_repeat_lt in A2 by lia.
    assert (G : gumbel (1 / 4) < gumbel (1 / 2)).
    { unfold gumbel. apply Ropp_lt_contravar. apply ln_increasing.
      - assert (ln (1 / 2) < 0) by (rewrite <- ln_1; apply ln_increasing; lra). lra.
      - apply Ropp_lt_contravar. apply ln_increasing; lra. }
    lra.
Qed.

(** a random action is, for a draw u, the one numbered floor(u * m) of the m allowed actions *)
Theorem C54_random : forall masks uniform, length uniform = length masks ->
  Forall (fun m => In true m) masks -> Forall (fun u => 0 <= u < 1) uniform ->
  exists actions, random_masked masks uniform = Some actions /\ length actions = length masks /\
  (forall k, (k < length masks)%nat ->
     let mask := nth k masks [] in let u := nth k uniform 0 in
     let allowed := filter (fun a => nth a mask false) (seq 0 (length mask)) in
     exists j, (j < length allowed)%nat /\ nth k actions 0%nat = nth j allowed 0%nat /\
       INR j <= u * INR (length allowed) < INR j + 1).
Proof.
  intros masks uniform L M U. rewrite random_masked_picks by assumption. eexists. split; [reflexivity|].
  split; [rewrite map2_length; lia|]. intros k K. cbv zeta.
  rewrite (nth_map2_lt _ _ [] 0) by lia. set (m := nth k masks []). set (u := nth k uniform 0).
  assert (Im : In true m) by (rewrite Forall_forall in M; apply M; now apply nth_In).
  assert (Iu : 0 <= u < 1) by (rewrite Forall_forall in U; apply U; apply nth_In; lia).
  assert (W : valid_from 0 m = filter (fun a => nth a m false) (seq 0 (length m))).
  { rewrite valid_filter. apply filter_ext. intros a. now rewrite Nat.sub_0_r. }
  rewrite <- W. destruct (floor_lt u (length (valid_from 0 m)) Iu (valid_nonempty m Im)) as [F1 F2].
  exists (Z.to_nat (Int_part (u * INR (length (valid_from 0 m))))). split; [exact F1|]. split; [reflexivity|exact F2].
Qed.

Example C54_random_example : exists a b, random_masked [[false; true; true]; [true; false; false]] [3 / 4; 1 / 2] = Some [a; b] /\ a = 2%nat /\ b = 0%nat.
Proof.
  destruct (C54_random [[false; true; true]; [true; false; false]] [3 / 4; 1 / 2]) as [l [E [L H]]]; [reflexivity| | |].
  - repeat apply Forall_cons; cbn; auto.
  - repeat constructor; lra.
  - destruct l as [|a [|b [|c l]]]; try discriminate. exists a, b. split; [exact E|].
    destruct (H 0%nat ltac:(cbn; lia)) as [j [J [Ea F]]]. destruct (H 1%nat ltac:(cbn; lia)) as [j' [J' [Eb _]]]. cbn in *. split.
    + destruct j as [|[|j]]; cbn in *; [lra|exact Ea|lia].
    + destruct j' as [|j']; cbn in *; [exact Eb|lia].
Qed.

(** exploration returns an allowed action if the policy did *)
Theorem C54_exploration : forall exploration masks uniform is_random actions,
  length uniform = length masks -> length is_random = length masks -> length actions = length masks ->
  Forall (fun m => In true m) masks -> Forall (fun u => 0 <= u < 1) uniform ->
  (forall k, (k < length masks)%nat -> nth (nth k actions 0%nat) (nth k masks []) false = true) ->
  exists explored, explore_masked exploration masks uniform is_random actions = Some explored /\ length explored = length masks /\
  (forall k, (k < length masks)%nat -> nth (nth k explored 0%nat) (nth k masks []) false = true).
Proof.
  intros e masks uniform r actions LU LR LA M U H. unfold explore_masked. rewrite random_masked_picks by assumption.
  eexists. split; [reflexivity|].
  assert (LP : length (map2 pick masks uniform) = length masks) by (apply map2_length; lia).
  assert (LC : length (combine (map2 pick masks uniform) actions) = length masks) by (rewrite combine_length; lia).
  split; [rewrite map2_length; lia|]. intros k K.
  rewrite (nth_map2_lt _ _ 0 (0%nat, 0%nat)) by lia. rewrite combine_nth by lia.
  destruct (Rltb _ e); [|now apply H]. rewrite (nth_map2_lt _ _ [] 0) by lia.
  apply valid_allowed. apply pick_in; [rewrite Forall_forall in M; apply M; now apply nth_In|rewrite Forall_forall in U; apply U; apply nth_In; lia].
Qed.

Example C54_exploration_example : exists a, explore_masked (1 / 2) [[false; true; true]] [3 / 4] [1 / 4] [1%nat] = Some [a] /\ nth a [false; true; true] false = true.
Proof.
  destruct (C54_exploration (1 / 2) [[false; true; true]] [3 / 4] [1 / 4] [1%nat]) as [l [E [L H]]]; try reflexivity.
  - repeat apply Forall_cons; cbn; auto.
  - repeat constructor; lra.
  - intros [|k] K; cbn in *; [reflexivity|lia].
  - destruct l as [|a [|b l]]; try discriminate. exists a. split; [exact E|]. exact (H 0%nat ltac:(cbn; lia)).
Qed.

(** ** C55: continuous actions respect their bounds *)

(** for every admitted combination of transformation and bounds *)
Theorem C55_gaussian : forall requested b t mean stddev temperature normal,
  gauss_init requested b = inl t -> proper b ->
  let g := gauss_parametrize b mean stddev in
  within b (gauss_mode t b g) /\ within b (gauss_sample t b g temperature normal).
Proof. intros r b t m s T n I P g. split; now apply (bounded_within r). Qed.

Example C55_gaussian_example : within (Some 2, Some 5) (gauss_sample (Some Tanh) (Some 2, Some 5) (gauss_parametrize (Some 2, Some 5) 7 0) 1 3).
Proof. apply (C55_gaussian Tanh (Some 2, Some 5) (Some Tanh) 7 0 1 3); [reflexivity|cbn; lra]. Qed.

(** for gamma draws, which are not negative *)
Theorem C55_beta : forall lgamma lo hi alpha beta temperature alpha_draw beta_draw, lo <= hi ->
  0 <= alpha_draw -> 0 <= beta_draw -> 0 < alpha_draw + beta_draw ->
  let b := beta_parametrize lgamma alpha beta in
  lo <= beta_mode lo hi b <= hi /\ lo <= beta_sample lo hi b temperature alpha_draw beta_draw <= hi.
Proof.
  intros lg lo hi a b T x y H X Y P. cbv zeta. destruct (beta_params lg a b) as [A B].
  assert (M : lo <= beta_mode lo hi (beta_parametrize lg a b) <= hi).
  { unfold beta_mode. apply affine_in; [exact H|]. change (b_sum (beta_parametrize lg a b)) with (b_alpha (beta_parametrize lg a b) + b_beta (beta_parametrize lg a b)).
    apply share_in; lra. }
  split; [exact M|]. unfold beta_sample. destruct (Rltb T epsilon6); [exact M|]. apply affine_in; [exact H|]. apply share_in; lra.
Qed.

Example C55_beta_example : 1 <= beta_sample 1 3 (beta_parametrize (fun x => x) 0 0) 1 2 5 <= 3.
Proof. apply (C55_beta (fun x => x) 1 3 0 0 1 2 5); lra. Qed.

Theorem C55_exploration : forall b exploration normal action, proper b -> within b (explore_float b exploration normal action).
Proof. exact explore_float_within. Qed.

Example C55_exploration_example : within (Some 0, Some 1) (explore_float (Some 0, Some 1) 3 5 (1 / 2)).
Proof. apply C55_exploration. cbn. lra. Qed.

(** likelihoods of a sampled action are computed for the draw it was made from (x, the value before
    the transformation), unless the transformation saturates *)
Theorem C55_inverse : forall lo hi x, lo < hi ->
  (- 1 <= x <= 1 -> unbounded (Some Clipping) (Some lo, Some hi) (bounded (Some Clipping) (Some lo, Some hi) x) = x) /\
  (Rabs (tanh x) <= 1 - epsilon6 -> unbounded (Some Tanh) (Some lo, Some hi) (bounded (Some Tanh) (Some lo, Some hi) x) = x) /\
  unbounded None (None, None) (bounded None (None, None) x) = x /\
  beta_inverse lo hi (lo + (hi - lo) * x) = x.
Proof.
  intros lo hi x H. repeat split.
  - intros X. rewrite unbounded_clipping by exact H. now apply clip_id.
  - now apply unbounded_tanh.
  - unfold beta_inverse. field. lra.
Qed.

Example C55_inverse_example : unbounded (Some Tanh) (Some 2, Some 5) (bounded (Some Tanh) (Some 2, Some 5) 0) = 0.
Proof. apply C55_inverse; [lra|]. rewrite tanh_exp, Ropp_0, Rminus_diag_eq by reflexivity. unfold Rdiv. rewrite Rmult_0_l, Rabs_R0. unfold epsilon6. lra. Qed.

(** the other direction: likelihoods of an action inside the bounds are those of a value that the
    transformation maps to this action *)
Theorem C55_preimage : forall lo hi action, lo < hi -> lo <= action <= hi ->
  bounded (Some Clipping) (Some lo, Some hi) (unbounded (Some Clipping) (Some lo, Some hi) action) = action /\
  (lo + (hi - lo) * (epsilon6 / 2) <= action <= hi - (hi - lo) * (epsilon6 / 2) ->
   bounded (Some Tanh) (Some lo, Some hi) (unbounded (Some Tanh) (Some lo, Some hi) action) = action).
Proof.
  intros lo hi a H A. set (y := 2 * (a - lo) / (hi - lo) - 1).
  assert (Y : a = lo + (hi - lo) * (1 / 2) * (y + 1)) by (unfold y; field; lra). pose proof eps_pos. pose proof eps_small. split.
  - cbn. fold y. rewrite clip_id by nra. now symmetry.
  - intros B. cbn. fold y. assert (- (1 - epsilon6) <= y <= 1 - epsilon6) by nra.
    rewrite clip_id by lra. rewrite tanh_atanh by lra. now symmetry.
Qed.

Example C55_preimage_example : bounded (Some Tanh) (Some 2, Some 5) (unbounded (Some Tanh) (Some 2, Some 5) 4) = 4.
Proof. apply C55_preimage; unfold epsilon6; lra. Qed.

(** a draw so large that the action comes close to the bound is not recovered *)
Theorem C55_inverse_refuted : exists x, forall lo hi, lo < hi ->
  unbounded (Some Tanh) (Some lo, Some hi) (bounded (Some Tanh) (Some lo, Some hi) x) <> x.
Proof.
  pose proof eps_pos as E. pose proof eps_small as E'.
  exists (atanh (1 - epsilon6 / 2)). intros lo hi H C. cbn in C. rewrite tanh_atanh in C by lra.
  replace (2 * (lo + (hi - lo) * (1 / 2) * (1 - epsilon6 / 2 + 1) - lo) / (hi - lo) - 1) with (1 - epsilon6 / 2) in C by (field; lra).
  unfold clip_by_value in C. rewrite Rmax_left, Rmin_right in C by lra.
  apply (f_equal tanh) in C. rewrite !tanh_atanh in C by lra. lra.
Qed.

(** ** C70: every admissible continuous action can be sampled *)
Theorem C70_reachable : forall b mean stddev temperature action, proper b -> epsilon6 <= temperature ->
  let g := gauss_parametrize b mean stddev in
  (b = (None, None) -> exists normal, gauss_sample None b g temperature normal = action) /\
  (forall lo hi, b = (Some lo, Some hi) -> lo <= action <= hi -> exists normal, gauss_sample (Some Clipping) b g temperature normal = action) /\
  (forall lo hi, b = (Some lo, Some hi) -> lo < action < hi -> exists normal, gauss_sample (Some Tanh) b g temperature normal = action).
Proof.
  intros b m s T a P HT g. pose proof (stddev_pos b m s) as S. fold g in S. pose proof eps_pos as E.
  assert (D : forall t x, gauss_sample t b g T ((x - g_mean g) / (g_stddev g * T)) = bounded t b x).
  { intros t x. unfold gauss_sample. destruct (Rltb_spec T epsilon6); [lra|]. f_equal. field. lra. }
  repeat split.
  - intros ->. eexists. rewrite D. reflexivity.
  - intros lo hi Eb A. exists ((2 * (a - lo) / (hi - lo) - 1 - g_mean g) / (g_stddev g * T)). rewrite D, Eb. rewrite Eb in P. cbn in P.
    exact (proj1 (C55_preimage lo hi a P A)).
  - intros lo hi Eb A. exists ((atanh (2 * (a - lo) / (hi - lo) - 1) - g_mean g) / (g_stddev g * T)). rewrite D, Eb. rewrite Eb in P. cbn in P.
    set (y := 2 * (a - lo) / (hi - lo) - 1). assert (Y : a = lo + (hi - lo) * (1 / 2) * (y + 1)) by (unfold y; field; lra).
    cbn. rewrite tanh_atanh; [now symmetry|]. split; nra.
Qed.

Example C70_reachable_example : exists normal, gauss_sample (Some Tanh) (Some 2, Some 5) (gauss_parametrize (Some 2, Some 5) 7 0) 1 normal = 3.
Proof. destruct (C70_reachable (Some 2, Some 5) 7 0 1 3) as [_ [_ H]]; [cbn; lra|unfold epsilon6; lra|]. apply (H 2 5); [reflexivity|lra]. Qed.

(** with one bound, actions are also clipped to [-1, 1]: nothing above max(lo, 1) is ever sampled, and a
    lower bound of 1 or more makes all actions equal *)
Theorem C70_one_sided_refuted : forall lo mean stddev temperature normal,
  gauss_init Clipping (Some lo, None) = inl (Some Clipping) /\
  gauss_sample (Some Clipping) (Some lo, None) (gauss_parametrize (Some lo, None) mean stddev) temperature normal <= Rmax lo 1 /\
  (1 <= lo -> gauss_sample (Some Clipping) (Some lo, None) (gauss_parametrize (Some lo, None) mean stddev) temperature normal = lo).
Proof.
  intros lo m s T n. split; [reflexivity|]. unfold gauss_sample. set (x := if Rltb T epsilon6 then _ else _). clearbody x. cbn.
  pose proof (clip_in (-1) 1 x ltac:(lra)). split.
  - apply Rmax_lub; [apply Rmax_l|]. apply Rle_trans with 1; [lra|apply Rmax_r].
  - intros L. apply Rmax_left. lra.
Qed.

(** ** C71: divergences *)
(** zero between equal distributions, for all but the Gaussian *)
Theorem C71_equal : forall lgamma digamma t mask values logit alpha beta,
  cat_kl (cat_parametrize t mask values) (cat_parametrize t mask values) = 0 /\
  bern_kl (bern_parametrize logit) (bern_parametrize logit) = 0 /\
  beta_kl digamma (beta_parametrize lgamma alpha beta) (beta_parametrize lgamma alpha beta) = 0.
Proof.
  intros. split; [|split; [unfold bern_kl; lra|unfold beta_kl; lra]]. unfold cat_kl.
  generalize (c_logits (cat_parametrize t mask values)) as l. generalize (c_probabilities (cat_parametrize t mask values)) as p.
  unfold rsum. induction p as [|x p IH]; intros [|y l]; cbn; try reflexivity. rewrite IH. lra.
Qed.

(** not far below zero otherwise *)
Theorem C71_lower_bound : forall t1 t2 mask values1 values2 logit1 logit2,
  length values1 = length values2 -> values1 <> [] -> length mask = length values1 ->
  - INR (length values1) * epsilon6 <= cat_kl (cat_parametrize t1 None values1) (cat_parametrize t2 None values2) /\
  - INR (length values1) * epsilon6 <= cat_kl (cat_parametrize t1 (Some mask) values1) (cat_parametrize t2 (Some mask) values2) /\
  - 2 * epsilon6 <= bern_kl (bern_parametrize logit1) (bern_parametrize logit2).
Proof.
  intros t1 t2 mask v1 v2 x1 x2 L N M.
  assert (G : forall m, length (masked m v1) = length v1 -> length (masked m (raw t1 v1)) = length v1 -> length (masked m (raw t2 v2)) = length v1 ->
    - INR (length v1) * epsilon6 <= cat_kl (cat_parametrize t1 m v1) (cat_parametrize t2 m v2)).
  { intros m _ L1 L2. unfold cat_kl. rewrite !cat_logits, !cat_probabilities.
    set (l1 := masked m (raw t1 v1)) in *. set (l2 := masked m (raw t2 v2)) in *.
    assert (N1 : l1 <> []) by (intros Z; rewrite Z in L1; destruct v1; [congruence|discriminate]).
    assert (N2 : l2 <> []) by (intros Z; rewrite Z in L2; destruct v1; [congruence|discriminate]).
    pose proof (kl_sum (softmax l1) (softmax l2)) as K. rewrite !softmax_length, (softmax_sum l1 N1), (softmax_sum l2 N2), L1, L2 in K.
    assert (F : forall l, Forall (fun x => 0 <= x) (softmax l)) by (intros l; eapply Forall_impl; [|apply softmax_forall]; cbn; intros; lra).
    specialize (K eq_refl (F l1) (F l2)). lra. }
  split; [apply G; cbn [masked]; rewrite ?raw_length; congruence|].
  split; [apply G; rewrite masked_length; rewrite ?raw_length; congruence|].
  unfold bern_kl, bern_parametrize. cbn. pose proof (sigmoid_in x1). pose proof (sigmoid_in x2).
  set (p := 1 / (1 + exp (- x1))) in *. set (q := 1 / (1 + exp (- x2))) in *.
  pose proof (kl_point p q ltac:(lra) ltac:(lra)). pose proof (kl_point (1 - p) (1 - q) ltac:(lra) ltac:(lra)). lra.
Qed.

Example C71_lower_bound_example : - INR 2 * epsilon6 <= cat_kl (cat_parametrize None None [1; 2]) (cat_parametrize (Some 0) None [3; 4]).
Proof. destruct (C71_lower_bound None (Some 0) [true; true] [1; 2] [3; 4] 0 0) as [H _]; try reflexivity; [congruence|exact H]. Qed.

(** the divergence of a Gaussian from itself is negative *)
Theorem C71_gaussian_refuted : forall b mean stddev, let g := gauss_parametrize b mean stddev in
  gauss_kl g g < 0 /\ gauss_kl g g = - (epsilon6 / (2 * (g_stddev g ^ 2 + epsilon6))).
Proof.
  intros b m s g. pose proof eps_pos as E. assert (Q : 0 <= g_stddev g ^ 2) by apply pow2_ge_0.
  assert (X : gauss_kl g g = - (epsilon6 / (2 * (g_stddev g ^ 2 + epsilon6)))) by (unfold gauss_kl; field; lra).
  split; [|exact X]. rewrite X. assert (0 < epsilon6 / (2 * (g_stddev g ^ 2 + epsilon6))) by (apply Rdiv_lt_0_compat; lra). lra.
Qed.

(** that of a categorical from a different one can be negative *)
Theorem C71_negative_refuted : cat_kl (cat_parametrize None None [ln (9 / 10); ln (1 / 10)])
  (cat_parametrize None None [ln (9 / 10 + epsilon6 / 2); ln (1 / 10 - epsilon6 / 2)]) < 0.
Proof.
  pose proof eps_pos as E. assert (E' : epsilon6 < 1 / 100) by (unfold epsilon6; lra).
  assert (S2 : forall x y, 0 < x -> 0 < y -> x + y = 1 -> softmax [ln x; ln y] = [x; y]).
  { intros x y X Y H. unfold softmax, rsum. cbn [map fold_right]. rewrite !exp_ln by assumption. replace (x + (y + 0)) with 1 by lra. unfold Rdiv. rewrite Rinv_1. f_equal; [lra|f_equal; lra]. }
  unfold cat_kl, cat_parametrize. cbn [c_probabilities c_logits masked]. rewrite !S2 by lra. unfold rsum. cbn [map map2 fold_right].
  pose proof (ln_ratio_upper (9 / 10 + epsilon6) (9 / 10 + epsilon6 / 2 + epsilon6) ltac:(lra) ltac:(lra)) as L1.
  pose proof (ln_ratio_upper (1 / 10 + epsilon6) (1 / 10 - epsilon6 / 2 + epsilon6) ltac:(lra) ltac:(lra)) as L2.
  replace ((9 / 10 + epsilon6) / (9 / 10 + epsilon6 / 2 + epsilon6)) with (1800002 / 1800003) in L1 by (unfold epsilon6; field).
  replace ((1 / 10 + epsilon6) / (1 / 10 - epsilon6 / 2 + epsilon6)) with (200002 / 200001) in L2 by (unfold epsilon6; field).
  lra.
Qed.

(** ** C72: discrete probabilities, likelihoods and values are consistent *)
Theorem C72_categorical : forall t mask values, values <> [] -> length mask = length values ->
  forall m, m = None \/ m = Some mask ->
  let c := cat_parametrize t m values in
  rsum (c_probabilities c) = 1 /\ length (c_probabilities c) = length values /\
  (forall a, (a < length values)%nat ->
     let p := nth a (c_probabilities c) 0 in
     0 < p <= 1 /\ cat_log_probability c a = ln (p + epsilon6) /\ ln p <= cat_log_probability c a <= ln p + epsilon6 / p) /\
  - epsilon6 <= cat_entropy c <= ln (INR (length values)).
Proof.
  intros t mask v N L m Hm. cbv zeta.
  assert (Lm : length (masked m (raw t v)) = length v) by (destruct Hm as [->| ->]; [apply raw_length|rewrite masked_length; rewrite raw_length; auto]).
  unfold cat_entropy, cat_log_probability. rewrite cat_logits, cat_probabilities. set (l := masked m (raw t v)) in *.
  assert (Nl : l <> []) by (intros Z; rewrite Z in Lm; destruct v; [congruence|discriminate]).
  pose proof (softmax_sum l Nl) as S1. pose proof (softmax_length l) as SL. pose proof (softmax_forall l) as F. rewrite Lm in SL.
  pose proof eps_pos as E. split; [exact S1|]. split; [exact SL|]. split.
  - intros a A. assert (P : 0 < nth a (softmax l) 0 <= 1) by (rewrite Forall_forall in F; apply F; apply nth_In; lia).
    split; [exact P|]. rewrite (nth_map_lt _ _ 0) by lia. split; [reflexivity|]. set (p := nth a (softmax l) 0) in *. split.
    + left. apply ln_increasing; lra.
    + pose proof (ln_ratio_upper (p + epsilon6) p ltac:(lra) ltac:(lra)) as H.
      replace ((p + epsilon6) / p - 1) with (epsilon6 / p) in H by (field; lra). lra.
  - assert (P : 0 < INR (length v)) by (apply lt_0_INR; destruct v; [congruence|cbn; lia]). split.
    + pose proof (entropy_low (softmax l)) as H. rewrite S1 in H. assert (- epsilon6 * 1 <= - rsum (map2 Rmult (softmax l) (map (fun x => ln (x + epsilon6)) (softmax l)))); [|lra].
      apply H. eapply Forall_impl; [|exact F]. cbn. intros; lra.
    + pose proof (entropy_sum (INR (length v)) (softmax l) P) as H. rewrite S1, SL, Rinv_r in H by lra.
      assert (- rsum (map2 Rmult (softmax l) (map (fun x => ln (x + epsilon6)) (softmax l))) <= 1 * ln (INR (length v)) + 1 - 1); [|lra].
      apply H. eapply Forall_impl; [|exact F]. cbn. intros; lra.
Qed.

Example C72_categorical_example : rsum (c_probabilities (cat_parametrize (Some 0) (Some [true; false]) [1; 2])) = 1.
Proof. apply (C72_categorical (Some 0) [true; false] [1; 2]); [congruence|reflexivity|now right]. Qed.

(** without mask, the probability of an action is the exponential of its advantage, per temperature *)
Theorem C72_advantage : forall t values a, (a < length values)%nat ->
  let c := cat_parametrize t None values in
  let temperature := match c_temperature c with Some x => x | None => 1 end in
  0 < temperature /\ nth a (c_probabilities c) 0 = exp ((cat_action_value c a - c_state c) / temperature).
Proof.
  intros t v a A. cbv zeta. rewrite cat_probabilities. cbn [masked].
  assert (N : v <> []) by (destruct v; [cbn in A; lia|congruence]).
  assert (Nr : raw t v <> []) by (destruct v; [congruence|discriminate]).
  rewrite nth_softmax by now rewrite raw_length. pose proof (rsum_exp_pos (raw t v) Nr) as P.
  assert (T : match c_temperature (cat_parametrize t None v) with Some x => x | None => 1 end = match t with Some t => positive t | None => 1 end) by (destruct t; reflexivity).
  rewrite T. set (T' := match t with Some t => positive t | None => 1 end) in *.
  assert (T0 : 0 < T') by (unfold T'; destruct t; [apply positive_pos|lra]). split; [exact T0|].
  assert (SV : c_state (cat_parametrize t None v) = T' * ln (rsum (map exp (raw t v)))).
  { unfold T', raw. destruct t; [reflexivity|]. cbn. unfold logsumexp. rewrite Rmult_1_l. do 3 f_equal.
    rewrite <- (map_id v) at 1. apply map_ext. intros. unfold Rdiv. lra. }
  rewrite SV. unfold cat_action_value. cbn [c_values cat_parametrize masked].
  replace ((nth a v 0 - T' * ln (rsum (map exp (raw t v)))) / T') with (nth a v 0 / T' + - ln (rsum (map exp (raw t v)))) by (field; lra).
  rewrite exp_plus, exp_Ropp, exp_ln by exact P. unfold raw at 1. rewrite (nth_map_lt _ _ 0) by exact A. reflexivity.
Qed.

Example C72_advantage_example : let c := cat_parametrize None None [1; 2] in nth 1 (c_probabilities c) 0 = exp ((2 - c_state c) / 1).
Proof. apply (C72_advantage None [1; 2] 1). cbn. lia. Qed.

(** a mask does not reach the state value: it is that of all actions *)
Theorem C72_masked_state_value_refuted : exists mask values a, nth a mask false = true /\
  let c := cat_parametrize None (Some mask) values in nth a (c_probabilities c) 0 <> exp (cat_action_value c a - c_state c).
Proof.
  exists [true; false], [0; 0], 0%nat. split; [reflexivity|]. cbv zeta.
  destruct (C72_categorical None [true; false] [0; 0] ltac:(congruence) eq_refl (Some [true; false]) ltac:(now right)) as [S1 [_ [_ _]]].
  pose proof (forbidden_improbable None [true; false] [0; 0] 1 0 eq_refl ltac:(cbn; lia) ltac:(cbn; lia) eq_refl eq_refl) as F.
  set (c := cat_parametrize None (Some [true; false]) [0; 0]) in *.
  assert (F' : nth 1 (c_probabilities c) 0 < epsilon6) by (apply F; pose proof two120_big as B; rewrite ten30 in B; cbn [nth]; lra).
  assert (P : nth 0 (c_probabilities c) 0 + nth 1 (c_probabilities c) 0 = 1) by (rewrite <- S1; unfold c; rewrite cat_probabilities; cbn; lra).
  assert (X : exp (cat_action_value c 0 - c_state c) = 1 / 2).
  { unfold cat_action_value, c. cbn. unfold logsumexp, rsum. cbn. rewrite exp_0.
    replace (0 - ln (1 + (1 + 0))) with (- ln 2) by (replace (1 + (1 + 0)) with 2 by lra; lra). rewrite exp_Ropp, exp_ln by lra. lra. }
  rewrite X. unfold epsilon6 in F'. lra.
Qed.

Theorem C72_bernoulli : forall logit, let n := bern_parametrize logit in
  0 < n_probability n < 1 /\ n_probability n / (1 - n_probability n) = exp logit /\
  bern_log_probability n true = ln (n_probability n + epsilon6) /\
  bern_log_probability n false = ln (1 - n_probability n + epsilon6) /\ - epsilon6 <= bern_entropy n <= ln 2.
Proof.
  intros x n. pose proof (sigmoid_in x) as P. pose proof (exp_pos (- x)) as X. pose proof eps_pos as E. split; [exact P|].
  split; [|split; [reflexivity|split; [reflexivity|]]].
  - unfold n. cbn. rewrite exp_Ropp. pose proof (exp_pos x). field. repeat split; lra.
  - unfold bern_entropy, n. cbn. set (p := 1 / (1 + exp (- x))) in *.
    pose proof (entropy_point 2 p ltac:(lra) ltac:(lra)). pose proof (entropy_point 2 (1 - p) ltac:(lra) ltac:(lra)).
    assert (ln (p + epsilon6) <= epsilon6) by (pose proof (ln_upper (p + epsilon6)); lra).
    assert (ln (1 - p + epsilon6) <= epsilon6) by (pose proof (ln_upper (1 - p + epsilon6)); lra). nra.
Qed.

(** ** C73: values of a value policy *)
(** state values are the values of the greedy action; it is the best of the allowed ones *)
Theorem C73_greedy_value : forall argmax state_value mask values i, is_argmax argmax ->
  length mask = length values -> (i < length values)%nat -> nth i mask false = true ->
  min_float < q_action_value state_value values i ->
  q_state_value state_value (Some mask) values = q_action_value state_value values (q_act argmax state_value (Some mask) values) /\
  q_state_value state_value None values = q_action_value state_value values (q_act argmax state_value None values) /\
  (forall j, (j < length values)%nat -> nth j mask false = true -> q_action_value state_value values j <= q_state_value state_value (Some mask) values) /\
  (forall j, (j < length values)%nat -> q_action_value state_value values j <= q_state_value state_value None values).
Proof.
  intros argmax s mask v i A L I M V. unfold q_state_value, q_act, q_action_value in *. cbn [masked].
  set (q := q_values s v) in *. assert (Lq : length q = length v) by apply q_length.
  destruct (masked_argmax argmax mask q i A ltac:(lia) ltac:(lia) M V) as [K1 [K2 K3]].
  assert (Nm : masked (Some mask) q <> []) by (intros Z; pose proof (masked_length mask q ltac:(lia)) as X; rewrite Z in X; cbn in X; lia).
  assert (Nq : q <> []) by (intros Z; rewrite Z in Lq; cbn in Lq; lia).
  assert (E1 : rmax (masked (Some mask) q) = nth (argmax (masked (Some mask) q)) q 0).
  { rewrite (rmax_argmax argmax) by assumption. rewrite nth_masked by lia. now rewrite K2. }
  repeat split.
  - exact E1.
  - now apply rmax_argmax.
  - intros j J Mj. change (map2 _ mask q) with (masked (Some mask) q). rewrite E1. apply K3; [lia|exact Mj].
  - intros j J. destruct (rmax_spec q Nq) as [_ X]. apply X. apply nth_In. lia.
Qed.

Example C73_greedy_value_example : forall j, (j < 3)%nat -> q_action_value None [1; 4; 2] j <= q_state_value None None [1; 4; 2].
Proof.
  destruct (C73_greedy_value first_max None [true; true; true] [1; 4; 2] 0 first_max_is_argmax) as [_ [_ [_ H]]]; try reflexivity; cbn [length]; try lia; [|exact H].
  cbn. pose proof min_float_low. pose proof two120_big as B. rewrite ten30 in B. lra.
Qed.

Theorem C73_greedy_bool : forall state_value x y,
  q_state_value_bool state_value [x; y] = q_action_value_bool state_value [x; y] (q_act_bool state_value [x; y]) /\
  (forall b, q_action_value_bool state_value [x; y] b <= q_state_value_bool state_value [x; y]).
Proof.
  intros s x y. unfold q_state_value_bool, q_action_value_bool, q_act_bool.
  set (q0 := nth 0 (q_values s [x; y]) 0). set (q1 := nth 1 (q_values s [x; y]) 0). split.
  - destruct (Rltb_spec q1 q0); [apply Rmax_left|apply Rmax_right]; lra.
  - intros []; [apply Rmax_l|apply Rmax_r].
Qed.

(** with a separate state value, action values average to it *)
Theorem C73_mean : forall s values, values <> [] ->
  rsum (map (q_action_value (Some s) values) (seq 0 (length values))) / INR (length values) = s.
Proof.
  intros s v N. rewrite <- (q_mean s v N) at 2. unfold rmean. rewrite q_length. do 2 f_equal.
  apply (nth_ext _ _ 0 0); [rewrite map_length, seq_length; symmetry; apply q_length|].
  intros i I. rewrite map_length, seq_length in I. rewrite (nth_map_lt _ _ 0%nat) by now rewrite seq_length. rewrite seq_nth by exact I. reflexivity.
Qed.

Example C73_mean_example : rsum (map (q_action_value (Some 5) [1; 4]) [0%nat; 1%nat]) / INR 2 = 5.
Proof. apply (C73_mean 5 [1; 4]). congruence. Qed.

(** the state value of the policy is the mean of its components' greedy values only if implicit *)
Theorem C73_policy_value : forall argmax components, is_argmax argmax ->
  Forall (fun '(mask, values) => mask = None /\ values <> []) components ->
  policy_state_value None components =
  rsum (map (fun '(mask, values) => nth (argmax values) values 0) components) / INR (length components).
Proof.
  intros argmax cs A F. unfold policy_state_value, rmean. rewrite map_length. do 2 f_equal. apply map_ext_in.
  intros [m v] I. rewrite Forall_forall in F. destruct (F _ I) as [-> N]. now apply rmax_argmax.
Qed.

Example C73_policy_value_example : policy_state_value None [(None, [1; 4]); (None, [2])] = (nth (first_max [1; 4]) [1; 4] 0 + (nth (first_max [2]) [2] 0 + 0)) / INR 2.
Proof. apply (C73_policy_value first_max [(None, [1; 4]); (None, [2])] first_max_is_argmax). repeat apply Forall_cons; try apply Forall_nil; split; congruence. Qed.

Theorem C73_separate_refuted : forall argmax, is_argmax argmax ->
  policy_state_value (Some 0) [(None, [0; 2])] = 0 /\ q_action_value (Some 0) [0; 2] (q_act argmax (Some 0) None [0; 2]) = 1.
Proof.
  intros argmax A. split; [reflexivity|].
  destruct (C73_greedy_value argmax (Some 0) [true; true] [0; 2] 1 A eq_refl ltac:(cbn; lia) eq_refl) as [_ [<- _]].
  - cbn. unfold rmean, rsum. cbn. pose proof min_float_low. pose proof two120_big as B. rewrite ten30 in B. lra.
  - unfold q_state_value, q_values, masked, rmean, rsum. cbn. rewrite Rmax_right; lra.
Qed.

(** ** C74: variable noise does not outlast the action *)
Theorem C74_reverted : forall A deterministic scale noise (act : vars -> A) variables, shape noise = shape variables ->
  snd (noisy_act deterministic scale noise act variables) = variables /\
  fst (noisy_act deterministic scale noise act variables) =
    act (if deterministic then variables else if Req_EM_T scale 0 then variables else vadd variables noise).
Proof.
  intros A d s noise act v H. unfold noisy_act. cbn [fst snd].
  destruct (Reqb_spec s 0) as [->|N]; destruct d; cbn [orb]; (split; [|try (destruct (Req_EM_T _ 0); [|]; reflexivity || congruence)]);
    try reflexivity; entries; lra.
Qed.

Example C74_reverted_example : snd (noisy_act false 1 [[2; 3]] (fun v => v) [[5; 7]]) = [[5; 7]] /\ fst (noisy_act false 1 [[2; 3]] (fun v => v) [[5; 7]]) = [[5 + 2; 7 + 3]].
Proof.
  destruct (C74_reverted vars false 1 [[2; 3]] (fun v => v) [[5; 7]] eq_refl) as [H1 H2]. split; [exact H1|]. rewrite H2.
  destruct (Req_EM_T 1 0); [lra|reflexivity].
Qed.

(** ** C75: without temperature, samples are the mode, and the mode is a most likely action *)
Theorem C75_zero_temperature : forall argmax c g t b lo hi p n temperature uniform normal x y, temperature < epsilon6 ->
  cat_sample argmax c temperature uniform = cat_mode argmax c /\
  gauss_sample t b g temperature normal = gauss_mode t b g /\
  beta_sample lo hi p temperature x y = beta_mode lo hi p /\
  bern_sample n temperature (nth 0 uniform 0) = bern_mode n.
Proof.
  intros argmax c g t b lo hi p n T u nm x y H. unfold cat_sample, gauss_sample, beta_sample, bern_sample.
  destruct (Rltb_spec T epsilon6); [|lra]. repeat split.
Qed.

Example C75_zero_temperature_example : gauss_sample None (None, None) (gauss_parametrize (None, None) 3 0) 0 17 = 3.
Proof.
  destruct (C75_zero_temperature first_max (cat_parametrize None None [1]) (gauss_parametrize (None, None) 3 0) None (None, None) 0 1
    (beta_parametrize (fun x => x) 0 0) (bern_parametrize 0) 0 [] 17 1 1) as [_ [H _]]; [exact eps_pos|]. rewrite H. reflexivity.
Qed.

Lemma clip_nearest m y : - 1 <= y <= 1 -> (clip_by_value (-1) 1 m - m) ^ 2 <= (y - m) ^ 2.
Proof.
  intros Y. unfold clip_by_value. destruct (Rle_lt_dec m (-1)) as [A|A].
  - rewrite Rmax_right, Rmin_left by lra. nra.
  - rewrite Rmax_left by lra. destruct (Rle_lt_dec m 1) as [B|B].
    + rewrite Rmin_left by lra. pose proof (pow2_ge_0 (y - m)). nra.
    + rewrite Rmin_right by lra. nra.
Qed.

Theorem C75_mode : forall argmax t mask values logit mean stddev lo hi i, is_argmax argmax ->
  length mask = length values -> (i < length values)%nat -> nth i mask false = true -> min_float < nth i values 0 ->
  (forall a, (a < length values)%nat -> nth a mask false = true ->
     let c := cat_parametrize t (Some mask) values in cat_log_probability c a <= cat_log_probability c (cat_mode argmax c)) /\
  (forall a, let n := bern_parametrize logit in bern_log_probability n a <= bern_log_probability n (bern_mode n)) /\
  (forall x, let g := gauss_parametrize (None, None) mean stddev in
     gauss_log_probability None (None, None) g x <= gauss_log_probability None (None, None) g (gauss_mode None (None, None) g)) /\
  (lo < hi -> forall x, lo <= x <= hi -> let b := (Some lo, Some hi) in let g := gauss_parametrize b mean stddev in
     gauss_log_probability (Some Clipping) b g x <= gauss_log_probability (Some Clipping) b g (gauss_mode (Some Clipping) b g)).
Proof.
  intros argmax t mask v logit m s lo hi i A L I M V. pose proof eps_pos as E. repeat split.
  - intros a Ia Ma. cbv zeta. destruct (C54_mode argmax t mask v i A L I M V) as [K1 [K2 K3]].
    set (k := cat_mode argmax (cat_parametrize t (Some mask) v)) in *. unfold cat_log_probability. rewrite cat_logits.
    pose proof (probabilities_length t mask v L) as PL. rewrite !(nth_map_lt _ _ 0) by lia.
    assert (X : nth a (c_probabilities (cat_parametrize t (Some mask) v)) 0 <= nth k (c_probabilities (cat_parametrize t (Some mask) v)) 0).
    { rewrite cat_probabilities. assert (Lm : length (masked (Some mask) (raw t v)) = length v) by (rewrite masked_length; rewrite raw_length; auto).
      rewrite !nth_softmax by lia. rewrite !nth_masked by (rewrite raw_length; lia). rewrite Ma, K2.
      assert (Nm : masked (Some mask) (raw t v) <> []) by (intros Z; rewrite Z in Lm; cbn in Lm; lia).
      pose proof (rsum_exp_pos _ Nm). apply Rmult_le_compat_r; [left; now apply Rinv_0_lt_compat|].
      assert (R : nth a (raw t v) 0 <= nth k (raw t v) 0).
      { unfold raw. rewrite !(nth_map_lt _ _ 0) by lia. apply Rmult_le_compat_r; [|now apply K3].
        left. apply Rinv_0_lt_compat. destruct t; [apply positive_pos|lra]. }
      destruct R as [R|R]; [left; now apply exp_increasing|rewrite R; lra]. }
    assert (P : 0 < nth a (c_probabilities (cat_parametrize t (Some mask) v)) 0).
    { rewrite cat_probabilities. apply softmax_pos. rewrite masked_length; rewrite raw_length; lia. }
    destruct X as [X|X]; [left; apply ln_increasing; lra|rewrite X; lra].
  - intros a. unfold bern_mode, bern_log_probability, bern_parametrize. cbn. pose proof (sigmoid_in logit) as P. set (p := 1 / (1 + exp (- logit))) in *.
    assert (Mo : forall x y, 0 < x -> x <= y -> ln x <= ln y) by (intros x y X [Y|Y]; [left; now apply ln_increasing|rewrite Y; lra]).
    destruct (Rleb_spec (1 / 2) p), a; try lra; apply Mo; lra.
  - intros x. cbn. set (S := positive s). assert (Q : 0 <= S ^ 2) by apply pow2_ge_0.
    unfold gauss_log_probability, gauss_mode. cbn. fold S.
    assert (Y : forall d, - (1 / 2) * d ^ 2 / (S ^ 2 + epsilon6) <= 0).
    { intros d. assert (0 <= d ^ 2) by apply pow2_ge_0. apply Rdiv_le_iff; lra. }
    specialize (Y (x - m)). cbn in *. replace (m - m) with 0 by lra. unfold Rdiv in *. lra.
  - intros H x X. cbv zeta. unfold gauss_log_probability, gauss_mode. rewrite unbounded_clipping by exact H.
    set (g := gauss_parametrize _ m s). change (g_mean g) with m. cbn [unbounded].
    set (y := 2 * (x - lo) / (hi - lo) - 1). assert (Yx : x = lo + (hi - lo) * (1 / 2) * (y + 1)) by (unfold y; field; lra).
    assert (Y : - 1 <= y <= 1) by nra.
    assert (Q : 0 < g_stddev g ^ 2 + epsilon6) by (pose proof (pow2_ge_0 (g_stddev g)); lra).
    assert (D : (clip_by_value (-1) 1 m - m) ^ 2 <= (y - m) ^ 2).
    { now apply clip_nearest. }
    assert (- (1 / 2) * (y - m) ^ 2 / (g_stddev g ^ 2 + epsilon6) <= - (1 / 2) * (clip_by_value (-1) 1 m - m) ^ 2 / (g_stddev g ^ 2 + epsilon6)).
    { apply Rmult_le_compat_r; [left; now apply Rinv_0_lt_compat|]. lra. }
    lra.
Qed.

Example C75_mode_example : let c := cat_parametrize (Some 3) (Some [true; false; true]) [1; 5; 2] in
  cat_log_probability c 0 <= cat_log_probability c (cat_mode first_max c).
Proof.
  destruct (C75_mode first_max (Some 3) [true; false; true] [1; 5; 2] 0 0 0 0 1 0 first_max_is_argmax) as [H _]; try reflexivity; cbn [length nth]; try lia.
  - pose proof min_float_low. pose proof two120_big as B. rewrite ten30 in B. lra.
  - apply H; [cbn; lia|reflexivity].
Qed.

(** what Beta returns as the mode is its mean *)
Theorem C75_beta_refuted : forall lgamma, exists alpha beta x, 0 <= x <= 1 /\
  let b := beta_parametrize lgamma alpha beta in beta_log_probability 0 1 b (beta_mode 0 1 b) < beta_log_probability 0 1 b x.
Proof.
  intros lg. exists 0, (ln 3), (3 / 4). split; [lra|]. cbv zeta. pose proof eps_pos as E.
  assert (C : forall x, 1 <= x <= 3 -> clip_log (ln x) = ln x).
  { intros x X. apply clip_id. assert (Mo : forall x y, 0 < x -> x <= y -> ln x <= ln y) by (intros a b A [Y|Y]; [left; now apply ln_increasing|rewrite Y; lra]).
    split; [apply Mo; unfold epsilon6; lra|]. rewrite <- ln_Rinv by exact E. apply Mo; unfold epsilon6; rewrite ?Rinv_inv; lra. }
  unfold beta_log_probability, beta_mode, beta_parametrize, beta_inverse. cbn [b_alpha b_beta b_sum b_log_norm].
  assert (C0 : exp (clip_log 0) = 1) by (rewrite <- ln_1 at 1; rewrite C by lra; apply exp_ln; lra).
  rewrite !C0, !C by lra. rewrite !exp_ln by lra.
  set (N := lg _ + lg _ - lg _). clearbody N.
  replace ((0 + (1 - 0) * ((3 + 1) / (1 + 1 + (3 + 1))) - 0) / (1 - 0)) with (2 / 3) by field.
  replace ((3 / 4 - 0) / (1 - 0)) with (3 / 4) by field.
  assert (K : ln ((2 / 3 + epsilon6) * (2 / 3 + epsilon6) * (2 / 3 + epsilon6) * (1 + (- (2 / 3) + epsilon6))) <
              ln ((3 / 4 + epsilon6) * (3 / 4 + epsilon6) * (3 / 4 + epsilon6) * (1 + (- (3 / 4) + epsilon6)))).
  { apply ln_increasing; unfold epsilon6; lra. }
  rewrite !ln_mult in K by (unfold epsilon6; lra). lra.
Qed.

(** nor is the hyperbolic tangent of a Gaussian's mean a most likely action *)
Theorem C75_tanh_refuted : exists mean stddev x, let b := (Some 0, Some 1) in let g := gauss_parametrize b mean stddev in
  0 <= x <= 1 /\ gauss_log_probability (Some Tanh) b g (gauss_mode (Some Tanh) b g) < gauss_log_probability (Some Tanh) b g x.
Proof.
  exists 3, 0, (bounded (Some Tanh) (Some 0, Some 1) (31 / 10)). cbv zeta. split.
  { pose proof (bounded_within Tanh (Some 0, Some 1) (Some Tanh) (31 / 10) eq_refl ltac:(cbn; lra)) as H. unfold within in H. cbn in H. exact H. }
  assert (T : forall x, 0 <= x <= 4 -> Rabs (tanh x) <= 1 - epsilon6).
  { intros x X. assert (E1 : exp (- x) <= exp x) by (destruct (Req_dec x 0) as [->|]; [rewrite Ropp_0; lra|left; apply exp_increasing; lra]).
    assert (E2 : exp x <= 81).
    { apply Rle_trans with (exp 4); [destruct (Req_dec x 4) as [->|]; [lra|left; apply exp_increasing; lra]|].
      replace 4 with (1 + 1 + (1 + 1)) by lra. rewrite !exp_plus. pose proof exp_le_3. pose proof (exp_pos 1). assert (0 <= exp 1 * exp 1 <= 9) by nra. nra. }
    pose proof (exp_pos x) as P. pose proof (exp_pos (- x)) as P'.
    assert (E3 : exp x * exp (- x) = 1) by (rewrite <- exp_plus; replace (x + - x) with 0 by lra; apply exp_0).
    assert (1 - tanh x >= epsilon6).
    { rewrite one_minus_tanh. apply Rle_ge. apply Rdiv_ge_iff; [lra|]. unfold epsilon6. nra. }
    assert (0 <= tanh x) by (rewrite tanh_exp; apply Rdiv_ge_iff; lra). rewrite Rabs_right; lra. }
  unfold gauss_log_probability, gauss_mode. rewrite !unbounded_tanh by (try apply T; cbn; lra).
  set (g := gauss_parametrize _ 3 0). change (g_mean g) with 3.
  assert (S : g_stddev g = 1 / 4).
  { unfold g, gauss_parametrize, positive. cbn. assert (C : clip_log 0 = 0).
    { apply clip_id. assert (ln epsilon6 < 0) by (rewrite <- ln_1; apply ln_increasing; unfold epsilon6; lra). lra. }
    rewrite C. unfold softplus. rewrite exp_0. replace (1 + 1) with 2 by lra.
    assert (0 < ln 2) by (rewrite <- ln_1; apply ln_increasing; lra). field. lra. }
  rewrite S. unfold softplus.
  assert (B1 : 0 < ln (1 + exp (- 2 * (31 / 10)))) by (rewrite <- ln_1 at 1; apply ln_increasing; [lra|]; pose proof (exp_pos (- 2 * (31 / 10))); lra).
  assert (B2 : ln (1 + exp (- 2 * 3)) <= 1 / 64).
  { pose proof (exp_pos (- 2 * 3)) as P. apply Rle_trans with (exp (- 2 * 3)); [pose proof (ln_upper (1 + exp (- 2 * 3))); lra|].
    replace (- 2 * 3) with (- (1 + 1 + (1 + 1) + (1 + 1))) by lra. rewrite exp_Ropp. unfold Rdiv. rewrite Rmult_1_l.
    apply Rinv_le_contravar; [lra|]. rewrite !exp_plus. pose proof (exp_ineq1_le 1) as X. replace (1 + 1) with 2 in X by lra.
    set (q := exp 1 * exp 1). assert (4 <= q) by (unfold q; nra). assert (16 <= q * q) by nra. nra. }
  replace (3 - 3) with 0 by lra. replace (31 / 10 - 3) with (1 / 10) by lra.
  assert (Q : - (1 / 2) * (1 / 10) ^ 2 / ((1 / 4) ^ 2 + epsilon6) >= - (8 / 100)).
  { apply Rle_ge. apply Rdiv_ge_iff; unfold epsilon6; lra. }
  assert (Z : - (1 / 2) * 0 ^ 2 / ((1 / 4) ^ 2 + epsilon6) = 0) by (unfold Rdiv; ring).
  rewrite Z. lra.
Qed.

(** ** C76: exploration *)
(** deterministic acting and zero exploration leave an action; otherwise an int or bool action is
    replaced exactly if the draw is below the exploration rate, and stays in range *)
Theorem C76_exploration : forall deterministic exploration b normal uniform is_random num_values random (a_float : R) (a_int : nat) (a_bool : bool),
  let float := explore deterministic exploration (explore_float b exploration normal a_float) a_float in
  let int := explore deterministic exploration (explore_int exploration is_random random a_int) a_int in
  let bool := explore deterministic exploration (explore_bool exploration uniform is_random a_bool) a_bool in
  (deterministic = true \/ exploration = 0 -> float = a_float /\ int = a_int /\ bool = a_bool) /\
  ((random < num_values)%nat -> (a_int < num_values)%nat -> (int < num_values)%nat) /\
  (deterministic = false -> 0 <= is_random ->
     (is_random < exploration -> int = random /\ (bool = true <-> uniform < 1 / 2)) /\
     (exploration <= is_random -> int = a_int /\ bool = a_bool)) /\
  (proper b -> within b a_float -> within b float).
Proof.
  intros d e b n u r N x af ai ab. unfold explore, explore_int, explore_bool. repeat split.
  - destruct H as [-> | ->]; [reflexivity|]. destruct (Reqb_spec 0 0); [|congruence]. now rewrite orb_true_r.
  - destruct H as [-> | ->]; [reflexivity|]. destruct (Reqb_spec 0 0); [|congruence]. now rewrite orb_true_r.
  - destruct H as [-> | ->]; [reflexivity|]. destruct (Reqb_spec 0 0); [|congruence]. now rewrite orb_true_r.
  - intros X A. destruct (d || Reqb e 0); [exact A|]. now destruct (Rltb r e).
  - subst d. cbn [orb]. destruct (Reqb_spec e 0); [lra|]. destruct (Rltb_spec r e); [reflexivity|lra].
  - subst d. cbn [orb]. destruct (Reqb_spec e 0); [lra|]. destruct (Rltb_spec r e); [|lra]. destruct (Rltb_spec u (1 / 2)); [auto|discriminate].
  - subst d. cbn [orb]. destruct (Reqb_spec e 0); [lra|]. destruct (Rltb_spec r e); [|lra]. destruct (Rltb_spec u (1 / 2)); [auto|lra].
  - subst d. cbn [orb]. destruct (Reqb e 0); [reflexivity|]. destruct (Rltb_spec r e); [lra|reflexivity].
  - subst d. cbn [orb]. destruct (Reqb e 0); [reflexivity|]. destruct (Rltb_spec r e); [lra|reflexivity].
  - destruct (d || Reqb e 0); [apply H0|now apply (explore_float_within b e n af)].
  - destruct (d || Reqb e 0); [apply H0|now apply (explore_float_within b e n af)].
Qed.

Example C76_exploration_example : explore false (1 / 2) (explore_int (1 / 2) (1 / 4) 3 5) 5%nat = 3%nat.
Proof.
  destruct (C76_exploration false (1 / 2) (None, None) 0 0 (1 / 4) 6 3 0 5 true) as [_ [_ [H _]]].
  destruct (H eq_refl ltac:(lra)) as [H1 _]. apply H1. lra.
Qed.

Print Assumptions C54_mode.
Print Assumptions C54_value_policy.
Print Assumptions C54_sample.
Print Assumptions C54_many_actions_refuted.
Print Assumptions C54_random.
Print Assumptions C54_exploration.
Print Assumptions C55_gaussian.
Print Assumptions C55_beta.
Print Assumptions C55_exploration.
Print Assumptions C55_inverse.
Print Assumptions C55_preimage.
Print Assumptions C55_inverse_refuted.
Print Assumptions C70_reachable.
Print Assumptions C70_one_sided_refuted.
Print Assumptions C71_equal.
Print Assumptions C71_lower_bound.
Print Assumptions C71_gaussian_refuted.
Print Assumptions C71_negative_refuted.
Print Assumptions C72_categorical.
Print Assumptions C72_advantage.
Print Assumptions C72_masked_state_value_refuted.
Print Assumptions C72_bernoulli.
Print Assumptions C73_greedy_value.
Print Assumptions C73_greedy_bool.
Print Assumptions C73_mean.
Print Assumptions C73_policy_value.
Print Assumptions C73_separate_refuted.
Print Assumptions C74_reverted.
Print Assumptions C75_zero_temperature.
Print Assumptions C75_mode.
Print Assumptions C75_beta_refuted.
Print Assumptions C75_tanh_refuted.
Print Assumptions C76_exploration.
