(** Further claims about action distributions: C71, C72, C73 continued, C81 (entropies and divergences
    are expectations of log-likelihoods), C82 (likelihoods are densities of the action).

    Specification vocabulary: [expectation] of a quadratic polynomial under a mean and a standard
    deviation, sums over actions, antiderivatives. *)

From Coq Require Import String List ZArith Reals Bool Lia Lra Psatz.
From Verif Require Import OptVec ParModel SolveModel OptModel OptProofs DistModel DistProofs DistProofs2 DistProofs3 DistProps.
Import ListNotations.
Open Scope R_scope.

(** ** C71: divergences are not negative *)
Lemma stddev_low b m s : 1 / 24 <= g_stddev (gauss_parametrize b m s).
Proof. pose proof (positive_lower s). destruct b as [[lo|] [hi|]]; cbn; lra. Qed.

(** The divergence of Gaussians is at least what the distance of their means contributes, up to an
    error of the order of epsilon; the error is bounded for all network outputs *)
Theorem C71_gaussian_lower_partial : forall b mean1 stddev1 mean2 stddev2,
  let g1 := gauss_parametrize b mean1 stddev1 in let g2 := gauss_parametrize b mean2 stddev2 in
  let s := g_stddev g2 in
  (mean1 - mean2) ^ 2 / (2 * (s ^ 2 + epsilon6)) - epsilon6 * (1 / s + 1 / (2 * s ^ 2)) <= gauss_kl g1 g2 /\
  - 312 * epsilon6 <= gauss_kl g1 g2.
Proof.
  intros b m1 x1 m2 x2 g1 g2 s. pose proof eps_pos as E. pose proof eps_small as E'.
  pose proof (stddev_low b m1 x1) as U0. pose proof (stddev_low b m2 x2) as V0. fold g1 in U0. fold g2 in V0. fold s in V0.
  assert (B : (m1 - m2) ^ 2 / (2 * (s ^ 2 + epsilon6)) - epsilon6 * (1 / s + 1 / (2 * s ^ 2)) <= gauss_kl g1 g2).
  { unfold gauss_kl. change (g_mean g1) with m1. change (g_mean g2) with m2.
    assert (L1 : g_log_stddev g1 = ln (g_stddev g1 + epsilon6)) by reflexivity.
    assert (L2 : g_log_stddev g2 = ln (g_stddev g2 + epsilon6)) by reflexivity.
    rewrite L1, L2. fold s. set (u := g_stddev g1) in *. clearbody u s. clear g1 g2 L1 L2.
    pose proof (ln_ratio_upper (u + epsilon6) (s + epsilon6) ltac:(lra) ltac:(lra)) as L.
    set (D := (m1 - m2) ^ 2). assert (Q : 0 < s ^ 2 + epsilon6) by nra.
    apply Rle_trans with (1 - (u + epsilon6) / (s + epsilon6) + 1 / 2 * (u ^ 2 + D) / (s ^ 2 + epsilon6) - 1 / 2); [|lra].
    (* 2 u k <= u^2 + k^2 for k = (s^2 + eps) / (s + eps) *)
    set (k := (s ^ 2 + epsilon6) / (s + epsilon6)). assert (K : 0 < k) by (apply Rdiv_lt_0_compat; lra).
    assert (K1 : u * (/ (s + epsilon6)) = u * k / (s ^ 2 + epsilon6)) by (unfold k; field; lra).
    assert (K2 : k ^ 2 / (s ^ 2 + epsilon6) = (s ^ 2 + epsilon6) / (s + epsilon6) ^ 2) by (unfold k; field; lra).
    assert (A : 0 <= (u - k) ^ 2 / (2 * (s ^ 2 + epsilon6))).
    { apply Rmult_le_pos; [apply pow2_ge_0|]. left. apply Rinv_0_lt_compat. lra. }
    assert (A' : (u - k) ^ 2 / (2 * (s ^ 2 + epsilon6)) = 1 / 2 * u ^ 2 / (s ^ 2 + epsilon6) - u * / (s + epsilon6) + 1 / 2 * ((s ^ 2 + epsilon6) / (s + epsilon6) ^ 2)).
    { rewrite K1, <- K2. field. lra. }
    assert (S1 : (s ^ 2 + epsilon6) / (s + epsilon6) ^ 2 <= 1 + epsilon6 / s ^ 2).
    { apply Rdiv_le_iff; [nra|]. assert (0 < / s ^ 2) by (apply Rinv_0_lt_compat; nra).
      apply Rle_trans with ((1 + epsilon6 / s ^ 2) * s ^ 2); [right; field; nra|]. apply Rmult_le_compat_l; [|nra].
      assert (0 <= epsilon6 / s ^ 2) by (apply Rmult_le_pos; lra). lra. }
    assert (S2 : epsilon6 / (s + epsilon6) <= epsilon6 / s).
    { unfold Rdiv. apply Rmult_le_compat_l; [lra|]. apply Rinv_le_contravar; lra. }
    replace ((u + epsilon6) / (s + epsilon6)) with (u * / (s + epsilon6) + epsilon6 / (s + epsilon6)) by (field; lra).
    replace (1 / 2 * (u ^ 2 + D) / (s ^ 2 + epsilon6)) with (1 / 2 * u ^ 2 / (s ^ 2 + epsilon6) + D / (2 * (s ^ 2 + epsilon6))) by (field; lra).
    replace (epsilon6 * (1 / s + 1 / (2 * s ^ 2))) with (epsilon6 / s + 1 / 2 * (epsilon6 / s ^ 2)) by (field; lra). lra. }
  split; [exact B|]. apply Rle_trans with (2 := B).
  assert (P : 0 <= (m1 - m2) ^ 2 / (2 * (s ^ 2 + epsilon6))).
  { apply Rmult_le_pos; [apply pow2_ge_0|]. left. apply Rinv_0_lt_compat. nra. }
  assert (I : 1 / s <= 24). { apply Rdiv_le_iff; lra. }
  assert (I2 : 1 / (2 * s ^ 2) <= 288). { apply Rdiv_le_iff; nra. }
  nra.
Qed.

Example C71_gaussian_lower_example : 49 <= gauss_kl (gauss_parametrize (None, None) 10 0) (gauss_parametrize (None, None) 0 0).
Proof.
  destruct (C71_gaussian_lower_partial (None, None) 10 0 0 0) as [H _]. cbv zeta in H.
  assert (S : g_stddev (gauss_parametrize (None, None) 0 0) = 1).
  { cbn. unfold positive, clip_log. rewrite clip_id. 2: { assert (ln epsilon6 < 0); [|lra]. rewrite <- ln_1. apply ln_increasing; unfold epsilon6; lra. }
    unfold softplus. rewrite exp_0. replace (1 + 1) with 2 by lra. field. assert (0 < ln 2) by (rewrite <- ln_1; apply ln_increasing; lra). lra. }
  rewrite S in H. apply Rle_trans with (2 := H). unfold epsilon6. lra.
Qed.

(** The divergence of Beta distributions is not negative if the functions used for lgamma and digamma
    are such that the logarithm of the Beta function is convex (which it is; TensorFlow's lgamma and
    digamma are not part of the model) *)
Definition convex_norm (lgamma digamma : R -> R) : Prop :=
  let F a b := lgamma a + lgamma b - lgamma (a + b) in
  forall a b a' b', 1 < a -> 1 < b -> 1 < a' -> 1 < b' ->
  F a b + (digamma a - digamma (a + b)) * (a' - a) + (digamma b - digamma (a + b)) * (b' - b) <= F a' b'.
Theorem C71_beta : forall lgamma digamma alpha1 beta1 alpha2 beta2, convex_norm lgamma digamma ->
  0 <= beta_kl digamma (beta_parametrize lgamma alpha1 beta1) (beta_parametrize lgamma alpha2 beta2).
Proof.
  intros lg dg a1 b1 a2 b2 C. destruct (beta_params lg a1 b1) as [A1 B1]. destruct (beta_params lg a2 b2) as [A2 B2].
  pose proof (C _ _ _ _ A1 B1 A2 B2) as H. unfold beta_kl. cbn in *. nra.
Qed.
(** x ln x - x, the leading term of lgamma, and its derivative ln x *)
Example C71_beta_example : convex_norm (fun x => x * ln x - x) ln.
Proof.
  unfold convex_norm. cbv zeta. intros a b c d A B C D.
  pose proof (ln_ratio_upper (a / (a + b)) (c / (c + d)) ltac:(apply Rdiv_lt_0_compat; lra) ltac:(apply Rdiv_lt_0_compat; lra)) as H1.
  pose proof (ln_ratio_upper (b / (a + b)) (d / (c + d)) ltac:(apply Rdiv_lt_0_compat; lra) ltac:(apply Rdiv_lt_0_compat; lra)) as H2.
  assert (LD : forall x y, 0 < x -> 0 < y -> ln (x / y) = ln x - ln y) by (intros x y X Y; unfold Rdiv; rewrite ln_mult, ln_Rinv; try lra; apply Rinv_0_lt_compat; lra).
  rewrite !LD in H1, H2 by lra.
  assert (X1 : c * (a / (a + b) / (c / (c + d)) - 1) = (c + d) * (a / (a + b)) - c) by (field; lra).
  assert (X2 : d * (b / (a + b) / (d / (c + d)) - 1) = (c + d) * (b / (a + b)) - d) by (field; lra).
  assert (X3 : (c + d) * (a / (a + b)) + (c + d) * (b / (a + b)) = c + d) by (field; lra).
  apply Rmult_le_compat_l with (r := c) in H1; [|lra]. apply Rmult_le_compat_l with (r := d) in H2; [|lra].
  rewrite X1 in H1. rewrite X2 in H2. nra.
Qed.

(** ** C72, continued *)
(** A Bernoulli action is true for a share of the draws given by the probabilities to the power of the
    inverse temperature *)
Theorem C72_bernoulli_sample : forall logit temperature uniform, epsilon6 <= temperature ->
  let n := bern_parametrize logit in
  let p := 1 / (1 + exp (- logit)) in
  let weight x := Rpower (x + epsilon6) (1 / (temperature + epsilon6)) in
  (bern_sample n temperature uniform = true <-> uniform <= weight p / (weight p + weight (1 - p) + epsilon6)) /\
  (temperature + epsilon6 = 1 -> (bern_sample n temperature uniform = true <-> uniform * (1 + 3 * epsilon6) <= p + epsilon6)).
Proof.
  intros x T u HT n p w. pose proof eps_pos as E. pose proof (sigmoid_in x) as P. fold p in P.
  assert (G : bern_sample n T u = true <-> u <= w p / (w p + w (1 - p) + epsilon6)).
  { unfold bern_sample. destruct (Rltb_spec T epsilon6) as [H|_]; [lra|].
    assert (W : forall y, exp (ln (y + epsilon6) / (T + epsilon6)) = w y).
    { intros y. unfold w, Rpower. f_equal. field. lra. }
    cbn [n_true n_false n bern_parametrize]. fold p. rewrite !W. destruct (Rleb_spec u (w p / (w p + w (1 - p) + epsilon6))); split; intros; try lra; try reflexivity; discriminate. }
  split; [exact G|]. intros H1. rewrite G. unfold w. rewrite H1. replace (1 / 1) with 1 by field. rewrite !Rpower_1 by lra.
  replace (p + epsilon6 + (1 - p + epsilon6) + epsilon6) with (1 + 3 * epsilon6) by lra. apply Rdiv_ge_iff. lra.
Qed.
Example C72_bernoulli_sample_example : bern_sample (bern_parametrize 0) (1 - epsilon6) (49 / 100) = true /\
  bern_sample (bern_parametrize 0) (1 - epsilon6) (51 / 100) = false.
Proof.
  pose proof eps_pos as E. assert (T : epsilon6 <= 1 - epsilon6) by (unfold epsilon6; lra).
  assert (P : 1 / (1 + exp (- 0)) = 1 / 2) by (rewrite Ropp_0, exp_0; lra). split.
  - apply (proj2 (C72_bernoulli_sample 0 (1 - epsilon6) (49 / 100) T) ltac:(lra)). rewrite P. unfold epsilon6. lra.
  - destruct (bern_sample (bern_parametrize 0) (1 - epsilon6) (51 / 100)) eqn:H; [|reflexivity].
    apply (proj2 (C72_bernoulli_sample 0 (1 - epsilon6) (51 / 100) T) ltac:(lra)) in H. rewrite P in H. unfold epsilon6 in H. lra.
Qed.

(** The value of an action exceeds that of the state by its log-likelihood: for Bernoulli actions and
    Gaussian ones without the tanh transformation *)
Theorem C72_gaussian : forall t b mean stddev action, t <> Some Tanh ->
  let g := gauss_parametrize b mean stddev in
  gauss_action_value t b g action - gauss_state_value g = gauss_log_probability t b g action.
Proof.
  intros t b m s a H g. unfold gauss_action_value, gauss_state_value, gauss_log_probability.
  destruct t as [[|]|]; try congruence; lra.
Qed.
Example C72_gaussian_example : exists a, gauss_action_value (Some Clipping) (Some 2, Some 5) (gauss_parametrize (Some 2, Some 5) 0 0) a <>
  gauss_action_value (Some Clipping) (Some 2, Some 5) (gauss_parametrize (Some 2, Some 5) 0 0) 2.
Proof.
  exists (7 / 2). unfold gauss_action_value, unbounded. pose proof (stddev_low (Some 2, Some 5) 0 0) as H. pose proof eps_pos as E.
  set (s := g_stddev _) in *. change (g_mean _) with 0. intros C. assert (Q : 0 < s ^ 2 + epsilon6) by nra.
  assert (X : 0 < 1 / 2 / (s ^ 2 + epsilon6)) by (apply Rdiv_lt_0_compat; lra).
  replace (- (1 / 2) * (2 * (7 / 2 - 2) / (5 - 2) - 1 - 0) ^ 2 / (s ^ 2 + epsilon6)) with 0 in C by (field; lra).
  replace (- (1 / 2) * (2 * (2 - 2) / (5 - 2) - 1 - 0) ^ 2 / (s ^ 2 + epsilon6)) with (- (1 / 2 / (s ^ 2 + epsilon6))) in C by (field; lra). lra.
Qed.
(** with it they differ, by the logarithm of the transformation's derivative *)
Theorem C72_tanh_refuted : exists action, forall mean stddev,
  let g := gauss_parametrize (Some (-1), Some 1) mean stddev in
  gauss_action_value (Some Tanh) (Some (-1), Some 1) g action - gauss_state_value g <>
  gauss_log_probability (Some Tanh) (Some (-1), Some 1) g action.
Proof.
  pose proof eps_pos as E. pose proof eps_small as E'.
  exists (1 / 2). intros m s g. unfold gauss_action_value, gauss_state_value, gauss_log_probability.
  set (x := unbounded _ _ _). intros C. assert (Z : ln 2 - x - softplus (- 2 * x) = 0) by lra. clear C.
  assert (X : tanh x = 1 / 2).
  { unfold x, unbounded. replace (2 * (1 / 2 - -1) / (1 - -1) - 1) with (1 / 2) by field. rewrite clip_id by lra. apply tanh_atanh. lra. }
  clearbody x. unfold softplus in Z. apply (f_equal exp) in Z. unfold Rminus in Z. rewrite exp_0, !exp_plus, exp_ln, !exp_Ropp, exp_ln in Z by (pose proof (exp_pos (-2 * x)); lra).
  replace (-2 * x) with (- x + - x) in Z by lra. rewrite exp_plus in Z.
  rewrite tanh_exp in X. rewrite exp_Ropp in X, Z. pose proof (exp_pos x) as Y. set (y := exp x) in *. clearbody y.
  assert (X' : y - / y = 1 / 2 * (y + / y)). { rewrite <- X. field. split; nra. }
  assert (I : y * / y = 1) by (apply Rinv_r; lra). set (i := / y) in *. assert (0 < i) by (apply Rinv_0_lt_compat; lra). clearbody i.
  assert (P : 0 < 1 + i * i) by nra. assert (Z' : 2 * i = 1 + i * i).
  { replace (1 + i * i) with ((1 + i * i) * (2 * i * / (1 + i * i))) by (rewrite Z; ring). field. lra. }
  assert (i = 1) by nra. subst i. nra.
Qed.

(** ** C73, continued *)
(** In the mode separate the policy's state value is the average action value of every component *)
Theorem C73_separate : forall s components mask values, In (mask, values) components -> values <> [] ->
  policy_state_value (Some s) components = rsum (map (q_action_value (Some s) values) (seq 0 (length values))) / INR (length values).
Proof. intros s cs m v _ N. symmetry. now apply C73_mean. Qed.
Example C73_separate_example : policy_state_value (Some 5) [(None, [1; 3])] = (4 + 6) / 2.
Proof. rewrite (C73_separate 5 _ None [1; 3]); [|now left|congruence]. cbn. unfold q_action_value, q_values, rmean, rsum. cbn. lra. Qed.

(** ** C81: entropies and divergences are expectations of log-likelihoods *)
(** The expectation of a x^2 + b x + c for a mean m and a standard deviation s *)
Definition expectation (m s a b c : R) : R := a * (m ^ 2 + s ^ 2) + b * m + c.

(** Gaussian actions (log-likelihoods before the transformation to bounded actions) *)
Theorem C81_gaussian : forall bs mean1 stddev1 mean2 stddev2,
  let g1 := gauss_parametrize bs mean1 stddev1 in let g2 := gauss_parametrize bs mean2 stddev2 in
  let l1 := gauss_log_probability None bs g1 in let l2 := gauss_log_probability None bs g2 in
  let error := epsilon6 / (2 * (g_stddev g1 ^ 2 + epsilon6)) in
  (exists a b c, (forall x, l1 x = a * x ^ 2 + b * x + c) /\
     gauss_entropy g1 = - expectation mean1 (g_stddev g1) a b c + error) /\
  (exists a b c, (forall x, l1 x - l2 x = a * x ^ 2 + b * x + c) /\
     gauss_kl g1 g2 = expectation mean1 (g_stddev g1) a b c - error) /\
  0 < error <= 288 * epsilon6.
Proof.
  intros bs m1 x1 m2 x2 g1 g2 l1 l2 error. pose proof eps_pos as E.
  pose proof (stddev_low bs m1 x1) as U. pose proof (stddev_low bs m2 x2) as V. fold g1 in U. fold g2 in V.
  assert (Q1 : 0 < g_stddev g1 ^ 2 + epsilon6) by nra. assert (Q2 : 0 < g_stddev g2 ^ 2 + epsilon6) by nra.
  assert (L : ln (2 * PI * exp 1) = ln (2 * PI) + 1).
  { rewrite ln_mult; [now rewrite ln_exp|pose proof PI_RGT_0; lra|apply exp_pos]. }
  unfold l1, l2, gauss_log_probability, unbounded, gauss_entropy, gauss_kl, error, expectation. change (g_mean g1) with m1. change (g_mean g2) with m2.
  rewrite L. set (s1 := g_stddev g1) in *. set (s2 := g_stddev g2) in *. set (n1 := g_log_stddev g1). set (n2 := g_log_stddev g2). set (lp := ln (2 * PI)). clearbody s1 s2 n1 n2 lp.
  split; [|split].
  - exists (- (1 / 2) / (s1 ^ 2 + epsilon6)), (m1 / (s1 ^ 2 + epsilon6)), (- (1 / 2) * m1 ^ 2 / (s1 ^ 2 + epsilon6) - n1 - 1 / 2 * lp).
    split; [intros x|]; field; lra.
  - exists (- (1 / 2) / (s1 ^ 2 + epsilon6) + 1 / 2 / (s2 ^ 2 + epsilon6)), (m1 / (s1 ^ 2 + epsilon6) - m2 / (s2 ^ 2 + epsilon6)),
      (- (1 / 2) * m1 ^ 2 / (s1 ^ 2 + epsilon6) + 1 / 2 * m2 ^ 2 / (s2 ^ 2 + epsilon6) - n1 + n2).
    split; [intros x|]; field; lra.
  - split; [apply Rdiv_lt_0_compat; lra|]. apply Rdiv_le_iff; [lra|]. assert (1 <= 576 * (s1 ^ 2 + epsilon6)) by nra. nra.
Qed.

(** Beta actions, for what lgamma and digamma say about the expectations of the logarithms of a draw x
    and of 1 - x: digamma(beta) - digamma(alpha + beta) and digamma(alpha) - digamma(alpha + beta) *)
Theorem C81_beta : forall lgamma digamma lo hi alpha1 beta1 alpha2 beta2,
  let b1 := beta_parametrize lgamma alpha1 beta1 in let b2 := beta_parametrize lgamma alpha2 beta2 in
  let l1 := beta_log_probability lo hi b1 in let l2 := beta_log_probability lo hi b2 in
  let x action := (action - lo) / (hi - lo) in
  let e_ln_x := digamma (b_beta b1) - digamma (b_alpha b1 + b_beta b1) in
  let e_ln_1x := digamma (b_alpha b1) - digamma (b_alpha b1 + b_beta b1) in
  (exists p q r, (forall action, l1 action = p * ln (x action + epsilon6) + q * ln (1 - x action + epsilon6) + r) /\
     beta_entropy digamma b1 = - (p * e_ln_x + q * e_ln_1x + r)) /\
  (exists p q r, (forall action, l1 action - l2 action = p * ln (x action + epsilon6) + q * ln (1 - x action + epsilon6) + r) /\
     beta_kl digamma b1 b2 = p * e_ln_x + q * e_ln_1x + r).
Proof.
  intros lg dg lo hi a1 c1 a2 c2 b1 b2 l1 l2 x ex e1. split.
  - exists (b_beta b1 - 1), (b_alpha b1 - 1), (- b_log_norm b1). split.
    + intros a. unfold l1, beta_log_probability, beta_inverse. fold (x a). replace (1 + (- x a + epsilon6)) with (1 - x a + epsilon6) by lra. lra.
    + unfold beta_entropy, ex, e1. change (b_sum b1) with (b_alpha b1 + b_beta b1). ring.
  - exists (b_beta b1 - b_beta b2), (b_alpha b1 - b_alpha b2), (b_log_norm b2 - b_log_norm b1). split.
    + intros a. unfold l1, l2, beta_log_probability, beta_inverse. fold (x a). replace (1 + (- x a + epsilon6)) with (1 - x a + epsilon6) by lra. ring.
    + unfold beta_kl, ex, e1. change (b_sum b1) with (b_alpha b1 + b_beta b1). change (b_sum b2) with (b_alpha b2 + b_beta b2). ring.
Qed.

(** Discrete actions: sums over the actions *)
Theorem C81_categorical : forall t1 t2 m values1 values2, length values1 = length values2 ->
  (forall mask, m = Some mask -> length mask = length values1) ->
  let c1 := cat_parametrize t1 m values1 in let c2 := cat_parametrize t2 m values2 in
  let p a := nth a (c_probabilities c1) 0 in
  cat_entropy c1 = - rsum (map (fun a => p a * cat_log_probability c1 a) (seq 0 (length values1))) /\
  cat_kl c1 c2 = rsum (map (fun a => p a * (cat_log_probability c1 a - cat_log_probability c2 a)) (seq 0 (length values1))).
Proof.
  intros t1 t2 m v1 v2 LV LM c1 c2 p.
  assert (ML : forall v, length v = length v1 -> length (masked m v) = length v1).
  { intros v H. destruct m as [mask|]; [|exact H]. rewrite masked_length; [exact H|]. rewrite H. now apply LM. }
  assert (P1 : length (c_probabilities c1) = length v1).
  { unfold c1. rewrite cat_probabilities, softmax_length. apply ML. apply raw_length. }
  assert (P2 : length (c_probabilities c2) = length v1).
  { unfold c2. rewrite cat_probabilities, softmax_length. apply ML. rewrite raw_length. congruence. }
  assert (L1 : length (c_logits c1) = length v1) by (unfold c1 in *; now rewrite cat_logits, map_length).
  assert (L2 : length (c_logits c2) = length v1) by (unfold c2 in *; now rewrite cat_logits, map_length).
  unfold cat_entropy, cat_kl, cat_log_probability, p. clearbody c1 c2. clear p. set (n := length v1) in *. clearbody n.
  assert (G : forall (f g h : list R), length f = n -> length g = n -> length h = n ->
    map2 Rmult f g = map (fun a => nth a f 0 * nth a g 0) (seq 0 n) /\
    map2 Rmult f (map2 Rminus g h) = map (fun a => nth a f 0 * (nth a g 0 - nth a h 0)) (seq 0 n)).
  { clear. induction n as [|n IH]; intros [|x f] [|y g] [|z h] F G H; try discriminate; cbn; auto.
    injection F as F. injection G as G. injection H as H. destruct (IH f g h F G H) as [IH1 IH2]. rewrite IH1, IH2.
    rewrite <- seq_shift, !map_map. auto. }
  destruct (G _ _ _ P1 L1 L2) as [G1 G2]. rewrite G1, G2. auto.
Qed.
Theorem C81_bernoulli : forall logit1 logit2,
  let n1 := bern_parametrize logit1 in let n2 := bern_parametrize logit2 in
  let p (b : bool) := if b then n_probability n1 else 1 - n_probability n1 in
  bern_entropy n1 = - rsum (map (fun b => p b * bern_log_probability n1 b) [true; false]) /\
  bern_kl n1 n2 = rsum (map (fun b => p b * (bern_log_probability n1 b - bern_log_probability n2 b)) [true; false]).
Proof. intros x y n1 n2 p. unfold bern_entropy, bern_kl, rsum, p. cbn [map fold_right bern_log_probability]. lra. Qed.

Example C81_gaussian_example : gauss_entropy (gauss_parametrize (None, None) 3 0) <> gauss_entropy (gauss_parametrize (None, None) 3 10).
Proof.
  unfold gauss_entropy. intros C. assert (C' : g_log_stddev (gauss_parametrize (None, None) 3 0) = g_log_stddev (gauss_parametrize (None, None) 3 10)) by lra. clear C.
  cbn in C'. pose proof eps_pos as E. apply ln_inv in C'; [|pose proof (positive_pos 0); lra|pose proof (positive_pos 10); lra].
  assert (P : positive 0 = positive 10) by lra. unfold positive in P.
  assert (N : 0 < ln 2) by (rewrite <- ln_1; apply ln_increasing; lra).
  assert (S : softplus (clip_log 0) = softplus (clip_log 10)).
  { apply (f_equal (fun x => x * (ln 2 + 1 / 5))) in P. unfold Rdiv in P. rewrite !Rmult_assoc, !Rinv_l in P by lra. lra. }
  unfold softplus in S. apply ln_inv in S; [|pose proof (exp_pos (clip_log 0)); lra|pose proof (exp_pos (clip_log 10)); lra].
  assert (X : clip_log 0 = clip_log 10) by (apply exp_inv; lra).
  assert (B : ln epsilon6 < -1).
  { replace (-1) with (ln (exp (-1))) by apply ln_exp. apply ln_increasing; [lra|]. change (-1) with (- (1)). rewrite exp_Ropp. apply Rlt_le_trans with (/ 3); [unfold epsilon6; lra|].
    apply Rinv_le_contravar; [apply exp_pos|apply exp_le_3]. }
  unfold clip_log, clip_by_value in X. rewrite !Rmax_left, (Rmin_left 0) in X by lra.
  revert X. unfold Rmin. destruct (Rle_dec 10 (- ln epsilon6)); lra.
Qed.

(** The entropy of a bounded action does not take the bounds into account: it exceeds that of the
    uniform distribution, the greatest possible one *)
Theorem C81_bounded_refuted : exists mean stddev, forall t lo hi, gauss_init t (Some lo, Some hi) = inl (Some t) /\
  (lo < hi <= lo + 1 -> ln (hi - lo) < gauss_entropy (gauss_parametrize (Some lo, Some hi) mean stddev)).
Proof.
  exists 0, 10. intros t lo hi. split; [destruct t; reflexivity|]. intros H. pose proof eps_pos as E.
  assert (N : 0 < ln 2) by (rewrite <- ln_1; apply ln_increasing; lra).
  assert (N1 : ln 2 <= 1) by (pose proof (ln_upper 2 ltac:(lra)); lra).
  assert (B : ln epsilon6 < -10).
  { replace (-10) with (ln (exp (-10))) by apply ln_exp. apply ln_increasing; [lra|]. change (-10) with (- (10)). rewrite exp_Ropp. apply Rlt_le_trans with (/ 3 ^ 10); [unfold epsilon6; lra|].
    apply Rinv_le_contravar; [apply exp_pos|]. replace 10 with (INR 10) by (cbn; lra). rewrite <- (Rmult_1_r (INR 10)). 
    assert (X : forall k, exp (INR k * 1) = exp 1 ^ k).
    { induction k as [|k IH]; [cbn; rewrite Rmult_0_l; apply exp_0|]. rewrite S_INR, Rmult_plus_distr_r, exp_plus, IH, Rmult_1_l. cbn. ring. }
    rewrite X. apply pow_incr. split; [left; apply exp_pos|apply exp_le_3]. }
  assert (C : clip_log 10 = 10) by (unfold clip_log; apply clip_id; lra).
  assert (S : 10 <= softplus 10).
  { unfold softplus. rewrite <- (ln_exp 10) at 1. left. apply ln_increasing; [apply exp_pos|lra]. }
  assert (G : 1 <= g_stddev (gauss_parametrize (Some lo, Some hi) 0 10)).
  { cbn. unfold positive. rewrite C. assert (4 <= (softplus 10 + 1 / 5) / (ln 2 + 1 / 5)) by (apply Rdiv_ge_iff; lra). lra. }
  unfold gauss_entropy. assert (G' : g_log_stddev (gauss_parametrize (Some lo, Some hi) 0 10) = ln (g_stddev (gauss_parametrize (Some lo, Some hi) 0 10) + epsilon6)) by reflexivity.
  rewrite G'. set (s := g_stddev _) in *. clearbody s.
  assert (L1 : 0 < ln (s + epsilon6)) by (rewrite <- ln_1; apply ln_increasing; lra).
  assert (L2 : 0 < ln (2 * PI * exp 1)).
  { rewrite <- ln_1. apply ln_increasing; [lra|]. pose proof PI2_3_2. pose proof (exp_ineq1 1 ltac:(lra)). nra. }
  assert (L3 : ln (hi - lo) <= 0).
  { destruct (Req_dec (hi - lo) 1) as [->|]; [rewrite ln_1; lra|]. rewrite <- ln_1. left. apply ln_increasing; lra. }
  lra.
Qed.

(** ** C82: likelihoods are densities of the action *)
(** Gaussian without bounds: the density with standard deviation sqrt(s^2 + epsilon) in the exponent
    and s + epsilon in front *)
Theorem C82_gaussian : forall mean stddev action,
  let b := (None, None) in let g := gauss_parametrize b mean stddev in let s := g_stddev g in
  gauss_init Clipping b = inl None /\
  exp (gauss_log_probability None b g action) =
    exp (- (action - mean) ^ 2 / (2 * (s ^ 2 + epsilon6))) / ((s + epsilon6) * sqrt (2 * PI)).
Proof.
  intros m x a b g s. split; [reflexivity|]. pose proof eps_pos as E. pose proof (stddev_low b m x) as S. fold g in S. fold s in S.
  assert (P : 0 < 2 * PI) by (pose proof PI_RGT_0; lra). assert (Q : 0 < sqrt (2 * PI)) by now apply sqrt_lt_R0.
  unfold gauss_log_probability, unbounded. change (g_mean g) with m. assert (L : g_log_stddev g = ln (s + epsilon6)) by reflexivity. rewrite L. fold s.
  assert (LS : 1 / 2 * ln (2 * PI) = ln (sqrt (2 * PI))).
  { rewrite <- (sqrt_sqrt (2 * PI)) at 1 by lra. rewrite ln_mult by assumption. lra. }
  rewrite LS. unfold Rminus. rewrite !exp_plus, !exp_Ropp, !exp_ln by lra.
  replace (- (1 / 2) * (a + - m) ^ 2 / (s ^ 2 + epsilon6)) with (- (a + - m) ^ 2 / (2 * (s ^ 2 + epsilon6))) by (field; nra). field. lra.
Qed.
Example C82_gaussian_example : exp (gauss_log_probability None (None, None) (gauss_parametrize (None, None) 3 0) 3) = / ((1 + epsilon6) * sqrt (2 * PI)).
Proof.
  destruct (C82_gaussian 3 0 3) as [_ H]. cbv zeta in H. rewrite H.
  assert (S : g_stddev (gauss_parametrize (None, None) 3 0) = 1).
  { cbn. unfold positive, clip_log. rewrite clip_id. 2: { assert (ln epsilon6 < 0); [|lra]. rewrite <- ln_1. apply ln_increasing; unfold epsilon6; lra. }
    unfold softplus. rewrite exp_0. replace (1 + 1) with 2 by lra. field. assert (0 < ln 2) by (rewrite <- ln_1; apply ln_increasing; lra). lra. }
  rewrite S. pose proof eps_pos. replace (- (3 - 3) ^ 2 / (2 * (1 ^ 2 + epsilon6))) with 0 by (field; lra). rewrite exp_0. unfold Rdiv. ring.
Qed.

(** Beta: the likelihood does not take the range of the action into account.  For alpha = beta = 2 the
    total probability of the actions from lo to hi is (hi - lo) (1 + 6 epsilon + 6 epsilon^2) *)
Theorem C82_range_refuted : forall lgamma lo hi, lo < hi -> lgamma 2 = 0 -> lgamma 4 = ln 6 ->
  let b := beta_parametrize lgamma 0 0 in
  b_alpha b = 2 /\ b_beta b = 2 /\
  exists F, (forall x, lo <= x <= hi -> derivable_pt_lim F x (exp (beta_log_probability lo hi b x))) /\
    F hi - F lo = (hi - lo) * (1 + 6 * epsilon6 + 6 * epsilon6 ^ 2).
Proof.
  intros lg lo hi H G2 G4 b. pose proof eps_pos as E.
  assert (A : b_alpha b = 2 /\ b_beta b = 2).
  { cbn. unfold clip_log. rewrite clip_id. 2: { assert (ln epsilon6 < 0); [|lra]. rewrite <- ln_1. apply ln_increasing; unfold epsilon6; lra. }
    rewrite exp_0. lra. }
  destruct A as [A B]. split; [exact A|]. split; [exact B|].
  assert (N : b_log_norm b = - ln 6).
  { change (b_log_norm b) with (lg (b_alpha b) + lg (b_beta b) - lg (b_alpha b + b_beta b)). rewrite A, B. replace (2 + 2) with 4 by lra. lra. }
  set (e := epsilon6) in *. set (w := hi - lo). assert (W : 0 < w) by (unfold w; lra).
  exists (fun x => 6 * w * (((x - lo) / w) ^ 2 / 2 - ((x - lo) / w) ^ 3 / 3 + (e + e ^ 2) * ((x - lo) / w))). split.
  - intros x X. set (t := (x - lo) / w). assert (T : 0 <= t <= 1).
    { split; unfold t; [apply Rdiv_ge_iff|apply Rdiv_le_iff]; unfold w; lra. }
    assert (V : exp (beta_log_probability lo hi b x) = 6 * w * ((2 * t) / 2 - (3 * t ^ 2) / 3 + (e + e ^ 2) * 1) * / w).
    { unfold beta_log_probability, beta_inverse. fold w. fold t. fold e. rewrite A, B, N. replace (2 - 1) with 1 by lra.
      rewrite !Rmult_1_l. unfold Rminus. rewrite !exp_plus, Ropp_involutive, !exp_ln by lra. field. lra. }
    rewrite V. clear V X.
    set (P := fun t => 6 * w * (t ^ 2 / 2 - t ^ 3 / 3 + (e + e ^ 2) * t)).
    apply (derivable_pt_lim_comp (fun x => (x - lo) / w) P).
    + intros eps He. exists (mkposreal 1 ltac:(lra)). intros h Hh _. replace (((x + h - lo) / w - (x - lo) / w) / h - / w) with 0 by (field; lra). rewrite Rabs_R0. exact He.
    + fold t. unfold P. apply (derivable_pt_lim_scal (fun t => t ^ 2 / 2 - t ^ 3 / 3 + (e + e ^ 2) * t)).
      apply (derivable_pt_lim_plus (fun t => t ^ 2 / 2 - t ^ 3 / 3) (fun t => (e + e ^ 2) * t)).
      * apply (derivable_pt_lim_minus (fun t => t ^ 2 / 2) (fun t => t ^ 3 / 3)).
        -- pose proof (derivable_pt_lim_scal (fun t => t ^ 2) (/ 2) t _ (derivable_pt_lim_pow t 2)) as D.
           unfold mult_real_fct in D. replace (2 * t / 2) with (/ 2 * (INR 2 * t ^ Init.Nat.pred 2)) by (cbn; field).
           eapply derivable_pt_lim_ext; [|exact D]. intros y. cbv beta. field.
        -- pose proof (derivable_pt_lim_scal (fun t => t ^ 3) (/ 3) t _ (derivable_pt_lim_pow t 3)) as D.
           unfold mult_real_fct in D. replace (3 * t ^ 2 / 3) with (/ 3 * (INR 3 * t ^ Init.Nat.pred 3)) by (cbn; field).
           eapply derivable_pt_lim_ext; [|exact D]. intros y. cbv beta. field.
      * apply (derivable_pt_lim_scal id). apply derivable_pt_lim_id.
  - replace ((hi - lo) / w) with 1 by (unfold w; field; lra). replace ((lo - lo) / w) with 0 by (unfold w; field; lra). fold w. field.
Qed.
(** a likelihood above one per unit: the range 0 to 10 has total probability more than ten *)
Example C82_range_example : forall lgamma, lgamma 2 = 0 -> lgamma 4 = ln 6 -> exists F,
  (forall x, 0 <= x <= 10 -> derivable_pt_lim F x (exp (beta_log_probability 0 10 (beta_parametrize lgamma 0 0) x))) /\ 10 < F 10 - F 0.
Proof.
  intros lg A B. destruct (C82_range_refuted lg 0 10 ltac:(lra) A B) as (_ & _ & F & D & M). exists F. split; [exact D|].
  rewrite M. unfold epsilon6. lra.
Qed.

(** A Beta action from draws of gamma distributions with the parameters alpha and beta: the odds of the
    action within its range are the ratio of the draws, without temperature those of the parameters, so
    beta is the exponent of the action and alpha that of its complement, as in the likelihood *)
Theorem C82_beta_sample : forall lgamma lo hi alpha beta temperature alpha_draw beta_draw, lo < hi -> 0 < alpha_draw -> 0 < beta_draw ->
  let b := beta_parametrize lgamma alpha beta in
  let action := beta_sample lo hi b temperature alpha_draw beta_draw in
  lo < action < hi /\
  (action - lo) / (hi - action) = (if Rlt_dec temperature epsilon6 then b_beta b / b_alpha b else beta_draw / alpha_draw).
Proof.
  intros lg lo hi al be T a d H A B b action. destruct (beta_params lg al be) as [PA PB]. fold b in PA, PB.
  assert (G : forall p q, 0 < p -> 0 < q -> lo < lo + (hi - lo) * (q / (p + q)) < hi /\
    (lo + (hi - lo) * (q / (p + q)) - lo) / (hi - (lo + (hi - lo) * (q / (p + q)))) = q / p).
  { intros p q P Q. assert (S1 : 0 < q / (p + q)) by (apply Rdiv_lt_0_compat; lra). assert (S2 : 0 < p / (p + q)) by (apply Rdiv_lt_0_compat; lra).
    assert (S : q / (p + q) + p / (p + q) = 1) by (field; lra). split; [nra|]. field. repeat split; try lra.
    replace (hi * (p + q) - (lo * (p + q) + (hi - lo) * q)) with ((hi - lo) * p) by ring. apply Rmult_integral_contrapositive_currified; lra. }
  unfold action, beta_sample, Rltb. destruct (Rlt_dec T epsilon6).
  - change (b_sum b) with (b_alpha b + b_beta b). apply G; lra.
  - apply G; lra.
Qed.
Example C82_beta_sample_example : forall lgamma, beta_sample 2 10 (beta_parametrize lgamma 0 0) 1 1 3 = 8.
Proof. intros lg. unfold beta_sample, Rltb. destruct (Rlt_dec 1 epsilon6); [unfold epsilon6 in *; lra|]. field. Qed.

Print Assumptions C71_gaussian_lower_partial.
Print Assumptions C71_beta.
Print Assumptions C72_bernoulli_sample.
Print Assumptions C72_gaussian.
Print Assumptions C72_tanh_refuted.
Print Assumptions C73_separate.
Print Assumptions C81_gaussian.
Print Assumptions C81_beta.
Print Assumptions C81_categorical.
Print Assumptions C81_bernoulli.
Print Assumptions C81_bounded_refuted.
Print Assumptions C82_gaussian.
Print Assumptions C82_range_refuted.
Print Assumptions C82_beta_sample.
