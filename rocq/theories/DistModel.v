(** Model of the action distributions, value policies and exploration:
    /repo/tensorforce/core/distributions/{categorical,gaussian,beta,bernoulli}.py,
    /repo/tensorforce/core/policies/parametrized_value_policy.py, value_policy.py,
    /repo/tensorforce/core/models/tensorforce.py 1066-1269 (core_act), random.py 34-96.

    Floats are real numbers (no rounding, infinities or nan).  Distributions are modelled for one
    component of an action at a time: all operations on tensors are element-wise (or along the last
    axis, for the values of an int action).  What the linear layers return for the network's
    embedding is an argument.  Random draws, and tf.math.lgamma / digamma, are arguments.  Left out:
    summaries and tracking, and everything concerning only shapes. *)

From Coq Require Import String List ZArith Reals Bool.
From Verif Require Import OptVec ParModel SolveModel OptModel.
Import ListNotations.
Open Scope R_scope.

(** tf_util.get_dtype(type='float').min for float32 *)
Definition min_float : R := - (2 ^ 128 - 2 ^ 104).
(** tf.nn.softplus (gaussian.py 175) *)
Definition softplus (x : R) : R := ln (1 + exp x).
(** tf.math.reduce_sum, reduce_mean along the last axis (categorical.py 388, 397) *)
Definition rsum (l : list R) : R := fold_right Rplus 0 l.
(** value_policy.py 127-138 *)
Definition rmean (l : list R) : R := rsum l / INR (length l).
(** tf.nn.softmax, tf.reduce_logsumexp (categorical.py 234) *)
Definition softmax (l : list R) : list R := map (fun x => exp x / rsum (map exp l)) l.
(** categorical.py 199, 217 *)
Definition logsumexp (l : list R) : R := ln (rsum (map exp l)).
(** tf.math.reduce_max of a non-empty list (parametrized_value_policy.py 537, 571) *)
Fixpoint rmax (l : list R) : R :=
  match l with [] => 0 | [x] => x | x :: l' => Rmax x (rmax l') end.
(** tf.math.atanh (gaussian.py 329, 387) *)
Definition atanh (y : R) : R := 1 / 2 * ln ((1 + y) / (1 - y)).

(** tf.clip_by_value(t, log_epsilon, -log_epsilon) (gaussian.py 167-170, categorical.py 202-205,
    beta.py 115, 123) *)
Definition clip_log (x : R) : R := clip_by_value (ln epsilon6) (- ln epsilon6) x.
(** "softplus transformation" of temperature and standard deviation (gaussian.py 172-176,
    categorical.py 207-210) *)
Definition positive (x : R) : R := (softplus (clip_log x) + 1 / 5) / (ln 2 + 1 / 5).

(** tf.where(mask, x, min_float) (categorical.py 226-231, parametrized_value_policy.py
    360-364, 532-536, 566-570) *)
Definition masked (mask : option (list bool)) (l : list R) : list R :=
  match mask with
  | None => l
  | Some m => map2 (fun (b : bool) x => if b then x else min_float) m l
  end.

(** ** Categorical *)
(** parameters (categorical.py 243-252) *)
Record cat := {
  c_probabilities : list R;
  c_temperature : option R;
  c_logits : list R;
  c_values : list R;        (* action_values *)
  c_state : R               (* state_value *)
}.

(** Categorical.parametrize, categorical.py 172-252, given the action values and, unless
    temperature_mode is None, the temperature output; [mask] is None without
    config.enable_int_action_masking *)
Definition cat_parametrize (temperature : option R) (mask : option (list bool)) (action_values : list R) : cat :=
  let logits :=
    match temperature with
    | None => action_values
    | Some t => map (fun x => x / positive t) action_values
    end in
  let state_value :=
    match temperature with
    | None => logsumexp logits
    | Some t => positive t * logsumexp logits
    end in
  let action_values := masked mask action_values in
  let logits := masked mask logits in
  let probabilities := softmax logits in
  let logits := map (fun p => ln (p + epsilon6)) probabilities in
  {| c_probabilities := probabilities; c_temperature := option_map positive temperature;
     c_logits := logits; c_values := action_values; c_state := state_value |}.

Section Argmax.
(** tf.math.argmax: for equal entries TensorFlow guarantees no particular one *)
Variable argmax : list R -> nat.

(** Categorical.mode, categorical.py 255-301 *)
Definition cat_mode (c : cat) : nat := argmax (c_values c).

(** Gumbel noise from a uniform draw (categorical.py 362-368) *)
Definition gumbel (u : R) : R := - ln (- ln u).

(** Categorical.sample, categorical.py 304-373 *)
Definition cat_sample (c : cat) (temperature : R) (uniform : list R) : nat :=
  if Rltb temperature epsilon6 then argmax (c_values c)
  else
    let temp_logits := map (fun x => x / (temperature + epsilon6)) (c_logits c) in
    let temp_logits := map2 (fun p x => if Rltb p epsilon6 then min_float else x) (c_probabilities c) temp_logits in
    argmax (map2 (fun x u => x + gumbel u) temp_logits uniform).
End Argmax.

(** Categorical.log_probability, entropy, kl_divergence, action_value, categorical.py 376-407 *)
Definition cat_log_probability (c : cat) (action : nat) : R := nth action (c_logits c) 0.
(** Categorical.entropy, categorical.py 385-388 *)
Definition cat_entropy (c : cat) : R := - rsum (map2 Rmult (c_probabilities c) (c_logits c)).
(** Categorical.kl_divergence, categorical.py 391-397 *)
Definition cat_kl (c1 c2 : cat) : R :=
  rsum (map2 Rmult (c_probabilities c1) (map2 Rminus (c_logits c1) (c_logits c2))).
(** Categorical.action_value, categorical.py 400-407 *)
Definition cat_action_value (c : cat) (action : nat) : R := nth action (c_values c) 0.

(** ** Gaussian *)
(** action_spec.min_value, action_spec.max_value (gaussian.py 63-79) *)
Definition bounds := (option R * option R)%type.
(** gaussian.py 65 *)
Inductive transform := Clipping | Tanh.

(** Gaussian.__init__, gaussian.py 63-79: the transformation used; inr: TensorforceError *)
Definition gauss_init (t : transform) (b : bounds) : option transform + string :=
  match t, b with
  | Tanh, (Some _, None) | Tanh, (None, Some _) => inr "one-sided bounded action space"%string
  | _, (None, None) => inl None
  | t, _ => inl (Some t)
  end.

(** parameters of Gaussian (gaussian.py 144-185) *)
Record gauss := { g_mean : R; g_stddev : R; g_log_stddev : R }.

(** Gaussian.parametrize, gaussian.py 144-185 *)
Definition gauss_parametrize (b : bounds) (mean softplus_stddev : R) : gauss :=
  let stddev := positive softplus_stddev in
  let stddev := match b with (Some _, Some _) => stddev * (1 / 4) | _ => stddev end in
  {| g_mean := mean; g_stddev := stddev; g_log_stddev := ln (stddev + epsilon6) |}.

(** bounded transformation, gaussian.py 219-241, 287-309 *)
Definition bounded (t : option transform) (b : bounds) (action : R) : R :=
  match t with
  | None => action
  | Some t =>
      let action := match t with Tanh => tanh action | Clipping => clip_by_value (-1) 1 action end in
      match b with
      | (Some lo, Some hi) => lo + (hi - lo) * (1 / 2) * (action + 1)
      | (Some lo, None) => Rmax lo action
      | (None, Some hi) => Rmin hi action
      | (None, None) => action (* assert *)
      end
  end.

(** Gaussian.mode, gaussian.py 188-243; Gaussian.sample, gaussian.py 246-311, for a normal draw *)
Definition gauss_mode (t : option transform) (b : bounds) (g : gauss) : R := bounded t b (g_mean g).
(** Gaussian.sample, gaussian.py 246-311 *)
Definition gauss_sample (t : option transform) (b : bounds) (g : gauss) (temperature normal : R) : R :=
  bounded t b (if Rltb temperature epsilon6 then g_mean g else g_mean g + g_stddev g * temperature * normal).

(** inverse bounded transformation, gaussian.py 317-329, 375-387 *)
Definition unbounded (t : option transform) (b : bounds) (action : R) : R :=
  match t with
  | None => action
  | Some t =>
      let action := match b with (Some lo, Some hi) => 2 * (action - lo) / (hi - lo) - 1 | _ => action end in
      match t with
      | Tanh => atanh (clip_by_value (- (1 - epsilon6)) (1 - epsilon6) action)
      | Clipping => action
      end
  end.

(** Gaussian.log_probability, gaussian.py 314-344 *)
Definition gauss_log_probability (t : option transform) (b : bounds) (g : gauss) (action : R) : R :=
  let x := unbounded t b action in
  let log_prob := - (1 / 2) * (x - g_mean g) ^ 2 / (g_stddev g ^ 2 + epsilon6) - g_log_stddev g - 1 / 2 * ln (2 * PI) in
  match t with
  | Some Tanh => log_prob - 2 * (ln 2 - x - softplus (- 2 * x))
  | _ => log_prob
  end.

(** Gaussian.kl_divergence, gaussian.py 357-369 *)
Definition gauss_kl (g1 g2 : gauss) : R :=
  g_log_stddev g2 - g_log_stddev g1
  + 1 / 2 * (g_stddev g1 ^ 2 + (g_mean g1 - g_mean g2) ^ 2) / (g_stddev g2 ^ 2 + epsilon6) - 1 / 2.

(** Gaussian.entropy, gaussian.py 346-354 *)
Definition gauss_entropy (g : gauss) : R := g_log_stddev g + 1 / 2 * ln (2 * PI * exp 1).

(** Gaussian.action_value, gaussian.py 371-405; Gaussian.state_value, gaussian.py 407-414 *)
Definition gauss_action_value (t : option transform) (b : bounds) (g : gauss) (action : R) : R :=
  let x := unbounded t b action in
  - (1 / 2) * (x - g_mean g) ^ 2 / (g_stddev g ^ 2 + epsilon6) - 2 * g_log_stddev g - ln (2 * PI).
(** Gaussian.state_value, gaussian.py 407-414 *)
Definition gauss_state_value (g : gauss) : R := - g_log_stddev g - 1 / 2 * ln (2 * PI).

(** ** Beta *)
(** parameters of Beta (beta.py 106-134) *)
Record betap := { b_alpha : R; b_beta : R; b_sum : R; b_log_norm : R }.

Section Beta.
(** tf.math.lgamma, tf.math.digamma *)
Variables lgamma digamma : R -> R.

(** Beta.parametrize, beta.py 106-134 *)
Definition beta_parametrize (alpha beta : R) : betap :=
  let alpha := exp (clip_log alpha) + 1 in
  let beta := exp (clip_log beta) + 1 in
  {| b_alpha := alpha; b_beta := beta; b_sum := alpha + beta;
     b_log_norm := lgamma alpha + lgamma beta - lgamma (alpha + beta) |}.

(** Beta.mode, beta.py 137-171; Beta.sample, beta.py 174-222, for two gamma draws *)
Definition beta_mode (lo hi : R) (b : betap) : R := lo + (hi - lo) * (b_beta b / b_sum b).
(** Beta.sample, beta.py 174-222 *)
Definition beta_sample (lo hi : R) (b : betap) (temperature alpha_sample beta_sample : R) : R :=
  lo + (hi - lo) * (if Rltb temperature epsilon6 then b_beta b / b_sum b else beta_sample / (alpha_sample + beta_sample)).

(** Beta.log_probability, beta.py 225-237 (tf.math.xlogy(x, y) is x * log(y), and 0 if x is 0) *)
Definition beta_inverse (lo hi action : R) : R := (action - lo) / (hi - lo).
(** beta.py 225-237 *)
Definition beta_log_probability (lo hi : R) (b : betap) (action : R) : R :=
  let action := beta_inverse lo hi action in
  (b_beta b - 1) * ln (action + epsilon6) + (b_alpha b - 1) * ln (1 + (- action + epsilon6)) - b_log_norm b.

(** Beta.entropy, beta.py 239-254 *)
Definition beta_entropy (b : betap) : R :=
  b_log_norm b - (b_beta b - 1) * digamma (b_beta b) - (b_alpha b - 1) * digamma (b_alpha b)
  + (b_sum b - 1 - 1) * digamma (b_sum b).

(** Beta.kl_divergence, beta.py 256-274 *)
Definition beta_kl (b1 b2 : betap) : R :=
  b_log_norm b2 - b_log_norm b1 - digamma (b_beta b1) * (b_beta b2 - b_beta b1)
  - digamma (b_alpha b1) * (b_alpha b2 - b_alpha b1) + digamma (b_sum b1) * (b_sum b2 - b_sum b1).
End Beta.

(** ** Bernoulli *)
(** parameters of Bernoulli (bernoulli.py 92-115) *)
Record bern := { n_true : R; n_false : R; n_probability : R; n_state : R }.

(** Bernoulli.parametrize, bernoulli.py 92-115 *)
Definition bern_parametrize (logit : R) : bern :=
  let probability := 1 / (1 + exp (- logit)) in
  {| n_true := ln (probability + epsilon6); n_false := ln (1 - probability + epsilon6);
     n_probability := probability; n_state := logit |}.

(** Bernoulli.mode, sample, bernoulli.py 118-185 *)
Definition bern_mode (n : bern) : bool := Rleb (1 / 2) (n_probability n).
(** Bernoulli.sample, bernoulli.py 143-185 *)
Definition bern_sample (n : bern) (temperature uniform : R) : bool :=
  if Rltb temperature epsilon6 then bern_mode n
  else
    let e_true := exp (n_true n / (temperature + epsilon6)) in
    let e_false := exp (n_false n / (temperature + epsilon6)) in
    Rleb uniform (e_true / (e_true + e_false + epsilon6)).

(** Bernoulli.log_probability, entropy, kl_divergence, bernoulli.py 188-215 *)
Definition bern_log_probability (n : bern) (action : bool) : R := if action then n_true n else n_false n.
(** Bernoulli.entropy, bernoulli.py 194-201 *)
Definition bern_entropy (n : bern) : R := - n_probability n * n_true n - (1 - n_probability n) * n_false n.
(** Bernoulli.kl_divergence, bernoulli.py 204-215 *)
Definition bern_kl (n1 n2 : bern) : R :=
  n_probability n1 * (n_true n1 - n_true n2) + (1 - n_probability n1) * (n_false n1 - n_false n2).

(** Bernoulli.action_value, bernoulli.py 217-225 *)
Definition bern_action_value (n : bern) (action : bool) : R := n_state n + (if action then n_true n else n_false n).

(** ** Value policy *)
(** state_value_mode, for one action component: values of the linear layer, and of the state-value
    layer in the mode separate (parametrized_value_policy.py 233-274, 401-464, 516-575).  Left out:
    the mode separate-per-action, whose layers are built from the states (145) *)
Definition q_values (state_value : option R) (values : list R) : list R :=
  match state_value with
  | None => values
  | Some s => map (fun a => s + (a - rmean values)) values
  end.

Section Policy.
Variable argmax : list R -> nat.
(** ParametrizedValuePolicy.act, parametrized_value_policy.py 225-371: int (360-365) and
    bool (332) actions *)
Definition q_act (state_value : option R) (mask : option (list bool)) (values : list R) : nat :=
  argmax (masked mask (q_values state_value values)).
(** the same for bool actions (parametrized_value_policy.py 225-371) *)
Definition q_act_bool (state_value : option R) (values : list R) : bool :=
  let q := q_values state_value values in Rltb (nth 1 q 0) (nth 0 q 0).
(** ParametrizedValuePolicy.action_values, parametrized_value_policy.py 392-464 *)
Definition q_action_value (state_value : option R) (values : list R) (action : nat) : R :=
  nth action (q_values state_value values) 0.
(** the same for bool actions (parametrized_value_policy.py 392-464) *)
Definition q_action_value_bool (state_value : option R) (values : list R) (action : bool) : R :=
  let q := q_values state_value values in if action then nth 0 q 0 else nth 1 q 0.
(** ParametrizedValuePolicy.state_values, parametrized_value_policy.py 507-575 *)
Definition q_state_value (state_value : option R) (mask : option (list bool)) (values : list R) : R :=
  rmax (masked mask (q_values state_value values)).
(** the same for bool actions (parametrized_value_policy.py 507-575) *)
Definition q_state_value_bool (state_value : option R) (values : list R) : R :=
  let q := q_values state_value values in Rmax (nth 0 q 0) (nth 1 q 0).
(** ParametrizedValuePolicy.state_value, parametrized_value_policy.py 374-389, and
    ValuePolicy.state_value, value_policy.py 127-138, for int components *)
Definition policy_state_value (state_value : option R) (components : list (option (list bool) * list R)) : R :=
  match state_value with
  | Some s => s
  | None => rmean (map (fun '(mask, values) => q_state_value None mask values) components)
  end.
End Policy.

(** ** Exploration *)
(** float actions (and int actions without num_values), tensorforce.py 1251-1261 *)
Definition explore_float (b : bounds) (exploration normal action : R) : R :=
  let x := action + normal * exploration in
  let x := match fst b with Some lo => Rmax x lo | None => x end in
  match snd b with Some hi => Rmin x hi | None => x end.
(** bool actions, tensorforce.py 1196-1201 *)
Definition explore_bool (exploration uniform is_random : R) (action : bool) : bool :=
  if Rltb is_random exploration then Rltb uniform (1 / 2) else action.

(** tf.boolean_mask(choices, mask) of one row of choices 0, 1, ..., tensorforce.py 1211-1218 *)
Fixpoint valid_from (k : nat) (mask : list bool) : list nat :=
  match mask with [] => [] | b :: m => if b then k :: valid_from (S k) m else valid_from (S k) m end.
(** tf.gather(params=choices, indices), tensorforce.py 1228-1230 *)
Fixpoint gather_all (choices : list nat) (indices : list nat) : option (list nat) :=
  match indices with
  | [] => Some []
  | i :: l => match nth_error choices i, gather_all choices l with Some x, Some r => Some (x :: r) | _, _ => None end
  end.
(** a random allowed action for every component of the batch, tensorforce.py 1209-1231 and
    random.py 56-74; None: tf.gather fails *)
Definition random_masked (masks : list (list bool)) (uniform : list R) : option (list nat) :=
  let choices := flat_map (valid_from 0) masks in
  let num_valid := map (fun m => count_occ Bool.bool_dec m true) masks in
  let masked_offset := cumsum 0 num_valid in
  let random_offset := map2 (fun u n => Z.to_nat (Int_part (u * INR n))) uniform num_valid in
  gather_all choices (map2 Nat.add masked_offset random_offset).
(** masked int actions, tensorforce.py 1208-1234 *)
Definition explore_masked (exploration : R) (masks : list (list bool)) (uniform is_random : list R) (actions : list nat) : option (list nat) :=
  match random_masked masks uniform with
  | None => None
  | Some random_action =>
      Some (map2 (fun x '(r, a) => if Rltb x exploration then r else a) is_random (combine random_action actions))
  end.
(** int actions without masking, tensorforce.py 1239-1246, for a draw below num_values *)
Definition explore_int (exploration is_random : R) (random_action action : nat) : nat :=
  if Rltb is_random exploration then random_action else action.
(** exploration is applied unless deterministic or zero, tensorforce.py 1265-1269 *)
Definition explore {A} (deterministic : bool) (exploration : R) (apply_exploration action : A) : A :=
  if deterministic || Reqb exploration 0 then action else apply_exploration.

(** ** Variable noise *)
(** core_act with variable noise, tensorforce.py 1066-1104 and 1140-1154, for the noise drawn and what
    the policy does with its variables in between: result and variables after it *)
Definition noisy_act {A} (deterministic : bool) (scale : R) (noise : vars) (act : vars -> A) (variables : vars) : A * vars :=
  let tensors := if deterministic || Reqb scale 0 then vzeros variables else noise in
  let variables := if deterministic || Reqb scale 0 then variables else vadd variables noise in
  let result := act variables in
  (result, if Reqb scale 0 then variables else vsub variables tensors).
