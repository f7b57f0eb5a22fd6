(** Model of the objectives: /repo/tensorforce/core/objectives/{policy_gradient,value,
    deterministic_policy_gradient,plus}.py.

    Floats are real numbers.  An objective calls the policy and the baseline for the states of a
    batch; what they return for one instance is an argument ([view]), with the components of all
    actions concatenated (tf.reshape to (-1, spec.size) and tf.concat on axis 1,
    policy_gradient.py 88-94, stochastic_policy.py 211-217, value_policy.py 118-124, 132-138).  A
    reference is the row of its entries.  tf.stop_gradient of the reference is left out: losses are
    functions of the current outputs for fixed references. *)

From Coq Require Import String List Arith Reals Bool.
From Verif Require Import Base OptVec ParModel SolveModel OptModel DistModel.
Import ListNotations.
Open Scope R_scope.

(** What policy and baseline return for one instance
    (read in policy_gradient.py 80-137, value.py 108-164, deterministic_policy_gradient.py 71-91) *)
Record view := {
  w_logps : list R;          (* policy.log_probabilities for the action taken *)
  w_states : list R;         (* policy.state_values *)
  w_actions : list R;        (* policy.action_values for the action taken *)
  w_critic : option R        (* baseline.action_value for policy.act(deterministic=True); None if the
                                baseline argument is None (models/tensorforce.py 2836) *)
}.

(** Objective modules and their arguments (policy_gradient.py 45-65, value.py 43-63,
    deterministic_policy_gradient.py 36-43, plus.py 38-60); parameters as their current value *)
Inductive objective :=
| PolicyGradient (importance_sampling : bool) (clipping_value : option R) (early_reduce : bool)
| ValueObjective (state : bool) (huber_loss : option R) (early_reduce : bool)
| DetPolicyGradient
| Plus (objective1 objective2 : objective).

(** actions_spec: the shape of every action (policy_gradient.py 77) *)
Definition shapes := list (list nat).
(** sum(spec.size for spec in self.actions_spec.values()) (policy_gradient.py 77) *)
Definition size (s : shapes) : nat := fold_right Nat.add 0%nat (map (fold_right Nat.mul 1%nat) s).

(** reference_spec().size: policy_gradient.py 70-77, value.py 71-73,
    deterministic_policy_gradient.py 57-59, plus.py 75-80 *)
Fixpoint reference_size (s : shapes) (o : objective) : nat :=
  match o with
  | PolicyGradient _ _ early => if early then 1%nat else size s
  | ValueObjective _ _ _ => 1%nat
  | DetPolicyGradient => 1%nat
  | Plus o1 o2 => (reference_size s o1 + reference_size s o2)%nat
  end.

(** reference: policy_gradient.py 79-101, value.py 80-106, deterministic_policy_gradient.py 61-69,
    plus.py 94-111 *)
Fixpoint reference (o : objective) (w : view) : list R :=
  match o with
  | PolicyGradient _ _ early => if early then [rsum (w_logps w)] else w_logps w
  | ValueObjective _ _ _ => [0]
  | DetPolicyGradient => [0]
  | Plus o1 o2 => reference o1 w ++ reference o2 w
  end.

(** PolicyGradient.loss, policy_gradient.py 116-147, for one entry of log_probability *)
Definition pg_entry (importance : bool) (clipping : option R) (log_probability reference reward : R) : R :=
  let target :=
    if importance then
      let log_ratio := log_probability - reference in
      let log_ratio := clip_log log_ratio in
      exp log_ratio
    else log_probability in
  let scaled_target :=
    match clipping with
    | None => target * reward
    | Some clipping_value =>
        let clipping_value := 1 + clipping_value in
        let min_value := if importance then / clipping_value else reference - ln clipping_value in
        let max_value := if importance then clipping_value else reference + ln clipping_value in
        let clipped_target := clip_by_value min_value max_value target in
        Rmin (target * reward) (clipped_target * reward)
    end in
  - scaled_target.

(** PolicyGradient.loss, policy_gradient.py 104-152, for one instance *)
Definition pg_loss (importance : bool) (clipping : option R) (early : bool) (w : view) (reward : R) (ref : list R) : R :=
  if early then pg_entry importance clipping (rsum (w_logps w)) (hd 0 ref) reward
  else rsum (map2 (fun l r => pg_entry importance clipping l r reward) (w_logps w) ref).

(** Value.loss, value.py 147-162, for one entry of difference *)
Definition value_entry (huber : option R) (difference : R) : R :=
  match huber with
  | None => 1 / 2 * difference ^ 2
  | Some huber_loss =>
      let inside_huber_bounds := Rleb (Rabs difference) huber_loss in
      let quadratic := 1 / 2 * difference ^ 2 in
      let linear := huber_loss * (Rabs difference - 1 / 2 * huber_loss) in
      if inside_huber_bounds then quadratic else linear
  end.

(** Value.loss, value.py 108-164, for a batch.  With early_reduce the values of an instance are
    averaged (value_policy.py 124, 138).  Without, they are passed to tf.concat(values, axis=1) as
    they are ([batch] + shape of the action): for one action this is the identity, otherwise all
    need the same rank, at least 2.  [value - reward] with reward of shape [batch, 1] then
    broadcasts; for a single action of shape () the result is [batch, batch].  Actions of rank 2
    and above are not supported here: the broadcast fails or leaves a loss which is not one number
    per instance; the model makes this an error in every case. *)
Definition value_losses (s : shapes) (state : bool) (huber : option R) (early : bool) (batch : list view)
  (rewards : list R) : res (list R) :=
  let values := map (if state then w_states else w_actions) batch in
  if early then Ok (map2 (fun v r => value_entry huber (rmean v - r)) values rewards)
  else
    match s with
    | [[]] =>
        let value := map (hd 0) values in
        Ok (map (fun r => rsum (map (fun v => value_entry huber (v - r)) value)) rewards)
    | _ =>
        if forallb (fun sh => Nat.eqb (length sh) 1) s then
          Ok (map2 (fun v r => rsum (map (fun x => value_entry huber (x - r)) v)) values rewards)
        else Err "InvalidArgumentError: ConcatOp / Incompatible shapes"%string
    end.

(** DeterministicPolicyGradient.loss, deterministic_policy_gradient.py 71-91, for a batch *)
Fixpoint dpg_losses (batch : list view) : res (list R) :=
  match batch with
  | [] => Ok []
  | w :: batch' =>
      match w_critic w with
      | None => Err "AttributeError: 'NoneType' object has no attribute 'action_value'"%string
      | Some q => do l <- dpg_losses batch'; Ok (- q :: l)
      end
  end.

(** Objective.loss for a batch (policy_gradient.py 104, value.py 109,
    deterministic_policy_gradient.py 71, plus.py 113-137) *)
Fixpoint loss (s : shapes) (o : objective) (batch : list view) (rewards : list R) (refs : list (list R)) : res (list R) :=
  match o with
  | PolicyGradient imp clip early =>
      Ok (map2 (fun w rr => pg_loss imp clip early w (fst rr) (snd rr)) batch (combine rewards refs))
  | ValueObjective state huber early => value_losses s state huber early batch rewards
  | DetPolicyGradient => dpg_losses batch
  | Plus o1 o2 =>
      let n := reference_size s o1 in
      do l1 <- loss s o1 batch rewards (map (firstn n) refs);
      do l2 <- loss s o2 batch rewards (map (skipn n) refs);
      Ok (map2 Rplus l1 l2)
  end.
