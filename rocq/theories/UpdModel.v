(** Model of the update: /repo/tensorforce/core/models/tensorforce.py 256-289, 443-498 (baseline
    modes), 680-694, 2102-2686 (core_update), 2821-2962 (losses), and
    /repo/tensorforce/core/module.py 329-364 (L2 regularization).

    Floats are real numbers.  [X] are the values of the trainable variables of a module (policy or
    baseline), [D] what is retrieved from memory for one instance of the batch: states, horizons,
    internals, auxiliaries and actions (2107-2221).  The returns are an argument: rewards, completed
    by the horizon values (2224-2227; _complete_horizon_values is modelled in LateModel.v).  What
    policy and baseline compute are functions of their variables and an instance.  An optimizer is
    any function that gets the loss as a function of the variables it is given, the source variables
    and the current values, and returns the new values (Optimizer.update, optimizer.py 90-95;
    fn_kl_divergence depends on the same variables and the batch only, so that it is part of this
    function; so is what the optimizer remembers).  Optimizers write the given variables only.
    Left out: summaries, tracking, assertions on horizons. *)

From Coq Require Import String List Arith Reals Bool.
From Verif Require Import Base OptVec ParModel DistModel ObjModel.
Import ListNotations.
Open Scope R_scope.

(** ** L2 regularization *)
(** A module: its l2_regularization, is_trainable, this_trainable_variables and this_submodules
    (module.py 166-202, 221-229, 514-515) *)
Inductive tree := Node (l2_regularization : option R) (is_trainable : bool) (variables : vars) (submodules : list tree).

(** Module.is_trainable (module.py 515) *)
Definition trainable (t : tree) : bool := match t with Node _ b _ _ => b end.

(** Module.regularize, module.py 329-364; [inherited] is the coefficient found by going through the
    parents (333-335), the model's own is never None (models/model.py 51) *)
Fixpoint regularize (inherited : R) (t : tree) : R :=
  match t with
  | Node l2 _ vs subs =>
      let l2_regularization := match l2 with Some c => c | None => inherited end in
      let regularization_loss :=
        match vs with
        | [] => 0
        | _ => if Req_EM_T l2_regularization 0 then 0
               else l2_regularization * vsum (vmap (fun x => x ^ 2) vs)
        end in
      fold_left (fun acc m => if trainable m then acc + regularize l2_regularization m else acc) subs regularization_loss
  end.

(** ** Generalized advantage estimation *)
(** recursive_gae and tf.scan(reverse=True), models/tensorforce.py 2383-2393; [terminals] as stored *)
Fixpoint gae (discount decay : R) (advantages : list (R * nat)) : list R :=
  match advantages with
  | [] => []
  | (advantage, terminal) :: rest =>
      let later := gae discount decay rest in
      let next_gae := if Nat.eqb terminal 0 then hd 0 later else 0 in
      (advantage + discount * decay * next_gae) :: later
  end.

(** ** Configuration *)
(** The argument baseline_optimizer (models/tensorforce.py 283-286, 453-481) *)
Inductive baseline_update := NoOptimizer | Weight (w : R) | Optimizer.
(** reward_estimation[estimate_advantage] (161): False, 'early', or anything else *)
Inductive advantage := Never | Early | Late.

Section Update.
Variables X D : Type.

(** A policy or baseline module as used by the update: log_probabilities, state_values,
    action_values for the action taken, entropy, and the module for regularization
    (policies/stochastic_policy.py, policies/value_policy.py 95-140, module.py 329-364). *)
Record module := {
  m_logps : X -> D -> list R;
  m_states : X -> D -> list R;
  m_actions : X -> D -> list R;
  m_entropy : X -> D -> R;
  m_tree : X -> tree
}.

(** An optimizer: loss, source_variables if any, variables given to it (optimizer.py 90-95). *)
Definition optimizer (Y : Type) := (Y -> res R) -> option X -> Y -> res Y.

(** The model's arguments that matter for updates (models/tensorforce.py 22-40, 140-190, 256-289, 431-530) *)
Record config := {
  k_shapes : shapes;                          (* actions_spec *)
  k_policy : module;
  k_baseline : option module;                 (* baseline is not None *)
  k_critic : X -> X -> D -> R;                (* baseline.action_value of policy.act(deterministic) *)
  k_same_names : bool;                        (* variables of policy and baseline have corresponding names *)
  k_objective : objective;
  k_baseline_objective : option objective;
  k_baseline_optimizer : baseline_update;
  k_estimate_advantage : option advantage;    (* None: not in reward_estimation *)
  k_predict_action_values : bool;
  k_return_processing : list R -> list R;     (* identity if None *)
  k_advantage_processing : list R -> list R;
  k_discount : R;
  k_gae_decay : R;
  k_entropy_regularization : R;
  k_l2_regularization : R
}.

Variable k : config.

(** self.separate_baseline (269) *)
Definition separate : bool := match k_baseline k with Some _ => true | None => false end.
(** self.baseline (431-441) *)
Definition baseline : module := match k_baseline k with Some m => m | None => k_policy k end.
(** self.advantage_in_loss (275-281) *)
Definition advantage_in_loss : bool :=
  match k_baseline k, k_baseline_objective k, k_baseline_optimizer k with
  | Some _, None, NoOptimizer => true
  | _, _, _ => false
  end.
(** self.estimate_advantage (161, 277-278) *)
Definition estimate_advantage : advantage :=
  match k_estimate_advantage k with
  | Some a => a
  | None => if advantage_in_loss then Late else Never
  end.
(** self.baseline_loss_weight (283-284, 453-465); a weight is a constant parameter *)
Definition baseline_loss_weight : option R :=
  match k_baseline_optimizer k, k_baseline_objective k with
  | Weight w, _ => Some w
  | NoOptimizer, Some _ => Some 1
  | _, _ => None
  end.
(** self.baseline_optimizer is not None (453-481) *)
Definition has_baseline_optimizer : bool := match k_baseline_optimizer k with Optimizer => true | _ => false end.
(** baseline_is_trainable (286-289) *)
Definition baseline_is_trainable : bool := negb has_baseline_optimizer.
(** variables of the model and of the baseline; without a separate baseline there are only those of
    the policy (tensorforce.py 269, 431-441) *)
Record state := { policy_variables : X; separate_variables : X }.
(** self.baseline.trainable_variables (431-441, 2292-2295) *)
Definition baseline_variables (st : state) : X := if separate then separate_variables st else policy_variables st.

(** What the objectives see of one instance (2833-2837, 2929-2932) *)
Definition policy_view (st : state) (d : D) : view :=
  {| w_logps := m_logps (k_policy k) (policy_variables st) d;
     w_states := m_states (k_policy k) (policy_variables st) d;
     w_actions := m_actions (k_policy k) (policy_variables st) d;
     w_critic := if separate then Some (k_critic k (separate_variables st) (policy_variables st) d) else None |}.
(** the same for the baseline's objective (2929-2932, 2947-2950) *)
Definition baseline_view (b : X) (d : D) : view :=
  {| w_logps := m_logps baseline b d; w_states := m_states baseline b d; w_actions := m_actions baseline b d;
     w_critic := None |}.

(** baseline_loss, 2924-2962 *)
Definition baseline_loss (batch : list D) (reward : list R) (refs : list (list R)) (b : X) : res R :=
  match k_baseline_objective k with
  | None => Err "AttributeError: 'NoneType' object has no attribute 'loss'"%string
  | Some o =>
      do l <- ObjModel.loss (k_shapes k) o (map (baseline_view b) batch) reward refs;
      let l := rmean l in
      Ok (if separate then l + regularize (k_l2_regularization k) (m_tree baseline b) else l)
  end.

(** regularize, 2898-2922: the model's trainable submodules with variables are policy and baseline *)
Definition model_regularize (st : state) (batch : list D) : R :=
  let policy := m_tree (k_policy k) (policy_variables st) in
  let other := match k_baseline k with
               | Some m => match m_tree m (separate_variables st) with
                           | Node l2 _ vs subs => [Node l2 baseline_is_trainable vs subs]
                           end
               | None => []
               end in
  let policy := match policy with Node l2 _ vs subs => Node l2 true vs subs end in
  regularize (k_l2_regularization k) (Node (Some (k_l2_regularization k)) true [] (policy :: other))
  + (if Req_EM_T (k_entropy_regularization k) 0 then 0
     else - k_entropy_regularization k * rmean (map (m_entropy (k_policy k) (policy_variables st)) batch)).

(** loss, 2821-2896 *)
Definition loss (batch : list D) (reward : list R) (refs baseline_refs : list (list R)) (st : state) : res R :=
  do l <- ObjModel.loss (k_shapes k) (k_objective k) (map (policy_view st) batch) reward refs;
  let l := rmean l + model_regularize st batch in
  match baseline_loss_weight with
  | None => Ok l
  | Some w =>
      if Req_EM_T w 0 then Ok l
      else do bl <- baseline_loss batch reward (if k_baseline_objective k then baseline_refs else refs) (baseline_variables st);
           Ok (l + w * bl)
  end.

(** baseline_prediction, 2317-2327, 2444-2454; reduce_mean of the values (value_policy.py 124, 138) *)
Definition prediction (b : X) (d : D) : R :=
  rmean (if k_predict_action_values k then m_actions baseline b d else m_states baseline b d).

(** The baseline's update, 2281-2313 and 2543-2575: its own variables, targets as given *)
Definition update_baseline (opt : optimizer X) (batch : list D) (returns : list R) (refs : list (list R)) (st : state) : res state :=
  let source := if negb separate || k_same_names k then Some (policy_variables st) else None in
  do b <- opt (baseline_loss batch returns refs) source (baseline_variables st);
  Ok (if separate then {| policy_variables := policy_variables st; separate_variables := b |}
      else {| policy_variables := b; separate_variables := separate_variables st |}).

(** The advantages, 2316-2393 *)
Definition advantages (batch : list D) (terminals : list nat) (returns : list R) (b : X) : list R :=
  let reward := map2 (fun r d => r - prediction b d) returns batch in
  let reward := k_advantage_processing k reward in
  if Req_EM_T (k_gae_decay k) 0 then reward
  else gae (k_discount k) (k_gae_decay k) (combine reward terminals).

(** The policy's update, 2414-2541.  Given all variables of the model in the advantage-in-loss mode
    (2431-2432), otherwise the policy's (2491) *)
Definition update_policy (opt : optimizer X) (opt_all : optimizer state) (batch : list D) (reward : list R)
  (baseline_refs : list (list R)) (st : state) : res state :=
  let refs := map (fun d => reference (k_objective k) (policy_view st d)) batch in
  let source := if separate && k_same_names k then Some (separate_variables st) else None in
  match estimate_advantage, advantage_in_loss with
  | Never, _ | _, false =>
      do p <- opt (fun p => loss batch reward refs baseline_refs {| policy_variables := p; separate_variables := separate_variables st |})
                  source (policy_variables st);
      Ok {| policy_variables := p; separate_variables := separate_variables st |}
  | _, true =>
      (* fn_loss, 2434-2488 *)
      opt_all (fun st' =>
        let reward := map2 (fun r d => r - prediction (baseline_variables st') d) reward batch in
        loss batch (k_advantage_processing k reward) refs baseline_refs st') source st
  end.

(** core_update, 2102-2686, from the batch and its returns on *)
Definition core_update (opt : optimizer X) (opt_all : optimizer state) (baseline_opt : optimizer X)
  (batch : list D) (terminals : list nat) (returns : list R) (st : state) : res state :=
  let returns := k_return_processing k returns in
  let baseline_refs :=
    match k_baseline_objective k with
    | Some o => map (fun d => reference o (baseline_view (baseline_variables st) d)) batch
    | None => []
    end in
  let early := match estimate_advantage with Early => true | _ => false end in
  do st <- (if has_baseline_optimizer && negb early then update_baseline baseline_opt batch returns baseline_refs st else Ok st);
  let reward :=
    match estimate_advantage with
    | Never => returns
    | _ => if advantage_in_loss then returns else advantages batch terminals returns (baseline_variables st)
    end in
  do st <- update_policy opt opt_all batch reward baseline_refs st;
  if has_baseline_optimizer && early then update_baseline baseline_opt batch returns baseline_refs st else Ok st.

End Update.
