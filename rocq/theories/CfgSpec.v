(** Specification for C164-C169: arguments of the model of learning agents.  Only the types of CfgModel.v
    are used. *)

From Coq Require Import String List ZArith QArith Bool.
From Verif Require Import Base CfgModel.
Import ListNotations.
Open Scope string_scope.
Open Scope list_scope.
Open Scope Z_scope.

(** Entries of a dictionary *)
Definition given (k : string) (d : dict) (v : val) : Prop := In (k, v) d.
(** A dictionary without an entry *)
Definition omitted (k : string) (d : dict) : Prop := forall v, ~ In (k, v) d.
(** No value, or None *)
Definition unset (k : string) (d : dict) : Prop := omitted k d \/ given k d VNone.
(** All keys are known *)
Definition only (keys : list string) (d : dict) : Prop := forall k v, In (k, v) d -> In k keys.
(** The value of an entry which may be left out *)
Definition value_or (k : string) (d : dict) (default v : val) : Prop := given k d v \/ (omitted k d /\ v = default).

(** Values of integer parameters: an int, or any other parameter *)
Inductive int_range : val -> option Z -> option Z -> Prop :=
| int_constant n : int_range (VNum (NInt n)) (Some n) (Some n)
| int_schedule lo hi f : (forall x y, lo = Some x -> hi = Some y -> x <= y) -> int_range (VSchedule (lo, hi) f) lo hi.
(** Values of float parameters *)
Inductive float_range : val -> option Q -> option Q -> Prop :=
| float_constant q : float_range (VNum (NFloat q)) (Some q) (Some q)
| float_schedule lo hi i : (forall x y, lo = Some x -> hi = Some y -> (x <= y)%Q) -> float_range (VSchedule i (lo, hi)) lo hi.
(** A known lower or upper bound *)
Definition at_least (n : Z) (lo : option Z) : Prop := exists x, lo = Some x /\ n <= x.
Definition at_most (n : Z) (hi : option Z) : Prop := exists x, hi = Some x /\ x <= n.
Definition nonnegative (lo : option Q) : Prop := exists x, lo = Some x /\ (0 <= x)%Q.
Definition at_most_one (hi : option Q) : Prop := exists x, hi = Some x /\ (x <= 1)%Q.
(** A parameter which is not negative *)
Definition positive_float (v : val) : Prop := exists lo hi, float_range v lo hi /\ nonnegative lo.
(** A parameter between 0 and 1 *)
Definition fraction (v : val) : Prop := exists lo hi, float_range v lo hi /\ nonnegative lo /\ at_most_one hi.

(** ** Update *)
Definition good_start (u : dict) : Prop :=
  unset "start" u \/ exists v lo hi, given "start" u v /\ int_range v lo hi /\ at_least 0 lo.
(** How often there are updates, if the batch is [batch] with at most [most] timesteps or episodes *)
Definition good_frequency (u : dict) (batch : val) (most : Z) : Prop :=
  unset "frequency" u \/
  (exists r n, given "frequency" u (VNum (NFloat r)) /\ batch = VNum (NInt n) /\ (0 < r <= 1)%Q) \/
  (exists f lo hi, given "frequency" u f /\ int_range f lo hi /\ at_least 1 lo /\ at_most (Z.max 2 most) hi).
Definition good_update (u : dict) : Prop :=
  only ["unit"; "batch_size"; "frequency"; "start"] u /\
  (given "unit" u (VStr "timesteps") \/ given "unit" u (VStr "episodes")) /\
  exists batch lo hi, given "batch_size" u batch /\ int_range batch lo hi /\ at_least 1 lo /\
    (given "frequency" u (VStr "never") \/
     exists most, hi = Some most /\ good_frequency u batch most /\ good_start u).

(** ** Reward estimation *)
Definition reward_entries : list string :=
  ["horizon"; "discount"; "predict_horizon_values"; "estimate_advantage"; "predict_action_values"; "predict_terminal_values";
   "reward_processing"; "return_processing"; "advantage_processing"; "trace_decay"; "gae_decay"].
(** Baseline without objective and optimizer: trained by the loss of the policy *)
Definition joint (a : args) : Prop :=
  a_baseline a <> None /\ a_baseline_objective a = None /\ a_baseline_optimizer a = NoOptimizer.
(** There is neither a baseline nor an objective for one *)
Definition no_baseline (a : args) : Prop := a_baseline a = None /\ a_baseline_objective a = None.
Definition False_ : val := VNum (NBool false).
(** Whether a horizon value is predicted, as a function of the arguments *)
Definition predicts_horizon (a : args) (v : val) : Prop :=
  let r := a_reward_estimation a in
  (no_baseline a /\ omitted "predict_horizon_values" r /\ v = False_) \/
  (given "predict_horizon_values" r v /\ v <> VNone) \/
  ((given "predict_horizon_values" r VNone \/ (omitted "predict_horizon_values" r /\ ~ no_baseline a)) /\
   ((given "horizon" r (VStr "episode") /\ v = VStr "early") \/ (~ given "horizon" r (VStr "episode") /\ v = VStr "late"))).
(** Whether advantages are estimated *)
Definition estimates (a : args) (v : val) : Prop :=
  let r := a_reward_estimation a in
  given "estimate_advantage" r v \/
  (omitted "estimate_advantage" r /\ ((joint a /\ v = VStr "late") \/ (~ joint a /\ v = False_))).
Definition good_horizon (a : args) : Prop :=
  let r := a_reward_estimation a in
  (given "horizon" r (VStr "episode") /\ ~ given "predict_horizon_values" r (VStr "late")) \/
  (exists v lo hi, given "horizon" r v /\ int_range v lo hi /\ at_least 1 lo /\ forall n, a_max a = Some n -> at_most n hi).
Definition good_processing (k : string) (r : dict) : Prop := unset k r \/ given k r (VLayers true).
(** The number [q], whatever its type *)
Definition number_is (v : val) (q : Q) : Prop :=
  (v = VNum (NBool true) /\ (1 == q)%Q) \/ (v = VNum (NBool false) /\ (0 == q)%Q) \/
  (exists n, v = VNum (NInt n) /\ (inject_Z n == q)%Q) \/ (exists x, v = VNum (NFloat x) /\ (x == q)%Q).
Definition good_reward (a : args) : Prop :=
  let r := a_reward_estimation a in
  only reward_entries r /\ good_horizon a /\
  (unset "discount" r \/ exists v, given "discount" r v /\ fraction v) /\
  good_processing "reward_processing" r /\ good_processing "return_processing" r /\
  good_processing "advantage_processing" r /\
  (given "advantage_processing" r (VLayers true) -> ~ estimates a False_) /\
  (forall v, value_or "trace_decay" r (VNum (NFloat 1)) v ->
     fraction v /\ (number_is v 1 \/ predicts_horizon a (VStr "early"))) /\
  (forall v, value_or "gae_decay" r (VNum (NFloat 0)) v ->
     fraction v /\ (number_is v 0 \/ (a_memory a = Recent /\ ~ estimates a False_ /\ ~ joint a))).

(** ** Objectives, policy and baseline *)
(** The functions of a policy which an objective uses *)
Inductive uses : objective -> string -> Prop :=
| uses_pg : uses PolicyGradient "stochastic"
| uses_dpg : uses DeterministicPolicyGradient "policy"
| uses_state : uses (Value true) "state_value"
| uses_action : uses (Value false) "action_value"
| uses_left o1 o2 f : uses o1 f -> uses (Plus o1 o2) f
| uses_right o1 o2 f : uses o2 f -> uses (Plus o1 o2) f.
(** There is a deterministic policy gradient in an objective: it uses action values of the baseline *)
Inductive deterministic : objective -> Prop :=
| det_dpg : deterministic DeterministicPolicyGradient
| det_left o1 o2 : deterministic o1 -> deterministic (Plus o1 o2)
| det_right o1 o2 : deterministic o2 -> deterministic (Plus o1 o2).
Definition all_float (a : args) : Prop := forall n t, In (n, t) (a_actions a) -> t = TFloat.
Definition none_float (a : args) : Prop := forall n t, In (n, t) (a_actions a) -> t <> TFloat.
(** What is true in Python, of predict_action_values *)
Definition true_value (v : val) : Prop :=
  v <> VNone /\ v <> VStr "" /\ ~ number_is v 0.
(** The function for values which are predicted *)
Definition value_function (a : args) (f : string) : Prop :=
  (f = "action_value" /\ exists v, given "predict_action_values" (a_reward_estimation a) v /\ true_value v) \/
  (f = "state_value" /\ forall v, given "predict_action_values" (a_reward_estimation a) v -> ~ true_value v).
(** Values are predicted for the horizon or for advantages *)
Definition predicting (a : args) : Prop := ~ predicts_horizon a False_ \/ ~ estimates a False_.
(** Functions of what serves as the baseline *)
Definition baseline_use (a : args) (f : string) : Prop :=
  (predicting a /\ value_function a f) \/ (deterministic (a_objective a) /\ f = "action_value") \/
  (exists o, a_baseline_objective a = Some o /\ uses o f).
(** Functions of the policy *)
Definition policy_use (a : args) (f : string) : Prop :=
  f = "policy" \/ uses (a_objective a) f \/ (a_baseline a = None /\ baseline_use a f).
(** Functions which the classes of policies have *)
Definition provides (c : policy_class) (f : string) : Prop :=
  match c with
  | StateValue => f = "state_value"
  | ActionValue => f = "action_value"
  | ValuePolicy => In f ["policy"; "state_value"; "action_value"]
  | Distributions => In f ["policy"; "stochastic"; "state_value"; "action_value"]
  end.
(** The simplest class which has some functions *)
Definition simplest (a : args) (use : string -> Prop) (c : policy_class) : Prop :=
  match c with
  | StateValue => forall f, use f -> f = "state_value"
  | ActionValue => ~ (forall f, use f -> f = "state_value") /\ (forall f, use f -> f = "action_value") /\ all_float a
  | ValuePolicy => ~ (forall f, use f -> f = "state_value") /\ ~ ((forall f, use f -> f = "action_value") /\ all_float a) /\
      ~ use "stochastic" /\ none_float a
  | Distributions => ~ (forall f, use f -> f = "state_value") /\ ~ ((forall f, use f -> f = "action_value") /\ all_float a) /\
      ~ (~ use "stochastic" /\ none_float a)
  end.
(** Functions which decide about a separate baseline: those of the policy, too, if no values are predicted *)
Definition baseline_considered (a : args) (f : string) : Prop :=
  baseline_use a f \/ (~ predicting a /\ policy_use a f).

Definition zero (v : val) : Prop := exists x y, float_range v (Some x) (Some y) /\ (x == 0)%Q /\ (y == 0)%Q.
Definition good_policies (a : args) : Prop :=
  (deterministic (a_objective a) -> all_float a) /\
  (forall o, a_baseline_objective a = Some o -> ~ deterministic o) /\
  (a_policy a = Typed ValuePolicy -> none_float a) /\
  (a_baseline a = Some (Typed ValuePolicy) -> none_float a) /\
  (a_entropy_regularization a = VNone \/
   (positive_float (a_entropy_regularization a) /\
    (zero (a_entropy_regularization a) \/ a_policy a = Typed Distributions \/
     (a_policy a = Network /\ (policy_use a "stochastic" \/ ~ none_float a))))) /\
  (forall q, a_baseline_optimizer a = Weight q -> (0 <= q)%Q).

(** ** Exploration *)
Definition good_exploration (a : args) : Prop :=
  match a_exploration a with
  | EValue v => v = VNone \/ positive_float v
  | EDict d p =>
      ((forall k v, given k d v -> exists t, In (k, t) (a_actions a)) /\
       forall n t, In (n, t) (a_actions a) -> forall v,
         (given n d v \/ (omitted n d /\ given (match t with TBool => "bool" | TInt => "int" | TFloat => "float" end) d v)) ->
         v = VNone \/ (positive_float v /\ (t <> TFloat -> fraction v))) \/
      (~ (forall k v, given k d v -> exists t, In (k, t) (a_actions a)) /\ positive_float p)
  end.

(** ** Memory *)
(** The largest size of a batch *)
Definition largest_batch (a : args) (n : Z) : Prop :=
  exists v lo, given "batch_size" (a_update a) v /\ int_range v lo (Some n).
(** The longest horizon *)
Definition longest_horizon (a : args) (n : Z) : Prop :=
  (given "horizon" (a_reward_estimation a) (VStr "episode") /\ a_max a = Some n) \/
  (exists v lo, given "horizon" (a_reward_estimation a) v /\ int_range v lo (Some n)).
(** How far the networks look back *)
Definition longest_past (a : args) (n : Z) : Prop :=
  (n = a_policy_past a \/ (a_baseline a <> None /\ n = a_baseline_past a)) /\
  a_policy_past a <= n /\ (a_baseline a <> None -> a_baseline_past a <= n).
(** Numbers of timesteps for which there has to be space *)
Inductive space (a : args) : Z -> Prop :=
| space_batch b h p : given "unit" (a_update a) (VStr "timesteps") -> largest_batch a b -> longest_horizon a h -> longest_past a p ->
    space a (b + 1 + p + h)
| space_episode n : given "unit" (a_update a) (VStr "timesteps") -> a_max a = Some n -> space a n
| space_episodes b n : given "unit" (a_update a) (VStr "episodes") -> largest_batch a b -> a_max a = Some n -> space a ((b + 1) * n)
| space_two n : a_buffer_observe a = None -> a_max a = Some n -> space a (2 * n)
| space_buffer n : a_buffer_observe a = Some n -> space a (2 * n).
Definition good_memory (a : args) : Prop :=
  (given "unit" (a_update a) (VStr "timesteps") -> exists b h, largest_batch a b /\ longest_horizon a h) /\
  (given "unit" (a_update a) (VStr "episodes") -> a_max a <> None -> exists b, largest_batch a b) /\
  (given "unit" (a_update a) (VStr "episodes") -> a_max a = None -> a_buffer_observe a <> None) /\
  (forall c, a_capacity a = Some c -> forall n, space a n -> n <= c).

(** ** All arguments *)
Definition distinct (a : args) : Prop :=
  NoDup (map fst (a_update a)) /\ NoDup (map fst (a_reward_estimation a)) /\ NoDup (map fst (a_actions a)) /\
  match a_exploration a with EDict d _ => NoDup (map fst d) | _ => True end.
Definition accepted (a : args) : Prop :=
  good_exploration a /\ (a_variable_noise a = VNone \/ positive_float (a_variable_noise a)) /\ good_reward a /\
  good_update (a_update a) /\ good_policies a /\ good_memory a.

(** ** Effects of the arguments *)
(** The number of timesteps or episodes which is the fraction [r] of [n] *)
Definition relative (r : Q) (n k : Z) : Prop :=
  1 <= k /\ (r * inject_Z n < inject_Z (k + 1))%Q /\ (k = 1 \/ (inject_Z k <= r * inject_Z n)%Q).
Definition frequency_effect (u : dict) (batch : val) (most : Z) (f : option Z * option Z) : Prop :=
  (unset "frequency" u /\ int_range batch (fst f) (snd f)) \/
  (exists r n k, given "frequency" u (VNum (NFloat r)) /\ (0 < r <= 1)%Q /\ batch = VNum (NInt n) /\ relative r n k /\ f = (Some k, Some k)) \/
  (exists v, given "frequency" u v /\ int_range v (fst f) (snd f) /\ at_least 1 (fst f) /\ at_most (Z.max 2 most) (snd f)).
Definition start_effect (u : dict) (s : option Z * option Z) : Prop :=
  (unset "start" u /\ s = (Some 0, Some 0)) \/ (exists v, given "start" u v /\ int_range v (fst s) (snd s) /\ at_least 0 (fst s)).
Definition update_effect (u : dict) (r : updates) : Prop :=
  only ["unit"; "batch_size"; "frequency"; "start"] u /\
  In (u_unit r) ["timesteps"; "episodes"] /\ given "unit" u (VStr (u_unit r)) /\
  exists batch, given "batch_size" u batch /\ int_range batch (fst (u_batch r)) (snd (u_batch r)) /\ at_least 1 (fst (u_batch r)) /\
    ((given "frequency" u (VStr "never") /\ u_frequency r = None /\ u_start r = None) \/
     (exists most f s, ~ given "frequency" u (VStr "never") /\ snd (u_batch r) = Some most /\ u_frequency r = Some f /\ u_start r = Some s /\
        frequency_effect u batch most f /\ start_effect u s)).
Definition horizon_effect (a : args) (h : horizon) : Prop :=
  let r := a_reward_estimation a in
  (given "horizon" r (VStr "episode") /\ h = Episode) \/
  (exists v lo hi, given "horizon" r v /\ int_range v lo hi /\ at_least 1 lo /\ (forall n, a_max a = Some n -> at_most n hi) /\ h = Steps (lo, hi)).
(** The exploration of one action which is found under its name or its type *)
Definition action_effect (d : dict) (n : string) (t : atype) (b : option (option Q * option Q)) : Prop :=
  let k := match t with TBool => "bool" | TInt => "int" | TFloat => "float" end in
  (exists v w, (given n d v \/ (omitted n d /\ given k d v)) /\ v <> VNone /\ float_range v (fst w) (snd w) /\ nonnegative (fst w) /\
     (t <> TFloat -> at_most_one (snd w)) /\ b = Some w) \/
  ((given n d VNone \/ (omitted n d /\ unset k d)) /\ b = None).
Definition exploration_effect (a : args) (e : explores) : Prop :=
  match a_exploration a, e with
  | EValue v, Global w => (v = VNone /\ w = (Some 0%Q, Some 0%Q)) \/ (float_range v (fst w) (snd w) /\ nonnegative (fst w))
  | EDict d p, Global w =>
      ~ (forall k v, given k d v -> exists t, In (k, t) (a_actions a)) /\ float_range p (fst w) (snd w) /\ nonnegative (fst w)
  | EDict d p, PerAction l =>
      (forall k v, given k d v -> exists t, In (k, t) (a_actions a)) /\ map fst l = map fst (a_actions a) /\
      forall i n t, nth_error (a_actions a) i = Some (n, t) -> exists b, nth_error l i = Some (n, b) /\ action_effect d n t b
  | _, _ => False
  end.
(** A weight or scale, 0.0 if it is None *)
Definition scale_effect (v : val) (w : option Q * option Q) : Prop :=
  (v = VNone /\ w = (Some 0%Q, Some 0%Q)) \/ (float_range v (fst w) (snd w) /\ nonnegative (fst w)).
Definition discount_effect (a : args) (d : option Q * option Q) : Prop :=
  let r := a_reward_estimation a in
  (unset "discount" r /\ d = (Some 1%Q, Some 1%Q)) \/
  (exists v, given "discount" r v /\ v <> VNone /\ float_range v (fst d) (snd d) /\ nonnegative (fst d) /\ at_most_one (snd d)).
(** The entry [k] or [default] *)
Definition decay_effect (a : args) (k : string) (default : Q) (d : option Q * option Q) : Prop :=
  (forall v, value_or k (a_reward_estimation a) (VNum (NFloat default)) v -> float_range v (fst d) (snd d)) /\
  nonnegative (fst d) /\ at_most_one (snd d).
(** The class which is given, or the simplest *)
Definition class_effect (a : args) (s : policy_spec) (use : string -> Prop) (c : policy_class) : Prop :=
  match s with Network => simplest a use c | Typed c' => c = c' end.
(** There is a warning if action distributions would be used for values *)
Definition warning_effect (a : args) (use : string -> Prop) (warned : bool) : Prop :=
  warned = true <-> simplest a use Distributions /\ (use "state_value" \/ use "action_value").
(** The weight of the loss of the baseline *)
Definition weight_effect (a : args) (w : option (option Q * option Q)) : Prop :=
  match a_baseline_optimizer a with
  | Weight q => w = Some (Some q, Some q)
  | NoOptimizer => match a_baseline_objective a with Some _ => w = Some (Some 1%Q, Some 1%Q) | None => w = None end
  | _ => w = None
  end.
