(** Model of the agents' argument handling: /repo/tensorforce/agents/{a2c,ac,dpg,double_dqn,dqn,
    dueling_dqn,ppo,trpo,vpg,constant,random,tensorforce}.py (their __init__), __init__.py (the table
    of agents) and agent.py 36-211 (Agent.create, Agent.load).

    Python values are the ones of JSON, plus opaque objects (classes, functions, arrays).  Keyword
    arguments and dictionaries are lists of entries; Python makes sure that keys are different.
    Floats are decimal fractions.  The result of an agent's __init__ is the specification it keeps
    (self.spec, used by save and Agent.load) and the arguments its model gets.  Left out: Agent.__init__
    and Recorder.__init__ (configuration, seeds, states and actions specification: SpecModel.v), what
    the model does with its arguments, and DuelingDQN's check for int actions (dueling_dqn.py
    229-232). *)

From Coq Require Import String List ZArith Bool.
From Verif Require Import Base.
Import ListNotations.
Open Scope string_scope.
Open Scope Z_scope.
Open Scope list_scope.

(** Python values, as far as agent arguments go (JSON, agent.py 119-120, plus objects); [Float m e]
    is m * 10^e *)
Inductive value :=
| None_
| Bool (b : bool)
| Int (n : Z)
| Float (mantissa exponent : Z)
| Str (s : string)
| Dict (items : list (string * value))
| List_ (items : list value)
| Object (id : nat).

(** keyword arguments, dictionaries (e.g. agent.py 100-103) *)
Definition dict := list (string * value).

(** d.get(k) (e.g. agent.py 160) *)
Fixpoint get (k : string) (d : dict) : option value :=
  match d with [] => None | (k', v) :: d' => if String.eqb k k' then Some v else get k d' end.
(** k in d (e.g. agent.py 149) *)
Definition has (k : string) (d : dict) : bool := match get k d with Some _ => true | None => false end.
(** d[k] = v: in place, or at the end (e.g. agent.py 155) *)
Fixpoint put (k : string) (v : value) (d : dict) : dict :=
  match d with
  | [] => [(k, v)]
  | (k', v') :: d' => if String.eqb k k' then (k, v) :: d' else (k', v') :: put k v d'
  end.
(** d.pop(k, None) (e.g. agent.py 172) *)
Definition remove (k : string) (d : dict) : dict := filter (fun e => negb (String.eqb k (fst e))) d.
(** d.update(other) (agent.py 101) *)
Definition update_ (d other : dict) : dict := fold_left (fun d e => put (fst e) (snd e) d) other d.

(** v == s for a string (e.g. a2c.py 205) *)
Definition is_str (s : string) (v : value) : bool := match v with Str t => String.eqb s t | _ => false end.
(** v is None (e.g. vpg.py 211) *)
Definition is_none (v : value) : bool := match v with None_ => true | _ => false end.
(** bool(v) (vpg.py 212) *)
Definition truthy (v : value) : bool :=
  match v with
  | None_ => false
  | Bool b => b
  | Int n => negb (n =? 0)
  | Float m _ => negb (m =? 0)
  | Str s => negb (String.eqb s "")
  | Dict d => match d with [] => false | _ => true end
  | List_ l => match l with [] => false | _ => true end
  | Object _ => true
  end.
(** isinstance(v, int), with its value; bool is a subclass of int (agents/tensorforce.py 390, 416) *)
Definition as_int (v : value) : option Z :=
  match v with Int n => Some n | Bool b => Some (if b then 1 else 0) | _ => None end.
(** v > n (agents/tensorforce.py 399, 421) *)
Definition greater (v : value) (n : Z) : res bool :=
  match v with
  | Int m => Ok (n <? m)
  | Bool b => Ok (n <? (if b then 1 else 0))
  | Float m e => Ok (if 0 <=? e then n <? m * 10 ^ e else n * 10 ^ (- e) <? m)
  | _ => Err "TypeError: '>' not supported"
  end.
(** sub in string *)
Definition substring (sub s : string) : bool :=
  existsb (fun i => String.eqb (String.substring i (String.length sub) s) sub) (seq 0 (S (String.length s))).
(** k in v (agents/tensorforce.py 321, 326, 331) *)
Definition contains (k : string) (v : value) : res bool :=
  match v with
  | Dict d => Ok (has k d)
  | Str s => Ok (substring k s)
  | List_ l => Ok (existsb (is_str k) l)
  | _ => Err "TypeError: argument is not iterable"
  end.

(** ** Binding of arguments *)
(** A signature: names, with default unless required *)
Definition signature := list (string * option value).
Definition required : option value := None.
Definition default (v : value) : option value := Some v.

(** Python's call with keyword arguments: every parameter gets its value *)
Fixpoint bind_args (s : signature) (kw : dict) : res dict :=
  match s with
  | [] => Ok []
  | (n, d) :: s' =>
      do v <- match get n kw, d with
              | Some v, _ => Ok v
              | None, Some v => Ok v
              | None, None => Err ("TypeError: missing argument " ++ n)
              end;
      do r <- bind_args s' kw;
      Ok ((n, v) :: r)
  end.
(** the remaining ones, bound to the ** parameter *)
Definition rest (s : signature) (kw : dict) : dict := filter (fun e => negb (has (fst e) (map (fun p => (fst p, None_)) s))) kw.

(** a parameter of a bound call *)
Definition arg (a : dict) (n : string) : value := match get n a with Some v => v | None => None_ end.

(** An agent: its specification and the arguments of its model. *)
Record agent := { g_spec : dict; g_model : dict }.

(** self.spec of the bound arguments (e.g. a2c.py 182-198) *)
Definition make_spec (name : string) (names : list string) (a : dict) : dict :=
  ("agent", Str name) :: map (fun n => (n, arg a n)) names.

(** ** The base agent *)
(** TensorforceAgent.__init__, agents/tensorforce.py 299-320 *)
Definition tensorforce_signature : signature := [
  ("states", required); ("actions", required); ("update", required); ("optimizer", required);
  ("objective", required); ("reward_estimation", required); ("max_episode_timesteps", default (None_));
  ("policy", default (Str "auto")); ("memory", default (None_)); ("baseline", default (None_));
  ("baseline_optimizer", default (None_)); ("baseline_objective", default (None_));
  ("l2_regularization", default (Float 0 0)); ("entropy_regularization", default (Float 0 0));
  ("state_preprocessing", default (Str "linear_normalization")); ("exploration", default (Float 0 0));
  ("variable_noise", default (Float 0 0)); ("parallel_interactions", default (Int 1));
  ("config", default (None_)); ("saver", default (None_)); ("summarizer", default (None_));
  ("tracking", default (None_)); ("recorder", default (None_))].
(** self.spec, agents/tensorforce.py 364-385 *)
Definition tensorforce_spec : list string := [
  "states"; "actions"; "max_episode_timesteps"; "policy"; "memory"; "update"; "optimizer"; "objective";
  "reward_estimation"; "baseline"; "baseline_optimizer"; "baseline_objective"; "l2_regularization";
  "entropy_regularization"; "state_preprocessing"; "exploration"; "variable_noise";
  "parallel_interactions"; "config"; "saver"; "summarizer"; "tracking"; "recorder"].

(** kwargs checks, agents/tensorforce.py 335-359 *)
Definition base_deprecated : list string :=
  ["baseline_policy"; "reward_preprocessing"; "name"; "buffer_observe"; "device"; "seed"].

(** config[buffer_observe], agents/tensorforce.py 393-430 *)
Definition buffer_observe (a : dict) (update : value) (config : dict) : res dict :=
  do p <- greater (arg a "parallel_interactions") 1;
  if p : bool then
    if has "buffer_observe" config then Ok config
    else if is_none (arg a "max_episode_timesteps") then Err "required: max_episode_timesteps"
    else Ok (put "buffer_observe" (Str "episode") config)
  else
    match update with
    | Dict u =>
        match get "unit" u with
        | None => Err "KeyError: 'unit'"
        | Some unit =>
            if is_str "timesteps" unit then
              match get "batch_size" u with
              | None => Err "KeyError: 'batch_size'"
              | Some batch_size =>
                  let update_frequency := match get "frequency" u with Some f => f | None => batch_size end in
                  match get "buffer_observe" config, as_int update_frequency with
                  | None, Some n => Ok (put "buffer_observe" (Int n) config)
                  | None, None => Ok (put "buffer_observe" (Int 1) config)
                  | Some v, Some n =>
                      do too_large <- (if is_str "episode" v then Ok true else greater v n);
                      if too_large : bool then Err "value: config[buffer_observe]" else Ok config
                  | Some v, None => Ok config
                  end
              end
            else if is_str "episodes" unit then
              Ok (if has "buffer_observe" config then config else put "buffer_observe" (Str "episode") config)
            else Ok config
        end
    | _ => Err "TypeError: indices"
    end.

(** TensorforceAgent.__init__ without the binding, agents/tensorforce.py 321-455; [spec] if a
    subclass has set self.spec *)
Definition base_body (spec : option dict) (a kwargs : dict) : res agent :=
  do c <- contains "estimate_actions" (arg a "reward_estimation");
  do _ <- assert_ (negb c) "deprecated: reward_estimation[estimate_actions]";
  do c <- contains "estimate_terminal" (arg a "reward_estimation");
  do _ <- assert_ (negb c) "deprecated: reward_estimation[estimate_terminal]";
  do c <- (if is_none (arg a "summarizer") then Ok false else contains "labels" (arg a "summarizer"));
  do _ <- assert_ (negb c) "deprecated: summarizer[labels]";
  match filter (fun n => has n kwargs) base_deprecated, kwargs with
  | n :: _, _ => Err ("deprecated: " ++ n)
  | [], _ :: _ => Err "invalid: arguments"
  | [], [] =>
      let spec := match spec with Some s => s | None => make_spec "tensorforce" tensorforce_spec a end in
      let memory := if is_none (arg a "memory") then Dict [("type", Str "recent")] else arg a "memory" in
      let update := match as_int (arg a "update") with
                    | Some n => Dict [("unit", Str "timesteps"); ("batch_size", arg a "update")]
                    | None => arg a "update"
                    end in
      do config <- match arg a "config" with
                   | None_ => Ok []
                   | Dict d => Ok d
                   | _ => Err "TypeError: dict"
                   end;
      do config <- buffer_observe a update config;
      Ok {| g_spec := spec;
            g_model := [("states", arg a "states"); ("actions", arg a "actions");
              ("max_episode_timesteps", arg a "max_episode_timesteps");
              ("policy", arg a "policy"); ("memory", memory); ("update", update); ("optimizer", arg a "optimizer");
              ("objective", arg a "objective"); ("reward_estimation", arg a "reward_estimation");
              ("baseline", arg a "baseline"); ("baseline_optimizer", arg a "baseline_optimizer");
              ("baseline_objective", arg a "baseline_objective");
              ("l2_regularization", arg a "l2_regularization");
              ("entropy_regularization", arg a "entropy_regularization");
              ("state_preprocessing", arg a "state_preprocessing");
              ("exploration", arg a "exploration"); ("variable_noise", arg a "variable_noise");
              ("parallel_interactions", arg a "parallel_interactions"); ("config", Dict config);
              ("saver", arg a "saver"); ("summarizer", arg a "summarizer"); ("tracking", arg a "tracking");
              ("recorder", arg a "recorder")] |}
  end.

(** TensorforceAgent.__init__, agents/tensorforce.py 299-455 *)
Definition base_init (spec : option dict) (kw : dict) : res agent :=
  do a <- bind_args tensorforce_signature kw;
  base_body spec a (rest tensorforce_signature kw).

(** ** The other agents *)
(** What an __init__ computes from its arguments: policy, memory, update, optimizer, objective,
    reward_estimation, baseline, baseline_optimizer, baseline_objective *)
Record parts := {
  p_policy : value; p_memory : value; p_update : value; p_optimizer : value; p_objective : value;
  p_reward_estimation : value; p_baseline : value; p_baseline_optimizer : value; p_baseline_objective : value
}.

(** super().__init__, the same in all (a2c.py 225-238, ac.py 219-232, dpg.py 221-234,
    double_dqn.py 219-232, dqn.py 217-230, dueling_dqn.py 214-227, ppo.py 263-276, trpo.py 252-265,
    vpg.py 233-246) *)
Definition super_args (a : dict) (p : parts) : dict := [
  ("states", arg a "states"); ("actions", arg a "actions"); ("max_episode_timesteps", arg a "max_episode_timesteps");
  ("parallel_interactions", arg a "parallel_interactions"); ("config", arg a "config"); ("recorder", arg a "recorder");
  ("policy", p_policy p); ("memory", p_memory p); ("update", p_update p); ("optimizer", p_optimizer p);
  ("objective", p_objective p); ("reward_estimation", p_reward_estimation p);
  ("baseline", p_baseline p); ("baseline_optimizer", p_baseline_optimizer p); ("baseline_objective", p_baseline_objective p);
  ("l2_regularization", arg a "l2_regularization"); ("entropy_regularization", arg a "entropy_regularization");
  ("state_preprocessing", arg a "state_preprocessing"); ("exploration", arg a "exploration");
  ("variable_noise", arg a "variable_noise"); ("saver", arg a "saver"); ("summarizer", arg a "summarizer");
  ("tracking", arg a "tracking")].

(** policy of the policy-gradient agents (a2c.py 200-203, ac.py 194-197, dpg.py 195-198,
    ppo.py 220-223, trpo.py 212-215, vpg.py 196-199) *)
Definition distributions (temperature : value) (a : dict) : value :=
  Dict [("type", Str "parametrized_distributions"); ("network", arg a "network"); ("temperature", temperature);
        ("use_beta_distribution", arg a "use_beta_distribution")].
(** a2c.py 205-208, ac.py 199-202, ppo.py 225-228, trpo.py 217-220, vpg.py 201-204 *)
Definition recent (a : dict) : value :=
  if is_str "minimum" (arg a "memory") then Dict [("type", Str "recent")]
  else Dict [("type", Str "recent"); ("capacity", arg a "memory")].
(** dpg.py 200, double_dqn.py 195, dqn.py 193, dueling_dqn.py 191 *)
Definition replay (a : dict) : value := Dict [("type", Str "replay"); ("capacity", arg a "memory")].
(** a2c.py 210, ac.py 204 (timesteps), ppo.py 230, trpo.py 222, vpg.py 206 (episodes) *)
Definition on_policy_update (unit : string) (a : dict) : value :=
  Dict [("unit", Str unit); ("batch_size", arg a "batch_size"); ("frequency", arg a "update_frequency")].
(** dpg.py 202-205, double_dqn.py 197-200, dqn.py 195-198, dueling_dqn.py 193-196 *)
Definition off_policy_update (a : dict) : value :=
  Dict [("unit", Str "timesteps"); ("batch_size", arg a "batch_size"); ("frequency", arg a "update_frequency");
        ("start", arg a "start_updating")].
(** a2c.py 212, ac.py 206, dpg.py 207, double_dqn.py 202, dqn.py 200, dueling_dqn.py 198, vpg.py 208 *)
Definition adam (a : dict) : value := Dict [("type", Str "adam"); ("learning_rate", arg a "learning_rate")].
(** reward_estimation of the agents with a horizon argument (a2c.py 215-220, ac.py 209-214,
    dpg.py 210-215, double_dqn.py 205-210, dqn.py 203-208, dueling_dqn.py 201-206) *)
Definition horizon_estimation (predict_horizon_values : string) (estimate_advantage predict_action_values : bool) (a : dict) : value :=
  Dict [("horizon", arg a "horizon"); ("discount", arg a "discount");
        ("predict_horizon_values", Str predict_horizon_values); ("estimate_advantage", Bool estimate_advantage);
        ("predict_action_values", Bool predict_action_values); ("reward_processing", arg a "reward_processing");
        ("return_processing", arg a "return_processing"); ("predict_terminal_values", arg a "predict_terminal_values")].

(** Rest of __init__ of A2C, a2c.py 200-223 *)
Definition a2c_body (a : dict) : res parts :=
  Ok {| p_policy := distributions (Float 1 0) a; p_memory := recent a; p_update := on_policy_update "timesteps" a;
        p_optimizer := adam a; p_objective := Str "policy_gradient";
        p_reward_estimation := horizon_estimation "early" true false a;
        p_baseline := Dict [("type", Str "parametrized_state_value"); ("network", arg a "critic")];
        p_baseline_optimizer := arg a "critic_optimizer"; p_baseline_objective := Dict [("type", Str "state_value")] |}.
(** AC, ac.py 194-217 *)
Definition ac_body (a : dict) : res parts :=
  Ok {| p_policy := distributions (Float 1 0) a; p_memory := recent a; p_update := on_policy_update "timesteps" a;
        p_optimizer := adam a; p_objective := Str "policy_gradient";
        p_reward_estimation := horizon_estimation "early" false false a;
        p_baseline := Dict [("type", Str "parametrized_state_value"); ("network", arg a "critic")];
        p_baseline_optimizer := arg a "critic_optimizer"; p_baseline_objective := Dict [("type", Str "state_value")] |}.
(** DPG, dpg.py 195-219 *)
Definition dpg_body (a : dict) : res parts :=
  Ok {| p_policy := distributions (Float 0 0) a; p_memory := replay a; p_update := off_policy_update a;
        p_optimizer := adam a; p_objective := Str "deterministic_policy_gradient";
        p_reward_estimation := horizon_estimation "late" false true a;
        p_baseline := Dict [("type", Str "parametrized_action_value"); ("network", arg a "critic")];
        p_baseline_optimizer := arg a "critic_optimizer"; p_baseline_objective := Dict [("type", Str "action_value")] |}.
(** What the three DQN agents have in common (double_dqn.py 195-217, dqn.py 193-215,
    dueling_dqn.py 191-212) *)
Definition dqn_parts (policy : value) (predict_action_values : bool) (a : dict) : res parts :=
  Ok {| p_policy := policy; p_memory := replay a; p_update := off_policy_update a;
        p_optimizer := adam a; p_objective := Dict [("type", Str "action_value"); ("huber_loss", arg a "huber_loss")];
        p_reward_estimation := horizon_estimation "late" false predict_action_values a;
        p_baseline := policy;
        p_baseline_optimizer := Dict [("type", Str "synchronization"); ("update_weight", arg a "target_update_weight");
                                      ("sync_frequency", arg a "target_sync_frequency")];
        p_baseline_objective := None_ |}.
(** DoubleDQN, double_dqn.py 191-217 *)
Definition double_dqn_body (a : dict) : res parts :=
  dqn_parts (Dict [("type", Str "parametrized_value_policy"); ("network", arg a "network"); ("state_value_mode", Str "implicit")]) true a.
(** DQN, dqn.py 189-215 *)
Definition dqn_body (a : dict) : res parts :=
  dqn_parts (Dict [("type", Str "parametrized_value_policy"); ("network", arg a "network"); ("state_value_mode", Str "implicit")]) false a.
(** DuelingDQN, dueling_dqn.py 189-212 *)
Definition dueling_dqn_body (a : dict) : res parts :=
  dqn_parts (Dict [("type", Str "parametrized_value_policy"); ("network", arg a "network")]) true a.
(** What PPO, TRPO and VPG have in common (ppo.py 220-261, trpo.py 212-250, vpg.py 196-231) *)
Definition episode_parts (optimizer objective : value) (a : dict) : res parts :=
  if is_none (arg a "baseline") then
    do _ <- assert_ (negb (truthy (arg a "predict_terminal_values"))) "AssertionError";
    do _ <- assert_ (is_none (arg a "baseline_optimizer")) "AssertionError";
    Ok {| p_policy := distributions (Float 1 0) a; p_memory := recent a; p_update := on_policy_update "episodes" a;
          p_optimizer := optimizer; p_objective := objective;
          p_reward_estimation := Dict [("horizon", Str "episode"); ("discount", arg a "discount");
            ("predict_horizon_values", Bool false); ("estimate_advantage", Bool false);
            ("reward_processing", arg a "reward_processing"); ("return_processing", arg a "return_processing")];
          p_baseline := None_; p_baseline_optimizer := arg a "baseline_optimizer"; p_baseline_objective := None_ |}
  else
    do _ <- assert_ (negb (is_none (arg a "baseline_optimizer"))) "AssertionError";
    Ok {| p_policy := distributions (Float 1 0) a; p_memory := recent a; p_update := on_policy_update "episodes" a;
          p_optimizer := optimizer; p_objective := objective;
          p_reward_estimation := Dict [("horizon", Str "episode"); ("discount", arg a "discount");
            ("predict_horizon_values", Str "early"); ("estimate_advantage", Bool true); ("predict_action_values", Bool false);
            ("reward_processing", arg a "reward_processing"); ("return_processing", arg a "return_processing");
            ("advantage_processing", arg a "advantage_processing");
            ("predict_terminal_values", arg a "predict_terminal_values")];
          p_baseline := Dict [("type", Str "parametrized_state_value"); ("network", arg a "baseline")];
          p_baseline_optimizer := arg a "baseline_optimizer"; p_baseline_objective := Dict [("type", Str "state_value")] |}.
(** PPO, ppo.py 220-261 *)
Definition ppo_body (a : dict) : res parts :=
  episode_parts
    (Dict [("optimizer", Str "adam"); ("learning_rate", arg a "learning_rate"); ("multi_step", arg a "multi_step");
           ("subsampling_fraction", arg a "subsampling_fraction")])
    (Dict [("type", Str "policy_gradient"); ("importance_sampling", Bool true);
           ("clipping_value", arg a "likelihood_ratio_clipping")]) a.
(** TRPO, trpo.py 212-250 *)
Definition trpo_body (a : dict) : res parts :=
  episode_parts
    (Dict [("optimizer", Str "natural_gradient"); ("learning_rate", arg a "learning_rate"); ("only_positive_updates", Bool true);
           ("subsampling_fraction", arg a "subsampling_fraction"); ("linesearch_iterations", arg a "linesearch_iterations")])
    (Dict [("type", Str "policy_gradient"); ("importance_sampling", Bool true)]) a.
(** VPG, vpg.py 196-231 *)
Definition vpg_body (a : dict) : res parts := episode_parts (adam a) (Str "policy_gradient") a.

(** AdvantageActorCritic.__init__, agents/a2c.py 143-172 *)
Definition a2c_signature : signature := [
  ("states", required); ("actions", required); ("batch_size", required);
  ("max_episode_timesteps", default (None_)); ("network", default (Str "auto"));
  ("use_beta_distribution", default (Bool false)); ("memory", default (Str "minimum"));
  ("update_frequency", default (Float 1 0)); ("learning_rate", default (Float 1 (-3)));
  ("horizon", default (Int 1)); ("discount", default (Float 99 (-2)));
  ("reward_processing", default (None_)); ("return_processing", default (None_));
  ("advantage_processing", default (None_)); ("predict_terminal_values", default (Bool false));
  ("critic", default (Str "auto")); ("critic_optimizer", default (Float 1 0));
  ("state_preprocessing", default (Str "linear_normalization")); ("exploration", default (Float 0 0));
  ("variable_noise", default (Float 0 0)); ("l2_regularization", default (Float 0 0));
  ("entropy_regularization", default (Float 0 0)); ("parallel_interactions", default (Int 1));
  ("config", default (None_)); ("saver", default (None_)); ("summarizer", default (None_));
  ("tracking", default (None_)); ("recorder", default (None_))].
(** agents/a2c.py 173-180 *)
Definition a2c_deprecated : list string := [
  "estimate_terminal"; "critic_network"].
(** self.spec, agents/a2c.py 182-198 *)
Definition a2c_spec : list string := [
  "states"; "actions"; "batch_size"; "max_episode_timesteps"; "network"; "use_beta_distribution";
  "memory"; "update_frequency"; "learning_rate"; "horizon"; "discount"; "return_processing";
  "advantage_processing"; "predict_terminal_values"; "critic"; "critic_optimizer";
  "state_preprocessing"; "exploration"; "variable_noise"; "l2_regularization";
  "entropy_regularization"; "parallel_interactions"; "config"; "saver"; "summarizer"; "tracking";
  "recorder"].
(** ActorCritic.__init__, agents/ac.py 139-167 *)
Definition ac_signature : signature := [
  ("states", required); ("actions", required); ("batch_size", required);
  ("max_episode_timesteps", default (None_)); ("network", default (Str "auto"));
  ("use_beta_distribution", default (Bool false)); ("memory", default (Str "minimum"));
  ("update_frequency", default (Float 1 0)); ("learning_rate", default (Float 1 (-3)));
  ("horizon", default (Int 1)); ("discount", default (Float 99 (-2)));
  ("reward_processing", default (None_)); ("return_processing", default (None_));
  ("predict_terminal_values", default (Bool false)); ("critic", default (Str "auto"));
  ("critic_optimizer", default (Float 1 0));
  ("state_preprocessing", default (Str "linear_normalization")); ("exploration", default (Float 0 0));
  ("variable_noise", default (Float 0 0)); ("l2_regularization", default (Float 0 0));
  ("entropy_regularization", default (Float 0 0)); ("parallel_interactions", default (Int 1));
  ("config", default (None_)); ("saver", default (None_)); ("summarizer", default (None_));
  ("tracking", default (None_)); ("recorder", default (None_))].
(** agents/ac.py 168-175 *)
Definition ac_deprecated : list string := [
  "estimate_terminal"; "critic_network"].
(** self.spec, agents/ac.py 177-192 *)
Definition ac_spec : list string := [
  "states"; "actions"; "batch_size"; "max_episode_timesteps"; "network"; "use_beta_distribution";
  "memory"; "update_frequency"; "learning_rate"; "horizon"; "discount"; "return_processing";
  "predict_terminal_values"; "critic"; "critic_optimizer"; "state_preprocessing"; "exploration";
  "variable_noise"; "l2_regularization"; "entropy_regularization"; "parallel_interactions"; "config";
  "saver"; "summarizer"; "tracking"; "recorder"].
(** DeterministicPolicyGradient.__init__, agents/dpg.py 142-168 *)
Definition dpg_signature : signature := [
  ("states", required); ("actions", required); ("memory", required); ("batch_size", required);
  ("max_episode_timesteps", default (None_)); ("network", default (Str "auto"));
  ("use_beta_distribution", default (Bool true)); ("update_frequency", default (Float 1 0));
  ("start_updating", default (None_)); ("learning_rate", default (Float 1 (-3)));
  ("horizon", default (Int 1)); ("discount", default (Float 99 (-2)));
  ("reward_processing", default (None_)); ("return_processing", default (None_));
  ("predict_terminal_values", default (Bool false)); ("critic", default (Str "auto"));
  ("critic_optimizer", default (Float 1 0));
  ("state_preprocessing", default (Str "linear_normalization"));
  ("exploration", default (Float 1 (-1))); ("variable_noise", default (Float 0 0));
  ("l2_regularization", default (Float 0 0)); ("entropy_regularization", default (Float 0 0));
  ("parallel_interactions", default (Int 1)); ("config", default (None_)); ("saver", default (None_));
  ("summarizer", default (None_)); ("tracking", default (None_)); ("recorder", default (None_))].
(** agents/dpg.py 169-176 *)
Definition dpg_deprecated : list string := [
  "estimate_terminal"; "critic_network"].
(** self.spec, agents/dpg.py 178-193 *)
Definition dpg_spec : list string := [
  "states"; "actions"; "memory"; "batch_size"; "max_episode_timesteps"; "network";
  "use_beta_distribution"; "update_frequency"; "start_updating"; "learning_rate"; "horizon";
  "discount"; "return_processing"; "predict_terminal_values"; "critic"; "critic_optimizer";
  "state_preprocessing"; "exploration"; "variable_noise"; "l2_regularization";
  "entropy_regularization"; "parallel_interactions"; "config"; "saver"; "summarizer"; "tracking";
  "recorder"].
(** DoubleDQN.__init__, agents/double_dqn.py 141-167 *)
Definition double_dqn_signature : signature := [
  ("states", required); ("actions", required); ("memory", required); ("batch_size", required);
  ("max_episode_timesteps", default (None_)); ("network", default (Str "auto"));
  ("update_frequency", default (Float 25 (-2))); ("start_updating", default (None_));
  ("learning_rate", default (Float 1 (-3))); ("huber_loss", default (None_));
  ("horizon", default (Int 1)); ("discount", default (Float 99 (-2)));
  ("reward_processing", default (None_)); ("return_processing", default (None_));
  ("predict_terminal_values", default (Bool false)); ("target_update_weight", default (Float 1 0));
  ("target_sync_frequency", default (Int 1));
  ("state_preprocessing", default (Str "linear_normalization")); ("exploration", default (Float 0 0));
  ("variable_noise", default (Float 0 0)); ("l2_regularization", default (Float 0 0));
  ("entropy_regularization", default (Float 0 0)); ("parallel_interactions", default (Int 1));
  ("config", default (None_)); ("saver", default (None_)); ("summarizer", default (None_));
  ("tracking", default (None_)); ("recorder", default (None_))].
(** agents/double_dqn.py 168-172 *)
Definition double_dqn_deprecated : list string := [
  "estimate_terminal"].
(** self.spec, agents/double_dqn.py 174-189 *)
Definition double_dqn_spec : list string := [
  "states"; "actions"; "memory"; "batch_size"; "max_episode_timesteps"; "network"; "update_frequency";
  "start_updating"; "learning_rate"; "huber_loss"; "horizon"; "discount"; "return_processing";
  "predict_terminal_values"; "target_update_weight"; "target_sync_frequency"; "state_preprocessing";
  "exploration"; "variable_noise"; "l2_regularization"; "entropy_regularization";
  "parallel_interactions"; "config"; "saver"; "summarizer"; "tracking"; "recorder"].
(** DeepQNetwork.__init__, agents/dqn.py 140-166 *)
Definition dqn_signature : signature := [
  ("states", required); ("actions", required); ("memory", required); ("batch_size", required);
  ("max_episode_timesteps", default (None_)); ("network", default (Str "auto"));
  ("update_frequency", default (Float 25 (-2))); ("start_updating", default (None_));
  ("learning_rate", default (Float 1 (-3))); ("huber_loss", default (None_));
  ("horizon", default (Int 1)); ("discount", default (Float 99 (-2)));
  ("reward_processing", default (None_)); ("return_processing", default (None_));
  ("predict_terminal_values", default (Bool false)); ("target_update_weight", default (Float 1 0));
  ("target_sync_frequency", default (Int 1));
  ("state_preprocessing", default (Str "linear_normalization")); ("exploration", default (Float 0 0));
  ("variable_noise", default (Float 0 0)); ("l2_regularization", default (Float 0 0));
  ("entropy_regularization", default (Float 0 0)); ("parallel_interactions", default (Int 1));
  ("config", default (None_)); ("saver", default (None_)); ("summarizer", default (None_));
  ("tracking", default (None_)); ("recorder", default (None_))].
(** agents/dqn.py 167-170 *)
Definition dqn_deprecated : list string := [
  "estimate_terminal"].
(** self.spec, agents/dqn.py 172-187 *)
Definition dqn_spec : list string := [
  "states"; "actions"; "memory"; "batch_size"; "max_episode_timesteps"; "network"; "update_frequency";
  "start_updating"; "learning_rate"; "huber_loss"; "horizon"; "discount"; "return_processing";
  "predict_terminal_values"; "target_update_weight"; "target_sync_frequency"; "state_preprocessing";
  "exploration"; "variable_noise"; "l2_regularization"; "entropy_regularization";
  "parallel_interactions"; "config"; "saver"; "summarizer"; "tracking"; "recorder"].
(** DuelingDQN.__init__, agents/dueling_dqn.py 139-165 *)
Definition dueling_dqn_signature : signature := [
  ("states", required); ("actions", required); ("memory", required); ("batch_size", required);
  ("max_episode_timesteps", default (None_)); ("network", default (Str "auto"));
  ("update_frequency", default (Float 25 (-2))); ("start_updating", default (None_));
  ("learning_rate", default (Float 1 (-3))); ("huber_loss", default (None_));
  ("horizon", default (Int 1)); ("discount", default (Float 99 (-2)));
  ("reward_processing", default (None_)); ("return_processing", default (None_));
  ("predict_terminal_values", default (Bool false)); ("target_update_weight", default (Float 1 0));
  ("target_sync_frequency", default (Int 1));
  ("state_preprocessing", default (Str "linear_normalization")); ("exploration", default (Float 0 0));
  ("variable_noise", default (Float 0 0)); ("l2_regularization", default (Float 0 0));
  ("entropy_regularization", default (Float 0 0)); ("parallel_interactions", default (Int 1));
  ("config", default (None_)); ("saver", default (None_)); ("summarizer", default (None_));
  ("tracking", default (None_)); ("recorder", default (None_))].
(** agents/dueling_dqn.py 166-170 *)
Definition dueling_dqn_deprecated : list string := [
  "estimate_terminal"].
(** self.spec, agents/dueling_dqn.py 172-187 *)
Definition dueling_dqn_spec : list string := [
  "states"; "actions"; "memory"; "batch_size"; "max_episode_timesteps"; "network"; "update_frequency";
  "start_updating"; "learning_rate"; "huber_loss"; "horizon"; "discount"; "return_processing";
  "predict_terminal_values"; "target_update_weight"; "target_sync_frequency"; "state_preprocessing";
  "exploration"; "variable_noise"; "l2_regularization"; "entropy_regularization";
  "parallel_interactions"; "config"; "saver"; "summarizer"; "tracking"; "recorder"].
(** ProximalPolicyOptimization.__init__, agents/ppo.py 153-179 *)
Definition ppo_signature : signature := [
  ("states", required); ("actions", required); ("max_episode_timesteps", required);
  ("batch_size", required); ("network", default (Str "auto"));
  ("use_beta_distribution", default (Bool false)); ("memory", default (Str "minimum"));
  ("update_frequency", default (Float 1 0)); ("learning_rate", default (Float 1 (-3)));
  ("multi_step", default (Int 10)); ("subsampling_fraction", default (Float 33 (-2)));
  ("likelihood_ratio_clipping", default (Float 25 (-2))); ("discount", default (Float 99 (-2)));
  ("reward_processing", default (None_)); ("return_processing", default (None_));
  ("advantage_processing", default (None_)); ("predict_terminal_values", default (Bool false));
  ("baseline", default (None_)); ("baseline_optimizer", default (None_));
  ("state_preprocessing", default (Str "linear_normalization")); ("exploration", default (Float 0 0));
  ("variable_noise", default (Float 0 0)); ("l2_regularization", default (Float 0 0));
  ("entropy_regularization", default (Float 0 0)); ("parallel_interactions", default (Int 1));
  ("config", default (None_)); ("saver", default (None_)); ("summarizer", default (None_));
  ("tracking", default (None_)); ("recorder", default (None_))].
(** agents/ppo.py 180-199 *)
Definition ppo_deprecated : list string := [
  "optimization_steps"; "estimate_terminal"; "critic_network"; "baseline_network"; "critic_optimizer"].
(** self.spec, agents/ppo.py 201-218 *)
Definition ppo_spec : list string := [
  "states"; "actions"; "max_episode_timesteps"; "batch_size"; "network"; "use_beta_distribution";
  "memory"; "update_frequency"; "learning_rate"; "multi_step"; "subsampling_fraction";
  "likelihood_ratio_clipping"; "discount"; "return_processing"; "advantage_processing";
  "predict_terminal_values"; "baseline"; "baseline_optimizer"; "state_preprocessing"; "exploration";
  "variable_noise"; "l2_regularization"; "entropy_regularization"; "parallel_interactions"; "config";
  "saver"; "summarizer"; "tracking"; "recorder"].
(** TrustRegionPolicyOptimization.__init__, agents/trpo.py 149-176 *)
Definition trpo_signature : signature := [
  ("states", required); ("actions", required); ("max_episode_timesteps", required);
  ("batch_size", required); ("network", default (Str "auto"));
  ("use_beta_distribution", default (Bool false)); ("memory", default (Str "minimum"));
  ("update_frequency", default (Float 1 0)); ("learning_rate", default (Float 1 (-2)));
  ("linesearch_iterations", default (Int 10)); ("subsampling_fraction", default (Float 1 0));
  ("discount", default (Float 99 (-2))); ("reward_processing", default (None_));
  ("return_processing", default (None_)); ("advantage_processing", default (None_));
  ("predict_terminal_values", default (Bool false)); ("baseline", default (None_));
  ("baseline_optimizer", default (None_));
  ("state_preprocessing", default (Str "linear_normalization")); ("exploration", default (Float 0 0));
  ("variable_noise", default (Float 0 0)); ("l2_regularization", default (Float 0 0));
  ("entropy_regularization", default (Float 0 0)); ("parallel_interactions", default (Int 1));
  ("config", default (None_)); ("saver", default (None_)); ("summarizer", default (None_));
  ("tracking", default (None_)); ("recorder", default (None_))].
(** agents/trpo.py 177-192 *)
Definition trpo_deprecated : list string := [
  "estimate_terminal"; "critic_network"; "baseline_network"; "critic_optimizer"].
(** self.spec, agents/trpo.py 194-210 *)
Definition trpo_spec : list string := [
  "states"; "actions"; "max_episode_timesteps"; "batch_size"; "network"; "use_beta_distribution";
  "memory"; "update_frequency"; "learning_rate"; "discount"; "return_processing";
  "advantage_processing"; "predict_terminal_values"; "baseline"; "baseline_optimizer";
  "state_preprocessing"; "exploration"; "variable_noise"; "l2_regularization";
  "entropy_regularization"; "parallel_interactions"; "config"; "saver"; "summarizer"; "tracking";
  "recorder"].
(** VanillaPolicyGradient.__init__, agents/vpg.py 142-168 *)
Definition vpg_signature : signature := [
  ("states", required); ("actions", required); ("max_episode_timesteps", required);
  ("batch_size", required); ("network", default (Str "auto"));
  ("use_beta_distribution", default (Bool false)); ("memory", default (Str "minimum"));
  ("update_frequency", default (Float 1 0)); ("learning_rate", default (Float 1 (-3)));
  ("discount", default (Float 99 (-2))); ("reward_processing", default (None_));
  ("return_processing", default (None_)); ("advantage_processing", default (None_));
  ("predict_terminal_values", default (Bool false)); ("baseline", default (None_));
  ("baseline_optimizer", default (None_));
  ("state_preprocessing", default (Str "linear_normalization")); ("exploration", default (Float 0 0));
  ("variable_noise", default (Float 0 0)); ("l2_regularization", default (Float 0 0));
  ("entropy_regularization", default (Float 0 0)); ("parallel_interactions", default (Int 1));
  ("config", default (None_)); ("saver", default (None_)); ("summarizer", default (None_));
  ("tracking", default (None_)); ("recorder", default (None_))].
(** agents/vpg.py 169-176 *)
Definition vpg_deprecated : list string := [
  "estimate_terminal"; "baseline_network"].
(** self.spec, agents/vpg.py 178-194 *)
Definition vpg_spec : list string := [
  "states"; "actions"; "max_episode_timesteps"; "batch_size"; "network"; "use_beta_distribution";
  "memory"; "update_frequency"; "learning_rate"; "discount"; "return_processing";
  "advantage_processing"; "predict_terminal_values"; "baseline"; "baseline_optimizer";
  "state_preprocessing"; "exploration"; "variable_noise"; "l2_regularization";
  "entropy_regularization"; "parallel_interactions"; "config"; "saver"; "summarizer"; "tracking";
  "recorder"].
(** ConstantAgent.__init__, agents/constant.py 108-115 *)
Definition constant_signature : signature := [
  ("states", required); ("actions", required); ("max_episode_timesteps", default (None_));
  ("action_values", default (None_)); ("config", default (None_)); ("recorder", default (None_))].
(** self.spec, agents/constant.py 117-122 *)
Definition constant_spec : list string := [
  "states"; "actions"; "max_episode_timesteps"; "action_values"; "config"; "recorder"].
(** RandomAgent.__init__, agents/random.py 104-109 *)
Definition random_signature : signature := [
  ("states", required); ("actions", required); ("max_episode_timesteps", default (None_));
  ("config", default (None_)); ("recorder", default (None_))].
(** self.spec, agents/random.py 111-115 *)
Definition random_spec : list string := [
  "states"; "actions"; "max_episode_timesteps"; "config"; "recorder"].

(** ** All agents *)
(** The agent classes (agents/__init__.py 16-34) *)
Inductive class := A2C | AC | DPG | DoubleDQN | DQN | DuelingDQN | PPO | TRPO | VPG | Constant | Random | Tensorforce.

(** signatures of __init__ (lines at each) *)
Definition class_signature (c : class) : signature :=
  match c with
  | A2C => a2c_signature | AC => ac_signature | DPG => dpg_signature | DoubleDQN => double_dqn_signature
  | DQN => dqn_signature | DuelingDQN => dueling_dqn_signature | PPO => ppo_signature | TRPO => trpo_signature
  | VPG => vpg_signature | Constant => constant_signature | Random => random_signature
  | Tensorforce => tensorforce_signature
  end.
(** names in self.spec (lines at each) *)
Definition class_spec (c : class) : list string :=
  match c with
  | A2C => a2c_spec | AC => ac_spec | DPG => dpg_spec | DoubleDQN => double_dqn_spec
  | DQN => dqn_spec | DuelingDQN => dueling_dqn_spec | PPO => ppo_spec | TRPO => trpo_spec
  | VPG => vpg_spec | Constant => constant_spec | Random => random_spec
  | Tensorforce => tensorforce_spec
  end.
(** self.spec['agent'] (a2c.py 183, ac.py 178, dpg.py 179, double_dqn.py 175, dqn.py 173, dueling_dqn.py 173, ppo.py 202, trpo.py 195, vpg.py 179, constant.py 118, random.py 112, tensorforce.py 365) *)
Definition class_name (c : class) : string :=
  match c with
  | A2C => "a2c"
  | AC => "ac"
  | DPG => "dpg"
  | DoubleDQN => "dqn"
  | DQN => "dqn"
  | DuelingDQN => "dueling_dqn"
  | PPO => "ppo"
  | TRPO => "trpo"
  | VPG => "vpg"
  | Constant => "constant"
  | Random => "random"
  | Tensorforce => "tensorforce"
  end.
(** kwargs checks of the classes (lines at each); the base agent's are part of base_body *)
Definition class_deprecated (c : class) : list string :=
  match c with
  | A2C => a2c_deprecated | AC => ac_deprecated | DPG => dpg_deprecated | DoubleDQN => double_dqn_deprecated
  | DQN => dqn_deprecated | DuelingDQN => dueling_dqn_deprecated | PPO => ppo_deprecated | TRPO => trpo_deprecated
  | VPG => vpg_deprecated | Constant | Random | Tensorforce => []
  end.
(** bodies of __init__ (lines at each) *)
Definition class_body (c : class) (a : dict) : res parts :=
  match c with
  | A2C => a2c_body a | AC => ac_body a | DPG => dpg_body a | DoubleDQN => double_dqn_body a
  | DQN => dqn_body a | DuelingDQN => dueling_dqn_body a | PPO => ppo_body a | TRPO => trpo_body a
  | VPG => vpg_body a | Constant | Random | Tensorforce => Err "not a subclass of TensorforceAgent"
  end.

(** agent(...): __init__ of the class, see above; constant.py 108-134, random.py 104-126 *)
Definition construct (c : class) (kw : dict) : res agent :=
  match c with
  | Tensorforce => base_init None kw
  | Constant | Random =>
      do a <- bind_args (class_signature c) kw;
      do _ <- assert_ (match rest (class_signature c) kw with [] => true | _ => false end) "TypeError: unexpected keyword argument";
      Ok {| g_spec := make_spec (class_name c) (class_spec c) a;
            g_model := [("states", arg a "states"); ("actions", arg a "actions");
              ("max_episode_timesteps", arg a "max_episode_timesteps"); ("config", arg a "config"); ("recorder", arg a "recorder")]
              ++ (match c with Constant => [("action_values", arg a "action_values")] | _ => [] end) |}
  | _ =>
      do a <- bind_args (class_signature c) kw;
      let kwargs := rest (class_signature c) kw in
      match filter (fun n => has n kwargs) (class_deprecated c) with
      | n :: _ => Err ("deprecated: " ++ n)
      | [] =>
          let spec := make_spec (class_name c) (class_spec c) a in
          do p <- class_body c a;
          let args := super_args a p in
          if existsb (fun e => has (fst e) args) kwargs then Err "TypeError: multiple values for keyword argument"
          else base_init (Some spec) (args ++ kwargs)
      end
  end.

(** ** Agent.create *)
(** What environment offers (agent.py 78-94); None_ for no limit *)
Record environment := { e_states : value; e_actions : value; e_max_episode_timesteps : value }.

(** The argument agent: an Agent object (with its spec), a class, another callable, or a value. *)
Inductive source := Instance (spec : dict) | Class (c : class) | Callable | Value (v : value).

(** The table of agents, agents/__init__.py 50-57; recorder is the class Recorder, which is no Agent *)
Definition agents : list (string * source) := [
  ("a2c", Class A2C); ("ac", Class AC); ("constant", Class Constant); ("ddpg", Class DPG); ("ddqn", Class DoubleDQN);
  ("default", Class Tensorforce); ("dpg", Class DPG); ("double_dqn", Class DoubleDQN); ("dqn", Class DQN);
  ("dueling_dqn", Class DuelingDQN); ("tensorforce", Class Tensorforce); ("ppo", Class PPO); ("random", Class Random);
  ("recorder", Callable); ("reinforce", Class VPG); ("trpo", Class TRPO); ("vpg", Class VPG)].

(** arguments taken from the environment, agent.py 77-95 *)
Definition from_environment (e : option environment) (kw : dict) : dict :=
  match e with
  | None => kw
  | Some e =>
      let kw := if has "states" kw then kw else put "states" (e_states e) kw in
      let kw := if has "actions" kw then kw else put "actions" (e_actions e) kw in
      if is_none (e_max_episode_timesteps e) || has "max_episode_timesteps" kw then kw
      else put "max_episode_timesteps" (e_max_episode_timesteps e) kw
  end.

(** What Agent.create returns: a new agent, a recorder of a function, or the given agent *)
Inductive created := New (c : class) (g : agent) | Recorded (kw : dict) | Same (spec : dict).

Section Create.
(** JSON files of the file system; modules that can be imported (util.try_import_module); == *)
Variable files : string -> option value.
Variable library : string -> option class.
Variable equal : value -> value -> bool.
(** >= (agent.py 64) *)
Variable at_least : value -> value -> bool.

(** the entry of the table of agents *)
Fixpoint lookup (k : string) (l : list (string * source)) : option source :=
  match l with [] => None | (k', s) :: l' => if String.eqb k k' then Some s else lookup k l' end.

(** kwargs for an existing agent, agent.py 62-66 *)
Fixpoint check_existing (spec kw : dict) : res unit :=
  match kw with
  | [] => Ok tt
  | (k, v) :: kw' =>
      match get k spec with
      | None => Err "KeyError"
      | Some w =>
          do _ <- assert_ (if String.eqb k "parallel_interactions" then at_least w v else equal w v) "AssertionError";
          check_existing spec kw'
      end
  end.

(** Agent.create, agent.py 37-132; [depth] bounds the recursion (Python's recursion limit) *)
Fixpoint create (depth : nat) (e : option environment) (s : source) (kw : dict) : res created :=
  match depth with
  | O => Err "RecursionError"
  | S depth =>
      match s with
      | Instance spec => do _ <- check_existing spec kw; Ok (Same spec)
      | Class c => do g <- construct c (from_environment e kw); Ok (New c g)
      | Callable =>
          let kw := from_environment e kw in
          if has "recorder" kw then Ok (Recorded kw) else Err "required: recorder"
      | Value (Dict d) =>
          let kw := update_ d kw in
          let agent := match get "agent" kw with
                       | Some v => v
                       | None => match get "type" kw with Some v => v | None => Str "default" end
                       end in
          let kw := remove "agent" (remove "type" kw) in
          if has "environment" kw then Err "TypeError: multiple values for keyword argument"
          else create depth e (Value agent) kw
      | Value (Str name) =>
          match files name with
          | Some v => create depth e (Value v) kw
          | None =>
              match lookup name agents with
              | Some s => create depth e s kw
              | None =>
                  match library name with
                  | Some c => create depth e (Class c) kw
                  | None => Err "value: Agent.create(agent)"
                  end
              end
          end
      | Value _ => Err "type: Agent.create(agent)"
      end
  end.

(** the passed dictionary after the call: agent.update(kwargs), agent.py 101 *)
Definition dict_after (d kw : dict) : dict := update_ d kw.

(** ** Agent.load *)
(** agent.py 152-205: what is passed to Agent.create, and whether the saver restores the agent.
    [stored] is the content of the JSON file, if there is one (SaveModel.v: load_spec). *)
Definition load_args (e : option environment) (stored : option dict) (kw : dict) : res (dict * dict * bool) :=
  do (agent, kw) <- match stored with
                    | None => Ok (kw, [])
                    | Some agent =>
                        match get "agent" kw with
                        | None => Ok (agent, kw)
                        | Some v =>
                            do _ <- assert_ (match get "agent" agent with Some w => equal w v | None => true end)
                                            "value: Agent.load(agent)";
                            Ok (put "agent" v agent, remove "agent" kw)
                        end
                    end;
  do agent <- match e with
              | Some e =>
                  if is_none (arg agent "max_episode_timesteps") && negb (is_none (e_max_episode_timesteps e)) then
                    match get "max_episode_timesteps" kw with
                    | Some v =>
                        do _ <- assert_ (at_least v (e_max_episode_timesteps e)) "AssertionError";
                        Ok (put "max_episode_timesteps" v agent)
                    | None => Ok (put "max_episode_timesteps" (e_max_episode_timesteps e) agent)
                    end
                  else Ok agent
              | None => Ok agent
              end;
  do agent <- match get "parallel_interactions" kw with
              | Some v => do p <- greater v 1; Ok (if p : bool then put "parallel_interactions" v agent else agent)
              | None => Ok agent
              end;
  let agent := remove "initial_internals" (remove "internals" agent) in
  match get "saver" agent, get "saver" kw with
  | Some (Dict s), _ =>
      do _ <- assert_ (match get "load" agent with Some v => truthy v | None => true end) "value: Agent.load(saver[load])";
      Ok (put "saver" (Dict (put "load" (Bool true) s)) agent, kw, true)
  | _, Some (Dict s) =>
      do _ <- assert_ (match get "load" kw with Some v => truthy v | None => true end) "value: Agent.load(saver[load])";
      Ok (agent, put "saver" (Dict (put "load" (Bool true) s)) kw, true)
  | _, _ => Ok (agent, kw, false)
  end.

(** Agent.load, agent.py 134-211: the agent, and whether it is restored by load itself *)
Definition load (depth : nat) (e : option environment) (stored : option dict) (kw : dict) : res (created * bool) :=
  do (agent, kw, saver_restore) <- load_args e stored kw;
  do c <- create depth e (Value (Dict agent)) kw;
  Ok (c, negb saver_restore).
End Create.
