(** Model of the constructor of TensorforceModel, the model of all learning agents:
    /repo/tensorforce/core/models/tensorforce.py 30-51, 108-571 (TensorforceModel.__init__), 633-684
    (the part of core_initialize which can fail), /repo/tensorforce/core/parameters/parameter.py 36-69
    and constant.py 35-60 (checks of parameters), /repo/tensorforce/core/memories/queue.py 39-59
    (capacity), /repo/tensorforce/core/objectives/ (which functions of policy and baseline an
    objective requires).

    The dictionaries update and reward_estimation are lists of entries; Python makes sure that keys are
    different.  A parameter which is not a constant is described by the bounds which its min_value()
    and max_value() report (ParModel.v), layers by whether the specification of their output is that of
    a reward (TempModel.v), networks by how far they look back.  Strings are taken not to name files
    (ModModel.v resolves these).  Floats are rational numbers, without rounding.  Actions are named.
    Left out: state preprocessing (53-106, PreModel.v), optimizers, the parameters of objectives, names
    of internals (ChkModel.v), summaries. *)

From Coq Require Import String List ZArith QArith Qround Bool.
From Verif Require Import Base.
Import ListNotations.
Open Scope string_scope.
Open Scope list_scope.
Open Scope Z_scope.

(** ** Values *)
(** Numbers of Python (constant.py 36-46) *)
Inductive number := NBool (b : bool) | NInt (n : Z) | NFloat (q : Q).

(** Values of the arguments (models/tensorforce.py 149-571); [VSchedule] is a parameter which is not
    given by a number, with its bounds if its dtype is int and if it is float (parameter.py 71-75);
    [VLayers] are preprocessing layers, [same]: their output is specified like a reward *)
Inductive val :=
| VNone
| VStr (s : string)
| VNum (n : number)
| VSchedule (ints : option Z * option Z) (floats : option Q * option Q)
| VLayers (same : bool)
| VOther.

(** dictionaries (models/tensorforce.py 149-165, 205) *)
Definition dict := list (string * val).

(** d.get(k) (models/tensorforce.py 163) *)
Fixpoint get (k : string) (d : dict) : option val :=
  match d with [] => None | (k', v) :: q => if String.eqb k k' then Some v else get k q end.
(** k in d (models/tensorforce.py 211) *)
Definition has (k : string) (d : dict) : bool := match get k d with Some _ => true | None => false end.
(** d.get(k, default) (models/tensorforce.py 162) *)
Definition get_or (k : string) (v : val) (d : dict) : val := match get k d with Some x => x | None => v end.
(** all(key in keys for key in d) (models/tensorforce.py 149-153, 205) *)
Definition from (keys : list string) (d : dict) : bool := forallb (fun p => existsb (String.eqb (fst p)) keys) d.

(** v == s (models/tensorforce.py 168) *)
Definition is_str (s : string) (v : val) : bool := match v with VStr t => String.eqb s t | _ => false end.
(** v is False (models/tensorforce.py 327) *)
Definition is_false (v : val) : bool := match v with VNum (NBool false) => true | _ => false end.
(** v == q for a float q; bools and ints are numbers, too (models/tensorforce.py 541, 553) *)
Definition equals (v : val) (q : Q) : bool :=
  match v with
  | VNum (NBool b) => Qeq_bool (if b then 1 else 0)%Q q
  | VNum (NInt n) => Qeq_bool (inject_Z n) q
  | VNum (NFloat x) => Qeq_bool x q
  | _ => false
  end.
(** bool(v) (models/tensorforce.py 365) *)
Definition truthy (v : val) : bool :=
  match v with
  | VNone => false
  | VStr s => negb (String.eqb s "")
  | VNum (NBool b) => b
  | VNum (NInt n) => negb (n =? 0)
  | VNum (NFloat q) => negb (Qeq_bool q 0)
  | _ => true
  end.

(** ** Parameters *)
(** The check of a lower bound (parameter.py 48-58) *)
Definition lower {T} (leb : T -> T -> bool) (bound value : option T) : bool :=
  match bound with
  | None => true
  | Some b => match value with Some x => leb b x | None => false end
  end.
(** The check of an upper bound (parameter.py 59-69) *)
Definition upper {T} (leb : T -> T -> bool) (bound value : option T) : bool :=
  match bound with
  | None => true
  | Some b => match value with Some x => leb x b | None => false end
  end.
(** Parameter.__init__ for a parameter with the bounds [v], with min_value [lo] and max_value [hi]
    (parameter.py 46-69) *)
Definition bounded {T} (leb : T -> T -> bool) (lo hi : option T) (v : option T * option T) : res (option T * option T) :=
  if negb (match v with (Some x, Some y) => leb x y | _ => true end) then Err "AssertionError"
  else if negb (lower leb lo (fst v)) then Err "lower bound"
  else if negb (upper leb hi (snd v)) then Err "upper bound"
  else Ok v.

(** submodule(module=v, modules=parameter_modules, dtype='int', min_value=lo, max_value=hi), its bounds
    (module.py 456-470, constant.py 36-60, parameter.py 46-69) *)
Definition int_parameter (lo hi : option Z) (v : val) : res (option Z * option Z) :=
  match v with
  | VNum (NInt n) => bounded Z.leb lo hi (Some n, Some n)
  | VNum _ => Err "dtype"
  | VSchedule ints _ => bounded Z.leb lo hi ints
  | _ => Err "module"
  end.
(** the same with dtype='float' (module.py 456-470, constant.py 36-60, parameter.py 46-69) *)
Definition float_parameter (lo hi : option Q) (v : val) : res (option Q * option Q) :=
  match v with
  | VNum (NFloat q) => bounded Qle_bool lo hi (Some q, Some q)
  | VNum _ => Err "dtype"
  | VSchedule _ floats => bounded Qle_bool lo hi floats
  | _ => Err "module"
  end.
(** Parameter.is_constant(value=q) (parameter.py 85-91) *)
Definition is_constant (q : Q) (b : option Q * option Q) : bool :=
  match b with (Some x, Some y) => Qeq_bool x q && Qeq_bool y q | _ => false end.
(** v = 0.0 if v is None (models/tensorforce.py 109-110, 141-142, 197-198) *)
Definition or_zero (v : val) : val := match v with VNone => VNum (NFloat 0) | _ => v end.

(** ** Arguments *)
(** Types of actions (models/tensorforce.py 123) *)
Inductive atype := TBool | TInt | TFloat.
(** The policies of the library (policies/__init__.py 32-37) *)
Inductive policy_class := StateValue | ActionValue | ValuePolicy | Distributions.
(** The argument policy or baseline: the class is given, or a network for the default class
    (models/tensorforce.py 389-393, module.py 438-470) *)
Inductive policy_spec := Network | Typed (c : policy_class).
(** Objectives (objectives/__init__.py 26-30) *)
Inductive objective :=
| PolicyGradient
| DeterministicPolicyGradient
| Value (state : bool)
| Plus (o1 o2 : objective).
(** The argument baseline_optimizer: none, a float, or an optimizer (models/tensorforce.py 283-289) *)
Inductive boptimizer := NoOptimizer | Weight (q : Q) | Optimizer.
(** The memories of the library (memories/__init__.py 24) *)
Inductive memory_class := Recent | Replay.
(** The argument exploration: a value, or a dictionary, with what it is as a parameter
    (models/tensorforce.py 109-111, 133-138) *)
Inductive exploration := EValue (v : val) | EDict (d : dict) (parameter : val).

(** The arguments of the constructor (models/tensorforce.py 30-40) *)
Record args := {
  a_actions : list (string * atype);
  a_max : option Z;                          (* max_episode_timesteps *)
  a_policy : policy_spec;
  a_policy_past : Z;                         (* max_past_horizon of its network *)
  a_memory : memory_class;
  a_capacity : option Z;
  a_update : dict;
  a_objective : objective;
  a_reward_estimation : dict;
  a_baseline : option policy_spec;
  a_baseline_past : Z;
  a_baseline_optimizer : boptimizer;
  a_baseline_objective : option objective;
  a_entropy_regularization : val;
  a_exploration : exploration;
  a_variable_noise : val;
  a_parallel_interactions : Z;
  a_buffer_observe : option Z                (* None: 'episode' *)
}.

(** ** Exploration *)
(** Different exploration per action (models/tensorforce.py 111-132); a module is looked up by the name
    of the action, then by its type *)
Definition type_name (t : atype) : string := match t with TBool => "bool" | TInt => "int" | TFloat => "float" end.
(** The bounds of the exploration of one action, if it has one (models/tensorforce.py 115-132) *)
Definition action_exploration (d : dict) (p : string * atype) : res (option (option Q * option Q)) :=
  match (match get (fst p) d with Some v => v | None => get_or (type_name (snd p)) VNone d end) with
  | VNone => Ok None
  | v => do b <- float_parameter (Some 0%Q) (match snd p with TFloat => None | _ => Some 1%Q end) v; Ok (Some b)
  end.
(** The exploration: one parameter, or one for each action (models/tensorforce.py 111-138) *)
Inductive explores := Global (b : option Q * option Q) | PerAction (l : list (string * option (option Q * option Q))).
(** models/tensorforce.py 109-138 *)
Definition explore (actions : list (string * atype)) (e : exploration) : res explores :=
  match e with
  | EValue v => do b <- float_parameter (Some 0%Q) None (or_zero v); Ok (Global b)
  | EDict d v =>
      if forallb (fun k => existsb (fun p => String.eqb (fst k) (fst p)) actions) d then
        do l <- map_res (fun p => do b <- action_exploration d p; Ok (fst p, b)) actions;
        Ok (PerAction l)
      else do b <- float_parameter (Some 0%Q) None v; Ok (Global b)
  end.

(** ** Reward estimation *)
(** models/tensorforce.py 149-153 *)
Definition reward_keys : list string :=
  ["advantage_processing"; "discount"; "estimate_advantage"; "gae_decay"; "horizon"; "predict_action_values";
   "predict_horizon_values"; "predict_terminal_values"; "return_processing"; "reward_processing"; "trace_decay"].
(** The horizon: a whole episode or the bounds of a parameter (models/tensorforce.py 168-183) *)
Inductive horizon := Episode | Steps (b : option Z * option Z).
(** The return horizon and predict_horizon_values so far (models/tensorforce.py 163, 168-185) *)
Definition return_horizon (max : option Z) (r : dict) : res (horizon * val) :=
  let predict := get_or "predict_horizon_values" VNone r in
  match get "horizon" r with
  | None => Err "KeyError"
  | Some h =>
      if is_str "episode" h then
        match predict with
        | VNone => Ok (Episode, VStr "early")
        | _ => if is_str "late" predict then Err "predict_horizon_values" else Ok (Episode, predict)
        end
      else
        do b <- int_parameter (Some 1) max h;
        Ok (Steps b, match predict with VNone => VStr "late" | _ => predict end)
  end.
(** discount (models/tensorforce.py 188-194) *)
Definition discount (r : dict) : res (option Q * option Q) :=
  float_parameter (Some 0%Q) (Some 1%Q) (match get_or "discount" VNone r with VNone => VNum (NFloat 1) | v => v end).
(** predict_horizon_values without baseline (models/tensorforce.py 271-273) *)
Definition predict_horizon (a : args) (predict : val) : val :=
  match a_baseline a, a_baseline_objective a with
  | None, None => if has "predict_horizon_values" (a_reward_estimation a) then predict else VNum (NBool false)
  | _, _ => predict
  end.
(** The baseline is trained by the loss of the policy (models/tensorforce.py 275-281) *)
Definition in_loss (a : args) : bool :=
  match a_baseline a, a_baseline_objective a, a_baseline_optimizer a with
  | Some _, None, NoOptimizer => true
  | _, _, _ => false
  end.
(** estimate_advantage (models/tensorforce.py 162, 275-278) *)
Definition advantage (a : args) : val :=
  if in_loss a && negb (has "estimate_advantage" (a_reward_estimation a)) then VStr "late"
  else get_or "estimate_advantage" (VNum (NBool false)) (a_reward_estimation a).
(** baseline_optimizer (models/tensorforce.py 283-284) *)
Definition optimizer (a : args) : boptimizer :=
  match a_baseline_optimizer a, a_baseline_objective a with NoOptimizer, Some _ => Weight 1 | o, _ => o end.
(** One of reward_processing, return_processing, advantage_processing: whether there is one
    (models/tensorforce.py 292-304, 307-320, 323-342) *)
Definition processing (k : string) (r : dict) : res bool :=
  match get_or k VNone r with
  | VNone => Ok false
  | VLayers true => Ok true
  | VLayers false => Err "mismatch"
  | _ => Err "layers"
  end.
(** advantage_processing (models/tensorforce.py 323-342) *)
Definition advantage_processing (a : args) : res bool :=
  match get_or "advantage_processing" VNone (a_reward_estimation a) with
  | VNone => Ok false
  | _ => if is_false (advantage a) then Err "invalid" else processing "advantage_processing" (a_reward_estimation a)
  end.

(** ** Update *)
(** The values update_unit, update_batch_size, update_frequency and update_start
    (models/tensorforce.py 222-252); the last two are missing if there are no updates *)
Record updates := { u_unit : string; u_batch : option Z * option Z; u_frequency : option (option Z * option Z);
                    u_start : option (option Z * option Z) }.
(** The frequency in timesteps or episodes (models/tensorforce.py 230-240) *)
Definition frequency_value (frequency batch : val) : res val :=
  match frequency with
  | VNone => Ok batch
  | VNum (NFloat q) =>
      if Qle_bool q 0 || negb (Qle_bool q 1) then Err "not in (0.0, 1.0]"
      else match batch with
           | VNum (NInt n) => Ok (VNum (NInt (Z.max 1 (Qfloor (q * inject_Z n)))))
           | _ => Err "TypeError"
           end
  | v => Ok v
  end.
(** models/tensorforce.py 205-252 *)
Definition update_spec (u : dict) : res updates :=
  if negb (from ["batch_size"; "frequency"; "start"; "unit"] u) then Err "not from" else
  match get "unit" u with
  | None => Err "required"
  | Some unit =>
      if negb (is_str "timesteps" unit || is_str "episodes" unit) then Err "not in" else
      match get "batch_size" u with
      | None => Err "required"
      | Some batch =>
          do b <- int_parameter (Some 1) None batch;
          let name := if is_str "timesteps" unit then "timesteps" else "episodes" in
          if is_str "never" (get_or "frequency" VNone u)
          then Ok {| u_unit := name; u_batch := b; u_frequency := None; u_start := None |}
          else
            do v <- frequency_value (get_or "frequency" VNone u) batch;
            match snd b with
            | None => Err "TypeError"
            | Some most =>
                do f <- int_parameter (Some 1) (Some (Z.max 2 most)) v;
                do s <- int_parameter (Some 0) None (match get_or "start" VNone u with VNone => VNum (NInt 0) | x => x end);
                Ok {| u_unit := name; u_batch := b; u_frequency := Some f; u_start := Some s |}
            end
      end
  end.

(** ** Objectives, policy and baseline *)
(** required_policy_fns (objective.py 47-48, policy_gradient.py 67-68, value.py 65-69, plus.py 71-72,
    deterministic_policy_gradient.py 51-52) *)
Fixpoint policy_fns (o : objective) : list string :=
  match o with
  | PolicyGradient => ["stochastic"]
  | DeterministicPolicyGradient => ["policy"]
  | Value state => [if state then "state_value" else "action_value"]
  | Plus o1 o2 => policy_fns o1 ++ policy_fns o2
  end.
(** required_baseline_fns (objective.py 50-51, plus.py 74-75, deterministic_policy_gradient.py 54-55) *)
Fixpoint baseline_fns (o : objective) : list string :=
  match o with
  | DeterministicPolicyGradient => ["action_value"]
  | Plus o1 o2 => baseline_fns o1 ++ baseline_fns o2
  | _ => []
  end.
(** all(spec.type == 'float' ...) (deterministic_policy_gradient.py 45, models/tensorforce.py 376) *)
Definition continuous (actions : list (string * atype)) : bool :=
  forallb (fun p => match snd p with TFloat => true | _ => false end) actions.
(** all(spec.type in ('bool', 'int') ...) (models/tensorforce.py 379, parametrized_value_policy.py 67) *)
Definition discrete (actions : list (string * atype)) : bool :=
  forallb (fun p => match snd p with TFloat => false | _ => true end) actions.
(** The constructors of objectives (deterministic_policy_gradient.py 45-49, plus.py 50-60) *)
Fixpoint objective_ok (actions : list (string * atype)) (o : objective) : bool :=
  match o with
  | DeterministicPolicyGradient => continuous actions
  | Plus o1 o2 => objective_ok actions o1 && objective_ok actions o2
  | _ => true
  end.
(** The constructors of policies (parametrized_value_policy.py 67-71) *)
Definition policy_ok (actions : list (string * atype)) (c : policy_class) : bool :=
  match c with ValuePolicy => discrete actions | _ => true end.

(** required_fns <= {...} (models/tensorforce.py 373) *)
Definition within (fns allowed : list string) : bool := forallb (fun f => existsb (String.eqb f) allowed) fns.
(** The default module for a network, and whether there is a warning (models/tensorforce.py 373-387,
    416-430) *)
Definition default_module (actions : list (string * atype)) (fns : list string) : policy_class * bool :=
  if within fns ["state_value"] then (StateValue, false)
  else if within fns ["action_value"] && continuous actions then (ActionValue, false)
  else if within fns ["policy"; "action_value"; "state_value"] && discrete actions then (ValuePolicy, false)
  else if within fns ["policy"; "stochastic"] then (Distributions, false)
  else (Distributions, true).
(** submodule(module=policy, modules=policy_modules, default_module=...) (models/tensorforce.py 389-393,
    432-437) *)
Definition policy_module (actions : list (string * atype)) (s : policy_spec) (fns : list string) : res (policy_class * bool) :=
  let default := default_module actions fns in
  let c := match s with Network => fst default | Typed c => c end in
  if policy_ok actions c then Ok (c, snd default) else Err "types not bool/int".

(** Values are predicted (models/tensorforce.py 364, 407) *)
Definition predicts (predict estimate : val) : bool := negb (is_false predict) || negb (is_false estimate).
(** The function for predicted values (models/tensorforce.py 365-368, 408-411) *)
Definition value_fn (r : dict) : string :=
  if truthy (get_or "predict_action_values" (VNum (NBool false)) r) then "action_value" else "state_value".
(** The functions which the objective of the baseline requires (models/tensorforce.py 370-371, 413-414) *)
Definition baseline_objective_fns (a : args) : list string :=
  match a_baseline_objective a with Some o => policy_fns o | None => [] end.
(** Functions required of the policy (models/tensorforce.py 361-371) *)
Definition policy_required (a : args) (predict : val) : list string :=
  "policy" :: policy_fns (a_objective a) ++
  match a_baseline a with
  | Some _ => []
  | None =>
      (if predicts predict (advantage a) then [value_fn (a_reward_estimation a)] else []) ++
      baseline_fns (a_objective a) ++ baseline_objective_fns a
  end.
(** Functions required of a separate baseline (models/tensorforce.py 407-414): if no values are
    predicted, the set of the policy is extended *)
Definition baseline_required (a : args) (predict : val) : list string :=
  (if predicts predict (advantage a) then [value_fn (a_reward_estimation a)] else policy_required a predict) ++
  baseline_fns (a_objective a) ++ baseline_objective_fns a.
(** isinstance(policy, StochasticPolicy) (models/tensorforce.py 399, parametrized_distributions.py 23) *)
Definition stochastic (c : policy_class) : bool := match c with Distributions => true | _ => false end.

(** ** Memory *)
(** min_capacity (models/tensorforce.py 506-532) *)
Definition min_capacity (a : args) (u : updates) (h : horizon) : res (option Z) :=
  do c <- (if String.eqb (u_unit u) "timesteps" then
             match snd (u_batch u) with
             | None => Err "TypeError"
             | Some b =>
                 match (match h with Episode => a_max a | Steps s => snd s end) with
                 | None => Err "TypeError"
                 | Some n =>
                     let c := b + 1 + Z.max (a_policy_past a) (match a_baseline a with Some _ => a_baseline_past a | None => a_policy_past a end) + n in
                     Ok (Some (match a_max a with Some m => Z.max c m | None => c end))
                 end
             end
           else
             match a_max a with
             | None => Ok None
             | Some m => match snd (u_batch u) with None => Err "TypeError" | Some b => Ok (Some ((b + 1) * m)) end
             end);
  Ok (match a_buffer_observe a with
      | None => match a_max a, c with Some m, Some x => Some (Z.max x (2 * m)) | _, _ => c end
      | Some n => match c with None => Some (2 * n) | Some x => Some (Z.max x (2 * n)) end
      end).
(** The capacity of the memory (queue.py 46-59) *)
Definition memory_capacity (capacity least : option Z) : res Z :=
  match capacity, least with
  | None, None => Err "required"
  | None, Some n => Ok n
  | Some _, None => Err "TypeError"
  | Some c, Some n => if c <? n then Err "< minimum capacity" else Ok c
  end.

(** ** Decays *)
(** models/tensorforce.py 540-549 *)
Definition trace_decay (a : args) (predict : val) : res (option Q * option Q) :=
  let v := get_or "trace_decay" (VNum (NFloat 1)) (a_reward_estimation a) in
  if negb (equals v 1) && negb (is_str "early" predict) then Err "invalid"
  else float_parameter (Some 0%Q) (Some 1%Q) v.
(** models/tensorforce.py 552-571 *)
Definition gae_decay (a : args) : res (option Q * option Q) :=
  let v := get_or "gae_decay" (VNum (NFloat 0)) (a_reward_estimation a) in
  if negb (equals v 0) then
    match a_memory a with
    | Replay => Err "memory type is not Recent"
    | Recent =>
        if is_false (advantage a) then Err "estimate_advantage is false"
        else if in_loss a then Err "advantage-in-loss mode"
        else float_parameter (Some 0%Q) (Some 1%Q) v
    end
  else float_parameter (Some 0%Q) (Some 1%Q) v.

(** ** The constructor *)
(** What the constructor sets (models/tensorforce.py 109-571) *)
Record made := {
  m_exploration : explores;
  m_noise : option Q * option Q;
  m_horizon : horizon;
  m_predict : val;                           (* predict_horizon_values *)
  m_advantage : val;                         (* estimate_advantage *)
  m_in_loss : bool;
  m_discount : option Q * option Q;
  m_entropy : option Q * option Q;
  m_update : updates;
  m_policy : policy_class;
  m_baseline : option policy_class;
  m_warned : bool * bool;                    (* policy, baseline *)
  m_weight : option (option Q * option Q);   (* baseline_loss_weight *)
  m_capacity : Z;
  m_trace : option Q * option Q;
  m_gae : option Q * option Q
}.

(** TensorforceModel.__init__ (models/tensorforce.py 108-571) *)
Definition construct (a : args) : res made :=
  let r := a_reward_estimation a in
  do e <- explore (a_actions a) (a_exploration a);
  do noise <- float_parameter (Some 0%Q) None (or_zero (a_variable_noise a));
  do _ <- assert_ (from reward_keys r) "not from";
  do hp <- return_horizon (a_max a) r;
  do d <- discount r;
  do entropy <- float_parameter (Some 0%Q) None (or_zero (a_entropy_regularization a));
  do u <- update_spec (a_update a);
  let predict := predict_horizon a (snd hp) in
  do _ <- processing "reward_processing" r;
  do _ <- processing "return_processing" r;
  do _ <- advantage_processing a;
  do _ <- assert_ (objective_ok (a_actions a) (a_objective a)) "objective";
  do _ <- match a_baseline_objective a with
          | None => Ok tt
          | Some o =>
              do _ <- assert_ (objective_ok (a_actions a) o) "objective";
              assert_ (match baseline_fns o with [] => true | _ => false end) "AssertionError"
          end;
  do p <- policy_module (a_actions a) (a_policy a) (policy_required a predict);
  do _ <- assert_ (is_constant 0 entropy || stochastic (fst p)) "policy is not stochastic";
  do b <- match a_baseline a with
          | None => Ok None
          | Some s => do b <- policy_module (a_actions a) s (baseline_required a predict); Ok (Some b)
          end;
  do w <- match optimizer a with
          | Weight q => do w <- float_parameter (Some 0%Q) None (VNum (NFloat q)); Ok (Some w)
          | _ => Ok None
          end;
  do least <- min_capacity a u (fst hp);
  do c <- memory_capacity (a_capacity a) least;
  do t <- trace_decay a predict;
  do g <- gae_decay a;
  Ok {| m_exploration := e; m_noise := noise; m_horizon := fst hp; m_predict := predict; m_advantage := advantage a;
        m_in_loss := in_loss a; m_discount := d; m_entropy := entropy; m_update := u; m_policy := fst p;
        m_baseline := option_map fst b; m_warned := (snd p, match b with Some x => snd x | None => false end);
        m_weight := w; m_capacity := c; m_trace := t; m_gae := g |}.

(** TensorforceModel.core_initialize: the capacity of the buffers and the first value of last_update
    (models/tensorforce.py 633-639, 680-684) *)
Definition core_initialize (a : args) (m : made) : res (Z * Z) :=
  do capacity <- match m_horizon m, a_buffer_observe a with
                 | Steps b, Some n =>
                     if a_parallel_interactions a >? 1 then match a_max a with Some x => Ok x | None => Err "TypeError" end
                     else match snd b with
                          | None => Err "TypeError"
                          | Some s => Ok (match a_max a with Some x => Z.min (n + s) x | None => n + s end)
                          end
                 | _, _ => match a_max a with Some x => Ok x | None => Err "TypeError" end
                 end;
  match u_frequency (m_update m) with
  | None => Err "AttributeError"
  | Some (_, Some f) => Ok (capacity, - f)
  | Some (_, None) => Err "TypeError"
  end.
