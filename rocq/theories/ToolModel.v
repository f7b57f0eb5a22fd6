(** Variables of modules, and the scripts which run and tune agents.

    Modelled: core/module.py 521-640 (Module.variable), run.py 132-231, tune.py 46-147, 152-222, 295-298.

    Simplified: shapes of variables have no unknown entries, and their values are described, not drawn; floats are rational
    numbers, a standard deviation is given by its square, a logarithm is an exact power; int(x) of a string is any partial
    function.  Not modelled: argparse, plots, files, and the search of hpbandster. *)

From Coq Require Import String Ascii List ZArith QArith Qminmax Bool Arith.
From Verif Require Import Base CfgModel.
Import ListNotations.
Open Scope string_scope.
Open Scope list_scope.
Open Scope Z_scope.

(** ** Variables *)
(** The argument initializer: a number, an array or a tensor with type and shape, a name, or something else
    (module.py 536-550) *)
Inductive initializer := INumber (n : number) | IArray (t : atype) (shape : list Z) | ITensor (t : atype) (shape : list Z) | IName (s : string) | IOther.
(** isinstance(n, spec.py_type()); a bool is an int (module.py 540, utils/tensor_spec.py 86-92) *)
Definition instance (n : number) (t : atype) : bool :=
  match n, t with NBool _, TBool | NBool _, TInt | NInt _, TInt | NFloat _, TFloat => true | _, _ => false end.
(** Equality of types (module.py 543, 546) *)
Definition same_type (a b : atype) : bool := match a, b with TBool, TBool | TInt, TInt | TFloat, TFloat => true | _, _ => false end.
(** Equality of shapes (module.py 582, 588) *)
Fixpoint same_shape (a b : list Z) : bool :=
  match a, b with [], [] => true | x :: a, y :: b => (x =? y) && same_shape a b | _, _ => false end.
(** util.product (util.py 152-163) *)
Fixpoint product (l : list Z) : Z := match l with [] => 1 | x :: q => x * product q end.
(** The initial values: all the same, those which are given, normal with a variance, or a matrix with orthogonal rows or
    columns times a scale, and times the root of 2 for relu (module.py 578-633) *)
Inductive values := Filled (n : number) | Same | Normal (variance : Q) | Orthogonal (scale : Q) (relu : bool).
(** The names of initializers (module.py 537-539) *)
Definition initializer_names : list string := ["constant"; "normal"; "normal-relu"; "ones"; "orthogonal"; "orthogonal-relu"; "zeros"].
(** s in names (module.py 541, 554) *)
Definition one_of (s : string) (l : list string) : bool := existsb (String.eqb s) l.
(** name.replace('/', '_') (module.py 528) *)
Fixpoint replace (s : string) : string :=
  match s with EmptyString => EmptyString | String c s => String (if Ascii.eqb c "/" then "_"%char else c) (replace s) end.
(** Checks of the initializer (module.py 540-550) *)
Definition check_initializer (t : atype) (i : initializer) : res unit :=
  match i with
  | INumber n => assert_ (instance n t) "value: initializer"
  | IArray t' _ | ITensor t' _ => assert_ (same_type t' t) "type: initializer"
  | IName s => assert_ (one_of s initializer_names) "value: initializer"
  | IOther => Err "value: initializer"
  end.
(** Checks of initialization_scale (module.py 551-564) *)
Definition check_scale (t : atype) (i : initializer) (scale : option number) : res unit :=
  match scale with
  | None => Ok tt
  | Some n =>
      match i with
      | IName s =>
          do _ <- assert_ (one_of s ["constant"; "orthogonal"; "orthogonal-relu"]) "invalid: initialization_scale";
          assert_ (instance n t) "type: initialization_scale"
      | _ => Err "invalid: initialization_scale"
      end
  end.
(** min(0.1, sqrt(2 / n)), squared (module.py 602-604) *)
Definition variance (n : Z) : Q := Qmin (1 # 100) (2 / inject_Z n).
(** The scale as a number, of float type (module.py 622-629) *)
Definition scale_of (n : number) : Q := match n with NFloat q => q | NInt n => inject_Z n | NBool b => if b then 1%Q else 0%Q end.
(** Named initializers (module.py 594-639) *)
Definition named (t : atype) (shape : list Z) (s : string) (scale : option number) : res values :=
  if one_of s ["normal"; "normal-relu"] then
    if negb (same_type t TFloat) then Err "non-float"
    else if String.eqb s "normal-relu" then Ok (Normal (variance (product (removelast shape))))
    else match shape with [] => Err "IndexError" | _ => Ok (Normal (variance (product (removelast shape) + last shape 0))) end
  else if one_of s ["orthogonal"; "orthogonal-relu"] then
    if negb (same_type t TFloat) then Err "non-float"
    else if (Nat.ltb (length shape) 2) then Err "0/1-rank"
    else
      let relu := String.eqb s "orthogonal-relu" in
      match scale with
      | None => Ok (Orthogonal 1 relu)
      | Some n =>
          if Qeq_bool (scale_of n) 1 then Ok (Orthogonal 1 relu)
          else if Qle_bool (scale_of n) 0 then Err "value: initialization_scale"
          else Ok (Orthogonal (scale_of n) relu)
      end
  else if String.eqb s "zeros" then Ok (Filled (match t with TBool => NBool false | TInt => NInt 0 | TFloat => NFloat 0 end))
  else if String.eqb s "ones" then Ok (Filled (match t with TBool => NBool true | TInt => NInt 1 | TFloat => NFloat 1 end))
  else match scale with Some n => Ok (Filled n) | None => Err "ValueError" end.
(** The initial values (module.py 577-639) *)
Definition initial (t : atype) (shape : list Z) (i : initializer) (scale : option number) : res values :=
  match i with
  | INumber n => Ok (Filled n)
  | IArray _ s | ITensor _ s => do _ <- assert_ (same_shape s shape) "mismatch"; Ok Same
  | IName s => named t shape s scale
  | IOther => Err "Invalid variable initializer"
  end.
(** Module.variable: the name, the values, trainable and saved (module.py 521-640) *)
Definition variable (name : val) (t : atype) (shape : list Z) (i : initializer) (scale : option number) (trainable saved : val) :
    res (string * values * bool * bool) :=
  match name with
  | VStr n =>
      do _ <- assert_ (forallb (fun x => 0 <? x) shape) "underspecified";
      do _ <- check_initializer t i;
      do _ <- check_scale t i scale;
      match trainable, saved with
      | VNum (NBool b), VNum (NBool s) =>
          do _ <- assert_ (negb b || same_type t TFloat) "value: is_trainable";
          do v <- initial t shape i scale;
          Ok (replace n, v, b, s)
      | _, _ => Err "type: is_trainable or is_saved"
      end
  | _ => Err "type: name"
  end.
(** The factor of the singular value decomposition of a random matrix with m rows and n columns which is used: u has
    min(m, n) columns, v has min(m, n) rows; its rows and columns (module.py 617-619) *)
Definition factor (m n : Z) : Z * Z := if Z.min m n =? n then (m, Z.min m n) else (Z.min m n, n).

(** ** The script run.py *)
(** s.split(',') (run.py 167-169, 188, 195) *)
Fixpoint split (s : string) : list string :=
  match s with
  | EmptyString => [""]
  | String c s =>
      if Ascii.eqb c "," then "" :: split s
      else match split s with [] => [String c ""] | w :: q => String c w :: q end
  end.
(** ',' in s (run.py 166-168, 187, 194) *)
Fixpoint comma (s : string) : bool := match s with EmptyString => false | String c s => Ascii.eqb c "," || comma s end.
(** Values of the dictionaries and arguments (run.py 155-201) *)
Inductive setting := Text (s : string) | Flag (b : bool) | Pair (directory filename : string) | Texts (l : list string) | Number (n : Z) | Numbers (l : list Z).
(** The arguments; a path: whether it has an extension (run.py 30-130) *)
Record options := {
  o_path : option bool; o_episodes : option Z;
  o_environment : option string; o_level : option string; o_visualize : bool; o_visualize_directory : option string;
  o_host : option string; o_port : option string; o_remote : option string;
  o_agent : option string; o_checkpoints : option string; o_summaries : option string; o_recordings : option string }.
(** What is done: a server, or runs with an agent (run.py 173-178, 203-215) *)
Inductive command :=
| Serve (environment : option (list (string * setting))) (port : option setting)
| Execute (agent : list (string * setting)) (environment : option (list (string * setting))) (host port : option setting).
(** One optional entry (run.py 159-164, 185-201) *)
Definition entry (k : string) (v : option setting) : list (string * setting) := match v with Some v => [(k, v)] | None => [] end.
(** The specification of the environment; None cannot get entries (run.py 155-164) *)
Definition environment_of (o : options) : res (option (list (string * setting))) :=
  let more := entry "level" (option_map Text (o_level o)) ++ (if o_visualize o then [("visualize", Flag true)] else []) ++
    entry "visualize_directory" (option_map Text (o_visualize_directory o)) in
  match o_environment o, more with
  | None, [] => Ok None
  | None, _ => Err "TypeError"
  | Some e, _ => Ok (Some (("environment", Text e) :: more))
  end.
(** Hosts (run.py 166-167) *)
Definition host_of (h : option string) : option setting :=
  option_map (fun h => if comma h then Texts (split h) else Text h) h.
(** A directory with optional filename (run.py 187-191, 194-198) *)
Definition directory_of (s : option string) : res (option setting) :=
  match s with
  | None => Ok None
  | Some s => if comma s then match split s with [d; f] => Ok (Some (Pair d f)) | _ => Err "ValueError" end else Ok (Some (Text s))
  end.
Section Script.
(** int(x) (run.py 169-171) *)
Variable int : string -> option Z.
(** int(x), an error otherwise (run.py 169-171) *)
Definition int_of (s : string) : res Z := match int s with Some n => Ok n | None => Err "ValueError" end.
(** Ports (run.py 168-171) *)
Definition port_of (p : option string) : res (option setting) :=
  match p with
  | None => Ok None
  | Some p => if comma p then do l <- map_res int_of (split p); Ok (Some (Numbers l)) else do n <- int_of p; Ok (Some (Number n))
  end.
(** The specification of the agent; without one the arguments saver, summarizer and recorder are looked up, which do not exist
    (run.py 180-201) *)
Definition agent_of (o : options) : res (list (string * setting)) :=
  match o_agent o with
  | None => Err "AttributeError"
  | Some a =>
      do c <- directory_of (o_checkpoints o);
      do s <- directory_of (o_summaries o);
      Ok (("agent", Text a) :: entry "saver" c ++ entry "summarizer" s ++ entry "recorder" (option_map Text (o_recordings o)))
  end.
(** main, up to the first run (run.py 137-215) *)
Definition script (o : options) : res command :=
  do _ <- match o_path o with
          | None => Ok tt
          | Some extension => assert_ (negb extension && match o_episodes o with Some _ => true | None => false end) "AssertionError"
          end;
  do e <- environment_of o;
  do p <- port_of (o_port o);
  match o_remote o with
  | Some r => if String.eqb r "socket-server" then Ok (Serve e p) else do a <- agent_of o; Ok (Execute a e (host_of (o_host o)) p)
  | None => do a <- agent_of o; Ok (Execute a e (host_of (o_host o)) p)
  end.
End Script.

(** rewards[i].append(x) (run.py 149-152) *)
Fixpoint append_at {X} (i : nat) (x : X) (rows : list (list X)) : res (list (list X)) :=
  match rows, i with
  | [], _ => Err "IndexError"
  | r :: q, O => Ok ((r ++ [x]) :: q)
  | r :: q, S i => do q <- append_at i x q; Ok (r :: q)
  end.
(** The calls of callback in one run, for the episodes [i + 1], ... (run.py 148-153) *)
Fixpoint record_run {X} (rows : list (list X)) (i : nat) (run : list X) : res (list (list X)) :=
  match run with [] => Ok rows | x :: q => do rows <- append_at i x rows; record_run rows (S i) q end.
(** All repetitions (run.py 203-215) *)
Fixpoint record_all {X} (rows : list (list X)) (runs : list (list X)) : res (list (list X)) :=
  match runs with [] => Ok rows | r :: q => do rows <- record_run rows 0 r; record_all rows q end.
(** What is recorded (run.py 143-153, 203-215) *)
Definition recorded {X} (episodes : nat) (runs : list (list X)) : res (list (list X)) := record_all (repeat [] episodes) runs.

(** ** The script tune.py *)
(** A configuration (tune.py 152-222) *)
Record configuration := {
  c_batch_size : Z; c_learning_rate : Q; c_multi_step : Z; c_horizon : Z; c_discount : Q; c_importance_sampling : string; c_clipping_value : Q;
  c_baseline : string; c_baseline_weight : option Q; c_estimate_advantage : option string; c_entropy_regularization : Q }.
(** config[k] (tune.py 82, 85) *)
Definition item {X} (x : option X) : res X := match x with Some x => Ok x | None => Err "KeyError" end.
(** The predictions, the baseline, the weight and the objective of the baseline (tune.py 72-97) *)
Definition tune_baseline (c : configuration) : res (val * val * option policy_spec * boptimizer * option objective) :=
  if String.eqb (c_baseline c) "no" then Ok (VNum (NBool false), VNum (NBool false), None, NoOptimizer, None)
  else if String.eqb (c_baseline c) "same" then
    do e <- item (c_estimate_advantage c);
    do w <- item (c_baseline_weight c);
    Ok (VStr "early", VNum (NBool (String.eqb e "yes")), None, Weight w, Some (Value true))
  else if String.eqb (c_baseline c) "yes" then
    do e <- item (c_estimate_advantage c);
    do w <- item (c_baseline_weight c);
    Ok (VStr "early", VNum (NBool (String.eqb e "yes")), Some Network, Weight w, Some (Value true))
  else Err "AssertionError".
(** The arguments of the agent, for an environment with these actions and limit (tune.py 53-118; agents/tensorforce.py 427-430:
    whole episodes are observed) *)
Definition tune_args (actions : list (string * atype)) (max : option Z) (parallel : Z) (c : configuration) : res args :=
  do b <- tune_baseline c;
  let '(predict, estimate, baseline, optimizer, objective) := b in
  Ok {| a_actions := actions; a_max := max; a_policy := Network; a_policy_past := 0; a_memory := Recent; a_capacity := None;
        a_update := [("unit", VStr "episodes"); ("batch_size", VNum (NInt (c_batch_size c))); ("frequency", VNum (NInt 1))];
        a_objective := PolicyGradient;
        a_reward_estimation := [("horizon", VNum (NInt (c_horizon c))); ("discount", VNum (NFloat (c_discount c)));
          ("predict_horizon_values", predict); ("estimate_advantage", estimate); ("predict_action_values", VNum (NBool false))];
        a_baseline := baseline; a_baseline_past := 0; a_baseline_optimizer := optimizer; a_baseline_objective := objective;
        a_entropy_regularization := VNum (NFloat (if Qle_bool (1 # 100000) (c_entropy_regularization c) then c_entropy_regularization c else 0));
        a_exploration := EValue (VNum (NFloat 0)); a_variable_noise := VNum (NFloat 0); a_parallel_interactions := parallel; a_buffer_observe := None |}.
(** The clipping value of the objective (tune.py 60-70) *)
Definition tune_clipping (c : configuration) : option Q := if Qle_bool (c_clipping_value c) 1 then Some (c_clipping_value c) else None.
(** The number of parallel environments (tune.py 122-134) *)
Definition tune_parallel (parallel : option Z) (c : configuration) : Z := match parallel with None => 1 | Some n => Z.min n (c_batch_size c) end.

(** The first number from [i] whose power is the budget (tune.py 47-49) *)
Fixpoint exponent (base budget : Z) (i : nat) (tries : nat) : option nat :=
  match tries with
  | O => None
  | S t => if budget =? base ^ Z.of_nat i then Some i else exponent base budget (S i) t
  end.
(** The number of runs for a budget; the logarithm is divided by that of the base (tune.py 47-51) *)
Definition num_runs (base : Z) (runs_per_round : list Z) (budget : Z) : res Z :=
  if base =? 1 then Err "ZeroDivisionError"
  else match exponent base budget 0 (length runs_per_round) with
       | None => Err "AssertionError"
       | Some i => match nth_error runs_per_round i with Some n => Ok n | None => Err "AssertionError" end
       end.
(** The numbers of candidates which are printed (tune.py 296-298) *)
Definition candidates (base : Z) (rounds : nat) : list Z := map (fun n => base ^ Z.of_nat (rounds - n)) (seq 1 rounds).

(** Sum (tune.py 141-146) *)
Fixpoint sum (l : list Q) : Q := match l with [] => 0%Q | x :: q => (x + sum q)%Q end.
(** np.mean, of a list which is not empty (tune.py 141-146) *)
Definition mean (l : list Q) : Q := (sum l / inject_Z (Z.of_nat (length l)))%Q.
(** l[-20:] (tune.py 142) *)
Definition last20 (l : list Q) : list Q := skipn (length l - 20) l.
(** The loss for the returns of the episodes of all runs (tune.py 141-147) *)
Definition loss (runs : list (list Q)) : Q := (- (mean (map mean runs) + mean (map (fun r => mean (last20 r)) runs)))%Q.
