(** Model of the optimizers and update modifiers: /repo/tensorforce/core/optimizers/
    tf_optimizer.py 148-195, natural_gradient.py 71-198, evolutionary.py 53-157,
    synchronization.py 62-114, plus.py 48-56, global_optimizer.py 36-67, clipping_step.py 54-88,
    multi_step.py 44-62, subsampling_step.py 53-94, linesearch_step.py 58-98,
    doublecheck_step.py 34-54, optimizer_wrapper.py 48-95; and of the choice of the source variables
    in /repo/tensorforce/core/models/tensorforce.py 2296-2303.

    Floats are real numbers.  The operations of a step run in the order in which the code states
    them (control dependencies and TensorFlow's automatic control dependencies).  The loss function,
    its gradients, the Fisher matrix product, TensorFlow's own optimizers and all random draws are
    arbitrary functions.  Left out: summaries, the debugging assertions of optimizer.py 98-139, the
    assertion that at least one gradient exists (tf_optimizer.py 173), and variables whose dtype is
    not tensorforce's float. *)

From Coq Require Import String List ZArith Reals Bool.
From Verif Require Import OptVec ParModel SolveModel.
Import ListNotations.
Open Scope R_scope.

(** ** Parameters *)
(** A parameter module as the optimizers use it: is_constant() (parameter.py 77-91) and the result
    of value() (parameter.py 122-140) at the n-th read of a parameter or random draw since the start:
    it may depend on the time and may be random. *)
Record param := { p_const : option R; p_value : nat -> R }.
(** the same for integers (parameter.py 77-91, 121) *)
Record iparam := { i_const : option Z; i_value : nat -> Z }.
(** is_constant(value=c), parameter.py 86-91 *)
Definition p_is (p : param) (c : R) : bool := match p_const p with Some x => Reqb x c | None => false end.
(** the same for integers, parameter.py 86-91 *)
Definition i_is (p : iparam) (c : Z) : bool := match i_const p with Some x => Z.eqb x c | None => false end.

(** ** Arguments of an update *)
(** [arguments] (tensorforce.py 479-493): the states of all sequences behind each other, the
    position and length of the sequence of every timestep, and the remaining values with one entry
    per timestep (internals, auxiliaries, actions, reward, reference); names of nested values are
    flattened. [D] is the type of single entries. *)
Record arguments (D : Type) := {
  a_states : option (list (string * list D));
  a_horizons : option (list (nat * nat));
  a_reward : list D;
  a_others : list (string * list D)
}.
Arguments a_states {D}. Arguments a_horizons {D}. Arguments a_reward {D}. Arguments a_others {D}.

(** tf.gather with indices into the first dimension; [d] is what lies outside (subsampling_step.py 76-87) *)
Definition gather {A} (d : A) (x : list A) (indices : list nat) : list A := map (fun i => nth i x d) indices.
(** tf.math.cumsum(exclusive=True) (subsampling_step.py 82) *)
Fixpoint cumsum (from : nat) (l : list nat) : list nat :=
  match l with [] => [] | n :: l' => from :: cumsum (from + n) l' end.

(** subsampled_step, subsampling_step.py 70-87 *)
Definition subsample {D} (d : D) (indices : list nat) (a : arguments D) : arguments D :=
  let others := map (fun '(name, x) => (name, gather d x indices)) (a_others a) in
  let reward := gather d (a_reward a) indices in
  match a_states a, a_horizons a with
  | Some states, Some horizons =>
      let horizons := gather (O, O) horizons indices in
      let states_indices := flat_map (fun '(start, length) => seq start length) horizons in
      let lengths := map snd horizons in
      {| a_states := Some (map (fun '(name, x) => (name, gather d x states_indices)) states);
         a_horizons := Some (combine (cumsum 0 lengths) lengths);
         a_reward := reward; a_others := others |}
  | states, horizons =>
      {| a_states := option_map (map (fun '(name, x) => (name, gather d x indices))) states;
         a_horizons := option_map (fun x => gather (O, O) x indices) horizons;
         a_reward := reward; a_others := others |}
  end.

(** ** Clipping (TensorFlow, by its documentation) *)
(** tf.linalg.global_norm (clipping_step.py 76) *)
Definition global_norm (v : vars) : R := sqrt (vdot v v).
(** tf.clip_by_global_norm: t * clip_norm / max(global_norm, clip_norm)
    (clipping_step.py 61, tf_optimizer.py 180) *)
Definition clip_by_global_norm (c : R) (v : vars) : vars := vscale (c / Rmax (global_norm v) c) v.
(** tf.clip_by_norm, for one tensor (clipping_step.py 68) *)
Definition clip_by_norm (c : R) (t : tensor) : tensor := map (fun x => c / Rmax (global_norm [t]) c * x) t.
(** tf.clip_by_value (clipping_step.py 70) *)
Definition clip_by_value (lo hi : R) (x : R) : R := Rmin (Rmax x lo) hi.

(** ClippingStep(mode), clipping_step.py 46-47 *)
Inductive mode := GlobalNorm | Norm | Value.

(** ClippingStep.step, clipping_step.py 60-73 *)
Definition clip (m : mode) (threshold : R) (deltas : vars) : vars :=
  match m with
  | GlobalNorm => clip_by_global_norm threshold deltas
  | Norm => map (clip_by_norm threshold) deltas
  | Value => vmap (clip_by_value (- threshold) threshold) deltas
  end.

(** ** Optimizers *)
(** SubsamplingStep(fraction), subsampling_step.py 40-51 *)
Inductive fraction := Absolute (p : iparam) | Relative (p : param).

(** The optimizer modules with their arguments.  The numbers tell the TensorFlow optimizers, and
    the next_sync variables, apart (optimizers/__init__.py 37-48) *)
Inductive optimizer :=
| TFOptimizer (id : nat) (gradient_norm_clipping : option param)
| NaturalGradient (learning_rate : param) (cg_max_iterations : iparam) (cg_damping : param) (only_positive_updates : bool)
| Evolutionary (learning_rate : param) (num_samples : iparam)
| Synchronization (id : nat) (update_weight : param) (sync_frequency : iparam)
| Plus (optimizer1 optimizer2 : optimizer)
| GlobalOptimizer (o : optimizer)
| ClippingStep (threshold : param) (m : mode) (o : optimizer)
| MultiStep (num_steps : iparam) (o : optimizer)
| SubsamplingStep (f : fraction) (o : optimizer)
| LinesearchStep (max_iterations : iparam) (backtracking_factor : param) (o : optimizer)
| DoublecheckStep (o : optimizer).

Section Step.
(** entries of the arguments *)
Context {D : Type} (d : D).
(** whatever TensorFlow's optimizers remember between steps *)
Context {Slots : Type}.
(** fn_loss(arguments): value at the n-th evaluation, for the current variables *)
Variable loss : nat -> arguments D -> vars -> R.
(** tape.gradient(target=loss, sources=variables): None for variables the loss does not depend on *)
Variable gradient : arguments D -> vars -> list (option tensor).
(** product of the Hessian of fn_kl_divergence with a vector (natural_gradient.py 81-115) *)
Variable fisher : arguments D -> vars -> vars -> vars.
(** tf_optimizer.apply_gradients: new values of the variables, new slots *)
Variable apply_gradients : nat -> list (option tensor) -> vars -> Slots -> vars * Slots.
(** tf.random.normal: entry j of the i-th variable, for the n-th draw *)
Variable normal : nat -> nat -> nat -> R.
(** tf.random.uniform: source of the i-th index of the n-th draw *)
Variable uniform : nat -> nat -> nat.
(** kwargs['source_variables'] *)
Variable sources : vars.

(** TensorFlow state during an update (optimizer.py 86-170) *)
Record world := {
  w_vars : vars;           (* variables *)
  w_globals : vars;        (* kwargs['global_variables'] *)
  w_slots : Slots;         (* variables of TensorFlow's optimizers *)
  w_next : nat -> Z;       (* next_sync of every Synchronization *)
  w_clock : nat;           (* number of parameter reads and random draws so far *)
  w_evals : nat            (* number of loss evaluations so far *)
}.

(** assignment to the variables (e.g. clipping_step.py 84) *)
Definition set_vars (w : world) (v : vars) : world :=
  {| w_vars := v; w_globals := w_globals w; w_slots := w_slots w; w_next := w_next w; w_clock := w_clock w; w_evals := w_evals w |}.
(** assignment to the global variables (global_optimizer.py 50) *)
Definition set_globals (w : world) (v : vars) : world :=
  {| w_vars := w_vars w; w_globals := v; w_slots := w_slots w; w_next := w_next w; w_clock := w_clock w; w_evals := w_evals w |}.
(** TensorFlow's optimizer changes its variables (tf_optimizer.py 188-191) *)
Definition set_slots (w : world) (s : Slots) : world :=
  {| w_vars := w_vars w; w_globals := w_globals w; w_slots := s; w_next := w_next w; w_clock := w_clock w; w_evals := w_evals w |}.
(** assignment to next_sync (synchronization.py 77-79) *)
Definition set_next (w : world) (id : nat) (n : Z) : world :=
  {| w_vars := w_vars w; w_globals := w_globals w; w_slots := w_slots w;
     w_next := fun k => if Nat.eqb k id then n else w_next w k; w_clock := w_clock w; w_evals := w_evals w |}.
(** after a parameter read or draw (parameter.py 121) *)
Definition tick (w : world) : world :=
  {| w_vars := w_vars w; w_globals := w_globals w; w_slots := w_slots w; w_next := w_next w; w_clock := S (w_clock w); w_evals := w_evals w |}.

(** parameter.value() (parameter.py 121) *)
Definition read (p : param) (w : world) : R * world := (p_value p (w_clock w), tick w).
(** the same for integers (parameter.py 121) *)
Definition read_int (p : iparam) (w : world) : Z * world := (i_value p (w_clock w), tick w).

(** fn_loss( **arguments.to_kwargs() ) (e.g. doublecheck_step.py 36, linesearch_step.py 60) *)
Definition eval_loss (a : arguments D) (w : world) : R * world :=
  (loss (w_evals w) a (w_vars w),
   {| w_vars := w_vars w; w_globals := w_globals w; w_slots := w_slots w; w_next := w_next w; w_clock := w_clock w; w_evals := S (w_evals w) |}).

(** variable.assign_add(delta) for all variables (e.g. evolutionary.py 69, linesearch_step.py 83) *)
Definition assign_add (deltas : vars) (w : world) : world := set_vars w (vadd (w_vars w) deltas).

(** learning_rate * tf.random.normal(shape=variable.shape) for all variables
    (evolutionary.py 59-65, 102-110) *)
Definition perturbation (learning_rate : R) (w : world) : vars * world :=
  (map2 (fun i (t : tensor) => map (fun j => learning_rate * normal (w_clock w) i j) (seq 0 (length t)))
        (seq 0 (length (w_vars w))) (w_vars w),
   tick w).

(** tf.random.uniform(shape=(n,), maxval=batch_size) (subsampling_step.py 71-73) *)
Definition draw_indices (n batch_size : nat) (w : world) : list nat * world :=
  (map (fun i => Nat.modulo (uniform (w_clock w) i) batch_size) (seq 0 n), tick w).

(** TFOptimizer.step, tf_optimizer.py 147-195 *)
Definition tf_step (id : nat) (clipping : option param) (a : arguments D) (w : world) : vars * world :=
  let previous := w_vars w in
  let '(_, w) := eval_loss a w in
  let gradients := gradient a (w_vars w) in
  let '(gradients, w) :=
    match clipping with
    | None => (gradients, w)
    | Some p =>
        let '(clip_norm, w) := read p w in
        let present := flat_map (fun g => match g with Some t => [t] | None => [] end) gradients in
        let scale := clip_norm / Rmax (global_norm present) clip_norm in
        (map (option_map (map (fun x => scale * x))) gradients, w)
    end in
  let '(after, slots) := apply_gradients id gradients (w_vars w) (w_slots w) in
  let w := set_slots (set_vars w after) slots in
  (vsub (w_vars w) previous, w).

(** NaturalGradient.step, natural_gradient.py 70-198 *)
Definition natural_step (lr : param) (cg_max : iparam) (cg_damping : param) (only_positive : bool)
    (a : arguments D) (w : world) : vars * world :=
  let product x := fisher a (w_vars w) x in
  let '(_, w) := eval_loss a w in
  let loss_gradients :=
    map2 (fun (var : tensor) g => match g with None => map (fun _ => 0) var | Some t => t end) (w_vars w) (gradient a (w_vars w)) in
  let x_init := vzeros (w_vars w) in
  let b := vopp loss_gradients in
  let '(deltas, w) := cg_solve product (read cg_damping) (read_int cg_max) x_init b w in
  let constant := 1 / 2 * vdot (product deltas) deltas in
  let '(learning_rate, w) := read lr w in
  if only_positive && Rltb constant (epsilon6 * learning_rate) then (vzeros deltas, w)
  else
    let lagrange := (if Rltb 0 constant then sqrt constant else - sqrt (- constant)) / (learning_rate + epsilon6) in
    let lagrange := if Rltb 0 lagrange then lagrange + epsilon6 else lagrange - epsilon6 in
    let estimated := vmap (fun x => x / lagrange) deltas in
    (estimated, assign_add estimated w).

(** body of the loop over the samples, evolutionary.py 100-138 *)
Definition evolve (learning_rate unperturbed : R) (a : arguments D) (x : vars * vars * world) : vars * vars * world :=
  let '(deltas, previous, w) := x in
  let '(perturbations, w) := perturbation learning_rate w in
  let w := assign_add (vsub perturbations previous) w in
  let '(perturbed, w) := eval_loss a w in
  let direction := if Rltb perturbed unperturbed then 1 else -1 in
  (vadd deltas (vscale direction perturbations), perturbations, w).

(** Evolutionary.step, evolutionary.py 52-157 *)
Definition evolutionary_step (lr : param) (num_samples : iparam) (a : arguments D) (w : world) : vars * world :=
  let '(learning_rate, w) := read lr w in
  let '(unperturbed, w) := eval_loss a w in
  if i_is num_samples 1 then
    let '(deltas, w) := perturbation learning_rate w in
    let w := assign_add deltas w in
    let '(perturbed, w) := eval_loss a w in
    if Rltb perturbed unperturbed then (deltas, w)
    else (vopp deltas, assign_add (vscale (-2) deltas) w)
  else
    let '(n, w) := read_int num_samples w in
    let '(deltas, perturbations, w) :=
      while_loop (Z.to_nat n) (fun _ => true) (evolve learning_rate unperturbed a) (vzeros (w_vars w), vzeros (w_vars w), w) in
    let deltas := vmap (fun x => x / IZR n) deltas in
    (deltas, assign_add (vsub deltas perturbations) w).

(** apply_sync, synchronization.py 74-97 *)
Definition apply_sync (id : nat) (weight : param) (frequency : iparam) (w : world) : vars * world :=
  let w := if i_is frequency 1 then w else let '(n, w) := read_int frequency w in set_next w id n in
  if p_is weight 1 then (vsub sources (w_vars w), set_vars w sources)
  else
    let '(u, w) := read weight w in
    let deltas := vscale u (vsub sources (w_vars w)) in
    (deltas, assign_add deltas w).
(** no_sync, synchronization.py 99-107 *)
Definition no_sync (id : nat) (w : world) : vars * world :=
  (vzeros (w_vars w), set_next w id (w_next w id - 1)%Z).
(** Synchronization.step, synchronization.py 62-114 *)
Definition sync_step (id : nat) (weight : param) (frequency : iparam) (w : world) : vars * world :=
  if i_is frequency 1 then apply_sync id weight frequency w
  else if Z.ltb 1 (w_next w id) then no_sync id w
  else apply_sync id weight frequency w.

(** number of timesteps to draw, subsampling_step.py 58-67; None: apply the optimizer directly (55-56) *)
Definition sample_size (f : fraction) (batch_size : nat) (w : world) : option Z * world :=
  match f with
  | Absolute p =>
      match i_const p with
      | Some n => (Some n, w)
      | None => let '(n, w) := read_int p w in (Some n, w)
      end
  | Relative p =>
      if p_is p 1 then (None, w)
      else let '(x, w) := read p w in (Some (Z.max (Int_part (x * INR batch_size)) 1), w)
  end.

(** evaluate_step, linesearch_step.py 80-85 *)
Definition evaluate_step (a : arguments D) (deltas : vars) (w : world) : R * world :=
  eval_loss a (assign_add deltas w).

(** tf.math.count_nonzero over all deltas is zero (linesearch_step.py 93-98) *)
Definition all_zero (deltas : vars) : bool := forallb (forallb (fun x => Reqb x 0)) deltas.

(** step of every optimizer: deltas and state after it (optimizer.py 86-88 and the classes' step) *)
Fixpoint step (o : optimizer) (a : arguments D) (w : world) : vars * world :=
  match o with
  | TFOptimizer id clipping => tf_step id clipping a w
  | NaturalGradient lr cg_max cg_damping only_positive => natural_step lr cg_max cg_damping only_positive a w
  | Evolutionary lr num_samples => evolutionary_step lr num_samples a w
  | Synchronization id weight frequency => sync_step id weight frequency w
  | Plus o1 o2 => (* plus.py 48-56 *)
      let '(deltas1, w) := step o1 a w in
      let '(deltas2, w) := step o2 a w in
      (vadd deltas1 deltas2, w)
  | GlobalOptimizer o => (* global_optimizer.py 36-67 *)
      let '(local_deltas, w) := step o a w in
      let w := set_globals w (vadd (w_globals w) local_deltas) in
      let update_deltas := vsub (w_globals w) (w_vars w) in
      let w := assign_add update_deltas w in
      (vadd local_deltas update_deltas, w)
  | ClippingStep threshold m o => (* clipping_step.py 54-88 *)
      let '(deltas, w) := step o a w in
      let '(c, w) := read threshold w in
      let clipped := clip m c deltas in
      (clipped, assign_add (vsub clipped deltas) w)
  | MultiStep num_steps o => (* multi_step.py 44-62 *)
      let deltas := vzeros (w_vars w) in
      let '(n, w) := read_int num_steps w in
      while_loop (Z.to_nat n) (fun _ => true)
        (fun '(deltas, w) => let '(step_deltas, w) := step o a w in (vadd deltas step_deltas, w)) (deltas, w)
  | SubsamplingStep f o => (* subsampling_step.py 53-94 *)
      let batch_size := length (a_reward a) in
      match sample_size f batch_size w with
      | (Some n, w) =>
          if Z.ltb n (Z.of_nat batch_size) then
            let '(indices, w) := draw_indices (Z.to_nat n) batch_size w in
            step o (subsample d indices a) w
          else step o a w
      | (None, w) => step o a w
      end
  | LinesearchStep max_iterations factor o => (* linesearch_step.py 58-98 *)
      let '(loss_before, w) := eval_loss a w in
      let '(deltas, w) := step o a w in
      if all_zero deltas then (deltas, w)
      else
        let '(loss_after, w) := eval_loss a w in
        ls_solve (evaluate_step a) (read factor) (read_int max_iterations) deltas loss_before loss_after w
  | DoublecheckStep o => (* doublecheck_step.py 34-54 *)
      let '(loss_before, w) := eval_loss a w in
      let '(deltas, w) := step o a w in
      let '(loss_after, w) := eval_loss a w in
      if Rltb loss_after loss_before then (deltas, w)
      else (vzeros deltas, assign_add (vopp deltas) w)
  end.
End Step.
Arguments w_vars {Slots}. Arguments w_globals {Slots}. Arguments w_slots {Slots}. Arguments w_next {Slots}.
Arguments w_clock {Slots}. Arguments w_evals {Slots}.

(** ** OptimizerWrapper *)
(** OptimizerWrapper.__init__, optimizer_wrapper.py 48-92: the nesting of the modifiers around the
    inner optimizer (given with its learning rate).  A parameter argument is a constant (int or
    float) or something else ([i_const] = None). *)
Record wrapper := {
  k_optimizer : optimizer;
  k_clipping : option param;         (* clipping_threshold *)
  k_multi : iparam;                  (* multi_step *)
  k_subsampling : fraction;          (* subsampling_fraction *)
  k_linesearch : iparam;             (* linesearch_iterations *)
  k_doublecheck : bool               (* doublecheck_update *)
}.
(** Constant parameter, constant.py 35-80 *)
Definition constant (c : R) : param := {| p_const := Some c; p_value := fun _ => c |}.
(** the same for integers, constant.py 35-80 *)
Definition int_constant (c : Z) : iparam := {| i_const := Some c; i_value := fun _ => c |}.
(** optimizer_wrapper.py 48-92 *)
Definition wrap (k : wrapper) : optimizer :=
  let o := k_optimizer k in
  let o := if k_doublecheck k then DoublecheckStep o else o in
  let o := match i_const (k_linesearch k) with
           | Some n => if Z.ltb 0 n then LinesearchStep (k_linesearch k) (constant (3 / 4)) o else o
           | None => LinesearchStep (k_linesearch k) (constant (3 / 4)) o
           end in
  let o := match k_subsampling k with
           | Relative p => match p_const p with
                           | Some c => if Reqb c 1 then o else SubsamplingStep (Relative p) o
                           | None => SubsamplingStep (Relative p) o
                           end
           | Absolute p => SubsamplingStep (Absolute p) o
           end in
  let o := match i_const (k_multi k) with
           | Some n => if Z.ltb 1 n then MultiStep (k_multi k) o else o
           | None => MultiStep (k_multi k) o
           end in
  match k_clipping k with
  | Some p => ClippingStep p GlobalNorm o
  | None => o
  end.

(** ** Source variables of a synchronization *)
(** list.index (tensorforce.py 2300, 2514, 2562) *)
Fixpoint index_of (x : string) (l : list string) : option nat :=
  match l with [] => None | y :: l' => if String.eqb x y then Some O else option_map S (index_of x l') end.
(** sorted (stable), tensorforce.py 2298, 2512, 2560 *)
Fixpoint insert_by {A} (x : nat * A) (l : list (nat * A)) : list (nat * A) :=
  match l with [] => [x] | y :: l' => if Nat.ltb (fst x) (fst y) then x :: l else y :: insert_by x l' end.
(** key=..., tensorforce.py 2300, 2514, 2562 *)
Fixpoint keys {A} (f : A -> option nat) (l : list A) : option (list (nat * A)) :=
  match l with
  | [] => Some []
  | x :: l' => match f x, keys f l' with Some k, Some r => Some ((k, x) :: r) | _, _ => None end
  end.
(** kwargs['source_variables'], tensorforce.py 2296-2303, 2510-2517, 2558-2565: the variables of the
    other network, sorted (stably) by the position of their renamed name among the names of the
    target variables; None: some name is not found (ValueError), then source_variables is missing *)
Definition source_variables (rename : string -> string) (targets others : list string) : option (list string) :=
  match keys (fun x => index_of (rename x) targets) others with
  | Some l => Some (map snd (fold_left (fun acc x => insert_by x acc) l []))
  | None => None
  end.
