(** Model of the preprocessing layers: /repo/tensorforce/core/layers/preprocessing.py 57-205, 273-417,
    normalization.py 24-89, 92-216, 219-330, and of the preprocessor networks:
    /repo/tensorforce/core/networks/preprocessor.py 104-163, with their use in
    /repo/tensorforce/core/models/tensorforce.py 53-87, 929-942, 1007-1016, 1107-1112, 1537-1541. *)

From Coq Require Import String List ZArith Reals Bool.
From Verif Require Import Base ParModel.
Import ListNotations.
Open Scope string_scope.
Open Scope list_scope.

(** ** Sequence and Deltafier *)
Section Layers.
(** A tensor without its batch axis *)
Variable T : Type.
(** A slice of a tensor *)
Variable X : Type.

(** *** Deltafier *)
(** preprocessing.py 131-134; [sub]: subtraction, [zeros]: tf.zeros_like, [join]: tf.concat along the axis [concatenate] *)
Record deltafier := Deltafier {
  sub : T -> T -> T;
  zeros : T -> T;
  concatenate : option (T -> T -> T) }.
(** 152-163: the variables has_previous and previous *)
Record delta_state := DeltaState { d_has : bool; d_previous : T }.
(** 165-170 *)
Definition delta_reset (s : delta_state) : delta_state := DeltaState false (d_previous s).
(** x - y, entry by entry of the batch (preprocessing.py 172-205) *)
Fixpoint subs (l : deltafier) (x y : list T) : list T :=
  match x, y with a :: x, b :: y => sub l a b :: subs l x y | _, _ => [] end.
(** 172-205; [asserts]: config.create_tf_assertions; [x]: the batch *)
Definition delta_apply (asserts : bool) (l : deltafier) (s : delta_state) (x : list T) : res (delta_state * list T) :=
  do _ <- assert_ (negb asserts || Nat.leb (length x) 1) "Deltafier preprocessor currently not compatible with batched Agent.act.";
  let extended := d_previous s :: x in
  let first_delta := match x with [] => [] | a :: _ => zeros l a :: subs l (tl x) (removelast x) end in
  let later_delta := subs l x (removelast extended) in
  let later := d_has s || Nat.eqb (length x) 0 in
  let delta := if later then later_delta else first_delta in
  let s' := DeltaState (if later then d_has s else true) (List.last extended (d_previous s)) in
  Ok (s', match concatenate l with None => delta | Some join => map (fun p => join (fst p) (snd p)) (combine x delta) end).

(** *** Sequence *)
(** 291-301, 303-320; [view]: with concatenate the slices along the axis, otherwise the tensor itself
    as the only entry of the new axis (tf.expand_dims); [unview]: the tensor with the given slices;
    [size]: the number of slices of an input along the axis *)
Record sequence := Sequence {
  view : T -> list X;
  unview : list X -> T;
  size : nat;
  length_ : nat }.
(** 292-293 *)
Definition create_sequence (l : sequence) : res unit := assert_ (Nat.ltb 1 (length_ l)) "assert".
(** 322-339: the variables has_previous and previous (by slices) *)
Record sequence_state := SequenceState { s_has : bool; s_previous : list X }.
(** 341-346 *)
Definition sequence_reset (s : sequence_state) : sequence_state := SequenceState false (s_previous s).
(** tf.tile along the axis (preprocessing.py 368, 385) *)
Fixpoint tile (n : nat) (x : list X) : list X := match n with O => [] | S n => x ++ tile n x end.
(** tf.slice along the axis (preprocessing.py 409) *)
Definition slice (begin size : nat) (x : list X) : list X := firstn size (skipn begin x).
(** 359-368: the batch is empty; 370-414 otherwise.  Without assertions, the first timestep of a
    larger batch is remembered, and the concatenation with the remembered one fails. *)
Definition sequence_apply (asserts : bool) (l : sequence) (s : sequence_state) (x : list T) : res (sequence_state * list T) :=
  do _ <- assert_ (negb asserts || Nat.leb (length x) 1) "Sequence preprocessor currently not compatible with batched Agent.act.";
  match x with
  | [] => Ok (s, [])
  | _ =>
    do xs <- (if s_has s then
                match x with
                | [a] => Ok [s_previous s ++ view l a]
                | _ => Err "InvalidArgumentError"
                end
              else Ok (map (fun a => tile (length_ l) (view l a)) x));
    Ok (SequenceState true (slice (size l) (size l * (length_ l - 1)) (hd [] xs)), map (unview l) xs)
  end.

(** *** Preprocessor networks *)
(** A layer which is not a PreprocessingLayer and has no variables is a function of a batch.
    Register, Retrieve and random layers are left out (layer.py 29-140) *)
Inductive layer := LDelta (l : deltafier) | LSequence (l : sequence) | LFunction (f : list T -> res (list T)).
(** the variables of a layer (preprocessing.py 152-163, 322-339) *)
Inductive layer_state := SDelta (s : delta_state) | SSequence (s : sequence_state) | SFunction.
(** The nested lists of layers (network.py 312-345) *)
Inductive layers := Layer (l : layer) | Layers (ls : list layers).
(** preprocessor.py 113-119, 137-143: lists are visited in their order, whatever the nesting *)
Fixpoint flatten (ls : layers) : list layer :=
  match ls with Layer l => [l] | Layers ls => concat (map flatten ls) end.

(** preprocessor.py 145-163: the layer's apply with its variables (preprocessing.py 172-205, 348-417) *)
Definition layer_apply (asserts : bool) (l : layer) (s : layer_state) (x : list T) : res (layer_state * list T) :=
  match l, s with
  | LDelta l, SDelta s => do (s, y) <- delta_apply asserts l s x; Ok (SDelta s, y)
  | LSequence l, SSequence s => do (s, y) <- sequence_apply asserts l s x; Ok (SSequence s, y)
  | LFunction f, SFunction => do y <- f x; Ok (SFunction, y)
  | _, _ => Err "state"
  end.
(** preprocessor.py 118-119: reset of the layers of class PreprocessingLayer *)
Definition layer_reset (s : layer_state) : layer_state :=
  match s with SDelta s => SDelta (delta_reset s) | SSequence s => SSequence (sequence_reset s) | SFunction => SFunction end.
(** The variables of the layers, in their order (preprocessing.py 152-163, 322-339) *)
Definition state := list layer_state.
(** preprocessor.py 121-163 *)
Fixpoint stack_apply (asserts : bool) (ls : list layer) (s : state) (x : list T) : res (state * list T) :=
  match ls, s with
  | [], _ => Ok (s, x)
  | l :: ls, t :: s =>
    do (t, x) <- layer_apply asserts l t x;
    do (s, x) <- stack_apply asserts ls s x;
    Ok (t :: s, x)
  | _ :: _, [] => Err "state"
  end.
(** Preprocessor.apply, preprocessor.py 121-163 *)
Definition apply (asserts : bool) (ls : layers) (s : state) (x : list T) : res (state * list T) :=
  stack_apply asserts (flatten ls) s x.
(** preprocessor.py 104-119 *)
Definition reset (s : state) : state := map layer_reset s.

(** *** The model *)
(** What an agent does with a preprocessor of its states: act(parallel=...) for the given states,
    act(independent=True), a terminal observe, reset(), experience()
    (tensorforce.py 1107-1112, 1537-1539, 1007-1012) *)
Inductive event :=
| Act (parallel : list nat) (x : list T)
| IndependentAct (x : list T)
| ObserveTerminal (parallel : nat)
| AgentReset
| Experience (x : list T).
(** tensorforce.py 1107-1112 (act, the same for independent acts, since only layers of the class
    StatefulLayer are told about them: preprocessor.py 157-158); 1537-1539 (observe);
    929-942 and model.py 507-512 (reset); 1007-1012 (experience).
    The second component is what is passed on to the policy or the memory. *)
Definition step (asserts : bool) (ls : layers) (s : state) (e : event) : res (state * list T) :=
  match e with
  | Act _ x | IndependentAct x | Experience x => apply asserts ls s x
  | ObserveTerminal _ => Ok (reset s, [])
  | AgentReset => Ok (s, [])
  end.
(** a sequence of such events (tensorforce.py 929-1012, 1107-1112, 1537-1539) *)
Fixpoint steps (asserts : bool) (ls : layers) (s : state) (es : list event) : res state :=
  match es with [] => Ok s | e :: es => do (s, _) <- step asserts ls s e; steps asserts ls s es end.

(** preprocessing.py 152-163, 322-339: the initial values; [zero]: zeros of the shape of the variable *)
Definition layer_initial (zero : T) (l : layer) : layer_state :=
  match l with
  | LDelta _ => SDelta (DeltaState false zero)
  | LSequence l => SSequence (SequenceState false (tile (length_ l - 1) (view l zero)))
  | LFunction _ => SFunction
  end.
(** preprocessor.py 60-101 *)
Definition initial (zero : T) (ls : layers) : state := map (layer_initial zero) (flatten ls).
End Layers.
Arguments Deltafier {T}.
Arguments sub {T}.
Arguments zeros {T}.
Arguments concatenate {T}.
Arguments DeltaState {T}.
Arguments d_has {T}.
Arguments d_previous {T}.
Arguments delta_reset {T}.
Arguments subs {T}.
Arguments delta_apply {T}.
Arguments Sequence {T X}.
Arguments view {T X}.
Arguments unview {T X}.
Arguments size {T X}.
Arguments length_ {T X}.
Arguments create_sequence {T X}.
Arguments SequenceState {X}.
Arguments s_has {X}.
Arguments s_previous {X}.
Arguments sequence_reset {X}.
Arguments tile {X}.
Arguments slice {X}.
Arguments sequence_apply {T X}.
Arguments LDelta {T X}.
Arguments LSequence {T X}.
Arguments LFunction {T X}.
Arguments SDelta {T X}.
Arguments SSequence {T X}.
Arguments SFunction {T X}.
Arguments Layer {T X}.
Arguments Layers {T X}.
Arguments flatten {T X}.
Arguments layer_apply {T X}.
Arguments layer_reset {T X}.
Arguments stack_apply {T X}.
Arguments apply {T X}.
Arguments reset {T X}.
Arguments Act {T}.
Arguments IndependentAct {T}.
Arguments ObserveTerminal {T}.
Arguments AgentReset {T}.
Arguments Experience {T}.
Arguments step {T X}.
Arguments steps {T X}.
Arguments layer_initial {T X}.
Arguments initial {T X}.

Open Scope R_scope.
(** ** Clipping *)
(** preprocessing.py 97-114, one entry; the bounds are values of parameters *)
Definition clipping (lower upper : option R) (x : R) : res R :=
  match lower, upper with
  | None, None => Err "assert"
  | None, Some upper => Ok (Rmin x upper)
  | Some lower, None => Ok (Rmax x lower)
  | Some lower, Some upper =>
    do _ <- assert_ (Rleb lower upper) "Incompatible lower and upper clipping bound.";
    Ok (Rmin (Rmax x lower) upper)
  end.

(** ** LinearNormalization, one entry *)
(** A float of a bound: a number or an infinity (normalization.py 39-57) *)
Inductive bound := NegInf | Fin (x : R) | PosInf.
(** normalization.py 71, 82 *)
Definition is_inf (b : bound) : bool := match b with Fin _ => false | _ => true end.
(** min_value >= max_value (normalization.py 53) *)
Definition bound_ge (a b : bound) : bool :=
  match a, b with
  | _, NegInf | PosInf, _ => true
  | Fin x, Fin y => Rleb y x
  | _, _ => false
  end.
(** normalization.py 39-64; the bounds of the entries; broadcast by numpy *)
Definition create_linear (bounds : list (bound * bound)) : res unit :=
  assert_ (negb (existsb (fun b => bound_ge (fst b) (snd b)) bounds)) "not less than".
(** 80-89 *)
Definition linear_entry (b : bound * bound) (x : R) : R :=
  match b with
  | (Fin lo, Fin hi) => 4 * (x - lo) / (hi - lo) - 2
  | _ => x
  end.
(** normalization.py 80-89 *)
Definition linear_apply (bounds : list (bound * bound)) (x : list R) : list R :=
  map (fun p => linear_entry (fst p) (snd p)) (combine bounds x).
(** 69-78 *)
Definition linear_output_spec (bounds : list (bound * bound)) : list (bound * bound) :=
  map (fun b => if is_inf (fst b) || is_inf (snd b) then b else (Fin (-2), Fin 2)) bounds.

(** ** ExponentialNormalization, InstanceNormalization, BatchNormalization *)
(** The values with common statistics (one entry of the axes which are not normalized)
    (normalization.py 178-189) *)
Definition sum (l : list R) : R := fold_right Rplus 0 l.
(** tf.math.reduce_mean (normalization.py 178, 187, 262) *)
Definition mean (l : list R) : R := sum l / INR (length l).
(** tf.math.squared_difference with reduce_mean, tf.nn.moments (normalization.py 188-189, 267) *)
Definition variance (l : list R) : R := mean (map (fun x => (x - mean l) * (x - mean l)) l).
(** normalization.py 140-156: moving mean and variance *)
Record moments := Moments { m_mean : R; m_variance : R }.
(** initial values, normalization.py 140-156 *)
Definition moments_initial : moments := Moments 0 1.
(** tf.math.rsqrt(tf.maximum(variance, min_variance)) (normalization.py 210, 270) *)
Definition rsqrt (min_variance v : R) : R := / sqrt (Rmax v min_variance).
(** 158-216; [n]: the batch size; [x]: the values of the batch along the normalized axes; [decay]:
    the value of the parameter, which may change *)
Definition exponential_apply (only_mean : bool) (min_variance decay : R) (independent : bool) (m : moments) (n : nat) (x : list R) : moments * list R :=
  let m :=
    if independent then m
    else if Req_EM_T decay 1 then m
    else
      let mu := if Nat.eqb n 0 then m_mean m else mean x in
      let va := if Nat.eqb n 0 then m_variance m else variance x in
      let d := if Req_EM_T decay 0 then 0 else pow decay n in
      Moments (d * m_mean m + (1 - d) * mu) (if only_mean then m_variance m else d * m_variance m + (1 - d) * va) in
  (m, map (fun x => (x - m_mean m) * (if only_mean then 1 else rsqrt min_variance (m_variance m))) x).
(** 257-272, and 315-330 for batches *)
Definition instance_apply (only_mean : bool) (min_variance : R) (x : list R) : list R :=
  map (fun y => (y - mean x) * (if only_mean then 1 else rsqrt min_variance (variance x))) x.

(** ** Which states are preprocessed *)
(** tensorforce.py 53-75 *)
Section Selection.
Variable L : Type.
(** The argument state_preprocessing: a specification of layers, or a dictionary by name or type;
    [Default]: 'linear_normalization'; [BoundedFloat]: the test of 60-61 *)
Inductive argument := Default | Specification (l : option L) | Dictionary (d : list (string * option L)).
(** What is passed on as layers: a specification, or (by mistake) a dictionary (tensorforce.py 53-75) *)
Inductive passed := Nothing | Passed (l : L) | PassedDictionary (d : list (string * option L)).
(** states_spec, tensorforce.py 56-70 *)
Record state_spec := StateSpec { st_name : string; st_type : string; st_bounded : bool }.
Variable linear_normalization : L.
(** dictionary access, tensorforce.py 57-70 *)
Fixpoint lookup (d : list (string * option L)) (k : string) : option (option L) :=
  match d with [] => None | (k', v) :: d => if String.eqb k k' then Some v else lookup d k end.
(** layers=None is not passed on, tensorforce.py 53-75 *)
Definition passed_of (l : option L) : passed := match l with Some l => Passed l | None => Nothing end.
(** 63-65: a dictionary with a key which is not the name of a state is taken for a specification *)
Definition select (states : list state_spec) (a : argument) (s : state_spec) : passed :=
  let by_dictionary d :=
    match lookup d (st_name s) with
    | Some l => passed_of l
    | None => match lookup d (st_type s) with Some l => passed_of l | None => Nothing end
    end in
  match a with
  | Default =>
    by_dictionary (map (fun s => (st_name s, Some linear_normalization))
                       (filter (fun s => String.eqb (st_type s) "float" && st_bounded s) states))
  | Specification l => passed_of l
  | Dictionary d =>
    if existsb (fun p => negb (existsb (fun s => String.eqb (fst p) (st_name s)) states)) d then PassedDictionary d
    else by_dictionary d
  end.
End Selection.
Arguments Default {L}.
Arguments Specification {L}.
Arguments Dictionary {L}.
Arguments Nothing {L}.
Arguments Passed {L}.
Arguments PassedDictionary {L}.
Arguments lookup {L}.
Arguments passed_of {L}.
Arguments select {L}.
