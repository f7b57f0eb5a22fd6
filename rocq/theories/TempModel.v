(** Temporal layers (recurrent cells unrolled over a sequence of timesteps) and
    the layered network that applies them.

    Code modelled: tensorforce/core/layers/layer.py 486-843 (TemporalLayer,
    TransformationBase), layers/rnn.py 24-180 (Rnn), networks/network.py
    354-437 (LayeredNetwork.apply), layers/layer.py 191-350 (Register, Retrieve).

    Simplifications: a batch is a list of rows; the Keras cell acts on every row
    separately and is an arbitrary function [cell]; the numerical content of a
    row is left open.  'cumulative' processing (layer.py 648-672) is not
    modelled: no layer of the library uses it. *)
From Coq Require Import String List ZArith Lia Bool.
From Verif Require Import Base.
Import ListNotations.
Open Scope Z_scope.

(** The horizon submodule, layer.py 524-529: a parameter that can only have one
    value, or any other parameter with its current value. *)
Inductive hparam := HConst (v : Z) | HVar (v : Z).

(** Parameter.value, parameter.py 120-142 *)
Definition hvalue (h : hparam) : Z := match h with HConst v => v | HVar v => v end.

(** Parameter.is_constant(value=0), parameter.py 77-91, used at layer.py 675 *)
Definition is_const0 (h : hparam) : bool :=
  match h with HConst v => v =? 0 | HVar _ => false end.

(** tf.math.reduce_max of an int64 tensor; the empty tensor gives the smallest
    int64, layer.py 645 *)
Definition reduce_max (l : list Z) : Z := fold_right Z.max (- 2 ^ 63) l.

(** TransformationBase.__init__ / initialize, layer.py 782-827: the bias, the
    removed axis, the activation, and whether a dropout submodule exists.  Each
    acts on a row; removing the axis fails on a row whose last axis is not 1. *)
Record trans (Y : Type) := mkTrans {
  tb_bias : option (Y -> Y);
  tb_squeeze : option (Y -> res Y);
  tb_act : option (Y -> Y);
  tb_dropout : bool }.
Arguments tb_bias {Y}. Arguments tb_squeeze {Y}. Arguments tb_act {Y}. Arguments tb_dropout {Y}.
Arguments mkTrans {Y}.

(** [if self.f is not None: x = f(x)], layer.py 831-838 *)
Definition opt_apply {Y} (f : option (Y -> Y)) (y : Y) : Y :=
  match f with None => y | Some g => g y end.

(** TransformationBase.apply, layer.py 829-843.  The dropout submodule is called
    without its argument [deterministic] (840-841; misc.py 127-128); the
    signature check of tf_function then compares the boolean scalar with x
    (module.py 126-130, dicts.py 187-208) and fails. *)
Definition trans_apply {Y} (t : trans Y) (y : Y) : res Y :=
  let y := opt_apply (tb_bias t) y in
  do y <- (match tb_squeeze t with None => Ok y | Some f => f y end);
  let y := opt_apply (tb_act t) y in
  if tb_dropout t then Err "AssertionError: signature of Dropout.apply" else Ok y.

(** The classes an Rnn inherits from, in method resolution order:
    [class Rnn(TemporalLayer, TransformationBase)], rnn.py 24; both are
    subclasses of Layer, layer.py 486, 758. *)
Inductive lcls := CRnn | CTemporal | CTransformation | CLayer.

(** Decidable equality of the above (auxiliary, rnn.py 24) *)
Definition lcls_eqb (a b : lcls) : bool :=
  match a, b with
  | CRnn, CRnn | CTemporal, CTemporal | CTransformation, CTransformation | CLayer, CLayer => true
  | _, _ => false
  end.

(** Rnn.__mro__ up to Layer, rnn.py 24 *)
Definition rnn_mro : list lcls := [CRnn; CTemporal; CTransformation; CLayer].

(** The class [super()] refers to inside a method of [c], layer.py 707 *)
Fixpoint super_of (mro : list lcls) (c : lcls) : option lcls :=
  match mro with
  | a :: (b :: _) as r => if lcls_eqb a c then Some b else super_of r c
  | _ => None
  end.

(** [super().apply(x=x)] at the end of TemporalLayer.apply, layer.py 707:
    the next class of the resolution order decides; Layer.apply raises
    (layer.py 100-102). *)
Definition super_apply {Y} (t : trans Y) (y : Y) : res Y :=
  match super_of rnn_mro CTemporal with
  | Some CTransformation => trans_apply t y
  | _ => Err "NotImplementedError"
  end.

Section Temporal.
Variables X Y S : Type.

(** One row of the loop variables (indices, remaining, current_x,
    current_internals) of iterative_body, layer.py 709-710 *)
Record trow := mkTrow { t_idx : Z; t_rem : Z; t_x : Y; t_int : S }.

(** Everything the layer is made of, rnn.py 56-84: the cell, the argument
    [size], the horizon, the transformation, and config.create_tf_assertions
    (layer.py 695). *)
Record rnn := mkRnn {
  r_cell : X -> S -> Y * S;
  r_size : Z;
  r_horizon : hparam;
  r_trans : trans Y;
  r_zero : Y;
  r_assert : bool }.

(** Rnn.iterative_apply on one row, rnn.py 160-180.  With size = 0 the declared
    output (rnn.py 99-110, layer.py 599-604: the axis removed) differs in rank from what the cell
    returns, and the signature check fails (module.py 108). *)
Definition cell_apply (r : rnn) (x : X) (s : S) : res (Y * S) :=
  if r_size r =? 0 then Err "AssertionError: signature of iterative_apply"
  else Ok (r_cell r x s).

(** iterative_body on one row, layer.py 709-747.  The internals of a finished
    row are kept (722-740), the output is not (717, 747). *)
Definition row_body (r : rnn) (xs : list X) (w : trow) : res trow :=
  do current_x <- gather xs (t_idx w);
  do next <- cell_apply r current_x (t_int w);
  let '(next_x, next_internals) := next in
  let is_finished := t_rem w =? 0 in
  let internals := if is_finished then t_int w else next_internals in
  let remaining := t_rem w - (if is_finished then 0 else 1) in
  let indices := t_idx w + (if remaining =? 0 then 0 else 1) in
  Ok (mkTrow indices remaining next_x internals).

(** iterative_apply on the whole input, for a constant horizon of zero,
    layer.py 675-676: x and internals must have the same number of rows. *)
Fixpoint cells (r : rnn) (xs : list X) (ss : list S) : res (list (Y * S)) :=
  match xs, ss with
  | [], [] => Ok []
  | x :: xs', s :: ss' =>
      do ys <- cell_apply r x s; do rest <- cells r xs' ss'; Ok (ys :: rest)
  | _, _ => Err "shapes of x and internals differ"
  end.

(** starts and lengths of the trimmed sequences, layer.py 641-643 *)
Definition trim_starts (hz : Z) (horizons : list (Z * Z)) : list Z :=
  map (fun sl => fst sl + Z.max (snd sl - hz) 0) horizons.
(** layer.py 644 *)
Definition trim_lengths (hz : Z) (horizons : list (Z * Z)) : list Z :=
  map (fun sl => snd sl - Z.max (snd sl - hz) 0) horizons.

(** The loop variables before the loop, layer.py 679-690; a different number of
    horizons and internals is a shape error of the first tf.where. *)
Fixpoint init_rows (r : rnn) (starts lengths : list Z) (ss : list S) : res (list trow) :=
  match starts, lengths, ss with
  | [], [], [] => Ok []
  | i :: is, l :: ls, s :: ss' =>
      do rest <- init_rows r is ls ss'; Ok (mkTrow i l (r_zero r) s :: rest)
  | _, _, _ => Err "shapes of horizons and internals differ"
  end.

(** TemporalLayer.apply, layer.py 631-707, 'iterative' processing.  For a
    constant horizon of zero, [final_indices] is never assigned (675-676), so
    the assertions (695-701) raise UnboundLocalError, and what is returned is
    the argument [internals], not [final_internals] (676, 707); iterative_apply
    is a tf_function and works on its own copy of the dictionary (module.py
    103-108), so the argument is unchanged. *)
Definition temporal_apply (r : rnn) (xs : list X) (horizons : list (Z * Z)) (internals : list S)
  : res (list Y * list S) :=
  let hz := hvalue (r_horizon r) + 1 in
  let starts := trim_starts hz horizons in
  let lengths := trim_lengths hz horizons in
  let horizon := Z.min hz (reduce_max lengths) in
  if is_const0 (r_horizon r) then
    do ys <- cells r xs internals;
    if r_assert r then Err "UnboundLocalError: final_indices"
    else do out <- map_res (super_apply (r_trans r)) (map fst ys); Ok (out, internals)
  else
    do rows <- init_rows r starts lengths internals;
    do rows <- iterate_res (Z.to_nat horizon) (map_res (row_body r xs)) rows;
    do _ <- (if r_assert r then
               do _ <- assert_ (forallb (fun p => fst p =? snd p)
                                 (combine (map t_idx rows) (map (fun c => c - 1) (cumsum lengths))))
                        "assert_equal: final_indices";
               assert_ (fold_right Z.add 0 (map t_rem rows) =? 0) "assert_equal: final_remaining"
             else Ok tt);
    do out <- map_res (super_apply (r_trans r)) (map t_x rows);
    Ok (out, map t_int rows).

(** Rnn.apply, rnn.py 154-158 *)
Definition rnn_apply (r : rnn) (xs : list X) (horizons : list (Z * Z)) (internals : list S)
  : res (list Y * list S) :=
  do xi <- temporal_apply r xs horizons internals;
  do out <- map_res (trans_apply (r_trans r)) (fst xi);
  Ok (out, snd xi).

End Temporal.

Arguments mkTrow {Y S}. Arguments t_idx {Y S}. Arguments t_rem {Y S}.
Arguments t_x {Y S}. Arguments t_int {Y S}.
Arguments mkRnn {X Y S}. Arguments r_cell {X Y S}. Arguments r_size {X Y S}.
Arguments r_horizon {X Y S}. Arguments r_trans {X Y S}. Arguments r_zero {X Y S}.
Arguments r_assert {X Y S}.
Arguments cell_apply {X Y S}. Arguments row_body {X Y S}. Arguments cells {X Y S}.
Arguments init_rows {X Y S}. Arguments temporal_apply {X Y S}. Arguments rnn_apply {X Y S}.

(** ** LayeredNetwork, network.py 354-437 *)
Section Network.
Variables V S : Type.

(** The kinds of layers LayeredNetwork._recursive_apply distinguishes, network.py
    380-445.  Lists and blocks are [NList]; a Reuse layer is replaced by the layer
    it names (398-404); [NPlain] is any other layer, as a function of the batch
    (nondeterministic and stateful layers, 418-422, included: for fixed arguments
    deterministic and independent).  Retrieve carries its row-wise aggregation. *)
Inductive nlayer :=
| NList (ls : list nlayer)
| NRegister (tensor : string)
| NRetrieve (tensors : list string) (agg : list V -> V)
| NPlain (f : list V -> res (list V))
| NTemporal (name : string) (r : rnn V V S).

(** The variables x, registered_tensors, internals and temporal_layer_check of
    _recursive_apply, network.py 376-379 *)
Record nstate := mkNs {
  n_x : list V;
  n_reg : list (string * list V);
  n_int : list (string * list S);
  n_check : bool }.

(** Dictionary access, network.py 406-415, 429-431 *)
Fixpoint nlookup {B} (k : string) (d : list (string * B)) : option B :=
  match d with
  | [] => None
  | (k', b) :: r => if String.eqb k k' then Some b else nlookup k r
  end.
(** Dictionary assignment, network.py 410, 429 *)
Fixpoint nset {B} (k : string) (b : B) (d : list (string * B)) : list (string * B) :=
  match d with
  | [] => [(k, b)]
  | (k', b') :: r => if String.eqb k k' then (k, b) :: r else (k', b') :: nset k b r
  end.

(** All the named tensors, or an error, network.py 413-415 *)
Fixpoint retrieve_all (ts : list string) (reg : list (string * list V)) : res (list (list V)) :=
  match ts with
  | [] => Ok []
  | t :: r => match nlookup t reg with
              | None => Err "TensorforceError: registered tensor does not exist"
              | Some b => do bs <- retrieve_all r reg; Ok (b :: bs)
              end
  end.

(** Row-wise aggregation, layer.py 323-350: tf.concat along a non-batch axis and
    tf.stack require the same number of rows; a single tensor is returned as it
    is (325-326).  [zip_rows n] builds n rows from the heads of the tensors. *)
Fixpoint zip_rows (n : nat) (agg : list V -> V) (ts : list (list V)) : list V :=
  match n with
  | O => []
  | Datatypes.S m => agg (concat (map (firstn 1) ts)) :: zip_rows m agg (map (skipn 1) ts)
  end.

(** Retrieve.apply, layer.py 323-350 *)
Definition retrieve_apply (agg : list V -> V) (ts : list (list V)) : res (list V) :=
  match ts with
  | [t] => Ok t
  | [] => Err "zero length"
  | t :: _ =>
      if forallb (fun u => Nat.eqb (length u) (length t)) ts
      then Ok (zip_rows (length t) agg ts)
      else Err "InvalidArgumentError: dimensions of inputs should match"
  end.

(** LayeredNetwork._recursive_apply, network.py 375-437 *)
Fixpoint net_apply (horizons : list (Z * Z)) (l : nlayer) (st : nstate) : res nstate :=
  match l with
  | NList ls =>
      (fix go (ls : list nlayer) (st : nstate) : res nstate :=
         match ls with
         | [] => Ok st
         | l :: r => do st' <- net_apply horizons l st; go r st'
         end) ls st
  | NRegister t =>
      match nlookup t (n_reg st) with
      | Some _ => Err "TensorforceError: registered tensor exists"
      | None => Ok (mkNs (n_x st) (nset t (n_x st) (n_reg st)) (n_int st) (n_check st))
      end
  | NRetrieve ts agg =>
      do bs <- retrieve_all ts (n_reg st);
      do x <- retrieve_apply agg bs;
      Ok (mkNs x (n_reg st) (n_int st) false)
  | NPlain f =>
      do x <- f (n_x st);
      Ok (mkNs x (n_reg st) (n_int st) (n_check st))
  | NTemporal name r =>
      if n_check st
      then Err "TensorforceError: Multiple successive temporal layers like RNNs are currently not supported."
      else match nlookup name (n_int st) with
           | None => Err "KeyError"
           | Some s =>
               do xi <- rnn_apply r (n_x st) horizons s;
               Ok (mkNs (fst xi) (n_reg st) (nset name (snd xi) (n_int st)) true)
           end
  end.

(** Network.__init__, network.py 43-56: the attribute [outputs]. *)
Definition network_init (outputs : option (list string)) : option (list string) := outputs.

(** LayerbasedNetwork.__init__, network.py 118-121: the parameter [outputs] is
    not passed on to Network.__init__, whose default is None. *)
Definition layerbased_init (outputs : option (list string)) : option (list string) :=
  network_init None.

(** LayeredNetwork.__init__, network.py 296-303; the requested outputs that are
    registered tensors remain (output_spec, network.py 137-139). *)
Definition layered_outputs (outputs : option (list string)) (registered : list string)
  : option (list string) :=
  match layerbased_init outputs with
  | None => None
  | Some os => Some (filter (fun o => existsb (String.eqb o) registered) os)
  end.

(** The tensors network.apply returns: the embedding and the requested outputs,
    network.py 369-373 *)
Fixpoint requested (os : list string) (reg : list (string * list V)) : res (list (string * list V)) :=
  match os with
  | [] => Ok []
  | o :: r => match nlookup o reg with
              | None => Err "KeyError"
              | Some b => do bs <- requested r reg; Ok ((o, b) :: bs)
              end
  end.

(** LayeredNetwork.apply, network.py 354-373, for a network with a single state
    (356-357); [registered] are the names of the registered tensors and
    [outputs] the argument of the same name. *)
Definition network_apply (layers : list nlayer) (outputs : option (list string)) (registered : list string)
  (x : list V) (horizons : list (Z * Z)) (internals : list (string * list S))
  : res (list (string * list V) * list (string * list S)) :=
  do st <- net_apply horizons (NList layers) (mkNs x [("state"%string, x)] internals false);
  do outs <- requested (match layered_outputs outputs registered with None => [] | Some os => os end) (n_reg st);
  Ok (("embedding"%string, n_x st) :: outs, n_int st).

(** ParametrizedDistributions.__init__, parametrized_distributions.py 72-80: the
    outputs asked of the network; [None] stands for the singleton action. *)
Definition policy_outputs (single_output : bool) (actions : option (list string)) : option (list string) :=
  if single_output then None
  else match actions with
       | None => Some ["action-embedding"%string]
       | Some names => Some (map (fun n => (n ++ "-embedding")%string) names)
       end.

(** The input of the distribution of an action, parametrized_distributions.py
    189-193: embedding.get(name + '-embedding', embedding['embedding']) *)
Definition action_input (name : string) (embedding : list (string * list V)) : option (list V) :=
  match nlookup (name ++ "-embedding")%string embedding with
  | Some b => Some b
  | None => nlookup "embedding"%string embedding
  end.
End Network.

Arguments NList {V S}. Arguments NRegister {V S}. Arguments NRetrieve {V S}.
Arguments NPlain {V S}. Arguments NTemporal {V S}.
Arguments mkNs {V S}. Arguments n_x {V S}. Arguments n_reg {V S}. Arguments n_int {V S}.
Arguments n_check {V S}. Arguments retrieve_apply {V}. Arguments retrieve_all {V}.
Arguments zip_rows {V}.
Arguments requested {V}. Arguments action_input {V}.
Arguments net_apply {V S}. Arguments network_apply {V S}.
