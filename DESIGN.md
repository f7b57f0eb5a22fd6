# Formal model of tensorforce: design

The code in /repo (tensorforce, Python/TensorFlow) is modelled in Rocq/Coq 8.16.1 under
`rocq/theories`.  This file says what is modelled and what is not, how the properties of
`properties.jsonl` are proved, and what is trusted.

## Method

* Every model file (`*Model.v`) transcribes Python functions branch by branch into total,
  computable Gallina functions (over the reals: functions using its decidable comparisons).  A
  Python exception or a failed TensorFlow assertion is an explicit error value, never a default.
  Each definition carries a comment with the file and lines it models; deviations are named there
  or at the head of the file.
* Specifications are small and independent of the model's helpers: `*Spec.v`, or the section
  "Specification" of the file with the theorems.
* `*Proofs.v` and others hold lemmas; `*Props.v` hold the named theorems, each with
  `Print Assumptions`, and an `Example` showing a non-trivial case that meets the hypotheses.
* If a property is false of the model, a theorem `..._refuted` gives the counterexample (a witness,
  or a proof that the property fails in all cases described by its hypotheses), and what does hold
  is proved next to it, under `..._partial` if it is a restriction of the property itself.
* Randomness, predictions of networks, loss functions, environments, callbacks, timing of other
  processes and the file system are universally quantified: functions or lists given as arguments.

## Global simplifications

* Machine integers (`int64`) are unbounded `Z` or `nat`.  Floats are elements of an arbitrary field
  (Field.v), reals, or decimal fractions where they are only passed on; rounding, overflow,
  infinities and nan are not modelled unless a theorem says so.
* A TensorFlow graph function is the sequential program given by its data and control dependencies;
  `tf.cond` and `tf.while_loop` are conditionals and bounded iterations.  The `tf.debugging`
  assertions are modelled as present, unless a comment says otherwise.
* Tensors are lists; a batch of nested tensors is a list of records.  What the code only copies
  (states, actions, internals) is of an arbitrary type.

## Trusted base

* Coq's kernel (8.16.1).
* The assumptions listed by `Print Assumptions`, see the last section.  They all belong to the
  standard library's real numbers.  `vcheck` also reports axioms of Coq.ssr.ssrunder among the
  libraries which are loaded; no theorem uses them.
* The correspondence of the Python text and the model, checked by reading (comments cite lines).
* The meaning of TensorFlow and numpy primitives as transcribed (gather, scatter, cumsum, mod with the
  sign of the divisor, boolean_mask, while_loop with maximum_iterations, keras schedules, ...), and
  of Python's argument passing, dictionaries and string functions.

## Seeded faults

`seeded/LOG.jsonl` lists edits of definitions of the model, one at a time, made in a copy outside of
/verif.  `first_failing` names the first proof which does not compile any more in each file that
fails; `theorems_failed` the theorems among these and those that use them.  A proof that breaks is
not yet a refuted statement: an edit can break a proof only because it takes another path.  Edits that
broke nothing led to the theorems in `theorems_tightened`.

## What is modelled

### Memory (`MemModel.v`)

Model of the experience memory: /repo/tensorforce/core/memories/queue.py, recent.py,
replay.py.

The values stored per timestep other than the terminal flag (states, internals, auxiliaries,
actions, reward) are only ever copied by this code, so they are one payload of an arbitrary
type [A] and the nested struct of buffers becomes one list of payloads (simplification).
[int64] tensors are [Z]. The tf.debugging assertions are modelled as present
(create_tf_assertions on); an assertion failure ends the history, i.e. the partially updated
state after a failed call is not modelled (simplification).

Proofs: refinement to an append-only log (MemSpec.v): an invariant over all sequences of
operations (MemProofs.v, MergeProofs.v), queries read off the invariant (MemQueries.v).

### Returns (`RetModel.v`)

Reward estimation of TensorforceModel (/repo/tensorforce/core/models/tensorforce.py).

Simplifications, for the whole file:

- floats are elements of a field (no rounding, no inf/nan; x/0 = x * 0^-1 is some
  unspecified element);

- the on-policy past horizon of policy and baseline is 0, which core_act asserts (lines
  1047-1058), so a value prediction depends on one timestep: [bval x] is
  self.baseline.state_value / action_value for the state, internals, auxiliaries (and
  action) [x] of that timestep. The baseline is a fixed function, i.e. its variables do not
  change while an episode is being processed.

Proofs: closed forms by induction over the loops, for every field (RetSpec.v, RetProofs.v).

### Late horizons (`LateModel.v`)

Late horizon completion: adding the horizon values when a batch is retrieved for an update
(/repo/tensorforce/core/models/tensorforce.py).

Simplification: the branch baseline.max_past_horizon(on_policy=False) == 0 (lines
2712-2739), so the predicted value depends on one timestep, [bval x]. A memory entry is
(timestep values x, stored reward) with its terminal flag.

Proofs: reduction to the closed forms of Returns.

### Agent (`AgentModel.v`)

The agent: act / observe / experience / update / reset, from the public methods down to the
buffers and the experience memory.

/repo/tensorforce/agents/recorder.py, agent.py, tensorforce.py
/repo/tensorforce/core/models/model.py, tensorforce.py

Simplifications, for the whole file:

- A state, the internals, the auxiliaries and an action are values of arbitrary types [St],
  [In], [Au], [Ac]; the nested structs of buffers become one buffer of records [X]. Inputs
  are already in their batched array form (recorder.py 154-243, 329-393 and the to_tensor
  conversions are not modelled here).

- Policy, exploration, variable noise and state preprocessing of one act are one function
  [pol], applied to each row of the batch; an argument of type [W] stands for the current
  variables and the random draws, so it may be different for every act.

- Values of parameters (horizon, discount, update frequency, ...) and the baseline's
  predictions may be different in every call: they come with the call, as an [oracle].

- Reward processing, summaries, tracking and saving are left out; core_update is reduced to
  its memory access and the update counter.

- tf.debugging assertions are present; a failed call ends the history.

Proofs: state-machine invariants by induction over call histories, and simulation by one log
per stream (AgentSpec.v, AgentInv.v, AgentProofs.v, AgentRuns.v, AgentFlush.v).

### Recorder (`RecModel.v`)

/repo/tensorforce/agents/recorder.py: Recorder.initialize, reset, act, observe.

Simplifications: the components of a state (action) are one value, since the loops over
names treat all of them alike (256-258, 282-284, 431-440); inputs are given batched, as
after 171-172 and 331-373; the episode length check (404-410) is in AgentModel.v and left
out; what fn_act returns is part of the call. The directory holds only trace files, with the
number in the file name as name: sorting file names (457-461) sorts the numbers as long as
they have at most nine digits.

Proofs: invariant over call histories (RecSpec.v, RecProofs.v).

### Runner (`RunModel.v`)

Model of Runner.run for one or several separate environments, called one by one or with
batched agent calls, with or without an evaluation environment:
/repo/tensorforce/execution/runner.py 299-340, 406-408, 513-907.

What the environments, the agent and the callbacks do is arbitrary: each answer is given by
a function of everything that happened before (the log, see [world] in RunSpec.v).
Simplified: a python list with one entry per environment is a function from indices;
vectorised environments (num_vectorized) are not part of this model; a call which waits
(sync_timesteps 622-626, batch_agent_calls 561-576) gets its answers at once, in the order
of the environments; seconds, progress bar and sleeping are left out; frequencies are
positive; an environment's episode_return is None, as Environment.episode_return always is
(/repo/tensorforce/environments/environment.py 334-335, overridden nowhere).
evaluation_returns is kept separate from episode_returns: without evaluation both are the
same list (395-400), with a single evaluation environment likewise (387-390).

Proofs: invariants over loop iterations for all answers of the world; termination measure
(RunInv.v, RunLoop.v, RunPass.v, RunHead.v, RunEnd.v, RunKeep.v, RunHist.v, RunBatch.v,
RunProofs.v).

### Environment (`EnvModel.v`)

Model of EnvironmentWrapper, /repo/tensorforce/environments/environment.py 472-648.

Simplified: the wrapped environment is an arbitrary state machine ([environment], its state
is [E]); states are abstract, the check of states against the specification
(_check_states_output 443-469) and of the reward's type are predicates of the environment.
The terminal is an integer (int(bool) for booleans). The result of the environment is tagged
as single or parallel; a result of the wrong kind fails to unpack. A reward-shaping string
is the function it computes. Attribute access (632-648) and close (515-516) are not
modelled.

Proofs: invariant over call sequences.

### Remote environment (`RemoteModel.v`)

Model of RemoteEnvironment, /repo/tensorforce/environments/environment.py 651-916, over a
reliable connection (MultiprocessingEnvironment,
/repo/tensorforce/environments/multiprocessing_environment.py 27-67).

The worker process and, in non-blocking mode, the thread which performs a step run
concurrently: the events [Work] (the worker handles a request) and [Thread] (the thread
continues) happen at arbitrary times between the user's calls; a call which waits for a
reply lets the worker run. Simplified: only single (not vectorised) environments; the
environment object of the worker is arbitrary ([local]); measuring of seconds (690-691,
711-716, 858-868, 901-908) is left out; the thread runs during the user's own calls only at
the calls themselves, a call while a thread holds the connection raises (757-760).

Proofs: simulation with the local environment for all interleavings (RemoteSpec.v).

### Sockets (`SockModel.v`)

Model of the message framing of SocketEnvironment,
/repo/tensorforce/environments/socket_environment.py 51-139.

Bytes are integers. One direction of a connection is the sequence of bytes sent but not yet
received; how many bytes a call of recv returns and a call of send accepts is left open
([c_recv], [c_send]: any number for each call, cut to what is possible), so that every way
of splitting a message in transit is covered, and a closed connection (recv returns
nothing). Simplified: int() of the eight header bytes (77, 114, 128) accepts digits only
(Python also accepts spaces, signs and underscores). The encodings (str.encode / msgpack)
are arbitrary functions.

Proofs: round trip by induction on what is left to transfer.

### Nested dictionaries (`DictModel.v`)

/repo/tensorforce/core/utils/nested_dict.py: the class NestedDict.

Simplifications: values are of an arbitrary type [V] (the class's value_type), keys are
given by their components (see DictSpec; str.split is not modelled), and there is one
[overwrite] setting for all levels, as in the subclasses of core/utils/dicts.py. Sub-
dictionaries are values: __setitem__ copies them (256-260); what happens to a sub-dictionary
obtained by reading and then modified is not modelled. A [Leaf] in place of a dictionary is
an object which is not a NestedDict, on which methods fail.

Proofs: structural induction; finite maps as specification (DictSpec.v).

### Signatures (`SigModel.v`)

/repo/tensorforce/core/utils/dicts.py: SignatureDict, and /repo/tensorforce/util.py:
is_equal, deep_disjoint_update.

A signature is a nested dictionary of tensor specifications [S], keyword arguments one of
tensors [T] ([KNode]; a raw tensor is a [Leaf]) or a tuple of such ([KTuple]).
TensorSpec.is_compatible_with is the arbitrary test [compat]; the treatment of
tf.IndexedSlices (195-206, 261-272) is not modelled.

Proofs: structural induction.

### Tensor specifications (`SpecModel.v`)

/repo/tensorforce/core/utils/tensor_spec.py: TensorSpec: construction and assignment of
attributes, to_tensor, from_tensor, np_assert, unify.

Simplifications: types are given normalised (_normalize_type 25-38), the dtype object kept
in _tf_type (49-51) is not modelled, attributes which do not exist for a type (min_value for
bool, num_values for bool and float) are [None] here -- the functions below never read them
in that case; error messages are shortened. Floats are exact, integers unbounded. [junk] is
what numpy makes of an infinite or undefined float converted to an integer: an error or some
number.

Proofs: case analysis; sets of values as specification (SpecSpec.v).

### Parameters (`ParModel.v`)

Model of the dynamic hyperparameters: /repo/tensorforce/core/parameters/decaying.py 124-411,
linear.py, exponential.py, piecewise_constant.py 40-83, constant.py 35-76, random.py 51-104,
ornstein_uhlenbeck.py 41-78, and the checks of parameter.py 36-144.

Floats are real numbers. The decay schedules themselves are TensorFlow's
(tf.keras.optimizers.schedules, tf.keras.experimental); they are given here by the formulas
of TensorFlow's documentation.

Proofs: monotonicity and interval arguments over the reals.

### Preprocessing (`PreModel.v`)

Model of the preprocessing layers: /repo/tensorforce/core/layers/preprocessing.py 57-205,
273-417, normalization.py 24-89, 92-216, 219-330, and of the preprocessor networks:
/repo/tensorforce/core/networks/preprocessor.py 104-163, with their use in
/repo/tensorforce/core/models/tensorforce.py 53-87, 929-942, 1007-1016, 1107-1112,
1537-1541.

Proofs: invariants over histories; NormProps.v: statistics as specification.

### Solvers (`SolveModel.v`)

Model of the iterative solvers: /repo/tensorforce/core/optimizers/solvers/iterative.py
46-75, line_search.py 108-209, conjugate_gradient.py 129-253.

Floats are real numbers. The function fn_x handed to a solver, and the parameters it reads
(parameter.value()), may have side effects and may give other values at every call: they are
state transformers over an arbitrary state. Left out: the debugging assertion of
line_search.py 198-203 (config.create_debug_assertions) and the handling of sparse
(IndexedSlices) gradients.

Proofs: loop invariants.

### Optimizers (`OptModel.v`)

Model of the optimizers and update modifiers: /repo/tensorforce/core/optimizers/
tf_optimizer.py 148-195, natural_gradient.py 71-198, evolutionary.py 53-157,
synchronization.py 62-114, plus.py 48-56, global_optimizer.py 36-67, clipping_step.py 54-88,
multi_step.py 44-62, subsampling_step.py 53-94, linesearch_step.py 58-98,
doublecheck_step.py 34-54, optimizer_wrapper.py 48-95; and of the choice of the source
variables in /repo/tensorforce/core/models/tensorforce.py 2296-2303.

Floats are real numbers. The operations of a step run in the order in which the code states
them (control dependencies and TensorFlow's automatic control dependencies). The loss
function, its gradients, the Fisher matrix product, TensorFlow's own optimizers and all
random draws are arbitrary functions. Left out: summaries, the debugging assertions of
optimizer.py 98-139, the assertion that at least one gradient exists (tf_optimizer.py 173),
and variables whose dtype is not tensorforce's float.

Proofs: structural induction on the optimizer; loop invariants.

### Distributions (`DistModel.v`)

Model of the action distributions, value policies and exploration:
/repo/tensorforce/core/distributions/{categorical,gaussian,beta,bernoulli}.py,
/repo/tensorforce/core/policies/parametrized_value_policy.py, value_policy.py,
/repo/tensorforce/core/models/tensorforce.py 1066-1269 (core_act), random.py 34-96.

Floats are real numbers (no rounding, infinities or nan). Distributions are modelled for one
component of an action at a time: all operations on tensors are element-wise (or along the
last axis, for the values of an int action). What the linear layers return for the network's
embedding is an argument. Random draws, and tf.math.lgamma / digamma, are arguments. Left
out: summaries and tracking, and everything concerning only shapes.

Proofs: real analysis (arg max, intervals, inequalities for logarithms and gamma functions
as hypotheses).

### Objectives (`ObjModel.v`)

Model of the objectives: /repo/tensorforce/core/objectives/{policy_gradient,value,
deterministic_policy_gradient,plus}.py.

Floats are real numbers. An objective calls the policy and the baseline for the states of a
batch; what they return for one instance is an argument ([view]), with the components of all
actions concatenated (tf.reshape to (-1, spec.size) and tf.concat on axis 1,
policy_gradient.py 88-94, stochastic_policy.py 211-217, value_policy.py 118-124, 132-138). A
reference is the row of its entries. tf.stop_gradient of the reference is left out: losses
are functions of the current outputs for fixed references.

Proofs: real analysis: one-dimensional derivatives and minima.

### Update (`UpdModel.v`)

Model of the update: /repo/tensorforce/core/models/tensorforce.py 256-289, 443-498 (baseline
modes), 680-694, 2102-2686 (core_update), 2821-2962 (losses), and
/repo/tensorforce/core/module.py 329-364 (L2 regularization).

Floats are real numbers. [X] are the values of the trainable variables of a module (policy
or baseline), [D] what is retrieved from memory for one instance of the batch: states,
horizons, internals, auxiliaries and actions (2107-2221). The returns are an argument:
rewards, completed by the horizon values (2224-2227; _complete_horizon_values is modelled in
LateModel.v). What policy and baseline compute are functions of their variables and an
instance. An optimizer is any function that gets the loss as a function of the variables it
is given, the source variables and the current values, and returns the new values
(Optimizer.update, optimizer.py 90-95; fn_kl_divergence depends on the same variables and
the batch only, so that it is part of this function; so is what the optimizer remembers).
Optimizers write the given variables only. Left out: summaries, tracking, assertions on
horizons.

Proofs: the optimizers are arbitrary; what they are given determines what can be concluded
about the result.

### Saving (`SaveModel.v`)

Saving and restoring agents: which files are written, which file is picked when restoring,
and which variables are overwritten.

Python strings are lists of characters. The file system is the content of one directory: the
files in the order in which os.listdir gives them, and the path recorded in TensorFlow's
"checkpoint" state file.

Not modelled: the "saved-model" format (it cannot be restored), the CheckpointManager behind
the saver argument, the directory part of paths (in particular the comparison at agent.py
717), sub-directories, the effect of the Model.reset() at the end of Model.restore() on
variables other than the counters it returns, and non-ASCII digits in int().

Proofs: induction over the directory listing; strings as lists of characters (SaveSpec.v).

### Agent arguments (`AgtModel.v`)

Model of the agents' argument handling: /repo/tensorforce/agents/{a2c,ac,dpg,double_dqn,dqn,
dueling_dqn,ppo,trpo,vpg,constant,random,tensorforce}.py (their __init__), __init__.py (the
table of agents) and agent.py 36-211 (Agent.create, Agent.load).

Python values are the ones of JSON, plus opaque objects (classes, functions, arrays).
Keyword arguments and dictionaries are lists of entries; Python makes sure that keys are
different. Floats are decimal fractions. The result of an agent's __init__ is the
specification it keeps (self.spec, used by save and Agent.load) and the arguments its model
gets. Left out: Agent.__init__ and Recorder.__init__ (configuration, seeds, states and
actions specification: SpecModel.v), what the model does with its arguments, and
DuelingDQN's check for int actions (dueling_dqn.py 229-232).

Proofs: generic lemmas on argument binding; tables of signatures and specifications checked
by computation.

### Temporal layers and networks (`TempModel.v`)

Temporal layers (recurrent cells unrolled over a sequence of timesteps) and the layered
network that applies them.

Code modelled: tensorforce/core/layers/layer.py 486-843 (TemporalLayer, TransformationBase),
layers/rnn.py 24-180 (Rnn), networks/network.py 354-437 (LayeredNetwork.apply),
layers/layer.py 191-350 (Register, Retrieve).

Simplifications: a batch is a list of rows; the Keras cell acts on every row separately and
is an arbitrary function [cell]; the numerical content of a row is left open. 'cumulative'
processing (layer.py 648-672) is not modelled: no layer of the library uses it.

Proofs: closed form of the loop by induction over iterations, batches as lists of sequences
(TempSpec.v, TempProofs.v); networks by case analysis over layers.

### Layers, layered networks, AutoNetwork (`LayModel.v`)

Layers that act on every timestep separately, their specifications, and the networks built
of them.

Code modelled: tensorforce/core/layers/layer.py 27-102 (Layer), 105-161 (MultiInputLayer),
191-217 (Register), 220-350 (Retrieve), 758-843 (TransformationBase); dense.py 22-107;
convolution.py 24-138 (Conv1d), 141-278 (Conv2d); pooling.py 24-271; embedding.py 23-133;
linear.py 23-94; misc.py 27-98 (Activation), 195-230 (Reshape); networks/network.py 113-142,
200-268 (creation of layers), 296-305, 325-437 (LayeredNetwork); networks/auto.py 22-177
(AutoNetwork without rnn).

Simplifications: tensors are arrays (SpecSpec.v) with a type and entries of an arbitrary
type [E], with arbitrary arithmetic; integers and booleans are given by [as_int].
Specifications are fully specified and of scalar bounds; the unification with the default
specification of a layer, which is modelled in SpecModel.v, then only compares type and
rank. A length which the code computes as negative is 0 here: the code rejects lengths below
-1 when the layer is created and -1 and 0 when its signature is made, the model rejects all
of them there. Axes, windows, strides and dilations are natural numbers, padding is 'same'
or 'valid', as documented; negative axes are not modelled. Variables ([params]) have the
shapes of their specifications. Names of tensors contain no '/'. The argument max_norm of
Embedding and the argument outputs of networks are not modelled.

Proofs: tensors as functions on indices over an arbitrary type of numbers; every operation
is shown to act row by row (LayProofs.v), networks by induction over the layers with an
invariant on registered tensors (LayNet.v), AutoNetwork by computing the specifications of
its layers (LayAuto.v).

### CartPole environment (`CartModel.v`)

Model of the environment CartPole: /repo/tensorforce/environments/cartpole.py 21-203.

Floats are real numbers (the code mixes float32 and float64). Random numbers are arguments
of [reset]. Of the arguments of numpy arrays only the right number of actions is modelled:
another number is an error here (numpy would repeat a single action).

Proofs: environments/cartpole.py modelled completely over the real numbers; executions of
any length by induction (trajectories of rows), acceptance by closed forms of the bounds,
motion by solving the equations. Simplified: random numbers are arguments, a wrong number of
actions is an error (numpy may broadcast), no rounding.

### OpenAIGym environment (`GymModel.v`)

Model of the environment OpenAIGym: /repo/tensorforce/environments/openai_gym.py 57-498.

The gym package itself is not modelled: spaces are given as data, the results of gym's reset
and step are arguments, and the registry of levels is a list. Entries of arrays are of an
arbitrary type; whether an entry is infinite or no number is given by a function. Numbers in
the bounds of boxes are real numbers or infinite.

Proofs: environments/openai_gym.py: names, specifications, states and actions (GymModel.v);
levels, clipping, dropping and ends of episodes (GymEnvModel.v). Induction over spaces of
any nesting. Simplified: the gym package is not modelled (spaces are data, its registry is a
list, results of reset and step are arguments), numbers are real numbers or of any type,
rendering, seeding and the Monitor are left out, a nested state whose name is a key of a
specification ('type', ...) is treated as unknown.

### Inputs and outputs of act and observe (`InpModel.v`)

Model of the inputs and outputs of act and observe: /repo/tensorforce/agents/recorder.py
154-410 and 491-575 (Recorder.act, observe, _process_states_input),
/repo/tensorforce/agents/agent.py 420-500 (Agent.fn_act) and the conversion
TensorsSpec.to_tensor, core/utils/tensors_spec.py 30-50.

Simplifications: inputs are numbers, arrays, lists (or tuples) and dictionaries of them;
other iterables and tensors are not modelled, and a sequence of stream numbers is a list. A
list of arrays of different shapes raises in asarray. The keys of dictionaries are no
reserved keywords and not 'SINGLETON', and are given by their parts between '/'; a nested
dictionary is a tree, the ArrayDict of a single value is a leaf. Entries of arrays are of an
arbitrary type, the conversion of an entry together with its value checks
(core/utils/tensor_spec.py 149-194, modelled in SpecModel.v) is a function [conv]. The
policy is a function of the model's state, and its outputs conform to their specifications,
so from_tensor changes nothing; its assertions are not modelled. Recording the values
(RecModel.v), buffering and what follows in observe (AgentModel.v) are left out.

Proofs: agents/recorder.py act and observe, agents/agent.py fn_act: processing of states,
internals, masks, streams and counters, conversion to tensors, unbatching of outputs.
Batches by a map from tables of instances to arrays, proved for each function; executions by
induction. Simplified: entries of arrays are of any type and their conversion is a function,
the model and the policy are arbitrary functions, other iterables and tensors as inputs are
not modelled, recording and buffering are left to the areas of recorder and agent.

### Random and constant agents (`RndModel.v`)

/repo/tensorforce/core/models/random.py and constant.py: the models of the random and the
constant agent, and the checks of actions by model.py (independent_act 515-568, act 570-646)
and agent.py (489-491).

Simplifications: floats are exact (uniform draws are rationals in [0, 1)), integers
unbounded; counters, internals (none, random.py 36, constant.py 57) and the checks of
states, auxiliaries and of the parallel and deterministic inputs (model.py 529-544, 577-588)
are not modelled, masks are given with their shape; errors while the functions are traced,
so on the construction of the agent, are errors of the call. TensorFlow draws are arbitrary
functions of the index.

Proofs: core/models/random.py and constant.py, the checks of masks and actions around
core_act (core/models/model.py independent_act and act) and of returned actions
(agents/agent.py). Induction over row-major orders for masked choices; exact
characterisation of a successful act for any core_act. Simplified: floats are exact, draws
are arbitrary functions of the index, checks of states, auxiliaries, parallel and
deterministic inputs are left out, masks are given with their shape.

### Environment.create (`EcrModel.v`)

Environment.create, /repo/tensorforce/environments/environment.py 38-247, with
EnvironmentWrapper.__init__ (473-495), the table of environments
(/repo/tensorforce/environments/__init__.py 32-43) and try_import_module
(/repo/tensorforce/util.py 76-118).

Arguments are dictionaries of Python values: None, booleans, integers, strings, functions,
classes, environments, sequences and dictionaries. Simplified: a maximum number of timesteps
is None, an integer or a boolean, others raise; gym is installed; what classes' constructors
return, the contents of files and what can be imported are arbitrary (the [world]); a remote
environment is only its worker's arguments, the connection is modelled in RemoteModel.v and
SockModel.v. A recursive call takes one unit of fuel; without fuel there is no result.

Proofs: environments/environment.py 38-247 with the wrapper's constructor, util.py
deep_disjoint_update and try_import_module. The recursive calls are a step function iterated
with fuel; claims quantify over all fuels, termination by a measure on specifications.
Simplified: files, modules and constructors are arbitrary functions, classes are compared by
an arbitrary subclass relation, what a process or socket does with the arguments is left to
the area of remote environments.

### experience and pretrain (`ExpModel.v`)

Model of experience and pretrain: /repo/tensorforce/agents/tensorforce.py 460-663 and
679-738, and of the trace file that the recorder writes, agents/recorder.py 428-481.

Inputs, arrays and nested dictionaries are those of InpModel.v, with the simplifications
stated there. Further simplifications: the check for unfinished episodes (484-485) is an
argument; what Model.experience and Model.update do is a function of the model's state (they
are modelled in AgentModel.v), and so are their errors; the counters (653-654, 673) and
saving (656-657, 675-676) are left out. The conversion of bool terminals (606-609) compares
a dtype with a type by [is], which is never true, so it never happens. Names of files are
given without their directory, and os.listdir in sorted order; the modelled kinds of entries
of a directory are files with their extension and their content. A file is a list of names
(given by their parts) with arrays; random.shuffle is any permutation.

Proofs: agents/tensorforce.py 460-663 and 679-738, the files of recorder.py 428-481. Inputs
are the nested values of the area of act and observe; arrays are shapes with lists of
values. Simplified: conversions of values, the model's experience and update and the random
shuffle are arbitrary functions, files are dictionaries of arrays by name, and file system
errors other than a missing directory are left out.

### Specifications of modules (`ModModel.v`)

Specifications of modules: Module.get_module_class_and_args and Module.submodule
(/repo/tensorforce/core/module.py 366-518), LayerbasedNetwork.submodule
(/repo/tensorforce/core/networks/network.py 200-268) and the regularization of
Module.__init__ (module.py 197-207), up to the call of the constructor.

Simplified: [name] is a string, [modules] is None or a dictionary with string keys and
disable_first_arg is a boolean (module.py 371-378, 389-393 do not raise); files and what can
be imported are arbitrary (the [world]); a number is an integer. Not modelled: what the
constructor does and the checks of the object it returns. A recursive call takes one unit of
fuel; without fuel there is no result.

Proofs: core/module.py 366-518 (get_module_class_and_args) and 197-207,
core/networks/network.py 200-268. The recursive calls are a step function iterated with
fuel; claims quantify over all fuels, termination by a measure on specifications and files
(ModTermProofs.v). Simplified: files and imports are arbitrary functions, classes are tagged
with the base classes that matter, what a constructor does with its arguments is left out.

### Names of layers, reuse (`NamModel.v`)

Names of layers, the registry of layers and Reuse: LayeredNetwork._parse_layers_spec
(/repo/tensorforce/core/networks/network.py 326-352), the internals of LayerbasedNetwork
(148-174), Layer.__init__, Block and Reuse (/repo/tensorforce/core/layers/layer.py 43-60,
353-466), the check of names in Module.submodule (/repo/tensorforce/core/module.py 487-488)
and the layers applied by LayeredNetwork._recursive_apply (network.py 376-437).

Simplified: which class a specification stands for is given (see ModModel.v): a block, a
reuse layer, a temporal layer or another layer. Layers which other layers and distributions
create for themselves are given as blocks. Values and the specifications of inputs and
outputs are left out, so a cycle of reuse layers, which raises RecursionError, has no result
in [leaves].

Proofs: core/networks/network.py 145-155 and 326-352, core/layers/layer.py 43-60 and
353-466, the check of names in core/module.py 487-488. Induction over nested specifications
with the created objects in order as invariant. Simplified: the kind of a layer is given,
tensors are left out, layers created by other layers are given as blocks, a reuse cycle has
no result instead of RecursionError.

### Several agents in one process (`GloModel.v`)

The registries which all agents of a process share: Module._MODULE_STACK and
Layer._REGISTERED_LAYERS, as used by Model.__init__, close, __enter__, __exit__ and
initialize (/repo/tensorforce/core/models/model.py 33-54, 215-248, 319), tf_function
(/repo/tensorforce/core/module.py 49-145), Module.__enter__ and __exit__ (256-274), Reuse
(/repo/tensorforce/core/layers/layer.py 433-454) and Agent.initialize and close
(/repo/tensorforce/agents/agent.py 271-330).

Simplified: an agent is a number; of its layers only the names and the names its reuse
layers refer to are given. A call of the model (act, observe, reset, ...) is given by the
calls of modules in it, each of which may raise an exception. Its graph for acting and that
for learning (the parameter 'independent' of the network,
/repo/tensorforce/core/networks/network.py 355) are built by the first call which applies
the network in this way and kept if it does not raise. Names are not resolved otherwise.
Savers, summaries and TensorFlow's own scopes are left out.

Proofs: process with the shared registries, events and histories; calls as trees; an
invariant relates the registries to the history.

### Checks of Model.__init__, summaries, tracking (`ChkModel.v`)

Checks of Model.__init__ and the configuration of saver, summarizer and tracking
(/repo/tensorforce/core/models/model.py 55-205, /repo/tensorforce/core/models/tensorforce.py
446-450, /repo/tensorforce/agents/tensorforce.py 331-334), the directories of summaries
(model.py 249-276), summaries and tracked tensors (/repo/tensorforce/core/module.py 485-488,
651-788).

Simplified: of a specification only type and bounds are given, names of nested values are
given flattened as 'a/b', auxiliaries are left out; texts of errors are shortened; values of
the configuration other than None, strings and iterables are one value; a call of summary or
track is given by its arguments and the values of the counters when it is executed; names of
modules are given as requested; the files in a directory of summaries are given by their
number and its name by the time when it was created.

Proofs: core/models/model.py 55-205 and 249-282, core/module.py 485-488 and 651-788,
core/models/tensorforce.py 446-450, agents/tensorforce.py 331-334. Induction over names,
calls, trees of modules and sequences of agents. Simplified: of specifications only type and
bounds, errors as short texts, calls given by their arguments and counters, directories by
time and number of files, writers and TensorFlow's own checks of names left out.

### Arguments of the Tensorforce agent (`CfgModel.v`)

Model of the constructor of TensorforceModel, the model of all learning agents:
/repo/tensorforce/core/models/tensorforce.py 30-51, 108-571 (TensorforceModel.__init__),
633-684 (the part of core_initialize which can fail),
/repo/tensorforce/core/parameters/parameter.py 36-69 and constant.py 35-60 (checks of
parameters), /repo/tensorforce/core/memories/queue.py 39-59 (capacity),
/repo/tensorforce/core/objectives/ (which functions of policy and baseline an objective
requires).

The dictionaries update and reward_estimation are lists of entries; Python makes sure that
keys are different. A parameter which is not a constant is described by the bounds which its
min_value() and max_value() report (ParModel.v), layers by whether the specification of
their output is that of a reward (TempModel.v), networks by how far they look back. Strings
are taken not to name files (ModModel.v resolves these). Floats are rational numbers,
without rounding. Actions are named. Left out: state preprocessing (53-106, PreModel.v),
optimizers, the parameters of objectives, names of internals (ChkModel.v), summaries.

Proofs: core/models/tensorforce.py 108-571 and 633-639, 680-684, core/memories/queue.py
46-59, core/objectives (required functions). Equivalences by inversion of the sequence of
checks, induction over objectives and actions. Simplified: parameters by their bounds only,
preprocessing layers by whether shapes agree, networks by the number of past timesteps,
errors as short texts, optimizers other than a weight not distinguished..

### Adapters of simulators (`AdaModel.v`)

Adapters of simulators: Arcade Learning Environment, ViZDoom, PyGame Learning Environment,
OpenSim, CARLA.

Modelled: environments/arcade_learning_environment.py 59-60 and 97-117, vizdoom.py 90-145,
pygame_learning_environment.py 92-129, open_sim.py 33-66, carla_environment.py 101-184,
215-271, 350-381.

Simplified: a simulator is a transition system, given by any functions; screens are what a
function makes of its state; rewards are rational numbers.

Proofs: environments/arcade_learning_environment.py 59-60 and 97-117, vizdoom.py 90-145,
pygame_learning_environment.py 92-129, open_sim.py 33-66, carla_environment.py 101-184,
215-271, 350-381. Induction over the played game, with the lowest number of lives as
invariant. Simplified: a simulator is any transition system, rewards are rational numbers;
not modelled: screens, sensors, rendering and the worlds of the simulators..

### Variables and scripts (`ToolModel.v`)

Variables of modules, and the scripts which run and tune agents.

Modelled: core/module.py 521-640 (Module.variable), run.py 132-231, tune.py 46-147, 152-222,
295-298.

Simplified: shapes of variables have no unknown entries, and their values are described, not
drawn; floats are rational numbers, a standard deviation is given by its square, a logarithm
is an exact power; int(x) of a string is any partial function. Not modelled: argparse,
plots, files, and the search of hpbandster.

Proofs: core/module.py 521-640, run.py 132-231, tune.py 46-147, 152-222 and 295-298.
Characterizations by small relations (initialized, location, ports, in_space), induction
over strings, runs and rounds; tune.py uses the model of the agent arguments (CfgModel.v).
Simplified: known shapes, described values, rational numbers, exact powers, int(x) is any
partial function. Not modelled: argparse, plots, files and the search of hpbandster..

### Starting and receiving calls of environments (`RcvModel.v`)

Environments which are started first and asked for the result later, and the checks of their
first outputs.

Modelled: environments/environment.py 249-256 (Environment.__init__), 367-445 (start_reset,
start_execute, receive_execute), 447-470 (_check_states_output), core/utils/tensors_spec.py
64-75 (np_assert), core/utils/nested_dict.py 63-68 (zip_items).

Simplified: an environment is any transition system whose calls return or raise, in which
case its own state may have changed, too; dictionaries of states are flat; whether one value
fits a specification, alone or as a batch, is a predicate. Not modelled: the wrapper
(EnvModel.v) and remote environments (RemoteModel.v).

Proofs: environments/environment.py 249-256, 367-445 and 447-470, core/utils/tensors_spec.py
64-75, core/utils/nested_dict.py 63-68. Refinement of direct use by the pairs of calls,
induction over all sequences of calls. Simplified: an environment is any transition system
whose calls return or raise, dictionaries of states are flat, whether a value fits a
specification is a predicate. Not modelled here: the wrapper (EnvModel.v) and remote
environments (RemoteModel.v)..

### Runner with a vectorized environment (`VecModel.v`)

The runner with one vectorized environment.

Modelled: execution/runner.py 530-551 (states after the first reset), 554-607 (passes), 669
(end of a pass), 681-691 (reset for the next episodes), 722-743 (handle_act_joint), 798-812
(handle_observe_joint).

Simplified: the environment and the agent are arbitrary functions, the environment with a
state; states, actions and rewards are any values. Not modelled here: counters, callbacks
and limits (RunModel.v), seconds, and the evaluation environment, which does not exist for
vectorized environments.

Proofs: execution/runner.py 530-551, 554-607, 669, 681-691, 722-743 and 798-812. Refinement
of instances which are run alone by the joint loop, induction over all numbers of passes.
Simplified: the environment and the agent are arbitrary functions; the theorems about
episodes assume that both treat each instance by itself. Not modelled here: counters,
callbacks and limits (RunModel.v), seconds..

### Number of episodes with a vectorized environment (`VecNumModel.v`)

How many episodes the runner starts with one vectorized environment.

Modelled: execution/runner.py 541-548 (first reset), 671-693 (resets when all episodes have
ended), 407 and 840 (count).

Simplified: every episode which is started ends and is counted once, which is C179; the flag
terminate is left out because the resets do not depend on it.

Proofs: execution/runner.py 541-548 and 671-693, the count of 407 and 840. Induction over
the resets. Simplified: every episode started ends and is counted once (C179); the flag
terminate is left out because the resets do not depend on it..

## What is not modelled

* What networks compute: Keras layers and networks, TensorFlow's convolution, recurrent and attention
  kernels, its optimizers and automatic differentiation, its random numbers.  Shapes, bounds, wiring and
  the computations written in tensorforce itself are modelled; the rest are arguments of the model.
* `GlobalOptimizer` and the distributed mode, the progress bar of the runner, time measurement, the
  command line (`run.py`) and the hyperparameter tuner (`tune.py`, benchmarks).
* The adapters to ALE, VizDoom, PLE, OpenSim, Retro and CARLA, except where an area above names them.
* TensorFlow's own formats and their management: checkpoints as TensorFlow stores them, the
  CheckpointManager behind the argument saver, saved models, event files of summaries, datasets.

## Properties

| id | title | status | theorems in |
|----|-------|--------|-------------|
| C01 | Memory keeps exactly the newest timesteps | proved | `MemProps.v` |
| C02 | Memory's own consistency checks never fire on legal use | proved | `MemProps.v` |
| C03 | Episode index of the memory is exact | proved | `MemProps.v` |
| C04 | Recent memory retrieves whole, most recent episodes | proved | `MemProps.v` |
| C05 | Replay memory retrieves whole episodes for every random draw | proved | `MemProps.v` |
| C06 | Timestep retrieval only returns stored timesteps with enough following context | partial | `MemProps.v` |
| C07 | Past context never crosses an episode boundary | proved | `MemProps.v` |
| C08 | Future context never crosses an episode boundary | proved | `MemProps.v` |
| C09 | Storing in pieces or at once is indistinguishable | proved | `MemProps.v` |
| C10 | Reset closes the open episode once and loses nothing | proved | `MemProps.v` |
| C11 | Stored reward of a finished episode is its truncated discounted return | proved | `RetProps.v` |
| C12 | Aborted episodes are bootstrapped, finished ones are not | proved | `RetProps.v` |
| C13 | Returns do not depend on how observations are chunked | proved | `AgentProps.v` |
| C14 | Exponentially weighted returns (TD-lambda) follow their definition | partial | `RetProps.v` |
| C15 | Generalized advantage estimation does not leak across episodes | proved | `RetProps.v` |
| C16 | Every observed timestep reaches the memory exactly once and in order | proved | `AgentProps.v` |
| C17 | Act and observe must alternate per interaction stream | proved | `AgentProps.v` |
| C18 | Agent-side buffering delivers observations exactly once, in order, and flushes at episode end | proved | `AgentProps.v` |
| C19 | Timestep and episode counters are exact | proved | `AgentProps.v` |
| C20 | Parallel streams do not interfere | proved | `AgentProps.v` |
| C21 | Episode return and length bookkeeping | proved | `AgentProps.v` |
| C22 | max_episode_timesteps is enforced | partial | `AgentMoreProps.v` |
| C23 | Recurrent state starts fresh in every episode | partial | `AgentMoreProps.v` |
| C24 | Updates happen at the configured frequency | partial | `AgentMoreProps.v` |
| C25 | Independent (evaluation) acts leave the learning state unchanged | partial | `AgentMoreProps.v`, `PreProps.v` |
| C26 | Recorded traces hold exactly the completed episodes | partial | `RecProps.v` |
| C27 | Number of recorded trace files is bounded | partial | `RecProps.v` |
| C28 | agent.experience splits its input into episodes losslessly | proved | `AgentMoreProps.v` |
| C29 | Runner stops at the requested number of episodes | proved | `RunProps.v` |
| C30 | Runner stops at the requested number of timesteps | partial | `RunProps.v` |
| C31 | Runner respects the agent protocol for every environment | partial | `RunProps.v` |
| C32 | Reported episode statistics belong to the right episode | proved | `RunProps.v` |
| C33 | A synchronised multi-environment run terminates | partial | `RunProps.v` |
| C34 | Environment episode limit is enforced exactly | partial | `EnvProps.v` |
| C35 | Remote environment behaves like the local one | partial | `RemoteProps.v` |
| C36 | Socket framing round-trips every message | partial | `SockProps.v` |
| C37 | Nested dictionary lookups behave like a finite map | proved | `DictProps.v` |
| C38 | Flattening arguments and rebuilding them is lossless | partial | `DictProps.v` |
| C39 | Value specification accepts exactly the values it describes | partial | `SpecMoreProps.v`, `SpecProps.v` |
| C40 | Unifying two specifications accepts only values both accept | partial | `SpecArrProps.v`, `SpecProps.v` |
| C41 | Merging specifications never overwrites silently | proved | `DictProps.v` |
| C42 | Scheduled parameters stay within their declared bounds | partial | `ParProps.v` |
| C43 | Piecewise-constant schedules switch exactly at their boundaries | proved | `ParProps.v` |
| C44 | Sequence preprocessing presents the last k states of the current episode | partial | `PreProps.v` |
| C45 | Delta preprocessing subtracts the previous state of the same episode | partial | `PreProps.v` |
| C46 | Linear normalization maps the declared range onto [-2, 2] | proved | `PreProps.v` |
| C47 | Optimizers report the change they really made | proved | `OptProps.v` |
| C48 | Double-checked updates never increase the loss | proved | `OptProps.v`, `WrapProps.v` |
| C49 | Line search never returns a worse point than the full step | partial | `OptProps.v` |
| C50 | Clipped updates respect the threshold | proved | `OptProps.v` |
| C51 | Target network synchronizes exactly every k updates | proved | `OptProps.v` |
| C52 | Subsampling keeps state sequences aligned with their timesteps | proved | `OptProps.v` |
| C53 | Conjugate gradient residual is the true residual | proved | `OptProps.v` |
| C54 | Masked actions are never selected | partial | `DistProps.v` |
| C55 | Continuous actions respect their bounds | partial | `DistProps.v` |
| C56 | Restore picks the newest checkpoint | partial | `SaveMoreProps.v`, `SaveProps.v` |
| C57 | Late horizon completion equals early horizon prediction | partial | `LateProps.v` |
| C59 | Comparing environment specifications detects differences | partial | `DictProps.v` |
| C60 | Nested dictionaries compare by content | partial | `DictProps.v` |
| C61 | Unifying compatible specifications succeeds and keeps every common value | partial | `SpecMoreProps.v`, `SpecProps.v` |
| C62 | Evaluation episodes use their own internals | partial | `RunProps.v` |
| C63 | The saved agent is the one with the best evaluation score | partial | `RunProps.v` |
| C64 | Schedules run from the initial to the final value in num_steps | partial | `MoreProps.v`, `ParProps.v` |
| C65 | Normalization layers keep sound statistics | proved | `NormProps.v` |
| C66 | State preprocessing is applied to the states it is specified for | partial | `NormProps.v` |
| C67 | Natural-gradient learning rate is the KL divergence of the step | partial | `OptProps.v` |
| C68 | An evolutionary step is the mean of the perturbations signed by their success | proved | `OptProps.v` |
| C69 | Synchronization pairs variables of the same name | partial | `OptProps.v` |
| C70 | Every admissible continuous action can be sampled | partial | `DistProps.v` |
| C71 | Divergences are not negative | partial | `DistMoreProps.v`, `DistProps.v` |
| C72 | Discrete probabilities, likelihoods and values agree | partial | `DistMoreProps.v`, `DistProps.v` |
| C73 | State values of a value policy are the values of its greedy actions | partial | `DistMoreProps.v`, `DistProps.v` |
| C74 | Variable noise does not outlast an action | proved | `DistProps.v` |
| C75 | Zero temperature gives the mode, which is a most likely action | partial | `DistProps.v` |
| C76 | Exploration applies exactly when asked for | proved | `DistProps.v` |
| C77 | A saved agent is restored by the path that save returned | partial | `SaveProps.v` |
| C78 | Restoring is all or nothing | partial | `SaveProps.v` |
| C79 | Agent.load finds the specification that Agent.save wrote | partial | `SaveMoreProps.v`, `SaveProps.v` |
| C80 | An ambiguous directory is rejected | partial | `SaveProps.v` |
| C81 | Entropies and divergences are expectations of log-likelihoods | partial | `DistMoreProps.v` |
| C82 | Likelihoods are densities of the action | partial | `DistMoreProps.v` |
| C83 | Ornstein-Uhlenbeck noise reverts to its mean | proved | `MoreProps.v` |
| C84 | Preprocessing layers are applied in their listed order | proved | `MoreProps.v` |
| C85 | Optimizer options wrap the optimizer as named | proved | `WrapProps.v` |
| C86 | Clipping keeps the policy close without touching the gradient at the start | partial | `ObjProps.v` |
| C87 | Components of an action contribute their likelihoods once | proved | `ObjProps.v` |
| C88 | The value objective fits values to their targets | partial | `ObjProps.v` |
| C89 | Combined and deterministic objectives | partial | `ObjProps.v`, `UpdMoreProps.v` |
| C90 | The baseline is trained towards the returns | partial | `UpdProps.v` |
| C91 | Which baseline advantages are estimated with | proved | `UpdMoreProps.v`, `UpdProps.v` |
| C92 | Generalized advantage estimation | partial | `UpdProps.v` |
| C93 | What the loss is composed of | proved | `UpdMoreProps.v`, `UpdProps.v` |
| C94 | Documented baseline settings are runnable | partial | `UpdMoreProps.v`, `UpdProps.v` |
| C95 | Target networks follow past policies | proved | `UpdProps.v` |
| C96 | Agents are restored from their specification | partial | `AgtProps.v` |
| C97 | Which agent arguments are accepted | partial | `AgtProps.v` |
| C98 | Order and defaults of agent arguments do not matter | proved | `AgtProps.v` |
| C99 | Precedence of arguments in Agent.create | partial | `AgtMoreProps.v`, `AgtProps.v` |
| C100 | Agent arguments arrive | partial | `AgtMoreProps.v` |
| C101 | Number of buffered timesteps | partial | `AgtMoreProps.v` |
| C102 | Loading agents | partial | `AgtLoadProps.v`, `AgtMoreProps.v`, `AgtProps.v` |
| C103 | Named agents are the named algorithm | proved | `AgtKindProps.v`, `AgtLoadProps.v` |
| C104 | Passing an existing agent | proved | `AgtKindProps.v` |
| C105 | Recurrent layers over sequences | partial | `TempProps.v` |
| C106 | Recurrent layers in updates | partial | `TempProps.v` |
| C107 | Rows of a batch are independent | partial | `TempProps.v` |
| C108 | Recurrent layers with horizon zero | partial | `TempProps.v` |
| C109 | Sequences longer than the horizon | partial | `TempProps.v` |
| C110 | Bias, activation, dropout and size of recurrent layers | partial | `TempProps.v` |
| C111 | Recurrent layers in layered networks | partial | `TempNetProps.v` |
| C112 | Action-specific embeddings | partial | `TempNetProps.v` |
| C113 | Layers return what they declare | partial | `LayProps.v` |
| C114 | Layers treat the instances of a batch separately | partial | `LayProps.v` |
| C115 | Layered networks return what they declare, instance by instance | partial | `LayProps.v` |
| C116 | Automatically configured networks work for all documented states | partial | `LayProps.v` |
| C117 | Values computed by layers | partial | `LayProps.v`, `LayValProps.v` |
| C118 | Aggregation of retrieved tensors | partial | `LayProps.v` |
| C119 | Networks with several inputs use them | partial | `LayProps.v` |
| C120 | Embedding tables cover all values | partial | `LayProps.v` |
| C121 | Parallel CartPole rows are independent | proved | `CartProps.v` |
| C122 | CartPole states lie within the declared bounds | partial | `CartProps.v` |
| C123 | CartPole is symmetric | proved | `CartProps.v` |
| C124 | CartPole steps follow the equations of motion | proved | `CartProps.v` |
| C125 | CartPole accepts valid physics | partial | `CartProps.v` |
| C126 | CartPole velocity bounds exceed single pushes | partial | `CartProps.v` |
| C127 | Executing does not modify the actions given | partial | `CartProps.v` |
| C128 | Gym values agree with the declared specification | partial | `GymProps.v` |
| C129 | Gym actions are rebuilt from their tensors | partial | `GymProps.v` |
| C130 | Gym states are returned as declared | partial | `GymProps.v` |
| C131 | Bounds of gym boxes | partial | `GymProps.v` |
| C132 | drop_states_indices removes exactly these entries | partial | `GymProps.v` |
| C133 | Terminal codes and terminal_reward of gym episodes | partial | `GymProps.v` |
| C134 | Creating gym levels keeps the registry | partial | `GymProps.v` |
| C135 | Ways of writing states and internals are equivalent | proved | `InpNamesProps.v`, `InpProps.v` |
| C136 | Acting on many states is acting on each of them | partial | `InpProps.v` |
| C137 | Internals are passed on per instance | proved | `InpNamesProps.v`, `InpProps.v` |
| C138 | act uses exactly the given streams | partial | `InpStreamProps.v` |
| C139 | Rejected act calls leave the agent unchanged | partial | `InpStreamProps.v` |
| C140 | Masks of int actions | partial | `InpStreamProps.v` |
| C141 | observe accepts exactly acting streams and counts their timesteps | partial | `InpObserveProps.v` |
| C142 | Actions of the random agent | partial | `RndProps.v` |
| C143 | Actions of the constant agent | partial | `RndConstProps.v` |
| C144 | Returned actions are checked | partial | `RndConstProps.v` |
| C145 | Forms of environment specifications | partial | `EcrProps.v`, `EcrValuesProps.v` |
| C146 | The created environment and its limit | partial | `EcrProps.v`, `EcrValuesProps.v` |
| C147 | Remote environments | partial | `EcrRemoteProps.v`, `EcrValuesProps.v` |
| C148 | Importing environment and agent classes | partial | `EcrRemoteProps.v` |
| C149 | Writing recorded timesteps for experience | proved | `ExpProps.v` |
| C150 | Several episodes in one call of experience | partial | `ExpProps.v` |
| C151 | Inputs which experience accepts | partial | `ExpProps.v`, `ExpRejProps.v` |
| C152 | Pretraining from recorded files | partial | `PtrAuxProps.v`, `PtrProps.v` |
| C153 | Specifications of modules | partial | `ModProps.v` |
| C154 | Values as specifications of modules | partial | `ModProps.v` |
| C155 | Layers of a network and regularization | partial | `ModProps.v` |
| C156 | Names of layers and their internals | partial | `NamProps.v` |
| C157 | Reuse layers | partial | `NamProps.v` |
| C158 | Several agents in one process | partial | `GloProps.v` |
| C159 | Names and bounds of states and actions | partial | `ChkProps.v` |
| C160 | Configuration of saver, summarizer and tracking | partial | `ChkProps.v` |
| C161 | Summaries | partial | `ChkProps.v` |
| C162 | Tracked tensors | partial | `ChkProps.v` |
| C163 | Directories of summaries | partial | `ChkProps.v` |
| C164 | Update specification | partial | `CfgProps.v` |
| C165 | Reward estimation specification | partial | `CfgProps.v` |
| C166 | Classes of policy and baseline | partial | `CfgProps.v` |
| C167 | Capacity of the memory | partial | `CfgProps.v` |
| C168 | Exploration specification | partial | `CfgProps.v` |
| C169 | Accepted arguments of the Tensorforce agent | proved | `CfgProps.v` |
| C170 | Lives in the Arcade Learning Environment | partial | `AdaProps.v` |
| C171 | Actions and observations of ViZDoom | proved | `AdaProps.v` |
| C172 | PyGame Learning Environment and OpenSim | partial | `AdaProps.v` |
| C173 | Control, rewards and training of CARLA | partial | `AdaProps.v` |
| C174 | Variables of modules | partial | `ToolProps.v` |
| C175 | The script run.py | partial | `ToolProps.v` |
| C176 | The script tune.py | partial | `ToolProps.v` |
| C177 | Starting and receiving calls of an environment | partial | `RcvProps.v` |
| C178 | Checks of the first outputs of an environment | partial | `EnvChkProps.v`, `RcvProps.v` |
| C179 | Runner with a vectorized environment | proved | `VecProps.v` |
| C180 | Number of episodes with a vectorized environment | partial | `VecNumProps.v` |

The notes in `MANIFEST.json` say for each partial claim what is missing or refuted.

## Assumptions of the theorems

Closed under the global context (no axioms), 604 theorems: all which are not listed below.

* `ClassicalDedekindReals.sig_forall_dec`

2 theorems:

C133_episode, C133_overrun

* `ClassicalDedekindReals.sig_forall_dec`
* `FunctionalExtensionality.functional_extensionality_dep`

51 theorems:

C42_others, C46_linear, C46_range, C46_rejects, C51_schedule, C53_residual, C53_solution,
C54_exploration, C54_mode, C54_random, C54_value_policy, C55_exploration, C65_clipping,
C73_greedy_bool, C73_greedy_value, C73_mean, C73_policy_value, C73_separate,
C73_separate_refuted, C74_reverted, C76_exploration, C83_absolute, C83_bounded,
C83_weighted, C85_none, C88_huber, C88_mean, C88_zero, C88_zero_refuted, C91_advantage,
C91_gae, C92_episode, C92_horizon_refuted, C92_sum, C93_l2, C128_clash_refuted,
C128_declared, C130_declared, C130_multi_refuted, C130_states, C131_actions, C131_clipped,
C131_contradiction_refuted, C131_million_refuted, C131_mixed_refuted, C131_other_refuted,
C131_replaced, C131_states, C132_bounds_refuted, C132_drop, C133_limit_refuted

* `ClassicalDedekindReals.sig_not_dec`
* `ClassicalDedekindReals.sig_forall_dec`
* `FunctionalExtensionality.functional_extensionality_dep`

41 theorems:

C47_global, C47_reported_change, C48_doublecheck, C48_wrapper, C49_changing_factor_refuted,
C49_evaluations, C49_evaluations_refuted, C49_search, C50_clipped, C50_multi, C50_wrapper,
C52_subsampled, C65_exponential_range, C65_independent, C65_instance, C65_moving_mean,
C67_kl_bound_partial, C67_kl_learning_rate_refuted, C68_mean_of_signed_perturbations,
C85_multi, C121_parallel_is_single, C121_single_step, C122_hidden_end_refuted,
C122_initial_state_refuted, C122_states_within, C122_terminal_iff,
C122_terminal_state_refuted, C123_initial_states, C123_mirror, C124_declared_actions,
C124_motion, C124_ranges, C125_accepted_iff, C125_light_pole,
C125_negative_timedelta_refuted, C125_valid_rejected_refuted, C126_first_push_refuted,
C126_upright_angle, C126_upright_location_refuted, C127_actions_kept,
C127_actions_modified_refuted

* `ClassicalDedekindReals.sig_not_dec`
* `ClassicalDedekindReals.sig_forall_dec`
* `FunctionalExtensionality.functional_extensionality_dep`
* `Classical_Prop.classic`

79 theorems:

C42_constant_partial, C42_decaying_partial, C42_inverse_partial, C42_inverse_refuted,
C42_inverse_time_refuted, C42_noisy_refuted, C42_restarts_refuted, C54_many_actions_refuted,
C54_sample, C55_beta, C55_gaussian, C55_inverse, C55_inverse_refuted, C55_preimage,
C64_final_partial, C64_final_refuted, C64_initial_partial, C64_initial_refuted,
C64_linear_partial, C64_linear_refuted, C70_one_sided_refuted, C70_reachable, C71_beta,
C71_equal, C71_gaussian_lower_partial, C71_gaussian_refuted, C71_lower_bound,
C71_negative_refuted, C72_advantage, C72_bernoulli, C72_bernoulli_sample, C72_categorical,
C72_gaussian, C72_masked_state_value_refuted, C72_tanh_refuted, C75_beta_refuted, C75_mode,
C75_tanh_refuted, C75_zero_temperature, C81_bernoulli, C81_beta, C81_bounded_refuted,
C81_categorical, C81_gaussian, C82_beta_sample, C82_gaussian, C82_range_refuted, C86_flat,
C86_gain, C86_pessimistic, C86_slope, C86_unclipped, C86_zero_refuted, C87_plain,
C87_reference, C88_defined_refuted, C88_own_partial, C88_own_refuted, C89_components,
C89_deterministic, C89_no_baseline_refuted, C89_plus, C90_fit, C90_main, C90_main_refuted,
C90_shared_refuted, C91_default, C91_early, C91_joint, C91_late, C93_loss, C93_main,
C93_shared, C93_start, C93_weight, C94_critic_refuted, C94_defined,
C94_shared_objective_refuted, C95_target

