{"id": "C01", "title": "Memory keeps exactly the newest timesteps", "statement": "After any sequence of stored batches and resets, the experience memory of capacity c contains, for every age k < min(c, number of timesteps ever stored), exactly the k-th newest stored timestep (all its values, and its terminal flag, where the newest timestep of an unfinished episode reads as 'open'); nothing newer is lost and nothing is duplicated or reordered.", "quantifier": "every capacity >= 1, every sequence of accepted enqueue/reset calls with arbitrary batch sizes and payloads", "why_tests_cant": "wrap-around position depends on the whole history of batch sizes; tests only visit a few capacities and alignments", "anchors": ["tensorforce/core/memories/queue.py: Queue.initialize", "tensorforce/core/memories/queue.py: Queue.enqueue", "tensorforce/core/memories/queue.py: Queue.reset", "tensorforce/core/memories/queue.py: Queue.retrieve"]}
{"id": "C02", "title": "Memory's own consistency checks never fire on legal use", "statement": "If every stored batch is non-empty, fits the capacity and has at most one terminal, which is last, then enqueue and reset never raise any of their assertion errors; conversely each malformed batch (too long, two terminals, terminal not last) is rejected with the corresponding error.", "quantifier": "every capacity, every legal history of enqueue/reset calls followed by any batch", "why_tests_cant": "an internal assertion that fails only for a particular interleaving of wrap-arounds, aborts and episode ends shows up after days of training", "anchors": ["tensorforce/core/memories/queue.py: Queue.enqueue", "tensorforce/core/memories/queue.py: Queue.reset"]}
{"id": "C03", "title": "Episode index of the memory is exact", "statement": "At any time the memory's episode count equals the number of complete episodes whose preceding episode end is also still retained (or which started the log), and the recorded episode-end positions are exactly the positions of retained episode ends, oldest to newest.", "quantifier": "every capacity and every legal history of enqueue/reset", "why_tests_cant": "counts drift only when terminals are overwritten in batches at particular alignments; finite tests cannot cover all", "anchors": ["tensorforce/core/memories/queue.py: Queue.enqueue", "tensorforce/core/memories/queue.py: Queue.reset", "tensorforce/core/memories/queue.py: Queue.initialize"]}
{"id": "C04", "title": "Recent memory retrieves whole, most recent episodes", "statement": "retrieve_episodes(n) of the recent memory returns, in chronological order, exactly the timesteps of the last min(n, episode count) complete episodes, each whole (first to terminal timestep), and nothing of the unfinished episode.", "quantifier": "every capacity, legal history and n >= 1 with at least one complete episode retained", "why_tests_cant": "index arithmetic across the ring boundary depends on all episode lengths in the history", "anchors": ["tensorforce/core/memories/recent.py: Recent.retrieve_episodes", "tensorforce/core/memories/queue.py: Queue.enqueue"]}
{"id": "C05", "title": "Replay memory retrieves whole episodes for every random draw", "statement": "For every outcome of the random draw, each block returned by replay retrieve_episodes(n) is one whole complete retained episode, first to terminal timestep, and the number of blocks is min(n, episode count).", "quantifier": "every capacity, legal history, n and every possible random draw", "why_tests_cant": "randomised index selection; a test sees a handful of draws", "anchors": ["tensorforce/core/memories/replay.py: Replay.retrieve_episodes"]}
{"id": "C06", "title": "Timestep retrieval only returns stored timesteps with enough following context", "statement": "retrieve_timesteps(n, past, future) of the recent and replay memories only returns positions of timesteps that were really stored and are still retained, each followed by at least `future` newer timesteps; recent returns the newest such ones in chronological order.", "quantifier": "every capacity, legal history, n >= 1, past/future horizons, and every random draw", "why_tests_cant": "depends on arithmetic relation between horizons, fill level and episode count; tests use one configuration", "anchors": ["tensorforce/core/memories/recent.py: Recent.retrieve_timesteps", "tensorforce/core/memories/replay.py: Replay.retrieve_timesteps"]}
{"id": "C07", "title": "Past context never crosses an episode boundary", "statement": "For a retained timestep, the predecessor query with horizon h returns the contiguous run of timesteps ending at it which is the longest one of length <= h+1 that stays within its episode and within the retained window, in chronological order; the returned starts/lengths delimit exactly these runs and the initial values are those of the first timestep of each run.", "quantifier": "every capacity, legal history, list of retained timesteps, horizon", "why_tests_cant": "leaking a previous episode's (or overwritten) states into a sequence only shows for particular ring alignments", "anchors": ["tensorforce/core/memories/queue.py: Queue.predecessors"]}
{"id": "C08", "title": "Future context never crosses an episode boundary", "statement": "For a retained timestep, the successor query with horizon h returns the contiguous run of timesteps starting at it which is the longest one of length <= h+1 that stays within its episode and does not run past the newest timestep; final values are those of the last timestep of each run.", "quantifier": "every capacity, legal history, list of retained timesteps, horizon", "why_tests_cant": "n-step targets that silently mix two episodes only appear at particular alignments", "anchors": ["tensorforce/core/memories/queue.py: Queue.successors"]}
{"id": "C09", "title": "Storing in pieces or at once is indistinguishable", "statement": "Storing a run of timesteps in several consecutive batches leaves the memory in a state answering every retrieve / predecessor / successor / episode-retrieval query exactly as if it had been stored as one batch.", "quantifier": "every capacity, legal history and every split of a batch", "why_tests_cant": "all ways to split all batches cannot be enumerated", "anchors": ["tensorforce/core/memories/queue.py: Queue.enqueue", "tensorforce/core/memories/queue.py: Queue.retrieve", "tensorforce/core/memories/queue.py: Queue.predecessors", "tensorforce/core/memories/queue.py: Queue.successors"]}
{"id": "C10", "title": "Reset closes the open episode once and loses nothing", "statement": "Memory reset turns the unfinished episode (if any) into a complete aborted episode (terminal flag 2), changes no other stored value, adds exactly one to the episode count if the newest timestep was open, and a second reset changes nothing.", "quantifier": "every capacity and legal history", "why_tests_cant": "must hold at every possible crash/reset point of a history", "anchors": ["tensorforce/core/memories/queue.py: Queue.reset"]}
{"id": "C11", "title": "Stored reward of a finished episode is its truncated discounted return", "statement": "For an episode that ends with a true terminal, the reward value stored for timestep t is sum_{k<h, t+k<T} g^k r_{t+k}, plus g^h V(s_{t+h}) when horizon values are predicted early and t+h is still inside the episode (h the reward horizon, g the discount); this one formula holds for both implementations (iterative and parallel), whichever of them is selected.", "quantifier": "every episode length, reward sequence, discount, horizon and baseline prediction", "why_tests_cant": "off-by-one in a discounted sum for some (length, horizon) combination is invisible in learning tests", "anchors": ["tensorforce/core/models/tensorforce.py: TensorforceModel._terminal_experience_iterative", "tensorforce/core/models/tensorforce.py: TensorforceModel._terminal_experience_parallel"]}
{"id": "C12", "title": "Aborted episodes are bootstrapped, finished ones are not", "statement": "For an episode ended by an abort/time-limit (terminal flag 2) with early horizon prediction, the return is computed as if the episode continued with the baseline's prediction of the last state instead of the last reward; with a true terminal no value is ever added beyond the end.", "quantifier": "every episode length, rewards, discount, horizon, baseline prediction, terminal kind", "why_tests_cant": "interaction of abort, horizon and predictor configuration is a product space", "anchors": ["tensorforce/core/models/tensorforce.py: TensorforceModel._terminal_experience_iterative", "tensorforce/core/models/tensorforce.py: TensorforceModel._terminal_experience_parallel"]}
{"id": "C13", "title": "Returns do not depend on how observations are chunked", "statement": "The rewards stored while an episode is still running (sliding buffer with horizon h) together with those stored at its end are exactly the returns that would be stored if the whole episode were processed at its end.", "quantifier": "every episode, every sequence of observe-buffer flush points, horizon and discount", "why_tests_cant": "flush points depend on buffer size, update frequency and episode lengths", "anchors": ["tensorforce/core/models/tensorforce.py: TensorforceModel.core_observe", "tensorforce/core/models/tensorforce.py: TensorforceModel._nonterminal_experience", "tensorforce/core/models/tensorforce.py: TensorforceModel._terminal_experience_iterative"]}
{"id": "C14", "title": "Exponentially weighted returns (TD-lambda) follow their definition", "statement": "With trace decay l, the value stored for timestep t of a finished episode is the standard lambda-weighted combination of n-step returns within the reward horizon; with l = 1 it coincides with the plain return.", "quantifier": "every episode length, rewards, values, discount, lambda, horizon", "why_tests_cant": "recursion correctness for all lengths", "anchors": ["tensorforce/core/models/tensorforce.py: TensorforceModel._terminal_experience_iterative", "tensorforce/core/models/tensorforce.py: TensorforceModel._terminal_experience_parallel"]}
{"id": "C15", "title": "Generalized advantage estimation does not leak across episodes", "statement": "Advantages computed over a batch of several concatenated episode fragments equal the advantages computed on each fragment separately, and within a fragment equal sum_k (g*l)^k delta_{t+k}.", "quantifier": "every batch composition, rewards, terminals, g and l", "why_tests_cant": "the scan is sequential over an arbitrary concatenation of episodes", "anchors": ["tensorforce/core/models/tensorforce.py: TensorforceModel.core_update"]}
{"id": "C16", "title": "Every observed timestep reaches the memory exactly once and in order", "statement": "For each interaction stream, the timesteps handed to the memory, in order, are exactly the timesteps acted and observed (up to the last horizon-many of the unfinished episode); none is dropped, duplicated or overwritten in the intermediate ring buffer.", "quantifier": "every horizon, buffer size, episode-length sequence, chunking of observations", "why_tests_cant": "overwrite needs specific relation of buffer position, horizon and chunk size", "anchors": ["tensorforce/core/models/tensorforce.py: TensorforceModel.core_act", "tensorforce/core/models/tensorforce.py: TensorforceModel.core_observe", "tensorforce/core/models/tensorforce.py: TensorforceModel.core_initialize", "tensorforce/core/models/tensorforce.py: TensorforceModel._nonterminal_experience"]}
{"id": "C17", "title": "Act and observe must alternate per interaction stream", "statement": "For every stream, a non-independent act directly following an act without observe, or an observe without preceding act, raises an error, whatever happens on other streams; all alternating call sequences are accepted (below the episode limit).", "quantifier": "every number of parallel streams and every call sequence", "why_tests_cant": "all interleavings", "anchors": ["tensorforce/agents/recorder.py: Recorder.act", "tensorforce/agents/recorder.py: Recorder.observe"]}
{"id": "C18", "title": "Agent-side buffering delivers observations exactly once, in order, and flushes at episode end", "statement": "The sequence of (terminal, reward) pairs delivered to the learner for a stream is exactly the sequence of observe calls on that stream up to fewer than buffer-size pending ones; after a terminal observation nothing is pending for that stream; a delivered batch contains at most one terminal, which is last.", "quantifier": "every buffer size ('episode' or integer), number of streams, interleaving of observe calls", "why_tests_cant": "all interleavings of streams", "anchors": ["tensorforce/agents/agent.py: Agent.observe"]}
{"id": "C19", "title": "Timestep and episode counters are exact", "statement": "After any call history, the agent's timestep counter equals the number of act calls per stream summed, and the episode counter equals the number of observe calls with a terminal that were flushed to the model.", "quantifier": "every call history, streams, batching", "why_tests_cant": "all histories", "anchors": ["tensorforce/core/models/model.py: Model.act", "tensorforce/core/models/model.py: Model.observe"]}
{"id": "C20", "title": "Parallel streams do not interfere", "statement": "What is delivered to the learner for one stream (contents of its batches, recurrent state used by each of its acts, its episode length/return) depends only on the calls made for that stream, not on how calls on other streams interleave.", "quantifier": "every number of streams and every interleaving", "why_tests_cant": "number of interleavings is exponential", "anchors": ["tensorforce/agents/agent.py: Agent.observe", "tensorforce/core/models/model.py: Model.act", "tensorforce/core/models/model.py: Model.observe"]}
{"id": "C21", "title": "Episode return and length bookkeeping", "statement": "When an episode ends, the reported episode length and return are the number and the sum of the rewards of that episode's observations, however they were chunked, and the next episode starts from zero.", "quantifier": "every reward sequence, chunking, number of streams", "why_tests_cant": "all chunkings", "anchors": ["tensorforce/core/models/model.py: Model.observe"]}
{"id": "C22", "title": "max_episode_timesteps is enforced", "statement": "An interaction stream can never accumulate more than max_episode_timesteps timesteps in one episode without an error, so fixed-size episode buffers are never overrun.", "quantifier": "every limit and every call sequence", "why_tests_cant": "boundary depends on whether the exceeding observation is terminal; all call sequences", "anchors": ["tensorforce/agents/recorder.py: Recorder.observe"]}
{"id": "C23", "title": "Recurrent state starts fresh in every episode", "statement": "The internal (recurrent) state used by an act call equals the policy's state folded over exactly the earlier acts of the same episode and stream, starting from the initial state.", "quantifier": "every history of act/observe/reset calls over any number of streams", "why_tests_cant": "stale state only matters after particular reset/terminal orders", "anchors": ["tensorforce/core/models/model.py: Model.act", "tensorforce/core/models/model.py: Model.observe", "tensorforce/core/models/model.py: Model.reset"]}
{"id": "C24", "title": "Updates happen at the configured frequency", "statement": "With unit 'episodes', start s and frequency f, the number of updates after E episodes is 0 if E < max(s,f) and otherwise (E - max(s,f)) div f + 1; with unit 'timesteps' consecutive updates are at least f timesteps apart and none happens before the start.", "quantifier": "every start, frequency, horizon and observation history", "why_tests_cant": "must hold for the entire run of arbitrary length", "anchors": ["tensorforce/core/models/tensorforce.py: TensorforceModel.core_observe"]}
{"id": "C25", "title": "Independent (evaluation) acts leave the learning state unchanged", "statement": "act(independent=True) changes no counter, buffer, recurrent state, recorder content or preprocessing state, so later training behaviour is the same as if it had not been called.", "quantifier": "every point of every history", "why_tests_cant": "all interleavings of evaluation and training calls", "anchors": ["tensorforce/core/models/model.py: Model.independent_act", "tensorforce/agents/recorder.py: Recorder.act", "tensorforce/core/layers/preprocessing.py: Deltafier.apply", "tensorforce/core/layers/preprocessing.py: Sequence.apply"]}
{"id": "C26", "title": "Recorded traces hold exactly the completed episodes", "statement": "With recording from episode `start` and `frequency` episodes per file, the k-th trace file contains exactly the complete episodes start+k*frequency .. start+(k+1)*frequency-1 in order of completion, every timestep once with its own state, action, terminal and reward.", "quantifier": "every interleaving of parallel streams, start and frequency", "why_tests_cant": "interleavings around the recording start", "anchors": ["tensorforce/agents/recorder.py: Recorder.act", "tensorforce/agents/recorder.py: Recorder.observe"]}
{"id": "C27", "title": "Number of recorded trace files is bounded", "statement": "With max-traces m the directory never holds more than m trace files and always holds the newest ones.", "quantifier": "every m >= 1 and every number of recorded traces", "why_tests_cant": "boundary value m; unbounded number of traces", "anchors": ["tensorforce/agents/recorder.py: Recorder.observe"]}
{"id": "C28", "title": "agent.experience splits its input into episodes losslessly", "statement": "Feeding a concatenation of episodes stores each of them as one unit: the pieces concatenate to the input, each piece contains exactly one terminal which is its last timestep; input not ending in a terminal is rejected before anything is stored.", "quantifier": "every input sequence", "why_tests_cant": "all sequences", "anchors": ["tensorforce/agents/tensorforce.py: TensorforceAgent.experience"]}
{"id": "C29", "title": "Runner stops at the requested number of episodes", "statement": "A run with episode budget N on k environments finishes at least N and at most N+k-1 episodes (exactly N when k = 1), and terminates if every episode does.", "quantifier": "every N, k, every environment behaviour (episode lengths, timing of non-blocking replies)", "why_tests_cant": "all environment schedules", "anchors": ["tensorforce/execution/runner.py: Runner.run", "tensorforce/execution/runner.py: Runner.handle_terminal"]}
{"id": "C30", "title": "Runner stops at the requested number of timesteps", "statement": "A run with timestep budget N on one environment performs exactly N environment steps (counting repeated actions once), closing the last episode as aborted, and then stops.", "quantifier": "every N and environment behaviour", "why_tests_cant": "all environment schedules", "anchors": ["tensorforce/execution/runner.py: Runner.run", "tensorforce/execution/runner.py: Runner.handle_act", "tensorforce/execution/runner.py: Runner.handle_observe"]}
{"id": "C31", "title": "Runner respects the agent protocol for every environment", "statement": "For every environment the runner alternates act and observe starting with act after a reset, never acts on a finished episode, passes each environment step's terminal and reward to exactly one observe on the same stream, and leaves every stream closed at the end of the run.", "quantifier": "every number of environments and reply timing", "why_tests_cant": "all schedules of asynchronous replies", "anchors": ["tensorforce/execution/runner.py: Runner.run", "tensorforce/execution/runner.py: Runner.handle_act", "tensorforce/execution/runner.py: Runner.handle_observe"]}
{"id": "C32", "title": "Reported episode statistics belong to the right episode", "statement": "The runner's recorded returns and lengths list, for each finished episode in order of completion, the sum of its rewards and its number of timesteps.", "quantifier": "every reward stream, number of environments and schedule", "why_tests_cant": "all schedules", "anchors": ["tensorforce/execution/runner.py: Runner.handle_act", "tensorforce/execution/runner.py: Runner.handle_observe", "tensorforce/execution/runner.py: Runner.handle_terminal"]}
{"id": "C33", "title": "A synchronised multi-environment run terminates", "statement": "A run with sync_episodes and any of the documented stop conditions (episodes, timesteps, updates, callback) ends after finitely many steps if episodes are finite.", "quantifier": "every environment behaviour and stop condition", "why_tests_cant": "non-termination cannot be tested", "anchors": ["tensorforce/execution/runner.py: Runner.run"]}
{"id": "C34", "title": "Environment episode limit is enforced exactly", "statement": "A wrapped environment with limit m ends every episode after at most m steps: the step count never exceeds m, an unfinished episode is reported as aborted (2) exactly at step m, terminal flags of the environment itself are passed on unchanged, and stepping after the end without reset raises an error.", "quantifier": "every limit, environment behaviour and call sequence", "why_tests_cant": "all call sequences", "anchors": ["tensorforce/environments/environment.py: EnvironmentWrapper.reset", "tensorforce/environments/environment.py: EnvironmentWrapper.execute"]}
{"id": "C35", "title": "Remote environment behaves like the local one", "statement": "For every sequence of calls, an environment run in a remote worker returns the same results in the same order as the local environment, and every reply is delivered to the request that caused it (blocking and non-blocking).", "quantifier": "every call sequence and every scheduling of worker thread completion", "why_tests_cant": "all schedules", "anchors": ["tensorforce/environments/environment.py: RemoteEnvironment.remote", "tensorforce/environments/environment.py: RemoteEnvironment.receive", "tensorforce/environments/environment.py: RemoteEnvironment.receive_execute"]}
{"id": "C36", "title": "Socket framing round-trips every message", "statement": "What is sent over the socket environment connection is received unchanged, for messages of every size and every way the bytes are split up in transit.", "quantifier": "every payload, every message size, every sequence of messages", "why_tests_cant": "boundary at multiples of the packet size; all sizes", "anchors": ["tensorforce/environments/socket_environment.py: SocketEnvironment.proxy_send", "tensorforce/environments/socket_environment.py: SocketEnvironment.proxy_receive", "tensorforce/environments/socket_environment.py: SocketEnvironment.remote_receive"]}
{"id": "C37", "title": "Nested dictionary lookups behave like a finite map", "statement": "Reading a nested key just set gives the value set; setting one leaf does not change any other leaf not under it; iteration lists each leaf once with its full name in insertion order; copy is independent; update/pop behave accordingly.", "quantifier": "every nesting structure, key and operation sequence", "why_tests_cant": "all operation sequences over nested keys", "anchors": ["tensorforce/core/utils/nested_dict.py: NestedDict.__setitem__", "tensorforce/core/utils/nested_dict.py: NestedDict.__getitem__", "tensorforce/core/utils/nested_dict.py: NestedDict.items", "tensorforce/core/utils/nested_dict.py: NestedDict.pop"]}
{"id": "C38", "title": "Flattening arguments and rebuilding them is lossless", "statement": "For every signature, converting keyword arguments to positional tensors and back gives the original arguments (empty sub-structures included), and the number and order of tensors is fixed by the signature alone.", "quantifier": "every nested signature and every matching argument structure", "why_tests_cant": "all nestings", "anchors": ["tensorforce/core/utils/dicts.py: SignatureDict.kwargs_to_args", "tensorforce/core/utils/dicts.py: SignatureDict.args_to_kwargs", "tensorforce/core/utils/dicts.py: SignatureDict.to_list"]}
{"id": "C39", "title": "Value specification accepts exactly the values it describes", "statement": "Converting an input value succeeds iff its type and shape match the specification and every entry is finite and within [min, max] (or in [0, num_values)); otherwise an error is raised, never a silently clipped or reshaped value.", "quantifier": "every specification and value", "why_tests_cant": "all specs and values", "anchors": ["tensorforce/core/utils/tensor_spec.py: TensorSpec.to_tensor", "tensorforce/core/utils/tensor_spec.py: TensorSpec.np_assert"]}
{"id": "C40", "title": "Unifying two specifications accepts only values both accept", "statement": "If unify(a, b) succeeds, a value accepted by the result is accepted by both a and b.", "quantifier": "every pair of specifications and every value", "why_tests_cant": "all pairs", "anchors": ["tensorforce/core/utils/tensor_spec.py: TensorSpec.unify"]}
{"id": "C41", "title": "Merging specifications never overwrites silently", "statement": "deep_disjoint_update either raises an error (conflicting values for the same key) or produces a dictionary that contains every entry of both inputs.", "quantifier": "every pair of nested dictionaries", "why_tests_cant": "all nestings", "anchors": ["tensorforce/util.py: deep_disjoint_update", "tensorforce/util.py: is_equal"]}
{"id": "C42", "title": "Scheduled parameters stay within their declared bounds", "statement": "At every step, the value of a (decaying, piecewise, linear, exponential, random, constant) parameter lies between its declared minimum and maximum, so a configuration accepted by the range check can never produce an out-of-range value later; a parameter declared constant never changes.", "quantifier": "every configuration and every step count", "why_tests_cant": "unbounded number of steps and configurations", "anchors": ["tensorforce/core/parameters/decaying.py: Decaying.min_value", "tensorforce/core/parameters/decaying.py: Decaying.max_value", "tensorforce/core/parameters/decaying.py: Decaying.parameter_value", "tensorforce/core/parameters/piecewise_constant.py: PiecewiseConstant"]}
{"id": "C43", "title": "Piecewise-constant schedules switch exactly at their boundaries", "statement": "The value at step s is the first value if s <= boundary 1, the (i+1)-th value if boundary i < s <= boundary i+1, and the last value after the last boundary; misconfigured boundaries (unsorted, wrong number of values) are rejected.", "quantifier": "every boundary list and step", "why_tests_cant": "all steps", "anchors": ["tensorforce/core/parameters/piecewise_constant.py: PiecewiseConstant"]}
{"id": "C44", "title": "Sequence preprocessing presents the last k states of the current episode", "statement": "The output of sequence preprocessing is the last k states of the current episode of that stream (earliest state repeated at the start of the episode), never containing states of other episodes or streams.", "quantifier": "every k, every history of states, resets and streams", "why_tests_cant": "all histories", "anchors": ["tensorforce/core/layers/preprocessing.py: Sequence.apply", "tensorforce/core/layers/preprocessing.py: Sequence.reset"]}
{"id": "C45", "title": "Delta preprocessing subtracts the previous state of the same episode", "statement": "The delta output is zero at the first timestep of an episode and otherwise current minus previous state of that episode and stream.", "quantifier": "every history of states, resets and streams", "why_tests_cant": "all histories", "anchors": ["tensorforce/core/layers/preprocessing.py: Deltafier.apply", "tensorforce/core/layers/preprocessing.py: Deltafier.reset"]}
{"id": "C46", "title": "Linear normalization maps the declared range onto [-2, 2]", "statement": "Values within [min, max] are mapped monotonically into [-2, 2], bounds to bounds; entries without finite bounds are passed unchanged.", "quantifier": "every bound vector and in-range value", "why_tests_cant": "all values", "anchors": ["tensorforce/core/layers/normalization.py: LinearNormalization.apply"]}
{"id": "C47", "title": "Optimizers report the change they really made", "statement": "For every nesting of optimizer modifiers (clipping, multi-step, subsampling, line search, double-check, plus, synchronization, evolutionary) the returned deltas equal the difference between variables after and before the step.", "quantifier": "every nesting of modifiers, loss function, variables, batch and random draws", "why_tests_cant": "all compositions", "anchors": ["tensorforce/core/optimizers/clipping_step.py: ClippingStep.step", "tensorforce/core/optimizers/multi_step.py: MultiStep.step", "tensorforce/core/optimizers/doublecheck_step.py: DoublecheckStep.step", "tensorforce/core/optimizers/linesearch_step.py: LinesearchStep.step", "tensorforce/core/optimizers/plus.py: Plus.step", "tensorforce/core/optimizers/evolutionary.py: Evolutionary.step", "tensorforce/core/optimizers/synchronization.py: Synchronization.step"]}
{"id": "C48", "title": "Double-checked updates never increase the loss", "statement": "After a double-checked step the loss on the same batch is not larger than before the step; if the step was not an improvement the variables are restored.", "quantifier": "every inner optimizer, loss, variables", "why_tests_cant": "all loss landscapes", "anchors": ["tensorforce/core/optimizers/doublecheck_step.py: DoublecheckStep.step"]}
{"id": "C49", "title": "Line search never returns a worse point than the full step", "statement": "The accepted point lies on the line between the old and the fully updated variables, its loss is not larger than the loss of the full step, the search ends after at most max_iterations evaluations, and the variables are left at exactly the returned point.", "quantifier": "every loss function, starting point, backtracking factor and iteration limit", "why_tests_cant": "all loss landscapes", "anchors": ["tensorforce/core/optimizers/solvers/line_search.py: LineSearch.start", "tensorforce/core/optimizers/solvers/line_search.py: LineSearch.step", "tensorforce/core/optimizers/solvers/line_search.py: LineSearch.end", "tensorforce/core/optimizers/linesearch_step.py: LinesearchStep.step"]}
{"id": "C50", "title": "Clipped updates respect the threshold", "statement": "With a clipping modifier as outermost optimizer, the change applied to the variables in one update has norm (global, per-variable or per-entry, according to mode) at most the threshold, whatever the inner optimizer does, and steps below the threshold are unchanged.", "quantifier": "every inner step, threshold and mode", "why_tests_cant": "all inputs", "anchors": ["tensorforce/core/optimizers/clipping_step.py: ClippingStep.step"]}
{"id": "C51", "title": "Target network synchronizes exactly every k updates", "statement": "With sync_frequency k the target variables are moved towards the source on the first update and then on every k-th update after it, and on no other; with weight 1 they equal the source right after it.", "quantifier": "every k >= 1 and every number of updates and variable values", "why_tests_cant": "unbounded update count", "anchors": ["tensorforce/core/optimizers/synchronization.py: Synchronization.step"]}
{"id": "C52", "title": "Subsampling keeps state sequences aligned with their timesteps", "statement": "For every random selection, the subsampled batch pairs each selected timestep's action/reward with exactly that timestep's own state sequence, and uses the whole batch when the requested size is not smaller than the batch.", "quantifier": "every batch, horizons, sample size and random draw", "why_tests_cant": "all draws and ragged layouts", "anchors": ["tensorforce/core/optimizers/subsampling_step.py: SubsamplingStep.step"]}
{"id": "C53", "title": "Conjugate gradient residual is the true residual", "statement": "Throughout the iterations the tracked residual equals b - (A + d I) x for starting point 0 and damping d, so a small reported residual means a good solution; if the loop stops early, ||b - (A+dI)x||^2 < epsilon.", "quantifier": "every linear operator, right-hand side, damping and number of iterations", "why_tests_cant": "all operators", "anchors": ["tensorforce/core/optimizers/solvers/conjugate_gradient.py: ConjugateGradient.start", "tensorforce/core/optimizers/solvers/conjugate_gradient.py: ConjugateGradient.step"]}
{"id": "C54", "title": "Masked actions are never selected", "statement": "With at least one allowed action, neither greedy selection nor sampling (for any random draw) nor random exploration ever returns an action whose mask entry is false.", "quantifier": "every mask, logits, temperature and random draw", "why_tests_cant": "all draws", "anchors": ["tensorforce/core/distributions/categorical.py: Categorical.parametrize", "tensorforce/core/distributions/categorical.py: Categorical.mode", "tensorforce/core/distributions/categorical.py: Categorical.sample", "tensorforce/core/models/tensorforce.py: TensorforceModel.core_act"]}
{"id": "C55", "title": "Continuous actions respect their bounds", "statement": "Actions of a bounded float action (Gaussian with tanh/clipping transform, Beta, exploration noise) always lie within [min, max], and the transform used for likelihoods inverts the one used for sampling.", "quantifier": "every network output, random draw and bounds", "why_tests_cant": "all real inputs", "anchors": ["tensorforce/core/distributions/gaussian.py: Gaussian.sample", "tensorforce/core/distributions/beta.py: Beta.sample", "tensorforce/core/models/tensorforce.py: TensorforceModel.core_act"]}
{"id": "C56", "title": "Restore picks the newest checkpoint", "statement": "Restoring from a directory with saved checkpoints of one agent, without naming a file, selects the checkpoint with the largest appended counter of that agent.", "quantifier": "every directory content", "why_tests_cant": "all directory contents", "anchors": ["tensorforce/agents/agent.py: Agent.restore"]}
{"id": "C57", "title": "Late horizon completion equals early horizon prediction", "statement": "With predict_horizon_values='late', the value used for an update (stored truncated sum plus the value completed at retrieval from the successor found in memory) is exactly the value predict_horizon_values='early' would have stored for that timestep.", "quantifier": "every episode, abort or terminal, horizon, discount, value prediction, memory content and capacity, and every batch of retained timesteps", "why_tests_cant": "needs the interplay of stored returns, ring-buffer successors and terminal flags at the exact distance h from the end", "anchors": ["tensorforce/core/models/tensorforce.py: TensorforceModel._complete_horizon_values", "tensorforce/core/memories/queue.py: Queue.successors"]}
{"id": "C59", "title": "Comparing environment specifications detects differences", "statement": "util.is_equal, by which the runner checks that all parallel environments have the same states and actions, is true only of specifications which are equal.", "quantifier": "every pair of nested specifications", "why_tests_cant": "the comparison is recursive over arbitrary nestings and lengths", "anchors": ["tensorforce/util.py: is_equal", "tensorforce/execution/runner.py: Runner.__init__"]}
{"id": "C60", "title": "Nested dictionaries compare by content", "statement": "== on nested dictionaries answers for every pair, is an equivalence, and is true exactly if both list the same names with equal values; reading a listed name gives the listed value.", "quantifier": "every pair of nested dictionaries reachable by operations", "why_tests_cant": "all nestings, including empty and singleton sub-dictionaries", "anchors": ["tensorforce/core/utils/nested_dict.py: NestedDict.__eq__", "tensorforce/core/utils/nested_dict.py: NestedDict.zip_items"]}
{"id": "C61", "title": "Unifying compatible specifications succeeds and keeps every common value", "statement": "If two value specifications have a common value, unify succeeds, and every value described by both is described by the result.", "quantifier": "every pair of specifications and every value", "why_tests_cant": "all pairs of specifications, with open types, shapes and bounds", "anchors": ["tensorforce/core/utils/tensor_spec.py: TensorSpec.unify"]}
{"id": "C62", "title": "Evaluation episodes use their own internals", "statement": "During evaluation every act is given the internals returned by the previous act of the same episode, and the initial internals at the start of an episode.", "quantifier": "every agent, environment, number of environments and option of run", "why_tests_cant": "all schedules and episode lengths", "anchors": ["tensorforce/execution/runner.py: Runner.handle_act_evaluation", "tensorforce/execution/runner.py: Runner.handle_terminal_evaluation", "tensorforce/execution/runner.py: Runner.run"]}
{"id": "C63", "title": "The saved agent is the one with the best evaluation score", "statement": "With save_best_agent, the agent is saved exactly when an evaluation score exceeds all earlier ones, so that the last saved agent is the one with the best score.", "quantifier": "every sequence of scores, environment and agent", "why_tests_cant": "all score sequences and schedules", "anchors": ["tensorforce/execution/runner.py: Runner.handle_terminal_evaluation"]}
{"id": "C64", "title": "Schedules run from the initial to the final value in num_steps", "statement": "A decaying parameter has its initial value at step 0, and a linear schedule interpolates linearly and reaches its final value after num_steps steps, where it stays.", "quantifier": "every configuration and every step count", "why_tests_cant": "unbounded number of steps and configurations", "anchors": ["tensorforce/core/parameters/decaying.py: Decaying.parameter_value", "tensorforce/core/parameters/linear.py: Linear"]}
{"id": "C65", "title": "Normalization layers keep sound statistics", "statement": "Exponential normalization keeps a moving mean within the range of its inputs, weighted by age in timesteps, and a non-negative variance, unaffected by independent acts and empty batches, and its outputs are bounded; instance and batch normalization give outputs of mean 0 and variance 1 (unless below the minimum); clipping gives outputs within its bounds.", "quantifier": "every sequence of batches, decay and input", "why_tests_cant": "all input sequences", "anchors": ["tensorforce/core/layers/normalization.py: ExponentialNormalization.apply", "tensorforce/core/layers/normalization.py: InstanceNormalization.apply", "tensorforce/core/layers/preprocessing.py: Clipping.apply"]}
{"id": "C66", "title": "State preprocessing is applied to the states it is specified for", "statement": "The argument state_preprocessing can be given per state type or name, and is then applied to exactly the states of that type or name; by default exactly the bounded float states are normalized.", "quantifier": "every state specification and argument", "why_tests_cant": "all specifications", "anchors": ["tensorforce/core/models/tensorforce.py: TensorforceModel.__init__"]}
{"id": "C67", "title": "Natural-gradient learning rate is the KL divergence of the step", "statement": "The documentation calls the learning rate of the natural gradient the KL divergence of distributions between optimization steps: the estimated KL divergence 1/2 x F x of an applied step x equals the learning rate.", "quantifier": "every loss, Fisher matrix, variables and learning rate", "why_tests_cant": "all operators and rates", "anchors": ["tensorforce/core/optimizers/natural_gradient.py: NaturalGradient.step"]}
{"id": "C68", "title": "An evolutionary step is the mean of the perturbations signed by their success", "statement": "One evolutionary step adds the mean of num_samples random perturbations with deviation learning_rate, each counted positively if it lowers the loss and negatively otherwise, and leaves no other change.", "quantifier": "every loss, variables, learning rate, number of samples and random draws", "why_tests_cant": "all draws and losses", "anchors": ["tensorforce/core/optimizers/evolutionary.py: Evolutionary.step"]}
{"id": "C69", "title": "Synchronization pairs variables of the same name", "statement": "The source variables handed to a synchronization optimizer are, position by position, those of the other network with the name of the target variable.", "quantifier": "every pair of variable name lists", "why_tests_cant": "all network pairs", "anchors": ["tensorforce/core/models/tensorforce.py: TensorforceModel.core_update", "tensorforce/core/optimizers/synchronization.py: Synchronization.step"]}
{"id": "C70", "title": "Every admissible continuous action can be sampled", "statement": "For any network output and temperature above zero, every action inside the bounds (strictly inside for the tanh transform) is the result of some draw of the Gaussian.", "quantifier": "every bounds, network output, temperature and action", "why_tests_cant": "all real inputs", "anchors": ["tensorforce/core/distributions/gaussian.py: Gaussian.sample", "tensorforce/core/distributions/gaussian.py: Gaussian.__init__"]}
{"id": "C71", "title": "Divergences are not negative", "statement": "The KL divergence between two distributions of an action is zero if they are equal, and never negative.", "quantifier": "every pair of network outputs", "why_tests_cant": "all real inputs", "anchors": ["tensorforce/core/distributions/categorical.py: Categorical.kl_divergence", "tensorforce/core/distributions/gaussian.py: Gaussian.kl_divergence", "tensorforce/core/distributions/beta.py: Beta.kl_divergence", "tensorforce/core/distributions/bernoulli.py: Bernoulli.kl_divergence"]}
{"id": "C72", "title": "Discrete probabilities, likelihoods and values agree", "statement": "Probabilities of a categorical or Bernoulli action are positive and sum to one, log-likelihoods and entropies are those of these probabilities up to epsilon, and a probability is the exponential of the action's advantage over the state value, per temperature.", "quantifier": "every network output and mask", "why_tests_cant": "all real inputs", "anchors": ["tensorforce/core/distributions/categorical.py: Categorical.parametrize", "tensorforce/core/distributions/categorical.py: Categorical.entropy", "tensorforce/core/distributions/bernoulli.py: Bernoulli.parametrize"]}
{"id": "C73", "title": "State values of a value policy are the values of its greedy actions", "statement": "The per-action state values of a value policy are the greatest values of allowed actions and are attained by the action it takes; dueling action values average to the state value; the policy's state value is the mean over components of the greedy values.", "quantifier": "every network output and mask", "why_tests_cant": "all real inputs", "anchors": ["tensorforce/core/policies/parametrized_value_policy.py: ParametrizedValuePolicy.act", "tensorforce/core/policies/parametrized_value_policy.py: ParametrizedValuePolicy.state_values", "tensorforce/core/policies/parametrized_value_policy.py: ParametrizedValuePolicy.state_value", "tensorforce/core/policies/value_policy.py: ValuePolicy.state_value"]}
{"id": "C74", "title": "Variable noise does not outlast an action", "statement": "After acting with variable noise all policy variables have the values they had before, and deterministic acting uses them unperturbed.", "quantifier": "every noise, scale and policy", "why_tests_cant": "all draws", "anchors": ["tensorforce/core/models/tensorforce.py: TensorforceModel.core_act"]}
{"id": "C75", "title": "Zero temperature gives the mode, which is a most likely action", "statement": "A distribution sampled with temperature zero returns its mode whatever is drawn, and no admissible action has a higher log-likelihood than the mode.", "quantifier": "every network output, draw and action", "why_tests_cant": "all real inputs", "anchors": ["tensorforce/core/distributions/categorical.py: Categorical.mode", "tensorforce/core/distributions/gaussian.py: Gaussian.mode", "tensorforce/core/distributions/beta.py: Beta.mode", "tensorforce/core/distributions/bernoulli.py: Bernoulli.mode"]}
{"id": "C76", "title": "Exploration applies exactly when asked for", "statement": "Deterministic acting and zero exploration leave actions unchanged; otherwise int and bool actions are replaced exactly when the draw is below the exploration rate, and all actions stay in their range.", "quantifier": "every exploration rate, draw and action", "why_tests_cant": "all draws", "anchors": ["tensorforce/core/models/tensorforce.py: TensorforceModel.core_act"]}
{"id": "C77", "title": "A saved agent is restored by the path that save returned", "statement": "Saving an agent and restoring the returned path gives back every saved variable and the counters, whatever else the directory contains.", "quantifier": "every directory, agent, format and counter", "why_tests_cant": "all directory contents and variable names", "anchors": ["tensorforce/agents/agent.py: Agent.save, Agent.restore", "tensorforce/core/models/model.py: Model.save, Model.restore"]}
{"id": "C78", "title": "Restoring is all or nothing", "statement": "A successful restore has assigned every saved variable the value stored for it in one file; a failing restore leaves the agent unchanged.", "quantifier": "every directory and agent", "why_tests_cant": "all combinations of stored and expected variables", "anchors": ["tensorforce/core/models/model.py: Model.restore", "tensorforce/core/module.py: Module.restore"]}
{"id": "C79", "title": "Agent.load finds the specification that Agent.save wrote", "statement": "After saving with a counter appended to the file name, Agent.load with that file name, with or without extension, reads the specification written by the save.", "quantifier": "every file name, counter and directory", "why_tests_cant": "all file names", "anchors": ["tensorforce/agents/agent.py: Agent.load, Agent.save"]}
{"id": "C80", "title": "An ambiguous directory is rejected", "statement": "If no format is given and the directory holds saved files of the agent in more than one format, restoring raises and leaves the agent unchanged.", "quantifier": "every directory content", "why_tests_cant": "all directory contents and orders", "anchors": ["tensorforce/agents/agent.py: Agent.restore"]}
{"id": "C81", "title": "Entropies and divergences are expectations of log-likelihoods", "statement": "The entropy of an action distribution is the expectation of minus its log-likelihood, and the Kullback-Leibler divergence the expectation of the difference of the log-likelihoods (up to the epsilon used against division by zero), and the entropy of an action with bounds does not exceed that of a uniform action.", "quantifier": "every network output, bounds and pair of distributions", "why_tests_cant": "all real parameters; tests check single values", "anchors": ["tensorforce/core/distributions/gaussian.py: Gaussian.entropy", "tensorforce/core/distributions/gaussian.py: Gaussian.kl_divergence", "tensorforce/core/distributions/beta.py: Beta.entropy", "tensorforce/core/distributions/beta.py: Beta.kl_divergence", "tensorforce/core/distributions/categorical.py: Categorical.kl_divergence", "tensorforce/core/distributions/bernoulli.py: Bernoulli.kl_divergence"]}
{"id": "C82", "title": "Likelihoods are densities of the action", "statement": "exp(log_probability) is the density of the emitted action: the normal density for unbounded Gaussian actions, with total probability one over the range of a bounded action.", "quantifier": "every network output, action and range", "why_tests_cant": "a statement about integrals over all actions", "anchors": ["tensorforce/core/distributions/gaussian.py: Gaussian.log_probability", "tensorforce/core/distributions/beta.py: Beta.log_probability"]}
{"id": "C83", "title": "Ornstein-Uhlenbeck noise reverts to its mean", "statement": "The process equals its mean plus the random draws so far weighted by powers of (1 - theta), so it stays within sigma*b/theta of the mean for draws bounded by b however long it runs; with absolute=True it is never negative and moves towards the mean.", "quantifier": "every configuration and every sequence of draws", "why_tests_cant": "unbounded number of steps", "anchors": ["tensorforce/core/parameters/ornstein_uhlenbeck.py: OrnsteinUhlenbeck.parameter_value"]}
{"id": "C84", "title": "Preprocessing layers are applied in their listed order", "statement": "Applying a list of layers, however nested, is applying its front part and then the rest to the result, each with its own variables.", "quantifier": "every nesting of layers, state and batch", "why_tests_cant": "all nestings", "anchors": ["tensorforce/core/networks/preprocessor.py: Preprocessor._recursive_apply"]}
{"id": "C85", "title": "Optimizer options wrap the optimizer as named", "statement": "Without options the wrapped optimizer is the optimizer itself, and multi_step=n performs exactly the update without that option n times in a row and reports the total change.", "quantifier": "every optimizer, option setting, state and arguments", "why_tests_cant": "all optimizers and states", "anchors": ["tensorforce/core/optimizers/optimizer_wrapper.py: OptimizerWrapper.__init__"]}
{"id": "C86", "title": "Clipping keeps the policy close without touching the gradient at the start", "statement": "With clipping_value c the policy gradient loss is never smaller than without; inside the interval it is the same; on the side the reward pushes to it is flat outside, so that nothing is gained there; and where the policy is still the reference, its slope with respect to the log-likelihood is minus the reward with and without importance sampling and clipping (c > 0).", "quantifier": "every clipping value, likelihood, reference and reward (real numbers)", "why_tests_cant": "for all likelihoods and rewards", "anchors": ["tensorforce/core/objectives/policy_gradient.py: PolicyGradient.loss"]}
{"id": "C87", "title": "Components of an action contribute their likelihoods once", "statement": "Without clipping and importance sampling, early_reduce makes no difference to the policy gradient loss; with importance sampling the loss at the reference is minus the reward (once per component without early_reduce).", "quantifier": "every number of components, every reward", "why_tests_cant": "for all numbers of components", "anchors": ["tensorforce/core/objectives/policy_gradient.py: PolicyGradient.reference", "tensorforce/core/objectives/policy_gradient.py: PolicyGradient.loss"]}
{"id": "C88", "title": "The value objective fits values to their targets", "statement": "The value objective is zero exactly at the target, quadratic up to the Huber threshold and linear with slope of the threshold beyond, symmetric and growing with the distance; without threshold the mean of the targets minimizes it; the loss of an instance depends on its own values and target only.", "quantifier": "every threshold, batch, targets and values", "why_tests_cant": "for all values", "anchors": ["tensorforce/core/objectives/value.py: Value.loss"]}
{"id": "C89", "title": "Combined and deterministic objectives", "statement": "The loss of Plus is the sum of the two losses, each with its own reference; the deterministic policy gradient prefers the policy whose actions the baseline values more.", "quantifier": "every pair of objectives, batch", "why_tests_cant": "for all batches", "anchors": ["tensorforce/core/objectives/plus.py: Plus.loss", "tensorforce/core/objectives/deterministic_policy_gradient.py: DeterministicPolicyGradient.loss"]}
{"id": "C90", "title": "The baseline is trained towards the returns", "statement": "After an update with a separate baseline and a value objective, the baseline predicts the (processed) returns of the batch at least as well as before, and as well as any other if the optimizer minimizes.", "quantifier": "every configuration, batch, state and optimizer that does not increase (or minimizes) its loss", "why_tests_cant": "for all optimizers and batches", "anchors": ["tensorforce/core/models/tensorforce.py: TensorforceModel.core_update", "tensorforce/core/models/tensorforce.py: TensorforceModel.baseline_loss"]}
{"id": "C91", "title": "Which baseline advantages are estimated with", "statement": "With estimate_advantage='early' the rewards given to the policy's objective are returns minus the predictions of the baseline before the update, otherwise of the baseline after its update, followed by advantage processing and generalized advantage estimation.", "quantifier": "every configuration with a separate baseline, batch and state", "why_tests_cant": "for all batches and states", "anchors": ["tensorforce/core/models/tensorforce.py: TensorforceModel.core_update"]}
{"id": "C92", "title": "Generalized advantage estimation", "statement": "Every entry of the batch becomes the sum of the advantages from it to the end of its episode or the batch, weighted by powers of discount times decay; for one-step advantages of an episode decay 1.0 gives return minus value and 0.0 the one-step advantages.", "quantifier": "every batch, with any number of episodes, discount and decay", "why_tests_cant": "for all batch lengths and positions of terminals", "anchors": ["tensorforce/core/models/tensorforce.py: TensorforceModel.core_update"]}
{"id": "C93", "title": "What the loss is composed of", "statement": "The policy's loss is the mean objective, plus the L2 penalty in which every trainable variable counts once with the coefficient of the nearest enclosing module that sets one, minus the entropy bonus, plus the weighted baseline loss.", "quantifier": "every module tree, configuration, batch and state", "why_tests_cant": "all module trees", "anchors": ["tensorforce/core/models/tensorforce.py: TensorforceModel.loss", "tensorforce/core/models/tensorforce.py: TensorforceModel.regularize", "tensorforce/core/module.py: Module.regularize"]}
{"id": "C94", "title": "Documented baseline settings are runnable", "statement": "With a separate baseline and its own optimizer every update succeeds; 'baseline_optimizer is a float and no baseline_objective: the policy's objective is used for the baseline' works as documented.", "quantifier": "every configuration, batch and state", "why_tests_cant": "for all configurations", "anchors": ["tensorforce/core/models/tensorforce.py: TensorforceModel.__init__", "tensorforce/core/models/tensorforce.py: TensorforceModel.core_update", "tensorforce/core/models/tensorforce.py: TensorforceModel.baseline_loss"]}
{"id": "C95", "title": "Target networks follow past policies", "statement": "With a synchronization baseline optimizer the baseline after any number of updates is the mixture, from oldest to newest, of the policies before each of these updates with its initial value; in particular with weight 1.0 it is the policy before the last update.", "quantifier": "every run of updates, configuration, optimizer of the policy", "why_tests_cant": "all run lengths", "anchors": ["tensorforce/core/models/tensorforce.py: TensorforceModel.core_update", "tensorforce/core/optimizers/synchronization.py: Synchronization.step"]}
{"id": "C96", "title": "Agents are restored from their specification", "statement": "Creating an agent from the specification a previous agent has kept (and saved) gives an agent of the same class with the same specification and the same model arguments.", "quantifier": "every agent class, every accepted set of arguments, every environment", "why_tests_cant": "all arguments of all agents", "anchors": ["tensorforce/agents/agent.py: Agent.create", "tensorforce/agents/agent.py: Agent.save", "tensorforce/agents/dqn.py: DeepQNetwork.__init__", "tensorforce/agents/double_dqn.py: DoubleDQN.__init__", "tensorforce/agents/trpo.py: TrustRegionPolicyOptimization.__init__"]}
{"id": "C97", "title": "Which agent arguments are accepted", "statement": "An agent is created only if every given argument is one of its signature and every required argument is given; no admissible value is taken for a deprecated option.", "quantifier": "every agent class and set of keyword arguments", "why_tests_cant": "all arguments", "anchors": ["tensorforce/agents/tensorforce.py: TensorforceAgent.__init__", "tensorforce/agents/ppo.py: ProximalPolicyOptimization.__init__", "tensorforce/agents/constant.py: ConstantAgent.__init__"]}
{"id": "C98", "title": "Order and defaults of agent arguments do not matter", "statement": "The agent does not depend on the order of the keyword arguments, and giving an argument its default value explicitly is the same as leaving it out.", "quantifier": "every agent class, set of arguments and permutation", "why_tests_cant": "all permutations", "anchors": ["tensorforce/agents/tensorforce.py: TensorforceAgent.__init__", "tensorforce/agents/agent.py: Agent.create"]}
{"id": "C99", "title": "Precedence of arguments in Agent.create", "statement": "Keyword arguments take precedence over the entries of a specification dictionary, and both over states, actions and maximum episode length of the environment; the passed dictionary is not changed.", "quantifier": "every dictionary, set of keyword arguments and environment", "why_tests_cant": "all combinations", "anchors": ["tensorforce/agents/agent.py: Agent.create"]}
{"id": "C100", "title": "Agent arguments arrive", "statement": "Every argument of an agent, given or default, is found unchanged at its documented place among the arguments of the model (e.g. PPO's learning_rate as learning rate of the optimizer).", "quantifier": "every agent class and accepted set of arguments", "why_tests_cant": "all arguments of all agents", "anchors": ["tensorforce/agents/a2c.py: AdvantageActorCritic.__init__", "tensorforce/agents/ac.py: ActorCritic.__init__", "tensorforce/agents/dpg.py: DeterministicPolicyGradient.__init__", "tensorforce/agents/dqn.py: DeepQNetwork.__init__", "tensorforce/agents/dueling_dqn.py: DuelingDQN.__init__", "tensorforce/agents/ppo.py: ProximalPolicyOptimization.__init__", "tensorforce/agents/trpo.py: TrustRegionPolicyOptimization.__init__", "tensorforce/agents/vpg.py: VanillaPolicyGradient.__init__"]}
{"id": "C101", "title": "Number of buffered timesteps", "statement": "Timesteps are never buffered longer than the time between two updates; parallel interactions are buffered by episodes and require a maximum episode length; a given configuration is otherwise unchanged.", "quantifier": "every agent class and accepted set of arguments", "why_tests_cant": "all configurations", "anchors": ["tensorforce/agents/tensorforce.py: TensorforceAgent.__init__"]}
{"id": "C102", "title": "Loading agents", "statement": "Agent.load creates the agent from keyword arguments, what is stored, and the environment, in this order of precedence; it is restored exactly once, by its saver or by Agent.load; a saver told not to load is rejected.", "quantifier": "every stored specification, set of arguments and environment", "why_tests_cant": "all combinations", "anchors": ["tensorforce/agents/agent.py: Agent.load", "tensorforce/agents/agent.py: Agent.create"]}
{"id": "C103", "title": "Named agents are the named algorithm", "statement": "Whatever its arguments, an agent created as A2C, AC, DPG, DQN, DoubleDQN, DuelingDQN, PPO, TRPO or VPG has the policy type, objective, memory type, update unit, optimizer, kind of return estimation and kind of baseline which make up that algorithm; for PPO, TRPO and VPG, baseline and baseline optimizer are given together or not at all, and terminal values are only predicted with a baseline.", "quantifier": "every accepted set of arguments of the nine classes", "why_tests_cant": "infinitely many combinations of dozens of arguments", "anchors": ["tensorforce/agents/a2c.py: AdvantageActorCritic.__init__", "tensorforce/agents/ac.py: ActorCritic.__init__", "tensorforce/agents/dpg.py: DeterministicPolicyGradient.__init__", "tensorforce/agents/dqn.py: DeepQNetwork.__init__", "tensorforce/agents/double_dqn.py: DoubleDQN.__init__", "tensorforce/agents/dueling_dqn.py: DuelingDQN.__init__", "tensorforce/agents/ppo.py: ProximalPolicyOptimization.__init__", "tensorforce/agents/trpo.py: TrustRegionPolicyOptimization.__init__", "tensorforce/agents/vpg.py: VanillaPolicyGradient.__init__"]}
{"id": "C104", "title": "Passing an existing agent", "statement": "Agent.create called with an agent object returns that object itself, and does so exactly if every further argument is one the agent was created with and has the same value (for parallel_interactions: the agent supports at least as many).", "quantifier": "every agent specification and every set of arguments", "why_tests_cant": "infinitely many specifications and arguments", "anchors": ["tensorforce/agents/agent.py: Agent.create"]}
{"id": "C105", "title": "Recurrent layers over sequences", "statement": "Applied to a batch of sequences, a recurrent layer returns for every sequence the output of its cell for the last input after reading the inputs before, and the state after reading all of them, independently of the other sequences.", "quantifier": "every cell, batch of sequences (any number, any lengths within the horizon) and initial states", "why_tests_cant": "unbounded batches and sequence lengths; arbitrary cells", "anchors": ["tensorforce/core/layers/layer.py: TemporalLayer.apply", "tensorforce/core/layers/layer.py: TemporalLayer.iterative_body", "tensorforce/core/layers/rnn.py: Rnn.iterative_apply"]}
{"id": "C106", "title": "Recurrent layers in updates", "statement": "The states and outputs an update recomputes from memory with a recurrent layer are those of acting: starting from the internals stored with the first timestep of the horizon, the layer arrives at the internals acting had arrived at.", "quantifier": "every memory content, horizon and batch of indices", "why_tests_cant": "all interaction histories", "anchors": ["tensorforce/core/layers/layer.py: TemporalLayer.apply", "tensorforce/core/memories/queue.py: Queue.predecessors"]}
{"id": "C107", "title": "Rows of a batch are independent", "statement": "Internals (and outputs) a recurrent layer computes for one sequence do not depend on the other sequences of the batch.", "quantifier": "every batch", "why_tests_cant": "all combinations of sequences", "anchors": ["tensorforce/core/layers/layer.py: TemporalLayer.apply"]}
{"id": "C108", "title": "Recurrent layers with horizon zero", "statement": "With horizon 0 (the documented minimum) a recurrent layer performs a single step per row and returns the next state.", "quantifier": "every cell, batch and states", "why_tests_cant": "all inputs", "anchors": ["tensorforce/core/layers/layer.py: TemporalLayer.apply"]}
{"id": "C109", "title": "Sequences longer than the horizon", "statement": "Of a sequence longer than the horizon only the last inputs are read; the result is that of the trimmed sequence.", "quantifier": "every batch with a longer sequence", "why_tests_cant": "all batches and horizons", "anchors": ["tensorforce/core/layers/layer.py: TemporalLayer.apply"]}
{"id": "C110", "title": "Bias, activation, dropout and size of recurrent layers", "statement": "Bias and activation are applied once to the output of the cell; dropout and size 0 are accepted as for other transformation layers.", "quantifier": "every recurrent layer and input", "why_tests_cant": "all configurations", "anchors": ["tensorforce/core/layers/layer.py: TransformationBase.apply", "tensorforce/core/layers/rnn.py: Rnn.iterative_apply"]}
{"id": "C111", "title": "Recurrent layers in layered networks", "statement": "A recurrent layer between row-wise layers gives their composition and updates only its own internals; a network with several successive recurrent layers is rejected; what works while acting also works in updates, in particular networks with branches.", "quantifier": "every layered network of the given forms, every batch of sequences and internals", "why_tests_cant": "all networks and batches", "anchors": ["tensorforce/core/networks/network.py: LayeredNetwork.apply", "tensorforce/core/networks/network.py: LayeredNetwork._recursive_apply"]}
{"id": "C112", "title": "Action-specific embeddings", "statement": "With single_output=False the distribution of an action gets the tensor registered as '[ACTION]-embedding' if there is one, and the network output otherwise.", "quantifier": "every layered network, input and action name", "why_tests_cant": "all networks", "anchors": ["tensorforce/core/networks/network.py: LayerbasedNetwork.__init__", "tensorforce/core/policies/parametrized_distributions.py: ParametrizedDistributions.__init__"]}
{"id": "C113", "title": "Layers return what they declare", "statement": "For inputs of its input specification, every layer accepted at creation returns a tensor of exactly the type and shape of its output specification, for every batch size.", "quantifier": "every layer (Activation, Pooling, Flatten, Reshape, Pool1d/2d, Dense, Conv1d/2d, Embedding, Linear, Register, Retrieve), its arguments, weights, input specification and batch", "why_tests_cant": "all argument combinations and batch sizes; network construction only sees one", "anchors": ["tensorforce/core/layers/layer.py: Layer, TransformationBase", "tensorforce/core/layers/dense.py: Dense", "tensorforce/core/layers/convolution.py: Conv1d, Conv2d", "tensorforce/core/layers/pooling.py: Pooling, Flatten, Reshape, Pool1d, Pool2d", "tensorforce/core/layers/embedding.py: Embedding", "tensorforce/core/layers/misc.py: Activation", "tensorforce/core/layers/register.py: Retrieve"]}
{"id": "C114", "title": "Layers treat the instances of a batch separately", "statement": "The output of a layer for an instance depends only on that instance, not on its position in the batch, on the other instances, or on the number of instances.", "quantifier": "every layer, its arguments, weights, two batches that share an instance", "why_tests_cant": "relates all pairs of batches", "anchors": ["tensorforce/core/layers/layer.py: Layer.apply", "tensorforce/core/layers/misc.py: Activation.apply"]}
{"id": "C115", "title": "Layered networks return what they declare, instance by instance", "statement": "A layered network, with one or several inputs, registered and retrieved tensors, returns a tensor of its declared output specification, and the output for an instance depends on that instance only.", "quantifier": "every list of layers, inputs, weights, batches", "why_tests_cant": "all compositions of layers", "anchors": ["tensorforce/core/networks/network.py: LayerbasedNetwork, LayeredNetwork"]}
{"id": "C116", "title": "Automatically configured networks work for all documented states", "statement": "AutoNetwork gives, for float states of rank up to three, and bool and int states (with num_values) of rank up to two, a network that is accepted, whose output is a vector of the requested size for every instance, and which treats instances separately; other states are rejected.", "quantifier": "every size, depth, final size and depth, set of states, weights and batch", "why_tests_cant": "all state specifications", "anchors": ["tensorforce/core/networks/auto.py: AutoNetwork.__init__"]}
{"id": "C117", "title": "Values computed by layers", "statement": "Dense computes activation(x W + b), embedding looks up the row of the value, flatten keeps the entries in row-major order and reshape inverts it, Conv1d with 'same' padding is the centred zero-padded convolution.", "quantifier": "every input, weights and sizes", "why_tests_cant": "all inputs and sizes", "anchors": ["tensorforce/core/layers/dense.py: Dense.apply", "tensorforce/core/layers/embedding.py: Embedding.apply", "tensorforce/core/layers/pooling.py: Flatten, Reshape", "tensorforce/core/layers/convolution.py: Conv1d.apply"]}
{"id": "C118", "title": "Aggregation of retrieved tensors", "statement": "Retrieve concatenates tensors in the given order along the axis, stacks them along a new axis, or adds or multiplies them entry by entry; every combination of tensors accepted at creation works.", "quantifier": "every list of tensors, aggregation and axis", "why_tests_cant": "all combinations of shapes", "anchors": ["tensorforce/core/layers/register.py: Retrieve.output_spec, Retrieve.apply"]}
{"id": "C119", "title": "Networks with several inputs use them", "statement": "A network with several inputs is rejected unless it retrieves them; no input is ignored silently.", "quantifier": "every network without retrieve layer and all inputs", "why_tests_cant": "relates all inputs", "anchors": ["tensorforce/core/networks/network.py: LayerbasedNetwork.input_spec, LayeredNetwork.apply"]}
{"id": "C120", "title": "Embedding tables cover all values", "statement": "Embedding is accepted exactly if the table has a row for every value of its input specification.", "quantifier": "every input specification and number of embeddings", "why_tests_cant": "all specifications", "anchors": ["tensorforce/core/layers/embedding.py: Embedding.__init__, Embedding.initialize"]}
{"id": "C121", "title": "Parallel CartPole rows are independent", "statement": "A CartPole environment executed in parallel behaves like as many independent single environments with the same physics: at every step it returns the indices and states of exactly the rows that have not ended, and the terminal and reward of every row that was left, in order.", "quantifier": "every physics, number of rows, initial states, actions of every row and number of steps", "why_tests_cant": "all executions of arbitrary length and all interleavings of ends", "anchors": ["tensorforce/environments/cartpole.py: CartPole.reset, CartPole.execute"]}
{"id": "C122", "title": "CartPole states lie within the declared bounds", "statement": "States returned lie within the min_value and max_value declared, and an episode ends exactly when a bound is exceeded.", "quantifier": "every accepted environment, initial state, actions and step", "why_tests_cant": "all reachable states", "anchors": ["tensorforce/environments/cartpole.py: CartPole.states, CartPole.reset, CartPole.execute"]}
{"id": "C123", "title": "CartPole is symmetric", "statement": "Mirroring the initial states and all actions mirrors all states and leaves ends and rewards as they are.", "quantifier": "every physics, initial states, actions and number of steps", "why_tests_cant": "relates two executions of arbitrary length", "anchors": ["tensorforce/environments/cartpole.py: CartPole.execute"]}
{"id": "C124", "title": "CartPole steps follow the equations of motion", "statement": "Every step is an explicit Euler step of the frictionless cart-pole equations with physics from the given ranges, which have exactly one solution; the declared discrete actions push to either side or not at all.", "quantifier": "every accepted environment, physics drawn, state and action", "why_tests_cant": "all real states and parameters, including division by zero", "anchors": ["tensorforce/environments/cartpole.py: CartPole.execute, CartPole.actions, CartPole.reset"]}
{"id": "C125", "title": "CartPole accepts valid physics", "statement": "CartPole is created for all documented physics arguments (positive numbers or increasing pairs of positive numbers) and rejects others.", "quantifier": "every combination of arguments", "why_tests_cant": "all combinations of real arguments", "anchors": ["tensorforce/environments/cartpole.py: CartPole.__init__"]}
{"id": "C126", "title": "CartPole velocity bounds exceed single pushes", "statement": "From the upright position a single discrete action changes the velocities by at most a tenth of their bounds, so that it cannot end the episode.", "quantifier": "every accepted environment, physics, upright state and action", "why_tests_cant": "all parameters and velocities", "anchors": ["tensorforce/environments/cartpole.py: CartPole.__init__, CartPole.execute"]}
{"id": "C127", "title": "Executing does not modify the actions given", "statement": "CartPole.execute leaves the actions passed to it unmodified.", "quantifier": "every environment, state and actions", "why_tests_cant": "aliasing of caller and environment for all inputs", "anchors": ["tensorforce/environments/cartpole.py: CartPole.execute"]}
{"id": "C128", "title": "Gym values agree with the declared specification", "statement": "Every value of a gym space, named the way OpenAIGym names its tensors, agrees with the specification that specs_from_gym_space declares: the same names in the same order, shapes, numbers of values and bounds.", "quantifier": "every space (nested to any depth), every value", "why_tests_cant": "spaces nest arbitrarily", "anchors": ["tensorforce/environments/openai_gym.py: OpenAIGym.specs_from_gym_space"]}
{"id": "C129", "title": "Gym actions are rebuilt from their tensors", "statement": "unflatten_action rebuilds exactly the gym action from the tensors named by the declared action specification.", "quantifier": "every action space, every finite action", "why_tests_cant": "all nested spaces and names", "anchors": ["tensorforce/environments/openai_gym.py: OpenAIGym.unflatten_action"]}
{"id": "C130", "title": "Gym states are returned as declared", "statement": "flatten_state returns the tensors of the state under the declared names (action masks first), within the declared specification, and rejects infinite numbers.", "quantifier": "every observation space, every state", "why_tests_cant": "all nested spaces and values", "anchors": ["tensorforce/environments/openai_gym.py: OpenAIGym.flatten_state"]}
{"id": "C131", "title": "Bounds of gym boxes", "statement": "The declared bounds of an action box admit exactly the actions of the box; with min_value and max_value states are clipped into the declared bounds.", "quantifier": "every box, every bounds, every value", "why_tests_cant": "real bounds and values", "anchors": ["tensorforce/environments/openai_gym.py: OpenAIGym.specs_from_gym_space, OpenAIGym.reset, OpenAIGym.execute"]}
{"id": "C132", "title": "drop_states_indices removes exactly these entries", "statement": "States lose exactly the entries at drop_states_indices, keep the order of the others, and have the declared shape.", "quantifier": "every list of indices, every state", "why_tests_cant": "all index lists", "anchors": ["tensorforce/environments/openai_gym.py: OpenAIGym.__init__, OpenAIGym.reset, OpenAIGym.execute"]}
{"id": "C133", "title": "Terminal codes and terminal_reward of gym episodes", "statement": "Over a whole episode execute returns terminal 0 before the end, 2 at the time limit, and 1 with terminal_reward added before it; an environment that does not end at the limit fails.", "quantifier": "every episode, limit and terminal_reward", "why_tests_cant": "episodes of any length", "anchors": ["tensorforce/environments/openai_gym.py: OpenAIGym.execute"]}
{"id": "C134", "title": "Creating gym levels keeps the registry", "statement": "create_level keeps all registered levels, registers at most one level under an unused name, and returns a level registered with the limit and threshold returned; a registered name is used as is and a version with the requested limit is found.", "quantifier": "every registry, level, limit and threshold", "why_tests_cant": "all registries", "anchors": ["tensorforce/environments/openai_gym.py: OpenAIGym.create_level"]}
{"id": "C135", "title": "Ways of writing states and internals are equivalent", "statement": "act gives the same result however a state (and internals) is written: as numbers, lists or arrays, nested dictionaries or names 'a/b'; for a single state a list of states and an array of states are equivalent; a name given twice or not specified is an error.", "quantifier": "every specification, state, policy and way of writing", "why_tests_cant": "all nestings and shapes", "anchors": ["tensorforce/agents/recorder.py: Recorder.act, Recorder._process_states_input", "tensorforce/core/utils/dicts.py: ArrayDict"]}
{"id": "C136", "title": "Acting on many states is acting on each of them", "statement": "In independent mode act on a list (or on arrays) of states gives the actions it gives for each state alone, and accepts exactly the lists of which it accepts every state, if the policy treats instances one by one.", "quantifier": "every number of instances, specification and such policy", "why_tests_cant": "all batch sizes and nestings", "anchors": ["tensorforce/agents/recorder.py: Recorder.act", "tensorforce/agents/agent.py: Agent.fn_act"]}
{"id": "C137", "title": "Internals are passed on per instance", "statement": "In independent mode the internals returned for a list are those of each instance alone, over any number of steps; unknown internals are ignored, missing ones rejected.", "quantifier": "every sequence of steps, every number of instances", "why_tests_cant": "executions of any length", "anchors": ["tensorforce/agents/recorder.py: Recorder.act", "tensorforce/core/utils/tensors_spec.py: TensorsSpec.to_tensor"]}
{"id": "C138", "title": "act uses exactly the given streams", "statement": "An accepted act was called for existing, observed streams, which are then exactly the ones waiting for an observation; the states accepted and the actions are those of independent mode.", "quantifier": "every state of the agent, every list of streams and states", "why_tests_cant": "all combinations of streams", "anchors": ["tensorforce/agents/recorder.py: Recorder.act"]}
{"id": "C139", "title": "Rejected act calls leave the agent unchanged", "statement": "A rejected act changes neither the model nor counters nor streams that are not meant; acting twice without an observation changes nothing.", "quantifier": "every call and state of the agent", "why_tests_cant": "all error paths", "anchors": ["tensorforce/agents/recorder.py: Recorder.act"]}
{"id": "C140", "title": "Masks of int actions", "statement": "A missing mask is the same as one that allows every option, a given mask is passed to the policy unchanged, and a single state can be given by the name 'state'.", "quantifier": "every specification without nested actions, every mask", "why_tests_cant": "all masks and shapes", "anchors": ["tensorforce/agents/agent.py: Agent.fn_act", "tensorforce/agents/recorder.py: Recorder.act"]}
{"id": "C141", "title": "observe accepts exactly acting streams and counts their timesteps", "statement": "Forms of reward, terminal and parallel are equivalent to lists; observe is accepted iff all streams were acting and no running episode is too long, completes exactly these streams and increases or resets their counters.", "quantifier": "every list of streams, rewards and terminals, every state", "why_tests_cant": "all combinations of streams and counters", "anchors": ["tensorforce/agents/recorder.py: Recorder.observe"]}
{"id": "C142", "title": "Actions of the random agent", "statement": "A random agent's actions conform to their specifications: within bounds, one of the options allowed by the mask, each allowed option for an interval of draws of the same length; exactly the specifications with none or both bounds are supported.", "quantifier": "every specification, mask, number of states and outcome of the random draws", "why_tests_cant": "all shapes, masks and draws", "anchors": ["tensorforce/core/models/random.py: RandomModel.core_act", "tensorforce/core/models/model.py: Model.act"]}
{"id": "C143", "title": "Actions of the constant agent", "statement": "A constant agent always returns the given value of an action, or else False, the first allowed option, the mean of the bounds, the bound or zero; it accepts exactly the values of the type and within the bounds of an action.", "quantifier": "every specification, value, mask and number of states", "why_tests_cant": "all values, shapes and masks", "anchors": ["tensorforce/core/models/constant.py: ConstantModel", "tensorforce/agents/constant.py: ConstantAgent"]}
{"id": "C144", "title": "Returned actions are checked", "statement": "Whatever an agent computes, act returns only actions which conform to their specifications and are allowed by the masks, and rejects states for which no option is allowed.", "quantifier": "every function computing actions, every specification and mask", "why_tests_cant": "all policies and masks", "anchors": ["tensorforce/core/models/model.py: Model.act, Model.independent_act", "tensorforce/agents/agent.py: Agent.fn_act"]}
{"id": "C145", "title": "Forms of environment specifications", "statement": "Environment.create treats a file name, a registered keyword, a dictionary, an importable class and a gym level as the call they stand for; arguments contradicting a dictionary are errors; create terminates unless files refer to each other in cycles.", "quantifier": "every file system, module set, constructor, specification and argument", "why_tests_cant": "all nestings of specifications and all argument combinations", "anchors": ["tensorforce/environments/environment.py: Environment.create", "tensorforce/util.py: deep_disjoint_update"]}
{"id": "C146", "title": "The created environment and its limit", "statement": "Environment.create constructs a class exactly once with the remaining arguments and wraps it; the result has the given max_episode_timesteps; an existing wrapper is returned itself exactly if nothing else is asked for.", "quantifier": "every class, constructor, environment object, limit and argument", "why_tests_cant": "all constructors, limits and argument combinations", "anchors": ["tensorforce/environments/environment.py: Environment.create, EnvironmentWrapper.__init__"]}
{"id": "C147", "title": "Remote environments", "statement": "Environment.create accepts exactly the documented combinations of remote, blocking, host and port; a worker process or server gets exactly the specification, so it creates what would be created locally.", "quantifier": "every specification and all values of the remote arguments", "why_tests_cant": "all argument combinations, including those inside specifications", "anchors": ["tensorforce/environments/environment.py: Environment.create", "tensorforce/environments/multiprocessing_environment.py", "tensorforce/environments/socket_environment.py"]}
{"id": "C148", "title": "Importing environment and agent classes", "statement": "A module name stands for its only class derived from a parent which is not a base of all others, a path for the class of this name; whatever is imported derives from a parent.", "quantifier": "every set of modules and classes and every subclass relation", "why_tests_cant": "all modules and class hierarchies", "anchors": ["tensorforce/util.py: try_import_module"]}
{"id": "C149", "title": "Writing recorded timesteps for experience", "statement": "All ways of writing the same timesteps for experience (lists, dictionaries of arrays, one timestep alone, with or without internals) have the same effect and result, and the model is given exactly these timesteps, one call per episode, with the given masks or full ones.", "quantifier": "every specification, number of timesteps, values and form of writing them", "why_tests_cant": "all shapes, forms and episode boundaries", "anchors": ["tensorforce/agents/tensorforce.py: TensorforceAgent.experience", "tensorforce/agents/agent.py: Agent._process_states_input"]}
{"id": "C150", "title": "Several episodes in one call of experience", "statement": "Giving several episodes in one call of experience is the same as giving them in several calls; a call whose last timestep is not terminal is rejected and leaves the model unchanged.", "quantifier": "every recording, every splitting point, every model", "why_tests_cant": "all episode lengths and splittings", "anchors": ["tensorforce/agents/tensorforce.py: TensorforceAgent.experience"]}
{"id": "C151", "title": "Inputs which experience accepts", "statement": "experience accepts recorded inputs in the forms act takes and returns: states alone or as dictionary, internals left out, actions as returned by act.", "quantifier": "every specification and recording", "why_tests_cant": "all shapes and combinations of forms", "anchors": ["tensorforce/agents/tensorforce.py: TensorforceAgent.experience"]}
{"id": "C152", "title": "Pretraining from recorded files", "statement": "pretrain gives the episodes of the chosen files to experience and then updates, in every iteration with different files, as many as asked for; the files written by a recorder can be used; a missing directory, a directory without such files and zero files per iteration are errors.", "quantifier": "every recording, its division into files, contents of the directory, random choice, number of iterations, files and updates, and model", "why_tests_cant": "all divisions into files, all random choices", "anchors": ["tensorforce/agents/tensorforce.py: TensorforceAgent.pretrain", "tensorforce/agents/recorder.py: Recorder"]}
{"id": "C153", "title": "Specifications of modules", "statement": "A module may be given as a class, a keyword, the name of a class to import, a JSON file or a dictionary with a type and further arguments; all ways of writing the same module give the same constructor and arguments, with its name; entries contradicting the arguments of the parent are rejected and the resolution ends.", "quantifier": "every nesting of dictionaries, files and keywords, every table of modules, every contents of files", "why_tests_cant": "arbitrary nesting of specifications and files", "anchors": ["tensorforce/core/module.py: Module.get_module_class_and_args"]}
{"id": "C154", "title": "Values as specifications of modules", "statement": "A value which is no specification (number, sequence, object, string which is no keyword) is the first argument of the default module, None is the default module alone; without a default it is an error.", "quantifier": "every value, table of modules and default", "why_tests_cant": "all kinds of values", "anchors": ["tensorforce/core/module.py: Module.get_module_class_and_args"]}
{"id": "C155", "title": "Layers of a network and regularization", "statement": "In a network a layer gets the output of the layer before it, or the registered tensors it names; they have to exist. Regularization of modules is a parameter of any form.", "quantifier": "every specification of a layer or parameter", "why_tests_cant": "all combinations of layers and ways of writing them", "anchors": ["tensorforce/core/networks/network.py: LayeredNetwork.submodule", "tensorforce/core/module.py: Module.__init__"]}
{"id": "C156", "title": "Names of layers and their internals", "statement": "Layers without name are called by type and number, counted over the whole network and anew in each block, and have different names; a block does not accept two layers of the same name; the internals of a network have one entry for each temporal layer.", "quantifier": "every network specification, any nesting of lists and blocks", "why_tests_cant": "all nestings and combinations of given and chosen names", "anchors": ["tensorforce/core/networks/network.py: LayeredNetwork._parse_layers_spec", "tensorforce/core/layers/layer.py: Block"]}
{"id": "C157", "title": "Reuse layers", "statement": "A reuse layer applies the layer with the given name; the name has to belong to a layer created before.", "quantifier": "every sequence of networks of an agent", "why_tests_cant": "all combinations of names over several networks", "anchors": ["tensorforce/core/layers/layer.py: Reuse", "tensorforce/core/layers/layer.py: Layer.__init__"]}
{"id": "C158", "title": "Several agents in one process", "statement": "Agents in one process do not affect each other: constructing, initializing, using and closing one agent does not change the result of calls of another one, in particular the layers its reuse layers refer to; an exception in a call leaves the process as it was.", "quantifier": "every sequence of constructions, initializations, calls (also ones which raise) and closings of any number of agents", "why_tests_cant": "the agents share class attributes, whose content depends on the order of all events of the process", "anchors": ["tensorforce/core/models/model.py: Model.__init__, Model.close, Model.__enter__, Model.__exit__, Model.initialize", "tensorforce/core/module.py: tf_function, Module.__enter__, Module.__exit__", "tensorforce/core/layers/layer.py: Reuse"]}
{"id": "C159", "title": "Names and bounds of states and actions", "statement": "An agent is constructed exactly if the names of its states, actions, internals and the reserved ones are distinct and no action of type float has infinite bounds; missing or infinite bounds of states and missing bounds of actions lead to one warning each.", "quantifier": "all states, actions and internals with any bounds", "why_tests_cant": "infinitely many combinations of names and bounds, including nested names and arrays of bounds", "anchors": ["tensorforce/core/models/model.py: Model.__init__", "tensorforce/core/models/tensorforce.py: TensorforceModel.__init__"]}
{"id": "C160", "title": "Configuration of saver, summarizer and tracking", "statement": "Saver and summarizer are None, a path (the directory) or a dictionary with the documented keys and a directory; exactly the labels listed are recorded or tracked, all of them for 'all' or a summarizer without list, and graphs only if listed.", "quantifier": "all configurations", "why_tests_cant": "labels and keys are arbitrary strings and iterables", "anchors": ["tensorforce/core/models/model.py: Model.__init__", "tensorforce/agents/tensorforce.py: TensorforceAgent.__init__"]}
{"id": "C161", "title": "Summaries", "statement": "A summary is written for each step of its counter once, with the values of the first call at this step, provided its label is recorded; calls of names which are not registered and registrations of the same name are rejected.", "quantifier": "all sequences of registrations and calls with any steps", "why_tests_cant": "depends on the history of all calls", "anchors": ["tensorforce/core/module.py: Module.register_summary, Module.summary"]}
{"id": "C162", "title": "Tracked tensors", "statement": "tracked_tensors() shows for each registered tensor with a tracked label, under its full name, the value tracked last, or zero.", "quantifier": "all trees of modules and sequences of calls", "why_tests_cant": "names of modules are joined to keys of one dictionary and may coincide", "anchors": ["tensorforce/core/module.py: Module.register_tracking, Module.track, Module.tracked_tensors, Module.submodule"]}
{"id": "C163", "title": "Directories of summaries", "statement": "Of the directories of summaries with generic names, the newest max_summaries (default 7) are kept.", "quantifier": "all sequences of agents with the same directory, from any content of it", "why_tests_cant": "depends on files left by earlier agents and on times", "anchors": ["tensorforce/core/models/model.py: Model.initialize"]}
{"id": "C164", "title": "Update specification", "statement": "Exactly the documented update specifications are accepted; a float frequency becomes the whole number of timesteps or episodes below this fraction of the batch size, at least 1 and at most the batch size; there is at least one update for every batch.", "quantifier": "all update specifications, with any parameters", "why_tests_cant": "values, bounds of parameters and fractions are unbounded", "anchors": ["tensorforce/core/models/tensorforce.py: TensorforceModel.__init__, core_initialize"]}
{"id": "C165", "title": "Reward estimation specification", "statement": "Exactly the documented entries and values are accepted; horizon, discount, decays and the defaults for the prediction of horizon values and advantages depend on the entries given and on the baseline as documented.", "quantifier": "all specifications of the reward estimation together with any other arguments", "why_tests_cant": "the defaults depend on combinations of arguments", "anchors": ["tensorforce/core/models/tensorforce.py: TensorforceModel.__init__"]}
{"id": "C166", "title": "Classes of policy and baseline", "statement": "If only a network is given, policy and baseline are of the simplest class which has all functions that objectives, predictions and the baseline need; other classes are checked for the types of actions, entropy regularization requires a stochastic policy.", "quantifier": "all combinations of objectives, actions, baseline and reward estimation", "why_tests_cant": "objectives may be combined without limit", "anchors": ["tensorforce/core/models/tensorforce.py: TensorforceModel.__init__", "tensorforce/core/objectives"]}
{"id": "C167", "title": "Capacity of the memory", "statement": "The memory has space for a batch with horizon and past timesteps and for a whole episode; without capacity it is the smallest such number, a smaller capacity is rejected; the buffers fit into the memory.", "quantifier": "all numbers and arguments", "why_tests_cant": "arithmetic over unbounded numbers and optional bounds", "anchors": ["tensorforce/core/models/tensorforce.py: TensorforceModel.__init__, core_initialize", "tensorforce/core/memories/queue.py: Queue.__init__"]}
{"id": "C168", "title": "Exploration specification", "statement": "Exploration is one parameter, or one for each action given by its name; probabilities for bool and int actions are between 0 and 1.", "quantifier": "all exploration specifications and actions", "why_tests_cant": "names of actions are arbitrary", "anchors": ["tensorforce/core/models/tensorforce.py: TensorforceModel.__init__"]}
{"id": "C169", "title": "Accepted arguments of the Tensorforce agent", "statement": "The constructor accepts exactly the arguments which meet all conditions on update, reward estimation, policies, memory and exploration, and afterwards initialization fails exactly if updates never happen or the length of the buffers is unknown.", "quantifier": "all arguments", "why_tests_cant": "conditions on combinations of all arguments", "anchors": ["tensorforce/core/models/tensorforce.py: TensorforceModel.__init__, core_initialize"]}
{"id": "C170", "title": "Lives in the Arcade Learning Environment", "statement": "After a reset each action is that of its number, an episode ends with the game or, if requested, with the loss of a life, and each lost life costs the punishment exactly once.", "quantifier": "all games, legal actions, numbers of lives, arguments and sequences of actions", "why_tests_cant": "games and their lives are unbounded sequences", "anchors": ["tensorforce/environments/arcade_learning_environment.py: ArcadeLearningEnvironment.reset, execute"]}
{"id": "C171", "title": "Actions and observations of ViZDoom", "statement": "The numbers of actions are exactly the combinations of buttons, factored and numbered actions have the same effect, visualization changes nothing, and the observation is that of the last state which was not finished.", "quantifier": "all games, numbers of buttons, frame skips and sequences of actions", "why_tests_cant": "combinations grow exponentially, games are arbitrary", "anchors": ["tensorforce/environments/vizdoom.py: ViZDoom.__init__, reset, execute"]}
{"id": "C172", "title": "PyGame Learning Environment and OpenSim", "statement": "Calls work until the game is over and then require a reset; exactly the levels of OpenSim are accepted and can be reset and executed.", "quantifier": "all games, sequences of actions and levels", "why_tests_cant": "games are arbitrary, levels are arbitrary strings", "anchors": ["tensorforce/environments/pygame_learning_environment.py: PyGameLearningEnvironment.states, execute", "tensorforce/environments/open_sim.py: OpenSim.__init__, reset, execute"]}
{"id": "C173", "title": "Control, rewards and training of CARLA", "statement": "Throttle and brake exclude each other and represent the action; each collision counts exactly once, in the next reward unless the environment is reset; in training the agent observes one terminal, at the end of each episode.", "quantifier": "all actions, sequences of collisions and calls, and episodes", "why_tests_cant": "sequences of collisions and calls are unbounded", "anchors": ["tensorforce/environments/carla_environment.py: CARLAEnvironment.__init__, reset, reward, execute, on_collision, actions_to_control, train"]}
{"id": "C174", "title": "Variables of modules", "statement": "A variable is made exactly for a string as name, positive sizes, and an initializer which fits the type, the shape and the scale; its name has no slash, and its initial values are those documented for the initializer.", "quantifier": "all names, types, shapes, initializers, scales and flags", "why_tests_cant": "shapes, names and numbers are unbounded", "anchors": ["tensorforce/core/module.py: Module.variable"]}
{"id": "C175", "title": "The script run.py", "statement": "Exactly the given arguments reach the agent, the environment and the runner; lists with commas are split and directories may have a filename; row e of the recorded returns has the return of episode e of each run.", "quantifier": "all arguments, strings, runs and numbers of episodes", "why_tests_cant": "strings and runs are unbounded", "anchors": ["run.py: main, callback"]}
{"id": "C176", "title": "The script tune.py", "statement": "Each configuration of the search space gives arguments which the agent accepts iff the horizon is at most the known limit of episodes, with the requested updates, horizon and baseline; the budget selects the runs of the round; better returns never increase the loss.", "quantifier": "all configurations in the search space, actions, limits, budgets, factors and returns", "why_tests_cant": "the space has real parameters, returns are arbitrary", "anchors": ["tune.py: TensorforceWorker.compute, get_configspace, main"]}
{"id": "C177", "title": "Starting and receiving calls of an environment", "statement": "start_reset or start_execute followed by receive_execute have the effect and result of the direct call; a second start, and receive_execute without a start, fail and change nothing.", "quantifier": "all environments, sequences of calls, results and exceptions", "why_tests_cant": "environments and sequences of calls are unbounded", "anchors": ["tensorforce/environments/environment.py: Environment.start_reset", "tensorforce/environments/environment.py: Environment.start_execute", "tensorforce/environments/environment.py: Environment.receive_execute"]}
{"id": "C178", "title": "Checks of the first outputs of an environment", "statement": "The first outputs are accepted exactly if the states fit their specifications, with further names only for masks, the terminal is a bool or 0, 1 or 2, and the reward is a number.", "quantifier": "all specifications, dictionaries, terminals and rewards", "why_tests_cant": "names, states and numbers are unbounded", "anchors": ["tensorforce/environments/environment.py: Environment.receive_execute", "tensorforce/environments/environment.py: Environment._check_states_output", "tensorforce/core/utils/tensors_spec.py: TensorsSpec.np_assert"]}
{"id": "C179", "title": "Runner with a vectorized environment", "statement": "With a vectorized environment every instance observes the terminals and rewards of its episode as if it were run alone, nothing after its end, and the state of a terminated instance is rejected.", "quantifier": "all instances, policies, numbers of passes and lengths of episodes", "why_tests_cant": "numbers of instances, passes and interleaved ends are unbounded", "anchors": ["tensorforce/execution/runner.py: Runner.run", "tensorforce/execution/runner.py: Runner.handle_act_joint", "tensorforce/execution/runner.py: Runner.handle_observe_joint"]}
{"id": "C180", "title": "Number of episodes with a vectorized environment", "statement": "Runner.run with a vectorized environment runs as many episodes as asked for, but at least one of every instance; with several actors the next multiple of their number.", "quantifier": "all numbers of instances and episodes", "why_tests_cant": "numbers of instances and episodes are unbounded", "anchors": ["tensorforce/execution/runner.py: Runner.run", "tensorforce/execution/runner.py: Runner.handle_terminal"]}
