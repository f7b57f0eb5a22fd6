(** Model of the experience memory:
    /repo/tensorforce/core/memories/queue.py, recent.py, replay.py.

    The values stored per timestep other than the terminal flag (states,
    internals, auxiliaries, actions, reward) are only ever copied by this code,
    so they are one payload of an arbitrary type [A] and the nested struct of
    buffers becomes one list of payloads (simplification).  [int64] tensors are
    [Z].  The tf.debugging assertions are modelled as present
    (create_tf_assertions on); an assertion failure ends the history, i.e. the
    partially updated state after a failed call is not modelled
    (simplification). *)

From Coq Require Import String List ZArith Lia Bool.
From Verif Require Import Base MemSpec.
Import ListNotations.
Open Scope Z_scope.

Section Queue.
Context {A : Type}.

(** The variables created by Queue.initialize, queue.py 61-98. *)
Record qstate := mkQ {
  q_cap : Z;               (* self.capacity *)
  q_pay : list A;          (* self.buffers[...] other than 'terminal' *)
  q_term : list Z;         (* self.buffers['terminal'] *)
  q_bidx : Z;              (* self.buffer_index *)
  q_tind : list Z;         (* self.terminal_indices *)
  q_ecount : Z             (* self.episode_count *)
}.

(** Queue.__init__, queue.py 39-59: effective capacity.  (A [None] minimum
    capacity with a given capacity makes Python 3 raise a TypeError on [<].) *)
Definition queue_capacity (capacity min_capacity : option Z) : res Z :=
  match capacity, min_capacity with
  | None, None => Err "required argument: capacity"
  | None, Some m => Ok m
  | Some _, None => Err "TypeError"
  | Some c, Some m => if c <? m then Err "capacity < minimum capacity" else Ok c
  end.

(** Queue.initialize, queue.py 61-98.  [zero] stands for the all-zero payload.
    With capacity 0, [initializer[-1] = 1] raises IndexError. *)
Definition queue_initialize (zero : A) (capacity : Z) : res qstate :=
  if capacity <? 1 then Err "IndexError"
  else
    let c := Z.to_nat capacity in
    Ok {| q_cap := capacity;
          q_pay := repeat zero c;
          q_term := repeat 0 (c - 1) ++ [1];
          q_bidx := 0;
          q_tind := (capacity - 1) :: repeat 0 c;
          q_ecount := 0 |}.

(** The two "general check" assertions, queue.py 139-156 and 207-224. *)
Definition consistency_checks (term tind : list Z) (ecount : Z) : res unit :=
  do vals <- gathers (map (fun t => 0 <? t) term) (slice tind 0 (ecount + 1));
  do _ <- assert_ (forallb (fun b => b) vals) "Memory consistency check.";
  assert_ (count_nonzero term =? ecount + 1) "Memory consistency check.".

(** Queue.reset, queue.py 100-159. *)
Definition queue_reset (s : qstate) : res qstate :=
  let last_index := (q_bidx s - 1) mod q_cap s in
  do last_terminal <- gather (q_term s) last_index;
  do corrected <-
    (if last_terminal =? 3 then
       (* correct_terminal, queue.py 108-130 *)
       do term' <- scatter (q_term s) [last_index] [2];
       do tind' <- scatter (q_tind s) [q_ecount s + 1] [last_index];
       Ok (term', tind', q_ecount s + 1)
     else Ok (q_term s, q_tind s, q_ecount s));
  let '(term', tind', ec') := corrected in
  do _ <- consistency_checks term' tind' ec';
  Ok {| q_cap := q_cap s; q_pay := q_pay s; q_term := term';
        q_bidx := q_bidx s; q_tind := tind'; q_ecount := ec' |}.

(** corrected_terminal, queue.py 266-270: the last flag of the batch, if zero,
    becomes the marker 3. *)
Definition correct_last (ts : list Z) : list Z :=
  match rev ts with
  | [] => []
  | t :: r => rev r ++ [if t =? 0 then 3 else t]
  end.

(** Queue.enqueue, queue.py 161-318. *)
Definition queue_enqueue (s : qstate) (batch : list (entry A)) : res qstate :=
  let cap := q_cap s in
  let terminal := map snd batch in
  let n := Z.of_nat (length batch) in
  let last_index := (q_bidx s - 1) mod cap in
  do last_terminal <- gather (q_term s) last_index;
  (* correct_terminal, queue.py 171-186 *)
  do term1 <- (if last_terminal =? 3 then scatter (q_term s) [last_index] [0]
               else Ok (q_term s));
  (* Assertions, queue.py 192-224 *)
  do _ <- assert_ (n <=? cap) "Memory does not have enough capacity.";
  do _ <- assert_ (count_nonzero terminal <=? 1) "Timesteps contain more than one terminal.";
  do _ <- assert_ (negb (n =? 0)) "slice index -1 of dimension 0 out of bounds";
  do _ <- assert_ (Bool.eqb (existsb (fun t => 0 <? t) terminal) (0 <? last terminal 0))
                  "Terminal is not the last timestep.";
  do _ <- consistency_checks term1 (q_tind s) (q_ecount s);
  (* Buffer indices to overwrite, queue.py 228-237 *)
  let overwritten := map (fun i => i mod cap) (zrange (q_bidx s) (q_bidx s + n)) in
  do olds <- gathers term1 overwritten;
  let num_episodes := count_nonzero olds in
  (* Shift remaining terminal indices, queue.py 240-253 *)
  let index := q_ecount s + 1 in
  do _ <- assert_ (num_episodes <=? index) "Memory episode overwriting check.";
  do tind1 <- scatter (q_tind s) (zrange 0 (index - num_episodes))
                      (slice (q_tind s) num_episodes index);
  (* Decrement episode count, queue.py 261-262 *)
  let ec1 := q_ecount s - num_episodes in
  (* Write new observations, queue.py 265-285 *)
  let indices := map (fun i => i mod cap) (zrange (q_bidx s) (q_bidx s + n)) in
  do term2 <- scatter term1 indices (correct_last terminal);
  do pay2 <- scatter (q_pay s) indices (map fst batch);
  (* Increment buffer index, queue.py 288-289 *)
  let bidx2 := q_bidx s + n in
  (* Write new terminal indices, queue.py 292-308 *)
  let num_new := count_nonzero terminal in
  let new_tind := boolean_mask overwritten (map (fun t => 0 <? t) terminal) in
  let start := ec1 + 1 in
  do tind2 <- scatter tind1 (zrange start (start + num_new)) new_tind;
  (* Increment episode count, queue.py 316-318 *)
  Ok {| q_cap := cap; q_pay := pay2; q_term := term2;
        q_bidx := bidx2; q_tind := tind2; q_ecount := ec1 + num_new |}.

(** Queue.retrieve, queue.py 320-324: gather of every buffer. *)
Definition queue_retrieve (s : qstate) (indices : list Z) : res (list (A * Z)) :=
  do ps <- gathers (q_pay s) indices;
  do ts <- gathers (q_term s) indices;
  Ok (combine ps ts).

(** Loop state of one row of [predecessors] / [successors]: the row's length
    counter, its index list and its mask list.  The TensorFlow loop works on a
    matrix with one row per requested index; its body acts on each row
    separately, so the model runs the loop row by row (simplification) (queue.py 327-424) *)
Record walk := mkWalk { w_len : Z; w_idx : list Z; w_mask : list bool }.

(** queue.py 350-352, 418-420 *)
Definition walk_init (cap i : Z) : walk :=
  {| w_len := 1; w_idx := [i mod cap]; w_mask := [true] |}.

(** body of Queue.predecessors, queue.py 335-348. *)
Definition pred_body (cap : Z) (term : list Z) (w : walk) : res walk :=
  let previous_index := (hd 0 (w_idx w) - 1) mod cap in
  do previous_terminal <- gather term previous_index;
  let is_not_terminal := negb (0 <? previous_terminal) && hd false (w_mask w) in
  Ok {| w_len := w_len w + (if is_not_terminal then 1 else 0);
        w_idx := previous_index :: w_idx w;
        w_mask := is_not_terminal :: w_mask w |}.

(** body of Queue.successors, queue.py 402-416. *)
Definition succ_body (cap : Z) (term : list Z) (w : walk) : res walk :=
  let current_index := last (w_idx w) 0 in
  do current_terminal <- gather term current_index;
  let is_not_terminal := negb (0 <? current_terminal) && last (w_mask w) false in
  let next_index := (current_index + 1) mod cap in
  Ok {| w_len := w_len w + (if is_not_terminal then 1 else 0);
        w_idx := w_idx w ++ [next_index];
        w_mask := w_mask w ++ [is_not_terminal] |}.

(** Queue.predecessors, queue.py 326-391: [starts; lengths], the sequence
    values (here: all values) of the flattened runs, and the initial values.
    The "Predecessor check" assertion (mod >= 0) is always true and omitted.
    A negative [maximum_iterations] makes zero iterations. *)
Definition queue_predecessors (s : qstate) (indices : list Z) (horizon : Z)
  : res (list Z * list Z * list (A * Z) * list (A * Z)) :=
  do rows <- map_res (fun i => iterate_res (Z.to_nat horizon)
                        (pred_body (q_cap s) (q_term s)) (walk_init (q_cap s) i)) indices;
  let lengths := map w_len rows in
  let flat_idx := concat (map w_idx rows) in
  let flat_mask := concat (map w_mask rows) in
  let pidx := boolean_mask flat_idx flat_mask in
  do seqv <- queue_retrieve s pidx;
  let starts := cumsum_excl lengths in
  do initial_indices <- gathers pidx starts;
  do initv <- queue_retrieve s initial_indices;
  Ok (starts, lengths, seqv, initv).

(** Queue.successors, queue.py 393-460. *)
Definition queue_successors (s : qstate) (indices : list Z) (horizon : Z)
  : res (list Z * list Z * list (A * Z) * list (A * Z)) :=
  do rows <- map_res (fun i => iterate_res (Z.to_nat horizon)
                        (succ_body (q_cap s) (q_term s)) (walk_init (q_cap s) i)) indices;
  let lengths := map w_len rows in
  let flat_idx := concat (map w_idx rows) in
  let flat_mask := concat (map w_mask rows) in
  let sidx := boolean_mask flat_idx flat_mask in
  do seqv <- queue_retrieve s sidx;
  let starts := cumsum_excl lengths in
  let ends := map (fun e => e - 1) (cumsum lengths) in
  do final_indices <- gathers sidx ends;
  do finv <- queue_retrieve s final_indices;
  Ok (starts, lengths, seqv, finv).

(** Number of eligible timesteps, recent.py 41-49 and replay.py 41-49. *)
Definition num_eligible (s : qstate) (past future : Z) : Z :=
  Z.max (Z.min (q_bidx s) (q_cap s) - (past + future)) (q_ecount s).

(** Recent.retrieve_timesteps, recent.py 36-57. *)
Definition recent_timesteps (s : qstate) (n past future : Z) : res (list Z) :=
  let num := num_eligible s past future in
  do _ <- assert_ (1 <=? num) "num_timesteps >= 1";
  let n' := Z.min n num in
  Ok (map (fun i => (i - future) mod q_cap s) (zrange (q_bidx s - n') (q_bidx s))).

(** Replay.retrieve_timesteps, replay.py 36-61.  [draws] is the outcome of
    tf.random.uniform(shape=(n,), maxval=num_timesteps): any list of n values
    in [0, num_timesteps) (stated as hypothesis in the theorems). *)
Definition replay_timesteps (s : qstate) (n past future : Z) (draws : list Z) : res (list Z) :=
  let num := num_eligible s past future in
  do _ <- assert_ (1 <=? num) "num_timesteps >= 1";
  Ok (map (fun d => (q_bidx s - 1 - d - future) mod q_cap s) draws).

(** The limit correction, recent.py 78-79 and replay.py 85-86. *)
Definition correct_limit (cap start limit : Z) : Z :=
  limit + (if limit <? start then cap else 0).

(** Recent.retrieve_episodes, recent.py 59-85. *)
Definition recent_episodes (s : qstate) (n : Z) : res (list Z) :=
  do _ <- assert_ (1 <=? q_ecount s) "episode_count >= 1";
  let n' := Z.min n (q_ecount s) in
  do t0 <- gather (q_tind s) (q_ecount s - n');
  do t1 <- gather (q_tind s) (q_ecount s);
  let start := t0 + 1 in
  let limit := correct_limit (q_cap s) start (t1 + 1) in
  Ok (map (fun i => i mod q_cap s) (zrange start limit)).

(** Replay.retrieve_episodes, replay.py 63-92.  [draws] is the outcome of
    tf.random.uniform(shape=(n,), maxval=episode_count). *)
Definition replay_episodes (s : qstate) (n : Z) (draws : list Z) : res (list Z) :=
  do _ <- assert_ (1 <=? q_ecount s) "episode_count >= 1";
  do t0s <- gathers (q_tind s) draws;
  do t1s <- gathers (q_tind s) (map (fun d => d + 1) draws);
  let starts := map (fun t => t + 1) t0s in
  let limits := map (fun sl => correct_limit (q_cap s) (fst sl) (snd sl))
                    (combine starts (map (fun t => t + 1) t1s)) in
  let ranges := map (fun sl => zrange (fst sl) (snd sl)) (combine starts limits) in
  Ok (map (fun i => i mod q_cap s) (concat ranges)).

End Queue.

Arguments qstate : clear implicits.

(** A history of calls on a memory (the call type is the caller's vocabulary,
    MemSpec.v): enqueue is queue.py 161-318, reset queue.py 100-159. *)
Definition qstep {A} (s : qstate A) (c : call A) : res (qstate A) :=
  match c with
  | Store b => queue_enqueue s b
  | Reset => queue_reset s
  end.

(** A memory of the given capacity after the given history (queue.py 61-99, 162-319) *)
Definition qrun {A} (zero : A) (cap : Z) (cs : list (call A)) : res (qstate A) :=
  do s <- queue_initialize zero cap;
  run_ops qstep s cs.
