(** The agent: act / observe / experience / update / reset, from the public
    methods down to the buffers and the experience memory.

    /repo/tensorforce/agents/recorder.py, agent.py, tensorforce.py
    /repo/tensorforce/core/models/model.py, tensorforce.py

    Simplifications, for the whole file:
    - A state, the internals, the auxiliaries and an action are values of
      arbitrary types [St], [In], [Au], [Ac]; the nested structs of buffers become
      one buffer of records [X].  Inputs are already in their batched array form
      (recorder.py 154-243, 329-393 and the to_tensor conversions are not modelled
      here).
    - Policy, exploration, variable noise and state preprocessing of one act are one
      function [pol], applied to each row of the batch; an argument of type [W]
      stands for the current variables and the random draws, so it may be different
      for every act.
    - Values of parameters (horizon, discount, update frequency, ...) and the
      baseline's predictions may be different in every call: they come with the
      call, as an [oracle].
    - Reward processing, summaries, tracking and saving are left out; core_update is
      reduced to its memory access and the update counter.
    - tf.debugging assertions are present; a failed call ends the history. *)

From Coq Require Import String List ZArith Lia Bool.
From Verif Require Import Base Field MemSpec MemModel RetModel AgentSpec.
Import ListNotations.
Open Scope Z_scope.

Section Agent.
Variable K : field.
Variables St In Au Ac W : Type.
Variable pol : W -> St -> In -> Au -> Ac * In.
Variable init_int : In.   (* self.initial_internals *)

(** What is buffered per timestep: core/models/tensorforce.py 650-662. *)
Notation X := (X St In Au Ac).
Notation tstep := (X * K * Z)%type.
Variable zero_x : X.      (* initial content of the buffers *)

(** Agent arguments this part of the code depends on.
    agents/agent.py, agents/tensorforce.py 386-430, core/models/tensorforce.py 161-193. *)
Record config := {
  cf_par : Z;                (* parallel_interactions *)
  cf_maxep : option Z;       (* max_episode_timesteps *)
  cf_bo : option Z;          (* config[buffer_observe]; None is "episode" *)
  cf_ephor : bool;           (* reward_estimation[horizon] == "episode" *)
  cf_hmax : Z;               (* reward_horizon.max_value(), if not "episode" *)
  cf_memcap : Z;             (* memory capacity *)
  cf_unit_ts : bool;         (* update[unit] == "timesteps" (otherwise "episodes") *)
  cf_freq : option Z         (* update_frequency.max_value(); None is "never" *)
}.
Variable cf : config.

(** Values that may differ from call to call
    (read in core/models/tensorforce.py 1600-1601, 1655-1798, 1843-2099, 2102-2140) *)
Record oracle := {
  o_rc : rconf K;            (* horizon, discount, ... values *)
  o_bval : X -> K;           (* baseline prediction *)
  o_freq : Z;                (* update_frequency.value() *)
  o_start : Z;               (* update_start.value() *)
  o_past : Z;                (* off-policy past horizon *)
  o_future : Z               (* future_horizon of core_update *)
}.

(** core/models/tensorforce.py 633-639, 668-678 *)
Definition circular : bool :=
  negb (cf_ephor cf) && (cf_par cf =? 1) && match cf_bo cf with None => false | Some _ => true end.
(** core/models/tensorforce.py 633-639, 668-678: capacity of the buffers *)
Definition buffer_capacity : option Z :=
  match cf_bo cf with
  | None => cf_maxep cf
  | Some bo =>
      if cf_ephor cf || (1 <? cf_par cf) then cf_maxep cf
      else match cf_maxep cf with
           | None => Some (bo + cf_hmax cf)
           | Some m => Some (Z.min (bo + cf_hmax cf) m)
           end
  end.

(** Variables of the model: core/models/model.py 337-379,
    core/models/tensorforce.py 620-685 and the memory. *)
Record mstate := mkM {
  m_timesteps : Z; m_episodes : Z; m_updates : Z;
  m_len : list Z;                (* episode_length *)
  m_ret : list K;                (* episode_return *)
  m_int : list In;               (* previous_internals *)
  m_index : list Z;              (* buffer_index *)
  m_start : list Z;              (* buffer_start *)
  m_buf : list (list X);         (* states/internals/auxiliaries/actions_buffer *)
  m_tbuf : list (list Z);        (* terminal_buffer *)
  m_rbuf : list (list K);        (* reward_buffer *)
  m_last : Z;                    (* last_update *)
  m_mem : qstate (X * K)
}.

(** core/models/model.py 337-379, core/models/tensorforce.py 620-685 (update
    frequency "never" makes update_frequency None, and line 683 fails). *)
Definition model_initialize : res mstate :=
  match buffer_capacity, cf_freq cf with
  | None, _ => Err "required argument: max_episode_timesteps"
  | _, None => Err "AttributeError: 'NoneType' object has no attribute 'max_value'"
  | Some capacity, Some freq =>
      let n := Z.to_nat (cf_par cf) in
      do mem <- queue_initialize (zero_x, 0%F) (cf_memcap cf);
      Ok {| m_timesteps := 0; m_episodes := 0; m_updates := 0;
            m_len := repeat 0 n; m_ret := repeat 0%F n; m_int := repeat init_int n;
            m_index := repeat 0 n; m_start := repeat 0 n;
            m_buf := repeat (repeat zero_x (Z.to_nat capacity)) n;
            m_tbuf := repeat (repeat 0 (Z.to_nat capacity)) n;
            m_rbuf := repeat (repeat 0%F (Z.to_nat capacity)) n;
            m_last := - freq; m_mem := mem |}
  end.

(** tensor_scatter_nd_update with indices (p, i), as in core/models/tensorforce.py 1293-1310. *)
Fixpoint scatter2 {A} (t : list (list A)) (pis : list (Z * Z)) (us : list A) : res (list (list A)) :=
  match pis, us with
  | [], [] => Ok t
  | (p, i) :: pis', u :: us' =>
      do row <- gather t p;
      do row' <- scatter row [i] [u];
      do t' <- scatter t [p] [row'];
      scatter2 t' pis' us'
  | _, _ => Err "scatter: shape mismatch"
  end.

(** tensor_scatter_nd_add on a vector, the same update for every index (core/models/model.py 694, 701) *)
Fixpoint scatter_add {A} (add : A -> A) (l : list A) (is : list Z) : res (list A) :=
  match is with
  | [] => Ok l
  | i :: is' => do a <- gather l i; do l' <- scatter l [i] [add a]; scatter_add add l' is'
  end.

(** core/models/tensorforce.py 1043-1333, core_act; one item per row of the batch. *)
Definition core_act (independent : bool) (m : mstate) (items : list (St * In * Au * W))
    (parallel : list Z) : res (mstate * list (Ac * In)) :=
  let outs := map (fun it => let '(s, i, au, w) := it in pol w s i au) items in
  if independent then Ok (m, outs)
  else
    match buffer_capacity with
    | None => Err "no buffer"
    | Some capacity =>
        (* 1287-1310 *)
        do index <- gathers (m_index m) parallel;
        let index := if circular then map (fun i => i mod capacity) index else index in
        do xs <- vec2 (fun it out => let '(s, i, au, _) := it in mkX s i au (fst out)) items outs;
        do buf <- scatter2 (m_buf m) (combine parallel index) xs;
        (* 1312-1320 *)
        do index' <- scatter_add (fun i => i + 1) (m_index m) parallel;
        Ok ({| m_timesteps := m_timesteps m; m_episodes := m_episodes m; m_updates := m_updates m;
               m_len := m_len m; m_ret := m_ret m; m_int := m_int m;
               m_index := index'; m_start := m_start m; m_buf := buf;
               m_tbuf := m_tbuf m; m_rbuf := m_rbuf m; m_last := m_last m;
               m_mem := m_mem m |}, outs)
    end.

(** core/models/model.py 570-646, act.  Returns the buffered records, which
    contain the actions. *)
Definition model_act (m : mstate) (items : list (Z * St * Au * W)) : res (mstate * list (Z * X)) :=
  let parallel := map (fun it => fst (fst (fst it))) items in
  (* 601-603 *)
  do ints <- gathers (m_int m) parallel;
  do its <- vec2 (fun it i => let '(_, s, au, w) := it in (s, i, au, w)) items ints;
  do mo <- core_act false m its parallel;
  let '(m1, outs) := mo in
  (* 627-634 *)
  do int' <- scatter (m_int m1) parallel (map snd outs);
  do pxs <- vec2 (fun p io => let '(s, i, au, _, out) := io in (p, mkX s i au (fst out)))
                 parallel (combine its outs);
  (* 637-638 *)
  Ok ({| m_timesteps := m_timesteps m1 + Z.of_nat (length items);
         m_episodes := m_episodes m1; m_updates := m_updates m1;
         m_len := m_len m1; m_ret := m_ret m1; m_int := int';
         m_index := m_index m1; m_start := m_start m1; m_buf := m_buf m1;
         m_tbuf := m_tbuf m1; m_rbuf := m_rbuf m1; m_last := m_last m1;
         m_mem := m_mem m1 |}, pxs).

(** core/models/model.py 514-568, independent_act *)
Definition model_independent_act (m : mstate) (items : list (St * In * Au * W))
    : res (mstate * list (Ac * In)) :=
  core_act true m items (repeat 0 (length items)).

(** assignment to the variables of the memory (core/models/tensorforce.py 1801-1841) *)
Definition set_mem (m : mstate) (mem : qstate (X * K)) : mstate :=
  {| m_timesteps := m_timesteps m; m_episodes := m_episodes m; m_updates := m_updates m;
     m_len := m_len m; m_ret := m_ret m; m_int := m_int m; m_index := m_index m;
     m_start := m_start m; m_buf := m_buf m; m_tbuf := m_tbuf m; m_rbuf := m_rbuf m;
     m_last := m_last m; m_mem := mem |}.

(** self.memory.enqueue(states, internals, ..., terminal, reward),
    core/models/tensorforce.py 1780-1783 and 1838-1841 *)
Definition mem_enqueue (m : mstate) (xs : list X) (reward : list K) (terminal : list Z) : res mstate :=
  do xr <- vec2 pair xs reward;
  do batch <- vec2 pair xr terminal;
  do mem <- queue_enqueue (m_mem m) batch;
  Ok (set_mem m mem).

(** core/models/tensorforce.py 1800-1841, core_experience *)
Definition core_experience (o : oracle) (m : mstate) (xs : list X) (terminal : list Z)
    (reward : list K) : res mstate :=
  do ret <- episode_returns K X (o_bval o) (o_rc o) xs reward terminal;
  mem_enqueue m xs ret terminal.

(** assignments to buffer_index, buffer_start, terminal_buffer and reward_buffer (core/models/tensorforce.py 1362-1485) *)
Definition set_buffers (m : mstate) (index start : list Z) (tbuf : list (list Z))
    (rbuf : list (list K)) : mstate :=
  {| m_timesteps := m_timesteps m; m_episodes := m_episodes m; m_updates := m_updates m;
     m_len := m_len m; m_ret := m_ret m; m_int := m_int m; m_index := index;
     m_start := start; m_buf := m_buf m; m_tbuf := tbuf; m_rbuf := rbuf;
     m_last := m_last m; m_mem := m_mem m |}.

(** core/models/tensorforce.py 1655-1798, _nonterminal_experience *)
Definition nonterminal_experience (o : oracle) (capacity : Z) (m : mstate) (parallel : Z)
    (start index h num_complete : Z) : res mstate :=
  do xrow <- gather (m_buf m) parallel;
  do trow <- gather (m_tbuf m) parallel;
  do rrow <- gather (m_rbuf m) parallel;
  (* the buffered timesteps, oldest first, of which the returns use what they need *)
  let all := map (fun i => i mod capacity) (zrange start index) in
  do xs <- gathers xrow all;
  (* 1746-1749 gathers the rewards up to index - 1 only; the last is not used *)
  do rs <- gathers rrow all;
  do ret <- nonterminal_returns K X (o_bval o) (o_rc o) h num_complete xs rs;
  (* 1771-1783 *)
  let done_ := map (fun i => i mod capacity) (zrange start (start + num_complete)) in
  do xs' <- gathers xrow done_;
  do ts' <- gathers trow done_;
  do m1 <- mem_enqueue m xs' ret ts';
  (* 1786-1793 *)
  do start' <- scatter (m_start m1) [parallel] [start + num_complete];
  Ok (set_buffers m1 (m_index m1) start' (m_tbuf m1) (m_rbuf m1)).

(** Write terminal and reward of the last [n] acts, core/models/tensorforce.py
    1387-1400 and 1427-1441. *)
Definition write_observed (m : mstate) (parallel : Z) (indices : list Z)
    (terminal : list Z) (reward : list K) : res mstate :=
  let pis := map (fun i => (parallel, i)) indices in
  do tbuf <- scatter2 (m_tbuf m) pis terminal;
  do rbuf <- scatter2 (m_rbuf m) pis reward;
  Ok (set_buffers m (m_index m) (m_start m) tbuf rbuf).

(** core/models/tensorforce.py 1362-1485: fn_nonterminal and fn_terminal of the
    three buffering modes. *)
Definition observe_nonterminal (o : oracle) (m : mstate) (parallel : Z) (terminal : list Z)
    (reward : list K) : res mstate :=
  do index <- gather (m_index m) parallel;
  let n := Z.of_nat (length terminal) in
  match cf_bo cf, rc_horizon K (o_rc o), buffer_capacity with
  | None, _, _ => do _ <- assert_ (n =? 0) "fn_nonterminal: should not be called"; Ok m
  | Some _, h, Some capacity =>
      if cf_ephor cf || (1 <? cf_par cf) then
        write_observed m parallel (zrange (index - n) index) terminal reward
      else
        match h with
        | None => Err "horizon is episode"
        | Some h =>
            do start <- gather (m_start m) parallel;
            do m1 <- write_observed m parallel
                       (map (fun i => i mod capacity) (zrange (index - n) index)) terminal reward;
            let num_complete := index - start - h in
            if 0 <? num_complete
            then nonterminal_experience o capacity m1 parallel start index h num_complete
            else Ok m1
        end
  | _, _, None => Err "no buffer"
  end.

(** core/models/tensorforce.py 1370-1385, 1402-1424, 1453-1485, fn_terminal *)
Definition observe_terminal (o : oracle) (m : mstate) (parallel : Z) (terminal : list Z)
    (reward : list K) : res mstate :=
  do index <- gather (m_index m) parallel;
  let n := Z.of_nat (length terminal) in
  do xrow <- gather (m_buf m) parallel;
  do m1 <-
    match cf_bo cf, buffer_capacity with
    | None, _ => core_experience o m (slice xrow 0 index) terminal reward
    | Some _, Some capacity =>
        do trow <- gather (m_tbuf m) parallel;
        do rrow <- gather (m_rbuf m) parallel;
        if cf_ephor cf || (1 <? cf_par cf) then
          core_experience o m (slice xrow 0 index)
            (slice trow 0 (index - n) ++ terminal) (slice rrow 0 (index - n) ++ reward)
        else
          do start <- gather (m_start m) parallel;
          do xs <- gathers xrow (map (fun i => i mod capacity) (zrange start index));
          let before := map (fun i => i mod capacity) (zrange start (index - n)) in
          do ts <- gathers trow before;
          do rs <- gathers rrow before;
          do m1 <- core_experience o m xs (ts ++ terminal) (rs ++ reward);
          do start' <- scatter (m_start m1) [parallel] [0];
          Ok (set_buffers m1 (m_index m1) start' (m_tbuf m1) (m_rbuf m1))
    | Some _, None => Err "no buffer"
    end;
  (* 1487-1500 *)
  do index' <- scatter (m_index m1) [parallel] [0];
  Ok (set_buffers m1 index' (m_start m1) (m_tbuf m1) (m_rbuf m1)).

(** core/models/tensorforce.py 2101-2667, core_update: retrieval of the batch
    (memories/recent.py, replay.py 41-49, 65-67, see MemModel) and the counter. *)
Definition core_update (o : oracle) (m : mstate) : res mstate :=
  do _ <- (if cf_unit_ts cf
           then assert_ (1 <=? num_eligible (m_mem m) (o_past o) (o_future o)) "num_timesteps >= 1"
           else assert_ (1 <=? q_ecount (m_mem m)) "episode_count >= 1");
  Ok {| m_timesteps := m_timesteps m; m_episodes := m_episodes m; m_updates := m_updates m + 1;
        m_len := m_len m; m_ret := m_ret m; m_int := m_int m; m_index := m_index m;
        m_start := m_start m; m_buf := m_buf m; m_tbuf := m_tbuf m; m_rbuf := m_rbuf m;
        m_last := m_last m; m_mem := m_mem m |}.

(** assignment to last_update (core/models/tensorforce.py 1642-1645) *)
Definition set_last (m : mstate) (u : Z) : mstate :=
  {| m_timesteps := m_timesteps m; m_episodes := m_episodes m; m_updates := m_updates m;
     m_len := m_len m; m_ret := m_ret m; m_int := m_int m; m_index := m_index m;
     m_start := m_start m; m_buf := m_buf m; m_tbuf := m_tbuf m; m_rbuf := m_rbuf m;
     m_last := u; m_mem := m_mem m |}.

(** core/models/tensorforce.py 1602-1638: the units since the start of updates. *)
Definition update_units (o : oracle) (m : mstate) (is_terminal : bool) : Z :=
  let start := o_start o in
  if cf_unit_ts cf then
    let unit := m_timesteps m in
    let start := Z.max start (o_freq o + o_past o) in
    let start :=
      match cf_ephor cf, rc_horizon K (o_rc o) with
      | false, Some h => if 0 <? m_episodes m then 0 else start + 2 * h
      | _, _ => Z.max start (if 0 <? m_episodes m then start else unit + 1)
      end in
    let start :=
      match cf_bo cf with
      | None => Z.max start (if 0 <? m_episodes m then start else unit + 1)
      | Some bo => Z.max start bo
      end in
    unit - start
  else
    let start := Z.max start (o_freq o) in
    m_episodes m + (if is_terminal then 1 else 0) - start.

(** core/models/tensorforce.py 1594-1653: periodic update. *)
Definition periodic_update (o : oracle) (m : mstate) (is_terminal : bool) : res (mstate * bool) :=
  match cf_freq cf with
  | None => Ok (m, false)
  | Some _ =>
      let unit := update_units o m is_terminal in
      if m_last m + o_freq o <=? unit
      then do m' <- core_update o (set_last m unit); Ok (m', true)
      else Ok (m, false)
  end.

(** core/models/tensorforce.py 1335-1653, core_observe *)
Definition core_observe (o : oracle) (m : mstate) (terminal : list Z) (reward : list K)
    (parallel : Z) : res (mstate * bool) :=
  let is_terminal := 0 <? last (0 :: terminal) 0 in
  do m1 <- (if is_terminal then observe_terminal o m parallel terminal reward
            else observe_nonterminal o m parallel terminal reward);
  periodic_update o m1 is_terminal.

(** core/models/model.py 648-776, observe *)
Definition model_observe (o : oracle) (m : mstate) (terminal : list Z) (reward : list K)
    (parallel : Z) : res (mstate * bool) :=
  (* 653-683 *)
  do tl <- last_ terminal;
  let is_terminal := 0 <? tl in
  do _ <- assert_ (forallb (fun t => (0 <=? t) && (t <? 3)) terminal) "Agent.observe: invalid terminal input.";
  do _ <- assert_ (Z.of_nat (length reward) =? Z.of_nat (length terminal)) "Agent.observe: invalid reward input.";
  do _ <- assert_ ((0 <=? parallel) && (parallel <? cf_par cf)) "Agent.observe: invalid parallel input.";
  do _ <- assert_ (count_nonzero terminal <=? 1) "Agent.observe: input contains more than one terminal.";
  do _ <- assert_ (Bool.eqb (0 <? count_nonzero terminal) is_terminal)
            "Agent.observe: terminal is not the last input timestep.";
  (* 696-712 *)
  do len' <- scatter_add (fun n => n + Z.of_nat (length terminal)) (m_len m) [parallel];
  do ret' <- scatter_add (fun r => fadd r (fsum reward)) (m_ret m) [parallel];
  let m1 := {| m_timesteps := m_timesteps m; m_episodes := m_episodes m; m_updates := m_updates m;
               m_len := len'; m_ret := ret'; m_int := m_int m; m_index := m_index m;
               m_start := m_start m; m_buf := m_buf m; m_tbuf := m_tbuf m; m_rbuf := m_rbuf m;
               m_last := m_last m; m_mem := m_mem m |} in
  do mu <- core_observe o m1 terminal reward parallel;
  let '(m2, updated) := mu in
  if is_terminal then
    (* 721-771 *)
    do int' <- scatter (m_int m2) [parallel] [init_int];
    do len' <- scatter (m_len m2) [parallel] [0];
    do ret' <- scatter (m_ret m2) [parallel] [0%F];
    Ok ({| m_timesteps := m_timesteps m2; m_episodes := m_episodes m2 + 1; m_updates := m_updates m2;
           m_len := len'; m_ret := ret'; m_int := int'; m_index := m_index m2;
           m_start := m_start m2; m_buf := m_buf m2; m_tbuf := m_tbuf m2; m_rbuf := m_rbuf m2;
           m_last := m_last m2; m_mem := m_mem m2 |}, updated)
  else Ok (m2, updated).

(** core/models/tensorforce.py 929-941, reset (and model.py 507-512) *)
Definition model_reset (m : mstate) : res mstate :=
  do mem <- queue_reset (m_mem m);
  Ok (set_mem (set_buffers m (map (fun _ => 0) (m_index m)) (map (fun _ => 0) (m_start m))
                           (m_tbuf m) (m_rbuf m)) mem).

(** core/models/tensorforce.py 943-1033, experience *)
Definition model_experience (o : oracle) (m : mstate) (xs : list X) (terminal : list Z)
    (reward : list K) : res mstate :=
  let n := Z.of_nat (length terminal) in
  do _ <- assert_ ((Z.of_nat (length xs) =? n) && (Z.of_nat (length reward) =? n)) "Agent.experience: invalid input.";
  do _ <- assert_ (forallb (fun t => (0 <=? t) && (t <? 3)) terminal) "Agent.experience: invalid terminal input.";
  do _ <- assert_ (fold_right Z.add 0 (m_index m) =? 0) "Agent.experience: cannot be called mid-episode.";
  do _ <- assert_ (count_nonzero terminal =? 1) "Agent.experience: input contains none or more than one terminal.";
  do tl <- last_ terminal;
  do _ <- assert_ (1 <=? tl) "Agent.experience: terminal is not the last input timestep.";
  do m1 <- core_experience o m xs terminal reward;
  Ok {| m_timesteps := m_timesteps m1 + n; m_episodes := m_episodes m1 + 1; m_updates := m_updates m1;
        m_len := m_len m1; m_ret := m_ret m1; m_int := m_int m1; m_index := m_index m1;
        m_start := m_start m1; m_buf := m_buf m1; m_tbuf := m_tbuf m1; m_rbuf := m_rbuf m1;
        m_last := m_last m1; m_mem := m_mem m1 |}.

(** ** The agent object *)

(** Attributes of the agent: recorder.py 104-110, agent.py 290-292, 319-322. *)
Record astate := mkA {
  a_completed : list bool;       (* timestep_completed *)
  a_counter : list Z;            (* timestep_counter *)
  a_tbuf : list (list Z);        (* terminal_buffer *)
  a_rbuf : list (list K);        (* reward_buffer *)
  a_timesteps : Z; a_episodes : Z; a_updates : Z;
  a_m : mstate
}.

(** recorder.py 96-110, agent.py 271-322 *)
Definition agent_initialize : res astate :=
  let n := Z.to_nat (cf_par cf) in
  do m0 <- model_initialize;
  do m1 <- model_reset m0;
  Ok {| a_completed := repeat true n; a_counter := repeat 0 n;
        a_tbuf := repeat [] n; a_rbuf := repeat [] n;
        a_timesteps := m_timesteps m1; a_episodes := m_episodes m1; a_updates := m_updates m1;
        a_m := m1 |}.

(** recorder.py 137-141, agent.py 332-349 *)
Definition agent_reset (a : astate) : res astate :=
  do m1 <- model_reset (a_m a);
  Ok {| a_completed := map (fun _ => true) (a_completed a); a_counter := map (fun _ => 0) (a_counter a);
        a_tbuf := map (fun _ => []) (a_tbuf a); a_rbuf := map (fun _ => []) (a_rbuf a);
        a_timesteps := m_timesteps m1; a_episodes := m_episodes m1; a_updates := m_updates m1;
        a_m := m1 |}.

(** recorder.py 244-251 and agent.py 420-500, act with independent=False *)
Definition agent_act (a : astate) (items : list (Z * St * Au * W)) : res (astate * list (Z * X)) :=
  let parallel := map (fun it => fst (fst (fst it))) items in
  do completed <- gathers (a_completed a) parallel;
  do _ <- assert_ (forallb (fun b => b) completed) "Calling agent.act must be preceded by agent.observe";
  do completed' <- scatter (a_completed a) parallel (map (fun _ => false) parallel);
  do mx <- model_act (a_m a) items;
  let '(m1, xs) := mx in
  Ok ({| a_completed := completed'; a_counter := a_counter a; a_tbuf := a_tbuf a; a_rbuf := a_rbuf a;
         a_timesteps := m_timesteps m1; a_episodes := a_episodes a; a_updates := a_updates a;
         a_m := m1 |}, xs).

(** agent.py 420-500, act with independent=True *)
Definition agent_independent_act (a : astate) (items : list (St * In * Au * W))
    : res (astate * list (Ac * In)) :=
  do mo <- model_independent_act (a_m a) items;
  let '(m1, outs) := mo in
  Ok ({| a_completed := a_completed a; a_counter := a_counter a; a_tbuf := a_tbuf a; a_rbuf := a_rbuf a;
         a_timesteps := a_timesteps a; a_episodes := a_episodes a; a_updates := a_updates a;
         a_m := m1 |}, outs).

(** agent.py 527-563: one iteration of the loop over the parallel interactions. *)
Definition agent_observe_one (an : astate * Z) (item : Z * Z * K * oracle) : res (astate * Z) :=
  let '(a, num_updates) := an in
  let '(p, t, r, o) := item in
  do tb <- gather (a_tbuf a) p;
  do rb <- gather (a_rbuf a) p;
  let tb := tb ++ [t] in
  let rb := rb ++ [r] in
  if (t =? 0) && (match cf_bo cf with
                  | None => true
                  | Some bo => Z.of_nat (length tb) <? bo
                  end)
  then
    do tbuf <- scatter (a_tbuf a) [p] [tb];
    do rbuf <- scatter (a_rbuf a) [p] [rb];
    Ok ({| a_completed := a_completed a; a_counter := a_counter a; a_tbuf := tbuf; a_rbuf := rbuf;
           a_timesteps := a_timesteps a; a_episodes := a_episodes a; a_updates := a_updates a;
           a_m := a_m a |}, num_updates)
  else
    do tbuf <- scatter (a_tbuf a) [p] [[]];
    do rbuf <- scatter (a_rbuf a) [p] [[]];
    do mu <- model_observe o (a_m a) tb rb p;
    let '(m1, updated) := mu in
    Ok ({| a_completed := a_completed a; a_counter := a_counter a; a_tbuf := tbuf; a_rbuf := rbuf;
           a_timesteps := a_timesteps a; a_episodes := m_episodes m1; a_updates := m_updates m1;
           a_m := m1 |}, num_updates + (if updated then 1 else 0)).

(** Run a loop body over a list (the loops of agent.py 527-563 and recorder.py 421-485) *)
Fixpoint fold_res {S I} (f : S -> I -> res S) (s : S) (l : list I) : res S :=
  match l with [] => Ok s | x :: r => do s' <- f s x; fold_res f s' r end.

(** recorder.py 372-410 and agent.py 502-568, observe; returns the number of updates.
    counter[parallel] += 1 increments once per index, also if it occurs twice. *)
Definition agent_observe (a : astate) (items : list (Z * Z * K * oracle)) : res (astate * Z) :=
  let parallel := map (fun it => fst (fst (fst it))) items in
  let terminal := map (fun it => snd (fst (fst it))) items in
  do _ <- assert_ (negb (Z.of_nat (length items) =? 0)) "Agent.observe: len(parallel) = 0";
  do completed <- gathers (a_completed a) parallel;
  do _ <- assert_ (negb (existsb (fun b => b) completed)) "Calling agent.observe must be preceded by agent.act.";
  do completed' <- scatter (a_completed a) parallel (map (fun _ => true) parallel);
  do counter <- gathers (a_counter a) parallel;
  let counter := map (fun n => n + 1) counter in
  do _ <- assert_ (match cf_maxep cf with
                   | None => true
                   | Some m => forallb (fun tn => negb ((fst tn =? 0) && (m <? snd tn))) (combine terminal counter)
                   end) "Episode longer than max_episode_timesteps.";
  do counter' <- scatter (a_counter a) parallel
                   (map (fun tn => if 0 <? fst tn then 0 else snd tn) (combine terminal counter));
  fold_res agent_observe_one
    ({| a_completed := completed'; a_counter := counter'; a_tbuf := a_tbuf a; a_rbuf := a_rbuf a;
        a_timesteps := a_timesteps a; a_episodes := a_episodes a; a_updates := a_updates a;
        a_m := a_m a |}, 0) items.

(** agents/tensorforce.py 613-656: the loop over the given timesteps.  [seg] are the
    timesteps since the last terminal, [k] counts the episodes. *)
Fixpoint experience_loop (os : nat -> oracle) (a : astate) (seg : list (X * K * Z))
    (items : list (X * K * Z)) (k : nat) : res astate :=
  match items with
  | [] => Ok a
  | it :: r =>
      let seg' := seg ++ [it] in
      if snd it =? 0 then experience_loop os a seg' r k
      else
        do m1 <- model_experience (os k) (a_m a) (map (fun e => fst (fst e)) seg')
                   (map snd seg') (map (fun e => snd (fst e)) seg');
        experience_loop os
          {| a_completed := a_completed a; a_counter := a_counter a; a_tbuf := a_tbuf a;
             a_rbuf := a_rbuf a; a_timesteps := m_timesteps m1; a_episodes := m_episodes m1;
             a_updates := a_updates a; a_m := m1 |} [] r (S k)
  end.

(** agents/tensorforce.py 460-659, experience *)
Definition agent_experience (os : nat -> oracle) (a : astate) (items : list (X * K * Z)) : res astate :=
  do _ <- assert_ (forallb (fun b => Z.of_nat (length b) =? 0) (a_tbuf a))
            "Calling agent.experience is not possible mid-episode.";
  do tl <- last_ (map snd items);
  do _ <- assert_ (negb (tl =? 0)) "Agent.experience() requires full episodes as input.";
  experience_loop os a [] items 0.

(** agents/tensorforce.py 661-673, update; core/models/tensorforce.py 1035-1041 *)
Definition agent_update (o : oracle) (a : astate) : res astate :=
  do m1 <- core_update o (a_m a);
  Ok {| a_completed := a_completed a; a_counter := a_counter a; a_tbuf := a_tbuf a; a_rbuf := a_rbuf a;
        a_timesteps := a_timesteps a; a_episodes := a_episodes a; a_updates := m_updates m1;
        a_m := m1 |}.

(** ** Histories *)

Notation op := (op K St In Au Ac W oracle).

(** A call together with what it returned
    (recorder.py 154-489, agent.py 332-568 and agents/tensorforce.py 460-673: what the public methods return) *)
Inductive event :=
| EAct (acts : list (Z * X))                 (* per stream: what was acted on, and the action *)
| EIndAct (outs : list (Ac * In))
| EObserve (items : list (Z * Z * K)) (updates : Z)
| EExperience (items : list (X * K * Z))
| EUpdate
| EReset.

(** one call of a public method: agent.py 332-568, agents/tensorforce.py 460-673 *)
Definition agent_step (a : astate) (x : op) : res (astate * event) :=
  match x with
  | OAct items => do r <- agent_act a items; Ok (fst r, EAct (snd r))
  | OIndAct items => do r <- agent_independent_act a items; Ok (fst r, EIndAct (snd r))
  | OObserve items => do r <- agent_observe a items; Ok (fst r, EObserve (map fst items) (snd r))
  | OExperience os items => do a' <- agent_experience os a items; Ok (a', EExperience items)
  | OUpdate o => do a' <- agent_update o a; Ok (a', EUpdate)
  | OReset => do a' <- agent_reset a; Ok (a', EReset)
  end.

(** a sequence of calls of the public methods (agent.py 332-568, agents/tensorforce.py 460-673); the first error ends it *)
Fixpoint agent_run_from (a : astate) (ops : list op) : res (astate * list event) :=
  match ops with
  | [] => Ok (a, [])
  | x :: r =>
      do ae <- agent_step a x;
      do rest <- agent_run_from (fst ae) r;
      Ok (fst rest, snd ae :: snd rest)
  end.

(** the same for a new agent (agent.py 271-322) *)
Definition agent_run (ops : list op) : res (astate * list event) :=
  do a <- agent_initialize; agent_run_from a ops.

End Agent.
