(** Model of Runner.run for one or several separate environments, called one by one or with
    batched agent calls, with or without an evaluation environment:
    /repo/tensorforce/execution/runner.py 299-340, 406-408, 513-907.

    What the environments, the agent and the callbacks do is arbitrary: each answer is given
    by a function of everything that happened before (the log, see [world] in RunSpec.v).  Simplified: a python list
    with one entry per environment is a function from indices; vectorised environments
    (num_vectorized) are not part of this model; a call which waits (sync_timesteps 622-626,
    batch_agent_calls 561-576) gets its answers at once, in the order of the environments;
    seconds, progress bar and sleeping are left out; frequencies are positive; an
    environment's episode_return is None, as Environment.episode_return always is
    (/repo/tensorforce/environments/environment.py 334-335, overridden nowhere).
    evaluation_returns is kept separate from episode_returns: without evaluation both are
    the same list (395-400), with a single evaluation environment likewise (387-390). *)

From Coq Require Import String List ZArith Bool Arith.
From Verif Require Import Base RunSpec.
Import ListNotations.
Open Scope string_scope.
Open Scope list_scope.
Open Scope Z_scope.

Section Run.
Context {S A R I : Type}.
Variable zero : R.
Variable add : R -> R -> R.

Variable w : world S A R I.

(** The arguments of run and the number of environments; None stands for infinity (227-340) *)
Record config := Config {
  num_environments : nat;
  evaluation_run : bool;                       (* 494 *)
  num_episodes : option nat;                   (* 299-302 *)
  num_timesteps : option nat;                  (* 303-306 *)
  num_updates : option nat;                    (* 307-310 *)
  batch_agent_calls : bool;                    (* 333 *)
  sync_timesteps : bool;                       (* 334 *)
  sync_episodes : bool;                        (* 335 *)
  callback_episode_frequency : option nat;     (* 344-349 *)
  callback_timestep_frequency : option nat;    (* 350-353 *)
  save_best_agent : bool }.                    (* 495 *)
Variable c : config.

(** the attributes of Runner during run, 299-340, 406-408, 513-543 *)
Record runner := Runner {
  log : history S A R I;   (* the calls made so far *)
  pending : nat -> option (option A);   (* per environment: what was started (Some None: reset) and not received yet *)
  timesteps : nat;   (* 406 *)
  episodes : nat;   (* 407 *)
  updates : nat;   (* 408 *)
  terminate : Z;   (* 529 *)
  prev_terminals : nat -> Z;   (* 530 *)
  terminals : nat -> Z;   (* 532; None is never read *)
  states : nat -> option S;   (* 531 *)
  rewards : nat -> option R;   (* 533 *)
  actions : nat -> option A;   (* 724-748 *)
  episode_return : nat -> R;   (* 514 *)
  episode_timestep : nat -> nat;   (* 515 *)
  episode_returns : list R;   (* 375 *)
  episode_timesteps : list nat;   (* 376 *)
  evaluation_returns : list R;   (* 382 *)
  evaluation_timesteps : list nat;   (* 383 *)
  internals : I;   (* 535 *)
  best : option Z }.   (* 511 *)

(** assignment to self.log (513-907) *)
Definition set_log (x : history S A R I) (q : runner) : runner :=
  Runner x (pending q) (timesteps q) (episodes q) (updates q) (terminate q) (prev_terminals q) (terminals q) (states q) (rewards q) (actions q) (episode_return q) (episode_timestep q) (episode_returns q) (episode_timesteps q) (evaluation_returns q) (evaluation_timesteps q) (internals q) (best q).
(** assignment to self.pending (513-907) *)
Definition set_pending (x : nat -> option (option A)) (q : runner) : runner :=
  Runner (log q) x (timesteps q) (episodes q) (updates q) (terminate q) (prev_terminals q) (terminals q) (states q) (rewards q) (actions q) (episode_return q) (episode_timestep q) (episode_returns q) (episode_timesteps q) (evaluation_returns q) (evaluation_timesteps q) (internals q) (best q).
(** assignment to self.timesteps (513-907) *)
Definition set_timesteps (x : nat) (q : runner) : runner :=
  Runner (log q) (pending q) x (episodes q) (updates q) (terminate q) (prev_terminals q) (terminals q) (states q) (rewards q) (actions q) (episode_return q) (episode_timestep q) (episode_returns q) (episode_timesteps q) (evaluation_returns q) (evaluation_timesteps q) (internals q) (best q).
(** assignment to self.episodes (513-907) *)
Definition set_episodes (x : nat) (q : runner) : runner :=
  Runner (log q) (pending q) (timesteps q) x (updates q) (terminate q) (prev_terminals q) (terminals q) (states q) (rewards q) (actions q) (episode_return q) (episode_timestep q) (episode_returns q) (episode_timesteps q) (evaluation_returns q) (evaluation_timesteps q) (internals q) (best q).
(** assignment to self.updates (513-907) *)
Definition set_updates (x : nat) (q : runner) : runner :=
  Runner (log q) (pending q) (timesteps q) (episodes q) x (terminate q) (prev_terminals q) (terminals q) (states q) (rewards q) (actions q) (episode_return q) (episode_timestep q) (episode_returns q) (episode_timesteps q) (evaluation_returns q) (evaluation_timesteps q) (internals q) (best q).
(** assignment to self.terminate (513-907) *)
Definition set_terminate (x : Z) (q : runner) : runner :=
  Runner (log q) (pending q) (timesteps q) (episodes q) (updates q) x (prev_terminals q) (terminals q) (states q) (rewards q) (actions q) (episode_return q) (episode_timestep q) (episode_returns q) (episode_timesteps q) (evaluation_returns q) (evaluation_timesteps q) (internals q) (best q).
(** assignment to self.prev_terminals (513-907) *)
Definition set_prev_terminals (x : nat -> Z) (q : runner) : runner :=
  Runner (log q) (pending q) (timesteps q) (episodes q) (updates q) (terminate q) x (terminals q) (states q) (rewards q) (actions q) (episode_return q) (episode_timestep q) (episode_returns q) (episode_timesteps q) (evaluation_returns q) (evaluation_timesteps q) (internals q) (best q).
(** assignment to self.terminals (513-907) *)
Definition set_terminals (x : nat -> Z) (q : runner) : runner :=
  Runner (log q) (pending q) (timesteps q) (episodes q) (updates q) (terminate q) (prev_terminals q) x (states q) (rewards q) (actions q) (episode_return q) (episode_timestep q) (episode_returns q) (episode_timesteps q) (evaluation_returns q) (evaluation_timesteps q) (internals q) (best q).
(** assignment to self.states (513-907) *)
Definition set_states (x : nat -> option S) (q : runner) : runner :=
  Runner (log q) (pending q) (timesteps q) (episodes q) (updates q) (terminate q) (prev_terminals q) (terminals q) x (rewards q) (actions q) (episode_return q) (episode_timestep q) (episode_returns q) (episode_timesteps q) (evaluation_returns q) (evaluation_timesteps q) (internals q) (best q).
(** assignment to self.rewards (513-907) *)
Definition set_rewards (x : nat -> option R) (q : runner) : runner :=
  Runner (log q) (pending q) (timesteps q) (episodes q) (updates q) (terminate q) (prev_terminals q) (terminals q) (states q) x (actions q) (episode_return q) (episode_timestep q) (episode_returns q) (episode_timesteps q) (evaluation_returns q) (evaluation_timesteps q) (internals q) (best q).
(** assignment to self.actions (513-907) *)
Definition set_actions (x : nat -> option A) (q : runner) : runner :=
  Runner (log q) (pending q) (timesteps q) (episodes q) (updates q) (terminate q) (prev_terminals q) (terminals q) (states q) (rewards q) x (episode_return q) (episode_timestep q) (episode_returns q) (episode_timesteps q) (evaluation_returns q) (evaluation_timesteps q) (internals q) (best q).
(** assignment to self.episode_return (513-907) *)
Definition set_episode_return (x : nat -> R) (q : runner) : runner :=
  Runner (log q) (pending q) (timesteps q) (episodes q) (updates q) (terminate q) (prev_terminals q) (terminals q) (states q) (rewards q) (actions q) x (episode_timestep q) (episode_returns q) (episode_timesteps q) (evaluation_returns q) (evaluation_timesteps q) (internals q) (best q).
(** assignment to self.episode_timestep (513-907) *)
Definition set_episode_timestep (x : nat -> nat) (q : runner) : runner :=
  Runner (log q) (pending q) (timesteps q) (episodes q) (updates q) (terminate q) (prev_terminals q) (terminals q) (states q) (rewards q) (actions q) (episode_return q) x (episode_returns q) (episode_timesteps q) (evaluation_returns q) (evaluation_timesteps q) (internals q) (best q).
(** assignment to self.episode_returns (513-907) *)
Definition set_episode_returns (x : list R) (q : runner) : runner :=
  Runner (log q) (pending q) (timesteps q) (episodes q) (updates q) (terminate q) (prev_terminals q) (terminals q) (states q) (rewards q) (actions q) (episode_return q) (episode_timestep q) x (episode_timesteps q) (evaluation_returns q) (evaluation_timesteps q) (internals q) (best q).
(** assignment to self.episode_timesteps (513-907) *)
Definition set_episode_timesteps (x : list nat) (q : runner) : runner :=
  Runner (log q) (pending q) (timesteps q) (episodes q) (updates q) (terminate q) (prev_terminals q) (terminals q) (states q) (rewards q) (actions q) (episode_return q) (episode_timestep q) (episode_returns q) x (evaluation_returns q) (evaluation_timesteps q) (internals q) (best q).
(** assignment to self.evaluation_returns (513-907) *)
Definition set_evaluation_returns (x : list R) (q : runner) : runner :=
  Runner (log q) (pending q) (timesteps q) (episodes q) (updates q) (terminate q) (prev_terminals q) (terminals q) (states q) (rewards q) (actions q) (episode_return q) (episode_timestep q) (episode_returns q) (episode_timesteps q) x (evaluation_timesteps q) (internals q) (best q).
(** assignment to self.evaluation_timesteps (513-907) *)
Definition set_evaluation_timesteps (x : list nat) (q : runner) : runner :=
  Runner (log q) (pending q) (timesteps q) (episodes q) (updates q) (terminate q) (prev_terminals q) (terminals q) (states q) (rewards q) (actions q) (episode_return q) (episode_timestep q) (episode_returns q) (episode_timesteps q) (evaluation_returns q) x (internals q) (best q).
(** assignment to self.internals (513-907) *)
Definition set_internals (x : I) (q : runner) : runner :=
  Runner (log q) (pending q) (timesteps q) (episodes q) (updates q) (terminate q) (prev_terminals q) (terminals q) (states q) (rewards q) (actions q) (episode_return q) (episode_timestep q) (episode_returns q) (episode_timesteps q) (evaluation_returns q) (evaluation_timesteps q) x (best q).
(** assignment to self.best (513-907) *)
Definition set_best (x : option Z) (q : runner) : runner :=
  Runner (log q) (pending q) (timesteps q) (episodes q) (updates q) (terminate q) (prev_terminals q) (terminals q) (states q) (rewards q) (actions q) (episode_return q) (episode_timestep q) (episode_returns q) (episode_timesteps q) (evaluation_returns q) (evaluation_timesteps q) (internals q) x.

(** l[n] = v (e.g. 712) *)
Definition upd {X} (f : nat -> X) (n : nat) (v : X) : nat -> X := fun m => if Nat.eqb m n then v else f m.
(** x >= limit, for a limit which may be infinite (e.g. 719, 844) *)
Definition reached (x : nat) (limit : option nat) : bool :=
  match limit with Some m => Nat.leb m x | None => false end.
(** x % frequency == 0 (x % inf == x) *)
Definition divides (x : nat) (frequency : option nat) : bool :=
  match frequency with Some f => Nat.eqb (Nat.modulo x f) 0 | None => Nat.eqb x 0 end.

(** a call is made (513-907) *)
Definition emit (e : event S A R I) (q : runner) : runner := set_log (e :: log q) q.

(** environment.py 371-376 *)
Definition start_reset (n : nat) (q : runner) : res runner :=
  match pending q n with
  | Some _ => Err "unexpected"
  | None => Ok (emit (Reset n) (set_pending (upd (pending q) n (Some None)) q))
  end.
(** environment.py 378-383 *)
Definition start_execute (n : nat) (a : A) (q : runner) : res runner :=
  match pending q n with
  | Some _ => Err "unexpected"
  | None => Ok (emit (Execute n a) (set_pending (upd (pending q) n (Some (Some a))) q))
  end.
(** environment.py 385-441, with runner.py 640 and 571 *)
Definition receive (n : nat) (q : runner) : res runner :=
  match pending q n with
  | None => Err "unexpected"
  | Some x =>
    let '(s, t, r) := match x with
                      | None => (w_reset w (log q) n, -1, None)
                      | Some a => let '(s, t, r) := w_step w (log q) n a in (s, t, Some r)
                      end in
    let q := set_pending (upd (pending q) n None) q in
    let q := set_states (upd (states q) n (Some s)) q in
    let q := set_terminals (upd (terminals q) n t) q in
    let q := set_rewards (upd (rewards q) n r) q in
    Ok (emit (Reply n s t r) q)
  end.

(** self.callback(self, parallel) (718, 773, 843) *)
Definition call_back (n : option nat) (q : runner) : bool * runner :=
  (w_callback w (log q) n, emit (Callback n) q).

Definition last : nat := num_environments c - 1.                (* index -1 *)
(** 675 *)
Definition training : nat := num_environments c - (if evaluation_run c then 1 else 0).
(** 641 *)
Definition is_eval (n : nat) : bool := evaluation_run c && Nat.eqb n last.

(** 710-720, 768-775: count the timestep, then callback and limit; p is the callback's argument *)
Definition count_timestep (n : nat) (p : option nat) (q : runner) : runner :=
  let q := set_timesteps (Datatypes.S (timesteps q)) q in
  let (stop, q) := if divides (episode_timestep q n) (callback_timestep_frequency c)
                   then let (r, q) := call_back p q in (negb r, q) else (false, q) in
  if stop || reached (timesteps q) (num_timesteps c) then set_terminate 2 q else q.

(** 699-720 *)
Definition handle_act (n : nat) (q : runner) : res runner :=
  do q <- (if batch_agent_calls c then
             match actions q n with Some a => start_execute n a q | None => Err "assert" end
           else
             match states q n with
             | None => Err "assert"
             | Some s =>
               let a := w_act w (log q) [(n, s)] n in
               start_execute n a (emit (Act [(n, s, a)]) q)
             end);
  let q := set_episode_timestep (upd (episode_timestep q) n (Datatypes.S (episode_timestep q n))) q in
  Ok (count_timestep n (Some n) q).

(** 750-775 *)
Definition handle_act_evaluation (q : runner) : res runner :=
  do q <- (if batch_agent_calls c then
             match actions q last with Some a => start_execute last a q | None => Err "assert" end
           else
             match states q last with
             | None => Err "assert"
             | Some s =>
               let (a, i) := w_act_eval w (log q) s (internals q) in
               start_execute last a (set_internals i (emit (ActEval s (internals q) a i) q))
             end);
  let q := set_episode_timestep (upd (episode_timestep q) last (Datatypes.S (episode_timestep q last))) q in
  Ok (if evaluation_run c && Nat.eqb (num_environments c) 1 then count_timestep last None q else q).

(** 777-796 *)
Definition handle_observe (n : nat) (q : runner) : res runner :=
  match rewards q n with
  | None => Err "TypeError"
  | Some r =>
    let q := set_episode_return (upd (episode_return q) n (add (episode_return q n) r)) q in
    let q := if (terminals q n =? 0) && (terminate q =? 2) then set_terminals (upd (terminals q) n 2) q else q in
    let q := if batch_agent_calls c then q
             else let o := [(n, terminals q n, r)] in
                  let u := w_observe w (log q) o in
                  set_updates (updates q + u) (emit (Observe o) q) in
    Ok (if reached (updates q) (num_updates c) then set_terminate 2 q else q)
  end.

(** 814-821 *)
Definition handle_observe_evaluation (q : runner) : res runner :=
  match rewards q last with
  | None => Err "TypeError"
  | Some r => Ok (set_episode_return (upd (episode_return q) last (add (episode_return q last) r)) q)
  end.

(** 838-844, 889-895: count the episode, then callback and limit *)
Definition count_episode (p : option nat) (q : runner) : runner :=
  let q := set_episodes (Datatypes.S (episodes q)) q in
  if terminate q =? 0 then
    let (stop, q) := if divides (episodes q) (callback_episode_frequency c)
                     then let (r, q) := call_back p q in (negb r, q) else (false, q) in
    if stop || reached (episodes q) (num_episodes c) then set_terminate 1 q else q
  else q.

(** 823-856 *)
Definition handle_terminal (n : nat) (q : runner) : res runner :=
  let q := set_episode_returns (episode_returns q ++ [episode_return q n]) q in
  let q := set_episode_timesteps (episode_timesteps q ++ [episode_timestep q n]) q in
  let q := count_episode (Some n) q in
  let q := set_episode_return (upd (episode_return q) n zero) q in
  let q := set_episode_timestep (upd (episode_timestep q) n 0%nat) q in
  if (terminate q =? 0) && negb (sync_episodes c) then
    start_reset n (set_terminals (upd (terminals q) n (-1)) q)
  else Ok q.

(** 874-887 *)
Definition evaluate (q : runner) : runner :=
  if save_best_agent c then
    let x := w_score w (log q) in
    let q := emit (Score x) q in
    match best q with
    | None => set_best (Some x) q
    | Some b => if b <? x then emit Save (set_best (Some x) q) else q
    end
  else q.

(** 858-907 *)
Definition handle_terminal_evaluation (q : runner) : res runner :=
  let q := set_evaluation_returns (evaluation_returns q ++ [episode_return q last]) q in
  let q := set_evaluation_timesteps (evaluation_timesteps q ++ [episode_timestep q last]) q in
  let q := evaluate q in
  let q := if evaluation_run c && Nat.eqb (num_environments c) 1 then count_episode None q else q in
  let q := set_episode_return (upd (episode_return q) last zero) q in
  let q := set_episode_timestep (upd (episode_timestep q) last 0%nat) q in
  if (terminate q =? 0) && negb (sync_episodes c) then
    do q <- start_reset last (set_terminals (upd (terminals q) last 0) q);
    Ok (set_internals (w_initial w) q)
  else Ok q.

(** for n in ... (513-697) *)
Fixpoint each {X} (f : X -> runner -> res runner) (l : list X) (q : runner) : res runner :=
  match l with [] => Ok q | n :: l => do q <- f n q; each f l q end.

(** 561-576 *)
Definition receive_batch (n : nat) (q : runner) : res runner :=
  if prev_terminals q n <=? 0 then receive n q
  else Ok (set_rewards (upd (rewards q) n None)
            (set_terminals (upd (terminals q) n (prev_terminals q n)) (set_states (upd (states q) n None) q))).

(** [self.states[p] for p in parallel], [self.rewards[p] for p in parallel] (730, 806-807) *)
Definition values {X} (f : nat -> option X) (l : list nat) : res (list (nat * X)) :=
  map_res (fun n => match f n with Some x => Ok (n, x) | None => Err "TypeError" end) l.

(** 798-812 *)
Definition handle_observe_joint (q : runner) : res runner :=
  let parallel := filter (fun n => (prev_terminals q n <=? 0) && (0 <=? terminals q n)) (seq 0 training) in
  match parallel with
  | [] => Ok q
  | _ =>
    do rs <- values (rewards q) parallel;
    let o := map (fun x => (fst x, terminals q (fst x), snd x)) rs in
    let u := w_observe w (log q) o in
    Ok (set_updates (updates q + u) (emit (Observe o) q))
  end.

(** 722-748 *)
Definition handle_act_joint (q : runner) : res runner :=
  let parallel := filter (fun n => terminals q n <=? 0) (seq 0 training) in
  do q <- match parallel with
          | [] => Ok q
          | _ =>
            do ss <- values (states q) parallel;
            let f := w_act w (log q) ss in
            let q := emit (Act (map (fun x => (fst x, snd x, f (fst x))) ss)) q in
            Ok (set_actions (fun n => if existsb (Nat.eqb n) parallel then Some (f n) else None) q)
          end;
  if evaluation_run c && (terminals q last <=? 0) then
    match states q last with
    | None => Err "assert"
    | Some s =>
      let (a, i) := w_act_eval w (log q) s (internals q) in
      let q := set_internals i (emit (ActEval s (internals q) a i) q) in
      Ok (set_actions (upd (actions q) last (Some a)) q)
    end
  else Ok q.

(** 642-667 *)
Definition handle (n : nat) (q : runner) : res runner :=
  if is_eval n then
    if terminals q n =? -1 then handle_act_evaluation q
    else
      do q <- handle_observe_evaluation q;
      if terminals q n =? 0 then handle_act_evaluation q else handle_terminal_evaluation q
  else
    if terminals q n =? -1 then handle_act n q
    else
      do q <- handle_observe n q;
      if terminals q n =? 0 then handle_act n q else handle_terminal n q.

(** 611-667 *)
Definition visit (n : nat) (q : runner) : res runner :=
  if 0 <? prev_terminals q n then Ok (set_terminals (upd (terminals q) n (prev_terminals q n)) q)
  else if batch_agent_calls c then handle n q
  else if sync_timesteps c || w_ready w (log q) n then do q <- receive n q; handle n q
  else Ok (emit (Wait n) (set_terminals (upd (terminals q) n (prev_terminals q n)) q)).

(** 672-682, the part for one environment *)
Definition restart (n : nat) (q : runner) : res runner :=
  start_reset n (set_prev_terminals (upd (prev_terminals q) n (-1)) q).
(** 671-682 *)
Definition restart_all (q : runner) : res runner :=
  if sync_episodes c && forallb (fun n => 0 <? terminals q n) (seq 0 (num_environments c)) then
    let left := match num_episodes c with Some m => Some (m - episodes q)%nat | None => None end in
    do q <- each restart (seq 0 (match left with Some m => Nat.min training m | None => training end)) q;
    if evaluation_run c && match left with Some m => Nat.ltb 0 m | None => true end then restart last q else Ok q
  else Ok q.

(** 554: the loop's condition *)
Definition running (q : runner) : bool := existsb (fun n => prev_terminals q n <=? 0) (seq 0 (num_environments c)).

(** 555-697: one pass of the loop *)
Definition pass (q : runner) : res runner :=
  do q <- (if batch_agent_calls c then
             do q <- each receive_batch (seq 0 (num_environments c)) q;
             do q <- handle_observe_joint q;
             handle_act_joint q
           else Ok q);
  do q <- each visit (seq 0 (num_environments c)) q;
  restart_all (set_prev_terminals (terminals q) q).

(** 312-332: which arguments are refused for a single environment *)
Definition refused : bool :=
  Nat.eqb (num_environments c) 1 && (batch_agent_calls c || sync_timesteps c || sync_episodes c).

(** 406-408, 513-543: before the loop; no environment has an unanswered call *)
Definition initial : runner :=
  Runner [] (fun _ => None) 0 0 0 0 (fun _ => -1) (fun _ => -1) (fun _ => None) (fun _ => None) (fun _ => None)
    (fun _ => zero) (fun _ => 0%nat) [] [] [] [] (w_initial w) None.
(** 406-408, 513-543 *)
Definition start : res runner :=
  if refused then Err "invalid"
  else each start_reset (seq 0 (num_environments c)) initial.

(** 554-697, up to [fuel] passes of the loop *)
Fixpoint loop (fuel : nat) (q : runner) : res runner :=
  match fuel with
  | O => Ok q
  | Datatypes.S fuel => if running q then do q <- pass q; loop fuel q else Ok q
  end.
(** 227-697 *)
Definition run (fuel : nat) : res runner := do q <- start; loop fuel q.

End Run.
