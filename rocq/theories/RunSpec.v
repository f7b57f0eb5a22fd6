(** What a run of the Runner does, as seen from outside: a history of calls to environments
    and agent, and what such a history should look like for each environment.

    Histories are kept newest first. *)

From Coq Require Import List ZArith Bool Arith.
Import ListNotations.
Open Scope Z_scope.

Section Run.
Context {S A R I : Type}.    (* states, actions, rewards, internals *)

Inductive event :=
| Reset (n : nat)                                   (* environment n is told to start an episode *)
| Execute (n : nat) (a : A)                         (* environment n is told to perform a *)
| Wait (n : nat)                                    (* environment n was asked, but is not ready *)
| Reply (n : nat) (s : S) (t : Z) (r : option R)    (* environment n's answer *)
| Act (l : list (nat * S * A))                      (* one call agent.act(states, parallel) *)
| Observe (l : list (nat * Z * R))                  (* one call agent.observe(terminal, reward, parallel) *)
| ActEval (s : S) (i : I) (a : A) (i' : I)          (* agent.act(states, internals, independent=True) *)
| Callback (n : option nat)                         (* the run's callback, None for parallel=-1 *)
| Score (x : Z)                                     (* the evaluation callback's score *)
| Save.                                             (* agent.save *)
Definition history := list event.

(** Where an environment and its stream of the agent stand. *)
Inductive phase :=
| Closed                             (* no episode *)
| Resetting                          (* an episode was asked for *)
| Ready (s : S)                      (* state s waits for an action *)
| Chosen (a : A)                     (* the agent chose a *)
| Running (a : A)                    (* the environment performs a *)
| Answered (s : S) (t : Z) (r : R).  (* the environment answered, the agent was not told yet *)

(** [ev]: the environment is used for evaluation, where the agent does not observe. *)
Definition next (ev : bool) (n : nat) (e : event) (p : phase) : phase :=
  match e with
  | Reset m => if Nat.eqb m n then Resetting else p
  | Execute m a => if Nat.eqb m n then Running a else p
  | Reply m s t r =>
    if Nat.eqb m n then
      match r with
      | None => Ready s
      | Some r => if ev then (if 0 <? t then Closed else Ready s) else Answered s t r
      end
    else p
  | Act l => if ev then p else match find (fun x => Nat.eqb (fst (fst x)) n) l with Some (_, _, a) => Chosen a | None => p end
  | ActEval s i a i' => if ev then Chosen a else p
  | Observe l =>
    if ev then p else
    match find (fun x => Nat.eqb (fst (fst x)) n) l with
    | Some (_, t, _) => if 0 <? t then Closed else match p with Answered s _ _ => Ready s | _ => p end
    | None => p
    end
  | _ => p
  end.
Fixpoint at_phase (ev : bool) (n : nat) (h : history) : phase :=
  match h with [] => Closed | e :: h => next ev n e (at_phase ev n h) end.

(** May the event happen in this phase of environment n?  An action is chosen for the state
    last received and executed as chosen; terminal and reward are passed to one observe on the
    same stream as received, except that an episode may be closed as aborted (2 for 0). *)
Definition allowed (ev : bool) (n : nat) (e : event) (p : phase) : Prop :=
  match e with
  | Reset m => m = n -> p = Closed
  | Execute m a => m = n -> p = Chosen a
  | Wait m => m = n -> p = Resetting \/ exists a, p = Running a
  | Reply m s t r => m = n -> match r with None => p = Resetting /\ t = -1 | Some _ => exists a, p = Running a end
  | Act l =>
    NoDup (map (fun x => fst (fst x)) l) /\ forall s a, In (n, s, a) l -> ev = false /\ p = Ready s
  | Observe l =>
    NoDup (map (fun x => fst (fst x)) l) /\
    forall t' r, In (n, t', r) l -> ev = false /\ exists s t, p = Answered s t r /\ (t' = t \/ t = 0 /\ t' = 2)
  | ActEval s i a i' => ev = true -> p = Ready s
  | Callback _ | Score _ | Save => True
  end.
Fixpoint proper (ev : bool) (n : nat) (h : history) : Prop :=
  match h with [] => True | e :: h => proper ev n h /\ allowed ev n e (at_phase ev n h) end.

(** The rewards of environment n's current episode, oldest first. *)
Fixpoint rewards (n : nat) (h : history) : list R :=
  match h with
  | [] => []
  | Reset m :: h => if Nat.eqb m n then [] else rewards n h
  | Reply m _ _ (Some r) :: h => if Nat.eqb m n then rewards n h ++ [r] else rewards n h
  | _ :: h => rewards n h
  end.
(** The rewards of the episodes which the agent was told to be finished, in order. *)
Fixpoint finished (h : history) : list (nat * list R) :=
  match h with
  | [] => []
  | Observe l :: h =>
    finished h ++ map (fun x => (fst (fst x), rewards (fst (fst x)) h)) (filter (fun x => 0 <? snd (fst x)) l)
  | _ :: h => finished h
  end.
(** The same for the episodes of the evaluation environment n. *)
Fixpoint evaluated (n : nat) (h : history) : list (list R) :=
  match h with
  | [] => []
  | Reply m _ t (Some r) :: h =>
    if Nat.eqb m n && (0 <? t) then evaluated n h ++ [rewards n h ++ [r]] else evaluated n h
  | _ :: h => evaluated n h
  end.

(** How often environment n was not ready since it was last told something. *)
Fixpoint waits (n : nat) (h : history) : nat :=
  match h with
  | [] => 0
  | Wait m :: h => if Nat.eqb m n then Datatypes.S (waits n h) else waits n h
  | Reset m :: h | Execute m _ :: h => if Nat.eqb m n then 0 else waits n h
  | _ :: h => waits n h
  end.
(** How often environment n (in [ns]) was told to perform an action *)
Fixpoint executions (ns : nat -> bool) (h : history) : nat :=
  match h with
  | [] => 0
  | Execute m _ :: h => if ns m then Datatypes.S (executions ns h) else executions ns h
  | _ :: h => executions ns h
  end.
(** How many episodes were started by environments in [ns] *)
Fixpoint starts (ns : nat -> bool) (h : history) : nat :=
  match h with
  | [] => 0
  | Reset m :: h => if ns m then Datatypes.S (starts ns h) else starts ns h
  | _ :: h => starts ns h
  end.

(** Environments, agent and callbacks: arbitrary, each answer may depend on everything which
    happened before. *)
Record world := World {
  w_reset : history -> nat -> S;                        (* first state of an episode *)
  w_step : history -> nat -> A -> S * Z * R;            (* an environment's answer to an action *)
  w_ready : history -> nat -> bool;                     (* is the answer there when asked for? *)
  w_act : history -> list (nat * S) -> nat -> A;        (* agent.act on several streams: the action per stream *)
  w_act_eval : history -> S -> I -> A * I;              (* agent.act(..., independent=True) *)
  w_observe : history -> list (nat * Z * R) -> nat;     (* agent.observe: number of updates *)
  w_initial : I;                                        (* agent.initial_internals() *)
  w_callback : history -> option nat -> bool;
  w_score : history -> Z }.                             (* evaluation_callback *)

(** The answers in a history are the world's ([ev]: the evaluation environments). *)
Fixpoint answers (w : world) (ev : nat -> bool) (h : history) : Prop :=
  match h with
  | [] => True
  | e :: h =>
    answers w ev h /\
    match e with
    | Reply n s t None => s = w_reset w h n
    | Reply n s t (Some r) => exists a, at_phase (ev n) n h = Running a /\ w_step w h n a = (s, t, r)
    | Wait n => w_ready w h n = false
    | Act l => forall n s a, In (n, s, a) l -> a = w_act w h (map fst l) n
    | ActEval s i a i' => w_act_eval w h s i = (a, i')
    | _ => True
    end
  end.

(** The history when environment n's current episode was started, and when it was last told something. *)
Fixpoint since_reset (n : nat) (h : history) : history :=
  match h with
  | [] => []
  | Reset m :: h => if Nat.eqb m n then h else since_reset n h
  | _ :: h => since_reset n h
  end.
Fixpoint since_told (n : nat) (h : history) : history :=
  match h with
  | [] => []
  | Reset m :: h | Execute m _ :: h => if Nat.eqb m n then h else since_told n h
  | _ :: h => since_told n h
  end.
(** Every episode ends and every answer arrives, within a bound which may depend on everything
    which happened before the episode (the call). *)
Definition episodes_end (w : world) : Prop :=
  exists limit : nat -> history -> nat, forall n h a,
    (limit n (since_reset n h) <= length (rewards n h) + 1)%nat -> 0 < snd (fst (w_step w h n a)).
Definition answers_arrive (w : world) : Prop :=
  exists patience : nat -> history -> nat, forall n h,
    (patience n (since_told n h) <= waits n h)%nat -> w_ready w h n = true.

(** Terminal values an environment may report (environment.py 411-417) *)
Definition valid (w : world) : Prop := forall h n a, 0 <= snd (fst (w_step w h n a)) <= 2.

(** The internals an independent act should be given: the initial ones at the start of an
    episode of environment n, then those returned by the previous act. *)
Fixpoint internals_of (w : world) (n : nat) (h : history) : I :=
  match h with
  | [] => w_initial w
  | Reset m :: h => if Nat.eqb m n then w_initial w else internals_of w n h
  | ActEval _ _ _ i' :: _ => i'
  | _ :: h => internals_of w n h
  end.
Fixpoint internals_kept (w : world) (n : nat) (h : history) : Prop :=
  match h with
  | [] => True
  | e :: h => internals_kept w n h /\ match e with ActEval _ i _ _ => i = internals_of w n h | _ => True end
  end.

(** The scores in a history, newest first. *)
Fixpoint scores (h : history) : list Z :=
  match h with [] => [] | Score x :: h => x :: scores h | _ :: h => scores h end.
(** A score better than all earlier ones, of which there is at least one *)
Definition beats (x : Z) (h : history) : Prop := scores h <> [] /\ Forall (fun y => y < x) (scores h).
(** The agent is saved right after such a score, and only then. *)
Definition saves_ok (h : history) : Prop := forall l h', h = l ++ Save :: h' -> exists x h2, h' = Score x :: h2 /\ beats x h2.
Definition saved_ok (h : history) : Prop := forall l x h', h = l ++ Score x :: h' -> beats x h' -> exists l', l = l' ++ [Save].

(** The callback never asks to stop. *)
Definition goes_on (w : world) : Prop := forall h p, w_callback w h p = true.

End Run.
Arguments world : clear implicits.
Arguments event : clear implicits.
Arguments history : clear implicits.
Arguments phase : clear implicits.
