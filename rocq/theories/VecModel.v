(** The runner with one vectorized environment.

    Modelled: execution/runner.py 530-551 (states after the first reset), 554-607 (passes), 669 (end of a pass), 681-691 (reset for
    the next episodes), 722-743 (handle_act_joint), 798-812 (handle_observe_joint).

    Simplified: the environment and the agent are arbitrary functions, the environment with a state; states, actions and
    rewards are any values.  Not modelled here: counters, callbacks and limits (RunModel.v), seconds, and the evaluation
    environment, which does not exist for vectorized environments. *)

From Coq Require Import String List ZArith Bool Arith.
From Verif Require Import Base.
Import ListNotations.
Open Scope string_scope.
Open Scope list_scope.
Open Scope Z_scope.

Section Vector.
(** States, actions, rewards and the environment (runner.py 546, 581-583) *)
Variables (S A R W : Type) (execute : W -> list A -> res (list nat * list S * list Z * list R) * W).
(** agent.act(states, parallel) (runner.py 729-731) *)
Variable act : list nat -> list S -> list A.

(** l[n] = x (runner.py 550-551, 598) *)
Fixpoint put {X} (n : nat) (x : X) (l : list X) : list X :=
  match l, n with [], _ => [] | _ :: q, O => x :: q | y :: q, Datatypes.S n => y :: put n x q end.
(** State, terminal and reward of one environment (runner.py 530-533) *)
Record slot := { s_state : option S; s_terminal : Z; s_reward : option R }.
(** The loop over previous terminals: the results are in the order of the running environments (runner.py 584-595) *)
Fixpoint spread (prev : list Z) (old : list (option S)) (ts : list Z) (rs : list R) : res (list slot) :=
  match prev, old with
  | p :: prev, s :: old =>
      if p <=? 0 then
        match ts, rs with
        | t :: ts, r :: rs => do q <- spread prev old ts rs; Ok ({| s_state := if 0 <? t then None else s; s_terminal := t; s_reward := Some r |} :: q)
        | _, _ => Err "IndexError"
        end
      else do q <- spread prev old ts rs; Ok ({| s_state := None; s_terminal := p; s_reward := None |} :: q)
  | _, _ => Ok []
  end.
(** The loop over parallel (runner.py 596-598) *)
Fixpoint assign (l : list slot) (parallel : list nat) (states : list S) : res (list slot) :=
  match parallel with
  | [] => Ok l
  | n :: ps =>
      match nth_error l n, states with
      | Some x, s :: states =>
          do _ <- assert_ ((s_terminal x <=? 0) || (s_terminal x =? 2)) "AssertionError";
          assign (put n {| s_state := Some s; s_terminal := s_terminal x; s_reward := s_reward x |} l) ps states
      | _, _ => Err "IndexError"
      end
  end.
(** The first pass after a reset: nothing is executed; the rewards, which stay, are not used then (runner.py 599-604) *)
Definition begin (prev : list Z) (old : list (option S)) : list slot :=
  map (fun ps => {| s_state := snd ps; s_terminal := if fst ps <? -1 then -1 else fst ps; s_reward := None |}) (combine prev old).
(** Execute, or begin (runner.py 578-604) *)
Definition advance (prev : list Z) (old : list (option S)) (actions : list A) (w : W) : res (list slot) * W :=
  if forallb (fun t => -1 <=? t) prev then
    let (o, w) := execute w actions in
    (do o <- o; let '(parallel, states, ts, rs) := o in do l <- spread prev old ts rs; assign l parallel states, w)
  else (Ok (begin prev old), w).
(** Numbers with a property (runner.py 723-726, 799-802) *)
Definition numbers {X} (f : X -> bool) (l : list X) : list nat :=
  map fst (filter (fun nx => f (snd nx)) (combine (seq 0 (length l)) l)).
(** The states of the environments which act; None cannot be processed (runner.py 729-731) *)
Fixpoint acting_states (l : list slot) : res (list S) :=
  match l with
  | [] => Ok []
  | x :: q =>
      if s_terminal x <=? 0 then match s_state x with Some s => do q <- acting_states q; Ok (s :: q) | None => Err "no state" end
      else acting_states q
  end.
(** handle_act_joint: without environments the old actions stay (runner.py 722-731) *)
Definition act_joint (l : list slot) (old : list A) : res (list A) :=
  match numbers (fun x => s_terminal x <=? 0) l with
  | [] => Ok old
  | ps => do ss <- acting_states l; Ok (act ps ss)
  end.
(** handle_observe_joint: numbers, terminals and rewards (runner.py 798-808) *)
Definition observe_joint (prev : list Z) (l : list slot) : list (nat * Z * option R) :=
  map (fun nx => (fst nx, s_terminal (snd (snd nx)), s_reward (snd (snd nx))))
    (filter (fun nx => (fst (snd nx) <=? 0) && (0 <=? s_terminal (snd (snd nx)))) (combine (seq 0 (length l)) (combine prev l))).
(** What is kept between passes (runner.py 530-533, 669, 729) *)
Record loop := { previous : list Z; kept : list (option S); chosen : list A; env : W }.
(** One pass without a reset, and what the agent observes (runner.py 554-669) *)
Definition pass (s : loop) : res (list (nat * Z * option R) * loop) :=
  let (l, w) := advance (previous s) (kept s) (chosen s) (env s) in
  do l <- l;
  do a <- act_joint l (chosen s);
  Ok (observe_joint (previous s) l, {| previous := map s_terminal l; kept := map s_state l; chosen := a; env := w |}).
(** Passes while an environment is running, at most so many (runner.py 554) *)
Fixpoint passes (k : nat) (s : loop) : res (list (list (nat * Z * option R)) * loop) :=
  match k with
  | O => Ok ([], s)
  | Datatypes.S k =>
      if existsb (fun t => t <=? 0) (previous s) then
        do x <- pass s; do y <- passes k (snd x); Ok (fst x :: fst y, snd y)
      else Ok ([], s)
  end.
(** The states and marks after a reset (runner.py 549-551, 689-691) *)
Fixpoint mark (parallel : list nat) (states : list S) (prev : list Z) (old : list (option S)) : res (list Z * list (option S)) :=
  match parallel with
  | [] => Ok (prev, old)
  | n :: ps =>
      match nth_error prev n, states with
      | Some _, s :: states => mark ps states (put n (-2) prev) (put n (Some s) old)
      | _, _ => Err "IndexError"
      end
  end.
End Vector.
