(** How many episodes the runner starts with one vectorized environment.

    Modelled: execution/runner.py 541-548 (first reset), 671-693 (resets when all episodes have ended), 407 and 840 (count).

    Simplified: every episode which is started ends and is counted once, which is C179; the flag terminate is left out because
    the resets do not depend on it. *)

From Coq Require Import List Arith Bool.
Import ListNotations.

(** The first reset: all instances, whatever number of episodes is asked for (runner.py 545-548) *)
Definition first_reset (n : nat) : nat := n.
(** A further reset: min(num_episodes_left, num_vectorized), or all actors; None is infinity (runner.py 683-688) *)
Definition next_reset (vectorizable : bool) (n : nat) (left : option nat) : nat :=
  if vectorizable then match left with Some l => Nat.min l n | None => n end else n.
(** num_episodes - episodes (runner.py 673) *)
Definition episodes_left (num : option nat) (episodes : nat) : option nat := option_map (fun m => m - episodes) num.
(** num_episodes_left > 0 (runner.py 682) *)
Definition continues (left : option nat) : bool := match left with Some l => 0 <? l | None => true end.
(** The numbers of episodes started by further resets, at most so many (runner.py 671-693) *)
Fixpoint further (k : nat) (vectorizable : bool) (n : nat) (num : option nat) (episodes : nat) : list nat :=
  match k with
  | O => []
  | S k =>
      let left := episodes_left num episodes in
      if continues left then let s := next_reset vectorizable n left in s :: further k vectorizable n num (episodes + s) else []
  end.
(** All of them: Runner.run with at most so many further resets (runner.py 541-693) *)
Definition started (k : nat) (vectorizable : bool) (n : nat) (num : option nat) : list nat :=
  first_reset n :: further k vectorizable n num (first_reset n).
