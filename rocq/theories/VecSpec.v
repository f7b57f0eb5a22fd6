(** What is expected of the runner with a vectorized environment: each instance behaves as if it were alone. *)

From Coq Require Import String List ZArith Bool Arith.
From Verif Require Import Base VecModel.
Import ListNotations.
Open Scope list_scope.
Open Scope Z_scope.

Section Instances.
(** One instance: its own state [E], and one step; the action only depends on its number and state *)
Variables (S A R E : Type) (one : E -> A -> E * S * Z * R) (policy : nat -> S -> A).

(** The episode of one instance, with the last terminal *)
Inductive episode := Running (e : E) (s : S) (p : Z) | Over (p : Z).
Definition well (x : episode) : Prop := match x with Running _ _ p => -1 <= p <= 0 | Over p => 0 < p end.
(** One step alone: what is next, and what is observed *)
Definition next (n : nat) (x : episode) : episode * option (Z * R) :=
  match x with
  | Running e s _ => let '(e', s', t, r) := one e (policy n s) in (if 0 <? t then Over t else Running e' s' t, Some (t, r))
  | Over p => (Over p, None)
  end.
(** All observations of so many steps alone, and the episode then *)
Fixpoint alone (k : nat) (n : nat) (x : episode) : list (Z * R) * episode :=
  match k with
  | O => ([], x)
  | Datatypes.S k => let (x', o) := next n x in let (os, y) := alone k n x' in (match o with Some o => [o] | None => [] end ++ os, y)
  end.

(** A vectorized environment of independent instances: the actions are those of the running instances, states are returned
    for those which go on *)
Fixpoint together (i : nat) (ws : list (option E)) (acts : list A) : list nat * list S * list Z * list R * list (option E) :=
  match ws, acts with
  | None :: ws, _ => let '(ps, ss, ts, rs, ws) := together (Datatypes.S i) ws acts in (ps, ss, ts, rs, None :: ws)
  | Some e :: ws, a :: acts =>
      let '(e', s', t, r) := one e a in
      let '(ps, ss, ts, rs, ws) := together (Datatypes.S i) ws acts in
      if 0 <? t then (ps, ss, t :: ts, r :: rs, None :: ws) else (i :: ps, s' :: ss, t :: ts, r :: rs, Some e' :: ws)
  | _, _ => ([], [], [], [], [])
  end.
Definition vector (ws : list (option E)) (acts : list A) : res (list nat * list S * list Z * list R) * list (option E) :=
  let '(ps, ss, ts, rs, ws) := together 0 ws acts in (Ok (ps, ss, ts, rs), ws).

Definition state_of (x : episode) : option S := match x with Running _ s _ => Some s | Over _ => None end.
Definition terminal_of (x : episode) : Z := match x with Running _ _ p => p | Over p => p end.
Definition world_of (x : episode) : option E := match x with Running e _ _ => Some e | Over _ => None end.
Definition running (x : episode) : bool := match x with Running _ _ _ => true | Over _ => false end.
(** The actions of the running instances *)
Fixpoint choices (i : nat) (xs : list episode) : list A :=
  match xs with
  | [] => []
  | Running _ s _ :: q => policy i s :: choices (Datatypes.S i) q
  | Over _ :: q => choices (Datatypes.S i) q
  end.
(** The runner is at these episodes *)
Definition at_episodes (xs : list episode) (s : loop S A (list (option E))) : Prop :=
  previous _ _ _ s = map terminal_of xs /\ kept _ _ _ s = map state_of xs /\ env _ _ _ s = map world_of xs /\
  (existsb running xs = true -> chosen _ _ _ s = choices 0 xs).
(** Observations of one number *)
Definition of_number (n : nat) (os : list (list (nat * Z * option R))) : list (Z * option R) :=
  flat_map (fun o => map (fun x => (snd (fst x), snd x)) (filter (fun x => Nat.eqb (fst (fst x)) n) o)) os.
End Instances.
Arguments Running {S E}. Arguments Over {S E}.
