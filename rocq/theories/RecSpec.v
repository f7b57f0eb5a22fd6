(** Specification of recorded traces: which episodes a history of calls completes.

    A history is the list of what happened, one entry per stream and step: [Acted p s a]
    (the agent acted on stream p in state s by action a), [Observed p t r] (terminal and
    reward were observed), [WasReset]. *)

From Coq Require Import List ZArith Bool.
Import ListNotations.

Section Rec.
Context {S A R : Type}.

Inductive event := Acted (p : nat) (s : S) (a : A) | Observed (p : nat) (t : Z) (r : R) | WasReset.

(** A timestep, and the columns of a list of timesteps as stored in a file *)
Record step := Step { st_state : S; st_action : A; st_terminal : Z; st_reward : R }.
Record trace := Trace { tr_states : list S; tr_actions : list A; tr_terminal : list Z; tr_reward : list R }.
Definition columns (l : list step) : trace :=
  Trace (map st_state l) (map st_action l) (map st_terminal l) (map st_reward l).

(** The part of the history of stream [p] which belongs to its unfinished episode *)
Definition extend (p : nat) (l : list event) (e : event) : list event :=
  match e with
  | Acted q _ _ => if Nat.eqb q p then l ++ [e] else l
  | Observed q t _ => if Nat.eqb q p then (if Z.eqb t 0 then l ++ [e] else []) else l
  | WasReset => []
  end.
Definition unfinished (p : nat) (h : list event) : list event := fold_left (extend p) h [].

(** The n-th act and the n-th observation of an episode make its n-th timestep *)
Fixpoint acts (l : list event) : list (S * A) :=
  match l with [] => [] | Acted _ s a :: r => (s, a) :: acts r | _ :: r => acts r end.
Fixpoint observations (l : list event) : list (Z * R) :=
  match l with [] => [] | Observed _ t x :: r => (t, x) :: observations r | _ :: r => observations r end.
Definition steps (l : list event) : list step :=
  map (fun x => Step (fst (fst x)) (snd (fst x)) (fst (snd x)) (snd (snd x))) (combine (acts l) (observations l)).

(** The episodes completed by a history, in order of completion *)
Definition completes (h : list event) (i : nat) : list (list step) :=
  match nth_error h i with
  | Some (Observed p t r) =>
      if Z.eqb t 0 then [] else [steps (unfinished p (firstn i h) ++ [Observed p t r])]
  | _ => []
  end.
Definition episodes (h : list event) : list (list step) := flat_map (completes h) (seq 0 (length h)).

End Rec.
Arguments event : clear implicits.
Arguments step : clear implicits.
Arguments trace : clear implicits.
