(** Specification of the episode limit of environments.

    [environment]: an arbitrary environment as seen by its wrapper -- its state is [E], a
    call may raise.  It answers a step by [One] (state, terminal, reward), or, executed in
    parallel, by [Many] (indices of the continuing instances, their states -- None if there
    are none --, and terminal and reward of every instance which acted). *)

From Coq Require Import String List ZArith Bool.
From Verif Require Import Base.
Import ListNotations.
Open Scope Z_scope.

Section Env.
Context {S A R E : Type}.

Inductive out := One (s : S) (f : Z) (r : R) | Many (p : list nat) (s : option S) (fs : list Z) (rs : list R).
Inductive start := StartOne (s : S) | StartMany (p : list nat) (s : S).

Record environment := Environment {
  e_reset : option nat -> E -> E * res start;
  e_execute : A -> E -> E * res out;
  e_limit : option nat;       (* max_episode_timesteps() *)
  e_vectorizable : bool;      (* is_vectorizable() *)
  e_actors : nat;             (* num_actors() *)
  e_states_ok : bool -> S -> bool;  (* the states match the specification (batched or not) *)
  e_reward_ok : R -> bool }.        (* the reward is a number *)

(** What the bare environment answers to a list of actions *)
Fixpoint answers (env : environment) (e : E) (l : list A) : list (res out) :=
  match l with
  | [] => []
  | a :: r => let (e', o) := e_execute env a e in o :: answers env e' r
  end.
(** ... and its state afterwards *)
Definition after (env : environment) (e : E) (l : list A) : E := fold_left (fun e a => fst (e_execute env a e)) l e.

(** A reward shaping function gets the previous states, the actions, terminal, reward and
    the next states; it returns the reward and possibly a terminal. *)
Definition shaping := S -> A -> Z -> R -> S -> res (R * option Z).
Fixpoint shaped (g : shaping) (prev : S) (l : list A) (outs : list (res out)) : list (res out) :=
  match l, outs with
  | a :: l, Ok (One s f r) :: outs =>
      match g prev a f r s with
      | Ok (r', f') => Ok (One s (match f' with Some f' => f' | None => f end) r') :: shaped g s l outs
      | Err m => Err m :: shaped g s l outs
      end
  | _, _ => outs
  end.

(** An answer as documented: terminals 0, 1 or 2, instances within the number of parallel ones *)
Definition flag (f : Z) : bool := (0 <=? f) && (f <=? 2).
Definition documented (env : environment) (np : option nat) (o : out) : bool :=
  match np, o with
  | None, One s f r => e_states_ok env false s && flag f && e_reward_ok env r
  | Some n, Many p (Some s) fs rs =>
      e_states_ok env true s && forallb (fun i => Nat.ltb i n) p && forallb flag fs && forallb (e_reward_ok env) rs
  | _, _ => false
  end.
Definition allowed (np : option nat) (o : out) : bool :=
  match np, o with None, One _ f _ => flag f | Some _, Many _ _ fs _ => forallb flag fs | _, _ => false end.

(** The episode is over: every instance has reported a terminal. *)
Definition over (o : out) : bool :=
  match o with One _ f _ => negb (f =? 0) | Many _ _ fs _ => forallb (fun f => negb (f =? 0)) fs end.

(** The answer at the last admitted timestep: whatever has not ended is reported as
    aborted, no instance continues. *)
Definition stop (f : Z) : Z := if f =? 0 then 2 else f.
Definition last_answer (o : out) : out :=
  if over o then o
  else match o with One s f r => One s (stop f) r | Many p s fs rs => Many [] None (map stop fs) rs end.

(** The i-th step (from 0) of an episode takes place: the limit is not reached, and no
    earlier answer ended the episode. *)
Definition takes_place (limit : option nat) (outs : list (res out)) (i : nat) : Prop :=
  match limit with Some m => (i < m)%nat | None => True end /\
  forall j, (j < i)%nat -> exists o, nth_error outs j = Some (Ok o) /\ over o = false.
End Env.
Arguments out : clear implicits.
Arguments start : clear implicits.
Arguments environment : clear implicits.
Arguments shaping : clear implicits.
