(** Model of EnvironmentWrapper, /repo/tensorforce/environments/environment.py 472-648.

    Simplified: the wrapped environment is an arbitrary state machine ([environment], its
    state is [E]); states are abstract, the check of states against the specification
    (_check_states_output 443-469) and of the reward's type are predicates of the
    environment.  The terminal is an integer (int(bool) for booleans).  The result of the
    environment is tagged as single or parallel; a result of the wrong kind fails to unpack.
    A reward-shaping string is the function it computes.  Attribute access (632-648) and
    close (515-516) are not modelled. *)

From Coq Require Import String List ZArith Bool.
From Verif Require Import Base EnvSpec.
Import ListNotations.
Open Scope string_scope.
Open Scope Z_scope.

Section Env.
Context {S A R E : Type}.

(** Attributes of the wrapper (488-497, 325-330) *)
Record wrapper := Wrapper {
  w_env : E;
  w_limit : option nat;           (* _max_episode_timesteps *)
  w_timestep : option nat;        (* _timestep *)
  w_previous : option S;          (* _previous_states *)
  w_parallel : option nat;        (* _num_parallel *)
  w_reset_check : bool;           (* _reset_output_check *)
  w_execute_check : bool }.       (* _execute_output_check *)

Variable env : environment S A R E.
Variable reward_shaping : option (shaping S A R).

(** 474-497 (the argument is not a wrapper itself, 477-478) *)
Definition init (e : E) (max_episode_timesteps : option nat) : res wrapper :=
  if match e_limit env, max_episode_timesteps with Some n, Some m => Nat.ltb n m | _, _ => false end then Err "unexpected"
  else if e_vectorizable env && Nat.ltb 1 (e_actors env) then Err "unexpected"
  else Ok (Wrapper e (match max_episode_timesteps with None => e_limit env | Some m => Some m end) None None None true true).

(** 535-542 *)
Definition check_reset (w : wrapper) (x : start S) : bool :=
  match w_parallel w, x with
  | None, StartOne s => e_states_ok env false s
  | Some n, StartMany p s => e_states_ok env true s && forallb (fun i => Nat.ltb i n) p
  | _, _ => false
  end.

(** 518-547 *)
Definition reset (num_parallel : option nat) (w : wrapper) : wrapper * res (start S) :=
  let w := Wrapper (w_env w) (w_limit w) (Some 0%nat) (w_previous w) (w_parallel w) (w_reset_check w) (w_execute_check w) in
  if match num_parallel with None => false | Some _ => negb (e_vectorizable env) end then (w, Err "assert")
  else
    let np := if Nat.ltb 1 (e_actors env) then Some (e_actors env) else num_parallel in
    let (e, r) := e_reset env (if Nat.ltb 1 (e_actors env) then None else num_parallel) (w_env w) in
    let w := Wrapper e (w_limit w) (w_timestep w) (w_previous w) np (w_reset_check w) (w_execute_check w) in
    match r with
    | Err m => (w, Err m)
    | Ok x =>
      match np, x with
      | None, StartOne s | Some _, StartMany _ s =>
        if w_reset_check w && negb (check_reset w x) then (w, Err "Environment.reset: invalid")
        else
          (Wrapper (w_env w) (w_limit w) (w_timestep w) (match reward_shaping with Some _ => Some s | None => w_previous w end)
             (w_parallel w) false (w_execute_check w), Ok x)
      | _, _ => (w, Err "unpack")
      end
    end.

(** 561-587 *)
Definition check_execute (w : wrapper) (o : out S R) : bool :=
  match w_parallel w, o with
  | None, One s f r => e_states_ok env false s && ((0 <=? f) && (f <=? 2)) && e_reward_ok env r
  | Some n, Many p (Some s) fs rs =>
      e_states_ok env true s && forallb (fun i => Nat.ltb i n) p && forallb (fun f => (0 <=? f) && (f <=? 2)) fs &&
      forallb (e_reward_ok env) rs
  | _, _ => false
  end.

(** 589-606: for a single environment; in the parallel case terminal is an array, whose
    .item() (604) either fails or gives a number without the .astype of line 617 *)
Definition shape (w : wrapper) (a : A) (o : out S R) : res (out S R) :=
  match reward_shaping with
  | None => Ok o
  | Some g =>
    match o, w_previous w with
    | One s f r, Some prev => do rf <- g prev a f r s; let (r', f') := rf in Ok (One s (match f' with Some f' => f' | None => f end) r')
    | One _ _ _, None => Err "no states"
    | Many _ _ _ _, _ => Err "item/astype"
    end
  end.

(** 608-630: the limit, given the step count after this step *)
Definition limit_output (w : wrapper) (timestep : nat) (o : out S R) : out S R :=
  let reached := match w_limit w with Some m => Nat.leb m timestep | None => false end in
  match o with
  | One s f r => One s (if (f =? 0) && reached then 2 else f) r
  | Many p s fs rs =>
      if existsb (fun f => f =? 0) fs && reached then Many [] None (map (fun f => if f =? 0 then 2 else f) fs) rs else o
  end.

(** 613, 625 *)
Definition ended (o : out S R) : bool :=
  match o with One _ f _ => 0 <? f | Many _ _ fs _ => forallb (fun f => 0 <? f) fs end.

(** 606: the states kept for the next call of the shaping function *)
Definition states_of (o : out S R) : option S := match o with One s _ _ => Some s | Many _ s _ _ => s end.

(** 549-630 *)
Definition execute (a : A) (w : wrapper) : wrapper * res (out S R) :=
  match w_timestep w with
  | None => (w, Err "An environment episode has to be initialized by calling reset() first.")
  | Some t =>
    if match w_limit w with Some m => Nat.leb m t | None => false end then (w, Err "assert")
    else
      let (e, r) := e_execute env a (w_env w) in
      let w := Wrapper e (w_limit w) (w_timestep w) (w_previous w) (w_parallel w) (w_reset_check w) (w_execute_check w) in
      match r with
      | Err m => (w, Err m)
      | Ok o =>
        match w_parallel w, o with
        | None, One _ _ _ | Some _, Many _ _ _ _ =>
          if w_execute_check w && negb (check_execute w o) then (w, Err "Environment.execute: invalid")
          else
            match shape w a o with
            | Err m => (Wrapper (w_env w) (w_limit w) (w_timestep w) (w_previous w) (w_parallel w) (w_reset_check w) false, Err m)
            | Ok o =>
              let o' := limit_output w (t + 1) o in
              (Wrapper (w_env w) (w_limit w) (if ended o' then None else Some (t + 1)%nat)
                 (match reward_shaping with Some _ => states_of o | None => w_previous w end) (w_parallel w) (w_reset_check w) false, Ok o')
            end
        | _, _ => (w, Err "unpack")
        end
      end
  end.

(** The user's calls, and the results of a list of steps (environment.py 518-630) *)
Inductive call := Reset (num_parallel : option nat) | Execute (a : A).
(** one call (environment.py 518-630) *)
Definition do_call (w : wrapper) (c : call) : wrapper :=
  match c with Reset np => fst (reset np w) | Execute a => fst (execute a w) end.
(** a sequence of calls (environment.py 518-630) *)
Definition calls (l : list call) (w : wrapper) : wrapper := fold_left do_call l w.
(** the results of calls of execute (environment.py 549-630) *)
Fixpoint steps (l : list A) (w : wrapper) : list (res (out S R)) :=
  match l with [] => [] | a :: l => let (w', r) := execute a w in r :: steps l w' end.
End Env.
Arguments wrapper : clear implicits.
