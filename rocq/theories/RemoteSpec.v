(** Specification of remote environments: the environment used directly (in the same
    process).

    [local]: an arbitrary environment object with state [E]; its attributes are methods or
    values, or missing, and a call may raise.  [V] are Python values, [none] is None. *)

From Coq Require Import String List ZArith Bool.
From Verif Require Import Base.
Import ListNotations.

Section Remote.
Context {S A R K V E : Type}.

Inductive attribute := Missing | Method | Value (v : V).
Record local := Local {
  l_reset : E -> E * res S;
  l_execute : A -> E -> E * res (S * Z * R);
  l_attr : string -> E -> attribute;
  l_invoke : string -> K -> E -> E * res V;   (* call of a method with keyword arguments *)
  l_set : string -> V -> E -> E }.

(** What a user does with an environment, and what is returned: [Start...] only starts a
    step, [Receive] asks for its result. *)
Inductive op :=
| Reset | Execute (a : A) | StartReset | StartExecute (a : A) | Receive
| Get (f : string) | Set_ (f : string) (v : V) | Call (f : string) (k : K) | Close.
Inductive result :=
| RStates (s : S) | RStep (s : S) (t : Z) (r : R) | RStarted (s : S)  (* states, -1, None *)
| RValue (v : V) | RFunction | RDone | RPending  (* None: not ready *) .

(** The environment used directly, [pending] is the started step. *)
Inductive started := SReset | SExecute (a : A).
Definition with_result {X} (f : X -> result) (p : E * res X) : E * res result :=
  (fst p, do x <- snd p; Ok (f x)).
Definition step_result (x : S * Z * R) : result := let '(s, t, r) := x in RStep s t r.

Definition local_op (env : local) (o : op) (st : E * option started) : (E * option started) * res result :=
  let (e, pending) := st in
  let idle (p : E * res result) := ((fst p, None), snd p) in
  match o, pending with
  | Reset, None => idle (with_result RStates (l_reset env e))
  | Execute a, None => idle (with_result step_result (l_execute env a e))
  | StartReset, None => ((e, Some SReset), Ok RDone)
  | StartExecute a, None => ((e, Some (SExecute a)), Ok RDone)
  | Receive, Some SReset => idle (with_result RStarted (l_reset env e))
  | Receive, Some (SExecute a) => idle (with_result step_result (l_execute env a e))
  | Get f, None => match l_attr env f e with Missing => (st, Err "AttributeError") | Method => (st, Ok RFunction) | Value v => (st, Ok (RValue v)) end
  | Set_ f v, None => ((l_set env f v e, None), Ok RDone)
  | Call f k, None => match l_attr env f e with Method => idle (with_result RValue (l_invoke env f k e)) | _ => (st, Err "TypeError") end
  | _, _ => (st, Err "unexpected")
  end.
Fixpoint local_run (env : local) (l : list op) (st : E * option started) : list (res result) :=
  match l with [] => [] | o :: l => let (st', r) := local_op env o st in r :: local_run env l st' end.
End Remote.
Arguments attribute : clear implicits.
Arguments local : clear implicits.
Arguments op : clear implicits.
Arguments result : clear implicits.
Arguments started : clear implicits.
