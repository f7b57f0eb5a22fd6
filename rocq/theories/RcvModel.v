(** Environments which are started first and asked for the result later, and the checks of their first outputs.

    Modelled: environments/environment.py 249-256 (Environment.__init__), 367-445 (start_reset, start_execute, receive_execute),
    447-470 (_check_states_output), core/utils/tensors_spec.py 64-75 (np_assert), core/utils/nested_dict.py 63-68 (zip_items).

    Simplified: an environment is any transition system whose calls return or raise, in which case its own state may have
    changed, too; dictionaries of states are flat; whether one value fits a specification, alone or as a batch, is a
    predicate.  Not modelled: the wrapper (EnvModel.v) and remote environments (RemoteModel.v). *)

From Coq Require Import String Ascii List ZArith QArith Bool Arith.
From Verif Require Import Base.
Import ListNotations.
Open Scope string_scope.
Open Scope list_scope.
Open Scope Z_scope.

(** ** Values *)
(** Terminals and rewards: Python numbers, numpy values with their entries, others (environment.py 411-423) *)
Inductive value := PBool (b : bool) | PInt (n : Z) | PFloat (q : Q) | PNumpy (l : list value) | POther.
(** x.item() of numpy values with one entry (environment.py 411-414) *)
Definition item (x : value) : res value :=
  match x with PNumpy [y] => Ok y | PNumpy _ => Err "ValueError" | _ => Ok x end.
(** Towards zero (environment.py 440) *)
Definition truncate (q : Q) : Z := Z.quot (Qnum q) (Zpos (Qden q)).
(** int(x) (environment.py 440) *)
Fixpoint int (x : value) : res Z :=
  match x with
  | PBool b => Ok (if b then 1 else 0)
  | PInt n => Ok n
  | PFloat q => Ok (truncate q)
  | PNumpy [y] => int y
  | _ => Err "TypeError"
  end.
(** Check of terminal (environment.py 415-419) *)
Definition check_terminal (x : value) : res unit :=
  match x with
  | PBool _ => Ok tt
  | PInt n => assert_ (negb ((n <? 0) || (2 <? n))) "invalid value for terminal"
  | _ => Err "invalid value for terminal"
  end.
(** Check of reward; a bool is an int (environment.py 420-423) *)
Definition check_reward (x : value) : res unit :=
  match x with PBool _ | PInt _ | PFloat _ => Ok tt | _ => Err "invalid type for reward" end.

(** ** States *)
Section States.
Variable V : Type.
(** One specification: whether a value fits, as a batch or alone (tensor_spec.py 240-283) *)
Definition fits := bool -> V -> bool.
(** One specification, or several with names (environment.py 449-451, 458-459) *)
Inductive specification := Single (f : fits) | Several (l : list (string * fits)).
(** A value, or a dictionary (environment.py 452, 461) *)
Inductive observed := One (v : V) | Named (l : list (string * V)).
(** name.endswith(x) (environment.py 454, 463) *)
Fixpoint endswith (x s : string) : bool := String.eqb s x || match s with EmptyString => false | String _ s => endswith x s end.
(** d[name] (environment.py 456, nested_dict.py 67) *)
Fixpoint lookup {X} (k : string) (l : list (string * X)) : option X :=
  match l with [] => None | (k', x) :: q => if String.eqb k k' then Some x else lookup k q end.
(** The loop over a dictionary with several specifications: the values which are checked (environment.py 460-464) *)
Fixpoint select (specs : list (string * fits)) (l : list (string * V)) : res (list (string * V)) :=
  match l with
  | [] => Ok []
  | (k, v) :: q =>
      match lookup k specs with
      | Some _ => do q <- select specs q; Ok ((k, v) :: q)
      | None => if endswith "_mask" k then select specs q else Err "invalid component"
      end
  end.
(** The loop of zip_items; whether values are a batch is not passed on (tensors_spec.py 70-75, nested_dict.py 65-68) *)
Fixpoint assert_all (specs : list (string * fits)) (l : list (string * V)) : res unit :=
  match specs with
  | [] => Ok tt
  | (k, f) :: q =>
      match lookup k l with
      | None => Err "AssertionError"
      | Some v => do _ <- assert_ (f false v) "invalid state"; assert_all q l
      end
  end.
(** TensorsSpec.np_assert (tensors_spec.py 64-75) *)
Definition np_assert (specs : list (string * fits)) (l : list (string * V)) : res unit :=
  do _ <- assert_ (Nat.eqb (length l) (length specs)) "AssertionError"; assert_all specs l.
(** Environment._check_states_output (environment.py 447-470) *)
Definition check_states (sp : specification) (batched : bool) (x : observed) : res unit :=
  match sp, x with
  | Single f, One v => assert_ (f batched v) "invalid state"
  | Single f, Named l =>
      do _ <- assert_ (forallb (fun kv => String.eqb (fst kv) "state" || endswith "_mask" (fst kv)) l) "invalid component";
      match lookup "state" l with Some v => assert_ (f batched v) "invalid state" | None => Err "KeyError" end
  | Several _, One _ => Err "AttributeError"
  | Several specs, Named l => do s <- select specs l; np_assert specs s
  end.
End States.
Arguments Single {V}. Arguments Several {V}. Arguments One {V}. Arguments Named {V}.

(** ** Calls *)
Section Calls.
(** The environment itself: states, actions, what it returns, and whether it is vectorizable (environment.py 314-365) *)
Variables (W S A V : Type) (reset : W -> res S * W) (execute : A -> W -> res (S * value * value) * W) (vexecute : A -> W -> res V * W).
Variables (vectorizable : bool) (check : S -> res unit) (vcheck : V -> res unit).
(** What is expected (environment.py 252, 370, 377) *)
Inductive kind := Resetting | Executing.
(** Attributes (environment.py 249-256) *)
Record state := { expect : option kind; actions : option A; parallel : option Z; reset_check : bool; execute_check : bool; world : W }.
(** Environment.__init__ (environment.py 249-256) *)
Definition init (w : W) : state := {| expect := None; actions := None; parallel := None; reset_check := true; execute_check := true; world := w |}.
(** The calls (environment.py 367, 374, 381) *)
Inductive call := StartReset (num_parallel : option Z) | StartExecute (a : A) | Receive.
(** What they return (environment.py 397, 440-442) *)
Inductive reply := Nothing | Received (s : S) (terminal : Z) (reward : option value) | Vectorized (v : V).
(** Assignment to _expect_receive (environment.py 370, 377, 383, 402) *)
Definition set_expect (k : option kind) (s : state) : state :=
  {| expect := k; actions := actions s; parallel := parallel s; reset_check := reset_check s; execute_check := execute_check s; world := world s |}.
(** Assignment to _actions (environment.py 379, 438) *)
Definition set_actions (a : option A) (s : state) : state :=
  {| expect := expect s; actions := a; parallel := parallel s; reset_check := reset_check s; execute_check := execute_check s; world := world s |}.
(** Assignment to _num_parallel (environment.py 372) *)
Definition set_parallel (n : option Z) (s : state) : state :=
  {| expect := expect s; actions := actions s; parallel := n; reset_check := reset_check s; execute_check := execute_check s; world := world s |}.
(** Assignments to the flags (environment.py 395, 437) *)
Definition set_checks (r e : bool) (s : state) : state :=
  {| expect := expect s; actions := actions s; parallel := parallel s; reset_check := r; execute_check := e; world := world s |}.
(** The environment changes (environment.py 385, 405, 407) *)
Definition set_world (w : W) (s : state) : state :=
  {| expect := expect s; actions := actions s; parallel := parallel s; reset_check := reset_check s; execute_check := execute_check s; world := w |}.
(** Environment.start_reset (environment.py 367-372) *)
Definition start_reset (n : option Z) (s : state) : res reply * state :=
  match expect s with
  | Some _ => (Err "unexpected", s)
  | None =>
      let s := set_expect (Some Resetting) s in
      match n with
      | Some _ => if vectorizable then (Ok Nothing, set_parallel n s) else (Err "AssertionError", s)
      | None => (Ok Nothing, set_parallel n s)
      end
  end.
(** Environment.start_execute (environment.py 374-379) *)
Definition start_execute (a : A) (s : state) : res reply * state :=
  match expect s with
  | Some _ => (Err "unexpected", s)
  | None =>
      let s := set_expect (Some Executing) s in
      match actions s with Some _ => (Err "AssertionError", s) | None => (Ok Nothing, set_actions (Some a) s) end
  end.
(** Checks of the first output of execute (environment.py 408-423) *)
Definition first_output (x : S) (t r : value) : res (value * value) :=
  do _ <- check x; do r <- item r; do t <- item t; do _ <- check_terminal t; do _ <- check_reward r; Ok (t, r).
(** After a reset; num_parallel is not defined (environment.py 383-399) *)
Definition receive_reset (s : state) : res reply * state :=
  let s := set_expect None s in
  match parallel s with
  | Some _ => (Err "NameError", s)
  | None =>
      let (r, w) := reset (world s) in
      let s := set_world w s in
      match r with
      | Err e => (Err e, s)
      | Ok x =>
          if reset_check s then match check x with Err e => (Err e, s) | Ok _ => (Ok (Received x (-1) None), set_checks false (execute_check s) s) end
          else (Ok (Received x (-1) None), s)
      end
  end.
(** After execute; in the check of vectorized outputs, function is not defined (environment.py 402-442) *)
Definition receive_actions (s : state) : res reply * state :=
  let s := set_expect None s in
  match actions s with
  | None => (Err "AssertionError", s)
  | Some a =>
      match parallel s with
      | Some _ =>
          let (r, w) := vexecute a (world s) in
          let s := set_world w s in
          match r with
          | Err e => (Err e, s)
          | Ok v => if execute_check s then (match vcheck v with Err e => Err e | Ok _ => Err "NameError" end, s) else (Ok (Vectorized v), set_actions None s)
          end
      | None =>
          let (r, w) := execute a (world s) in
          let s := set_world w s in
          match r with
          | Err e => (Err e, s)
          | Ok (x, t, r) =>
              match (if execute_check s then first_output x t r else Ok (t, r)) with
              | Err e => (Err e, s)
              | Ok (t, r) =>
                  let s := set_actions None (set_checks (reset_check s) false s) in
                  (match int t with Ok n => Ok (Received x n (Some r)) | Err e => Err e end, s)
              end
          end
      end
  end.
(** Environment.receive_execute (environment.py 381-445) *)
Definition receive (s : state) : res reply * state :=
  match expect s with None => (Err "unexpected", s) | Some Resetting => receive_reset s | Some Executing => receive_actions s end.
(** One call (environment.py 367-445) *)
Definition step (c : call) (s : state) : res reply * state :=
  match c with StartReset n => start_reset n s | StartExecute a => start_execute a s | Receive => receive s end.
(** All calls, also after exceptions (environment.py 367-445) *)
Fixpoint run (cs : list call) (s : state) : list (res reply) * state :=
  match cs with
  | [] => ([], s)
  | c :: q => let (o, s) := step c s in let (os, s) := run q s in (o :: os, s)
  end.
End Calls.
