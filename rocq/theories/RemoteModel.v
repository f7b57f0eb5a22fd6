(** Model of RemoteEnvironment, /repo/tensorforce/environments/environment.py 651-916,
    over a reliable connection (MultiprocessingEnvironment,
    /repo/tensorforce/environments/multiprocessing_environment.py 27-67).

    The worker process and, in non-blocking mode, the thread which performs a step run
    concurrently: the events [Work] (the worker handles a request) and [Thread] (the thread
    continues) happen at arbitrary times between the user's calls; a call which waits for a
    reply lets the worker run.  Simplified: only single (not vectorised) environments; the
    environment object of the worker is arbitrary ([local]); measuring of seconds
    (690-691, 711-716, 858-868, 901-908) is left out; the thread runs during the user's
    own calls only at the calls themselves, a call while a thread holds the connection
    raises (757-760). *)

From Coq Require Import String List ZArith Bool.
From Verif Require Import Base RemoteSpec.
Import ListNotations.
Open Scope string_scope.
Open Scope list_scope.

Section Remote.
Context {S A R K V E : Type}.
Variable none : V.
Variable is_none : V -> bool.          (* v is None *)
Variable no_args : K.                  (* kwargs = dict() *)
Variable value_args : V -> K.          (* kwargs = dict(value=v) *)
Variable is_value : K -> option V.     (* len(kwargs) == 1 and 'value' in kwargs *)
Variable env : local S A R K V E.

(** A request: function and keyword arguments, None for an attribute access (kwargs None) (756-767) *)
Inductive request := QReset | QExecute (a : A) | QCall (f : string) (k : option K).
(** 720: what the worker sends *)
Inductive reply := PReset (s : S) | PStep (s : S) (t : Z) (r : R) | PValue (v : V).

(** 693-709: getattr, then call, read or set *)
Definition serve (q : request) (e : E) : E * res reply :=
  match q with
  | QReset => let (e, r) := l_reset env e in (e, do s <- r; Ok (PReset s))
  | QExecute a => let (e, r) := l_execute env a e in (e, do x <- r; let '(s, t, r) := x in Ok (PStep s t r))
  | QCall f k =>
    match l_attr env f e, k with
    | Method, None => (e, Ok (PValue none))
    | Method, Some k => let (e, r) := l_invoke env f k e in (e, do v <- r; Ok (PValue v))
    | Value v, None => (e, Ok (PValue v))
    | Missing, None => (e, Err "Invalid remote attribute/function access.")
    | _, Some k => match is_value k with
                   | Some v => (l_set env f v e, Ok (PValue none))
                   | None => (e, Err "Invalid remote attribute/function access.")
                   end
    end
  end.
(** 722-723: function == 'close' *)
Definition is_close (q : request) : bool := match q with QCall f _ => String.eqb f "close" | _ => false end.

(** A step in a thread: not yet sent, or waiting for the reply, or ended by an exception (874-892) *)
Inductive phase := Begin | Sent | Died.

(** The proxy's attributes (748-754), the two directions of the connection and the worker *)
Record state := State {
  expect : option request;                   (* _expect_receive *)
  observation : option (result S R V);       (* _observation *)
  thread : option (started A * phase);       (* _thread *)
  open : bool;                               (* the proxy's end of the connection *)
  requests : list request;                   (* sent, not yet handled *)
  replies : list (res reply);                (* sent by the worker, not yet received *)
  worker : option E }.                       (* the worker's environment, None: process ended *)

(** 747-754 *)
Definition init (e : E) : state := State None None None true [] [] (Some e).

(** 686-741, one pass of the loop: a failure is sent twice and ends the worker, as does close *)
Definition work (s : state) : state :=
  match requests s, worker s with
  | q :: qs, Some e =>
    match serve q e with
    | (e', Ok p) => State (expect s) (observation s) (thread s) (open s) qs (replies s ++ [Ok p]) (if is_close q then None else Some e')
    | (_, Err m) => State (expect s) (observation s) (thread s) (open s) qs (replies s ++ [Err m; Err m]) None
    end
  | _, _ => s
  end.

(** 756-767 *)
Definition send (q : request) (s : state) : state * res unit :=
  match expect s with
  | Some _ => (State (expect s) (observation s) (thread s) false (requests s) (replies s) (worker s), Err "unexpected")
  | None =>
    let s1 := State (Some q) (observation s) (thread s) (open s) (requests s) (replies s) (worker s) in
    if open s then (State (Some q) (observation s) (thread s) true (requests s ++ [q]) (replies s) (worker s), Ok tt)
    else (s1, Err "closed")
  end.

(** 769-787: waits for the worker's reply.  (The proxy only receives for the function it
    sent, as all callers do.) *)
Definition receive (s : state) : state * res reply :=
  let s := match replies s with [] => work s | _ => s end in
  let close s := State None (observation s) (thread s) false (requests s) (replies s) (worker s) in
  match open s, replies s with
  | true, Ok p :: r => (State None (observation s) (thread s) true (requests s) r (worker s), Ok p)
  | true, Err m :: r => (close (State None (observation s) (thread s) true (requests s) r (worker s)), Err m)
  | _, _ => (close s, Err "EOFError")
  end.
(** send, then receive, e.g. 799-800, 857-868 *)
Definition ask (q : request) (s : state) : state * res reply :=
  let (s, u) := send q s in
  match u with Ok _ => receive s | Err m => (s, Err m) end.

(** 857-868 *)
Definition to_result (p : reply) : result S R V :=
  match p with PReset s => RStates s | PStep s t r => RStep s t r | PValue v => RValue v end.
(** the result of a call, 795-916 *)
Definition answered {X} (p : state * res X) (f : X -> res (result S R V)) : state * res (result S R V) :=
  (fst p, do x <- snd p; f x).
(** 872, 887 *)
Definition request_of (x : started A) : request := match x with SReset => QReset | SExecute a => QExecute a end.
(** 883, 896, 901-908: the result of a step started before *)
Definition observed (x : started A) (p : reply) : result S R V :=
  match x, p with SReset, PReset s => RStarted s | _, p => to_result p end.

(** 881-884, 894-897: the thread sends, then receives and stores the observation *)
Definition continue (s : state) : state :=
  match thread s with
  | Some (x, Begin) =>
    let (s1, u) := send (request_of x) s in
    State (expect s1) (observation s1) (Some (x, match u with Ok _ => Sent | Err _ => Died end)) (open s1) (requests s1) (replies s1) (worker s1)
  | Some (x, Sent) =>
    let (s1, r) := receive s in
    match r with
    | Ok p => State (expect s1) (Some (observed x p)) None (open s1) (requests s1) (replies s1) (worker s1)
    | Err _ => State (expect s1) (observation s1) (Some (x, Died)) (open s1) (requests s1) (replies s1) (worker s1)
    end
  | _ => s
  end.

(** assignments to _thread and _observation, 870-916 *)
Definition set_thread (s : state) (o : option (result S R V)) (t : option (started A * phase)) : state :=
  State (expect s) o t (open s) (requests s) (replies s) (worker s).

(** 795-916.  In blocking mode Start... only sends (872-873, 887-888), and receive_execute receives
    (900-908); otherwise a thread is started (874-879, 889-892), and receive_execute takes
    its observation (909-916). *)
Definition perform (blocking : bool) (o : op A K V) (s : state) : state * res (result S R V) :=
  let unit_result p := answered p (fun _ => Ok RDone) in
  match o with
  | Reset => answered (ask QReset s) (fun p => Ok (to_result p))                        (* 857-862 *)
  | Execute a => answered (ask (QExecute a) s) (fun p => Ok (to_result p))              (* 864-868 *)
  | StartReset =>
    if blocking then unit_result (send QReset s)
    else (* a thread still running is joined 875-876 *)
      let s := continue (continue s) in
      (set_thread s None (Some (SReset, Begin)), Ok RDone)
  | StartExecute a =>
    if blocking then unit_result (send (QExecute a) s)
    else match thread s, observation s with
         | None, None => (set_thread s (observation s) (Some (SExecute a, Begin)), Ok RDone)
         | _, _ => (s, Err "assert")
         end
  | Receive =>
    if blocking then
      match expect s with
      | Some QReset => answered (receive s) (fun p => Ok (observed SReset p))
      | Some (QExecute a) => answered (receive s) (fun p => Ok (observed (SExecute a) p))
      | _ => (State (expect s) (observation s) (thread s) false (requests s) (replies s) (worker s), Err "unexpected")
      end
    else match thread s, observation s with
         | Some _, _ => (s, Ok RPending)
         | None, Some x => (set_thread s None None, Ok x)
         | None, None => (s, Err "assert")
         end
  | Get f =>                                                                            (* 795-811 *)
    answered (ask (QCall f None) s) (fun p => match p with PValue v => if is_none v then Ok RFunction else Ok (RValue v) | _ => Err "TypeError" end)
  | Set_ f v =>                                                                         (* 813-819 *)
    answered (ask (QCall f (Some (value_args v))) s) (fun p => match p with PValue v => if is_none v then Ok RDone else Err "assert" | _ => Err "TypeError" end)
  | Call f k => answered (ask (QCall f (Some k)) s) (fun p => match p with PValue v => Ok (RValue v) | _ => Err "TypeError" end)  (* 821-843 *)
  | Close =>                                                                            (* 845-855 *)
    let s := continue (continue s) in
    let s := match expect s with Some _ => fst (receive s) | None => s end in
    let (s, r) := ask (QCall "close" (Some no_args)) s in
    (State (expect s) None None false (requests s) (replies s) (worker s), do _ <- r; Ok RDone)
  end.

(** The user's calls with their results, and the scheduler's events (795-916, 686-741) *)
Inductive event := User (o : op A K V) | Work | Thread.
(** a sequence of calls and events, 686-916 *)
Fixpoint run (blocking : bool) (l : list event) (s : state) : list (op A K V * res (result S R V)) * state :=
  match l with
  | [] => ([], s)
  | User o :: l => let (s, r) := perform blocking o s in let (t, s) := run blocking l s in ((o, r) :: t, s)
  | Work :: l => run blocking l (work s)
  | Thread :: l => run blocking l (continue s)
  end.
End Remote.
