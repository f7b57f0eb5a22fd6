(** Environment.create, /repo/tensorforce/environments/environment.py 38-247, with
    EnvironmentWrapper.__init__ (473-495), the table of environments
    (/repo/tensorforce/environments/__init__.py 32-43) and try_import_module (/repo/tensorforce/util.py
    76-118).

    Arguments are dictionaries of Python values: None, booleans, integers, strings, functions,
    classes, environments, sequences and dictionaries.  Simplified: a maximum number of timesteps
    is None, an integer or a boolean, others raise; gym is installed; what classes' constructors
    return, the contents of files and what can be imported are arbitrary (the [world]); a remote
    environment is only its worker's arguments, the connection is modelled in RemoteModel.v and
    SockModel.v.  A recursive call takes one unit of fuel; without fuel there is no result. *)

From Coq Require Import String Ascii List ZArith Bool.
From Verif Require Import Base SigModel.
Import ListNotations.
Open Scope string_scope.
Open Scope list_scope.

(** Classes: subclasses of EnvironmentWrapper or RemoteEnvironment (environment.py 147-148), of
    Environment (159), of gym.Env (237), other classes *)
Inductive cls := CWrapper (name : string) | CEnv (name : string) | CGym (name : string) | COther (name : string).

(** An Environment object: its identity, max_episode_timesteps(), and whether it is vectorizable
    with more than one actor (environment.py 480-484) *)
Record env := Env { e_id : nat; e_limit : option Z; e_multi : bool }.
(** reward_shaping: None, an expression, a function, or something else (environment.py 56-60, 495) *)
Inductive shaping := NoShaping | Expr (s : string) | Fun (id : nat) | Invalid.
(** An EnvironmentWrapper object (environment.py 486-495) *)
Record wrapper := Wrapper { wr_env : env; wr_limit : option Z; wr_shaping : shaping }.

(** Atoms of Python values: objects of Environment subclasses and of gym.Env (environment.py 131,
    153, 236); a remote environment by its identity and max_episode_timesteps() *)
Inductive atom :=
| ANone | ABool (b : bool) | AInt (z : Z) | AStr (s : string) | AFun (id : nat)
| AClass (c : cls) | AEnv (e : env) | AWrapper (w : wrapper) | ARemote (id : nat) (limit : option Z) | AGym (id : nat).
(** Python values (arguments of environment.py 39-42) *)
Definition value := pval atom.
(** keyword arguments (environment.py 41) *)
Definition dict := list (string * value).
(** None (environment.py 40) *)
Definition none : value := PAtom ANone.
(** a string (environment.py 182) *)
Definition str (s : string) : value := PAtom (AStr s).

(** == of atoms (util.py 184, 188); objects are compared by identity *)
Definition atom_eqb (a b : atom) : bool :=
  match a, b with
  | ANone, ANone => true
  | ABool x, ABool y => Bool.eqb x y
  | AInt x, AInt y => Z.eqb x y
  | ABool x, AInt y => Z.eqb (Z.b2z x) y
  | AInt x, ABool y => Z.eqb x (Z.b2z y)
  | AStr x, AStr y => String.eqb x y
  | AFun x, AFun y => Nat.eqb x y
  | AClass (CWrapper x), AClass (CWrapper y) => String.eqb x y
  | AClass (CEnv x), AClass (CEnv y) => String.eqb x y
  | AClass (CGym x), AClass (CGym y) => String.eqb x y
  | AClass (COther x), AClass (COther y) => String.eqb x y
  | AEnv x, AEnv y => Nat.eqb (e_id x) (e_id y)
  | AWrapper x, AWrapper y => Nat.eqb (e_id (wr_env x)) (e_id (wr_env y))
  | ARemote x _, ARemote y _ => Nat.eqb x y
  | AGym x, AGym y => Nat.eqb x y
  | _, _ => false
  end.

(** v is None (e.g. environment.py 84) *)
Definition is_none (v : value) : bool := match v with PAtom ANone => true | _ => false end.
(** v == s (environment.py 93, 101, 121) *)
Definition is_str (s : string) (v : value) : bool := match v with PAtom (AStr t) => String.eqb s t | _ => false end.
(** bool(v) (environment.py 78); sequences and dictionaries are true unless empty *)
Definition truthy (v : value) : bool :=
  match v with
  | PAtom ANone => false
  | PAtom (ABool b) => b
  | PAtom (AInt z) => negb (Z.eqb z 0)
  | PAtom (AStr s) => negb (String.eqb s "")
  | PAtom _ => true
  | PSeq _ l => negb (Nat.eqb (length l) 0)
  | PDict d => negb (Nat.eqb (length d) 0)
  end.
(** k in d (e.g. util.py 168) *)
Definition has (k : string) (d : dict) : bool := match plook k d with Some _ => true | None => false end.
(** an argument with default None (environment.py 40-41) *)
Definition arg (d : dict) (k : string) : value := match plook k d with Some v => v | None => none end.
(** the dictionary without a key: d.pop(k) (environment.py 170, 173, 175) *)
Definition drop (k : string) (d : dict) : dict := filter (fun e => negb (String.eqb k (fst e))) d.
(** max_episode_timesteps as number (environment.py 133, 482, 490) *)
Definition as_limit (v : value) : res (option Z) :=
  match v with
  | PAtom ANone => Ok None
  | PAtom (AInt z) => Ok (Some z)
  | PAtom (ABool b) => Ok (Some (Z.b2z b))
  | _ => Err "TypeError or ValueError: max_episode_timesteps"
  end.
(** reward_shaping (environment.py 495) *)
Definition as_shaping (v : value) : shaping :=
  match v with PAtom ANone => NoShaping | PAtom (AStr s) => Expr s | PAtom (AFun f) => Fun f | _ => Invalid end.

(** The files, modules and classes (environment.py 183-186, 212-214, 160) *)
Record world := World {
  w_file : string -> option (res value);
  w_import : string -> res (option cls);
  w_construct : string -> dict -> res env
}.

(** What create returns: a wrapper, a remote environment passed to it, a new environment in a
    process with the arguments of its create, a new socket client, nothing after the server with
    these arguments was closed (environment.py 94-126, 145, 154) *)
Inductive outcome :=
| Local (w : wrapper)
| Remote (id : nat) (limit : option Z)
| Process (blocking : bool) (args : dict)
| Client (host port : value) (blocking : bool)
| Served (args : dict).

(** the table of environments (environments/__init__.py 32-43) *)
Definition environments : list (string * cls) := [
  ("default", CEnv "OpenAIGym");
  ("ale", CEnv "ArcadeLearningEnvironment"); ("arcade_learning_environment", CEnv "ArcadeLearningEnvironment");
  ("custom_cartpole", CEnv "CartPole");
  ("gym", CEnv "OpenAIGym"); ("openai_gym", CEnv "OpenAIGym");
  ("retro", CEnv "OpenAIRetro"); ("openai_retro", CEnv "OpenAIRetro");
  ("osim", CEnv "OpenSim"); ("open_sim", CEnv "OpenSim");
  ("ple", CEnv "PyGameLearningEnvironment"); ("pygame_learning_environment", CEnv "PyGameLearningEnvironment");
  ("vizdoom", CEnv "ViZDoom");
  ("carla", CEnv "CARLAEnvironment"); ("carla_environment", CEnv "CARLAEnvironment")].
(** environment in tensorforce.environments.environments (environment.py 201-203) *)
Fixpoint registered (s : string) (l : list (string * cls)) : option cls :=
  match l with [] => None | (k, c) :: r => if String.eqb s k then Some c else registered s r end.

(** EnvironmentWrapper.__init__ (environment.py 473-495); the limit of the environment is set if it
    has none (492-493) *)
Definition wrap (e : env) (limit : option Z) (sh : shaping) : res wrapper :=
  do _ <- match e_limit e, limit with
          | Some m, Some l => assert_ (negb (Z.ltb m l)) "TensorforceError: unexpected"
          | _, _ => Ok tt
          end;
  do _ <- assert_ (negb (e_multi e)) "TensorforceError: unexpected";
  match limit with
  | None => Ok (Wrapper e (e_limit e) sh)
  | Some l => Ok (Wrapper (match e_limit e with None => Env (e_id e) (Some l) (e_multi e) | Some _ => e end) (Some l) sh)
  end.

(** a call with named arguments and the dictionary kwargs: a name given twice raises (e.g. environment.py 177-180, 223-227) *)
Definition call_args (named kwargs : dict) : res dict :=
  if existsb (fun e => has (fst e) kwargs) named then Err "TypeError: multiple values for keyword argument"
  else Ok (named ++ kwargs).

(** the parameters of create (environment.py 40-41) *)
Definition parameters : list string :=
  ["environment"; "max_episode_timesteps"; "reward_shaping"; "remote"; "blocking"; "host"; "port"].
(** kwargs of create (environment.py 41) *)
Definition kwargs_of (args : dict) : dict := filter (fun e => negb (existsb (String.eqb (fst e)) parameters)) args.
(** the arguments environment, max_episode_timesteps and reward_shaping (e.g. environment.py 178-179) *)
Definition named (environment limit sh : value) : dict :=
  [("environment", environment); ("max_episode_timesteps", limit); ("reward_shaping", sh)].

(** except TensorforceError (environment.py 228-231) *)
Definition gym_error (r : res outcome) : res outcome :=
  match r with
  | Err e => if String.prefix "TensorforceError" e then Err "TensorforceError: environment" else Err e
  | Ok o => Ok o
  end.

(** The arguments after merging a dictionary (environment.py 169-180, 188-199) *)
Definition dict_args (d : value) (limit sh : value) (kwargs : dict) : res dict :=
  do k <- deep_disjoint_update atom_eqb kwargs d;
  let environment := match plook "environment" k, plook "type" k with Some e, _ => e | None, Some t => t | None, None => str "default" end in
  let k := drop "environment" (drop "type" k) in
  do _ <- assert_ (negb (is_none environment)) "AssertionError";
  let (limit, k) := if is_none limit then (arg k "max_episode_timesteps", drop "max_episode_timesteps" k) else (limit, k) in
  let (sh, k) := if is_none sh then (arg k "reward_shaping", drop "reward_shaping" k) else (sh, k) in
  call_args (named environment limit sh) k.

(** The checks of blocking, host and port (environment.py 77-91) *)
Definition check_remote (remote blocking host port : value) : res unit :=
  do _ <- assert_ (is_str "multiprocessing" remote || is_str "socket-client" remote || negb (truthy blocking)) "TensorforceError: blocking";
  assert_ (is_str "socket-client" remote || is_str "socket-server" remote || is_none host && is_none port) "TensorforceError: host or port".

Section Create.
Variable W : world.

(** How create goes on: a result or exception, a recursive call, or a recursive call whose
    TensorforceError is replaced (environment.py 222-231) *)
Inductive next := Done (r : res outcome) | Call (args : dict) | CallGym (args : dict).
(** a recursive call, unless its arguments raise (e.g. environment.py 177-180) *)
Definition calls (a : res dict) : next := match a with Err e => Done (Err e) | Ok a => Call a end.
(** the check of max_episode_timesteps and kwargs for existing wrappers (environment.py 132-144) *)
Definition check_existing (limit : value) (own : option Z) (kwargs : dict) : res unit :=
  do l <- as_limit limit;
  do _ <- match l with None => Ok tt | Some z => assert_ (match own with Some m => Z.eqb z m | None => false end) "TensorforceError: specified twice" end;
  assert_ (Nat.eqb (length kwargs) 0) "TensorforceError: kwargs".

(** Environment.create for a string (environment.py 182-231) *)
Definition from_string (s : string) (limit sh : value) (kwargs : dict) : next :=
  match w_file W s with
  | Some (Err e) => Done (Err e)
  | Some (Ok v) => calls (dict_args v limit sh kwargs)
  | None =>
      match registered s environments with
      | Some c => Call (named (PAtom (AClass c)) limit sh ++ kwargs)
      | None =>
          match w_import W s with
          | Err e => Done (Err e)
          | Ok (Some c) => Call (named (PAtom (AClass c)) limit sh ++ kwargs)
          | Ok None =>
              match call_args (named (str "gym") limit sh ++ [("level", str s)]) kwargs with
              | Err e => Done (Err e)
              | Ok a => CallGym a
              end
          end
      end
  end.

(** Environment.create without remote, by the kind of environment (environment.py 131-247) *)
Definition create_local (environment limit sh : value) (kwargs : dict) : next :=
  match environment with
  | PAtom (AWrapper w) => Done (do _ <- check_existing limit (wr_limit w) kwargs; Ok (Local w))
  | PAtom (ARemote i m) => Done (do _ <- check_existing limit m kwargs; Ok (Remote i m))
  | PAtom (AClass (CWrapper _)) => Done (Err "TensorforceError: environment type")
  | PAtom (AEnv e) => Done (do l <- as_limit limit; do w <- wrap e l (as_shaping sh); Ok (Local w))
  | PAtom (AClass (CEnv c)) =>
      match w_construct W c kwargs with
      | Err e => Done (Err e)
      | Ok e => Call (named (PAtom (AEnv e)) limit sh)
      end
  | PDict d => calls (dict_args environment limit sh kwargs)
  | PAtom (AStr s) => from_string s limit sh kwargs
  | PAtom (AGym _) | PAtom (AClass (CGym _)) =>
      calls (call_args (named (str "gym") limit sh ++ [("level", environment)]) kwargs)
  | _ => Done (Err "TensorforceError: environment type")
  end.

(** Environment.create up to a recursive call (environment.py 77-247) *)
Definition step (args : dict) : next :=
  let environment := arg args "environment" in
  let limit := arg args "max_episode_timesteps" in
  let sh := arg args "reward_shaping" in
  let remote := arg args "remote" in
  let blocking := arg args "blocking" in
  let host := arg args "host" in
  let port := arg args "port" in
  let kwargs := kwargs_of args in
  match check_remote remote blocking host port with
  | Err e => Done (Err e)
  | Ok _ =>
      if is_str "multiprocessing" remote then
        (* 93-99; the process is started with these arguments (multiprocessing_environment.py 51-63) *)
        Done (do _ <- assert_ (negb (has "connection" kwargs)) "TypeError: multiple values for keyword argument";
              Ok (Process (truthy blocking) (named environment limit sh ++ kwargs)))
      else if is_str "socket-client" remote then
        (* 101-119; connect (socket_environment.py 150) *)
        Done (do _ <- assert_ (is_none environment) "TensorforceError: environment";
              do _ <- assert_ (is_none limit) "TensorforceError: max_episode_timesteps";
              do _ <- assert_ (Nat.eqb (length kwargs) 0) "TensorforceError: kwargs";
              do _ <- assert_ (negb (is_none host) && negb (is_none port)) "TypeError: address";
              Ok (Client host port (truthy blocking)))
      else if is_str "socket-server" remote then
        (* 121-126; socket_environment.py 39-49 *)
        Done (do _ <- assert_ (negb (has "connection" kwargs)) "TypeError: multiple values for keyword argument";
              do _ <- assert_ (negb (is_none port)) "TypeError: address";
              Ok (Served (named environment limit sh ++ kwargs)))
      else if negb (is_none remote) then Done (Err "TensorforceError: remote")
      else create_local environment limit sh kwargs
  end.

(** Environment.create (environment.py 77-247); [None] if the fuel does not suffice *)
Fixpoint run (fuel : nat) (args : dict) : option (res outcome) :=
  match fuel with
  | O => None
  | S n =>
      match step args with
      | Done r => Some r
      | Call a => run n a
      | CallGym a => option_map gym_error (run n a)
      end
  end.
End Create.

(** ** try_import_module, util.py 76-118 *)
Section Import.
Context {C : Type}.
Variable ceq : C -> C -> bool.             (* == of classes *)
Variable sub : C -> C -> bool.             (* issubclass *)
Variable parents : list C.                 (* parent_class, a tuple (environment.py 213) *)
(** an attribute of a module: a class or something else (util.py 82-83, 113) *)
Inductive member := IsClass (c : C) | NoClass.
(** importlib.import_module (util.py 78, 112): ImportError, or the attributes in the order of dir() *)
Variable modules : string -> option (list (string * member)).

(** issubclass(cls, parent_class) of a tuple (util.py 83, 114) *)
Definition is_sub (c : C) : bool := existsb (sub c) parents.
(** classes of the module (util.py 80-84) *)
Definition candidates (m : list (string * member)) : list C :=
  flat_map (fun p => match snd p with IsClass c => if is_sub c then [c] else [] | NoClass => [] end) m.
(** without common superclasses (util.py 85-90) *)
Definition filter_classes (l : list C) : list C :=
  if Nat.ltb 1 (length l) then filter (fun c => negb (forallb (fun x => sub x c) l)) l else l.
(** util.py 79-102 *)
Definition module_class (m : list (string * member)) : res (option C) :=
  match filter_classes (candidates m) with
  | [] => Ok None
  | [c] => do _ <- assert_ (forallb (fun p => negb (ceq c p)) parents) "AssertionError"; Ok (Some c)
  | _ => Err "TensorforceError: Ambiguous import modules"
  end.
(** '.' in module, module.rsplit('.', 1) (util.py 107-110) *)
Fixpoint rsplit (s : string) : option (string * string) :=
  match s with
  | EmptyString => None
  | String a r =>
      match rsplit r with
      | Some (m, c) => Some (String a m, c)
      | None => if Ascii.eqb a "."%char then Some ("", r) else None
      end
  end.
(** getattr(module, class_name) (util.py 113) *)
Fixpoint attribute (n : string) (m : list (string * member)) : option member :=
  match m with [] => None | (k, v) :: r => if String.eqb n k then Some v else attribute n r end.
(** util.py 76-118; a class always differs from the tuple of parents (114) *)
Definition try_import_module (name : string) : res (option C) :=
  match modules name with
  | Some m => module_class m
  | None =>
      match rsplit name with
      | None => Ok None
      | Some (m, n) =>
          match modules m with
          | None => Ok None
          | Some l =>
              match attribute n l with
              | None => Err "AttributeError"
              | Some NoClass => Err "TypeError: issubclass() arg 1 must be a class"
              | Some (IsClass c) => do _ <- assert_ (is_sub c) "AssertionError"; Ok (Some c)
              end
          end
      end
  end.
End Import.
