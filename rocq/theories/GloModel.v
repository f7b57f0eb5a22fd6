(** The registries which all agents of a process share: Module._MODULE_STACK and
    Layer._REGISTERED_LAYERS, as used by Model.__init__, close, __enter__, __exit__ and initialize
    (/repo/tensorforce/core/models/model.py 33-54, 215-248, 319), tf_function
    (/repo/tensorforce/core/module.py 49-145), Module.__enter__ and __exit__ (256-274), Reuse
    (/repo/tensorforce/core/layers/layer.py 433-454) and Agent.initialize and close
    (/repo/tensorforce/agents/agent.py 271-330).

    Simplified: an agent is a number; of its layers only the names and the names its reuse layers
    refer to are given.  A call of the model (act, observe, reset, ...) is given by the calls of
    modules in it, each of which may raise an exception.  Its graph for acting and that for learning
    (the parameter 'independent' of the network, /repo/tensorforce/core/networks/network.py 355) are
    built by the first call which applies the network in this way and kept if it does not raise.
    Names are not resolved otherwise.  Savers, summaries and TensorFlow's own scopes are left
    out. *)

From Coq Require Import String List Arith Bool.
From Verif Require Import Base.
Import ListNotations.
Open Scope string_scope.
Open Scope list_scope.
Open Scope nat_scope.

(** A module of an agent; the model itself is 0 (module.py 182, 257) *)
Definition frame := (nat * nat)%type.
(** A layer: the agent and its name (layer.py 46) *)
Definition layer := (nat * string)%type.
(** A call of a module: the calls in it and whether it then raises an exception (module.py 98-106) *)
Inductive call := Call (module : nat) (calls : list call) (raises : bool).

(** same module (module.py 274) *)
Definition frame_eqb (f g : frame) : bool := Nat.eqb (fst f) (fst g) && Nat.eqb (snd f) (snd g).
(** popped = _MODULE_STACK.pop(); assert popped is self (module.py 273-274, model.py 237-238); an
    exception which is raised already is passed on unless this fails *)
Definition leave (f : frame) (stack : list frame) (e : option string) : list frame * option string :=
  match stack with
  | [] => ([], Some "IndexError")
  | g :: r => (r, if frame_eqb f g then e else Some "AssertionError")
  end.
(** with self: ... (module.py 98-103, 127, 256-274, model.py 223-241) *)
Fixpoint exec (a : nat) (c : call) (stack : list frame) {struct c} : list frame * option string :=
  match c with
  | Call m cs raises =>
      let r := (fix go (cs : list call) (stack : list frame) : list frame * option string :=
                  match cs with
                  | [] => (stack, if raises then Some "raised" else None)
                  | x :: q => match exec a x stack with (s, None) => go q s | (s, Some e) => (s, Some e) end
                  end) cs ((a, m) :: stack) in
      leave (a, m) (fst r) (snd r)
  end.

(** An agent: not yet constructed, its constructor raised, constructed, initialize raised,
    initialized with the layers its graphs apply, or closed (agent.py 271-330) *)
Inductive status :=
| Absent | Failed | Constructed | Attempted | Ready (graphs : bool -> option (list layer)) | Closed.
(** _MODULE_STACK, the agent whose layers are in _REGISTERED_LAYERS, if these attributes exist, and
    the agents (model.py 38-39) *)
Record process := Process { stack : option (list frame); owner : option nat; agents : nat -> status }.
(** no agent yet (module.py 164, layer.py 41) *)
Definition start : process := Process None None (fun _ => Absent).
(** the agent has this status now (agent.py 271-330) *)
Definition become (a : nat) (x : status) (p : process) : process :=
  Process (stack p) (owner p) (fun b => if Nat.eqb b a then x else agents p b).

(** What is done with an agent (agent.py 262-330, 440-570); a call applies the network for acting
    ([Some false]), for learning ([Some true]) or not at all *)
Inductive event :=
| Construct (a : nat)
| Initialize (a : nat)
| Use (a : nat) (graph : option bool) (calls : list call)
| Describe (a : nat)
| Close (a : nat).
(** The layers which the reuse layers stand for, or an exception (layer.py 443-445) *)
Inductive outcome := Done (ls : list layer) | Raised (e : string).

Section Process.
(** the names of the layers of an agent, of its reuse layers the names they refer to, and whether
    the constructor does not raise (layer.py 46, 433-437) *)
Variable names : nat -> list string.
Variable targets : nat -> list string.
Variable valid : nat -> bool.

(** Layer._REGISTERED_LAYERS[self.layer] (layer.py 445) *)
Definition resolve (p : process) (t : string) : res layer :=
  match owner p with
  | None => Err "AttributeError: _REGISTERED_LAYERS"
  | Some c => if existsb (String.eqb t) (names c) then Ok (c, t) else Err "KeyError"
  end.
(** for all reuse layers (network.py 376-403) *)
Definition resolve_all (p : process) (a : nat) : res (list layer) := map_res (resolve p) (targets a).

(** The constructor (model.py 38-54, module.py 175-186) *)
Definition construct (a : nat) (p : process) : process * outcome :=
  match agents p a with
  | Absent =>
      let p' := Process (Some [(a, 0)]) (Some a) (agents p) in
      if valid a then (become a Constructed p', Done []) else (become a Failed p', Raised "constructor")
  | _ => (p, Raised "constructed before")
  end.
(** A call of the model (module.py 127-129): push the model, build the graph at the first time, pop
    (model.py 223-241) *)
Definition use (a : nat) (graph : option bool) (calls : list call) (p : process) : process * outcome :=
  match agents p a with
  | Ready g =>
      match stack p with
      | None => (p, Raised "AttributeError: _MODULE_STACK")
      | Some st =>
          match graph with
          | None =>
              let r := exec a (Call 0 calls false) st in
              (Process (Some (fst r)) (owner p) (agents p), match snd r with None => Done [] | Some e => Raised e end)
          | Some b =>
              match g b with
              | Some ls =>
                  let r := exec a (Call 0 calls false) st in
                  (Process (Some (fst r)) (owner p) (agents p), match snd r with None => Done ls | Some e => Raised e end)
              | None =>
                  match resolve_all p a with
                  | Err e =>
                      let r := exec a (Call 0 calls true) st in
                      (Process (Some (fst r)) (owner p) (agents p), Raised e)
                  | Ok ls =>
                      let r := exec a (Call 0 calls false) st in
                      let p' := Process (Some (fst r)) (owner p) (agents p) in
                      match snd r with
                      | None => (become a (Ready (fun k => if Bool.eqb k b then Some ls else g k)) p', Done ls)
                      | Some e => (p', Raised e)
                      end
                  end
              end
          end
      end
  | Closed => (p, Raised "AttributeError: model")
  | _ => (p, Raised "AssertionError")
  end.
(** Agent.initialize with Model.initialize (model.py 243-248, 226-241, 308; recorder.py; agent.py
    280, 319): the stack has to hold the model alone; then reset is called *)
Definition initialize (a : nat) (p : process) : process * outcome :=
  match agents p a with
  | Constructed =>
      match stack p with
      | None => (become a Attempted p, Raised "AttributeError: _MODULE_STACK")
      | Some [f] =>
          if frame_eqb f (a, 0)
          then use a None [] (become a (Ready (fun _ => None)) (Process (Some []) (owner p) (agents p)))
          else (become a Attempted p, Raised "AssertionError")
      | Some _ => (become a Attempted p, Raised "AssertionError")
      end
  | _ => (p, Raised "TensorforceError: initialized")
  end.
(** Agent.get_architecture (agent.py 269, layer.py 447-451) *)
Definition describe (a : nat) (p : process) : process * outcome :=
  (p, match agents p a with
      | Constructed | Attempted | Ready _ =>
          match resolve_all p a with Ok ls => Done ls | Err e => Raised e end
      | _ => Raised "AttributeError: model"
      end).
(** Agent.close and Model.close (agent.py 324-330, model.py 215-221) *)
Definition close (a : nat) (p : process) : process * outcome :=
  match agents p a with
  | Constructed | Attempted | Ready _ =>
      match stack p with
      | None => (p, Raised "AttributeError: _MODULE_STACK")
      | Some _ => (become a Closed (Process None None (agents p)), Done [])
      end
  | _ => (p, Raised "AttributeError: model")
  end.

(** One event (agent.py 262-330) *)
Definition step (e : event) (p : process) : process * outcome :=
  match e with
  | Construct a => construct a p
  | Initialize a => initialize a p
  | Use a g cs => use a g cs p
  | Describe a => describe a p
  | Close a => close a p
  end.
(** The events of a process with their outcomes (agent.py 262-330) *)
Fixpoint run (es : list event) (p : process) : process * list (event * outcome) :=
  match es with
  | [] => (p, [])
  | e :: r => let x := step e p in let y := run r (fst x) in (fst y, (e, snd x) :: snd y)
  end.
End Process.
