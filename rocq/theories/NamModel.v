(** Names of layers, the registry of layers and Reuse: LayeredNetwork._parse_layers_spec
    (/repo/tensorforce/core/networks/network.py 326-352), the internals of LayerbasedNetwork
    (148-174), Layer.__init__, Block and Reuse (/repo/tensorforce/core/layers/layer.py 43-60,
    353-466), the check of names in Module.submodule (/repo/tensorforce/core/module.py 487-488) and
    the layers applied by LayeredNetwork._recursive_apply (network.py 376-437).

    Simplified: which class a specification stands for is given (see ModModel.v): a block, a reuse
    layer, a temporal layer or another layer.  Layers which other layers and distributions create
    for themselves are given as blocks.  Values and the specifications of inputs and outputs are
    left out, so a cycle of reuse layers, which raises RecursionError, has no result in [leaves]. *)

From Coq Require Import String Ascii List Arith Bool DecimalString.
From Verif Require Import Base.
Import ListNotations.
Open Scope string_scope.
Open Scope list_scope.
Open Scope nat_scope.

(** A layer specification with the entries 'name' and 'type', if they are strings (network.py
    341-351); of a block its layers, of a reuse layer the name of the layer (layer.py 365, 433) *)
Inductive lspec :=
| LPlain (name type : option string)
| LTemporal (name type : option string)
| LBlock (name type : option string) (layers : list lspec)
| LReuse (name type : option string) (layer : string).
(** A network specification: a layer or a list (network.py 327-328) *)
Inductive nspec := NLayer (l : lspec) | NList (ns : list nspec).

(** A layer object with its identity (layer.py 43, 378, 433) *)
Inductive obj :=
| OPlain (id : nat) (name : string)
| OTemporal (id : nat) (name : string)
| OBlock (id : nat) (name : string) (layers : list obj)
| OReuse (id : nat) (name layer : string).

(** the entry 'name' (network.py 341) *)
Definition given_name (l : lspec) : option string :=
  match l with LPlain n _ | LTemporal n _ | LBlock n _ _ | LReuse n _ _ => n end.
(** the entry 'type', else 'layer' (network.py 346-348, layer.py 388-391) *)
Definition layer_type (l : lspec) : string :=
  match l with LPlain _ t | LTemporal _ t | LBlock _ t _ | LReuse _ t _ => match t with Some t => t | None => "layer" end end.
(** the identity of an object (layer.py 43) *)
Definition oid (o : obj) : nat := match o with OPlain i _ | OTemporal i _ | OBlock i _ _ | OReuse i _ _ => i end.
(** layer.name (layer.py 44) *)
Definition oname (o : obj) : string := match o with OPlain _ n | OTemporal _ n | OBlock _ n _ | OReuse _ n _ => n end.

(** str(n) (network.py 349) *)
Definition str (n : nat) : string := NilEmpty.string_of_uint (Nat.to_uint n).
(** Counter() (network.py 311, layer.py 381) *)
Definition counter := string -> nat.
(** no layers yet (network.py 311, layer.py 381) *)
Definition no_layers : counter := fun _ => 0.
(** The name of a layer and the counter afterwards (network.py 341-350, layer.py 383-393) *)
Definition choose (c : counter) (l : lspec) : string * counter :=
  match given_name l with
  | Some n => (n, c)
  | None => ((layer_type l ++ str (c (layer_type l)))%string,
             fun t => if String.eqb t (layer_type l) then S (c t) else c t)
  end.

(** Layer._REGISTERED_LAYERS by identity, the layers whose input_spec is set, the number of objects
    (layer.py 46, 48-54) *)
Record state := State { registered : string -> option nat; complete : list obj; next_id : nat }.
(** no layers (/repo/tensorforce/core/models/model.py 39) *)
Definition empty : state := State (fun _ => None) [] 0.
(** Layer._REGISTERED_LAYERS[self.name] = self (layer.py 46) *)
Definition register (name : string) (s : state) : state :=
  State (fun n => if String.eqb n name then Some (next_id s) else registered s n) (complete s) (S (next_id s)).
(** the constructor is done (layer.py 52-54) *)
Definition finish (o : obj) (s : state) : state := State (registered s) (o :: complete s) (next_id s).
(** the object, if it is complete (layer.py 443-445, 451) *)
Definition find_id (i : nat) (s : state) : option obj := find (fun o => Nat.eqb (oid o) i) (complete s).

(** The constructor of a layer with its name (layer.py 43-60, 365-405, 433-441): layers of a block
    are created by the block (383-403), after it is registered and before it is complete; their
    names are checked (module.py 487-488).  A reuse layer (434) needs the name to be registered
    before and the layer to be complete (451) after it is registered itself. *)
Fixpoint make (name : string) (l : lspec) (s : state) {struct l} : res (obj * state) :=
  let s' := register name s in
  match l with
  | LPlain _ _ => let o := OPlain (next_id s) name in Ok (o, finish o s')
  | LTemporal _ _ => let o := OTemporal (next_id s) name in Ok (o, finish o s')
  | LReuse _ _ t =>
      match registered s t with
      | None => Err "TensorforceError: reuse"
      | Some _ =>
          match registered s' t with
          | None => Err "KeyError"
          | Some i =>
              match find_id i s' with
              | None => Err "AttributeError: input_spec"
              | Some _ => let o := OReuse (next_id s) name t in Ok (o, finish o s')
              end
          end
      end
  | LBlock _ _ [] => Err "TensorforceError: block"
  | LBlock _ _ ls =>
      do r <- (fix go (c : counter) (made : list obj) (ls : list lspec) (s : state) : res (list obj * state) :=
                 match ls with
                 | [] => Ok (made, s)
                 | x :: r =>
                     let '(n, c') := choose c x in
                     if existsb (fun o => String.eqb (oname o) n) made then Err "TensorforceError: module exists"
                     else do os <- make n x s; go c' (made ++ [fst os]) r (snd os)
                 end) no_layers [] ls s';
      let o := OBlock (next_id s) name (fst r) in Ok (o, finish o (snd r))
  end.

(** _parse_layers_spec (network.py 326-352): the layers in order, without the nesting of lists,
    which does not change what is applied (376-384) *)
Fixpoint parse (c : counter) (n : nspec) (s : state) {struct n} : res (list obj * counter * state) :=
  match n with
  | NLayer l =>
      let '(name, c') := choose c l in
      do os <- make name l s; Ok ([fst os], c', snd os)
  | NList ns =>
      (fix go (c : counter) (ns : list nspec) (s : state) : res (list obj * counter * state) :=
         match ns with
         | [] => Ok ([], c, s)
         | x :: r => do a <- parse c x s; do b <- go (snd (fst a)) r (snd a); Ok (fst (fst a) ++ fst (fst b), snd (fst b), snd b)
         end) c ns s
  end.
(** LayeredNetwork.__init__ (network.py 303-311) *)
Definition network (n : nspec) (s : state) : res (list obj * state) :=
  do r <- parse no_layers n s; Ok (fst (fst r), snd r).
(** The networks of an agent, one after another (/repo/tensorforce/core/models/tensorforce.py
    389-393, 430-435) *)
Fixpoint networks (ns : list nspec) (s : state) : res (list (list obj) * state) :=
  match ns with
  | [] => Ok ([], s)
  | n :: r => do a <- network n s; do b <- networks r (snd a); Ok (fst a :: fst b, snd b)
  end.

(** reused_layer (layer.py 443-445) *)
Definition reused (s : state) (t : string) : option obj :=
  match registered s t with Some i => find_id i s | None => None end.
(** The layers which are applied for a layer (network.py 376-437; temporal layers 136-143), through
    at most [n] blocks and reuse layers *)
Fixpoint leaves (n : nat) (s : state) (o : obj) : option (list obj) :=
  match n with
  | O => None
  | S n =>
      match o with
      | OPlain _ _ | OTemporal _ _ => Some [o]
      | OBlock _ _ ls =>
          (fix go (ls : list obj) : option (list obj) :=
             match ls with
             | [] => Some []
             | x :: r => match leaves n s x, go r with Some a, Some b => Some (a ++ b) | _, _ => None end
             end) ls
      | OReuse _ _ t => match reused s t with Some x => leaves n s x | None => None end
      end
  end.
(** The layers applied by a network (network.py 361-366) *)
Fixpoint applied (n : nat) (s : state) (os : list obj) : option (list obj) :=
  match os with
  | [] => Some []
  | x :: r => match leaves n s x, applied n s r with Some a, Some b => Some (a ++ b) | _, _ => None end
  end.
(** d[k] = v of an ordered dictionary (network.py 150) *)
Fixpoint put (k : string) (v : nat) (d : list (string * nat)) : list (string * nat) :=
  match d with [] => [(k, v)] | (k', v') :: r => if String.eqb k k' then (k', v) :: r else (k', v') :: put k v r end.
(** internals_spec (network.py 145-155): by name the temporal layer whose internals are meant *)
Definition internals (os : list obj) : list (string * nat) :=
  fold_left (fun d o => match o with OTemporal i n => put n i d | _ => d end) os [].
