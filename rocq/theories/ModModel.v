(** Specifications of modules: Module.get_module_class_and_args and Module.submodule
    (/repo/tensorforce/core/module.py 366-518), LayerbasedNetwork.submodule
    (/repo/tensorforce/core/networks/network.py 200-268) and the regularization of Module.__init__
    (module.py 197-207), up to the call of the constructor.

    Simplified: [name] is a string, [modules] is None or a dictionary with string keys and
    disable_first_arg is a boolean (module.py 371-378, 389-393 do not raise); files and what can be
    imported are arbitrary (the [world]); a number is an integer.  Not modelled: what the
    constructor does and the checks of the object it returns.  A recursive call takes one unit of
    fuel; without fuel there is no result. *)

From Coq Require Import String List ZArith Bool.
From Verif Require Import Base SigModel.
Import ListNotations.
Open Scope string_scope.
Open Scope list_scope.

(** Classes: subclasses of MultiInputLayer, of Layer (network.py 214, 218), of Module (module.py
    382), of tf.keras.Model (module.py 449), others *)
Inductive kind := KMulti | KLayer | KModule | KKeras | KOther.
(** Atoms of Python values; AFun is a function or a functools.partial object, AKeras an object of
    tf.keras.Model, AObj an object which cannot be called (module.py 396, 405, 448-450, 463) *)
Inductive atom :=
| ANone | ABool (b : bool) | ANum (z : Z) | AStr (s : string) | AFun (f : nat)
| AClass (k : kind) (c : string) | AKeras (m : nat) | AObj (o : nat).
(** Python values (module.py 368) *)
Definition value := pval atom.
(** keyword arguments (module.py 368) *)
Definition dict := list (string * value).
(** None (module.py 368) *)
Definition none : value := PAtom ANone.
(** a string (module.py 405) *)
Definition str (s : string) : value := PAtom (AStr s).

(** The class kinds as strings do not occur: kinds are equal or not (util.py 184, 188) *)
Definition kind_eqb (a b : kind) : bool :=
  match a, b with
  | KMulti, KMulti => true | KLayer, KLayer => true | KModule, KModule => true | KKeras, KKeras => true | KOther, KOther => true
  | _, _ => false
  end.
(** == of atoms (util.py 184, 188) *)
Definition atom_eqb (a b : atom) : bool :=
  match a, b with
  | ANone, ANone => true
  | ABool x, ABool y => Bool.eqb x y
  | ANum x, ANum y => Z.eqb x y
  | ABool x, ANum y => Z.eqb (Z.b2z x) y
  | ANum x, ABool y => Z.eqb x (Z.b2z y)
  | AStr x, AStr y => String.eqb x y
  | AFun x, AFun y => Nat.eqb x y
  | AClass k x, AClass k' y => kind_eqb k k' && String.eqb x y
  | AKeras x, AKeras y => Nat.eqb x y
  | AObj x, AObj y => Nat.eqb x y
  | _, _ => false
  end.

(** key in d (module.py 416, 438) *)
Definition has (k : string) (d : dict) : bool := match plook k d with Some _ => true | None => false end.
(** d without key (module.py 399, 464) *)
Definition drop (k : string) (d : dict) : dict := filter (fun e => negb (String.eqb k (fst e))) d.
(** x is None (module.py 381) *)
Definition is_none (v : value) : bool := match v with PAtom ANone => true | _ => false end.
(** callable(module) (module.py 448, 463) *)
Definition callable (v : value) : bool :=
  match v with PAtom (AFun _) | PAtom (AClass _ _) | PAtom (AKeras _) => true | _ => false end.
(** a Keras model or class of models (module.py 448-450) *)
Definition is_keras (v : value) : bool :=
  match v with PAtom (AKeras _) | PAtom (AClass KKeras _) => true | _ => false end.

(** json.load of a file, if there is one (module.py 406-409), and the class found by
    try_import_module (module.py 429) *)
Record world := World { m_file : string -> option (res value); m_import : string -> res (option value) }.

(** The constructor, its positional and keyword arguments (module.py 468) *)
Definition outcome := (value * list value * dict)%type.
(** The arguments which change from call to call (module.py 367-369) *)
Record args := Args { a_module : value; a_default : value; a_disable : bool; a_kwargs : dict }.
(** A call returns or raises, or returns what another call returns (module.py 400, 410) *)
Inductive next := Done (r : res outcome) | Call (a : args).

(** The parameters of get_module_class_and_args (module.py 367-369) *)
Definition parameters : list string := ["name"; "module"; "modules"; "default_module"; "disable_first_arg"].

Section Mod.
Variable W : world.
(** name (module.py 368) *)
Variable name : string.
(** modules (module.py 368) *)
Variable modules : option dict.

(** A call with named arguments and **kwargs (module.py 400-403): no argument twice *)
Definition call (m d : value) (disable : bool) (kw : dict) : next :=
  if existsb (fun p => has p kw) parameters then Done (Err "TypeError: multiple values for keyword argument")
  else Call (Args m d disable kw).

(** default_module is a key or a class of modules (module.py 381-386) *)
Definition check_default (d : value) : res unit :=
  if is_none d then Ok tt else
  match modules with
  | None => Err "TypeError: argument of type 'NoneType' is not iterable"
  | Some ms =>
      match d with
      | PAtom (AStr s) => if has s ms then Ok tt else Err "TypeError: issubclass"
      | PAtom (AClass (KMulti | KLayer | KModule) _) => Ok tt
      | PAtom (AClass _ _) => Err "TensorforceError: default_module"
      | _ => Err "TypeError: issubclass"
      end
  end.

(** The base class of modules (module.py 425-428): the first entry has to be a class *)
Definition parent_class : res unit :=
  match modules with
  | None => Err "AssertionError"
  | Some [] => Err "StopIteration"
  | Some ((_, PAtom (AClass _ _)) :: _) => Ok tt
  | Some (_ :: _) => Err "AttributeError: mro"
  end.

(** 'default' in modules or default_module is not None (module.py 436, 450) *)
Definition has_default (d : value) : res bool :=
  match modules with
  | None => Err "TypeError: argument of type 'NoneType' is not iterable"
  | Some ms => Ok (has "default" ms || negb (is_none d))
  end.
(** The default module (module.py 443-445, 456-457) *)
Definition default_of (d : value) : value :=
  if is_none d then match modules with Some ms => match plook "default" ms with Some v => v | None => none end | None => none end else d.
(** The default module with the value as first argument (module.py 452-461) *)
Definition use_default (m d : value) (kw : dict) : next :=
  if has "_first_arg" kw then Done (Err "TensorforceError: _first_arg")
  else call (default_of d) none false (if is_none m then kw else kw ++ [("_first_arg", m)]).

(** A string which is no file and no keyword (module.py 423-446) *)
Definition from_library (s : string) (d : value) (disable : bool) (kw : dict) : next :=
  match parent_class with
  | Err e => Done (Err e)
  | Ok _ =>
      match m_import W s with
      | Err e => Done (Err e)
      | Ok (Some m) => call m d true kw
      | Ok None =>
          match has_default d with
          | Err e => Done (Err e)
          | Ok false => Done (Err "TensorforceError: module")
          | Ok true =>
              if has "_first_arg" kw then Done (Err "TensorforceError: _first_arg")
              else if disable then Done (Err "TensorforceError: module")
              else use_default (str s) d kw
          end
      end
  end.
(** A string (module.py 405-446) *)
Definition from_string (s : string) (d : value) (disable : bool) (kw : dict) : next :=
  match m_file W s with
  | Some (Ok m) => call m d true kw
  | Some (Err e) => Done (Err e)
  | None =>
      match (match modules with Some ms => plook s ms | None => None end) with
      | Some m => call m d true kw
      | None => from_library s d disable kw
      end
  end.
(** The function is called (module.py 463-468) *)
Definition constructor (m : value) (kw : dict) : next :=
  Done (Ok (m, match plook "_first_arg" kw with Some v => [v] | None => [] end,
            pput "name" (str name) (drop "_first_arg" kw))).
(** Other values (module.py 448-471) *)
Definition from_object (m d : value) (kw : dict) : next :=
  if negb (callable m) || is_keras m then
    match has_default d with
    | Err e => Done (Err e)
    | Ok true => use_default m d kw
    | Ok false => if callable m then constructor m kw else Done (Err "TensorforceError: module")
    end
  else constructor m kw.

(** One call of get_module_class_and_args (module.py 366-471) *)
Definition step (a : args) : next :=
  match check_default (a_default a) with
  | Err e => Done (Err e)
  | Ok _ =>
      match a_module a with
      | PDict es =>
          match deep_disjoint_update atom_eqb (a_kwargs a) (PDict es) with
          | Err e => Done (Err e)
          | Ok kw => call (match plook "type" kw with Some t => t | None => a_default a end) (a_default a) true (drop "type" kw)
          end
      | PAtom (AStr s) => from_string s (a_default a) (a_disable a) (a_kwargs a)
      | m => from_object m (a_default a) (a_kwargs a)
      end
  end.

(** get_module_class_and_args (module.py 366-471) with at most [n] calls *)
Fixpoint run (n : nat) (a : args) : option (res outcome) :=
  match n with
  | O => None
  | S n => match step a with Done r => Some r | Call b => run n b end
  end.
End Mod.

(** ** LayerbasedNetwork.submodule (network.py 200-268) *)

(** issubclass(module_cls, Layer) and issubclass(module_cls, MultiInputLayer) (network.py 214,
    218); only classes have subclasses *)
Definition layer_kind (v : value) : res kind :=
  match v with PAtom (AClass k _) => Ok k | _ => Err "TypeError: issubclass" end.
(** the tensors of a MultiInputLayer (network.py 221-225) *)
Definition tensors_of (v : value) : res (list value) :=
  match v with PAtom (AStr s) => Ok [str s] | PSeq _ l => Ok l | _ => Err "TypeError: not iterable" end.
(** all of them are registered (network.py 226) *)
Definition known (registered : list string) (l : list value) : bool :=
  forallb (fun v => match v with PAtom (AStr s) => existsb (String.eqb s) registered | _ => false end) l.
(** the specification of these tensors, an opaque object (network.py 230) *)
Definition spec_of (l : list value) : value := PSeq true l.

(** The constructor's arguments in a layer-based network (network.py 205-246): [registered] are the
    registered tensors, [output] the specification of the last layer's output, None if there are
    several inputs; [r] is what get_module_class_and_args returned *)
Definition network_arguments (registered : list string) (output : value) (r : outcome) : res (value * dict) :=
  match r with
  | (cls, first :: _, kw) =>
      do _ <- assert_ (match kw with [] => true | _ => false end) "AssertionError"; Ok (first, kw)
  | (cls, [], kw) =>
      do k <- layer_kind cls;
      match k with
      | KMulti =>
          match plook "input_spec" kw with
          | None | Some (PAtom ANone) =>
              match plook "tensors" kw with
              | None => Err "TensorforceError: tensors"
              | Some t =>
                  do l <- tensors_of t;
                  do _ <- assert_ (known registered l) "TensorforceError: registered tensor";
                  Ok (cls, pput "input_spec" (spec_of l) kw)
              end
          | Some _ => Err "TensorforceError: input_spec"
          end
      | KLayer =>
          match plook "input_spec" kw with
          | None | Some (PAtom ANone) =>
              if is_none output then Err "TensorforceError: first layer" else Ok (cls, pput "input_spec" output kw)
          | Some _ => Ok (cls, kw)
          end
      | _ => Ok (cls, kw)
      end
  end.

(** Arguments which LayerbasedNetwork.submodule passes besides **kwargs (network.py 246-249), and
    the parameters of get_module_class_and_args they lead to (module.py 499-501) *)
Definition passed : list string := ["module"; "modules"; "default_module"; "is_trainable"; "is_saved"; "disable_first_arg"].
(** LayerbasedNetwork.submodule (network.py 200-249) with [modules] given: the call of the
    constructor (module.py 504-505) *)
Definition network_submodule (W : world) (name : string) (modules : dict) (registered : list string) (output : value) (n : nat) (a : args) : option (res outcome) :=
  match run W name (Some modules) n a with
  | None => None
  | Some (Err e) => Some (Err e)
  | Some (Ok r) =>
      match network_arguments registered output r with
      | Err e => Some (Err e)
      | Ok (cls, kw) =>
          if existsb (fun p => has p kw) passed then Some (Err "TypeError: multiple values for keyword argument")
          else run W name (Some modules) n (Args cls (a_default a) false (drop "name" kw))
      end
  end.

(** parameter_modules, /repo/tensorforce/core/parameters/__init__.py 28-40; the partial objects are
    numbered *)
Definition parameter_modules : dict :=
  map (fun e : string * string => (fst e, PAtom (AClass KModule (snd e))))
    [("constant", "Constant"); ("decaying", "Decaying"); ("default", "Constant"); ("exponential", "Exponential"); ("linear", "Linear");
     ("ornstein_uhlenbeck", "OrnsteinUhlenbeck"); ("piecewise_constant", "PiecewiseConstant"); ("random", "Random")]
  ++ map (fun e : string * nat => (fst e, PAtom (AFun (snd e))))
    [("polynomial", 0); ("inverse_time", 1); ("cosine", 2); ("cosine_restarts", 3); ("linear_cosine", 4); ("linear_cosine_noisy", 5)]%nat.
(** The submodule l2_regularization (module.py 197-207); 0.0 is [zero] *)
Definition l2_arguments (zero v : value) : args :=
  Args v none false [("dtype", str "float"); ("min_value", zero)].
(** The regularization of a module: a layer-based network or another one (module.py 203, network.py
    200); None without regularization *)
Definition regularization (W : world) (network : bool) (registered : list string) (output zero v : value) (n : nat) : option (res (option outcome)) :=
  if is_none v then Some (Ok None) else
  option_map (fun r => do x <- r; Ok (Some x))
    (if network then network_submodule W "l2_regularization" parameter_modules registered output n (l2_arguments zero v)
     else run W "l2_regularization" (Some parameter_modules) n (l2_arguments zero v)).
