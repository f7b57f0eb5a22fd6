(** /repo/tensorforce/core/utils/nested_dict.py: the class NestedDict.

    Simplifications: values are of an arbitrary type [V] (the class's value_type), keys
    are given by their components (see DictSpec; str.split is not modelled), and there
    is one [overwrite] setting for all levels, as in the subclasses of
    core/utils/dicts.py.  Sub-dictionaries are values: __setitem__ copies them
    (256-260); what happens to a sub-dictionary obtained by reading and then modified
    is not modelled.  A [Leaf] in place of a dictionary is an object which is not a
    NestedDict, on which methods fail. *)

From Coq Require Import String List ZArith Bool.
From Verif Require Import Base DictSpec.
Import ListNotations.
Open Scope string_scope.

(** nested_dict.py 21-22 *)
Definition is_keyword (x : string) : bool :=
  existsb (String.eqb x) ["bool"; "int"; "float"; "type"; "shape"; "min_value"; "max_value"; "num_values"].

Section Dict.
Variable V : Type.

(** The underlying ordered dictionary (OrderedDict), with its values (nested_dict.py 25-42) *)
Inductive node :=
| Leaf (v : V)
| Dict (es : list (string * node)).

Variable overwrite : bool.

(** super().__getitem__, super().__contains__ (nested_dict.py 193, 229) *)
Fixpoint assoc (k : string) (es : list (string * node)) : option node :=
  match es with [] => None | (k', n) :: r => if k =? k' then Some n else assoc k r end.
(** OrderedDict.__setitem__: keeps the position of an existing key (nested_dict.py 266) *)
Fixpoint put (k : string) (n : node) (es : list (string * node)) : list (string * node) :=
  match es with
  | [] => [(k, n)]
  | (k', n') :: r => if k =? k' then (k', n) :: r else (k', n') :: put k n r
  end.
(** super().__delitem__ (nested_dict.py 348) *)
Definition del (k : string) (es : list (string * node)) : list (string * node) :=
  filter (fun e => negb (fst e =? k)) es.

(** is_singleton, 136-137 *)
Definition is_singleton (es : list (string * node)) : bool :=
  match es with [(k, _)] => k =? single_name | _ => false end.

(** key is None or key == SINGLETON (nested_dict.py 191, 227, 264, 344) *)
Definition none_key (key : list string) : bool :=
  match key with [] => true | [k] => k =? single_name | _ => false end.
(** key.startswith(SINGLETON + '/') (nested_dict.py 204, 240, 271, 356) *)
Definition single_prefix (key : list string) : bool :=
  match key with k :: _ :: _ => k =? single_name | _ => false end.

(** __setitem__, 255-305 (the type check 256-262 is Coq's) *)
Fixpoint setitem (key : list string) (v : node) {struct key} : node -> res node :=
  fix go (d : node) : res node :=
    match d with
    | Leaf _ => Err "not a NestedDict"
    | Dict es =>
        if none_key key then
          do _ <- assert_ (match es with [] => true | _ => is_singleton es end) "AssertionError";
          Ok (Dict [(single_name, v)])
        else if single_prefix key then Err "TensorforceError: key"
        else
          let regular :=
            match key with
            | [] => Err "unreachable"
            | [k] =>
                if is_keyword k then Err "reserved keyword"
                else match assoc k es with
                     | Some _ => if overwrite then Ok (Dict (put k v es)) else Err "already set"
                     | None => Ok (Dict (put k v es))
                     end
            | k :: sub =>
                if is_keyword k then Err "reserved keyword"
                else match assoc k es with
                     | Some c => do c' <- setitem sub v c; Ok (Dict (put k c' es))
                     | None => do c' <- setitem sub v (Dict []); Ok (Dict (put k c' es))
                     end
            end in
          match es with
          | [(k0, c)] =>
              if k0 =? single_name then do c' <- go c; Ok (Dict [(single_name, c')]) else regular
          | _ => regular
          end
    end.

(** __getitem__, 226-253, for None and string keys *)
Fixpoint getitem (key : list string) {struct key} : node -> res node :=
  fix go (d : node) : res node :=
    match d with
    | Leaf _ => Err "not a NestedDict"
    | Dict es =>
        if none_key key then
          match es with
          | [(k0, c)] => if k0 =? single_name then Ok c else Err "AssertionError"
          | _ => Err "AssertionError"
          end
        else if single_prefix key then Err "TensorforceError: key"
        else
          let regular :=
            match key with
            | [] => Err "unreachable"
            | [k] => match assoc k es with Some c => Ok c | None => Err "KeyError" end
            | k :: sub => match assoc k es with Some c => getitem sub c | None => Err "KeyError" end
            end in
          match es with
          | [(k0, c)] => if k0 =? single_name then go c else regular
          | _ => regular
          end
    end.

(** __contains__, 190-224, for None and string keys *)
Fixpoint contains (key : list string) {struct key} : node -> res bool :=
  fix go (d : node) : res bool :=
    match d with
    | Leaf _ => Err "not a NestedDict"
    | Dict es =>
        if none_key key then
          do _ <- assert_ (match es with [] => true | _ => is_singleton es end) "AssertionError";
          Ok (is_singleton es)
        else if single_prefix key then Err "TensorforceError: item"
        else
          let regular :=
            match key with
            | [] => Err "unreachable"
            | [k] => Ok (match assoc k es with Some _ => true | None => false end)
            | k :: sub => match assoc k es with Some c => contains sub c | None => Ok false end
            end in
          match es with
          | [(k0, c)] =>
              if k0 =? single_name then match c with Leaf _ => Ok false | Dict _ => go c end else regular
          | _ => regular
          end
    end.

(** pop, 343-382: the removed value ([None]: the default) and the dictionary after. *)
Fixpoint pop (key : list string) {struct key} : node -> res (option node * node) :=
  fix go (d : node) : res (option node * node) :=
    match d with
    | Leaf _ => Err "not a NestedDict"
    | Dict es =>
        if none_key key then
          match es with
          | [] => Ok (None, Dict [])
          | [(k0, c)] => if k0 =? single_name then Ok (Some c, Dict []) else Err "AssertionError"
          | _ => Err "AssertionError"
          end
        else if single_prefix key then Err "TensorforceError: key"
        else
          let regular :=
            match key with
            | [] => Err "unreachable"
            | [k] => match assoc k es with
                     | Some c => Ok (Some c, Dict (del k es))
                     | None => Ok (None, Dict es)
                     end
            | k :: sub => match assoc k es with
                          | Some c => do r <- pop sub c; Ok (fst r, Dict (put k (snd r) es))
                          | None => Ok (None, Dict es)
                          end
            end in
          match es with
          | [(k0, c)] =>
              if k0 =? single_name then
                match c with
                | Leaf _ => Ok (None, Dict es)
                | Dict _ => do r <- go c; Ok (fst r, Dict [(single_name, snd r)])
                end
              else regular
          | _ => regular
          end
    end.

(** items, 165-180; __iter__ (148-163) and values (182-188) are its parts. *)
Fixpoint items (d : node) : list (list string * V) :=
  match d with
  | Leaf v => [([], v)]
  | Dict es =>
      flat_map (fun e => let '(k, n) := e in
        map (fun kv => (if k =? single_name then fst kv else k :: fst kv, snd kv)) (items n)) es
  end.

(** __len__, 143-146 *)
Fixpoint length_ (d : node) : nat :=
  match d with
  | Leaf _ => 1
  | Dict es => fold_right (fun e n => length_ (snd e) + n)%nat 0%nat es
  end.

(** fmap, 70-134, without names and zipped values, to the same class: a new dictionary
    filled entry by entry; copy (46-58) is the case of the identity. *)
Fixpoint fmap (f : V -> V) (d : node) : res node :=
  match d with
  | Leaf v => Ok (Leaf (f v))
  | Dict es =>
      (fix fill (es : list (string * node)) (acc : node) : res node :=
         match es with
         | [] => Ok acc
         | (k, n) :: r => do n' <- fmap f n; do acc' <- setitem [k] n' acc; fill r acc'
         end) es (Dict [])
  end.
(** copy, 47-59 *)
Definition copy (d : node) : res node := fmap (fun v => v) d.

(** get, 321-327, for None and string keys; [None] is the default None. *)
Definition get_ (key : list string) (d : node) : res (option node) :=
  do b <- contains key d;
  if b then do n <- getitem key d; Ok (Some n) else Ok None.

(** __eq__, 42-44 ([veqb]: == on values; a value never equals a dictionary or None). *)
Fixpoint eq_ (veqb : V -> V -> bool) (d d' : node) : res bool :=
  match d, d' with
  | Leaf v, Leaf v' => Ok (veqb v v')
  | Dict es, Dict _ =>
      if Nat.eqb (length_ d) (length_ d') then
        (fix all (es : list (string * node)) : res bool :=
           match es with
           | [] => Ok true
           | (k, n) :: r =>
               do o <- get_ [k] d';
               match o with
               | None => Ok false
               | Some n' => do b <- eq_ veqb n n'; if b then all r else Ok false
               end
           end) es
      else Ok false
  | _, _ => Ok false
  end.

(** update, 329-341 (without keyword arguments): the other dictionary's items one by one. *)
Fixpoint update (d : node) (its : list (list string * V)) : res node :=
  match its with
  | [] => Ok d
  | (k, v) :: r => do d' <- setitem k (Leaf v) d; update d' r
  end.

End Dict.

Arguments Leaf {V}. Arguments Dict {V}. Arguments assoc {V}. Arguments put {V}. Arguments del {V}.
Arguments is_singleton {V}. Arguments setitem {V}. Arguments getitem {V}. Arguments contains {V}.
Arguments pop {V}. Arguments items {V}. Arguments length_ {V}. Arguments copy {V}. Arguments update {V}.
Arguments fmap {V}. Arguments get_ {V}. Arguments eq_ {V}.
