(** Model of the environment OpenAIGym: /repo/tensorforce/environments/openai_gym.py 57-498.

    The gym package itself is not modelled: spaces are given as data, the results of gym's reset and
    step are arguments, and the registry of levels is a list.  Entries of arrays are of an arbitrary
    type; whether an entry is infinite or no number is given by a function.  Numbers in the bounds
    of boxes are real numbers or infinite. *)

From Coq Require Import String Ascii List ZArith Reals Bool Decimal DecimalString.
From Verif Require Import Base ParModel.
Import ListNotations.
Open Scope string_scope.

(** * Strings *)

(** str(n), openai_gym.py 285-287, 355, 465 *)
Definition str (n : nat) : string := NilEmpty.string_of_uint (Nat.to_uint n).
(** int(x), openai_gym.py 480 *)
Definition int_of (s : string) : res nat :=
  match NilEmpty.uint_of_string s with
  | Some d => if String.eqb s "" then Err "ValueError" else Ok (Nat.of_uint d)
  | None => Err "ValueError"
  end.
(** '_'.join(l), openai_gym.py 285 *)
Fixpoint join (l : list string) : string :=
  match l with
  | [] => ""
  | [s] => s
  | s :: r => s ++ "_" ++ join r
  end.
(** name.split('_', 1), openai_gym.py 489: [None] if there is no '_' in the name *)
Fixpoint cut (s : string) : option (string * string) :=
  match s with
  | EmptyString => None
  | String c r => if Ascii.eqb c "_"%char then Some ("", r)
                  else match cut r with Some (a, b) => Some (String c a, b) | None => None end
  end.
(** s.split('_'), openai_gym.py 480; [p] is the part read so far, in order *)
Fixpoint split_from (p s : string) : list string :=
  match s with
  | EmptyString => [p]
  | String c r => if Ascii.eqb c "_"%char then p :: split_from "" r else split_from (p ++ String c "") r
  end.
(** openai_gym.py 480 *)
Definition split (s : string) : list string := split_from "" s.

(** * Dictionaries: d[k] = v, k in d, d[k]; openai_gym.py 287, 382-383, 411-412 *)
Fixpoint dset {A} (d : list (string * A)) (k : string) (v : A) : list (string * A) :=
  match d with
  | [] => [(k, v)]
  | (k', v') :: r => if String.eqb k k' then (k', v) :: r else (k', v') :: dset r k v
  end.
(** openai_gym.py 383, 412 *)
Fixpoint dget {A} (d : list (string * A)) (k : string) : option A :=
  match d with
  | [] => None
  | (k', v) :: r => if String.eqb k k' then Some v else dget r k
  end.
(** for name, v in items: d[f(name)] = v; openai_gym.py 357-358, 370-371, 393-394, 422-423 *)
Definition dset_all {A} (f : string -> string) (items d : list (string * A)) : list (string * A) :=
  fold_left (fun d nv => dset d (f (fst nv)) (snd nv)) items d.

(** * Spaces and specifications *)

(** Numbers in bounds: -inf, a number, inf; openai_gym.py 295-329 *)
Inductive ext := NInf | Fin (x : R) | PInf.

(** gym.spaces, openai_gym.py 273-361; the arrays nvec, low and high are given with their shape *)
Inductive space :=
| Discrete (n : Z)
| MultiBinary (shape : list nat)
| MultiDiscrete (shape : list nat) (nvec : list Z)
| Box (shape : list nat) (low high : list ext)
| Tup (l : list space)
| Dct (l : list (string * space)).

(** A bound in a specification: none, one for all entries, or one for every entry; openai_gym.py 298-329 *)
Inductive bound := Free | One (b : ext) | Each (l : list ext).

(** The specification of one tensor, openai_gym.py 274-281, 293 *)
Record leaf := mkLeaf { l_type : string; l_shape : list nat; l_num : option Z; l_min : bound; l_max : bound }.

(** What specs_from_gym_space returns: a specification ('type' in spec) or a dictionary of them, openai_gym.py 267-375 *)
Inductive specs := SLeaf (l : leaf) | SDict (d : list (string * leaf)).

(** x > -1e6 and x < 1e6, openai_gym.py 297, 304, 316, 323 *)
Definition above (x : ext) : bool := match x with NInf => false | Fin x => Rltb (-1000000) x | PInf => true end.
(** openai_gym.py 316, 323 *)
Definition below (x : ext) : bool := match x with NInf => true | Fin x => Rltb x 1000000 | PInf => false end.
(** ==, openai_gym.py 295, 314 *)
Definition ext_eqb (x y : ext) : bool :=
  match x, y with NInf, NInf | PInf, PInf => true | Fin a, Fin b => Reqb a b | _, _ => false end.

(** spec['min_value'], openai_gym.py 295-310 *)
Definition box_min (allow : bool) (min_value : option R) (low : list ext) : res bound :=
  match low with
  | [] => Err "IndexError"
  | x :: _ =>
      if forallb (fun y => ext_eqb y x) low then
        Ok (if above x then One x else match min_value with Some m => One (Fin m) | None => Free end)
      else if allow then Ok (Each (map (fun y => if above y then y else NInf) low))
      else if forallb above low then Ok (Each low)
      else match min_value with
           | None => Err "TensorforceError: Invalid infinite box bounds"
           | Some m => Ok (Each (map (fun y => if above y then y else Fin m) low))
           end
  end.

(** spec['max_value'], openai_gym.py 312-329 ([spec] is never None) *)
Definition box_max (allow : bool) (max_value : option R) (high : list ext) : res bound :=
  match high with
  | [] => Err "IndexError"
  | x :: _ =>
      if forallb (fun y => ext_eqb y x) high then
        Ok (if below x then One x else match max_value with Some m => One (Fin m) | None => Free end)
      else if allow then Ok (Each (map (fun y => if below y then y else PInf) high))
      else if forallb below high then Ok (Each high)
      else match max_value with
           | None => Err "TensorforceError: Invalid infinite box bounds"
           | Some m => Ok (Each (map (fun y => if below y then y else Fin m) high))
           end
  end.

(** The names 'gymmdc{n}_{shape}', openai_gym.py 284-289 *)
Definition mdc_name (shape : list nat) (n : nat) : string := "gymmdc" ++ str n ++ "_" ++ join (map str shape).
(** openai_gym.py 286-289 *)
Fixpoint mdc_specs (shape : list nat) (n : nat) (nvec : list Z) (d : list (string * leaf)) : list (string * leaf) :=
  match nvec with
  | [] => d
  | k :: r => mdc_specs shape (S n) r (dset d (mdc_name shape n) (mkLeaf "int" [] (Some k) Free Free))
  end.

(** specs_from_gym_space for all but Tuple and Dict, openai_gym.py 273-345 *)
Definition simple_specs (allow : bool) (min_value max_value : option R) (s : space) : res specs :=
  match s with
  | Discrete n => Ok (SLeaf (mkLeaf "int" [] (Some n) Free Free))
  | MultiBinary shape => Ok (SLeaf (mkLeaf "bool" shape None Free Free))
  | MultiDiscrete shape nvec =>
      match nvec with
      | [] => Err "IndexError"
      | k :: _ =>
          if forallb (fun x => Z.eqb x k) nvec then Ok (SLeaf (mkLeaf "int" shape (Some k) Free Free))
          else Ok (SDict (mdc_specs shape 0 nvec []))
      end
  | Box shape low high =>
      do mn <- box_min allow min_value low;
      do mx <- box_max allow max_value high;
      Ok (SLeaf (mkLeaf "float" shape None mn mx))
  | Tup _ | Dct _ => Err "unused"
  end.

Section Nested.
Variable rec : space -> res specs.
(** The specifications of the components of a tuple, openai_gym.py 347-359 *)
Fixpoint tuple_specs (n : nat) (l : list space) (d : list (string * leaf)) : res (list (string * leaf)) :=
  match l with
  | [] => Ok d
  | s :: r =>
      do x <- rec s;
      tuple_specs (S n) r (match x with
                           | SLeaf sp => dset d ("gymtpl" ++ str n) sp
                           | SDict sps => dset_all (fun name => "gymtpl" ++ str n ++ "_" ++ name) sps d
                           end)
  end.
(** The specifications of the entries of a dictionary, openai_gym.py 361-372 *)
Fixpoint dict_specs (l : list (string * space)) (d : list (string * leaf)) : res (list (string * leaf)) :=
  match l with
  | [] => Ok d
  | (key, s) :: r =>
      do x <- rec s;
      dict_specs r (match x with
                    | SLeaf sp => dset d key sp
                    | SDict sps => dset_all (fun name => key ++ "_" ++ name) sps d
                    end)
  end.
End Nested.

(** specs_from_gym_space, openai_gym.py 267-375; the recursive calls do not pass min_value and max_value (351-353, 364-366) *)
Fixpoint specs_from (allow : bool) (min_value max_value : option R) (s : space) {struct s} : res specs :=
  match s with
  | Tup l => do d <- tuple_specs (specs_from allow None None) 0 l []; Ok (SDict d)
  | Dct l => do d <- dict_specs (specs_from allow None None) l []; Ok (SDict d)
  | _ => simple_specs allow min_value max_value s
  end.

Section Values.
Variable V : Type.
Variable finite : V -> bool.

(** Values of gym: arrays (shape and entries), tuples and dictionaries; openai_gym.py 379, 399, 428 *)
Inductive gval :=
| GArr (shape : list nat) (data : list V)
| GTup (l : list gval)
| GDict (l : list (string * gval)).

(** Values of Tensorforce: an array or a dictionary of arrays (dictionaries of dictionaries only arise
    in unflatten_action), openai_gym.py 378-498 *)
Inductive tval := TArr (shape : list nat) (data : list V) | TDict (l : list (string * tval)).

(** * States *)

(** np.isinf / np.isnan, openai_gym.py 428, 453 *)
Definition all_finite (data : list V) : bool := forallb finite data.

(** The specification of a component of a state, openai_gym.py 382-390, 411-419; a specification of a single tensor
    has no such component (its own keys 'type', 'shape', ... are not considered). *)
Definition component (sp : specs) (key : string) : res specs :=
  match sp with
  | SLeaf _ => Err "AssertionError"
  | SDict d =>
      match dget d key with
      | Some l => Ok (SLeaf l)
      | None =>
          match filter (fun kl => String.prefix (key ++ "_") (fst kl)) d with
          | [(_, l)] => Ok (SLeaf l)
          | _ => Err "AssertionError"
          end
      end
  end.

(** Splitting an array into its entries, openai_gym.py 431-445; the shape in the names is the one of the
    flattened array. *)
Definition entries (prefix : string) (data : list V) : list (string * tval) :=
  map (fun nv => (prefix ++ str (fst nv) ++ "_" ++ str (length data), TArr [] [snd nv]))
      (combine (seq 0 (length data)) data).

(** flatten_state for an array, openai_gym.py 428-448 *)
Definition flatten_array (sp : specs) (shape : list nat) (data : list V) : res tval :=
  if negb (all_finite data) then Err "TensorforceError: State contains inf or nan."
  else match sp with
       | SDict d =>
           match dget d "gymbox0", dget d "gymmdc0" with
           | Some _, _ => Ok (TDict (entries "gymbox" data))
           | None, Some _ => Ok (TDict (entries "gymmdc" data))
           | None, None => Ok (TArr shape data)
           end
       | SLeaf _ => Ok (TArr shape data)
       end.

(** states[name] = state or states[name_inner] = state, openai_gym.py 392-396, 421-425 *)
Definition add_state (d : list (string * tval)) (key : string) (x : tval) : list (string * tval) :=
  match x with
  | TDict l => dset_all (fun name => key ++ "_" ++ name) l d
  | TArr _ _ => dset d key x
  end.

Section NestedStates.
Variable rec : specs -> gval -> res tval.
(** The components of a tuple, openai_gym.py 379-397 *)
Fixpoint tuple_states (sp : specs) (n : nat) (l : list gval) (d : list (string * tval)) : res (list (string * tval)) :=
  match l with
  | [] => Ok d
  | v :: r =>
      do c <- component sp ("gymtpl" ++ str n);
      do x <- rec c v;
      tuple_states sp (S n) r (add_state d ("gymtpl" ++ str n) x)
  end.
(** The entries of a dictionary, openai_gym.py 410-426 *)
Fixpoint dict_states (sp : specs) (l : list (string * gval)) (d : list (string * tval)) : res (list (string * tval)) :=
  match l with
  | [] => Ok d
  | (key, v) :: r =>
      do c <- component sp key;
      do x <- rec c v;
      dict_states sp r (add_state d key x)
  end.
End NestedStates.

(** flatten_state without actions_spec, openai_gym.py 377-448 *)
Fixpoint flatten (sp : specs) (v : gval) {struct v} : res tval :=
  match v with
  | GArr shape data => flatten_array sp shape data
  | GTup l => do d <- tuple_states flatten sp 0 l []; Ok (TDict d)
  | GDict l => do d <- dict_states flatten sp l []; Ok (TDict d)
  end.

(** The names of the masks that are taken out of a state, openai_gym.py 401-409 *)
Definition mask_names (actions : specs) : list string :=
  match actions with
  | SLeaf _ => ["action_mask"]
  | SDict d => map (fun kl => fst kl ++ "_mask") d
  end.

(** state.pop(k), openai_gym.py 403-409 *)
Fixpoint dpop {A} (d : list (string * A)) (k : string) : option A * list (string * A) :=
  match d with
  | [] => (None, [])
  | (k', v) :: r => if String.eqb k k' then (Some v, r)
                    else let (x, r') := dpop r k in (x, (k', v) :: r')
  end.

(** The masks and the rest of a state, openai_gym.py 400-409; masks are arrays *)
Fixpoint pop_masks (names : list string) (l : list (string * gval)) (d : list (string * tval))
  : list (string * tval) * list (string * gval) :=
  match names with
  | [] => (d, l)
  | k :: r =>
      match dpop l k with
      | (Some (GArr shape data), l') => pop_masks r l' (dset d k (TArr shape data))
      | _ => pop_masks r l d
      end
  end.

(** flatten_state with actions_spec, openai_gym.py 377-448 *)
Definition flatten_state (sp actions : specs) (v : gval) : res tval :=
  match v with
  | GDict l => let (d, l') := pop_masks (mask_names actions) l [] in
               do d <- dict_states flatten sp l' d; Ok (TDict d)
  | _ => flatten sp v
  end.

(** * Actions *)

(** all(name.startswith(prefix) for name in action), openai_gym.py 458-460, 477-478 *)
Definition all_start (prefix : string) {A} (l : list (string * A)) : bool :=
  forallb (fun kv => String.prefix prefix (fst kv)) l.

(** The entries of an array given as list of arrays, np.array(actions), openai_gym.py 481 *)
Fixpoint stack (l : list gval) : res (list V) :=
  match l with
  | [] => Ok []
  | GArr [] [v] :: r => do vs <- stack r; Ok (v :: vs)
  | _ => Err "ValueError: np.array"
  end.

(** np.array(actions).reshape(shape), openai_gym.py 481 *)
Definition reshape (l : list gval) (shape : list nat) : res gval :=
  do data <- stack l;
  do _ <- assert_ (Nat.eqb (fold_left Nat.mul shape 1%nat) (length data)) "ValueError: reshape";
  Ok (GArr shape data).

(** One name of an action: the part up to the first '_' and the rest, openai_gym.py 488-494 *)
Definition group_one (d : list (string * tval)) (kv : string * tval) : res (list (string * tval)) :=
  match cut (fst kv) with
  | Some (name, inner) =>
      match dget d name with
      | Some (TDict l) => Ok (dset d name (TDict (dset l inner (snd kv))))
      | Some (TArr _ _) => Err "IndexError"
      | None => Ok (dset d name (TDict [(inner, snd kv)]))
      end
  | None => Ok (dset d (fst kv) (snd kv))
  end.
(** openai_gym.py 486-494 *)
Fixpoint group (l : list (string * tval)) (d : list (string * tval)) : res (list (string * tval)) :=
  match l with
  | [] => Ok d
  | kv :: r => do d <- group_one d kv; group r d
  end.

(** The components of a tuple, or the entries of an array: while True, openai_gym.py 462-476.
    [rec] is unflatten_action; as many steps are enough as there are names. *)
Fixpoint parts (rec : tval -> res gval) (prefix : string) (l : list (string * tval)) (n fuel : nat) : res (list gval) :=
  match fuel with
  | O => Ok []
  | S fuel =>
      if existsb (fun kv => String.prefix (prefix ++ str n ++ "_") (fst kv)) l then
        match filter (fun kv => String.prefix (prefix ++ str n) (fst kv)) l with
        | [(_, v)] => do x <- rec v; do xs <- parts rec prefix l (S n) fuel; Ok (x :: xs)
        | _ => Err "AssertionError"
        end
      else match dget l (prefix ++ str n) with
           | Some v => do x <- rec v; do xs <- parts rec prefix l (S n) fuel; Ok (x :: xs)
           | None => Ok []
           end
  end.

(** The entries of the grouped dictionary, openai_gym.py 495-498 *)
Fixpoint each (rec : tval -> res gval) (l : list (string * tval)) : res (list (string * gval)) :=
  match l with
  | [] => Ok []
  | (k, TArr s d) :: r => do xs <- each rec r; Ok ((k, GArr s d) :: xs)
  | (k, v) :: r => do x <- rec v; do xs <- each rec r; Ok ((k, x) :: xs)
  end.

(** The shape in a name, openai_gym.py 479-480 *)
Definition shape_of (name : string) : res (list nat) :=
  match cut name with
  | None => Err "ValueError: substring not found"
  | Some (_, s) => map_res int_of (split s)
  end.

(** unflatten_action, openai_gym.py 450-498; [depth] bounds the depth of the recursion. *)
Fixpoint unflatten (depth : nat) (a : tval) : res gval :=
  match depth with
  | O => Err "RecursionError"
  | S depth =>
      match a with
      | TArr shape data =>
          do _ <- assert_ (all_finite data) "TensorforceError: Action contains inf or nan.";
          Ok (GArr shape data)
      | TDict l =>
          if all_start "gymmdc" l || all_start "gymbox" l || all_start "gymtpl" l then
            match l with
            | [] => Err "StopIteration"
            | (name, _) :: _ =>
                do xs <- parts (unflatten depth) (substring 0 6 name) l 0 (S (length l));
                if all_start "gymmdc" l || all_start "gymbox" l
                then do shape <- shape_of name; reshape xs shape
                else Ok (GTup xs)
            end
          else do d <- group l []; do xs <- each (unflatten depth) d; Ok (GDict xs)
      end
  end.
End Values.
