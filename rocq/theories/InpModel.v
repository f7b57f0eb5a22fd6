(** Model of the inputs and outputs of act and observe: /repo/tensorforce/agents/recorder.py 154-410 and
    491-575 (Recorder.act, observe, _process_states_input), /repo/tensorforce/agents/agent.py 420-500
    (Agent.fn_act) and the conversion TensorsSpec.to_tensor, core/utils/tensors_spec.py 30-50.

    Simplifications: inputs are numbers, arrays, lists (or tuples) and dictionaries of them; other
    iterables and tensors are not modelled, and a sequence of stream numbers is a list.  A list of
    arrays of different shapes raises in asarray.  The keys of dictionaries are no reserved
    keywords and not 'SINGLETON', and are given by their parts between '/'; a nested dictionary is a
    tree, the ArrayDict of a single value is a leaf.  Entries of arrays are of an arbitrary type, the conversion of an entry together
    with its value checks (core/utils/tensor_spec.py 149-194, modelled in SpecModel.v) is a function
    [conv].  The policy is a function of the model's state, and its outputs conform to their
    specifications, so from_tensor changes nothing; its assertions are not modelled.  Recording the values (RecModel.v), buffering
    and what follows in observe (AgentModel.v) are left out. *)

From Coq Require Import String List ZArith Bool.
From Verif Require Import Base.
Import ListNotations.
Open Scope list_scope.
Open Scope nat_scope.

(** * Arrays and Python values *)

(** An n-dimensional array: shape and entries in row-major order (np.ndarray, as in recorder.py 496) *)
Record arr (V : Type) := Arr { shape : list nat; data : list V }.
Arguments Arr {V} _ _.
Arguments shape {V} _.
Arguments data {V} _.

(** Values passed to and returned by act, recorder.py 154-327; a key 'a/b' is given by its parts *)
Inductive pv (V : Type) :=
| PNum (v : V)
| PArr (a : arr V)
| PList (l : list (pv V))
| PDict (d : list (list string * pv V)).
Arguments PNum {V} _.
Arguments PArr {V} _.
Arguments PList {V} _.
Arguments PDict {V} _.

(** A NestedDict; a leaf on top is the singleton, core/utils/nested_dict.py 25-45 *)
Inductive tree (A : Type) :=
| Leaf (a : A)
| Dict (d : list (string * tree A)).
Arguments Leaf {A} _.
Arguments Dict {A} _.

(** Number of entries of an array (np.ndarray, recorder.py 496) *)
Definition prod (l : list nat) : nat := fold_right Nat.mul 1 l.
(** == of shapes, recorder.py 497, 506, 543, 552 *)
Fixpoint shape_eqb (a b : list nat) : bool :=
  match a, b with
  | [], [] => true
  | x :: a, y :: b => Nat.eqb x y && shape_eqb a b
  | _, _ => false
  end.
(** np.stack(xs, axis=0), recorder.py 194, 533 *)
Definition np_stack {V} (xs : list (arr V)) : res (arr V) :=
  match xs with
  | [] => Err "ValueError: need at least one array to stack"
  | x :: r => if forallb (fun y => shape_eqb (shape y) (shape x)) r
              then Ok (Arr (length xs :: shape x) (concat (map data xs)))
              else Err "ValueError: all input arrays must have the same shape"
  end.
(** np.expand_dims(x, axis=0), recorder.py 209, 499, 545 *)
Definition expand {V} (x : arr V) : arr V := Arr (1 :: shape x) (data x).
(** x[n], recorder.py 294, 298, 308, 316 *)
Definition row {V} (x : arr V) (n : nat) : arr V :=
  Arr (tl (shape x)) (firstn (prod (tl (shape x))) (skipn (n * prod (tl (shape x))) (data x))).
(** x.shape[0], recorder.py 213, 238, 508, 555, 569 *)
Definition dim0 {V} (x : arr V) : res nat :=
  match shape x with n :: _ => Ok n | [] => Err "IndexError: tuple index out of range" end.

(** np.asarray(x), recorder.py 496, core/utils/dicts.py 69-71 *)
Fixpoint asarray {V} (p : pv V) : res (arr V) :=
  match p with
  | PNum v => Ok (Arr [] [v])
  | PArr a => Ok a
  | PList [] => Ok (Arr [0] [])
  | PList ps =>
      do xs <- (fix go (ps : list (pv V)) : res (list (arr V)) :=
                  match ps with [] => Ok [] | p :: r => do x <- asarray p; do xs <- go r; Ok (x :: xs) end) ps;
      np_stack xs
  | PDict _ => Err "object array"
  end.

(** d[k] of a dictionary (OrderedDict), core/utils/nested_dict.py 253 *)
Fixpoint dget {A} (k : string) (d : list (string * A)) : option A :=
  match d with
  | [] => None
  | (k', v) :: r => if String.eqb k k' then Some v else dget k r
  end.
(** d[name] = value with overwrite=False, core/utils/nested_dict.py 255-305 *)
Fixpoint insert {A} (path : list string) (v : tree A) (d : list (string * tree A)) : res (list (string * tree A)) :=
  match path with
  | [] => Err "TensorforceError: invalid key"
  | [k] => match dget k d with Some _ => Err "TensorforceError: already set" | None => Ok (d ++ [(k, v)]) end
  | k :: r =>
      match dget k d with
      | Some (Dict e) =>
          do e' <- insert r v e; Ok (map (fun kt => if String.eqb k (fst kt) then (k, Dict e') else kt) d)
      | Some (Leaf _) => Err "AssertionError"
      | None => do e' <- insert r v []; Ok (d ++ [(k, Dict e')])
      end
  end.
(** for key, value in other: self[key] = value, core/utils/nested_dict.py 329-339 *)
Fixpoint insert_all {A} (xs : list (list string * tree A)) (d : list (string * tree A)) : res (list (string * tree A)) :=
  match xs with
  | [] => Ok d
  | (p, v) :: r => do d' <- insert p v d; insert_all r d'
  end.

(** ArrayDict(d), core/utils/dicts.py 61-71, core/utils/nested_dict.py 29-40, 255-261, 329-341 *)
Fixpoint array_tree {V} (p : pv V) : res (tree (arr V)) :=
  match p with
  | PDict d =>
      do xs <- (fix go (d : list (list string * pv V)) : res (list (list string * tree (arr V))) :=
                 match d with
                 | [] => Ok []
                 | (k, x) :: r => do y <- array_tree x; do ys <- go r; Ok ((k, y) :: ys)
                 end) d;
      do t <- insert_all xs [];
      Ok (Dict t)
  | _ => do a <- asarray p; Ok (Leaf a)
  end.
(** The argument of ArrayDict is a dictionary (or else raises), recorder.py 192, 524-531 *)
Definition array_dict {V} (p : pv V) : res (tree (arr V)) :=
  match p with PDict _ => array_tree p | _ => Err "TypeError: not a dict" end.

(** * Nested dictionaries *)

(** fmap, core/utils/nested_dict.py 70-134 *)
Fixpoint tmap {A B} (f : A -> B) (t : tree A) : tree B :=
  match t with
  | Leaf a => Leaf (f a)
  | Dict d => Dict (map (fun kt => (fst kt, tmap f (snd kt))) d)
  end.
(** values, core/utils/nested_dict.py 182-188 *)
Fixpoint leaves {A} (t : tree A) : list A :=
  match t with
  | Leaf a => [a]
  | Dict d => concat (map (fun kt => leaves (snd kt)) d)
  end.
(** items, core/utils/nested_dict.py 165-180; a name 'a/b' is given by its parts *)
Fixpoint items {A} (t : tree A) : list (list string * A) :=
  match t with
  | Leaf a => [([], a)]
  | Dict d => concat (map (fun kt => map (fun pa => (fst kt :: fst pa, snd pa)) (items (snd kt))) d)
  end.
(** del d[k], core/utils/nested_dict.py 379 *)
Fixpoint ddel {A} (k : string) (d : list (string * A)) : list (string * A) :=
  match d with
  | [] => []
  | (k', v) :: r => if String.eqb k k' then r else (k', v) :: ddel k r
  end.
(** d[k] with a name without '/', core/utils/nested_dict.py 226-253; a name indexes no array *)
Definition child {A} (k : string) (t : tree A) : res (tree A) :=
  match t with
  | Dict d => match dget k d with Some x => Ok x | None => Err "KeyError" end
  | Leaf _ => Err "IndexError"
  end.
(** d[name], core/utils/nested_dict.py 226-253; the name None is [] *)
Fixpoint getitem {A} (path : list string) (t : tree A) : res (tree A) :=
  match path with
  | [] => Ok t
  | k :: r => do x <- child k t; getitem r x
  end.
(** An entry that is an array (and no dictionary), recorder.py 543, 552 *)
Definition value {A} (t : tree A) : res A :=
  match t with Leaf a => Ok a | Dict _ => Err "AttributeError: no array" end.
(** d.pop(name, default), core/utils/nested_dict.py 343-382; None if there is no such entry *)
Fixpoint pop {A} (path : list string) (t : tree A) : res (option (tree A) * tree A) :=
  match path, t with
  | [], _ => Ok (None, t)
  | _, Leaf _ => Ok (None, t)
  | [k], Dict d => match dget k d with
                   | Some x => Ok (Some x, Dict (ddel k d))
                   | None => Ok (None, t)
                   end
  | k :: r, Dict d =>
      match dget k d with
      | Some (Dict e) =>
          do ox <- pop r (Dict e);
          Ok (fst ox, Dict (map (fun kt => if String.eqb k (fst kt) then (k, snd ox) else kt) d))
      | Some (Leaf _) => Err "AssertionError"
      | None => Ok (None, t)
      end
  end.

(** x[0].fmap(lambda *xs: np.stack(xs, axis=0), zip_values=x[1:]), recorder.py 193-195, 532-534 and
    core/utils/nested_dict.py 90-132 *)
Fixpoint stack_trees {V} (t : tree (arr V)) (others : list (tree (arr V))) : res (tree (arr V)) :=
  match t with
  | Leaf a => do xs <- map_res value others; do s <- np_stack (a :: xs); Ok (Leaf s)
  | Dict d =>
      do e <- (fix go (d : list (string * tree (arr V))) : res (list (string * tree (arr V))) :=
                 match d with
                 | [] => Ok []
                 | (k, x) :: r =>
                     do xs <- map_res (child k) others;
                     do y <- stack_trees x xs; do ys <- go r; Ok ((k, y) :: ys)
                 end) d;
      Ok (Dict e)
  end.

(** * Specifications *)

(** A TensorSpec: shape, and num_values of an int; core/utils/tensor_spec.py 44-58 *)
Record leaf := mkLeaf { l_shape : list nat; l_num : option nat }.

Section Inputs.
Variable V : Type.
(** Conversion of an entry to the type of the specification, with its checks, core/utils/tensor_spec.py 149-194 *)
Variable conv : leaf -> V -> option V.

(** states_spec.item(), recorder.py 539-541 *)
Definition first_entry (spec : tree leaf) : res (list string * leaf) :=
  match spec with
  | Leaf l => Ok (["state"%string], l)
  | Dict _ => match items spec with x :: _ => Ok x | [] => Err "StopIteration" end
  end.

(** any(state.shape[0] != num_instances for state in states.values()), recorder.py 569-573; the same
    check for internals is 212-217 *)
Fixpoint check_rows (n : nat) (xs : list (arr V)) : res unit :=
  match xs with
  | [] => Ok tt
  | x :: r => do k <- dim0 x; if Nat.eqb k n then check_rows n r else Err "TensorforceError: len(states) inconsistent"
  end.

(** Whether the first branch is taken, recorder.py 492-494 *)
Definition is_single (spec : tree leaf) (p : pv V) : res (option leaf) :=
  match spec, p with
  | Dict _, _ => Ok None
  | Leaf _, PDict _ => Ok None
  | Leaf _, PList [] => Err "IndexError"
  | Leaf _, PList (PDict _ :: _) => Ok None
  | Leaf l, _ => Ok (Some l)
  end.

(** for n, state in enumerate(states): isinstance(state, dict), recorder.py 523-528 *)
Definition is_dict (p : pv V) : bool := match p with PDict _ => true | _ => false end.

(** _process_states_input, recorder.py 491-575: the states, batched, the number of instances and is_iter_of_dicts *)
Definition process_states (spec : tree leaf) (p : pv V) : res (tree (arr V) * bool * nat * option bool) :=
  do single <- is_single spec p;
  match single with
  | Some l =>
      do a <- asarray p;
      if shape_eqb (shape a) (l_shape l) then Ok (Leaf (expand a), false, 1, None)
      else if shape_eqb (tl (shape a)) (l_shape l) then
        do n <- dim0 a; Ok (Leaf a, true, n, Some true)
      else Err "AssertionError"
  | None =>
      match p with
      | PList [] => Err "TensorforceError: len(states) = 0"
      | PList (p0 :: ps) =>
          if forallb is_dict (p0 :: ps) then
            do t0 <- array_dict p0;
            do ts <- map_res array_dict ps;
            do t <- stack_trees t0 ts;
            do _ <- check_rows (length (p0 :: ps)) (leaves t);
            Ok (t, true, length (p0 :: ps), Some true)
          else Err "TensorforceError: states is not dict"
      | PDict _ =>
          do t <- array_dict p;
          do nl <- first_entry spec;
          do x <- getitem (fst nl) t;
          do a <- value x;
          if shape_eqb (shape a) (l_shape (snd nl)) then
            let t' := tmap expand t in
            do _ <- check_rows 1 (leaves t');
            Ok (t', false, 1, None)
          else if shape_eqb (tl (shape a)) (l_shape (snd nl)) then
            do n <- dim0 a;
            if Nat.eqb n 0 then Err "TensorforceError: len(states) = 0"
            else
              do _ <- check_rows n (leaves t);
              Ok (t, true, n, Some false)
          else Err "AssertionError"
      | _ => Err "TensorforceError: states is not array/tuple/list/dict"
      end
  end.

(** The argument internals in independent mode, recorder.py 179-217 *)
Definition process_internals (batched : bool) (n : nat) (iter : option bool) (p : pv V) : res (tree (arr V)) :=
  do t <- match p with
          | PList [] => Err "IndexError"
          | PList (p0 :: ps) =>
              do t0 <- array_dict p0;
              do ts <- map_res array_dict ps;
              stack_trees t0 ts
          | PDict _ => match iter with
                       | Some true => Err "TensorforceError: internals is not tuple/list"
                       | _ => array_dict p
                       end
          | _ => Err "TensorforceError: internals is not tuple/list/dict"
          end;
  let t' := if batched then t else tmap expand t in
  do _ <- check_rows n (leaves t');
  Ok t'.

(** * Conversion to tensors *)

(** == of names, core/utils/tensors_spec.py 35 *)
Definition path_eqb (a b : list string) : bool := if list_eq_dec string_dec a b then true else false.
(** set(value) != set(self), core/utils/tensors_spec.py 35 *)
Definition same_names {A B} (s : tree A) (t : tree B) : bool :=
  forallb (fun p => existsb (fun q => path_eqb (fst p) (fst q)) (items t)) (items s)
  && forallb (fun q => existsb (fun p => path_eqb (fst p) (fst q)) (items s)) (items t).

(** TensorsSpec.to_tensor without recover_empty, core/utils/tensors_spec.py 30-50; [g] converts one array *)
Fixpoint to_tensors {A B} (g : leaf -> A -> res B) (spec : tree leaf) (t : tree A) : res (tree B) :=
  match spec, t with
  | Leaf l, Leaf a => do b <- g l a; Ok (Leaf b)
  | Dict ds, Dict _ =>
      if same_names spec t then
        do e <- (fix go (ds : list (string * tree leaf)) : res (list (string * tree B)) :=
                   match ds with
                   | [] => Ok []
                   | (k, s) :: r => do x <- child k t; do y <- to_tensors g s x; do ys <- go r; Ok ((k, y) :: ys)
                   end) ds;
        Ok (Dict e)
      else Err "TensorforceError: invalid value"
  | _, _ => Err "TensorforceError: invalid value"
  end.

(** TensorsSpec.to_tensor with recover_empty, core/utils/tensors_spec.py 30-50: names are not compared *)
Fixpoint to_tensors_rec {A B} (g : leaf -> A -> res B) (spec : tree leaf) (t : tree A) : res (tree B) :=
  match spec, t with
  | Leaf l, Leaf a => do b <- g l a; Ok (Leaf b)
  | Dict ds, Dict dt =>
      do e <- (fix go (ds : list (string * tree leaf)) : res (list (string * tree B)) :=
                 match ds with
                 | [] => Ok []
                 | (k, s) :: r =>
                     do y <- match dget k dt with
                             | Some x => to_tensors_rec g s x
                             | None => match s with
                                       | Dict [] => Ok (Dict [])
                                       | Dict _ => if match leaves s with [] => true | _ => false end
                                                   then Err "TypeError" else Err "AssertionError"
                                       | Leaf _ => Err "AssertionError"
                                       end
                             end;
                     do ys <- go r; Ok ((k, y) :: ys)
                 end) ds;
      Ok (Dict e)
  | _, _ => Err "TensorforceError: invalid value"
  end.

(** All entries, core/utils/tensor_spec.py 154-191 *)
Fixpoint conv_all (l : leaf) (vs : list V) : res (list V) :=
  match vs with
  | [] => Ok []
  | v :: r => match conv l v with
              | Some w => do ws <- conv_all l r; Ok (w :: ws)
              | None => Err "TensorforceError: invalid value"
              end
  end.
(** TensorSpec.to_tensor with batched=True, core/utils/tensor_spec.py 149-194 *)
Definition to_tensor (l : leaf) (a : arr V) : res (arr V) :=
  if shape_eqb (tl (shape a)) (l_shape l) then
    do vs <- conv_all l (data a); Ok (Arr (shape a) vs)
  else Err "TensorforceError: invalid value shape".

(** * Masks *)

Variable one : V.          (* entries of np.ones *)
Variable masking : bool.   (* config.enable_int_action_masking *)

(** name + '_mask', agents/agent.py 430-433; the name None of a singleton becomes 'action' *)
Fixpoint mask_path (path : list string) : list string :=
  match path with
  | [] => ["action_mask"%string]
  | [k] => [(k ++ "_mask")%string]
  | k :: r => k :: mask_path r
  end.
(** np.ones(shape=(num_parallel,) + spec.shape + (spec.num_values,)), agents/agent.py 433-435 *)
Definition ones (n : nat) (l : leaf) (k : nat) : arr V :=
  let sh := n :: l_shape l ++ [k] in Arr sh (repeat one (prod sh)).
(** The number of options that can be masked, agents/agent.py 428-429, core/models/model.py 133-134 *)
Definition maskable (l : leaf) : option nat := if masking then l_num l else None.

(** The masks as part of the states, agents/agent.py 426-438: for every action (in order), its name, and its mask
    if it has one; [dflt] is the default mask *)
Fixpoint take_masks {A} (dflt : leaf -> nat -> A) (acts : list (list string * leaf)) (states : tree A)
  : res (list (list string * option (tree A)) * tree A) :=
  match acts with
  | [] => Ok ([], states)
  | (path, l) :: r =>
      match maskable l with
      | None => do ms <- take_masks dflt r states; Ok ((path, None) :: fst ms, snd ms)
      | Some k =>
          do os <- pop (mask_path path) states;
          do ms <- take_masks dflt r (snd os);
          Ok ((path, Some (match fst os with Some m => m | None => Leaf (dflt l k) end)) :: fst ms, snd ms)
      end
  end.

(** The specification of a mask, core/models/model.py 135-137 *)
Definition mask_leaf (l : leaf) (k : nat) : leaf := mkLeaf (l_shape l ++ [k]) None.
(** auxiliaries_spec.to_tensor, agents/agent.py 448-450: every mask by the specification of its action *)
Fixpoint masks_to_tensors {A B} (g : leaf -> A -> res B) (acts : list (list string * leaf))
    (masks : list (list string * option (tree A))) : res (list (list string * B)) :=
  match acts, masks with
  | (path, l) :: r, (_, None) :: ms => masks_to_tensors g r ms
  | (path, l) :: r, (_, Some (Leaf a)) :: ms =>
      match l_num l with
      | Some k => do b <- g (mask_leaf l k) a; do bs <- masks_to_tensors g r ms; Ok ((path, b) :: bs)
      | None => Err "TensorforceError: invalid value"
      end
  | _ :: _, (_, Some (Dict _)) :: _ => Err "TensorforceError: invalid value"
  | _, _ => Ok []
  end.

(** states[None] = states.pop('state'), agents/agent.py 439-440 *)
Definition rename_single {A} (spec : tree leaf) (states : tree A) : res (tree A) :=
  match spec, states with
  | Leaf _, Dict _ =>
      do os <- pop ["state"%string] states;
      match os with
      | (Some x, Dict []) => Ok x
      | (Some _, _) => Err "AssertionError"
      | (None, _) => Err "TensorforceError: invalid type None"
      end
  | _, _ => Ok states
  end.

(** * act in independent mode *)

Variables states_spec actions_spec internals_spec : tree leaf.
Notation masks := (list (list string * arr V)).

(** The inputs of the model, agents/agent.py 425-450: states and auxiliaries *)
Definition model_inputs (n : nat) (t : tree (arr V)) : res (tree (arr V) * masks) :=
  do mt <- take_masks (ones n) (items actions_spec) t;
  do s <- rename_single states_spec (snd mt);
  do s' <- to_tensors to_tensor states_spec s;
  do ms <- masks_to_tensors to_tensor (items actions_spec) (fst mt);
  Ok (s', ms).

(** lambda x: x.item() if x.shape == () else x, recorder.py 289 *)
Definition item_or (x : arr V) : pv V :=
  match shape x, data x with [], [v] => PNum v | _, _ => PArr x end.
(** lambda x: x.item() if x.shape == (1,) else x[0], recorder.py 316 *)
Definition unbatch1 (x : arr V) : pv V :=
  match shape x, data x with [1], [v] => PNum v | _, _ => PArr (row x 0) end.
(** fmap(function, cls=OrderedDict), recorder.py 320, 322 *)
Fixpoint tree_pv (t : tree (pv V)) : pv V :=
  match t with
  | Leaf p => p
  | Dict d => PDict (map (fun kt => ([fst kt], tree_pv (snd kt))) d)
  end.

(** Turn a dictionary of arrays into a list of dictionaries, recorder.py 296-302, 305-312 *)
Definition unbatch_dict (n : nat) (iter : option bool) (t : tree (arr V)) : pv V :=
  match iter with
  | Some true => PList (map (fun i => PDict (map (fun px => (fst px, item_or (row (snd px) i))) (items t))) (seq 0 n))
  | _ => PDict (map (fun px => (fst px, PArr (snd px))) (items t))
  end.
(** Unbatch actions, recorder.py 286-302, 314-320 *)
Definition unbatch_actions (batched : bool) (n : nat) (iter : option bool) (t : tree (arr V)) : pv V :=
  if batched then
    match t with
    | Leaf a => match iter with
                | Some true => PList (map (fun i => item_or (row a i)) (seq 0 n))
                | _ => PArr a
                end
    | Dict _ => unbatch_dict n iter t
    end
  else tree_pv (tmap unbatch1 t).
(** Unbatch internals, recorder.py 304-312, 321-322 *)
Definition unbatch_internals (batched : bool) (n : nat) (iter : option bool) (t : tree (arr V)) : pv V :=
  if batched then unbatch_dict n iter t else tree_pv (tmap unbatch1 t).

(** The model's independent_act, core/models/model.py 515-568: internals and masks may be empty *)
Variable independent_act : tree (arr V) -> tree (arr V) -> masks -> bool -> tree (arr V) * tree (arr V).

(** len(self.internals_spec) > 0, recorder.py 164, agents/agent.py 467 *)
Definition has_internals : bool := match leaves internals_spec with [] => false | _ => true end.

(** act(states, internals, independent=True, deterministic), recorder.py 154-327 and agents/agent.py 420-500:
    the actions, and the next internals if the argument internals is given; the code converts the internals
    before the masks, here after them *)
Definition act_independent (states : pv V) (internals : option (pv V)) (deterministic : bool)
  : res (pv V * option (pv V)) :=
  do _ <- match internals with
          | None => if has_internals then Err "TensorforceError: internals required" else Ok tt
          | Some _ => Ok tt
          end;
  do st <- process_states states_spec states;
  let '(t, batched, n, iter) := st in
  do it <- match internals with
           | None => Ok None
           | Some p => do i <- process_internals batched n iter p; Ok (Some i)
           end;
  do sm <- model_inputs n t;
  do i <- match it with
          | None => Ok (Dict [])
          | Some i => to_tensors_rec to_tensor internals_spec i
          end;
  let out := independent_act (fst sm) i (snd sm) deterministic in
  let next := if has_internals then snd out else i in
  Ok (unbatch_actions batched n iter (fst out),
      match it with None => None | Some _ => Some (unbatch_internals batched n iter next) end).

(** * act and observe in the agent-environment interaction *)

Variable M : Type.          (* the state of the model *)
(** The model's act, core/models/model.py 571-646 *)
Variable model_act : M -> tree (arr V) -> masks -> list Z -> M * tree (arr V).
Variable recording : bool.  (* recorder given and num_episodes >= start, recorder.py 254-255, 280-281 *)
Variable streams : nat.     (* parallel_interactions *)
Variable max_steps : option Z.  (* max_episode_timesteps *)

(** The argument parallel: a number or a sequence, recorder.py 155, 329 *)
Inductive par := ParInt (z : Z) | ParSeq (l : list Z).

(** timestep_counter, timestep_completed, recorder.py 105-110 *)
Record state := mkState { counter : list Z; completed : list bool; model : M }.

(** Indices of an array, negative ones count from the end; recorder.py 246, 251, 400-410 *)
Definition index (n : nat) (z : Z) : res nat :=
  let i := if (z <? 0)%Z then (z + Z.of_nat n)%Z else z in
  if (0 <=? i)%Z && (i <? Z.of_nat n)%Z then Ok (Z.to_nat i) else Err "IndexError".
(** x[parallel], recorder.py 246, 400, 407, 410 *)
Definition pick {A} (x : list A) (d : A) (is : list nat) : list A := map (fun i => nth i x d) is.
(** x[parallel] = v, recorder.py 251, 402, 405, 410 *)
Fixpoint put {A} (x : list A) (is : list nat) (vs : list A) : list A :=
  match is, vs with
  | i :: is, v :: vs => put (update_nth x i v) is vs
  | _, _ => x
  end.
(** recorder.py 251, 402 *)
Definition set_completed (st : state) (is : list nat) (b : bool) : state :=
  mkState (counter st) (put (completed st) is (map (fun _ => b) is)) (model st).
(** recorder.py 405, 410 *)
Definition set_counter (st : state) (c : list Z) : state := mkState c (completed st) (model st).

(** The argument parallel, recorder.py 219-242: the stream numbers, and whether they are a vector *)
Definition process_parallel (batched : bool) (n : nat) (p : par) : res (list Z * bool) :=
  if batched then
    match p with
    | ParInt _ => Err "IndexError: tuple index out of range"
    | ParSeq l => if Nat.eqb (length l) n then Ok (l, true) else Err "TensorforceError: len(parallel) != len(states)"
    end
  else match p with
       | ParInt z => Ok ([z], true)
       | ParSeq l => Ok (l, false)
       end.

(** states[name], recorder.py 257-258 *)
Definition recordable (t : tree (arr V)) : res unit :=
  match states_spec, t with
  | Leaf _, Leaf _ => Ok tt
  | Leaf _, Dict _ => Err "AssertionError"
  | Dict _, _ => do _ <- map_res (fun pl => getitem (fst pl) t) (items states_spec); Ok tt
  end.

(** act(states, parallel=parallel), recorder.py 154-327 and agents/agent.py 420-500; a failing call
    leaves a state, too *)
Definition act (st : state) (states : pv V) (internals : option (pv V)) (parallel : par) : state * res (pv V) :=
  match internals with
  | Some _ => (st, Err "TensorforceError: internals invalid")
  | None =>
  match process_states states_spec states with
  | Err e => (st, Err e)
  | Ok (t, batched, n, iter) =>
  match process_parallel batched n parallel with
  | Err e => (st, Err e)
  | Ok (ps, vector) =>
  match map_res (index streams) ps with
  | Err e => (st, Err e)
  | Ok is =>
  if negb (forallb (fun b => b) (pick (completed st) false is)) then
    (st, Err "TensorforceError: Calling agent.act must be preceded by agent.observe")
  else
  let st1 := set_completed st is false in
  match (if recording then recordable t else Ok tt) with
  | Err e => (st1, Err e)
  | Ok _ =>
  match model_inputs n t with
  | Err e => (st1, Err e)
  | Ok (s, ms) =>
  if vector && forallb (fun z => (0 <=? z)%Z && (z <? Z.of_nat streams)%Z) ps then
    let out := model_act (model st1) s ms ps in
    (mkState (counter st1) (completed st1) (fst out), Ok (unbatch_actions batched n iter (snd out)))
  else (st1, Err "TensorforceError: invalid value")
  end end end end end end.

(** Arguments of observe: numbers, and sequences; recorder.py 329 *)
Inductive terminal := TBool (b : bool) | TInt (z : Z) | TSeq (l : list Z).
(** recorder.py 329 *)
Inductive reward := RNum (v : V) | RSeq (l : list V).
Variable is_zero : V -> bool.   (* == 0.0, recorder.py 348, 362 *)
Variable zero : V.              (* 0.0, recorder.py 349, 363 *)

(** A vector or a 0-dimensional array, recorder.py 334-337, 366-369; [None] has no length *)
Definition terminal_vec (n : nat) (t : terminal) : option (list Z) :=
  match t with TBool false => Some (repeat 0%Z n) | TSeq l => Some l | _ => None end.
(** recorder.py 348-351, 362-365 *)
Definition reward_vec (n : nat) (r : reward) : option (list V) :=
  match r with RSeq l => Some l | RNum v => if is_zero v then Some (repeat zero n) else None end.
(** recorder.py 338-342, 352-356 *)
Definition parallel_vec (n : nat) (p : par) : res (option (list Z)) :=
  match p with
  | ParSeq l => Ok (Some l)
  | ParInt z => if (z =? 0)%Z then (if Nat.eqb n streams then Ok (Some (map Z.of_nat (seq 0 n))) else Err "AssertionError")
                else Ok None
  end.
(** int(terminal), recorder.py 373 *)
Definition terminal_int (t : terminal) : Z :=
  match t with TBool b => if b then 1%Z else 0%Z | TInt z => z | TSeq _ => 0%Z end.
(** float(reward), recorder.py 372 *)
Definition reward_num (r : reward) : V := match r with RNum v => v | RSeq _ => zero end.

(** Batching of observe's arguments and checks of their lengths, recorder.py 330-391 *)
Definition process_observe (r : reward) (t : terminal) (p : par) : res (list V * list Z * list Z) :=
  do rtp <- match r, t, p with
            | RSeq rs, _, _ =>
                do ps <- parallel_vec (length rs) p;
                Ok (Some rs, terminal_vec (length rs) t, ps)
            | RNum _, TSeq ts, _ =>
                do ps <- parallel_vec (length ts) p;
                Ok (reward_vec (length ts) r, Some ts, ps)
            | RNum _, _, ParSeq ps => Ok (reward_vec (length ps) r, terminal_vec (length ps) t, Some ps)
            | RNum v, _, ParInt z => Ok (Some [v], Some [terminal_int t], Some [z])
            end;
  match rtp with
  | (_, _, None) => Err "IndexError: tuple index out of range"
  | (_, _, Some []) => Err "TensorforceError: len(parallel) = 0"
  | (Some rs, Some ts, Some ps) =>
      if negb (Nat.eqb (length rs) (length ps)) then Err "TensorforceError: len(reward) != parallel length"
      else if negb (Nat.eqb (length ts) (length ps)) then Err "TensorforceError: len(terminal) != parallel length"
      else Ok (rs, ts, ps)
  | (None, _, _) => Err "TensorforceError: len(reward) != parallel length"
  | (_, None, _) => Err "TensorforceError: len(terminal) != parallel length"
  end.

(** observe(reward, terminal, parallel), recorder.py 329-410: what is passed on, and the state *)
Definition observe (st : state) (r : reward) (t : terminal) (p : par) : state * res (list V * list Z * list Z) :=
  match process_observe r t p with
  | Err e => (st, Err e)
  | Ok (rs, ts, ps) =>
  match map_res (index streams) ps with
  | Err e => (st, Err e)
  | Ok is =>
  if existsb (fun b => b) (pick (completed st) true is) then
    (st, Err "TensorforceError: Calling agent.observe must be preceded by agent.act.")
  else
  let st1 := set_completed st is true in
  let st2 := set_counter st1 (put (counter st1) is (map (fun c => (c + 1)%Z) (pick (counter st1) 0%Z is))) in
  if match max_steps with
     | None => false
     | Some m => existsb (fun tc => (fst tc =? 0)%Z && (m <? snd tc)%Z) (combine ts (pick (counter st2) 0%Z is))
     end
  then (st2, Err "TensorforceError: Episode longer than max_episode_timesteps.")
  else
    (set_counter st2 (put (counter st2) is
       (map (fun tc => if (0 <? fst tc)%Z then 0%Z else snd tc) (combine ts (pick (counter st2) 0%Z is)))),
     Ok (rs, ts, ps))
  end end.

End Inputs.
