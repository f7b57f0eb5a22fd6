(** Specification for the inputs and outputs of act and observe: several instances of a state and the
    ways of writing them. *)

From Coq Require Import String List ZArith Bool.
From Verif Require Import Base InpModel.
Import ListNotations.
Open Scope list_scope.
Open Scope nat_scope.

Section Spec.
Variable V : Type.

(** An array has as many entries as its shape says. *)
Definition wf (a : arr V) : Prop := length (data a) = fold_right Nat.mul 1 (shape a).

(** Ways of writing an array: as an array, a number, or a list of arrays of the same shape *)
Inductive writes : pv V -> arr V -> Prop :=
| writes_num v : writes (PNum v) (Arr [] [v])
| writes_arr a : writes (PArr a) a
| writes_list ps xs sh : ps <> [] -> Forall2 writes ps xs -> (forall x, In x xs -> shape x = sh) ->
    writes (PList ps) (Arr (length ps :: sh) (concat (map data xs))).

(** Ways of writing a (nested) dictionary of arrays; a leaf is a single array *)
Inductive writes_tree : pv V -> tree (arr V) -> Prop :=
| writes_leaf p a : writes p a -> writes_tree p (Leaf a)
| writes_dict ps ts : NoDup (map fst ts) ->
    Forall2 (fun kp kt => fst kp = [fst kt] /\ writes_tree (snd kp) (snd kt)) ps ts ->
    writes_tree (PDict ps) (Dict ts).

(** [n] instances: for every entry the arrays of the instances, all of the same shape; the keys of a
    dictionary are different *)
Definition rows (n : nat) (xs : list (arr V)) : Prop :=
  length xs = n /\ exists sh, forall x, In x xs -> shape x = sh /\ wf x.
Inductive table (n : nat) : tree (list (arr V)) -> Prop :=
| table_leaf xs : rows n xs -> table n (Leaf xs)
| table_dict d : NoDup (map fst d) -> Forall (fun kt => table n (snd kt)) d -> table n (Dict d).

(** The i-th instance *)
Fixpoint instance (i : nat) (t : tree (list (arr V))) : tree (arr V) :=
  match t with
  | Leaf xs => Leaf (nth i xs (Arr [] []))
  | Dict d => Dict (map (fun kt => (fst kt, instance i (snd kt))) d)
  end.
(** All instances, one after another along a new first axis *)
Definition pile (xs : list (arr V)) : arr V :=
  Arr (length xs :: match xs with [] => [] | x :: _ => shape x end) (concat (map data xs)).
Fixpoint piled (t : tree (list (arr V))) : tree (arr V) :=
  match t with
  | Leaf xs => Leaf (pile xs)
  | Dict d => Dict (map (fun kt => (fst kt, piled (snd kt))) d)
  end.

(** The i-th instance, as the only one *)
Fixpoint alone (i : nat) (t : tree (list (arr V))) : tree (arr V) :=
  match t with
  | Leaf xs => Leaf (pile [nth i xs (Arr [] [])])
  | Dict d => Dict (map (fun kt => (fst kt, alone i (snd kt))) d)
  end.

(** The instances have entries of the specified shape in the first specified entry *)
Fixpoint find {A} (path : list string) (t : tree A) : option A :=
  match path, t with
  | [], Leaf a => Some a
  | k :: r, Dict d => match dget k d with Some x => find r x | None => None end
  | _, _ => None
  end.
Fixpoint first {A} (t : tree A) : option (list string * A) :=
  match t with
  | Leaf a => Some ([], a)
  | Dict d => (fix go (d : list (string * tree A)) :=
                 match d with
                 | [] => None
                 | (k, x) :: r => match first x with
                                  | Some (p, a) => Some (k :: p, a)
                                  | None => go r
                                  end
                 end) d
  end.
Definition fits (spec : tree leaf) (t : tree (list (arr V))) : Prop :=
  match spec, t with
  | Leaf l, Leaf xs => forall x, In x xs -> shape x = l_shape l
  | Leaf l, Dict _ => exists xs, find ["state"%string] t = Some xs /\ forall x, In x xs -> shape x = l_shape l
  | Dict _, Dict _ => exists p l xs, first spec = Some (p, l) /\ find p t = Some xs /\ forall x, In x xs -> shape x = l_shape l
  | Dict _, Leaf _ => False
  end.

(** A dictionary without nested dictionaries, or a single value *)
Definition flat {A} (t : tree A) : bool :=
  match t with
  | Leaf _ => true
  | Dict d => forallb (fun kt => match snd kt with Leaf _ => true | Dict _ => false end) d
  end.

(** Keys of every (nested) dictionary are different, and no nested dictionary is empty *)
Inductive distinct {A} : tree A -> Prop :=
| distinct_leaf a : distinct (Leaf a)
| distinct_dict d : NoDup (map fst d) -> Forall (fun kt => distinct (snd kt)) d -> distinct (Dict d).
Inductive no_empty {A} : tree A -> Prop :=
| no_empty_leaf a : no_empty (Leaf a)
| no_empty_dict d : d <> [] -> Forall (fun kt => no_empty (snd kt)) d -> no_empty (Dict d).

(** Nested dictionaries with the same keys *)
Definition like {A B} (s : tree A) (t : tree B) : Prop := tmap (fun _ => tt) s = tmap (fun _ => tt) t.

(** The arrays of a nested dictionary with their full names *)
Fixpoint entries {A} (t : tree A) : list (list string * A) :=
  match t with
  | Leaf a => [([], a)]
  | Dict d => flat_map (fun kt => map (fun pa => (fst kt :: fst pa, snd pa)) (entries (snd kt))) d
  end.
(** A dictionary without nesting for a nested one, its keys are the full names *)
Definition writes_flat (p : pv V) (t : tree (arr V)) : Prop :=
  (exists d, t = Dict d) /\
  exists ps, p = PDict ps /\ Forall2 (fun kp pa => fst kp = fst pa /\ writes (snd kp) (snd pa)) ps (entries t).
Definition inside {A} (P : tree A -> Prop) (t : tree A) : Prop :=
  match t with Leaf _ => True | Dict d => Forall (fun kt => P (snd kt)) d end.
(** Both ways of writing a dictionary *)
Definition writes_any (p : pv V) (t : tree (arr V)) : Prop :=
  (exists d, t = Dict d) /\ (writes_tree p t \/ writes_flat p t /\ distinct t /\ inside no_empty t).

(** An array or, if it has no dimension, its entry *)
Definition as_value (x : arr V) : pv V := match x with Arr [] [v] => PNum v | _ => PArr x end.

(** The actions of all instances as arrays, and those of the i-th instance *)
Definition batch_value (t : tree (list (arr V))) : pv V :=
  match t with
  | Leaf xs => PArr (pile xs)
  | Dict _ => PDict (map (fun e => (fst e, PArr (pile (snd e)))) (entries t))
  end.
Definition one_value (i : nat) (t : tree (list (arr V))) : pv V :=
  match t with
  | Leaf xs => as_value (nth i xs (Arr [] []))
  | Dict _ => PDict (map (fun e => (fst e, as_value (nth i (snd e) (Arr [] [])))) (entries t))
  end.
(** Both ways of writing one state *)
Definition writes_state (p : pv V) (t : tree (arr V)) : Prop :=
  writes_tree p t \/ writes_flat p t /\ distinct t /\ inside no_empty t.

(** Acting several times, the internals are those of the previous step: states, first internals, actions *)
Inductive episode (act : pv V -> option (pv V) -> res (pv V * option (pv V))) : list (pv V) -> pv V -> list (pv V) -> Prop :=
| episode_end q : episode act [] q []
| episode_step p ps q r o os : act p (Some q) = Ok (o, Some r) -> episode act ps r os -> episode act (p :: ps) q (o :: os).

(** A policy that treats the instances of a batch one by one, whatever their number is *)
Definition even (n : nat) (t : tree (list (arr V))) : Prop := Forall (rows n) (leaves t).
Definition rowwise (states actions internals : tree leaf)
    (policy : tree (arr V) -> tree (arr V) -> list (list string * arr V) -> bool -> tree (arr V) * tree (arr V)) : Prop :=
  forall n S I M deterministic, n <> 0 -> like states S -> even n S -> even n I -> Forall (fun pm => rows n (snd pm)) M ->
  exists A J, even n A /\ even n J /\ like actions A /\ like internals J /\
    policy (piled S) (piled I) (map (fun pm => (fst pm, pile (snd pm))) M) deterministic = (piled A, piled J) /\
    forall i, i < n ->
      policy (alone i S) (alone i I) (map (fun pm => (fst pm, pile [nth i (snd pm) (Arr [] [])])) M) deterministic
      = (alone i A, alone i J).

(** * Masks *)

(** The name of the mask of an action that is no part of a nested dictionary; [] is a single action *)
Definition mask_name (path : list string) (name : string) : Prop :=
  path = [] /\ name = "action_mask"%string \/ exists k, path = [k] /\ name = (k ++ "_mask")%string.
(** The mask that allows every option, for actions of a shape with k options *)
Definition all_allowed (one : V) (sh : list nat) (k : nat) : arr V := Arr (sh ++ [k]) (repeat one (fold_right Nat.mul 1 (sh ++ [k]))).

(** * Streams *)

(** The streams that are meant by the argument parallel *)
Definition meant (p : par) : list Z := match p with ParInt z => [z] | ParSeq l => l end.
Definition among (j : nat) (l : list Z) : bool := existsb (fun z => Z.eqb z (Z.of_nat j)) l.
(** A state of an agent with [streams] streams *)
Definition proper {M} (streams : nat) (st : state M) : Prop := length (completed M st) = streams /\ length (counter M st) = streams.
(** Whether the last action of a stream was followed by an observation *)
Definition closed {M} (st : state M) (j : nat) : bool := nth j (completed M st) false.

End Spec.
