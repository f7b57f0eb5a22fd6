(** Specification for experience and pretrain: timesteps with their states, actions, internals, terminals and
    rewards, and the ways of writing them as arguments. *)

From Coq Require Import String List ZArith Bool.
From Verif Require Import Base InpModel InpSpec ExpModel.
Import ListNotations.
Open Scope string_scope.
Open Scope list_scope.
Open Scope nat_scope.

(** [k] elements after the first [o] *)
Definition part {A} (o k : nat) (xs : list A) : list A := firstn k (skipn o xs).

Section Spec.
Variable V : Type.

(** The timesteps of some episodes, for every name the values of all timesteps *)
Record trace := mkTrace {
  t_states : tree (list (arr V)); t_actions : tree (list (arr V)); t_internals : tree (list (arr V));
  t_terminal : list V; t_reward : list V }.

(** [n] timesteps *)
Definition trace_ok (n : nat) (x : trace) : Prop :=
  table V n (t_states x) /\ table V n (t_actions x) /\ table V n (t_internals x) /\
  (exists d, t_internals x = Dict d) /\ length (t_terminal x) = n /\ length (t_reward x) = n.

(** Some of the timesteps *)
Fixpoint timesteps (o k : nat) (t : tree (list (arr V))) : tree (list (arr V)) :=
  match t with
  | Leaf xs => Leaf (part o k xs)
  | Dict d => Dict (map (fun kt => (fst kt, timesteps o k (snd kt))) d)
  end.
Definition cut (o k : nat) (x : trace) : trace :=
  mkTrace (timesteps o k (t_states x)) (timesteps o k (t_actions x)) (timesteps o k (t_internals x))
          (part o k (t_terminal x)) (part o k (t_reward x)).

(** The same values in all timesteps *)
Fixpoint always (n : nat) (t : tree (arr V)) : tree (list (arr V)) :=
  match t with
  | Leaf a => Leaf (repeat a n)
  | Dict d => Dict (map (fun kt => (fst kt, always n (snd kt))) d)
  end.

(** A vector of numbers *)
Definition vector (vs : list V) : arr V := Arr [length vs] vs.

(** Ways of writing the states of all timesteps: a value per timestep; for a single state also an array *)
Definition states_steps (n : nat) (t : tree (list (arr V))) (p : pv V) : Prop :=
  (exists ps, p = PList ps /\ length ps = n /\ forall i q, nth_error ps i = Some q -> writes_tree V q (instance V i t)) \/
  (exists xs, t = Leaf xs /\ writes V p (pile V xs)).
(** or a dictionary of arrays *)
Definition states_arrays (t : tree (list (arr V))) (p : pv V) : Prop :=
  (exists d, t = Dict d) /\ writes_any V p (piled V t).

(** The name 'action' is special, it stands for a single action *)
Definition named (p : pv V) : Prop := forall x, p <> PDict [(["action"], x)].
(** Ways of writing the actions *)
Definition actions_steps (n : nat) (t : tree (list (arr V))) (p : pv V) : Prop :=
  match t with
  | Leaf xs => p = PArr (pile V xs) \/
               exists qs, p = PList qs /\ length qs = n /\
                 ((forall i q, nth_error qs i = Some q -> writes V q (nth i xs (Arr [] []))) \/
                  (forall i q, nth_error qs i = Some q -> exists r, q = PDict [(["action"], r)] /\ writes V r (nth i xs (Arr [] []))))
  | Dict _ => exists qs, p = PList qs /\ length qs = n /\
                forall i q, nth_error qs i = Some q -> writes_any V q (instance V i t) /\ named q
  end.
Definition actions_arrays (t : tree (list (arr V))) (p : pv V) : Prop :=
  match t with
  | Leaf xs => p = PArr (pile V xs) \/ exists r, p = PDict [(["action"], r)] /\ writes V r (pile V xs)
  | Dict _ => writes_any V p (piled V t) /\ named p
  end.
Definition action_alone (t : tree (list (arr V))) (p : pv V) : Prop :=
  match t with
  | Leaf xs => p = PArr (nth 0 xs (Arr [] [])) \/ exists r, p = PDict [(["action"], r)] /\ writes V r (nth 0 xs (Arr [] []))
  | Dict _ => writes_any V p (instance V 0 t) /\ named p
  end.

(** The internals can be omitted, this means the initial ones; if the states are arrays of several timesteps only if
    these are numbers, and for a state alone only if there are none *)
Definition internals_steps (initial : tree (arr V)) (n : nat) (t : tree (list (arr V))) (o : option (pv V)) : Prop :=
  o = None /\ t = always n initial \/
  exists qs, o = Some (PList qs) /\ length qs = n /\ forall i q, nth_error qs i = Some q -> writes_any V q (instance V i t).
Definition internals_arrays (initial : tree (arr V)) (n : nat) (t : tree (list (arr V))) (o : option (pv V)) : Prop :=
  o = None /\ t = always n initial /\ (n = 1 \/ forall p a, In (p, a) (entries initial) -> shape a = []) \/ exists p, o = Some p /\ writes_any V p (piled V t).
Definition internals_alone (initial : tree (arr V)) (t : tree (list (arr V))) (o : option (pv V)) : Prop :=
  o = None /\ initial = Dict [] /\ t = Dict [] \/ exists p, o = Some p /\ writes_any V p (instance V 0 t).

(** Ways of writing [n] timesteps as arguments states, actions, terminal, reward and internals *)
Inductive written (initial : tree (arr V)) (n : nat) (x : trace) : pv V -> pv V -> pv V -> pv V -> option (pv V) -> Prop :=
| by_steps s a t r i :
    states_steps n (t_states x) s -> actions_steps n (t_actions x) a -> internals_steps initial n (t_internals x) i ->
    writes V t (vector (t_terminal x)) -> writes V r (vector (t_reward x)) -> written initial n x s a t r i
| by_arrays s a t r i :
    states_arrays (t_states x) s -> actions_arrays (t_actions x) a -> internals_arrays initial n (t_internals x) i ->
    writes V t (vector (t_terminal x)) -> writes V r (vector (t_reward x)) -> written initial n x s a t r i
| one_step s a t r i :
    n = 1 -> writes_state V s (instance V 0 (t_states x)) -> action_alone (t_actions x) a ->
    internals_alone initial (t_internals x) i ->
    t_terminal x = [t] -> t_reward x = [r] -> written initial n x s a (PNum t) (PNum r) i.

(** Values that conform to a specification: conversion changes nothing *)
Inductive conforms (conv : leaf -> V -> option V) : tree leaf -> tree (list (arr V)) -> Prop :=
| conforms_leaf l xs : (forall x, In x xs -> shape x = l_shape l /\ forall v, In v (data x) -> conv l v = Some v) ->
    conforms conv (Leaf l) (Leaf xs)
| conforms_dict ds dt : NoDup (map fst ds) -> Forall2 (fun ks kt => fst ks = fst kt /\ conforms conv (snd ks) (snd kt)) ds dt ->
    conforms conv (Dict ds) (Dict dt).

(** First one, then, if it raised no error, the other *)
Definition andthen {M} (x : M * res unit) (f : M -> M * res unit) : M * res unit :=
  match x with (m, Ok _) => f m | (m, Err e) => (m, Err e) end.
Fixpoint in_turn {M A} (f : A -> M -> M * res unit) (l : list A) (m : M) : M * res unit :=
  match l with
  | [] => (m, Ok tt)
  | a :: r => andthen (f a m) (in_turn f r)
  end.
Fixpoint times {M} (f : M -> M * res unit) (n : nat) (m : M) : M * res unit :=
  match n with O => (m, Ok tt) | S n => andthen (f m) (times f n) end.

End Spec.

Section Episodes.
Variable V : Type.
Variable is_zero : V -> bool.

(** Lengths of episodes: all timesteps but the last of each episode have terminal = 0 *)
Inductive whole : list nat -> list V -> Prop :=
| whole_nil : whole [] []
| whole_cons e t ks ts : (forall v, In v e -> is_zero v = true) -> is_zero t = false -> whole ks ts ->
    whole (S (length e) :: ks) (e ++ t :: ts).
(** Their first timesteps and lengths *)
Fixpoint intervals (o : nat) (ks : list nat) : list (nat * nat) :=
  match ks with [] => [] | k :: r => (o, k) :: intervals (o + k) r end.
(** The last timestep ends an episode *)
Definition finished (ts : list V) : Prop := exists ts' t, ts = ts' ++ [t] /\ is_zero t = false.

(** No state has the name of a mask *)
Definition no_masks (actions : tree leaf) (states : tree (list (arr V))) : Prop :=
  forall path l name d, In (path, l) (entries actions) -> mask_name path name -> states = Dict d -> ~ In name (map fst d).

(** Masks for some of the actions with a finite number of options: names and the values of all timesteps *)
Definition name_of (path : list string) : string := match path with [] => "action_mask" | k :: _ => (k ++ "_mask")%string end.
Definition masks_ok (conv : leaf -> V -> option V) (actions : tree leaf) (n : nat) (masks : list (string * list (arr V))) : Prop :=
  NoDup (map fst masks) /\
  forall name xs, In (name, xs) masks -> exists path l k, In (path, l) (entries actions) /\ l_num l = Some k /\ name = name_of path /\
    rows V n xs /\ forall x, In x xs -> shape x = l_shape l ++ [k] /\ forall v, In v (data x) -> conv (mkLeaf (l_shape l ++ [k]) None) v = Some v.
(** They are given as part of the states; a single state then is called 'state' *)
Definition as_states (masks : list (string * list (arr V))) : list (string * tree (list (arr V))) := map (fun nx => (fst nx, Leaf (snd nx))) masks.
Inductive masked : tree (list (arr V)) -> list (string * list (arr V)) -> tree (list (arr V)) -> Prop :=
| masked_none t : masked t [] t
| masked_dict d masks : masked (Dict d) masks (Dict (d ++ as_states masks))
| masked_single xs masks : masked (Leaf xs) masks (Dict (("state", Leaf xs) :: as_states masks)).

(** The mask of an action in all timesteps: that given, otherwise all options are allowed *)
Definition mask_in (one : V) (n : nat) (masks : list (string * list (arr V))) (path : list string) (l : leaf) (k : nat) : list (arr V) :=
  match dget (name_of path) masks with
  | Some xs => xs
  | None => repeat (all_allowed V one (l_shape l) k) n
  end.
Definition masks_in (one : V) (masking : bool) (n o k : nat) (masks : list (string * list (arr V))) (actions : tree leaf) : list (list string * arr V) :=
  flat_map (fun pl => match l_num (snd pl) with
                      | Some j => if masking then [(fst pl, pile V (part o k (mask_in one n masks (fst pl) (snd pl) j)))] else []
                      | None => []
                      end) (entries actions).

(** The timesteps with converted terminals and rewards *)
Definition converted (ct cr : V -> V) (x : trace V) : trace V :=
  mkTrace V (t_states V x) (t_actions V x) (t_internals V x) (map ct (t_terminal V x)) (map cr (t_reward V x)).

(** What the model is to be given for an episode of [k] timesteps after the first [o] *)
Definition fed (one : V) (masking : bool) (actions : tree leaf) (masks : list (string * list (arr V))) (n : nat) (x : trace V) (o k : nat) : batch V :=
  mkBatch V (piled V (timesteps V o k (t_states V x))) (piled V (timesteps V o k (t_internals V x))) (masks_in one masking n o k masks actions)
          (piled V (timesteps V o k (t_actions V x))) (vector V (part o k (t_terminal V x))) (vector V (part o k (t_reward V x))).
End Episodes.
