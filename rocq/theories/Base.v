(** Common vocabulary: results, and the handful of TensorFlow / numpy list
    primitives the modelled code is written with.  Tensors of rank one are lists. *)

From Coq Require Import String List ZArith Lia Bool.
Import ListNotations.
Open Scope Z_scope.

(** A Python call either returns a value or raises.  The error message is the
    message of the exception / assertion (or a short description where the
    library raises its own). *)
Inductive res (A : Type) : Type :=
| Ok (a : A)
| Err (msg : string).
Arguments Ok {A} a.
Arguments Err {A} msg.

Definition bind {A B} (x : res A) (f : A -> res B) : res B :=
  match x with Ok a => f a | Err e => Err e end.
Notation "'do' x <- e ; f" := (bind e (fun x => f))
  (at level 200, x pattern, e at level 100, f at level 200).

(** [assert_ b msg]: tf.debugging.assert_* with the given message. *)
Definition assert_ (b : bool) (msg : string) : res unit :=
  if b then Ok tt else Err msg.

Definition is_ok {A} (x : res A) : Prop := exists a, x = Ok a.

(** tf.range(start, limit): start, start+1, ..., limit-1 (empty if limit <= start). *)
Definition zrange (start limit : Z) : list Z :=
  map (fun k => start + Z.of_nat k) (seq 0 (Z.to_nat (limit - start))).

(** Element access as in tf.gather on CPU: an index outside [0, length) is an error. *)
Definition gather {A} (l : list A) (i : Z) : res A :=
  if i <? 0 then Err "gather: index out of range"
  else match nth_error l (Z.to_nat i) with
       | Some a => Ok a
       | None => Err "gather: index out of range"
       end.

Fixpoint map_res {A B} (f : A -> res B) (l : list A) : res (list B) :=
  match l with
  | [] => Ok []
  | x :: r => do y <- f x; do ys <- map_res f r; Ok (y :: ys)
  end.

(** tf.gather(params, indices) for a rank-one index tensor. *)
Definition gathers {A} (l : list A) (is : list Z) : res (list A) :=
  map_res (gather l) is.

Fixpoint update_nth {A} (l : list A) (n : nat) (v : A) : list A :=
  match l, n with
  | [], _ => []
  | _ :: r, O => v :: r
  | x :: r, S m => x :: update_nth r m v
  end.

(** tf.tensor_scatter_nd_update(tensor, indices, updates) for rank-one tensors:
    positions outside the tensor are an error, so is a different number of
    indices and updates.  (Updates are applied in order; the library leaves the
    order open for duplicate indices.) *)
Fixpoint scatter {A} (l : list A) (is : list Z) (us : list A) : res (list A) :=
  match is, us with
  | [], [] => Ok l
  | i :: is', u :: us' =>
      if (i <? 0) || (Z.of_nat (length l) <=? i)
      then Err "scatter: index out of range"
      else scatter (update_nth l (Z.to_nat i) u) is' us'
  | _, _ => Err "scatter: shape mismatch"
  end.

(** Python/TensorFlow slice l[a:b], including negative bounds counted from the end. *)
Definition slice_bound (n i : Z) : Z :=
  if i <? 0 then Z.max 0 (n + i) else Z.min i n.
Definition slice {A} (l : list A) (a b : Z) : list A :=
  let n := Z.of_nat (length l) in
  let a' := slice_bound n a in
  let b' := slice_bound n b in
  firstn (Z.to_nat (b' - a')) (skipn (Z.to_nat a') l).

(** tf.math.count_nonzero on an integer tensor. *)
Definition count_nonzero (l : list Z) : Z :=
  Z.of_nat (length (filter (fun t => negb (t =? 0)) l)).

(** tf.boolean_mask *)
Fixpoint boolean_mask {A} (l : list A) (mask : list bool) : list A :=
  match l, mask with
  | x :: l', true :: m' => x :: boolean_mask l' m'
  | _ :: l', false :: m' => boolean_mask l' m'
  | _, _ => []
  end.

(** tf.math.cumsum with and without exclusive=True. *)
Fixpoint cumsum_from (acc : Z) (l : list Z) : list Z :=
  match l with
  | [] => []
  | x :: r => (acc + x) :: cumsum_from (acc + x) r
  end.
Definition cumsum (l : list Z) : list Z := cumsum_from 0 l.
Fixpoint cumsum_excl_from (acc : Z) (l : list Z) : list Z :=
  match l with
  | [] => []
  | x :: r => acc :: cumsum_excl_from (acc + x) r
  end.
Definition cumsum_excl (l : list Z) : list Z := cumsum_excl_from 0 l.

(** tf.while_loop(cond=always_true, body, maximum_iterations=n). *)
Fixpoint iterate {A} (n : nat) (f : A -> A) (x : A) : A :=
  match n with O => x | S m => iterate m f (f x) end.

(** Like [iterate], for a loop body that may raise. *)
Fixpoint iterate_res {A} (n : nat) (f : A -> res A) (x : A) : res A :=
  match n with O => Ok x | S m => do y <- f x; iterate_res m f y end.

(** Run a list of operations, stopping at the first error. *)
Fixpoint run_ops {S O} (step : S -> O -> res S) (s : S) (ops : list O) : res S :=
  match ops with
  | [] => Ok s
  | o :: r => do s' <- step s o; run_ops step s' r
  end.
