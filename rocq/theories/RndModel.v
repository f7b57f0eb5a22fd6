(** /repo/tensorforce/core/models/random.py and constant.py: the models of the random and the
    constant agent, and the checks of actions by model.py (independent_act 515-568, act
    570-646) and agent.py (489-491).

    Simplifications: floats are exact (uniform draws are rationals in [0, 1)), integers
    unbounded; counters, internals (none, random.py 36, constant.py 57) and the checks of states,
    auxiliaries and of the parallel and deterministic inputs (model.py 529-544, 577-588) are not
    modelled, masks are given with their shape; errors while the functions are traced, so on the
    construction of the agent, are errors of the call.  TensorFlow draws are arbitrary
    functions of the index. *)

From Coq Require Import String List ZArith QArith Qround Bool.
From Verif Require Import Base SpecSpec SpecModel.
Import ListNotations.
Open Scope string_scope.
Open Scope nat_scope.

(** config.enable_int_action_masking, config.create_tf_assertions (random.py 52, model.py 527, 546) *)
Record config := Config { cf_masking : bool; cf_assertions : bool }.

(** self.actions_spec.items() (random.py 40, constant.py 61): a single unnamed action has the name None *)
Definition aname := option string.
(** compare names (constant.py 40, 67) *)
Definition aname_eqb (a b : aname) : bool :=
  match a, b with Some x, Some y => String.eqb x y | None, None => true | _, _ => false end.
(** dict lookup (constant.py 40-42, 67-69) *)
Fixpoint lookup {V} (n : aname) (l : list (aname * V)) : option V :=
  match l with [] => None | (m, v) :: r => if aname_eqb n m then Some v else lookup n r end.

(** spec.shape as numbers (random.py 43) *)
Definition dims_of (s : spec) : list nat :=
  map (fun d => match d with Some z => Z.to_nat z | None => 0 end) (fixed_shape s).
(** shape: batch size and spec.shape (random.py 41-44, constant.py 62-65) *)
Definition batch_dims (b : nat) (s : spec) : list nat := b :: dims_of s.

(** ** Masked choices, random.py 56-74, constant.py 75-89 *)
(** the choices tiled: the entry is the last index (random.py 57-63, constant.py 76-82) *)
Definition choice_at (i : list nat) : nat := last i 0.
(** tf.boolean_mask (random.py 64, constant.py 83): entries in row-major order *)
Definition mask_choices (dims : list nat) (n : nat) (mask : nd bool) : list nat :=
  map choice_at (filter (nd_at mask) (indices (dims ++ [n]))).
(** num_valid (random.py 65-67, constant.py 84-86) *)
Definition num_valid (dims : list nat) (n : nat) (mask : nd bool) : list nat :=
  map (fun i => length (filter (fun a => nd_at mask (i ++ [a])) (seq 0 n))) (indices dims).
(** tf.math.cumsum(exclusive=True) (random.py 68, constant.py 87) *)
Fixpoint cumsum_from (k : nat) (l : list nat) : list nat :=
  match l with [] => [] | x :: r => k :: cumsum_from (k + x) r end.
(** tf.dtypes.cast(x=(uniform * num_valid), dtype=tf.dtypes.int64) (random.py 71-72) *)
Definition random_offset (u : Q) (n : nat) : nat := Z.to_nat (Qfloor (u * inject_Z (Z.of_nat n))).
(** tf.gather (random.py 73, constant.py 88); an index out of range is an error *)
Definition gather (params : list nat) (idx : list nat) : res (list nat) :=
  map_res (fun k => match nth_error params k with Some x => Ok x | None => Err "InvalidArgumentError: indices" end) idx.
(** position of an index in row-major order (tf.reshape, random.py 67, 70, 74) *)
Fixpoint ravel (dims i : list nat) : nat :=
  match dims, i with
  | _ :: d, k :: r => k * nd_size d + ravel d r
  | _, _ => 0
  end.
(** tf.reshape(tensor=action, shape=shape) (random.py 74, constant.py 89) *)
Definition reshape (dims : list nat) (l : list nat) : arr :=
  AInt (Nd dims (fun i => Z.of_nat (nth (ravel dims i) l 0))).
(** tf.boolean_mask needs the mask to have the shape of the choices (random.py 64, constant.py 83) *)
Definition mask_shape_ok (dims : list nat) (n : nat) (mask : nd bool) : bool :=
  Nat.eqb (length (nd_shape mask)) (length (dims ++ [n])) &&
  forallb (fun p => Nat.eqb (fst p) (snd p)) (combine (nd_shape mask) (dims ++ [n])).
(** random.py 56-74, constant.py 75-89, with the offsets within the allowed choices *)
Definition masked_actions (dims : list nat) (n : nat) (mask : nd bool) (offset : list nat -> nat -> nat) : res arr :=
  do _ <- assert_ (mask_shape_ok dims n mask) "ValueError: shapes incompatible";
  let choices := mask_choices dims n mask in
  let valid := num_valid dims n mask in
  let masked_offset := cumsum_from 0 valid in
  let within := map (fun p => offset (fst p) (snd p)) (combine (indices dims) valid) in
  do l <- gather choices (map (fun p => fst p + snd p) (combine masked_offset within));
  Ok (reshape dims l).

(** auxiliaries[name]['mask'] (random.py 56, constant.py 75, model.py 551, 596, 622) *)
Definition masks := list (aname * nd bool).
(** auxiliaries[name]['mask'] (random.py 56, constant.py 75, model.py 551, 596, 622) *)
Definition mask_of (m : masks) (n : aname) : res (nd bool) :=
  match lookup n m with Some x => Ok x | None => Err "KeyError: mask" end.

(** ** RandomModel *)
(** TensorFlow random numbers for one action: tf.random.uniform in [0, 1) (random.py 49, 69, 79),
    tf.random.uniform of integers (79), tf.random.normal (94) *)
Record draws := Draws {
  d_uniform : list nat -> Q;
  d_int : Z -> Z -> list nat -> Z;
  d_normal : list nat -> Q
}.

(** float arithmetic in tf.random.uniform (random.py 79-82) and of the mean (constant.py 94); what is
    not finite is of no interest here: infinite bounds are rejected (model.py 106-113) *)
Definition num2 (f : Q -> Q -> Q) (x y : num) : num := match x, y with Fin p, Fin q => Fin (f p q) | _, _ => NaN end.

(** tf.random.uniform(shape, minval, maxval, dtype) for floats (random.py 79-82):
    rnd * (maxval - minval) + minval, broadcast *)
Definition uniform_float (dims : list nat) (u : list nat -> Q) (lo hi : bound) : res arr :=
  do width <- bcast (num2 Qminus) (bound_nd hi) (bound_nd lo);
  do scaled <- bcast (fun (r : Q) w => num2 Qmult (Fin r) w) (Nd dims u) width;
  do r <- bcast (num2 Qplus) scaled (bound_nd lo);
  Ok (AFloat r).
(** tf.random.uniform for integers (random.py 79-82): scalar bounds, minval <= x < maxval *)
Definition uniform_int (dims : list nat) (k : Z -> Z -> list nat -> Z) (lo hi : bound) : res arr :=
  match lo, hi with
  | Scalar (Fin p), Scalar (Fin q) =>
      do _ <- assert_ (Z.ltb (trunc p) (trunc q)) "InvalidArgumentError: Need minval < maxval";
      Ok (AInt (Nd dims (k (trunc p) (trunc q))))
  | _, _ => Err "InvalidArgumentError: minval must be 0-D"
  end.

(** RandomModel.core_act for one action, random.py 40-94 *)
Definition random_action (c : config) (b : nat) (m : masks) (name : aname) (s : spec) (d : draws) : res arr :=
  let dims := batch_dims b s in
  match sp_type s with
  | TyOne TBool => Ok (ABool (Nd dims (fun i => negb (Qle_bool (1 # 2) (d_uniform d i)))))
  | TyOne t =>
      match cf_masking c, t, sp_num s with
      | true, TInt, Some n =>
          do mask <- mask_of m name;
          masked_actions dims (Z.to_nat n) mask (fun i v => random_offset (d_uniform d i) v)
      | _, _, _ =>
          match sp_min s, sp_max s with
          | Some lo, Some hi =>
              match t with
              | TInt => uniform_int dims (d_int d) lo hi
              | _ => uniform_float dims (d_uniform d) lo hi
              end
          | Some _, None => Err "NotImplementedError"
          | None, Some _ => Err "NotImplementedError"
          | None, None =>
              match t with
              | TInt => Err "TypeError: random normal of integers"
              | _ => Ok (AFloat (Nd dims (fun i => Fin (d_normal d i))))
              end
          end
      end
  | _ => Err "unreachable"
  end.

(** ** ConstantModel *)
(** the values which can be given for an action (constant.py 42): a number or boolean, or something
    which int() and float() reject, with its truth value *)
Inductive pyarg := PyBool (b : bool) | PyNumber (x : num) | PyOther (truth : bool).
(** a constant action value (constant.py 42) *)
Inductive cval := CBool (b : bool) | CInt (z : Z) | CFloat (x : num).

(** spec.py_type()(action_values[name]) (constant.py 42, tensor_spec.py 86-92) *)
Definition py_convert (t : dtype) (v : pyarg) : res cval :=
  match t, v with
  | TBool, PyBool b => Ok (CBool b)
  | TBool, PyNumber x => Ok (CBool (to_bool x))
  | TBool, PyOther b => Ok (CBool b)
  | TInt, PyBool b => Ok (CInt (b2z b))
  | TInt, PyNumber (Fin q) => Ok (CInt (trunc q))
  | TInt, PyNumber _ => Err "OverflowError or ValueError"
  | TFloat, PyBool b => Ok (CFloat (Fin (inject_Z (b2z b))))
  | TFloat, PyNumber x => Ok (CFloat x)
  | _, PyOther _ => Err "TypeError or ValueError"
  end.
(** the value as a number (constant.py 43, 48) *)
Definition cval_num (v : cval) : num :=
  match v with CBool b => Fin (inject_Z (b2z b)) | CInt z => Fin (inject_Z z) | CFloat x => x end.
(** truth value of a comparison with a bound (constant.py 43, 48): of an array with more or less than
    one entry it is an error *)
Definition compare_bound (f : num -> bool) (b : bound) : res bool :=
  match b with
  | Scalar x => Ok (f x)
  | Array a => if Nat.eqb (nd_size (nd_shape a)) 1 then Ok (f (nd_at a (one_entry (nd_shape a))))
               else Err "ValueError: truth value of an array"
  end.
(** constant.py 42-53 *)
Definition check_value (s : spec) (v : pyarg) : res cval :=
  match sp_type s with
  | TyOne t =>
      do value <- py_convert t v;
      match t with
      | TBool => Ok value
      | _ =>
          do _ <- match sp_min s with
                  | None => Ok tt
                  | Some b => do l <- compare_bound (fun x => num_ltb (cval_num value) x) b; assert_ (negb l) "action_values"
                  end;
          do _ <- match sp_max s with
                  | None => Ok tt
                  | Some b => do l <- compare_bound (fun x => num_ltb x (cval_num value)) b; assert_ (negb l) "action_values"
                  end;
          Ok value
      end
  | _ => Err "unreachable"
  end.

(** ConstantModel.__init__, constant.py 37-53: the constants of the actions *)
Fixpoint constants (actions : list (aname * spec)) (action_values : list (aname * pyarg)) : res (list (aname * cval)) :=
  match actions with
  | [] => Ok []
  | (n, s) :: r =>
      match lookup n action_values with
      | None => constants r action_values
      | Some v =>
          do x <- check_value s v;
          do l <- constants r action_values;
          Ok ((n, x) :: l)
      end
  end.

(** tf.fill(dims=shape, value=action) of a constant of the type (constant.py 69-70) *)
Definition fill (dims : list nat) (v : cval) : arr :=
  match v with
  | CBool b => ABool (Nd dims (fun _ => b))
  | CInt z => AInt (Nd dims (fun _ => z))
  | CFloat x => AFloat (Nd dims (fun _ => x))
  end.
(** tf.fill of a bound (constant.py 100-101, 105-106): the value must be a scalar *)
Definition fill_bound (dims : list nat) (t : dtype) (b : bound) : res arr :=
  match b, t with
  | Scalar (Fin q), TInt => Ok (fill dims (CInt (trunc q)))
  | Scalar x, TFloat => Ok (fill dims (CFloat x))
  | _, _ => Err "InvalidArgumentError: value must be a scalar"
  end.
(** the mean of the bounds (constant.py 93-96): a float, of which tf.constant makes no integer;
    tf.fill needs a scalar *)
Definition fill_mean (dims : list nat) (t : dtype) (lo hi : bound) : res arr :=
  match t, lo, hi with
  | TFloat, Scalar p, Scalar q =>
      Ok (fill dims (CFloat (num2 Qplus p (num2 Qmult (Fin (1 # 2)) (num2 Qminus q p)))))
  | TFloat, _, _ => Err "InvalidArgumentError: value must be a scalar"
  | _, _, _ => Err "TypeError: Expected int64, got float"
  end.

(** ConstantModel.core_act for one action, constant.py 61-110 *)
Definition constant_action (c : config) (values : list (aname * cval)) (b : nat) (m : masks) (name : aname) (s : spec) : res arr :=
  let dims := batch_dims b s in
  match lookup name values, sp_type s with
  | Some v, _ => Ok (fill dims v)
  | None, TyOne t =>
      match cf_masking c, t, sp_num s with
      | true, TInt, Some n =>
          do mask <- mask_of m name;
          masked_actions dims (Z.to_nat n) mask (fun _ _ => 0)
      | _, _, _ =>
          match t, sp_min s, sp_max s with
          | TBool, _, _ => Ok (fill dims (CBool false))
          | _, Some lo, Some hi => fill_mean dims t lo hi
          | _, Some lo, None => fill_bound dims t lo
          | _, None, Some hi => fill_bound dims t hi
          | TInt, None, None => Ok (fill dims (CInt 0%Z))
          | TFloat, None, None => Ok (fill dims (CFloat (Fin 0)))
          end
      end
  | None, _ => Err "unreachable"
  end.

(** ** Checks around core_act *)
(** every entry has an allowed option (model.py 549-554, 594-599) *)
Definition any_valid (s : spec) (b : nat) (mask : nd bool) : bool :=
  match rev (nd_shape mask) with
  | n :: _ => forallb (fun i => existsb (fun a => nd_at mask (i ++ [a])) (seq 0 n)) (indices (batch_dims b s))
  | [] => false
  end.
(** mask assertions for all int actions (model.py 545-554, 589-599) *)
Fixpoint mask_assertions (actions : list (aname * spec)) (b : nat) (m : masks) : res unit :=
  match actions with
  | [] => Ok tt
  | (n, s) :: r =>
      do _ <- match sp_type s with
              | TyOne TInt => do mask <- mask_of m n; assert_ (any_valid s b mask) "at least one action has to be valid."
              | _ => Ok tt
              end;
      mask_assertions r b m
  end.
(** actions_spec.tf_assert (model.py 617, tensor_spec.py 304-338) for one action *)
Definition tf_assert (s : spec) (b : nat) (a : arr) : res unit :=
  match sp_type s with
  | TyOne t =>
      do _ <- assert_ (dtype_eqb (arr_type a) t) "type";
      do _ <- assert_ (Nat.eqb (length (arr_shape a)) (length (batch_dims b s)) &&
                       forallb (fun p => Nat.eqb (fst p) (snd p)) (combine (arr_shape a) (batch_dims b s))) "shape";
      let x := nums a in
      do _ <- match t with TFloat => assert_ (negb (nd_any (nd_map (fun e => negb (num_finite e)) x))) "inf/nan value" | _ => Ok tt end;
      match t with
      | TBool => Ok tt
      | _ =>
          do _ <- match sp_min s with
                  | None => Ok tt
                  | Some lo => do r <- bcast num_ltb x (bound_nd lo); assert_ (negb (nd_any r)) "min value"
                  end;
          match sp_max s with
          | None => Ok tt
          | Some hi => do r <- bcast (fun e u => num_ltb u e) x (bound_nd hi); assert_ (negb (nd_any r)) "max value"
          end
      end
  | _ => Err "unreachable"
  end.
(** the chosen options are allowed (model.py 618-628) for one action *)
Definition mask_check (c : config) (m : masks) (n : aname) (s : spec) (a : arr) : res unit :=
  match cf_masking c, sp_type s, a with
  | true, TyOne TInt, AInt x =>
      do mask <- mask_of m n;
      assert_ (forallb (fun i => Z.leb 0 (nd_at x i) && nd_at mask (i ++ [Z.to_nat (nd_at x i)])) (indices (nd_shape x))) "Action mask check."
  | _, _, _ => Ok tt
  end.

(** core_act for all actions (random.py 38-96, constant.py 59-112) *)
Fixpoint core_act (f : aname -> spec -> res arr) (actions : list (aname * spec)) : res (list (aname * arr)) :=
  match actions with
  | [] => Ok []
  | (n, s) :: r => do a <- f n s; do l <- core_act f r; Ok ((n, a) :: l)
  end.
(** for all actions, zip_items (model.py 617, 619, agent.py 489) *)
Fixpoint for_actions {A} (f : aname -> spec -> arr -> res A) (actions : list (aname * spec)) (l : list (aname * arr)) : res (list A) :=
  match actions, l with
  | (n, s) :: r, (_, a) :: l => do x <- f n s a; do y <- for_actions f r l; Ok (x :: y)
  | _, _ => Ok []
  end.

(** Agent.act: Model.act (570-646) or, if independent, Model.independent_act (515-568), then
    actions_spec.from_tensor (agent.py 489-491) *)
Definition agent_act (c : config) (independent : bool) (f : aname -> spec -> res arr)
    (actions : list (aname * spec)) (b : nat) (m : masks) : res (list arr) :=
  do _ <- (if cf_assertions c && cf_masking c then mask_assertions actions b m else Ok tt);
  do l <- core_act f actions;
  do _ <- (if negb independent && cf_assertions c
           then do _ <- for_actions (fun _ s a => tf_assert s b a) actions l;
                do _ <- for_actions (mask_check c m) actions l; Ok tt
           else Ok tt);
  for_actions (fun _ s a => from_tensor s true a) actions l.

(** RandomAgent.act (random.py, agent.py 489), for the draws of every action *)
Definition random_act (c : config) (independent : bool) (actions : list (aname * spec)) (b : nat) (m : masks) (d : aname -> draws) : res (list arr) :=
  agent_act c independent (fun n s => random_action c b m n s (d n)) actions b m.
(** ConstantAgent(action_values=...) (agents/constant.py 108-134, constant.py 28-53) and its act *)
Definition constant_act (c : config) (independent : bool) (actions : list (aname * spec)) (action_values : list (aname * pyarg)) (b : nat) (m : masks) : res (list arr) :=
  do values <- constants actions action_values;
  agent_act c independent (fun n s => constant_action c values b m n s) actions b m.
