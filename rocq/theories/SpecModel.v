(** /repo/tensorforce/core/utils/tensor_spec.py: TensorSpec: construction and assignment
    of attributes, to_tensor, from_tensor, np_assert, unify.

    Simplifications: types are given normalised (_normalize_type 25-38), the dtype
    object kept in _tf_type (49-51) is not modelled, attributes which do not exist for a
    type (min_value for bool, num_values for bool and float) are [None] here -- the
    functions below never read them in that case; error messages are shortened.  Floats are
    exact, integers unbounded.  [junk] is what numpy makes of an infinite or
    undefined float converted to an integer: an error or some number. *)

From Coq Require Import String List ZArith QArith Bool.
From Verif Require Import Base SpecSpec.
Import ListNotations.
Open Scope string_scope.

(** util.py 26 *)
Definition epsilon : Q := 1 # 1000000.

(** numpy: all indices of an array of the given shape (used in tensor_spec.py 164-191, 240-283) *)
Fixpoint indices (sh : list nat) : list (list nat) :=
  match sh with
  | [] => [[]]
  | n :: r => flat_map (fun k => map (cons k) (indices r)) (seq 0 n)
  end.
(** x.any() (tensor_spec.py 165-191) *)
Definition nd_any (a : nd bool) : bool := existsb (nd_at a) (indices (nd_shape a)).
(** elementwise functions (tensor_spec.py 165-191) *)
Definition nd_map {A B} (f : A -> B) (a : nd A) : nd B := Nd (nd_shape a) (fun i => f (nd_at a i)).

(** numpy broadcasting of two shapes, reversed: axes are aligned at the end
    (comparisons of tensor_spec.py 168-191, minimum and maximum 418, 437) *)
Fixpoint bcast_rev (a b : list nat) : option (list nat) :=
  match a, b with
  | [], _ => Some b
  | _, [] => Some a
  | x :: a', y :: b' =>
      match bcast_rev a' b' with
      | None => None
      | Some r => if Nat.eqb x y || Nat.eqb y 1 then Some (x :: r)
                  else if Nat.eqb x 1 then Some (y :: r) else None
      end
  end.
(** The entry of an operand of shape [sh] used for the entry [i] of the result
    (tensor_spec.py 168-191, 418, 437) *)
Definition align (sh i : list nat) : list nat :=
  map (fun nk => if Nat.eqb (fst nk) 1 then 0%nat else snd nk)
      (combine sh (skipn (length i - length sh) i)).
(** tensor_spec.py 168-191, 418, 437 *)
Definition bcast {A B C} (f : A -> B -> C) (a : nd A) (b : nd B) : res (nd C) :=
  match bcast_rev (rev (nd_shape a)) (rev (nd_shape b)) with
  | None => Err "ValueError: operands could not be broadcast"
  | Some s => Ok (Nd (rev s) (fun i => f (nd_at a (align (nd_shape a) i)) (nd_at b (align (nd_shape b) i))))
  end.

(** numpy: < on floats, minimum, maximum, subtraction and addition of epsilon
    (tensor_spec.py 172-191, 691-722) *)
Definition num_ltb (x y : num) : bool :=
  match x, y with
  | Fin p, Fin q => negb (Qle_bool q p)
  | Fin _, PosInf => true
  | NegInf, Fin _ | NegInf, PosInf => true
  | _, _ => false
  end.
(** tensor_spec.py 414-418 *)
Definition num_min (x y : num) : num :=
  match x, y with NaN, _ | _, NaN => NaN | _, _ => if num_ltb y x then y else x end.
(** tensor_spec.py 433-437 *)
Definition num_max (x y : num) : num :=
  match x, y with NaN, _ | _, NaN => NaN | _, _ => if num_ltb x y then y else x end.
(** tensor_spec.py 691-722 *)
Definition num_add (x : num) (e : Q) : num := match x with Fin p => Fin (Qred (p + e)) | _ => x end.
(** tensor_spec.py 165 *)
Definition num_finite (x : num) : bool := match x with Fin _ => true | _ => false end.

(** Python's int(x) of a float: towards zero (tensor_spec.py 664-680) *)
Definition trunc (q : Q) : Z := Z.quot (Qnum q) (Zpos (Qden q)).

Section Spec.
Variable junk : num -> res Z.

(** numpy.asarray(a, dtype) of an array (tensor_spec.py 155) *)
Definition to_bool (x : num) : bool := match x with Fin q => negb (Qeq_bool q 0) | _ => true end.
(** tensor_spec.py 155 *)
Definition to_int (x : num) : res Z := match x with Fin q => Ok (trunc q) | _ => junk x end.
(** conversion of each entry, tensor_spec.py 155 *)
Definition get_ok {A} (d : A) (x : res A) : A := match x with Ok a => a | Err _ => d end.
(** conversion of each entry, tensor_spec.py 155 *)
Definition res_ok {A} (x : res A) : bool := match x with Ok _ => true | Err _ => false end.
(** bool to int, tensor_spec.py 155 *)
Definition b2z (b : bool) : Z := if b then 1 else 0.

(** tensor_spec.py 155 *)
Definition asarray (t : dtype) (a : arr) : res arr :=
  match t, a with
  | TBool, ABool b => Ok (ABool b)
  | TBool, AInt b => Ok (ABool (nd_map (fun z => negb (Z.eqb z 0)) b))
  | TBool, AFloat b => Ok (ABool (nd_map to_bool b))
  | TInt, ABool b => Ok (AInt (nd_map b2z b))
  | TInt, AInt b => Ok (AInt b)
  | TInt, AFloat b =>
      if forallb (fun i => res_ok (to_int (nd_at b i))) (indices (nd_shape b))
      then Ok (AInt (nd_map (fun x => get_ok 0%Z (to_int x)) b)) else Err "ValueError"
  | TFloat, ABool b => Ok (AFloat (nd_map (fun x => Fin (inject_Z (b2z x))) b))
  | TFloat, AInt b => Ok (AFloat (nd_map (fun z => Fin (inject_Z z)) b))
  | TFloat, AFloat b => Ok (AFloat b)
  end.

(** The entries of a numerical array (tensor_spec.py 164-191) *)
Definition nums (a : arr) : nd num :=
  match a with
  | ABool b => nd_map (fun x => Fin (inject_Z (b2z x))) b
  | AInt b => nd_map (fun z => Fin (inject_Z z)) b
  | AFloat b => b
  end.
(** a bound as array (tensor_spec.py 168-191) *)
Definition bound_nd (b : bound) : nd num := match b with Scalar x => Nd [] (fun _ => x) | Array a => a end.

(** value.shape != self.shape (tensor_spec.py 158, 208, 255) *)
Definition dims_eqb (sh : list nat) (s : list (option Z)) : bool :=
  Nat.eqb (length sh) (length s) &&
  forallb (fun nd => match snd nd with Some z => Z.eqb z (Z.of_nat (fst nd)) | None => false end) (combine sh s).

(** is_underspecified, 103-112 *)
Definition is_underspecified (s : spec) : bool :=
  match sp_type s with
  | TyNone | TyMany _ => true
  | TyOne t =>
      match sp_shape s with
      | None => true
      | Some l =>
          (match l with None :: _ => true | _ => false end) ||
          existsb (fun d => match d with Some z => Z.leb z 0 | None => false end) l ||
          (match t, sp_num s with TInt, Some n => Z.leb n 0 | _, _ => false end)
      end
  end.

(** 164-191 (and 214-232): the checks of the entries *)
Definition check_entries (s : spec) (t : dtype) (v : arr) : res unit :=
  let x := nums v in
  do _ <- assert_ (negb (nd_any (nd_map (fun e => negb (num_finite e)) x))) "contains nan/inf";
  match t, sp_num s with
  | TInt, Some n =>
      do _ <- assert_ (negb (nd_any (nd_map (fun e => num_ltb e (Fin 0)) x)) &&
                       negb (nd_any (nd_map (fun e => negb (num_ltb e (Fin (inject_Z n)))) x))) "num_values";
      Ok tt
  | TBool, _ => Ok tt
  | _, _ =>
      do _ <- match sp_min s with
              | None => Ok tt
              | Some b => do c <- bcast num_ltb x (bound_nd b); assert_ (negb (nd_any c)) "min_value"
              end;
      match sp_max s with
      | None => Ok tt
      | Some b => do c <- bcast (fun e m => num_ltb m e) x (bound_nd b); assert_ (negb (nd_any c)) "max_value"
      end
  end.

(** self.shape (tensor_spec.py 158) *)
Definition fixed_shape (s : spec) : list (option Z) := match sp_shape s with Some l => l | None => [] end.

(** to_tensor, 149-194; [value] as numpy.asarray reads it *)
Definition to_tensor (s : spec) (batched : bool) (value : arr) : res arr :=
  do _ <- assert_ (negb (is_underspecified s)) "unexpected";
  match sp_type s with
  | TyOne t =>
      do v <- asarray t value;
      do _ <- assert_ (dims_eqb (if batched then tl (arr_shape v) else arr_shape v) (fixed_shape s)) "value shape";
      do _ <- check_entries s t v;
      Ok v
  | _ => Err "unreachable"
  end.

(** from_tensor, 196-238; a singleton converted by item() (234-236) is the array of shape () here *)
Definition dtype_eqb (a b : dtype) : bool :=
  match a, b with TBool, TBool | TInt, TInt | TFloat, TFloat => true | _, _ => false end.
(** from_tensor, tensor_spec.py 196-238 *)
Definition from_tensor (s : spec) (batched : bool) (tensor : arr) : res arr :=
  do _ <- assert_ (negb (is_underspecified s)) "unexpected";
  match sp_type s with
  | TyOne t =>
      do _ <- assert_ (dtype_eqb (arr_type tensor) t) "tensor.dtype";
      do _ <- assert_ (dims_eqb (if batched then tl (arr_shape tensor) else arr_shape tensor) (fixed_shape s)) "tensor.shape";
      do _ <- check_entries s t tensor;
      Ok tensor
  | _ => Err "unreachable"
  end.

(** The kinds of values given to np_assert: Python numbers, numpy scalars, arrays, and
    other sequences (with the array numpy.asarray makes of them) (tensor_spec.py 240-283) *)
Inductive pyval := PyNum (a : arr) | NpScalar (a : arr) | NpArray (a : arr) | PyList (a : arr).
(** tensor_spec.py 245 *)
Definition as_array (x : pyval) : arr := match x with PyNum a | NpScalar a | NpArray a | PyList a => a end.

(** np_assert, 240-283.  Lines 259-267 cannot be reached. *)
Definition np_assert (s : spec) (batched : bool) (x : pyval) : res unit :=
  match sp_type s with
  | TyOne t =>
      let x := if batched || negb (match sp_shape s with Some [] => true | _ => false end)
               then NpArray (as_array x) else x in
      match x with
      | NpArray a =>
          let n := arr_type a in
          if negb (dtype_eqb n t) &&
             (negb (dtype_eqb t TFloat) || negb (dtype_eqb n TInt)) &&
             (negb (dtype_eqb t TInt) ||
              (dtype_eqb n TBool && negb (match sp_num s with Some k => Z.eqb k 2 | None => false end)))
          then Err "type"
          else if dims_eqb (if batched then tl (arr_shape a) else arr_shape a) (fixed_shape s)
          then Ok tt else Err "shape"
      | NpScalar a =>
          let n := arr_type a in
          if negb (dtype_eqb n t) && (negb (dtype_eqb t TFloat) || negb (dtype_eqb n TInt))
          then Err "type" else Ok tt
      | PyNum a =>
          match t, arr_type a with
          | TBool, TBool => Ok tt
          | TInt, TInt | TInt, TBool => Ok tt
          | TFloat, _ => Ok tt
          | _, _ => Err "type"
          end
      | PyList _ => Err "type"
      end
  | _ => Err "not modelled: open type"
  end.

(** __setattr__ 572-760, attribute by attribute *)

(** type, 576-610: all other attributes but the shape are reset *)
Definition set_type (v : ty) (s : spec) : spec := Spec v (sp_shape s) None None None.

(** shape, 612-651 *)
Definition set_shape (v : option (list (option Z))) (s : spec) : res spec :=
  let rest := match v with Some (None :: r) => r | Some l => l | None => [] end in
  do _ <- assert_ (forallb (fun d => match d with Some z => Z.leb (-1) z | None => false end) rest) "shape";
  Ok (Spec (sp_type s) v (sp_min s) (sp_max s) (sp_num s)).

(** 664-680: the bound as it is stored.  int(value) and float(value) accept numbers and
    arrays of one entry. *)
Definition nd_size (sh : list nat) : nat := fold_right Nat.mul 1%nat sh.
(** tensor_spec.py 664-680 *)
Definition one_entry (sh : list nat) : list nat := map (fun _ => 0%nat) sh.
(** tensor_spec.py 664-680: int(value), float(value) *)
Definition py_number (t : dtype) (b : bound) : option num :=
  let conv x := match t with
                | TInt => match x with Fin q => Some (Fin (inject_Z (trunc q))) | _ => None end
                | TFloat => Some x
                | TBool => None
                end in
  match b with
  | Scalar x => conv x
  | Array a => if Nat.eqb (nd_size (nd_shape a)) 1 then conv (nd_at a (one_entry (nd_shape a))) else None
  end.
(** tensor_spec.py 664-680 *)
Definition convert_bound (is_min : bool) (s : spec) (b : bound) : res bound :=
  match sp_type s with
  | TyOne t =>
      let array :=
        match b with
        | Scalar x => Err "TensorforceError: type"
        | Array a =>
            do v <- asarray t (AFloat a);
            do _ <- assert_ (match t, sp_num s with TInt, Some _ => false | _, _ => true end) "TensorforceError: type";
            Ok (Array (nums v))
        end in
      match py_number t b with
      | Some x =>
          match t, sp_num s with
          | TInt, Some n =>
              match x with
              | Fin q => if Qeq_bool q (if is_min then 0 else inject_Z (n - 1)) then Ok (Scalar x) else Err "TensorforceError: type"
              | _ => Err "TensorforceError: type"
              end
          | _, _ => Ok (Scalar x)
          end
      | None => array
      end
  | _ => Err "TensorforceError: type"
  end.

(** 683-684: the bound's shape is a prefix of the shape *)
Definition prefix_shape (sh : list nat) (s : spec) : bool :=
  match sp_shape s with
  | None => true
  | Some l => Nat.leb (length sh) (length l) && dims_eqb sh (firstn (length sh) l)
  end.

(** min_value, 653-729 *)
Definition set_min (v : option bound) (s : spec) : res spec :=
  do _ <- assert_ (match sp_type s with TyOne TBool => false | _ => true end) "type is bool";
  match v with
  | None => Ok (Spec (sp_type s) (sp_shape s) None (sp_max s) (sp_num s))
  | Some b =>
      do b' <- convert_bound true s b;
      do _ <- match b' with Array a => assert_ (prefix_shape (nd_shape a) s) "min_value shape" | Scalar _ => Ok tt end;
      do _ <- match sp_max s with
              | None => Ok tt
              | Some m => do c <- bcast (fun x y => num_ltb (num_add y (- epsilon)) x) (bound_nd b') (bound_nd m);
                          assert_ (negb (nd_any c)) "min_value > max_value"
              end;
      Ok (Spec (sp_type s) (sp_shape s) (Some b') (sp_max s) (sp_num s))
  end.

(** max_value, 653-729 *)
Definition set_max (v : option bound) (s : spec) : res spec :=
  do _ <- assert_ (match sp_type s with TyOne TBool => false | _ => true end) "type is bool";
  match v with
  | None => Ok (Spec (sp_type s) (sp_shape s) (sp_min s) None (sp_num s))
  | Some b =>
      do b' <- convert_bound false s b;
      do _ <- match b' with Array a => assert_ (prefix_shape (nd_shape a) s) "max_value shape" | Scalar _ => Ok tt end;
      do _ <- match sp_min s with
              | None => Ok tt
              | Some m => do c <- bcast (fun x y => num_ltb x (num_add y epsilon)) (bound_nd b') (bound_nd m);
                          assert_ (negb (nd_any c)) "max_value < min_value"
              end;
      Ok (Spec (sp_type s) (sp_shape s) (sp_min s) (Some b') (sp_num s))
  end.

(** tensor_spec.py 731-757 *)
Definition has_int (t : ty) : bool :=
  match t with TyOne TInt => true | TyMany l => existsb (dtype_eqb TInt) l | _ => false end.

(** num_values, 731-757 *)
Definition set_num (v : option Z) (s : spec) : res spec :=
  do _ <- assert_ (has_int (sp_type s)) "num_values";
  match v with
  | None => Ok (Spec (sp_type s) (sp_shape s) None None None)
  | Some n =>
      do _ <- assert_ (Z.leb 0 n) "num_values";
      if Z.ltb 0 n
      then Ok (Spec (sp_type s) (sp_shape s) (Some (Scalar (Fin 0))) (Some (Scalar (Fin (inject_Z (n - 1))))) (Some n))
      else Ok (Spec (sp_type s) (sp_shape s) None None (Some n))
  end.

(** __init__, 44-71 *)
Definition is_some {A} (o : option A) : bool := match o with Some _ => true | None => false end.
(** __init__, tensor_spec.py 44-71 *)
Definition make (t : ty) (shape : option (list (option Z))) (mn mx : option bound) (n : option Z) : res spec :=
  let s := Spec t None None None None in
  do s <- set_shape shape s;
  do _ <- (if is_some n && (is_some mn || is_some mx) then
             match t with TyOne TInt | TyOne TFloat => Err "min/max_value and num_values" | _ => Ok tt end
           else Ok tt);
  do s <- (if is_some mn then set_min mn s else Ok s);
  do s <- (if is_some mx then set_max mx s else Ok s);
  if is_some n then set_num n s else Ok s.

(** unify, 340-489 *)

(** 341-374 *)
Definition subset (l l' : list dtype) : bool := forallb (fun x => existsb (dtype_eqb x) l') l.
(** tensor_spec.py 341-374 *)
Definition unify_type (a b : ty) : res ty :=
  match a, b with
  | TyNone, _ => Ok b
  | _, TyNone => Ok a
  | TyMany l, TyMany l' => if subset l l' then Ok a else if subset l' l then Ok b else Err "type"
  | TyMany l, TyOne t => if existsb (dtype_eqb t) l then Ok b else Err "type"
  | TyOne t, TyMany l => if existsb (dtype_eqb t) l then Ok a else Err "type"
  | TyOne t, TyOne t' => if dtype_eqb t t' then Ok a else Err "type"
  end.

(** 395-408: one dimension; comparing None with a number raises TypeError *)
Definition unify_dim (x y : option Z) : res (option Z) :=
  let is z o := match o with Some v => Z.eqb v z | None => false end in
  let pos o := match o with Some v => Ok (Z.ltb 0 v) | None => Err "TypeError" end in
  if is 0%Z x then Ok y
  else if is 0%Z y then Ok x
  else do c1 <- (if is (-1)%Z x then pos y else Ok false);
       if c1 then Ok y
       else do c2 <- (if is (-1)%Z y then pos x else Ok false);
            if c2 then Ok x
            else match x, y with
                 | Some p, Some q => if Z.eqb p q then Ok x else Err "shape"
                 | None, None => Ok x
                 | _, _ => Err "shape"
                 end.

(** 394: for n in range(start, -1, -1), [n] = start + 1 rounds *)
Fixpoint unify_dims (n : nat) (a b : list (option Z)) (reverse_shape : list (option Z)) : res (list (option Z)) :=
  match n with
  | O => Ok reverse_shape
  | S n' =>
      match nth_error a n', nth_error b n' with
      | Some x, Some y => do z <- unify_dim x y; unify_dims n' a b (reverse_shape ++ [z])%list
      | _, _ => Err "IndexError"
      end
  end.

(** shape[-1] *)
Definition last_dim (l : list (option Z)) : res (option Z) :=
  match rev l with x :: _ => Ok x | [] => Err "IndexError" end.

(** 376-409 *)
Definition unify_shape (a b : option (list (option Z))) : res (option (list (option Z))) :=
  match a, b with
  | None, _ => Ok b
  | _, None => Ok a
  | Some a, Some b =>
      do la <- last_dim a;
      do r <- (match la with
               | None => unify_dims (length a - 1) a b (skipn (length a - 1) b)
               | Some _ =>
                   do lb <- last_dim b;
                   match lb with
                   | None => unify_dims (length b - 1) a b (skipn (length b - 1) a)
                   | Some _ =>
                       if Nat.eqb (length a) (length b) then unify_dims (length a) a b [] else Err "rank"
                   end
               end);
      Ok (Some (rev r))
  end.

(** 411-428 and 430-447 *)
Definition is_bool (t : ty) : bool := match t with TyOne TBool => true | _ => false end.
(** tensor_spec.py 411-447 *)
Definition unify_bound (scalar : num -> num -> num) (array : num -> num -> num)
    (ta tb : ty) (a b : option bound) : res (option bound) :=
  match (if is_bool ta then None else a), (if is_bool tb then None else b) with
  | Some (Scalar x), Some (Scalar y) => Ok (Some (Scalar (scalar x y)))
  | Some x, Some y => do r <- bcast array (bound_nd x) (bound_nd y); Ok (Some (Array r))
  | Some x, None => Ok (Some x)
  | None, o => Ok o
  end.

(** 419-422, 438-441: if x < y then y else x *)
Definition larger (x y : num) : num := if num_ltb x y then y else x.

(** 460-481 *)
Definition unify_num (dt ta tb : ty) (a b : option Z) : res (option Z) :=
  if negb (has_int dt) then Ok None
  else
    match (match ta with TyOne TInt => a | _ => None end), (match tb with TyOne TInt => b | _ => None end) with
    | Some x, Some y =>
        if Z.eqb x 0 then Ok (Some y) else if Z.eqb y 0 then Ok (Some x)
        else if Z.eqb x y then Ok (Some x) else Err "num_values"
    | Some x, None => Ok (Some x)
    | None, o => Ok o
    end.

(** unify, tensor_spec.py 340-489 *)
Definition unify (a b : spec) : res spec :=
  do dt <- unify_type (sp_type a) (sp_type b);
  do shape <- unify_shape (sp_shape a) (sp_shape b);
  do mn <- (if is_bool dt then Ok None else unify_bound larger num_min (sp_type a) (sp_type b) (sp_min a) (sp_min b));
  do mx <- (if is_bool dt then Ok None else unify_bound larger num_max (sp_type a) (sp_type b) (sp_max a) (sp_max b));
  do _ <- match mn, mx with
          | Some x, Some y => do c <- bcast (fun p q => num_ltb q p) (bound_nd x) (bound_nd y);
                              assert_ (negb (nd_any c)) "min/max_value"
          | _, _ => Ok tt
          end;
  do n <- unify_num dt (sp_type a) (sp_type b) (sp_num a) (sp_num b);
  if is_some n then make dt shape None None n else make dt shape mn mx None.

End Spec.
