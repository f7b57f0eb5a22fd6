(** Layers that act on every timestep separately, their specifications, and the
    networks built of them.

    Code modelled: tensorforce/core/layers/layer.py 27-102 (Layer), 105-161
    (MultiInputLayer), 191-217 (Register), 220-350 (Retrieve), 758-843
    (TransformationBase); dense.py 22-107; convolution.py 24-138 (Conv1d), 141-278
    (Conv2d); pooling.py 24-271; embedding.py 23-133; linear.py 23-94; misc.py 27-98
    (Activation), 195-230 (Reshape); networks/network.py 113-142, 200-268 (creation of
    layers), 296-305, 325-437 (LayeredNetwork); networks/auto.py 22-177 (AutoNetwork
    without rnn).

    Simplifications: tensors are arrays (SpecSpec.v) with a type and entries of an
    arbitrary type [E], with arbitrary arithmetic; integers and booleans are given
    by [as_int].  Specifications are fully specified and of scalar bounds; the
    unification with the default specification of a layer, which is modelled in
    SpecModel.v, then only compares type and rank.  A length which the code computes
    as negative is 0 here: the code rejects lengths below -1 when the layer is created
    and -1 and 0 when its signature is made, the model rejects all of them there.
    Axes, windows, strides and dilations are natural numbers, padding is 'same' or
    'valid', as documented; negative axes are not modelled.  Variables ([params]) have
    the shapes of their specifications.  Names of tensors contain no '/'.  The argument
    max_norm of Embedding and the argument outputs of networks are not modelled. *)
From Coq Require Import String List ZArith Lia Bool.
From Verif Require Import Base SpecSpec SpecModel.
Import ListNotations.
Open Scope list_scope.
Open Scope nat_scope.

(** The nonlinearities, misc.py 44-47: two of them are not elementwise (60-61, 82-83). *)
Inductive nonlin := Crelu | Softmax | Elementwise (name : string).

(** The reductions of Pooling but 'concat', pooling.py 37 *)
Inductive reduction := RMax | RMean | RProduct | RSum.
(** The reductions of Pool1d and Pool2d, pooling.py 131, 211 *)
Inductive pool := PAverage | PMax.
(** Padding types, pooling.py 120, 200, convolution.py 35, 152 *)
Inductive padding := PSame | PValid.
(** The aggregations of Retrieve, layer.py 243 *)
Inductive agg := AConcat | AProduct | AStack | ASum.

(** The arguments of TransformationBase, layer.py 782-785; [b_drop]: the dropout
    rate is not 0.0 *)
Record tbase := mkTb { b_size : nat; b_bias : bool; b_act : option nonlin; b_drop : bool }.
(** self.squeeze, layer.py 790 *)
Definition b_squeeze (t : tbase) : bool := Nat.eqb (b_size t) 0.
(** self.size, layer.py 791 *)
Definition b_units (t : tbase) : nat := Nat.max (b_size t) 1.

(** The layers and their arguments: Activation misc.py 40, Pooling and Flatten
    pooling.py 36, 97, Pool1d 128, Pool2d 208, Dense dense.py 47, Conv1d and Conv2d
    convolution.py 58, 175, Embedding embedding.py 50, Linear linear.py 43, Reshape
    misc.py 207, Register and Retrieve layer.py 205, 240.  Windows, strides and
    dilations of Conv2d and Pool2d are given for both axes (convolution.py 180-201,
    pooling.py 215-227). *)
Inductive cfg :=
| CActivation (nl : nonlin)
| CPooling (r : reduction)
| CConcat
| CFlatten
| CPool1d (r : pool) (w s : nat) (p : padding)
| CPool2d (r : pool) (w1 w2 s1 s2 : nat) (p : padding)
| CDense (t : tbase)
| CConv1d (t : tbase) (w s : nat) (p : padding) (d : nat)
| CConv2d (t : tbase) (w1 w2 s1 s2 : nat) (p : padding) (d1 d2 : nat)
| CEmbedding (t : tbase) (num : option nat)
| CLinear (size : nat) (bias : bool)
| CReshape (shape : list nat)
| CRegister (tensor : string)
| CRetrieve (tensors : list string) (a : agg) (axis : nat).

Section Layers.
Variable E : Type.
(** Addition, multiplication, zero, the elementwise functions, the reductions, and
    softmax of a list of entries (misc.py 60-96, pooling.py 66-84, 174-182, 261-269). *)
Variables (zero : E) (add mul : E -> E -> E).
Variable elementwise : string -> E -> E.
Variables (relu neg : E -> E).
Variable softmax : list E -> nat -> E.
Variable reduce : reduction -> list E -> E.
Variable pooled : pool -> list E -> E.
(** product and sum of tensors, layer.py 341, 348 *)
Variable combine_ : agg -> list E -> E.
(** tf_util.int32, embedding.py 130 *)
Variable as_int : E -> Z.

(** A specification, tensor_spec.py 44-71: type, shape, bounds, num_values *)
Record lspec := mkL { l_type : dtype; l_shape : list nat; l_lo : option E; l_hi : option E; l_num : option nat }.

(** A tensor; the first axis of the shape is the batch axis (tensor_spec.py 140-147). *)
Record ten := mkT { t_type : dtype; t_nd : nd E }.
(** The shape and the entries of a tensor; tf_util.rank in layer.py 332, pooling.py 67 *)
Definition t_shape (x : ten) : list nat := nd_shape (t_nd x).

(** Trainable variables: weights and bias, dense.py 97-101, layer.py 815-827,
    convolution.py 125-129, 264-269, embedding.py 122-126 *)
Record params := mkP { p_w : list nat -> E; p_b : nat -> E }.

(** tf.expand_dims, pooling.py 103, 172, linear.py 90 *)
Definition expand_dims (ax : nat) (x : nd E) : nd E :=
  Nd (firstn ax (nd_shape x) ++ 1 :: skipn ax (nd_shape x))
     (fun i => nd_at x (firstn ax i ++ skipn (S ax) i)).
(** tf.squeeze, pooling.py 184, layer.py 835 *)
Definition squeeze (ax : nat) (x : nd E) : res (nd E) :=
  match nth_error (nd_shape x) ax with
  | Some 1 => Ok (Nd (firstn ax (nd_shape x) ++ skipn (S ax) (nd_shape x))
                     (fun i => nd_at x (firstn ax i ++ 0 :: skipn ax i)))
  | _ => Err "InvalidArgumentError: squeeze"
  end.
(** tf.reduce_max, reduce_mean, reduce_prod, reduce_sum along one axis,
    pooling.py 66-84, layer.py 341, 348 *)
Definition reduce_axis (f : list E -> E) (ax : nat) (x : nd E) : res (nd E) :=
  match nth_error (nd_shape x) ax with
  | Some n => Ok (Nd (firstn ax (nd_shape x) ++ skipn (S ax) (nd_shape x))
                     (fun i => f (map (fun k => nd_at x (firstn ax i ++ k :: skipn ax i)) (seq 0 n))))
  | None => Err "InvalidArgumentError: axis"
  end.
(** The number of an entry in row-major order and back, used by tf.reshape
    (pooling.py 64, misc.py 228) *)
Fixpoint ravel (sh i : list nat) : nat :=
  match sh, i with
  | n :: sh, k :: i => k * nd_size sh + ravel sh i
  | _, _ => 0
  end.
(** tf.reshape, pooling.py 64, misc.py 228 *)
Fixpoint unravel (sh : list nat) (k : nat) : list nat :=
  match sh with
  | [] => []
  | n :: sh => (k / nd_size sh) :: unravel sh (k mod nd_size sh)
  end.
(** tf.reshape with shape (-1,) + sh, pooling.py 64, misc.py 228 *)
Definition reshape (sh : list nat) (x : nd E) : res (nd E) :=
  let n := nd_size (nd_shape x) in
  if Nat.eqb (n mod nd_size sh) 0
  then Ok (Nd (n / nd_size sh :: sh) (fun i => nd_at x (unravel (nd_shape x) (ravel (n / nd_size sh :: sh) i))))
  else Err "InvalidArgumentError: reshape".

(** The starting position of tensor [k] and the tensor of position [p] in a
    concatenation, layer.py 337, misc.py 61 *)
Fixpoint locate (sizes : list nat) (p : nat) : nat * nat :=
  match sizes with
  | [] => (0, p)
  | n :: r => if Nat.ltb p n then (0, p) else let '(k, q) := locate r (p - n) in (S k, q)
  end.
(** tf.concat, layer.py 337 *)
Definition concat_axis (ax : nat) (xs : list (nd E)) : res (nd E) :=
  match xs with
  | [] => Err "ValueError: empty list"
  | x :: _ =>
      let sh := nd_shape x in
      let rest (s : list nat) := (firstn ax s ++ skipn (S ax) s)%list in
      if Nat.ltb ax (length sh) &&
         forallb (fun y => Nat.eqb (length (nd_shape y)) (length sh) &&
                           (if list_eq_dec Nat.eq_dec (rest (nd_shape y)) (rest sh) then true else false)) xs
      then let sizes := map (fun y => nth ax (nd_shape y) 0) xs in
           Ok (Nd (firstn ax sh ++ fold_right Nat.add 0 sizes :: skipn (S ax) sh)
                  (fun i => let '(k, q) := locate sizes (nth ax i 0) in
                            nd_at (nth k xs x) (firstn ax i ++ q :: skipn (S ax) i)))
      else Err "ValueError: dimensions must be equal"
  end.
(** tf.stack, layer.py 340, 344, 347 *)
Definition stack_axis (ax : nat) (xs : list (nd E)) : res (nd E) :=
  match xs with
  | [] => Err "ValueError: empty list"
  | x :: _ =>
      let sh := nd_shape x in
      if Nat.leb ax (length sh) &&
         forallb (fun y => if list_eq_dec Nat.eq_dec (nd_shape y) sh then true else false) xs
      then Ok (Nd (firstn ax sh ++ length xs :: skipn ax sh)
                  (fun i => nd_at (nth (nth ax i 0) xs x) (firstn ax i ++ skipn (S ax) i)))
      else Err "ValueError: dimensions must be equal"
  end.

(** tf.nn.crelu: relu(x) and relu(-x) concatenated along the last axis, misc.py 61 *)
Definition crelu (x : nd E) : res (nd E) :=
  match nd_shape x with
  | [] => Err "ValueError"
  | sh => concat_axis (length sh - 1) [nd_map relu x; nd_map (fun e => relu (neg e)) x]
  end.
(** tf.nn.softmax along the last axis, misc.py 83 *)
Definition softmax_last (x : nd E) : res (nd E) :=
  match rev (nd_shape x) with
  | [] => Err "ValueError"
  | n :: _ => Ok (Nd (nd_shape x) (fun i =>
      softmax (map (fun k => nd_at x (removelast i ++ [k])) (seq 0 n)) (last i 0)))
  end.
(** Activation.apply, misc.py 58-98 *)
Definition activation (nl : nonlin) (x : nd E) : res (nd E) :=
  match nl with
  | Crelu => crelu x
  | Softmax => softmax_last x
  | Elementwise f => Ok (nd_map (elementwise f) x)
  end.

(** The quotient rounded up, np.ceil in pooling.py 161-164, 246-253 *)
Definition cdiv (a b : nat) : nat := (a + (b - 1)) / b.
(** Output lengths of convolution and pooling: tf.nn.convolution and keras'
    conv_output_length (convolution.py 101-104, 236-243), pooling.py 160-166,
    244-255 *)
Definition out_length (p : padding) (len w s d : nat) : nat :=
  match p with
  | PSame => cdiv len s
  | PValid => cdiv (len - (w - 1) * d) s
  end.
(** The padding before the first entry, tf.nn.conv1d, conv2d, avg_pool, max_pool
    (convolution.py 133-136, 273-276; pooling.py 175-182, 262-269) *)
Definition pad_before (p : padding) (len w s d : nat) : nat :=
  match p with
  | PSame => (((cdiv len s - 1) * s + (w - 1) * d + 1) - len) / 2
  | PValid => 0
  end.
(** The positions of the window of output [t], without those in the padding, with
    the number of the window's entry; convolution.py 133-136, 273-276; pooling.py 175-182,
    262-269 *)
Definition window (p : padding) (len w s d t : nat) : list (nat * nat) :=
  flat_map (fun k => let q := t * s + k * d in let b := pad_before p len w s d in
                     if Nat.leb b q && Nat.ltb (q - b) len then [(k, q - b)] else [])
           (seq 0 w).

(** The sum of products, in dense.py 105, convolution.py 133, 273 *)
Definition dot (l : list (E * E)) : E := fold_right (fun ab s => add (mul (fst ab) (snd ab)) s) zero l.

(** tf.linalg.matmul with a matrix of shape (n, m), dense.py 105 *)
Definition matmul (W : list nat -> E) (n m : nat) (x : nd E) : res (nd E) :=
  match nd_shape x with
  | [b; n'] => if Nat.eqb n n'
               then Ok (Nd [b; m] (fun i => match i with
                      | [r; j] => dot (map (fun k => (nd_at x [r; k], W [k; j])) (seq 0 n))
                      | _ => zero end))
               else Err "InvalidArgumentError: matmul"
  | _ => Err "InvalidArgumentError: matmul"
  end.
(** tf.nn.conv1d with filters of shape (w, c, m), convolution.py 133-136 *)
Definition conv1d (W : list nat -> E) (w s : nat) (p : padding) (d c m : nat) (x : nd E) : res (nd E) :=
  match nd_shape x with
  | [b; len; c'] =>
      if Nat.eqb c c' && Nat.ltb 0 s && (match p with PValid => Nat.leb ((w - 1) * d + 1) len | PSame => true end)
      then Ok (Nd [b; out_length p len w s d; m] (fun i => match i with
             | [r; t; j] => dot (flat_map (fun kq => map (fun a => (nd_at x [r; snd kq; a], W [fst kq; a; j])) (seq 0 c))
                                          (window p len w s d t))
             | _ => zero end))
      else Err "InvalidArgumentError: conv1d"
  | _ => Err "InvalidArgumentError: conv1d"
  end.
(** tf.nn.conv2d with filters of shape (w1, w2, c, m), convolution.py 273-276 *)
Definition conv2d (W : list nat -> E) (w1 w2 s1 s2 : nat) (p : padding) (d1 d2 c m : nat) (x : nd E) : res (nd E) :=
  match nd_shape x with
  | [b; l1; l2; c'] =>
      if Nat.eqb c c' && Nat.ltb 0 s1 && Nat.ltb 0 s2 &&
         (match p with PValid => Nat.leb ((w1 - 1) * d1 + 1) l1 && Nat.leb ((w2 - 1) * d2 + 1) l2 | PSame => true end)
      then Ok (Nd [b; out_length p l1 w1 s1 d1; out_length p l2 w2 s2 d2; m] (fun i => match i with
             | [r; t1; t2; j] =>
                 dot (flat_map (fun k1 => flat_map (fun k2 =>
                        map (fun a => (nd_at x [r; snd k1; snd k2; a], W [fst k1; fst k2; a; j])) (seq 0 c))
                      (window p l2 w2 s2 d2 t2)) (window p l1 w1 s1 d1 t1))
             | _ => zero end))
      else Err "InvalidArgumentError: conv2d"
  | _ => Err "InvalidArgumentError: conv2d"
  end.
(** tf.nn.avg_pool and tf.nn.max_pool (padding does not count), pooling.py 174-182, 261-269 *)
Definition pool2d (r : pool) (w1 w2 s1 s2 : nat) (p : padding) (x : nd E) : res (nd E) :=
  match nd_shape x with
  | [b; l1; l2; c] =>
      if Nat.ltb 0 s1 && Nat.ltb 0 s2 &&
         (match p with PValid => Nat.leb w1 l1 && Nat.leb w2 l2 | PSame => true end)
      then Ok (Nd [b; out_length p l1 w1 s1 1; out_length p l2 w2 s2 1; c] (fun i => match i with
             | [n; t1; t2; j] =>
                 pooled r (flat_map (fun k1 => map (fun k2 => nd_at x [n; snd k1; snd k2; j])
                      (window p l2 w2 s2 1 t2)) (window p l1 w1 s1 1 t1))
             | _ => zero end))
      else Err "InvalidArgumentError: pool"
  | _ => Err "InvalidArgumentError: pool"
  end.
(** tf.nn.embedding_lookup in a table of shape (n, m), embedding.py 130-131: every
    entry has to be a row of the table. *)
Definition lookup (W : list nat -> E) (n m : nat) (x : nd E) : res (nd E) :=
  if forallb (fun i => (0 <=? as_int (nd_at x i))%Z && (as_int (nd_at x i) <? Z.of_nat n)%Z) (indices (nd_shape x))
  then Ok (Nd (nd_shape x ++ [m]) (fun i => W [Z.to_nat (as_int (nd_at x (removelast i))); last i 0]))
  else Err "InvalidArgumentError: indices".
(** tf.nn.bias_add, layer.py 832 *)
Definition bias_add (b : nat -> E) (x : nd E) : nd E :=
  Nd (nd_shape x) (fun i => add (nd_at x i) (b (last i 0))).

(** The unification of the specification given to a layer with the default one of
    its class: allowed types and rank, layer.py 48-54, tensor_spec.py 340-489 *)
Definition accepts (types : list dtype) (rank : option nat) (s : lspec) : res unit :=
  do _ <- assert_ (existsb (dtype_eqb (l_type s)) types) "TensorforceError: type";
  match rank with
  | None => Ok tt
  | Some n => assert_ (Nat.eqb (length (l_shape s)) n) "TensorforceError: rank"
  end.

(** TensorSpec.signature, tensor_spec.py 103-112, 135-147: positive dimensions are required *)
Definition sig_ok (s : lspec) : res unit :=
  assert_ (forallb (Nat.ltb 0) (l_shape s) && match l_type s, l_num s with TInt, Some n => Nat.ltb 0 n | _, _ => true end)
    "TensorforceError: unexpected".
(** spec.is_compatible_with(tensor), dicts.py 167-173, 208, 233: type and shape but the
    batch axis *)
Definition fits_sig (s : lspec) (x : ten) : res unit :=
  assert_ (dtype_eqb (l_type s) (t_type x) &&
    match t_shape x with
    | [] => false
    | _ :: sh => if list_eq_dec Nat.eq_dec sh (l_shape s) then true else false
    end) "AssertionError: signature".

(** The last axis of the output, dense.py 78-81, convolution.py 106-109, 245-248,
    embedding.py 84-88 *)
Definition with_units (t : tbase) (sh : list nat) : list nat := if b_squeeze t then sh else sh ++ [b_units t].

(** Layer.output_spec layer.py 75-76 and overwritten ones: Dense dense.py 75-86,
    Conv1d convolution.py 98-114, Conv2d 233-253, Pooling pooling.py 48-59, Pool1d
    157-168, Pool2d 241-257, Embedding embedding.py 80-90 (setting the type resets the
    bounds, tensor_spec.py 604-610), Linear linear.py 84-85, Reshape misc.py 217-224. *)
Definition out_spec (c : cfg) (s : lspec) : res lspec :=
  match c with
  | CActivation _ | CRegister _ => Ok s
  | CPooling _ =>
      match rev (l_shape s) with
      | n :: _ => Ok (mkL (l_type s) [n] None None (l_num s))
      | [] => Err "IndexError"
      end
  | CConcat | CFlatten => Ok (mkL (l_type s) [nd_size (l_shape s)] None None (l_num s))
  | CPool1d _ w st p =>
      match l_shape s with
      | [len; ch] => Ok (mkL (l_type s) [out_length p len w st 1; ch] (l_lo s) (l_hi s) (l_num s))
      | _ => Err "unreachable"
      end
  | CPool2d _ w1 w2 s1 s2 p =>
      match l_shape s with
      | [l1; l2; ch] => Ok (mkL (l_type s) [out_length p l1 w1 s1 1; out_length p l2 w2 s2 1; ch] (l_lo s) (l_hi s) (l_num s))
      | _ => Err "unreachable"
      end
  | CDense t => Ok (mkL (l_type s) (with_units t (removelast (l_shape s))) None None (l_num s))
  | CConv1d t w st p d =>
      match l_shape s with
      | [len; _] => Ok (mkL (l_type s) (with_units t [out_length p len w st d]) None None (l_num s))
      | _ => Err "unreachable"
      end
  | CConv2d t w1 w2 s1 s2 p d1 d2 =>
      match l_shape s with
      | [l1; l2; _] => Ok (mkL (l_type s) (with_units t [out_length p l1 w1 s1 d1; out_length p l2 w2 s2 d2]) None None (l_num s))
      | _ => Err "unreachable"
      end
  | CEmbedding t _ => Ok (mkL TFloat (with_units t (l_shape s)) None None None)
  | CLinear size _ =>
      match l_shape s with
      | [_] => Ok (mkL (l_type s) (with_units (mkTb size false None false) []) None None (l_num s))
      | [len; _] => Ok (mkL (l_type s) (with_units (mkTb size false None false) [out_length PSame len 1 1 1]) None None (l_num s))
      | [l1; l2; _] => Ok (mkL (l_type s) (with_units (mkTb size false None false)
                         [out_length PSame l1 1 1 1; out_length PSame l2 1 1 1]) None None (l_num s))
      | _ => Err "unreachable"
      end
  | CReshape sh =>
      do _ <- assert_ (Nat.eqb (nd_size (l_shape s)) (nd_size sh)) "TensorforceError: shape";
      Ok (mkL (l_type s) sh (l_lo s) (l_hi s) (l_num s))
  | CRetrieve _ _ _ => Err "several inputs"
  end.

(** The number of embeddings, embedding.py 95-116 (initialize): the comparison with
    num_values (109-114) is only made if the argument is not given. *)
Definition num_embeddings (num : option nat) (s : lspec) : res nat :=
  match num with
  | Some n => Ok n
  | None =>
      match l_type s with
      | TBool => Ok 2
      | TInt =>
          match l_num s with
          | None => Err "TensorforceError: num_embeddings required"
          | Some n => if match l_num s with Some k => Nat.ltb n k | None => false end
                      then Err "TensorforceError: num_embeddings" else Ok n
          end
      | TFloat => Err "unreachable"
      end
  end.

(** Creating a layer: default_input_spec and __init__ of every class (see [cfg]),
    initialize of Embedding; activation and dropout are created by TransformationBase
    with the specification of the layer's output (layer.py 794-808), which is of
    type float.  *)
Definition layer_init (c : cfg) (s : lspec) : res unit :=
  match c with
  | CActivation _ => accepts [TFloat] None s
  | CPooling _ | CConcat | CFlatten => accepts [TFloat] None s
  | CPool1d _ _ _ _ => accepts [TFloat] (Some 2) s
  | CPool2d _ _ _ _ _ _ => accepts [TFloat] (Some 3) s
  | CDense _ => accepts [TFloat] (Some 1) s
  | CConv1d _ _ _ _ _ => accepts [TFloat] (Some 2) s
  | CConv2d _ _ _ _ _ _ _ _ => accepts [TFloat] (Some 3) s
  | CEmbedding _ num =>
      do _ <- accepts [TInt; TBool] None s;
      do _ <- num_embeddings num s; Ok tt
  | CLinear _ _ =>
      (* linear.py 49-70: the nested layer is created with the same specification;
         for rank 0 it is a Dense layer, which does not accept it. *)
      do _ <- accepts [TFloat] None s;
      match length (l_shape s) with
      | 0 | 1 => accepts [TFloat] (Some 1) s
      | 2 => accepts [TFloat] (Some 2) s
      | 3 => accepts [TFloat] (Some 3) s
      | _ => Err "TensorforceError: input rank"
      end
  | CReshape _ | CRegister _ => Ok tt
  | CRetrieve _ _ _ => Err "several inputs"
  end.

(** The part of tf_function around a function, module.py 75-77, 103-109, 126-140: signatures of input
    and output are made and compared with the tensors. *)
Definition checked (si : lspec) (so : res lspec) (f : nd E -> res (nd E)) (x : ten) : res ten :=
  do _ <- sig_ok si;
  do so <- so;
  do _ <- sig_ok so;
  do _ <- fits_sig si x;
  do y <- f (t_nd x);
  let y := mkT (l_type so) y in
  do _ <- fits_sig so y;
  Ok y.

(** The nested Activation layer, layer.py 837-838 (its specification is the output
    specification of the layer, 797-800) *)
Definition sub_activation (nl : nonlin) (so : lspec) (x : nd E) : res (nd E) :=
  do y <- checked so (Ok so) (activation nl) (mkT (l_type so) x);
  Ok (t_nd y).

(** TransformationBase.apply, layer.py 829-843; for the dropout layer see
    TempModel.trans_apply. *)
Definition transform (t : tbase) (pb : nat -> E) (so : lspec) (x : nd E) : res (nd E) :=
  let x := if b_bias t then bias_add pb x else x in
  do x <- (if b_squeeze t then squeeze (length (nd_shape x) - 1) x else Ok x);
  do x <- (match b_act t with None => Ok x | Some nl => sub_activation nl so x end);
  if b_drop t then Err "AssertionError: signature of Dropout.apply" else Ok x.

(** Pooling.apply for the reductions: all axes but the first and the last,
    pooling.py 66-84 *)
Fixpoint reduce_all (f : list E -> E) (n : nat) (x : nd E) : res (nd E) :=
  match n with
  | 0 => Ok x
  | S n => do x <- reduce_axis f 1 x; reduce_all f n x
  end.

(** The body of apply: Dense dense.py 103-107, Conv1d convolution.py 131-138, Conv2d
    271-278, Embedding embedding.py 128-133, Pooling pooling.py 61-84, Flatten 100-106,
    Pool1d 170-186, Pool2d 259-271, Linear linear.py 87-94, Reshape misc.py 226-230,
    Register layer.py 215-217.  The nested layer of Linear has specifications equal
    to those of Linear; they are only made for it once here. *)
Definition body (c : cfg) (p : params) (si so : lspec) (x : nd E) : res (nd E) :=
  match c with
  | CActivation nl => activation nl x
  | CPooling r => reduce_all (reduce r) (length (nd_shape x) - 2) x
  | CConcat => reshape [nd_size (l_shape si)] x
  | CFlatten => match l_shape si with
                | [] => Ok (expand_dims 1 x)
                | _ => reshape [nd_size (l_shape si)] x
                end
  | CPool1d r w s pd =>
      do y <- pool2d r 1 w 1 s pd (expand_dims 1 x);
      squeeze 1 y
  | CPool2d r w1 w2 s1 s2 pd => pool2d r w1 w2 s1 s2 pd x
  | CDense t =>
      do y <- matmul (p_w p) (nth 0 (l_shape si) 0) (b_units t) x;
      transform t (p_b p) so y
  | CConv1d t w s pd d =>
      do y <- conv1d (p_w p) w s pd d (nth 1 (l_shape si) 0) (b_units t) x;
      transform t (p_b p) so y
  | CConv2d t w1 w2 s1 s2 pd d1 d2 =>
      do y <- conv2d (p_w p) w1 w2 s1 s2 pd d1 d2 (nth 2 (l_shape si) 0) (b_units t) x;
      transform t (p_b p) so y
  | CEmbedding t num =>
      do n <- num_embeddings num si;
      do y <- lookup (p_w p) n (b_units t) x;
      transform t (p_b p) so y
  | CLinear size bias =>
      let t := mkTb size bias None false in
      match length (l_shape si) with
      | 0 | 1 =>
          do y <- matmul (p_w p) (nth 0 (l_shape si) 0) (b_units t) (if Nat.eqb (length (l_shape si)) 0 then expand_dims 1 x else x);
          transform t (p_b p) so y
      | 2 =>
          do y <- conv1d (p_w p) 1 1 PSame 1 (nth 1 (l_shape si) 0) (b_units t) x;
          transform t (p_b p) so y
      | _ =>
          do y <- conv2d (p_w p) 1 1 1 1 PSame 1 1 (nth 2 (l_shape si) 0) (b_units t) x;
          transform t (p_b p) so y
      end
  | CReshape sh => reshape sh x
  | CRegister _ => Ok x
  | CRetrieve _ _ _ => Err "several inputs"
  end.

(** layer.apply, layer.py 86-102 with module.py 75-140 *)
Definition layer_apply (c : cfg) (p : params) (si : lspec) (x : ten) : res ten :=
  checked si (out_spec c si) (fun x => do so <- out_spec c si; body c p si so x) x.

(** len(shape) != len(shapes[0]), layer.py 277, 294, 310 *)
Definition same_rank (shapes : list (list nat)) : bool :=
  forallb (fun s => Nat.eqb (length s) (length (hd [] shapes))) shapes.

(** Retrieve.output_spec, layer.py 259-321 *)
Definition retrieve_spec (a : agg) (axis : nat) (specs : list lspec) : res lspec :=
  match specs with
  | [s] => Ok s
  | [] => Err "zero length"
  | s0 :: _ =>
      let shapes := map l_shape specs in
      let sh0 := l_shape s0 in
      do _ <- assert_ (forallb (fun s => dtype_eqb (l_type s) (l_type s0)) specs) "TensorforceError: tensor types";
      do _ <- assert_ (same_rank shapes) "TensorforceError: tensor shapes";
      do sh <- match a with
        | AConcat =>
            do _ <- assert_ (forallb (fun s => forallb (fun n => Nat.eqb n axis || Nat.eqb (nth n s 0) (nth n sh0 0))
                                                       (seq 0 (length s))) shapes) "TensorforceError: tensor shapes";
            Ok (map (fun n => if Nat.eqb n axis then fold_right Nat.add 0 (map (fun s => nth n s 0) shapes) else nth n sh0 0)
                    (seq 0 (length sh0)))
        | AStack =>
            do _ <- assert_ (forallb (fun s => forallb (fun n => Nat.eqb (nth n s 0) (nth n sh0 0)) (seq 0 (length s))) shapes)
                      "TensorforceError: tensor shapes";
            do _ <- assert_ (Nat.leb axis (length sh0)) "IndexError: tuple index out of range"; (* 303 *)
            Ok (map (fun n => if Nat.eqb n axis then length shapes
                              else nth (if Nat.ltb axis n then n - 1 else n) sh0 0)
                    (seq 0 (length sh0 + 1)))
        | _ =>
            do _ <- assert_ (forallb (fun s => forallb (fun xy => Nat.eqb (fst xy) (snd xy) || Nat.eqb (fst xy) 1 || Nat.eqb (snd xy) 1)
                                                       (combine s sh0)) shapes) "TensorforceError: tensor shapes";
            Ok (map (fun n => fold_right Nat.max 0 (map (fun s => nth n s 0) shapes)) (seq 0 (length sh0)))
        end;
      Ok (mkL (l_type s0) sh None None None)
  end.

(** Retrieve.apply, layer.py 323-350 (the loop 331-334 changes nothing: a tensor has
    at least as many axes as the shape); sum and product of booleans do not exist. *)
Definition retrieve_body (a : agg) (axis : nat) (t : dtype) (xs : list (nd E)) : res (nd E) :=
  match xs with
  | [x] => Ok x
  | _ =>
      match a with
      | AConcat => concat_axis (axis + 1) xs
      | AStack => stack_axis (axis + 1) xs
      | _ =>
          do y <- stack_axis (axis + 1) xs;
          do _ <- assert_ (negb (dtype_eqb t TBool)) "TypeError: bool";
          reduce_axis (combine_ a) (axis + 1) y
      end
  end.

(** layer.apply of Retrieve: every input and the output are compared with their
    signatures, module.py 75-140 *)
Definition retrieve_apply (a : agg) (axis : nat) (specs : list lspec) (xs : list ten) : res ten :=
  do _ <- map_res sig_ok specs;
  do so <- retrieve_spec a axis specs;
  do _ <- sig_ok so;
  do _ <- map_res (fun sx => fits_sig (fst sx) (snd sx)) (combine specs xs);
  do y <- retrieve_body a axis (l_type so) (map t_nd xs);
  let y := mkT (l_type so) y in
  do _ <- fits_sig so y;
  Ok y.

(** Dictionaries of registered tensors, network.py 123-126, 356-359 *)
Fixpoint find {A} (k : string) (d : list (string * A)) : option A :=
  match d with
  | [] => None
  | (k', a) :: r => if String.eqb k k' then Some a else find k r
  end.
(** network.py 227-231, 413-415, nested_dict.py 195-199, 234-235 *)
Fixpoint find_all {A} (ks : list string) (d : list (string * A)) : res (list A) :=
  match ks with
  | [] => Ok []
  | k :: r => match find k d with
              | None => Err "TensorforceError: registered tensor does not exist"
              | Some a => do l <- find_all r d; Ok (a :: l)
              end
  end.

(** A name occurs twice: then the dictionary of the inputs of the layer cannot be made,
    network.py 231, nested_dict.py 235, 301-304, tensors_spec.py 24 *)
Fixpoint repeated (l : list string) : bool :=
  match l with
  | [] => false
  | a :: r => existsb (String.eqb a) r || repeated r
  end.

(** Creating the layers one after the other, network.py 200-268, 325-352: [cur] is
    self._output_spec, [reg] the registered specifications.  Lists of lists are
    created in order, like one list (326-327). *)
Fixpoint create (layers : list cfg) (cur : lspec) (reg : list (string * lspec))
  : res (lspec * list (string * lspec)) :=
  match layers with
  | [] => Ok (cur, reg)
  | c :: r =>
      match c with
      | CRetrieve ts a ax =>
          do specs <- find_all ts reg;
          do _ <- assert_ (negb (repeated ts)) "TensorforceError: already set";
          do so <- retrieve_spec a ax specs;
          create r so reg
      | _ =>
          do _ <- layer_init c cur;
          do so <- out_spec c cur;
          match c with
          | CRegister t =>
              match find t reg with
              | Some _ => Err "TensorforceError: registered tensor exists"
              | None => create r so (reg ++ [(t, so)])
              end
          | _ => create r so reg
          end
      end
  end.

(** Applying them, network.py 375-437; every layer keeps the specifications it was
    created with.  [n] numbers the layers, [ps] are their variables. *)
Fixpoint run (layers : list cfg) (n : nat) (ps : nat -> params) (cur : lspec) (reg : list (string * lspec))
  (x : ten) (tens : list (string * ten)) : res ten :=
  match layers with
  | [] => Ok x
  | c :: r =>
      match c with
      | CRetrieve ts a ax =>
          do specs <- find_all ts reg;
          do so <- retrieve_spec a ax specs;
          do xs <- find_all ts tens;
          do y <- retrieve_apply a ax specs xs;
          run r (S n) ps so reg y tens
      | CRegister t =>
          do so <- out_spec c cur;
          match find t tens with
          | Some _ => Err "TensorforceError: registered tensor exists"
          | None =>
              do y <- layer_apply c (ps n) cur x;
              run r (S n) ps so (reg ++ [(t, so)]) y (tens ++ [(t, y)])
          end
      | _ =>
          do so <- out_spec c cur;
          do y <- layer_apply c (ps n) cur x;
          run r (S n) ps so reg y tens
      end
  end.

(** The inputs of a network: one without a name, or named ones.  network.py 123-128,
    356-360 *)
Inductive inputs A := Single (a : A) | Named (l : list (string * A)).
Arguments Single {A}. Arguments Named {A}.
(** network.py 123-126, 356-359: an input without a name is registered as 'state' *)
Definition registered {A} (i : inputs A) : list (string * A) :=
  match i with Single a => [("state"%string, a)] | Named l => l end.
(** inputs_spec.value() and x.value(), network.py 128, 360: the first value, also if
    there are several (nested_dict.py 315-316).  So _output_spec is not None in 233,
    and the error raised there does not occur. *)
Definition first {A} (i : inputs A) : res A :=
  match i with
  | Single a => Ok a
  | Named ((_, a) :: _) => Ok a
  | Named [] => Err "StopIteration"
  end.

(** The specification of the output of a network, network.py 118-128, 133-135, 296-305 *)
Definition network_spec (layers : list cfg) (i : inputs lspec) : res lspec :=
  do s <- first i;
  do r <- create layers s (registered i);
  Ok (fst r).

(** The output of a network on a batch, network.py 354-373; its own signatures (74-94)
    are those of the inputs and of the last layer. *)
Definition network_output (layers : list cfg) (ps : nat -> params) (i : inputs lspec) (x : inputs ten) : res ten :=
  do s <- first i;
  do x1 <- first x;
  run layers 0 ps s (registered i) x1 (registered x).

(** The arguments of AutoNetwork.__init__, auto.py 49-54, without rnn.  Layer arguments not given
    have the defaults of the classes: dense.py 47-50, convolution.py 58-62, 175-179,
    embedding.py 50-53. *)
Record auto := mkAuto { a_size : nat; a_depth : nat; a_final_size : option nat; a_final_depth : option nat }.
(** auto.py 135-137, 168 with dense.py 47-50 *)
Definition auto_dense (size : nat) : cfg := CDense (mkTb size true (Some (Elementwise "tanh")) false).
(** auto.py 135-137 with convolution.py 58-62 *)
Definition auto_conv1d (size : nat) : cfg := CConv1d (mkTb size true (Some (Elementwise "relu")) false) 3 1 PSame 1.
(** auto.py 135-137 with convolution.py 175-179 *)
Definition auto_conv2d (size : nat) : cfg := CConv2d (mkTb size true (Some (Elementwise "relu")) false) 3 3 1 1 PSame 1 1.
(** auto.py 114-116 with embedding.py 50-53 *)
Definition auto_embedding (size : nat) : cfg := CEmbedding (mkTb size true (Some (Elementwise "tanh")) false) None.

(** The layers for one input, auto.py 92-149 *)
Definition auto_input (c : auto) (name : option string) (s : lspec) : res (list cfg) :=
  let e := match l_type s with TFloat => 0 | _ => 1 end in
  do _ <- (match l_type s, l_num s with TInt, None => Err "TensorforceError: num_values" | _, _ => Ok tt end);
  let rank := length (l_shape s) in
  do kind <- (if Nat.eqb rank (1 - e) then Ok ([], auto_dense (a_size c))
              else if Nat.eqb rank (2 - e) then Ok ([], auto_conv1d (a_size c))
              else if Nat.eqb rank (3 - e) then Ok ([], auto_conv2d (a_size c))
              else if Nat.eqb rank 0 then Ok ([CFlatten], auto_dense (a_size c))
              else Err "TensorforceError: input rank");
  Ok ((match name with Some n => [CRetrieve [n] AConcat 0] | None => [] end)
      ++ (if Nat.eqb e 1 then [auto_embedding (a_size c)] else [])
      ++ fst kind ++ repeat (snd kind) (a_depth c - e)
      ++ (if Nat.ltb (1 - e) rank then [CPooling RMax] else [])
      ++ (match name with Some n => [CRegister (n ++ "-embedding")] | None => [] end))%list.
(** The layers for several inputs, auto.py 85-149 *)
Fixpoint auto_inputs (c : auto) (l : list (string * lspec)) : res (list cfg) :=
  match l with
  | [] => Ok []
  | (n, s) :: r => do a <- auto_input c (Some n) s; do b <- auto_inputs c r; Ok (a ++ b)%list
  end.
(** All layers, auto.py 60-82, 152-168 *)
Definition auto_layers (c : auto) (i : inputs lspec) : res (list cfg) :=
  match i with
  | Single s =>
      do _ <- assert_ (match a_final_size c with None => true | Some _ => false end) "TensorforceError: final_size";
      do _ <- assert_ (match a_final_depth c with None => true | Some n => Nat.eqb n 1 end) "TensorforceError: final_depth";
      auto_input c None s
  | Named [(n, s)] =>
      do _ <- assert_ (match a_final_size c with None => true | Some _ => false end) "TensorforceError: final_size";
      do _ <- assert_ (match a_final_depth c with None => true | Some n => Nat.eqb n 1 end) "TensorforceError: final_depth";
      auto_input c (Some n) s
  | Named l =>
      do ls <- auto_inputs c l;
      let size := match a_final_size c with None => a_size c | Some n => n end in
      let depth := match a_final_depth c with None => 0 | Some n => n end in
      Ok (ls ++ CRetrieve (map (fun ns => (fst ns ++ "-embedding")%string) l) AConcat 0 :: repeat (auto_dense size) depth)%list
  end.
End Layers.
