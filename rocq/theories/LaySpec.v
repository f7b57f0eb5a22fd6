(** What layers are expected to do, stated without reference to how they do it. *)
From Coq Require Import String List ZArith Lia Bool.
From Verif Require Import Base SpecSpec LayModel.
Import ListNotations.
Open Scope list_scope.
Open Scope nat_scope.

Section LaySpec.
Variable E : Type.
Variable as_int : E -> Z.

(** The shape of the tensor is the one specified, after an axis for [B] instances. *)
Definition fits (s : lspec E) (B : nat) (x : ten E) : Prop :=
  t_type _ x = l_type _ s /\ nd_shape (t_nd _ x) = B :: l_shape _ s.

(** Values of integers with a number of values, and of booleans. *)
Definition value_ok (t : dtype) (num : option nat) (e : E) : Prop :=
  match t, num with
  | TBool, _ => (0 <= as_int e < 2)%Z
  | TInt, Some n => (0 <= as_int e < Z.of_nat n)%Z
  | _, _ => True
  end.

(** A batch of [B] values of a specification (but for bounds) *)
Definition batch_of (s : lspec E) (B : nat) (x : ten E) : Prop :=
  fits s B x /\
  forall i, in_range i (nd_shape (t_nd _ x)) -> value_ok (l_type _ s) (l_num _ s) (nd_at (t_nd _ x) i).

(** All dimensions are known. *)
Definition positive (s : lspec E) : Prop :=
  Forall (fun n => 0 < n) (l_shape _ s) /\
  (l_type _ s = TInt -> forall n, l_num _ s = Some n -> 0 < n).

(** Instance [b] of [x] is instance [b'] of [x']. *)
Definition same_row (sh : list nat) (x : nd E) (b : nat) (x' : nd E) (b' : nat) : Prop :=
  forall i, in_range i sh -> nd_at x (b :: i) = nd_at x' (b' :: i).

(** Activations that act on one instance of the given shape and keep its shape. *)
Definition good_act (nl : nonlin) (sh : list nat) : Prop :=
  match nl with Crelu => False | Softmax => sh <> [] | Elementwise _ => True end.
(** Arguments of TransformationBase *)
Definition good_tb (t : tbase) (sh : list nat) : Prop :=
  b_drop t = false /\ match b_act t with None => True | Some nl => good_act nl sh end.

(** Without padding, the window has to fit into the input. *)
Definition window_fits (p : padding) (len w d : nat) : Prop :=
  match p with PValid => (w - 1) * d < len | PSame => True end.

(** Arguments as documented, but without dropout and crelu, without softmax of scalars,
    and with a table for all values in case of Embedding. *)
Definition good (c : cfg) (s so : lspec E) : Prop :=
  match c with
  | CActivation nl => good_act nl (l_shape _ s)
  | CPooling _ | CFlatten | CReshape _ | CRegister _ | CLinear _ _ | CConcat => True
  | CPool1d _ w st p => 0 < w /\ 0 < st /\ window_fits p (nth 0 (l_shape _ s) 0) w 1
  | CPool2d _ w1 w2 s1 s2 p =>
      0 < w1 /\ 0 < w2 /\ 0 < s1 /\ 0 < s2 /\
      window_fits p (nth 0 (l_shape _ s) 0) w1 1 /\ window_fits p (nth 1 (l_shape _ s) 0) w2 1
  | CDense t => good_tb t (l_shape _ so)
  | CConv1d t w st p d =>
      good_tb t (l_shape _ so) /\ 0 < w /\ 0 < st /\ 0 < d /\ window_fits p (nth 0 (l_shape _ s) 0) w d
  | CConv2d t w1 w2 s1 s2 p d1 d2 =>
      good_tb t (l_shape _ so) /\ 0 < w1 /\ 0 < w2 /\ 0 < s1 /\ 0 < s2 /\ 0 < d1 /\ 0 < d2 /\
      window_fits p (nth 0 (l_shape _ s) 0) w1 d1 /\ window_fits p (nth 1 (l_shape _ s) 0) w2 d2
  | CEmbedding t num =>
      good_tb t (l_shape _ so) /\
      match num, l_type _ s, l_num _ s with
      | None, _, _ => True
      | Some n, TBool, _ => 2 <= n
      | Some n, TInt, Some k => k <= n
      | _, _, _ => False
      end
  | CRetrieve _ _ _ => False
  end.

(** Aggregation by concatenation along an existing axis or by stacking, or one tensor *)
Definition good_retrieve (a : agg) (axis : nat) (specs : list (lspec E)) : Prop :=
  match specs with
  | [_] => True
  | s :: _ => match a with
              | AConcat => axis < length (l_shape _ s)
              | AStack => True
              | _ => l_type _ s <> TBool /\ axis <= length (l_shape _ s) /\
                     forall s', In s' specs -> l_shape _ s' = l_shape _ s
              end
  | [] => False
  end.

(** All layers of a network are good for the specifications they declare. *)
Fixpoint well_built (layers : list cfg) (cur : lspec E) (reg : list (string * lspec E)) : Prop :=
  match layers with
  | [] => True
  | c :: r =>
      match c with
      | CRetrieve ts a ax =>
          forall specs so, find_all ts reg = Ok specs -> retrieve_spec E a ax specs = Ok so ->
            good_retrieve a ax specs /\ well_built r so reg
      | CRegister t => forall so, out_spec E c cur = Ok so -> well_built r so (reg ++ [(t, so)])
      | _ => forall so, out_spec E c cur = Ok so -> good c cur so /\ well_built r so reg
      end
  end.

(** States for which AutoNetwork is meant: auto.py 118-133 *)
Definition auto_state (s : lspec E) : Prop :=
  positive s /\
  match l_type _ s with
  | TFloat => length (l_shape _ s) <= 3
  | TBool => length (l_shape _ s) <= 2
  | TInt => length (l_shape _ s) <= 2 /\ l_num _ s <> None
  end.

(** The size of the embedding of a state: [size], unless there is no layer at all. *)
Definition width (size depth : nat) (s : lspec E) : nat :=
  match l_type _ s, depth with TFloat, 0 => last (l_shape _ s) 1 | _, _ => size end.

(** The name under which the embedding of a state is registered, auto.py 149 *)
Definition emb (n : string) : string := (n ++ "-embedding")%string.

(** Names of states that can be told apart from those of embeddings *)
Definition names_ok (l : list (string * lspec E)) : Prop :=
  NoDup (map fst l) /\ forall n n', In n (map fst l) -> In n' (map fst l) -> n <> emb n'.

Variables (zero : E) (add mul : E -> E -> E).
(** f(0) + ... + f(n-1) *)
Fixpoint sum_to (n : nat) (f : nat -> E) : E :=
  match n with 0 => zero | S n => add (f 0) (sum_to n (fun k => f (S k))) end.
(** A sequence of [len] entries, with zeros on both sides; position [t + k - h] *)
Definition padded (len h t k : nat) (f : nat -> E) : E :=
  if (Nat.leb h (t + k) && Nat.ltb (t + k - h) len)%bool then f (t + k - h) else zero.
End LaySpec.
