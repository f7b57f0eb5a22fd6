(** Values (numpy arrays) and what a value specification describes, stated without
    reference to how the code checks it.

    An array has a shape and an entry for each index; only the entries at indices within
    the shape matter.  Floats are exact rationals, infinities and NaN. *)

From Coq Require Import List ZArith QArith Bool.
From Verif Require Import Base.
Import ListNotations.

Inductive dtype := TBool | TInt | TFloat.
Inductive num := Fin (q : Q) | PosInf | NegInf | NaN.

Record nd (E : Type) := Nd { nd_shape : list nat; nd_at : list nat -> E }.
Arguments Nd {E}. Arguments nd_shape {E}. Arguments nd_at {E}.

Inductive arr := ABool (a : nd bool) | AInt (a : nd Z) | AFloat (a : nd num).
Definition arr_type (a : arr) : dtype := match a with ABool _ => TBool | AInt _ => TInt | AFloat _ => TFloat end.
Definition arr_shape (a : arr) : list nat :=
  match a with ABool a => nd_shape a | AInt a => nd_shape a | AFloat a => nd_shape a end.
(** Numerical entries; a boolean array has none. *)
Definition arr_entry (a : arr) (i : list nat) : option num :=
  match a with ABool _ => None | AInt a => Some (Fin (inject_Z (nd_at a i))) | AFloat a => Some (nd_at a i) end.

(** [i] is an index of an array of shape [sh]. *)
Definition in_range (i sh : list nat) : Prop := Forall2 (fun k n => (k < n)%nat) i sh.

(** Two arrays with the same shape and entries. *)
Definition same_arr (a b : arr) : Prop :=
  match a, b with
  | ABool a, ABool b => nd_shape a = nd_shape b /\ forall i, in_range i (nd_shape a) -> nd_at a i = nd_at b i
  | AInt a, AInt b => nd_shape a = nd_shape b /\ forall i, in_range i (nd_shape a) -> nd_at a i = nd_at b i
  | AFloat a, AFloat b => nd_shape a = nd_shape b /\ forall i, in_range i (nd_shape a) -> nd_at a i = nd_at b i
  | _, _ => False
  end.

(** A specification: the type may be open or a choice, the shape open ([None]), of open
    rank (starting with [None]) or with open dimensions (0 and -1); bounds are numbers or
    arrays. *)
Inductive ty := TyNone | TyOne (t : dtype) | TyMany (l : list dtype).
Inductive bound := Scalar (x : num) | Array (a : nd num).
Record spec := Spec {
  sp_type : ty; sp_shape : option (list (option Z));
  sp_min : option bound; sp_max : option bound; sp_num : option Z
}.

Definition type_fits (t : ty) (d : dtype) : Prop :=
  match t with TyNone => True | TyOne t => d = t | TyMany l => In d l end.

Definition dim_fits (d : option Z) (n : nat) : Prop :=
  match d with None => False | Some z => (z <= 0)%Z \/ z = Z.of_nat n end.
Definition shape_fits (s : option (list (option Z))) (sh : list nat) : Prop :=
  match s with
  | None => True
  | Some (None :: r) => exists sh1 sh2, sh = sh1 ++ sh2 /\ Forall2 dim_fits r sh2
  | Some l => Forall2 dim_fits l sh
  end.

Definition num_lt (x y : num) : Prop :=
  match x, y with
  | Fin p, Fin q => (p < q)%Q
  | Fin _, PosInf => True
  | NegInf, Fin _ | NegInf, PosInf => True
  | _, _ => False
  end.
Definition finite (x : num) : Prop := match x with Fin _ => True | _ => False end.

(** The bound for the entry at [i]: an array of bounds covers the leading axes. *)
Definition bound_at (b : bound) (i : list nat) : num :=
  match b with Scalar x => x | Array a => nd_at a (firstn (length (nd_shape a)) i) end.

Definition entry_fits (s : spec) (i : list nat) (x : num) : Prop :=
  finite x /\
  (forall b, sp_min s = Some b -> ~ num_lt x (bound_at b i)) /\
  (forall b, sp_max s = Some b -> ~ num_lt (bound_at b i) x) /\
  (forall n, sp_num s = Some n -> (0 < n)%Z -> ~ num_lt x (Fin 0) /\ num_lt x (Fin (inject_Z n))).

(** [a] is described by [s]; a batch has one additional leading axis. *)
Definition describes (s : spec) (batched : bool) (a : arr) : Prop :=
  type_fits (sp_type s) (arr_type a) /\
  exists lead sh, arr_shape a = lead ++ sh /\ length lead = (if batched then 1 else 0)%nat /\
    shape_fits (sp_shape s) sh /\
    forall i x, in_range i (arr_shape a) -> arr_entry a i = Some x -> entry_fits s (skipn (length lead) i) x.
