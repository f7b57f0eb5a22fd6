(** What an action is, for agents which choose without learning: stated on action arrays
    (SpecSpec.v) without reference to how they are computed. *)

From Coq Require Import String List ZArith QArith Bool.
From Verif Require Import Base SpecSpec.
Import ListNotations.
Open Scope nat_scope.

(** The specification of an action: type and shape are given, every dimension and the
    number of values are positive. *)
Definition action_spec (s : spec) (t : dtype) (sh : list nat) : Prop :=
  sp_type s = TyOne t /\ sp_shape s = Some (map (fun n => Some (Z.of_nat n)) sh) /\
  Forall (fun n => 0 < n) sh /\ (forall n, sp_num s = Some n -> t = TInt /\ (0 < n)%Z) /\
  (t = TBool -> sp_min s = None /\ sp_max s = None).

(** The bounds of one entry of an action, [None]: unbounded. *)
Definition lower (s : spec) (i : list nat) : option num := option_map (fun b => bound_at b i) (sp_min s).
Definition upper (s : spec) (i : list nat) : option num := option_map (fun b => bound_at b i) (sp_max s).

(** Bounds are numbers, or arrays of the shape of the action. *)
Definition bound_shape (sh : list nat) (b : bound) : Prop :=
  match b with Scalar _ => True | Array a => nd_shape a = sh end.

(** Lower and upper bounds are finite and in order. *)
Definition ordered (s : spec) (sh : list nat) : Prop :=
  (forall b, sp_min s = Some b \/ sp_max s = Some b -> bound_shape sh b) /\
  forall i x, in_range i sh ->
    (lower s i = Some x \/ upper s i = Some x -> finite x) /\
    (forall y, lower s i = Some x -> upper s i = Some y -> num_lt x y).

(** The options allowed for the entry [i] of a batch of discrete actions, in order. *)
Definition allowed (mask : nd bool) (n : nat) (i : list nat) : list nat :=
  filter (fun a => nd_at mask (i ++ [a])) (seq 0 n).
(** Each entry has an option. *)
Definition some_allowed (mask : nd bool) (n : nat) (dims : list nat) : Prop :=
  forall i, in_range i dims -> allowed mask n i <> [].

(** The entry [i] of a batch of actions is the number [x]. *)
Definition entry (a : arr) (i : list nat) (x : num) : Prop := arr_entry a i = Some x.
Definition option_no (a : nat) : num := Fin (inject_Z (Z.of_nat a)).
