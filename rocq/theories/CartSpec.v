(** Specification for CartPole: executions seen from outside, physics, mirror images. *)

From Coq Require Import String List ZArith Reals Bool.
From Verif Require Import Base ParModel CartModel.
Import ListNotations.
Open Scope R_scope.

(** [n] calls of execute, from time [t]; the caller chooses the actions from the time and the indices
    of the rows left.  All results in order. *)
Fixpoint runs (e : env) (ep : episode) (choose : nat -> list nat -> list action) (t n : nat) : res (list result) :=
  match n with
  | O => Ok []
  | S n =>
      do x <- execute e ep (choose t (ep_indices ep));
      do rest <- runs e (fst (fst x)) choose (S t) n;
      Ok (snd (fst x) :: rest)
  end.

(** Parallel execution from the given rows; [act t i] is the action of row [i] at time [t]. *)
Definition parallel_run (e : env) (p : phys) (rows : list st) (act : nat -> nat -> action) (n : nat) : res (list result) :=
  runs e (fst (reset e (Some (length rows)) p rows)) (fun t idx => map (act t) idx) 0 n.

(** An execution of a single environment from a state *)
Definition single_run (e : env) (p : phys) (s : st) (act : nat -> action) (n : nat) : res (list result) :=
  runs e (fst (reset e None p [s])) (fun t _ => [act t]) 0 n.

(** A physics argument as documented: a positive number or an increasing pair of positive numbers *)
Definition valid_arg (a : marg) : Prop := match a with Number x => 0 < x | Range lo hi => 0 < lo < hi end.
Definition arg_min (a : marg) : R := match a with Number x => x | Range lo _ => lo end.
Definition arg_max (a : marg) : R := match a with Number x => x | Range _ hi => hi end.

(** Physics within the ranges given as arguments *)
Definition between (x : R) (a : marg) : Prop := arg_min a <= x <= arg_max a.
Definition in_ranges (a : args) (p : phys) : Prop :=
  between (p_pole_mass p) (a_pole_mass a) /\ between (p_pole_length p) (a_pole_length a) /\
  between (p_cart_mass p) (a_cart_mass a) /\ between (p_relative_force p) (a_relative_force a).

(** Equations of motion of a cart of mass [M] under a force [F] carrying a uniform pole of mass [m] and
    length [2 * l] (Florian, "Correct equations for the dynamics of the cart-pole system", without friction):
    [x2] and [w2] are the second derivatives of location and angle, [w] the angular velocity. *)
Definition motion (g M m l F angle w x2 w2 : R) : Prop :=
  (M + m) * x2 + m * l * (w2 * cos angle - w * w * sin angle) = F /\
  4 / 3 * l * w2 + x2 * cos angle = g * sin angle.

(** The sign of an action: push to the left, to the right or not at all *)
Definition push (a : action) : R := match a with Cont x => x | Disc 2%Z => 0 | Disc 1%Z => 1 | Disc _ => -1 end.

(** Mirror images *)
Definition mirror (s : st) : st := mkSt (- s_loc s) (- s_loc_vel s) (- s_angle s) (- s_angle_vel s).
Definition mirror_act (a : action) : action :=
  match a with Cont x => Cont (- x) | Disc 2%Z => Disc 2 | Disc 1%Z => Disc 0 | Disc _ => Disc 1 end.
Definition mirror_res (r : result) : result :=
  mkRes (r_indices r) (map (map Ropp) (r_states r)) (r_terminal r) (r_reward r).

(** An entry of a state lies within its declared bounds *)
Definition within (x : R) (b : option R) : Prop := match b with Some b => - b <= x <= b | None => True end.

(** Whether an execution has ended within its first [k] steps *)
Definition ended (rs : list result) (k : nat) : bool := existsb (fun r => existsb (fun b => b) (r_terminal r)) (firstn k rs).
