(** Model of the environment CartPole: /repo/tensorforce/environments/cartpole.py 21-203.

    Floats are real numbers (the code mixes float32 and float64).  Random numbers are arguments of
    [reset].  Of the arguments of numpy arrays only the right number of actions is modelled:
    another number is an error here (numpy would repeat a single action). *)

From Coq Require Import String List ZArith Reals Bool.
From Verif Require Import Base ParModel.
Import ListNotations.
Open Scope R_scope.

(** A physics argument: a number or a tuple of two numbers, cartpole.py 29-33, 49-72 *)
Inductive marg := Number (x : R) | Range (lo hi : R).

(** Checks of a physics argument, cartpole.py 49-72 (the same four times) *)
Definition range_of (a : marg) : res (R * R) :=
  match a with
  | Range lo hi => do _ <- assert_ (Rltb 0 lo && Rltb lo hi) "AssertionError"; Ok (lo, hi)
  | Number x => do _ <- assert_ (Rltb 0 x) "AssertionError"; Ok (x, x)
  end.

(** One row of self._states: location, its velocity, angle, its velocity; cartpole.py 86-89, 165-169 *)
Record st := mkSt { s_loc : R; s_loc_vel : R; s_angle : R; s_angle_vel : R }.

(** The arguments of CartPole.__init__, cartpole.py 27-45 *)
Record args := mkArgs {
  a_pole_mass : marg; a_pole_length : marg; a_cart_mass : marg; a_relative_force : marg; a_gravity : R;
  a_velocities : bool; a_location : bool; a_max_angle : R; a_max_angle_velocity : R; a_max_velocity : R;
  a_timedelta : R; a_continuous : bool; a_noop : bool }.

(** The attributes set by CartPole.__init__, cartpole.py 51-118; the bound of the location is
    infinite ([None]) unless the location is part of the state (112-115). *)
Record env := mkEnv {
  e_pole_mass : R * R; e_pole_length : R * R; e_cart_mass : R * R; e_relative_force : R * R; e_gravity : R;
  e_velocities : bool; e_location : bool; e_initials : st;
  e_timedelta : R; e_continuous : bool; e_noop : bool;
  e_loc_bound : option R; e_loc_vel_bound : R; e_angle_bound : R; e_angle_vel_bound : R }.

(** max_angle_acc_in_zero and min_angle_acc_in_zero, cartpole.py 99-106; Python raises an error if
    the last divisor is zero (the others are positive here) *)
Definition max_angle_acc (force gravity cart pole_min pole_max length : R) : res R :=
  let divisor := 4 / 3 - pole_max / (cart + pole_min) in
  do _ <- assert_ (negb (Reqb divisor 0)) "ZeroDivisionError";
  Ok (force * gravity / (cart + pole_min) / length / divisor).
(** max_loc_acc_in_zero, cartpole.py 107-109 *)
Definition max_loc_acc (force gravity cart pole length angle_acc : R) : R :=
  (force * gravity - pole * length * angle_acc) / (cart + pole).

(** CartPole.__init__, cartpole.py 46-119 *)
Definition init (a : args) : res env :=
  do pole_mass <- range_of (a_pole_mass a);
  do pole_length <- range_of (a_pole_length a);
  do cart_mass <- range_of (a_cart_mass a);
  do relative_force <- range_of (a_relative_force a);
  do _ <- assert_ (Rltb 0 (a_gravity a)) "AssertionError";
  do _ <- assert_ (negb (a_continuous a) || a_noop a) "AssertionError";
  let angle_bound := PI / 4 in
  do max_angle <- max_angle_acc (snd relative_force) (a_gravity a) (fst cart_mass) (fst pole_mass) (snd pole_mass) (fst pole_length);
  do min_angle <- max_angle_acc (fst relative_force) (a_gravity a) (snd cart_mass) (snd pole_mass) (fst pole_mass) (snd pole_length);
  let max_loc := max_loc_acc (snd relative_force) (a_gravity a) (fst cart_mass) (fst pole_mass) (fst pole_length) min_angle in
  let angle_vel_bound := max_angle * a_timedelta a * 10 in
  let loc_vel_bound := max_loc * a_timedelta a * 10 in
  do _ <- assert_ (Rltb 0 loc_vel_bound && Rltb 0 angle_bound && Rltb 0 angle_vel_bound) "AssertionError";
  Ok {| e_pole_mass := pole_mass; e_pole_length := pole_length; e_cart_mass := cart_mass;
        e_relative_force := relative_force; e_gravity := a_gravity a;
        e_velocities := a_velocities a; e_location := a_location a;
        e_initials := mkSt 0 (a_max_velocity a) (a_max_angle a) (a_max_angle_velocity a);
        e_timedelta := a_timedelta a; e_continuous := a_continuous a; e_noop := a_noop a;
        e_loc_bound := if a_location a then Some loc_vel_bound else None;
        e_loc_vel_bound := loc_vel_bound; e_angle_bound := angle_bound; e_angle_vel_bound := angle_vel_bound |}.

(** self._states[:, self._state_indices], cartpole.py 76-85, 157-159, 201-203: angle, velocities, location *)
Definition observe (e : env) (s : st) : list R :=
  s_angle s :: (if e_velocities e then [s_angle_vel s; s_loc_vel s] else []) ++ (if e_location e then [s_loc s] else []).

(** The bounds declared by states(), cartpole.py 121-126: max_value, and min_value is its negation;
    [None] is infinity. *)
Definition bounds (e : env) : list (option R) :=
  Some (e_angle_bound e) :: (if e_velocities e then [Some (e_angle_vel_bound e); Some (e_loc_vel_bound e)] else [])
  ++ (if e_location e then [e_loc_bound e] else []).

(** actions(), cartpole.py 128-134: [None] for continuous actions, or the number of values *)
Definition num_actions (e : env) : option nat :=
  if e_continuous e then None else Some (if e_noop e then 3%nat else 2%nat).

(** The physics of an episode, cartpole.py 146-150 *)
Record phys := mkPhys { p_pole_mass : R; p_pole_length : R; p_cart_mass : R; p_relative_force : R }.

(** The random numbers of reset: physics drawn from the ranges and rows drawn from the initial ranges,
    cartpole.py 146-154 *)
Definition drawable (e : env) (p : phys) : Prop :=
  (fst (e_pole_mass e) <= p_pole_mass p <= snd (e_pole_mass e)) /\
  (fst (e_pole_length e) <= p_pole_length p <= snd (e_pole_length e)) /\
  (fst (e_cart_mass e) <= p_cart_mass p <= snd (e_cart_mass e)) /\
  (fst (e_relative_force e) <= p_relative_force p <= snd (e_relative_force e)).
(** cartpole.py 152-154 *)
Definition drawable_row (e : env) (s : st) : Prop :=
  (- s_loc (e_initials e) <= s_loc s <= s_loc (e_initials e)) /\
  (- s_loc_vel (e_initials e) <= s_loc_vel s <= s_loc_vel (e_initials e)) /\
  (- s_angle (e_initials e) <= s_angle s <= s_angle (e_initials e)) /\
  (- s_angle_vel (e_initials e) <= s_angle_vel s <= s_angle_vel (e_initials e)).

(** The attributes of an episode, cartpole.py 139-154: whether it is parallel, the indices of the
    rows left, physics and states *)
Record episode := mkEp { ep_parallel : bool; ep_indices : list nat; ep_phys : phys; ep_states : list st }.

(** reset, cartpole.py 139-159; [p] and [rows] are the random numbers drawn (one row if not parallel).
    Returned: the indices and the observations of all rows. *)
Definition reset (e : env) (num_parallel : option nat) (p : phys) (rows : list st) : episode * (list nat * list (list R)) :=
  let ep := mkEp (match num_parallel with Some _ => true | None => false end)
                 (seq 0 (match num_parallel with Some n => n | None => 1 end)) p rows in
  (ep, (ep_indices ep, map (observe e) rows)).

(** Actions: a number of an action, or a float; cartpole.py 128-134 *)
Inductive action := Disc (n : Z) | Cont (x : R).

(** Force before scaling, cartpole.py 171-175 *)
Definition force_of (a : action) : R :=
  match a with
  | Cont x => x
  | Disc n => if Z.eqb n 2 then 0 else if Z.eqb n 1 then 1 else -1
  end.

(** The derivative of the state, cartpole.py 176-189 *)
Definition deriv (e : env) (p : phys) (a : action) (s : st) : st :=
  let force := force_of a * (p_relative_force p * e_gravity e) in
  let total := p_cart_mass p + p_pole_mass p in
  let pml := p_pole_mass p * p_pole_length p in
  let bracket := (force + pml * s_angle_vel s * s_angle_vel s * sin (s_angle s)) / total in
  let denom := p_pole_length p * (4 / 3 - (p_pole_mass p * cos (s_angle s) * cos (s_angle s)) / total) in
  let angle_acc := (e_gravity e * sin (s_angle s) - cos (s_angle s) * bracket) / denom in
  let loc_acc := bracket - pml * angle_acc * cos (s_angle s) / total in
  mkSt (s_loc_vel s) loc_acc (s_angle_vel s) angle_acc.

(** One step of a row, cartpole.py 188-190 *)
Definition step (e : env) (p : phys) (a : action) (s : st) : st :=
  let d := deriv e p a s in
  mkSt (s_loc s + e_timedelta e * s_loc d) (s_loc_vel s + e_timedelta e * s_loc_vel d)
       (s_angle s + e_timedelta e * s_angle d) (s_angle_vel s + e_timedelta e * s_angle_vel d).

(** terminal of a row, cartpole.py 192-193 *)
Definition out (e : env) (s : st) : bool :=
  (match e_loc_bound e with Some b => Rltb b (Rabs (s_loc s)) | None => false end)
  || Rltb (e_loc_vel_bound e) (Rabs (s_loc_vel s)) || Rltb (e_angle_bound e) (Rabs (s_angle s))
  || Rltb (e_angle_vel_bound e) (Rabs (s_angle_vel s)).

(** The rows for which a mask is set: x[mask], cartpole.py 199-200 *)
Fixpoint masked {A} (l : list A) (m : list bool) : list A :=
  match l, m with
  | a :: l, b :: m => if b then a :: masked l m else masked l m
  | _, _ => []
  end.

(** What execute returns, cartpole.py 195-203: indices (if parallel), observations, terminals, rewards *)
Record result := mkRes { r_indices : list nat; r_states : list (list R); r_terminal : list bool; r_reward : list R }.

(** execute, cartpole.py 161-203.  The last component is the content of the argument [actions] afterwards:
    continuous actions are multiplied in place (173, 176). *)
Definition execute (e : env) (ep : episode) (actions : list action) : res (episode * result * list action) :=
  do _ <- assert_ (Nat.eqb (length actions) (length (ep_states ep))) "ValueError: shapes";
  let states := map (fun sa => step e (ep_phys ep) (snd sa) (fst sa)) (combine (ep_states ep) actions) in
  let terminal := map (out e) states in
  let reward := map (fun _ => 1) terminal in
  let actions' := if e_continuous e
                  then map (fun a => Cont (force_of a * (p_relative_force (ep_phys ep) * e_gravity e))) actions else actions in
  if ep_parallel ep then
    let indices := masked (ep_indices ep) (map negb terminal) in
    let left := masked states (map negb terminal) in
    Ok (mkEp true indices (ep_phys ep) left, mkRes indices (map (observe e) left) terminal reward, actions')
  else
    Ok (mkEp false (ep_indices ep) (ep_phys ep) states, mkRes (ep_indices ep) (map (observe e) states) terminal reward, actions').
