(** Adapters of simulators: Arcade Learning Environment, ViZDoom, PyGame Learning Environment, OpenSim, CARLA.

    Modelled: environments/arcade_learning_environment.py 59-60 and 97-117, vizdoom.py 90-145,
    pygame_learning_environment.py 92-129, open_sim.py 33-66, carla_environment.py 101-184, 215-271, 350-381.

    Simplified: a simulator is a transition system, given by any functions; screens are what a function makes of its
    state; rewards are rational numbers. *)

From Coq Require Import String List ZArith QArith Bool Arith Lia.
From Verif Require Import Base.
Import ListNotations.
Open Scope string_scope.
Open Scope list_scope.
Open Scope Z_scope.

(** l[i] of a tuple or list, negative from the end (arcade_learning_environment.py 105, vizdoom.py 133) *)
Definition index {X} (l : list X) (i : Z) : res X :=
  let n := Z.of_nat (length l) in
  let j := if i <? 0 then i + n else i in
  if (0 <=? j) && (j <? n) then match nth_error l (Z.to_nat j) with Some x => Ok x | None => Err "IndexError" end
  else Err "IndexError".

(** ** Arcade Learning Environment *)
(** The arguments kept by the constructor (arcade_learning_environment.py 59-60) *)
Record arcade := { life_loss_terminal : bool; life_loss_punishment : Q }.

Section Arcade.
Variables (G A : Type) (legal : list A) (reset_game : G -> G) (act : A -> G -> Q * G) (game_over : G -> bool) (lives : G -> Z).

(** The state of the game and self.lives (arcade_learning_environment.py 97-102) *)
Record playing := { game : G; counted : Z }.

(** ArcadeLearningEnvironment.reset (arcade_learning_environment.py 97-102) *)
Definition arcade_reset (g : G) : playing := let g := reset_game g in {| game := g; counted := lives g |}.

(** ArcadeLearningEnvironment.execute: terminal and reward (arcade_learning_environment.py 104-117) *)
Definition arcade_execute (c : arcade) (i : Z) (s : playing) : res (playing * (bool * Q)) :=
  do a <- index legal i;
  let '(reward, g) := act a (game s) in
  let terminal := game_over g in
  if lives g <? counted s then
    Ok ({| game := g; counted := lives g |},
        if life_loss_terminal c then (true, reward)
        else if negb (Qle_bool (life_loss_punishment c) 0) then (terminal, reward - life_loss_punishment c)%Q
        else (terminal, reward))
  else Ok ({| game := g; counted := counted s |}, (terminal, reward)).

(** Calls of execute one after the other (arcade_learning_environment.py 104-117) *)
Fixpoint arcade_run (c : arcade) (l : list Z) (s : playing) : res (list (bool * Q)) :=
  match l with
  | [] => Ok []
  | i :: q => do r <- arcade_execute c i s; do o <- arcade_run c q (fst r); Ok (snd r :: o)
  end.
End Arcade.
Arguments game {G}.
Arguments counted {G}.
Arguments Build_playing {G}.

(** ** ViZDoom *)
(** itertools.product([0, 1], repeat=n) (vizdoom.py 90-92) *)
Fixpoint product (n : nat) : list (list Z) :=
  match n with O => [[]] | S n => map (cons 0) (product n) ++ map (cons 1) (product n) end.

(** The actions which the agent gives: a number, or booleans (vizdoom.py 106-110) *)
Inductive doom_action := Number (i : Z) | Factored (l : list bool).

(** The buttons; a number for factored actions, or the other way round, is an error (vizdoom.py 130-133) *)
Definition buttons (factored : bool) (n : nat) (a : doom_action) : res (list Z) :=
  match factored, a with
  | true, Factored l => Ok (map (fun b : bool => if b then 1 else 0) l)
  | false, Number i => index (product n) i
  | _, _ => Err "TypeError"
  end.

Section Doom.
Variables (G V : Type) (new_episode : G -> G) (advance : list Z -> G -> Q * G) (make_action : list Z -> nat -> G -> Q * G)
          (finished : G -> bool) (get_states : G -> V).

(** The loop over advance_action and get_last_reward (vizdoom.py 136-139) *)
Fixpoint advances (b : list Z) (n : nat) (reward : Q) (g : G) : Q * G :=
  match n with O => (reward, g) | S n => let '(r, g) := advance b g in advances b n (reward + r)%Q g end.

(** The game and self.current_states (vizdoom.py 124-127) *)
Record doom := { doom_game : G; current : V }.

(** ViZDoom.reset (vizdoom.py 124-127) *)
Definition doom_reset (g : G) : doom := let g := new_episode g in {| doom_game := g; current := get_states g |}.

(** ViZDoom.execute (vizdoom.py 129-145) *)
Definition doom_execute (visualize factored : bool) (n frame_skip : nat) (a : doom_action) (s : doom) : res (doom * (V * bool * Q)) :=
  do b <- buttons factored n a;
  let '(reward, g) := if visualize then advances b frame_skip 0 (doom_game s) else make_action b frame_skip (doom_game s) in
  let terminal := finished g in
  let now := if negb terminal then get_states g else current s in
  Ok ({| doom_game := g; current := now |}, (now, terminal, reward)).

(** Calls of execute one after the other (vizdoom.py 129-145) *)
Fixpoint doom_run (visualize factored : bool) (n frame_skip : nat) (l : list doom_action) (s : doom) : res (list (V * bool * Q)) :=
  match l with
  | [] => Ok []
  | a :: q => do r <- doom_execute visualize factored n frame_skip a s; do o <- doom_run visualize factored n frame_skip q (fst r); Ok (snd r :: o)
  end.
End Doom.
Arguments doom_game {G V}.
Arguments current {G V}.
Arguments Build_doom {G V}.

(** ** PyGame Learning Environment *)
(** PyGameLearningEnvironment.states: the shapes, [dims]: of the screen, [state]: of the game state; the second is taken
    from a function instead of its result (pygame_learning_environment.py 92-104) *)
Definition ple_states (dims : list Z) (state : option (list Z)) : res (list (string * list Z)) :=
  match state with
  | Some _ => Err "TypeError"
  | None => Ok [("state", dims ++ [3])]
  end.

Section PyGame.
Variables (G A : Type) (set : list A) (reset_game : G -> G) (act : A -> G -> Q * G) (game_over : G -> bool).

(** PyGameLearningEnvironment.execute (pygame_learning_environment.py 123-129) *)
Definition ple_execute (i : Z) (g : G) : res (G * (bool * Q)) :=
  if game_over g then Err "unexpected"
  else
    do a <- index set i;
    let '(reward, g) := act a g in
    Ok (g, (game_over g, reward)).

(** Calls of execute (pygame_learning_environment.py 123-129) *)
Fixpoint ple_run (l : list Z) (g : G) : res (list (bool * Q)) :=
  match l with
  | [] => Ok []
  | i :: q => do r <- ple_execute i g; do o <- ple_run q (fst r); Ok (snd r :: o)
  end.
End PyGame.

(** ** OpenSim *)
(** The dictionary of environments (open_sim.py 44) *)
Definition sims : list (string * string) :=
  [("Arm2D", "Arm2DEnv"); ("L2M2019", "L2M2019Env"); ("LegacyArm", "ArmEnv"); ("LegacyRun", "RunEnv")].
(** OpenSim.levels (open_sim.py 34-35) *)
Definition sim_levels : list string := ["Arm2D"; "L2M2019"; "LegacyArm"; "LegacyRun"].
(** An object: its attributes (open_sim.py 46, environment.py 251-256) *)
Definition object := list (string * string).
(** An attribute of an object (open_sim.py 65) *)
Fixpoint attribute (k : string) (o : object) : res string :=
  match o with [] => Err "AttributeError" | (k', v) :: q => if String.eqb k k' then Ok v else attribute k q end.
(** environments[level] (open_sim.py 46) *)
Fixpoint lookup (k : string) (d : list (string * string)) : res string :=
  match d with [] => Err "KeyError" | (k', v) :: q => if String.eqb k k' then Ok v else lookup k q end.
(** The attributes set by Environment.__init__ (environment.py 249-256) *)
Definition base_object : object :=
  [("create", "staticmethod"); ("_expect_receive", "None"); ("_actions", "None"); ("_num_parallel", "None");
   ("_reset_output_check", "True"); ("_execute_output_check", "True")].
(** OpenSim.__init__ (open_sim.py 37-46) *)
Definition open_sim (level : string) : res object :=
  do e <- lookup level sims; Ok (("environment", e) :: base_object).
(** OpenSim.reset: of self.environment (open_sim.py 61-62) *)
Definition open_sim_reset (o : object) : res string := attribute "environment" o.
(** OpenSim.execute: self.env.step (open_sim.py 64-66) *)
Definition open_sim_execute (o : object) : res string := attribute "env" o.

(** ** CARLA *)
(** The control of the vehicle (carla_environment.py 371-381) *)
Record control := { throttle : Q; brake : Q; steer : Q; reverse : bool }.
(** CARLAEnvironment.actions_to_control (carla_environment.py 371-381) *)
Definition actions_to_control (a0 a1 a2 : Q) : control :=
  {| throttle := if negb (Qle_bool a0 0) then a0 else 0%Q;
     brake := if negb (Qle_bool 0 a0) then (- a0)%Q else 0%Q;
     steer := a1;
     reverse := negb (Qle_bool a2 0) |}.

(** [s] starts with [p] ("p in s", carla_environment.py 264, 267) *)
Fixpoint starts (p s : string) : bool :=
  match p, s with
  | EmptyString, _ => true
  | String a p, String b s => Ascii.eqb a b && starts p s
  | _, _ => false
  end.
(** p in s (carla_environment.py 264, 267) *)
Fixpoint contains (p s : string) : bool :=
  starts p s || match s with EmptyString => false | String _ s => contains p s end.
(** CARLAEnvironment.on_collision: the new penalty; the impulse is given (carla_environment.py 260-270) *)
Definition on_collision (actor : string) (impulse penalty : Q) : Q :=
  (if contains "pedestrian" actor then penalty + 1000 * impulse
   else if contains "vehicle" actor then penalty + 1000 / 2 * impulse
   else penalty + 1000 * impulse)%Q.
(** CARLAEnvironment.reward (carla_environment.py 158-168) *)
Definition carla_reward (speed limit penalty : Q) : Q :=
  let excess := if Qle_bool speed limit then 0%Q else (2 * (limit - speed))%Q in
  (-1 - penalty + excess)%Q.

(** What happens: a collision, a call of execute, with the speed and its limit after the tick, or a call of reset
    (carla_environment.py 148-184, 260-270) *)
Inductive event := Collision (actor : string) (impulse : Q) | Execute (speed limit : Q) | Reset.
(** The rewards of the calls of execute; collisions during a call come before its reward (carla_environment.py 170-184,
    260-270, 369) *)
Fixpoint carla_run (l : list event) (penalty : Q) : list Q :=
  match l with
  | [] => []
  | Collision actor impulse :: q => carla_run q (on_collision actor impulse penalty)
  | Execute speed limit :: q => carla_reward speed limit penalty :: carla_run q 0
  | Reset :: q => carla_run q 0
  end.

(** The attributes of a CARLA environment after its constructor; [render], [sensors]: whether sensors are given
    (carla_environment.py 101-137, 248-254) *)
Definition carla (render sensors : bool) : res object :=
  let o := [("vehicle", "None"); ("control", "None"); ("prev_actions", "None"); ("image_shape", "tuple"); ("tick_time", "float")] ++ base_object in
  let o := if render then [("window_size", "tuple"); ("font", "Font"); ("display", "Surface")] ++ o else o in
  do _ <- (if sensors then Ok "dict" else attribute "window_size" o);
  Ok (("sensors", "dict") :: ("sensors_spec", "dict") :: o).
(** CARLAEnvironment.reset, the choice of the spawn point (carla_environment.py 148-149, 350-355) *)
Definition carla_reset (soft : bool) (o : object) : res string :=
  if soft then attribute "spawn_point" o else Ok "random".

(** CARLAEnvironment.train: what the agent observes in one episode, the terminal flags; [ends i]: the environment is terminal
    after i timesteps (carla_environment.py 227-240) *)
Fixpoint train_loop (ends : nat -> bool) (max i : nat) (todo : nat) : list bool :=
  match todo with
  | O => []
  | S todo =>
      let terminal := ends (S i) || Nat.eqb (S i) max in
      if terminal then [true] else false :: train_loop ends max (S i) todo
  end.
(** One episode of train (carla_environment.py 215-240) *)
Definition train_episode (ends : nat -> bool) (max : nat) : list bool := train_loop ends max 0 max.
