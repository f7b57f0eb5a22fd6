(** Theorems C170-C173: adapters of simulators. *)

From Coq Require Import String List ZArith QArith Bool Arith Lia Lqa.
From Verif Require Import Base AdaModel AdaSpec AdaProofs.
Import ListNotations.
Open Scope string_scope.
Open Scope list_scope.
Open Scope Z_scope.

(** ** C170: lives in the Arcade Learning Environment *)
Section Arcade.
Variables (G A : Type) (legal : list A) (reset_game : G -> G) (act : A -> G -> Q * G) (game_over : G -> bool) (lives : G -> Z).
Local Notation run := (arcade_run G A legal act game_over lives).
Local Notation reset := (arcade_reset G reset_game lives).

(** The flags and rewards of all calls after a reset: a loss is a number of lives below all since the reset *)
Theorem C170_steps c is l g rs gs :
  numbered legal is l -> played act (reset_game g) l rs gs ->
  exists outs, run c is (reset g) = Ok outs /\ length outs = length is /\
    forall i r h terminal reward, nth_error rs i = Some r -> nth_error gs i = Some h -> nth_error outs i = Some (terminal, reward) ->
      let loss := new_low lives (reset_game g :: gs) (S i) in
      (terminal = true <-> game_over h = true \/ (life_loss_terminal c = true /\ loss)) /\
      (loss /\ life_loss_terminal c = false /\ (0 < life_loss_punishment c)%Q -> reward = (r - life_loss_punishment c)%Q) /\
      (~ (loss /\ life_loss_terminal c = false /\ (0 < life_loss_punishment c)%Q) -> reward = r).
Proof.
  intros N P. destruct (run_ok G A legal act game_over lives c is l _ rs gs N P [reset_game g] (lives (reset_game g))) as (outs & R & L & F).
  { split; [intros h [<-|[]]; lia|]. exists (reset_game g). cbn; auto. }
  exists outs. split; [exact R|]. split; auto. intros i r h t q H1 H2 H3. exact (F i r h (t, q) H1 H2 H3).
Qed.

(** Without bonus lives these are exactly the steps in which a life is lost *)
Theorem C170_losses states i g h : no_bonus lives states -> nth_error states i = Some g -> nth_error states (S i) = Some h ->
  (new_low lives states (S i) <-> lives h < lives g).
Proof. apply low_step. Qed.

(** Each life costs the punishment exactly once *)
Theorem C170_total c is l g rs gs outs :
  numbered legal is l -> played act (reset_game g) l rs gs ->
  life_loss_terminal c = false -> (0 < life_loss_punishment c)%Q -> no_bonus lives (reset_game g :: gs) ->
  (forall i x y, nth_error (reset_game g :: gs) i = Some x -> nth_error (reset_game g :: gs) (S i) = Some y -> lives x - 1 <= lives y) ->
  run c is (reset g) = Ok outs ->
  (total (map snd outs) == total rs - inject_Z (lives (reset_game g) - lives (last gs (reset_game g))) * life_loss_punishment c)%Q.
Proof. intros. eapply total_ok; eauto. Qed.

(** Actions are counted from the start, negative ones from the end; all others are errors *)
Theorem C170_actions i a : index legal i = Ok a <->
  (0 <= i /\ nth_error legal (Z.to_nat i) = Some a) \/
  (- Z.of_nat (length legal) <= i < 0 /\ nth_error legal (Z.to_nat (i + Z.of_nat (length legal))) = Some a).
Proof. apply index_ok. Qed.

(** Negative values are documented as a penalty and positive ones as a reward, but the rewards of the game are never changed
    by values which are not positive *)
Theorem C170_negative_refuted p is l g rs gs :
  (p <= 0)%Q -> numbered legal is l -> played act (reset_game g) l rs gs ->
  exists outs, run {| life_loss_terminal := false; life_loss_punishment := p |} is (reset g) = Ok outs /\
    length outs = length is /\ forall i r o, nth_error rs i = Some r -> nth_error outs i = Some o -> snd o = r.
Proof.
  intros Hp N P. destruct (C170_steps {| life_loss_terminal := false; life_loss_punishment := p |} is l g rs gs N P) as (outs & R & L & F).
  exists outs. split; auto. split; auto. intros i r (t, q) H1 H2.
  assert (X : exists h, nth_error gs i = Some h).
  { clear - P H1. revert i H1. induction P; intros [|i]; cbn; try discriminate; eauto. }
  destruct X as (h & X). destruct (F i r h t q H1 X H2) as (_ & _ & Y). apply Y. cbn. intros (_ & _ & H). lra.
Qed.
End Arcade.

(** A game: the state is the number of lives; actions change it, the reward is 1; it ends without lives *)
Definition toy (a : Z) (g : Z) : Q * Z := (1%Q, g + a).
Definition toy_over (g : Z) : bool := g <=? 0.
Definition toy_run c is := arcade_run Z Z [0; -1; 1] toy toy_over (fun g => g) c is (arcade_reset Z (fun _ => 3) (fun g => g) 0).

(** After a bonus life the loss of a life is not noticed *)
Theorem C170_bonus_refuted : exists is outs,
  toy_run {| life_loss_terminal := true; life_loss_punishment := 0 |} is = Ok outs /\ is = [2; 1] /\ map fst outs = [false; false].
Proof. exists [2; 1]. eexists. split; [vm_compute; reflexivity|]. split; reflexivity. Qed.

Example C170_steps_example :
  toy_run {| life_loss_terminal := false; life_loss_punishment := 10 |} [1; 0; 1; -2] = Ok [(false, 1 - 10); (false, 1); (false, 1 - 10); (true, 1 - 10)]%Q /\
  numbered [0; -1; 1] [1; 0; 1] [-1; 0; -1] /\ played toy 3 [-1; 0; -1] [1; 1; 1]%Q [2; 2; 1] /\
  toy_run {| life_loss_terminal := true; life_loss_punishment := 10 |} [1; 0] = Ok [(true, 1); (false, 1)]%Q.
Proof.
  split; [reflexivity|]. split; [repeat (constructor; [lia|reflexivity|]); constructor|]. split; [|reflexivity].
  repeat (econstructor; [reflexivity|]). constructor.
Qed.
Example C170_losses_example : no_bonus (fun g : Z => g) [3; 2; 2; 1].
Proof. intros [|[|[|[|i]]]] g h; cbn; intros H1 H2; try discriminate; injection H1 as <-; try injection H2 as <-; try lia. Qed.

(** ** C171: actions and observations of ViZDoom *)
(** The numbers 0 to 2^n - 1 are exactly the combinations of buttons *)
Theorem C171_numbers n :
  Z.of_nat (length (product n)) = 2 ^ Z.of_nat n /\
  forall i l, nth_error (product n) i = Some l <-> length l = n /\ Forall bit l /\ binary l = Z.of_nat i.
Proof. split; [apply product_length|apply product_nth]. Qed.

Section Doom.
Variables (G V : Type) (new_episode : G -> G) (advance : list Z -> G -> Q * G) (make_action : list Z -> nat -> G -> Q * G)
          (finished : G -> bool) (get_states : G -> V).
Local Notation execute := (doom_execute G V advance make_action finished get_states).

(** Each factored action has a number with the same effect *)
Theorem C171_factored visualize n skip l s : length l = n ->
  execute visualize false n skip (Number (binary (map (fun b : bool => if b then 1 else 0) l))) s = execute visualize true n skip (Factored l) s.
Proof. intros L. unfold doom_execute. assert (B := buttons_same n l L). unfold pressed in B. rewrite B. reflexivity. Qed.

(** If make_action repeats the action, a visualized game is the same *)
Theorem C171_visualized f n skip a s s1 o1 t1 r1 :
  (forall b k g q g', frames advance b k g q g' -> exists q', make_action b k g = (q', g') /\ (q' == q)%Q) ->
  execute true f n skip a s = Ok (s1, (o1, t1, r1)) ->
  exists r2, execute false f n skip a s = Ok (s1, (o1, t1, r2)) /\ (r1 == r2)%Q.
Proof.
  intros M E. unfold doom_execute in *. apply bind_inv in E. destruct E as (b & B & E). rewrite B. cbn [bind].
  destruct (advances G advance b skip 0 (doom_game s)) as (q, g) eqn:D. apply advances_ok in D. destruct D as (r & F & Q).
  destruct (M _ _ _ _ _ F) as (q' & -> & Q'). injection E as <- <- <- <-. exists q'. split; [reflexivity|]. rewrite Q, Q'. lra.
Qed.

(** The game goes on with the given buttons, terminal is the end of the game, the observation is that of the last state which
    was not finished *)
Theorem C171_run v f n skip l g outs :
  doom_run G V advance make_action finished get_states v f n skip l (doom_reset G V new_episode get_states g) = Ok outs ->
  exists bs rs gs, Forall2 (fun a b => buttons f n a = Ok b) l bs /\
    played (fun b g => if v then advances G advance b skip 0 g else make_action b skip g) (new_episode g) bs rs gs /\ length outs = length l /\
    forall i o terminal reward, nth_error outs i = Some (o, terminal, reward) ->
      nth_error rs i = Some reward /\ (exists h, nth_error gs i = Some h /\ terminal = finished h) /\
      forall k h, last_running finished (new_episode g :: gs) (S i) k -> nth_error (new_episode g :: gs) k = Some h -> o = get_states h.
Proof.
  intros R. destruct (run_doom G V advance make_action finished get_states v f n skip l _ _ outs R [new_episode g] 0%nat) as (bs & rs & gs & H1 & H2 & H3 & H4).
  - reflexivity.
  - exists 0%nat, (new_episode g). split; [|auto]. split; [lia|]. split; [exists (new_episode g); auto|]. intros; lia.
  - exists bs, rs, gs. split; auto. split; [exact H2|]. split; auto. intros i o t q H. destruct (H4 i o t q H) as (X1 & X2 & k & h & X3 & X4 & X5).
    split; auto. split; auto. intros k' h' Y1 Y2. cbn [app plus] in X3, X4.
    rewrite (last_running_fun _ _ _ _ _ _ X3 Y1) in X4. congruence.
Qed.
End Doom.

(** A game which counts frames with pressed buttons and ends after 3 *)
Definition doom_toy (b : list Z) (g : Z) : Q * Z := (inject_Z (fold_right Z.add 0 b), g + 1).
Example C171_example :
  product 2 = [[0; 0]; [0; 1]; [1; 0]; [1; 1]] /\ binary [1; 1; 0] = 6 /\
  doom_run Z Z doom_toy (fun b k g => advances Z doom_toy b k 0 g) (fun g => 3 <=? g) (fun g => g) true false 2 2 [Number 3; Number 1]
    (doom_reset Z Z (fun _ => 0) (fun g => g) 7) = Ok [(2%Z, false, 0 + inject_Z 2 + inject_Z 2)%Q; (2%Z, true, 0 + inject_Z 1 + inject_Z 1)%Q] /\
  last_running (fun g => 3 <=? g) [0; 2; 4] 2 1.
Proof.
  split; [reflexivity|]. split; [reflexivity|]. split; [reflexivity|]. split; [lia|]. split; [exists 2; cbn; auto|].
  intros [|[|[|j]]] g H; cbn; intros E; try lia. injection E as <-. reflexivity.
Qed.
Example C171_visualized_example : forall b k g q g', frames doom_toy b k g q g' ->
  exists q', advances Z doom_toy b k 0 g = (q', g') /\ (q' == q)%Q.
Proof.
  assert (H : forall b k g q g', frames doom_toy b k g q g' -> forall x, exists q', advances Z doom_toy b k x g = (q', g') /\ (q' == x + q)%Q).
  { intros b k g q g'. induction 1 as [|n g r g1 q g2 E F IH]; intros x; cbn [advances].
    - eexists. split; [reflexivity|]. lra.
    - rewrite E. destruct (IH (x + r)%Q) as (q' & -> & Q). eexists. split; [reflexivity|]. rewrite Q. lra. }
  intros b k g q g' F. destruct (H b k g q g' F 0%Q) as (q' & E & Q). exists q'. split; auto. rewrite Q. lra.
Qed.

(** ** C172: PyGame Learning Environment and OpenSim *)
Section PyGame.
Variables (G A : Type) (set : list A) (act : A -> G -> Q * G) (game_over : G -> bool).

(** Calls work exactly until the game is over; then a reset is required *)
Theorem C172_until_over is l g rs gs outs : numbered set is l -> played act g l rs gs ->
  (ple_run G A set act game_over is g = Ok outs <->
   outs = combine (map game_over gs) rs /\ forall i h, nth_error (g :: gs) i = Some h -> (i < length is)%nat -> game_over h = false).
Proof.
  intros N P. split.
  - intros R. assert (O : forall i h, nth_error (g :: gs) i = Some h -> (i < length is)%nat -> game_over h = false).
    { intros i h H L. destruct (game_over h) eqn:O; auto. destruct (ple_run_over G A set act game_over is l g rs gs i h N P H L O) as (e & E). congruence. }
    split; auto. rewrite (ple_run_ok G A set act game_over is l g rs gs N P O) in R. congruence.
  - intros (-> & O). eapply ple_run_ok; eauto.
Qed.
End PyGame.

Example C172_until_over_example :
  ple_run Z Z [0; -1; 1] toy toy_over [1; 1] 2 = Ok [(false, 1); (true, 1)]%Q /\ ple_run Z Z [0; -1; 1] toy toy_over [1; 1; 2] 2 = Err "unexpected" /\
  numbered [0; -1; 1] [1; 1] [-1; -1] /\ played toy 2 [-1; -1] [1; 1]%Q [1; 0].
Proof.
  split; [reflexivity|]. split; [reflexivity|]. split; [repeat (constructor; [lia|reflexivity|]); constructor|].
  repeat (econstructor; [reflexivity|]). constructor.
Qed.

(** Games with a game state have no states specification: states always raises an error; without, it is the screen *)
Theorem C172_states_refuted dims d : exists e, ple_states dims (Some d) = Err e.
Proof. cbn. eauto. Qed.
Theorem C172_states dims : ple_states dims None = Ok [("state", dims ++ [3])].
Proof. reflexivity. Qed.
Example C172_states_example : ple_states [64; 48] None = Ok [("state", [64; 48; 3])] /\ ple_states [64; 48] (Some [8]) = Err "TypeError".
Proof. split; reflexivity. Qed.

(** OpenSim accepts exactly its levels, and reset works for them *)
Theorem C172_levels level : (exists o, open_sim level = Ok o) <-> In level ["Arm2D"; "L2M2019"; "LegacyArm"; "LegacyRun"].
Proof.
  unfold open_sim, sims. cbn [lookup]. split.
  - intros (o & H). repeat match goal with |- context [In] => idtac end.
    destruct (String.eqb level "Arm2D") eqn:E1; [apply String.eqb_eq in E1; cbn; auto|].
    destruct (String.eqb level "L2M2019") eqn:E2; [apply String.eqb_eq in E2; cbn; auto|].
    destruct (String.eqb level "LegacyArm") eqn:E3; [apply String.eqb_eq in E3; cbn; auto|].
    destruct (String.eqb level "LegacyRun") eqn:E4; [apply String.eqb_eq in E4; cbn; auto|]. discriminate.
  - intros [<-|[<-|[<-|[<-|[]]]]]; cbn; eauto.
Qed.
Theorem C172_reset level o : open_sim level = Ok o -> sim_levels = ["Arm2D"; "L2M2019"; "LegacyArm"; "LegacyRun"] /\ exists e, open_sim_reset o = Ok e.
Proof. unfold open_sim. intros H. split; [reflexivity|]. apply bind_inv in H. destruct H as (e & _ & H). injection H as <-. exists e. reflexivity. Qed.
(** Documented levels are rejected *)
Theorem C172_levels_refuted : exists e, open_sim "L2Run" = Err e /\ open_sim "Prosthetics" = Err e.
Proof. eexists. split; reflexivity. Qed.
(** No environment can be executed: the attribute has another name *)
Theorem C172_execute_refuted level o : open_sim level = Ok o -> exists e, open_sim_execute o = Err e.
Proof. unfold open_sim. intros H. apply bind_inv in H. destruct H as (e & _ & H). injection H as <-. cbn. eauto. Qed.
Example C172_levels_example : exists o, open_sim "L2M2019" = Ok o /\ open_sim_reset o = Ok "L2M2019Env" /\ open_sim_execute o = Err "AttributeError".
Proof. eexists. split; [reflexivity|]. split; reflexivity. Qed.

(** ** C173: CARLA *)
(** Throttle and brake exclude each other, are within their bounds and together determine the action; reverse and steering *)
Theorem C173_control a0 a1 a2 : let c := actions_to_control a0 a1 a2 in
  (throttle c == 0 \/ brake c == 0)%Q /\ (0 <= throttle c)%Q /\ (0 <= brake c)%Q /\ (throttle c - brake c == a0)%Q /\ steer c = a1 /\
  (reverse c = true <-> (0 < a2)%Q) /\ (-1 <= a0 -> a0 <= 1 -> throttle c <= 1 /\ brake c <= 1)%Q.
Proof.
  cbn [actions_to_control throttle brake steer reverse].
  assert (R : negb (Qle_bool a2 0) = true <-> (0 < a2)%Q).
  { rewrite negb_true_iff, <- not_true_iff_false, Qle_bool_iff. split; intros H; [apply Qnot_le_lt|apply Qlt_not_le]; auto. }
  destruct (Qle_bool a0 0) eqn:E1; destruct (Qle_bool 0 a0) eqn:E2; cbn [negb].
  - apply Qle_bool_iff in E1. apply Qle_bool_iff in E2. repeat split; try apply R; try lra; left; lra.
  - apply Qle_bool_iff in E1. rewrite <- not_true_iff_false, Qle_bool_iff in E2. apply Qnot_le_lt in E2. repeat split; try apply R; try lra; left; lra.
  - apply Qle_bool_iff in E2. rewrite <- not_true_iff_false, Qle_bool_iff in E1. apply Qnot_le_lt in E1. repeat split; try apply R; try lra; right; lra.
  - rewrite <- not_true_iff_false, Qle_bool_iff in E1, E2. apply Qnot_le_lt in E1. apply Qnot_le_lt in E2. lra.
Qed.

(** Actors are told apart by a part of their type *)
Theorem C173_actors p s : contains p s = true <-> exists a b, s = (a ++ p ++ b)%string.
Proof. apply contains_iff. Qed.

(** The reward of a call counts exactly the collisions since the last call of execute or reset *)
Theorem C173_reward pre e cs speed limit post p : e = Reset \/ (exists s l, e = Execute s l) -> Forall collision cs ->
  exists reward, carla_run (pre ++ e :: cs ++ Execute speed limit :: post) p = carla_run (pre ++ [e]) p ++ reward :: carla_run post 0 /\
    (reward == -1 - penalties cs - 2 * excess speed limit)%Q.
Proof.
  intros E C. destruct (run_collisions cs speed limit post 0 C) as (q & H & Q). exists q. rewrite run_before by auto. rewrite H. split; auto.
  rewrite Q. lra.
Qed.

(** In an episode each collision counts exactly once *)
Theorem C173_total l speed limit : (forall e, In e l -> e <> Reset) ->
  (total (carla_run (l ++ [Execute speed limit]) 0) ==
     - inject_Z (calls (l ++ [Execute speed limit])) - penalties l - 2 * excesses (l ++ [Execute speed limit]))%Q.
Proof. intros N. rewrite run_total by auto. lra. Qed.

(** The agent observes exactly one terminal, at the end of the episode: at the first terminal of the environment or the limit *)
Theorem C173_train ends max : (0 < max)%nat ->
  exists k, train_episode ends max = repeat false k ++ [true] /\ (k < max)%nat /\
    (forall j, (1 <= j <= k)%nat -> ends j = false) /\ (ends (S k) = true \/ S k = max).
Proof.
  intros P. destruct (train_ok ends max 0 max ltac:(lia) P) as (k & H1 & H2 & H3 & H4). exists k. split; [exact H1|]. split; auto.
  split; [|exact H4]. intros [|j] J; [lia|]. apply (H3 j). lia.
Qed.

(** A soft reset never works, whatever the arguments *)
Theorem C173_soft_refuted render sensors o : carla render sensors = Ok o -> exists e, carla_reset true o = Err e.
Proof. destruct render, sensors; cbn; intros H; try discriminate; injection H as <-; cbn; eauto. Qed.
(** Without rendering there is no environment with the default sensors *)
Theorem C173_render_refuted : exists e, carla false false = Err e.
Proof. cbn. eauto. Qed.
(** In all other cases there is, and it can be reset *)
Theorem C173_constructed render sensors : render = true \/ sensors = true -> exists o, carla render sensors = Ok o /\ exists s, carla_reset false o = Ok s.
Proof. intros H. destruct render, sensors; cbn; eauto. destruct H; discriminate. Qed.

Example C173_control_example : throttle (actions_to_control (1 # 2) 0 1) = (1 # 2)%Q /\ brake (actions_to_control (- 1 # 2) 0 0) = (1 # 2)%Q.
Proof. split; reflexivity. Qed.
Example C173_reward_example :
  map Qred (carla_run [Collision "vehicle.audi" 2; Reset; Collision "vehicle.audi" 2; Collision "static.pole" 1; Execute 60 50; Execute 40 50] 0) =
    [-2021; -1]%Q /\ contains "vehicle" "my.vehicle.audi" = true /\ Forall collision [Collision "vehicle.audi" 2; Collision "static.pole" 1].
Proof. split; [reflexivity|]. split; [reflexivity|]. repeat constructor. Qed.
Example C173_train_example : train_episode (fun i => Nat.eqb i 3) 5 = [false; false; true] /\ train_episode (fun _ => false) 2 = [false; true].
Proof. split; reflexivity. Qed.
Example C173_constructed_example : exists o, carla true false = Ok o /\ carla_reset true o = Err "AttributeError".
Proof. eexists. split; reflexivity. Qed.

Print Assumptions C170_steps.
Print Assumptions C170_losses.
Print Assumptions C170_total.
Print Assumptions C170_actions.
Print Assumptions C170_negative_refuted.
Print Assumptions C170_bonus_refuted.
Print Assumptions C171_numbers.
Print Assumptions C171_factored.
Print Assumptions C171_visualized.
Print Assumptions C171_run.
Print Assumptions C172_until_over.
Print Assumptions C172_states_refuted.
Print Assumptions C172_states.
Print Assumptions C172_levels.
Print Assumptions C172_reset.
Print Assumptions C172_levels_refuted.
Print Assumptions C172_execute_refuted.
Print Assumptions C173_control.
Print Assumptions C173_actors.
Print Assumptions C173_reward.
Print Assumptions C173_total.
Print Assumptions C173_train.
Print Assumptions C173_soft_refuted.
Print Assumptions C173_render_refuted.
Print Assumptions C173_constructed.
