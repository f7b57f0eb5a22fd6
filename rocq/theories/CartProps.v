(** Theorems about CartPole (C121-C127). *)

From Coq Require Import String List ZArith Reals Bool Lia Lra Psatz.
From Verif Require Import Base ParModel CartModel CartSpec CartProofs.
Import ListNotations.
Open Scope R_scope.

(** A result to be used where there is none *)
Definition no_result : result := mkRes [] [] [] [].

Lemma nth_row : forall e p s act n t, (t < n)%nat ->
  nth t (map (row_result e p s act) (seq 0 n)) no_result = row_result e p s act t.
Proof.
  intros. rewrite (nth_indep _ no_result (row_result e p s act 0)) by (rewrite map_length, seq_length; assumption).
  rewrite map_nth, seq_nth by assumption. reflexivity.
Qed.

Lemma nth_par : forall e p rows act N n t, (t < n)%nat ->
  nth t (map (par_result e p rows act N) (seq 0 n)) no_result = par_result e p rows act N t.
Proof.
  intros. rewrite (nth_indep _ no_result (par_result e p rows act N 0)) by (rewrite map_length, seq_length; assumption).
  rewrite map_nth, seq_nth by assumption. reflexivity.
Qed.

Lemma firstn_seq : forall k n, (k <= n)%nat -> firstn k (seq 0 n) = seq 0 k.
Proof.
  intros k n H. replace n with (k + (n - k))%nat by lia. rewrite seq_app, firstn_app, seq_length.
  rewrite firstn_all2 by (rewrite seq_length; lia). replace (k - k)%nat with 0%nat by lia. cbn. apply app_nil_r.
Qed.

Lemma ended_eq : forall e p rows act n i k, (k <= n)%nat ->
  negb (ended (map (row_result e p (rows i) (fun t => act t i)) (seq 0 n)) k) = left_at e p rows act k i.
Proof.
  intros e p rows act n i k H. unfold ended, left_at. rewrite firstn_map, firstn_seq by exact H.
  generalize (seq 0 k). induction l as [| u l IH]; [reflexivity |].
  cbn [map existsb forallb]. rewrite negb_orb, IH. f_equal.
  cbn [row_result r_terminal existsb]. rewrite orb_false_r. reflexivity.
Qed.

Lemma flat_map_one : forall A B (f : A -> list B) (g : A -> B) l, (forall x, f x = [g x]) -> flat_map f l = map g l.
Proof. intros A B f g l H. induction l as [| x l IH]; [reflexivity |]. cbn. rewrite H, IH. reflexivity. Qed.

(** An environment with all physics equal to one *)
Definition ones (velocities location : bool) (max_angle max_velocity : R) (continuous : bool) : args :=
  mkArgs (Number 1) (Number 1) (Number 1) (Number 1) 1 velocities location max_angle 0 max_velocity 1 continuous true.

Lemma ones_ok : forall v l m mv c, ok_args (ones v l m mv c).
Proof. intros. unfold ok_args, ones. cbn. repeat split; try lra; auto. Qed.

Lemma ones_init : forall v l m mv c, init (ones v l m mv c) = Ok (made (ones v l m mv c)) /\
  loc_acc0 (ones v l m mv c) = 1 / 5 /\ angle_acc0 (ones v l m mv c) = 3 / 5.
Proof.
  intros.
  assert (HL : loc_acc0 (ones v l m mv c) = 1 / 5) by (unfold loc_acc0, pmin, pmax, lmin, lmax, cmin, cmax, fmin, fmax, ones; cbn; lra).
  assert (HA : angle_acc0 (ones v l m mv c) = 3 / 5) by (unfold angle_acc0, pmin, pmax, lmin, lmax, cmin, cmax, fmin, fmax, ones; cbn; lra).
  split; [| split; assumption].
  apply init_ok_rev; [apply ones_ok | | rewrite HL; cbn; lra | rewrite HA; cbn; lra].
  unfold pmin, pmax, cmin, ones; cbn. lra.
Qed.

(** C121: a parallel environment is as many single environments: step [t] returns the indices of the rows whose
    single execution has not ended, their states, and for every row left before the step its terminal and reward. *)
Theorem C121_parallel_is_single : forall e p rows act n d,
  exists results (singles : nat -> list result),
    parallel_run e p rows act n = Ok results /\ length results = n /\
    (forall i, single_run e p (nth i rows d) (fun t => act t i) n = Ok (singles i) /\ length (singles i) = n) /\
    forall t, (t < n)%nat ->
      let r := nth t results no_result in
      let before := filter (fun i => negb (ended (singles i) t)) (seq 0 (length rows)) in
      r_indices r = filter (fun i => negb (ended (singles i) (S t))) (seq 0 (length rows)) /\
      r_states r = flat_map (fun i => r_states (nth t (singles i) no_result)) (r_indices r) /\
      r_terminal r = flat_map (fun i => r_terminal (nth t (singles i) no_result)) before /\
      r_reward r = flat_map (fun i => r_reward (nth t (singles i) no_result)) before.
Proof.
  intros e p rows act n d.
  exists (map (par_result e p (fun i => nth i rows d) act (length rows)) (seq 0 n)),
         (fun i => map (row_result e p (nth i rows d) (fun t => act t i)) (seq 0 n)).
  split; [apply parallel_run_eq |]. split; [now rewrite map_length, seq_length |].
  split; [intro i; split; [apply single_run_eq | now rewrite map_length, seq_length] |].
  intros t Ht. cbv zeta. rewrite nth_par by exact Ht. unfold par_result. cbn [r_indices r_states r_terminal r_reward].
  rewrite (filter_ext_all _ _ _ (seq 0 (length rows)) (fun i => ended_eq e p (fun i => nth i rows d) act n i t (Nat.lt_le_incl _ _ Ht))).
  rewrite (filter_ext_all _ _ _ (seq 0 (length rows)) (fun i => ended_eq e p (fun i => nth i rows d) act n i (S t) Ht)).
  split; [reflexivity |]. repeat split; symmetry; apply flat_map_one; intro i; rewrite nth_row by exact Ht; reflexivity.
Qed.

(** Non-trivial case: of two rows the first starts too fast and ends at once, the second stays at rest. *)
Lemma rest_stays : forall e p t, traj e p (mkSt 0 0 0 0) (fun _ => Disc 2) t = mkSt 0 0 0 0.
Proof.
  intros e p. induction t as [| t IH]; [reflexivity |]. cbn [traj]. rewrite IH. unfold step, deriv. cbn. rewrite sin_0, cos_0.
  f_equal; unfold Rdiv; ring.
Qed.

Example C121_parallel_is_single_example : exists rs,
  parallel_run (made (ones true false 0 3 false)) (mkPhys 1 1 1 1) [mkSt 0 3 0 0; mkSt 0 0 0 0] (fun _ _ => Disc 2) 2 = Ok rs /\
  map r_indices rs = [[1%nat]; [1%nat]] /\ map r_terminal rs = [[true; false]; [false]] /\ map r_reward rs = [[1; 1]; [1]].
Proof.
  set (e := made _). set (p := mkPhys 1 1 1 1). destruct (ones_init true false 0 3 false) as (H & HL & HA).
  rewrite (parallel_run_eq e p _ _ 2 (mkSt 0 0 0 0)). eexists. split; [reflexivity |].
  assert (H0 : out e (traj e p (mkSt 0 3 0 0) (fun _ => Disc 2) 1) = true).
  { unfold out. replace (s_loc_vel _) with 3 by (cbn; rewrite sin_0, cos_0; lra).
    rewrite (proj2 (Rltb_lt (e_loc_vel_bound e) (Rabs 3))); [rewrite orb_true_r; reflexivity |].
    unfold e. cbn [made e_loc_vel_bound]. rewrite HL. cbn. rewrite Rabs_right; lra. }
  assert (H1 : forall t, out e (traj e p (mkSt 0 0 0 0) (fun _ => Disc 2) t) = false).
  { intro t. rewrite rest_stays. unfold out. cbn [s_loc s_loc_vel s_angle s_angle_vel]. rewrite Rabs_R0.
    unfold e. cbn [made e_loc_bound e_loc_vel_bound e_angle_bound e_angle_vel_bound ones a_location]. rewrite HL, HA. cbn [ones a_timedelta].
    rewrite !orb_false_iff. pose proof PI_RGT_0. repeat split; apply Rltb_ge; lra. }
  cbn [map seq length]. unfold par_result, left_at.
  cbn [seq filter forallb nth r_indices r_terminal r_reward]. rewrite H0, !H1. cbn. fold e p.
  change (step e p (Disc 2) (mkSt 0 3 0 0)) with (traj e p (mkSt 0 3 0 0) (fun _ => Disc 2) 1).
  change (step e p (Disc 2) (mkSt 0 0 0 0)) with (traj e p (mkSt 0 0 0 0) (fun _ => Disc 2) 1).
  rewrite ?H0, ?H1. cbn.
  repeat split. exact (f_equal (fun b => [[true; false]; [b]]) (H1 2%nat)).
Qed.

(** C121: every single step gives one state, one terminal and the reward one; it goes on after the end. *)
Theorem C121_single_step : forall e p s act n, exists rs, single_run e p s act n = Ok rs /\ length rs = n /\
  forall r, In r rs -> exists o b, r_states r = [o] /\ r_terminal r = [b] /\ r_reward r = [1] /\ length o = length (bounds e).
Proof.
  intros e p s act n. eexists. split; [apply single_run_eq |]. split; [now rewrite map_length, seq_length |].
  intros r Hr. apply in_map_iff in Hr. destruct Hr as (t & <- & _).
  do 2 eexists. repeat split.
  unfold observe, bounds. destruct (e_velocities e), (e_location e); reflexivity.
Qed.

(** C122: every state returned by a parallel environment, and every state of a single environment that is not
    terminal, lies within the declared bounds. *)
Theorem C122_states_within : forall e p rows act n results,
  parallel_run e p rows act n = Ok results -> forall r o, In r results -> In o (r_states r) -> Forall2 within o (bounds e).
Proof.
  intros e p rows act n results H r o Hr Ho.
  rewrite (parallel_run_eq e p rows act n (mkSt 0 0 0 0)) in H. injection H as <-.
  apply in_map_iff in Hr. destruct Hr as (t & <- & _). cbn [par_result r_states] in Ho.
  apply in_map_iff in Ho. destruct Ho as (i & <- & Hi).
  apply filter_In in Hi. destruct Hi as [_ Hi]. rewrite left_S in Hi. apply andb_prop in Hi. destruct Hi as [_ Hi].
  apply observe_within. apply negb_true_iff in Hi. exact Hi.
Qed.

Lemma within_abs : forall x b, - b <= x <= b -> Rabs x <= b.
Proof. intros x b H. unfold Rabs. destruct (Rcase_abs x); lra. Qed.

(** C122: with velocities in the state, a single environment reports the end exactly if the state returned is not
    within the declared bounds. *)
Theorem C122_terminal_iff : forall a e p s act n rs,
  init a = Ok e -> a_velocities a = true -> single_run e p s act n = Ok rs ->
  forall r o, In r rs -> In o (r_states r) -> (r_terminal r = [false] <-> Forall2 within o (bounds e)).
Proof.
  intros a e p s act n rs Ha Hv H r o Hr Ho.
  apply init_ok in Ha. destruct Ha as (_ & -> & _).
  rewrite single_run_eq in H. injection H as <-.
  apply in_map_iff in Hr. destruct Hr as (t & <- & _). cbn [row_result r_states r_terminal] in *.
  destruct Ho as [<- | []]. set (x := traj _ _ _ _ _). clearbody x. split.
  - intro H. injection H as H. apply observe_within. exact H.
  - intro H. f_equal. unfold observe, bounds in H. cbn [made e_velocities e_location e_loc_bound e_loc_vel_bound e_angle_bound e_angle_vel_bound] in H.
    rewrite Hv in H. inversion H as [| ? ? ? ? H1 H2]; subst. inversion H2 as [| ? ? ? ? H3 H4]; subst.
    inversion H4 as [| ? ? ? ? H5 H6]; subst. cbn [within] in H1, H3, H5.
    unfold out. cbn [made e_loc_bound e_loc_vel_bound e_angle_bound e_angle_vel_bound]. rewrite !orb_false_iff.
    repeat split; try (apply Rltb_ge, within_abs; assumption).
    destruct (a_location a); [| reflexivity].
    inversion H6 as [| ? ? ? ? H7 H8]; subst. apply Rltb_ge, within_abs. exact H7.
Qed.

(** C122 is false of the state returned first and of the last state of a single environment: a drawn initial state
    can be outside of the declared bounds, and so is the state with which an episode ends. *)
Theorem C122_initial_state_refuted : exists a e p s o,
  init a = Ok e /\ drawable e p /\ drawable_row e s /\ snd (snd (reset e None p [s])) = [o] /\ ~ Forall2 within o (bounds e).
Proof.
  exists (ones true false 2 0 false), (made (ones true false 2 0 false)), (mkPhys 1 1 1 1), (mkSt 0 0 2 0).
  eexists. destruct (ones_init true false 2 0 false) as (H & HL & HA).
  split; [exact H |]. repeat split; cbn; try lra.
  intro C. inversion C as [| ? ? ? ? C1 C2]; subst. cbn in C1. pose proof PI_4. lra.
Qed.

Theorem C122_terminal_state_refuted : exists a e p s act rs o,
  init a = Ok e /\ drawable e p /\ drawable_row e s /\ single_run e p s act 1 = Ok rs /\
  flat_map r_states rs = [o] /\ flat_map r_terminal rs = [true] /\ ~ Forall2 within o (bounds e).
Proof.
  exists (ones true false 2 0 false), (made (ones true false 2 0 false)), (mkPhys 1 1 1 1), (mkSt 0 0 2 0), (fun _ => Disc 2).
  destruct (ones_init true false 2 0 false) as (H & HL & HA).
  set (e := made _) in *.
  assert (Hs : s_angle (traj e (mkPhys 1 1 1 1) (mkSt 0 0 2 0) (fun _ => Disc 2) 1) = 2) by (cbn; lra).
  assert (Hout : out e (traj e (mkPhys 1 1 1 1) (mkSt 0 0 2 0) (fun _ => Disc 2) 1) = true).
  { unfold out. rewrite Hs. rewrite (proj2 (Rltb_lt (e_angle_bound e) (Rabs 2))).
    - rewrite orb_true_r. reflexivity.
    - cbn. rewrite Rabs_right by lra. pose proof PI_4. lra. }
  do 2 eexists. split; [exact H |]. split; [repeat split; cbn; lra |]. split; [repeat split; cbn; lra |].
  split; [apply single_run_eq |].
  split; [reflexivity |]. split; [cbn [flat_map map seq row_result r_terminal app]; rewrite Hout; reflexivity |].
  intro C. unfold observe, bounds in C. inversion C as [| ? ? ? ? C1 C2]; subst.
  cbn in C1. pose proof PI_4. lra.
Qed.

(** C122 is false without velocities in the state: the episode can end although the state returned is within the bounds. *)
Theorem C122_hidden_end_refuted : exists a e p s act rs o,
  init a = Ok e /\ drawable e p /\ drawable_row e s /\ single_run e p s act 1 = Ok rs /\
  flat_map r_states rs = [o] /\ flat_map r_terminal rs = [true] /\ Forall2 within o (bounds e).
Proof.
  exists (ones false false 0 3 false), (made (ones false false 0 3 false)), (mkPhys 1 1 1 1), (mkSt 0 3 0 0), (fun _ => Disc 2).
  destruct (ones_init false false 0 3 false) as (H & HL & HA).
  set (e := made _) in *.
  assert (Hs : s_angle (traj e (mkPhys 1 1 1 1) (mkSt 0 3 0 0) (fun _ => Disc 2) 1) = 0) by (cbn; lra).
  assert (Hv : s_loc_vel (traj e (mkPhys 1 1 1 1) (mkSt 0 3 0 0) (fun _ => Disc 2) 1) = 3) by (cbn; rewrite sin_0, cos_0; lra).
  assert (Hout : out e (traj e (mkPhys 1 1 1 1) (mkSt 0 3 0 0) (fun _ => Disc 2) 1) = true).
  { unfold out. rewrite Hv. rewrite (proj2 (Rltb_lt (e_loc_vel_bound e) (Rabs 3))).
    - rewrite orb_true_r. reflexivity.
    - unfold e. cbn [made e_loc_vel_bound]. rewrite HL. cbn. rewrite Rabs_right; lra. }
  do 2 eexists. split; [exact H |]. split; [repeat split; cbn; lra |]. split; [repeat split; cbn; lra |].
  split; [apply single_run_eq |].
  split; [reflexivity |]. split; [cbn [flat_map map seq row_result r_terminal app]; rewrite Hout; reflexivity |].
  unfold observe, bounds. cbn [e made e_velocities e_location ones a_velocities a_location app].
  constructor; [| constructor]. rewrite Hs. cbn. pose proof PI_RGT_0. lra.
Qed.

(** C123: mirror images of states and actions give mirror images of all states and the same ends and rewards. *)
Theorem C123_mirror : forall e p rows act n, exists rs,
  parallel_run e p rows act n = Ok rs /\
  parallel_run e p (map mirror rows) (fun t i => mirror_act (act t i)) n = Ok (map mirror_res rs).
Proof.
  intros e p rows act n. set (d := mkSt 0 0 0 0).
  eexists. split; [apply (parallel_run_eq e p rows act n d) |].
  rewrite (parallel_run_eq e p (map mirror rows) _ n (mirror d)). rewrite map_length, map_map. f_equal.
  apply map_ext. intro t. rewrite <- par_mirror.
  unfold par_result. cbv zeta.
  assert (Hn : forall i, nth i (map mirror rows) (mirror d) = mirror (nth i rows d)) by (intro i; apply map_nth).
  unfold left_at. f_equal.
  - apply filter_ext. intro i. rewrite Hn. reflexivity.
  - rewrite (filter_ext_all _ _ (fun i => forallb (fun u => negb (out e (traj e p (mirror (nth i rows d)) (fun t0 => mirror_act (act t0 i)) (S u)))) (seq 0 (S t)))) by (intro i; rewrite Hn; reflexivity).
    apply map_ext. intro i. rewrite Hn. reflexivity.
  - rewrite (filter_ext_all _ _ (fun i => forallb (fun u => negb (out e (traj e p (mirror (nth i rows d)) (fun t0 => mirror_act (act t0 i)) (S u)))) (seq 0 t))) by (intro i; rewrite Hn; reflexivity).
    apply map_ext. intro i. rewrite Hn. reflexivity.
  - rewrite (filter_ext_all _ _ (fun i => forallb (fun u => negb (out e (traj e p (mirror (nth i rows d)) (fun t0 => mirror_act (act t0 i)) (S u)))) (seq 0 t))) by (intro i; rewrite Hn; reflexivity).
    reflexivity.
Qed.

(** Non-trivial case: a push turns the pole, and the mirrored push the other way. *)
Example C123_mirror_example :
  s_angle_vel (traj (made (ones true false 0 0 false)) (mkPhys 1 1 1 1) (mkSt 0 0 0 0) (fun _ => Disc 1) 1) = - (3 / 5) /\
  s_angle_vel (traj (made (ones true false 0 0 false)) (mkPhys 1 1 1 1) (mkSt 0 0 0 0) (fun _ => mirror_act (Disc 1)) 1) = 3 / 5.
Proof. cbn. rewrite sin_0, cos_0. split; lra. Qed.

(** C123: initial states are drawn symmetrically around rest, within the maxima given as arguments. *)
Theorem C123_initial_states : forall a e s, init a = Ok e ->
  (drawable_row e s <-> s_loc s = 0 /\ Rabs (s_loc_vel s) <= a_max_velocity a /\
                        Rabs (s_angle s) <= a_max_angle a /\ Rabs (s_angle_vel s) <= a_max_angle_velocity a).
Proof.
  intros a e s H. apply init_ok in H. destruct H as (_ & -> & _). unfold drawable_row. cbn [made e_initials s_loc s_loc_vel s_angle s_angle_vel].
  split.
  - intros (H1 & H2 & H3 & H4). repeat split; [lra | apply within_abs; lra ..].
  - intros (H1 & H2 & H3 & H4). apply abs_within in H2, H3, H4. repeat split; lra.
Qed.

(** C124: the physics drawn are the ones of the arguments. *)
Theorem C124_ranges : forall a e, init a = Ok e -> forall p, drawable e p <-> in_ranges a p.
Proof.
  intros a e H p. apply init_ok in H. destruct H as (_ & -> & _).
  unfold drawable, in_ranges, between. cbn. reflexivity.
Qed.

(** C124: one step of any row is an explicit Euler step of the equations of motion: there are accelerations
    satisfying the equations, they are the only ones, and the state moves by the time step times velocities and
    accelerations. *)
Theorem C124_motion : forall a e p ix s act ep r acts,
  init a = Ok e -> in_ranges a p -> execute e (mkEp false ix p [s]) [act] = Ok (ep, r, acts) ->
  exists x2 w2,
    (forall x2' w2',
       motion (a_gravity a) (p_cart_mass p) (p_pole_mass p) (p_pole_length p) (push act * p_relative_force p * a_gravity a)
              (s_angle s) (s_angle_vel s) x2' w2' <-> x2' = x2 /\ w2' = w2) /\
    ep_states ep = [mkSt (s_loc s + a_timedelta a * s_loc_vel s) (s_loc_vel s + a_timedelta a * x2)
                         (s_angle s + a_timedelta a * s_angle_vel s) (s_angle_vel s + a_timedelta a * w2)] /\
    ep_phys ep = p.
Proof.
  intros a e p ix s act ep r acts Ha Hp H.
  pose proof (init_ok a e Ha) as (Hok & -> & _).
  destruct (pos_args a Hok) as (P1 & P2 & P3 & P4 & P5).
  destruct Hp as (R1 & R2 & R3 & R4). unfold between in *.
  fold (pmin a) in R1. fold (lmin a) in R2. fold (cmin a) in R3.
  exists (s_loc_vel (deriv (made a) p act s)), (s_angle_vel (deriv (made a) p act s)).
  assert (Hm : motion (a_gravity a) (p_cart_mass p) (p_pole_mass p) (p_pole_length p) (push act * p_relative_force p * a_gravity a)
                 (s_angle s) (s_angle_vel s) (s_loc_vel (deriv (made a) p act s)) (s_angle_vel (deriv (made a) p act s))).
  { rewrite Rmult_assoc. apply (deriv_motion (made a) p act s); lra. }
  split.
  - intros x2' w2'. split.
    + intro H'. assert (0 < p_pole_length p) by lra. assert (0 < p_pole_mass p) by lra. assert (0 < p_cart_mass p) by lra.
      destruct (motion_unique _ _ _ _ _ _ _ _ _ _ _ H0 H1 H2 H' Hm). auto.
    + intros [-> ->]. exact Hm.
  - unfold execute in H. cbn [ep_states length] in H. cbn [Nat.eqb assert_ bind ep_parallel] in H. injection H as <- <- <-.
    cbn [ep_states ep_phys map combine fst snd]. split; reflexivity.
Qed.

(** Non-trivial case: a range of pole masses, a tilted moving pole and a push. *)
Example C124_motion_example : exists a e p ep r acts,
  a_pole_mass a = Range 0.05 0.5 /\ init a = Ok e /\ in_ranges a p /\ p_pole_mass p = 0.2 /\
  execute e (mkEp false [0%nat] p [mkSt 0 0.1 0.2 0.3]) [Disc 1] = Ok (ep, r, acts).
Proof.
  set (a := mkArgs (Range 0.05 0.5) (Range 0.1 1) (Range 0.5 1.5) (Range 0.75 1.5) 9.8 true false 0.05 0.05 0.05 0.02 false true).
  assert (H : exists e, init a = Ok e) by (apply init_iff; unfold ok_args, pmin, pmax, lmin, lmax, cmin, cmax, fmin, fmax; cbn; repeat split; try lra; try discriminate).
  destruct H as [e H]. exists a, e, (mkPhys 0.2 0.5 1 1). do 3 eexists.
  split; [reflexivity |]. split; [exact H |]. split; [repeat split; cbn; lra |]. split; reflexivity.
Qed.

(** C124: the discrete actions declared are a push to either side of the same strength and, if declared, none. *)
Theorem C124_declared_actions : forall a e, init a = Ok e ->
  num_actions e = (if a_continuous a then None else Some (if a_noop a then 3%nat else 2%nat)) /\
  (forall n k k', num_actions e = Some n -> (k < n)%nat -> (k' < n)%nat ->
     push (Disc (Z.of_nat k)) = push (Disc (Z.of_nat k')) -> k = k') /\
  (forall n k, num_actions e = Some n -> (k < n)%nat ->
     Rabs (push (Disc (Z.of_nat k))) = 1 \/ (a_noop a = true /\ push (Disc (Z.of_nat k)) = 0)).
Proof.
  intros a e H. apply init_ok in H. destruct H as (_ & -> & _). unfold num_actions. cbn [made e_continuous e_noop].
  split; [reflexivity |]. destruct (a_continuous a); [split; intros; discriminate |].
  split.
  - intros n k k' Hn Hk Hk' Hp. injection Hn as <-.
    assert (C : (k = 0 \/ k = 1 \/ k = 2)%nat) by (destruct (a_noop a); lia).
    assert (C' : (k' = 0 \/ k' = 1 \/ k' = 2)%nat) by (destruct (a_noop a); lia).
    destruct C as [-> | [-> | ->]]; destruct C' as [-> | [-> | ->]]; cbn in Hp; auto; lra.
  - intros n k Hn Hk. injection Hn as <-. destruct (a_noop a).
    + assert (C : (k = 0 \/ k = 1 \/ k = 2)%nat) by lia. destruct C as [-> | [-> | ->]]; cbn; auto.
      * left. unfold Rabs. destruct (Rcase_abs _); lra.
      * left. apply Rabs_R1.
    + assert (C : (k = 0 \/ k = 1)%nat) by lia. destruct C as [-> | ->]; cbn; left.
      * unfold Rabs. destruct (Rcase_abs _); lra.
      * apply Rabs_R1.
Qed.

(** C125: which arguments are accepted. *)
Theorem C125_accepted_iff : forall a,
  (exists e, init a = Ok e) <->
  (valid_arg (a_pole_mass a) /\ valid_arg (a_pole_length a) /\ valid_arg (a_cart_mass a) /\ valid_arg (a_relative_force a) /\
   0 < a_gravity a /\ (a_continuous a = true -> a_noop a = true)) /\
  let pmin := arg_min (a_pole_mass a) in let pmax := arg_max (a_pole_mass a) in
  let cmin := arg_min (a_cart_mass a) in let cmax := arg_max (a_cart_mass a) in
  let lmin := arg_min (a_pole_length a) in let lmax := arg_max (a_pole_length a) in
  let fmin := arg_min (a_relative_force a) in let fmax := arg_max (a_relative_force a) in
  ((0 < a_timedelta a /\ 3 * pmax < 4 * (cmin + pmin) /\ 3 * pmin * lmin * fmin < fmax * lmax * (4 * (cmax + pmax) - 3 * pmin)) \/
   (a_timedelta a < 0 /\ 4 * (cmin + pmin) < 3 * pmax /\ fmax * lmax * (4 * (cmax + pmax) - 3 * pmin) < 3 * pmin * lmin * fmin)).
Proof. exact init_iff. Qed.

(** C125: a pole at most as heavy as the cart, at a positive time step, is always accepted. *)
Theorem C125_light_pole : forall a,
  valid_arg (a_pole_mass a) -> valid_arg (a_pole_length a) -> valid_arg (a_cart_mass a) -> valid_arg (a_relative_force a) ->
  0 < a_gravity a -> (a_continuous a = true -> a_noop a = true) -> 0 < a_timedelta a ->
  arg_max (a_pole_mass a) <= arg_min (a_cart_mass a) -> exists e, init a = Ok e.
Proof.
  intros a V1 V2 V3 V4 Hg Hc Ht Hm. apply C125_accepted_iff. split; [repeat (split; [assumption |]); assumption |]. cbv zeta. left.
  apply valid_pos in V1, V2, V3, V4. split; [exact Ht |]. split; [lra |].
  set (pmin := arg_min (a_pole_mass a)) in *. set (pmax := arg_max (a_pole_mass a)) in *.
  set (cmin := arg_min (a_cart_mass a)) in *. set (cmax := arg_max (a_cart_mass a)) in *.
  set (lmin := arg_min (a_pole_length a)) in *. set (lmax := arg_max (a_pole_length a)) in *.
  set (fmin := arg_min (a_relative_force a)) in *. set (fmax := arg_max (a_relative_force a)) in *.
  assert (H1 : 0 < lmin * fmin <= fmax * lmax) by (split; nra).
  assert (H2 : 3 * pmin < 4 * (cmax + pmax) - 3 * pmin) by lra.
  replace (3 * pmin * lmin * fmin) with (3 * pmin * (lmin * fmin)) by ring.
  set (A := lmin * fmin) in *. set (B := fmax * lmax) in *. clearbody A B. nra.
Qed.

(** Non-trivial case: the default arguments, with a pole as heavy as the lightest cart. *)
Example C125_light_pole_example : exists e,
  init (mkArgs (Range 0.05 0.5) (Range 0.1 1) (Range 0.5 1.5) (Range 0.75 1.5) 9.8 true false 0.05 0.05 0.05 0.02 false true) = Ok e.
Proof. apply C125_light_pole; cbn; try lra; discriminate. Qed.

(** C125 is false: valid positive arguments are rejected (first a wide range of pole masses, then a heavy pole), and
    a negative time step can be accepted. *)
Theorem C125_valid_rejected_refuted :
  (exists a, valid_arg (a_pole_mass a) /\ valid_arg (a_pole_length a) /\ valid_arg (a_cart_mass a) /\ valid_arg (a_relative_force a) /\
     0 < a_gravity a /\ a_continuous a = false /\ 0 < a_timedelta a /\ a_pole_mass a = Range 0.05 2 /\ a_cart_mass a = Range 0.5 1.5 /\
     forall e, init a <> Ok e) /\
  (exists a, a_pole_mass a = Number 10 /\ a_pole_length a = Number 1 /\ a_cart_mass a = Number 1 /\ a_relative_force a = Number 1 /\
     0 < a_gravity a /\ a_continuous a = false /\ 0 < a_timedelta a /\ forall e, init a <> Ok e).
Proof.
  split.
  - exists (mkArgs (Range 0.05 2) (Range 0.1 1) (Range 0.5 1.5) (Range 0.75 1.5) 9.8 true false 0.05 0.05 0.05 0.02 false true).
    cbn. repeat split; try lra. intros e H.
    assert (Hx : exists e, init (mkArgs (Range 0.05 2) (Range 0.1 1) (Range 0.5 1.5) (Range 0.75 1.5) 9.8 true false 0.05 0.05 0.05 0.02 false true) = Ok e) by eauto.
    apply C125_accepted_iff in Hx. cbn in Hx. destruct Hx as [_ [Hx | Hx]]; lra.
  - exists (mkArgs (Number 10) (Number 1) (Number 1) (Number 1) 9.8 true false 0.05 0.05 0.05 0.02 false true).
    cbn. repeat split; try lra. intros e H.
    assert (Hx : exists e, init (mkArgs (Number 10) (Number 1) (Number 1) (Number 1) 9.8 true false 0.05 0.05 0.05 0.02 false true) = Ok e) by eauto.
    apply C125_accepted_iff in Hx. cbn in Hx. destruct Hx as [_ [Hx | Hx]]; lra.
Qed.

Theorem C125_negative_timedelta_refuted : exists a e, init a = Ok e /\ a_timedelta a < 0.
Proof.
  set (a := mkArgs (Range 100 140) (Number 1) (Number 1) (Number 1) 9.8 true false 0.05 0.05 0.05 (-1) false true).
  assert (H : exists e, init a = Ok e).
  { apply C125_accepted_iff. cbn. repeat split; try lra; try discriminate. }
  destruct H as [e H]. exists a, e. split; [exact H |]. cbn. lra.
Qed.

(** C126: in the upright position a discrete action changes the angular velocity by at most a tenth of its bound. *)
Theorem C126_upright_angle : forall a e p ix s n ep r acts,
  init a = Ok e -> 0 < a_timedelta a -> in_ranges a p -> s_angle s = 0 ->
  execute e (mkEp false ix p [s]) [Disc n] = Ok (ep, r, acts) ->
  forall s', In s' (ep_states ep) -> Rabs (s_angle_vel s' - s_angle_vel s) <= e_angle_vel_bound e / 10.
Proof.
  intros a e p ix s n ep r acts Ha Ht Hp Hs H s' Hs'.
  pose proof (init_ok a e Ha) as (Hok & -> & Hn & _ & Hpos).
  destruct (pos_args a Hok) as (P1 & P2 & P3 & P4 & P5).
  destruct Hp as (R1 & R2 & R3 & R4). unfold between in *.
  fold (pmin a) (pmax a) in R1. fold (lmin a) (lmax a) in R2. fold (cmin a) (cmax a) in R3. fold (fmin a) (fmax a) in R4.
  unfold execute in H. cbn [ep_states length] in H. cbn [Nat.eqb assert_ bind ep_parallel] in H. injection H as <- <- <-.
  destruct Hs' as [<- | []]. cbn [fst snd step s_angle_vel made e_angle_vel_bound e_timedelta].
  replace (s_angle_vel s + a_timedelta a * s_angle_vel (deriv (made a) p (Disc n) s) - s_angle_vel s)
    with (a_timedelta a * s_angle_vel (deriv (made a) p (Disc n) s)) by ring.
  assert (M1 : 0 < p_pole_mass p) by lra. assert (M2 : 0 < p_pole_length p) by lra. assert (M3 : 0 < p_cart_mass p) by lra.
  pose proof (upright_acc (made a) p (Disc n) s M1 M2 M3 Hs) as Hacc.
  pose proof (abs_within _ _ (force_disc n)) as Hf. cbn [made e_gravity] in Hacc.
  set (acc := s_angle_vel (deriv (made a) p (Disc n) s)) in *.
  assert (Hn' : 4 * (cmin a + pmin a) <> 3 * pmax a) by (intro C; apply Hn; apply divisor_zero; assumption).
  destruct (angle_sign a Hok Hn') as [A1 _].
  assert (HA : 0 < angle_acc0 a) by nra.
  apply A1 in HA as HK.
  pose proof (angle_eq a Hok Hn') as Heq.
  set (k := p_pole_length p * (4 * (p_cart_mass p + p_pole_mass p) - 3 * p_pole_mass p)) in *.
  set (k0 := lmin a * (4 * (cmin a + pmin a) - 3 * pmax a)) in *.
  assert (Hk0 : 0 < k0) by (unfold k0; apply Rmult_lt_0_compat; lra).
  assert (Hk : k0 <= k) by (unfold k, k0; apply Rmult_le_compat; lra).
  assert (HF : - (fmax a * a_gravity a) <= force_of (Disc n) * (p_relative_force p * a_gravity a) <= fmax a * a_gravity a).
  { assert (Hfg : 0 < p_relative_force p * a_gravity a <= fmax a * a_gravity a) by (split; nra). split; nra. }
  set (F := force_of (Disc n) * (p_relative_force p * a_gravity a)) in *.
  set (G := fmax a * a_gravity a) in *.
  assert (Habs : - angle_acc0 a <= acc <= angle_acc0 a).
  { replace (3 * fmax a * a_gravity a) with (3 * G) in Heq by (unfold G; ring).
    clearbody k k0 F G acc. split; nra. }
  replace (angle_acc0 a * a_timedelta a * 10 / 10) with (a_timedelta a * angle_acc0 a) by field.
  apply within_abs. clearbody acc. split; nra.
Qed.

(** Non-trivial case: the bound is attained if all physics are one. *)
Example C126_upright_angle_example : exists a e p ep r acts s',
  init a = Ok e /\ 0 < a_timedelta a /\ in_ranges a p /\
  execute e (mkEp false [0%nat] p [mkSt 0 0 0 0]) [Disc 1] = Ok (ep, r, acts) /\ ep_states ep = [s'] /\
  Rabs (s_angle_vel s' - 0) = e_angle_vel_bound e / 10 /\ 0 < e_angle_vel_bound e.
Proof.
  exists (ones true true 0 0 false), (made (ones true true 0 0 false)), (mkPhys 1 1 1 1).
  destruct (ones_init true true 0 0 false) as (H & HL & HA).
  do 4 eexists. split; [exact H |]. split; [cbn; lra |]. split; [repeat split; cbn; lra |].
  split; [reflexivity |]. split; [reflexivity |].
  cbn [made e_angle_vel_bound]. rewrite HA. cbn. rewrite sin_0, cos_0.
  split; [rewrite Rabs_left; lra | lra].
Qed.

(** C126 is false of the cart: its bound on the acceleration has the wrong sign.  Pushing a cart at rest with an upright pole
    can change its velocity by four times the tenth of the bound ... *)
Theorem C126_upright_location_refuted : exists a e p s ep r acts s',
  init a = Ok e /\ 0 < a_timedelta a /\ in_ranges a p /\ s = mkSt 0 0 0 0 /\
  execute e (mkEp false [0%nat] p [s]) [Disc 1] = Ok (ep, r, acts) /\ ep_states ep = [s'] /\
  4 * (e_loc_vel_bound e / 10) <= Rabs (s_loc_vel s' - s_loc_vel s).
Proof.
  exists (ones true true 0 0 false), (made (ones true true 0 0 false)), (mkPhys 1 1 1 1), (mkSt 0 0 0 0).
  destruct (ones_init true true 0 0 false) as (H & HL & HA).
  do 4 eexists. split; [exact H |]. split; [cbn; lra |]. split; [repeat split; cbn; lra |]. split; [reflexivity |].
  split; [reflexivity |]. split; [reflexivity |].
  cbn [made e_loc_vel_bound]. rewrite HL. cbn. rewrite sin_0, cos_0.
  rewrite Rabs_right; lra.
Qed.

(** ... and the first push from rest can end the episode. *)
Theorem C126_first_push_refuted : exists a e p rs,
  init a = Ok e /\ 0 < a_timedelta a /\ in_ranges a p /\
  single_run e p (mkSt 0 0 0 0) (fun _ => Disc 1) 1 = Ok rs /\ flat_map r_terminal rs = [true].
Proof.
  set (a := mkArgs (Number 1) (Number 1) (Number 0.51) (Number 1) 1 true false 0 0 0 1 false true).
  assert (Hok : ok_args a) by (unfold ok_args, a; cbn; repeat split; try lra; auto).
  assert (HL : loc_acc0 a = 1 / 1.51 * (1 - 3 / (4 * 1.51 - 3))) by (unfold loc_acc0, pmin, pmax, lmin, lmax, cmin, cmax, fmin, fmax, a; cbn; lra).
  assert (HA : angle_acc0 a = 3 / (4 * 1.51 - 3)) by (unfold angle_acc0, pmin, pmax, lmin, lmax, cmin, cmax, fmin, fmax, a; cbn; lra).
  assert (Hi : init a = Ok (made a)).
  { apply init_ok_rev; auto; [unfold pmin, pmax, cmin, a; cbn; lra | rewrite HL; cbn; lra | rewrite HA; cbn; lra]. }
  exists a, (made a), (mkPhys 1 1 0.51 1).
  assert (Hv : s_loc_vel (traj (made a) (mkPhys 1 1 0.51 1) (mkSt 0 0 0 0) (fun _ => Disc 1) 1) = 1 / 1.51 * (1 + 3 / (4 * 1.51 - 3))).
  { cbn. rewrite sin_0, cos_0. lra. }
  assert (Hout : out (made a) (traj (made a) (mkPhys 1 1 0.51 1) (mkSt 0 0 0 0) (fun _ => Disc 1) 1) = true).
  { unfold out. rewrite Hv. rewrite (proj2 (Rltb_lt (e_loc_vel_bound (made a)) (Rabs (1 / 1.51 * (1 + 3 / (4 * 1.51 - 3)))))).
    - rewrite orb_true_r. reflexivity.
    - cbn [made e_loc_vel_bound]. rewrite HL. cbn. rewrite Rabs_right; lra. }
  eexists. split; [exact Hi |]. split; [cbn; lra |]. split; [repeat split; cbn; lra |].
  split; [apply single_run_eq |]. cbn [flat_map map seq row_result r_terminal app]. rewrite Hout. reflexivity.
Qed.

(** C127: discrete actions given are left as they are ... *)
Theorem C127_actions_kept : forall a e ep acts ep' r acts',
  init a = Ok e -> a_continuous a = false -> execute e ep acts = Ok (ep', r, acts') -> acts' = acts.
Proof.
  intros a e ep acts ep' r acts' Ha Hc H. apply init_ok in Ha. destruct Ha as (_ & -> & _).
  unfold execute in H. apply bind_ok in H. destruct H as (u & _ & H).
  cbn [made e_continuous] in H. rewrite Hc in H. destruct (ep_parallel ep); injection H as _ _ <-; reflexivity.
Qed.

(** ... but continuous actions are multiplied in place: executing the same array twice applies two different forces. *)
Theorem C127_actions_modified_refuted : exists a e p acts ep r acts',
  init a = Ok e /\ in_ranges a p /\ acts = [Cont 0.5] /\
  execute e (fst (reset e (Some 1%nat) p [mkSt 0 0 0 0])) acts = Ok (ep, r, acts') /\ acts' <> acts.
Proof.
  set (a := mkArgs (Number 0.1) (Number 1) (Number 1) (Number 2) 10 true false 0 0 0 0.02 true true).
  assert (Hx : exists e, init a = Ok e) by (apply C125_accepted_iff; cbn; repeat split; try lra; auto).
  destruct Hx as [e He]. pose proof (init_ok a e He) as (_ & -> & _).
  exists a, (made a), (mkPhys 0.1 1 1 2), [Cont 0.5]. do 3 eexists.
  split; [exact He |]. split; [repeat split; cbn; lra |]. split; [reflexivity |]. split; [reflexivity |].
  cbn. intro C. injection C as C. lra.
Qed.

Print Assumptions C121_parallel_is_single.
Print Assumptions C121_single_step.
Print Assumptions C122_states_within.
Print Assumptions C122_terminal_iff.
Print Assumptions C122_initial_state_refuted.
Print Assumptions C122_terminal_state_refuted.
Print Assumptions C122_hidden_end_refuted.
Print Assumptions C123_mirror.
Print Assumptions C123_initial_states.
Print Assumptions C124_ranges.
Print Assumptions C124_motion.
Print Assumptions C124_declared_actions.
Print Assumptions C125_accepted_iff.
Print Assumptions C125_light_pole.
Print Assumptions C125_valid_rejected_refuted.
Print Assumptions C125_negative_timedelta_refuted.
Print Assumptions C126_upright_angle.
Print Assumptions C126_upright_location_refuted.
Print Assumptions C126_first_push_refuted.
Print Assumptions C127_actions_kept.
Print Assumptions C127_actions_modified_refuted.
