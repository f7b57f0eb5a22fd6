(** C164-C169: what the Tensorforce agent accepts as update, reward estimation, policy, baseline, memory and
    exploration, and what it makes of it. *)

From Coq Require Import String List ZArith QArith Bool Lia Lqa.
From Verif Require Import Base CfgModel CfgSpec CfgProofs CfgProofs2 CfgProofs3.
Import ListNotations.
Open Scope string_scope.
Open Scope list_scope.
Open Scope Z_scope.

(** ** Arguments for examples *)
Definition int_ (n : Z) : val := VNum (NInt n).
Definition float_ (q : Q) : val := VNum (NFloat q).

Definition plain : args :=
  {| a_actions := [("move", TInt); ("turn", TFloat)]; a_max := Some 100; a_policy := Network; a_policy_past := 0; a_memory := Recent;
     a_capacity := None; a_update := [("unit", VStr "timesteps"); ("batch_size", int_ 64); ("frequency", float_ (1 # 4))];
     a_objective := PolicyGradient; a_reward_estimation := [("horizon", int_ 20); ("discount", float_ (99 # 100))];
     a_baseline := None; a_baseline_past := 0; a_baseline_optimizer := NoOptimizer; a_baseline_objective := None;
     a_entropy_regularization := VNone; a_exploration := EValue VNone; a_variable_noise := VNone;
     a_parallel_interactions := 1; a_buffer_observe := Some 1 |}.

Definition with_update (d : dict) (a : args) : args :=
  {| a_actions := a_actions a; a_max := a_max a; a_policy := a_policy a; a_policy_past := a_policy_past a; a_memory := a_memory a;
     a_capacity := a_capacity a; a_update := d; a_objective := a_objective a; a_reward_estimation := a_reward_estimation a;
     a_baseline := a_baseline a; a_baseline_past := a_baseline_past a; a_baseline_optimizer := a_baseline_optimizer a;
     a_baseline_objective := a_baseline_objective a; a_entropy_regularization := a_entropy_regularization a;
     a_exploration := a_exploration a; a_variable_noise := a_variable_noise a; a_parallel_interactions := a_parallel_interactions a;
     a_buffer_observe := a_buffer_observe a |}.
Definition with_reward (d : dict) (a : args) : args :=
  {| a_actions := a_actions a; a_max := a_max a; a_policy := a_policy a; a_policy_past := a_policy_past a; a_memory := a_memory a;
     a_capacity := a_capacity a; a_update := a_update a; a_objective := a_objective a; a_reward_estimation := d;
     a_baseline := a_baseline a; a_baseline_past := a_baseline_past a; a_baseline_optimizer := a_baseline_optimizer a;
     a_baseline_objective := a_baseline_objective a; a_entropy_regularization := a_entropy_regularization a;
     a_exploration := a_exploration a; a_variable_noise := a_variable_noise a; a_parallel_interactions := a_parallel_interactions a;
     a_buffer_observe := a_buffer_observe a |}.
Definition with_baseline (b : policy_spec) (o : option objective) (a : args) : args :=
  {| a_actions := a_actions a; a_max := a_max a; a_policy := a_policy a; a_policy_past := a_policy_past a; a_memory := a_memory a;
     a_capacity := a_capacity a; a_update := a_update a; a_objective := a_objective a; a_reward_estimation := a_reward_estimation a;
     a_baseline := Some b; a_baseline_past := a_baseline_past a; a_baseline_optimizer := a_baseline_optimizer a;
     a_baseline_objective := o; a_entropy_regularization := a_entropy_regularization a;
     a_exploration := a_exploration a; a_variable_noise := a_variable_noise a; a_parallel_interactions := a_parallel_interactions a;
     a_buffer_observe := a_buffer_observe a |}.
Definition with_policy (p : policy_spec) (o : objective) (actions : list (string * atype)) (e : val) (a : args) : args :=
  {| a_actions := actions; a_max := a_max a; a_policy := p; a_policy_past := a_policy_past a; a_memory := a_memory a;
     a_capacity := a_capacity a; a_update := a_update a; a_objective := o; a_reward_estimation := a_reward_estimation a;
     a_baseline := a_baseline a; a_baseline_past := a_baseline_past a; a_baseline_optimizer := a_baseline_optimizer a;
     a_baseline_objective := a_baseline_objective a; a_entropy_regularization := e;
     a_exploration := a_exploration a; a_variable_noise := a_variable_noise a; a_parallel_interactions := a_parallel_interactions a;
     a_buffer_observe := a_buffer_observe a |}.
Definition with_memory (x c n : option Z) (a : args) : args :=
  {| a_actions := a_actions a; a_max := x; a_policy := a_policy a; a_policy_past := a_policy_past a; a_memory := a_memory a;
     a_capacity := c; a_update := a_update a; a_objective := a_objective a; a_reward_estimation := a_reward_estimation a;
     a_baseline := a_baseline a; a_baseline_past := a_baseline_past a; a_baseline_optimizer := a_baseline_optimizer a;
     a_baseline_objective := a_baseline_objective a; a_entropy_regularization := a_entropy_regularization a;
     a_exploration := a_exploration a; a_variable_noise := a_variable_noise a; a_parallel_interactions := a_parallel_interactions a;
     a_buffer_observe := n |}.
Definition with_exploration (e : exploration) (actions : list (string * atype)) (a : args) : args :=
  {| a_actions := actions; a_max := a_max a; a_policy := a_policy a; a_policy_past := a_policy_past a; a_memory := a_memory a;
     a_capacity := a_capacity a; a_update := a_update a; a_objective := a_objective a; a_reward_estimation := a_reward_estimation a;
     a_baseline := a_baseline a; a_baseline_past := a_baseline_past a; a_baseline_optimizer := a_baseline_optimizer a;
     a_baseline_objective := a_baseline_objective a; a_entropy_regularization := a_entropy_regularization a;
     a_exploration := e; a_variable_noise := a_variable_noise a; a_parallel_interactions := a_parallel_interactions a;
     a_buffer_observe := a_buffer_observe a |}.

Ltac nodup := repeat constructor; cbn; intuition discriminate.
Ltac dist := split; [nodup|split; [nodup|split; [nodup|try exact I; nodup]]].
Ltac gives := unfold given; cbn; tauto.

(** What holds of a result, from the computation *)
Definition made_with (a : args) (P : made -> Prop) : Prop := match construct a with Ok m => P m | Err _ => False end.
Lemma made_exists a P : made_with a P -> exists m, construct a = Ok m /\ P m.
Proof. unfold made_with. destruct (construct a) as [m|]; [eauto|tauto]. Qed.

Lemma rejected a : distinct a -> ~ accepted a -> exists e, construct a = Err e.
Proof.
  intros D N. destruct (construct a) as [m|e] eqn:E; [|eauto]. destruct N. apply (construct_ok a m); auto.
Qed.

(** ** C164: update *)
Theorem C164_update : forall a m, distinct a -> construct a = Ok m ->
  update_effect (a_update a) (m_update m).
Proof. intros a m D E. apply construct_ok in E; auto. destruct E as (_ & O). apply O. Qed.
Print Assumptions C164_update.

Theorem C164_rejected : forall a, distinct a -> ~ good_update (a_update a) -> exists e, construct a = Err e.
Proof. intros a D N. apply rejected; auto. intros (_ & _ & _ & G & _). auto. Qed.
Print Assumptions C164_rejected.

(** A fraction of the batch size: at least one and at most the batch *)
Theorem C164_relative : forall a m r n, distinct a -> construct a = Ok m ->
  given "frequency" (a_update a) (VNum (NFloat r)) -> given "batch_size" (a_update a) (VNum (NInt n)) ->
  exists k, u_frequency (m_update m) = Some (Some k, Some k) /\ 1 <= k <= n /\ (k = 1 \/ (inject_Z k <= r * inject_Z n)%Q) /\
    (r * inject_Z n < inject_Z (k + 1))%Q.
Proof.
  intros a m r n D E Gf Gb. apply C164_update in E; auto. destruct D as (ND & _).
  destruct E as (_ & _ & _ & batch & Gb' & R & L & C). assert (batch = VNum (NInt n)) as -> by (eapply given_fun; eauto).
  inversion R as [x Hx Hl Hh|]; subst. destruct L as (x & Lx & Lx'). rewrite <- Hl in Lx. injection Lx as <-.
  destruct C as [(Gn & _)|(most & f & s & _ & Em & Ef & _ & FE & _)].
  { assert (H : VNum (NFloat r) = VStr "never") by (eapply given_fun; eauto). discriminate. }
  rewrite <- Hh in Em. injection Em as <-.
  destruct FE as [([U|U] & _)|[(r' & n' & k & Gf' & Rr & En & (K1 & K2 & K3) & ->)|(v & Gv & Rv & _)]].
  - destruct (given_omitted _ _ _ Gf U).
  - assert (H : VNum (NFloat r) = VNone) by (eapply given_fun; eauto). discriminate.
  - injection En as <-. assert (H : VNum (NFloat r) = VNum (NFloat r')) by (eapply given_fun; eauto). injection H as <-.
    exists k. split; auto. split; [|auto]. split; auto. destruct K3 as [->|K3]; [lia|].
    rewrite Zle_Qle. apply Qle_trans with (r * inject_Z n)%Q; auto.
    setoid_replace (inject_Z n) with (1 * inject_Z n)%Q at 2 by ring. apply Qmult_le_compat_r; [apply Rr|].
    change 0%Q with (inject_Z 0). rewrite <- Zle_Qle. lia.
  - assert (H : v = VNum (NFloat r)) by (eapply given_fun; eauto). rewrite H in Rv. inversion Rv.
Qed.
Print Assumptions C164_relative.

(** The documentation says that the frequency may be 'never'; the constructor accepts it, but the model cannot be
    initialized *)
Theorem C164_never_refuted : 
  (forall a m, distinct a -> construct a = Ok m -> given "frequency" (a_update a) (VStr "never") -> exists e, core_initialize a m = Err e) /\
  exists a, distinct a /\ given "frequency" (a_update a) (VStr "never") /\ (exists m, construct a = Ok m).
Proof.
  split.
  - intros a m D E G. apply C164_update in E; auto. destruct D as (ND & _). destruct E as (_ & _ & _ & batch & _ & _ & _ & C).
    unfold core_initialize. destruct C as [(_ & F & _)|(most & f & s & N & _)]; [|tauto]. rewrite F.
    destruct (match m_horizon m, a_buffer_observe a with Steps _, Some _ => _ | _, _ => _ end); cbn; eauto.
  - exists (with_update [("unit", VStr "timesteps"); ("batch_size", int_ 64); ("frequency", VStr "never")] plain).
    split; [dist|]. split; [gives|]. eexists; vm_compute; reflexivity.
Qed.
Print Assumptions C164_never_refuted.

(** Updates which are less frequent than the batch is large are meant to be rejected: a frequency of two for batches of one is
    accepted *)
Theorem C164_more_refuted : exists a m, distinct a /\ construct a = Ok m /\
  given "batch_size" (a_update a) (VNum (NInt 1)) /\ u_frequency (m_update m) = Some (Some 2, Some 2).
Proof.
  exists (with_update [("unit", VStr "timesteps"); ("batch_size", int_ 1); ("frequency", int_ 2)] plain).
  eexists. split; [dist|]. split; [vm_compute; reflexivity|]. split; [gives|reflexivity].
Qed.
Print Assumptions C164_more_refuted.

(** Otherwise there is at least one update for each batch *)
Theorem C164_frequency : forall a m f n, distinct a -> construct a = Ok m ->
  u_frequency (m_update m) = Some f -> snd (u_batch (m_update m)) = Some n -> exists k, snd f = Some k /\ k <= Z.max 2 n.
Proof.
  intros a m f n D E Ef Eb. assert (E' := E). apply C164_update in E; auto. assert (ND := proj1 D).
  assert (E2 := E). destruct E as (_ & _ & _ & batch & Gb & R & L & C).
  destruct C as [(_ & F & _)|(most & f' & s & _ & Em & Ef' & _ & FE & _)]; [congruence|].
  rewrite Ef in Ef'. injection Ef' as <-. rewrite Eb in Em. injection Em as <-.
  destruct FE as [(U & Rf)|[(r & b & k & Gf & Rr & En & K & ->)|(v & Gv & Rv & _ & (k & Kk & Kl))]].
  - destruct (int_range_fun _ _ _ _ _ R Rf) as (_ & H). rewrite Eb in H. exists n. split; [auto|lia].
  - subst batch. destruct (C164_relative a m r b D E' Gf Gb) as (k' & Ek & Hk & _). rewrite Ef in Ek. injection Ek as <-.
    exists k. split; auto. inversion R as [x Hx Hl Hh|]; subst. rewrite Eb in Hh. injection Hh as ->. lia.
  - exists k. auto.
Qed.
Print Assumptions C164_frequency.

Example C164_example : distinct plain /\ exists m, construct plain = Ok m /\
  u_frequency (m_update m) = Some (Some 16, Some 16) /\ u_batch (m_update m) = (Some 64, Some 64) /\ u_unit (m_update m) = "timesteps" /\
  core_initialize plain m = Ok (21, -16).
Proof. split; [dist|]. eexists. split; [vm_compute; reflexivity|]. repeat split. Qed.
Example C164_example_rejected :
  distinct (with_update [("unit", VStr "timesteps"); ("batch_size", int_ 8); ("frequency", int_ 9)] plain) /\
  ~ good_update [("unit", VStr "timesteps"); ("batch_size", int_ 8); ("frequency", int_ 9)].
Proof.
  split; [dist|]. set (d := [_; _; _]). assert (ND : NoDup (map fst d)) by (unfold d; nodup).
  rewrite (good_update_iff d ND). intros (r & H). vm_compute in H. discriminate.
Qed.

(** ** C165: reward estimation *)
Theorem C165_horizon : forall a m, distinct a -> construct a = Ok m -> horizon_effect a (m_horizon m) /\ discount_effect a (m_discount m).
Proof. intros a m D E. apply construct_ok in E; auto. destruct E as (_ & O). split; apply O. Qed.
Print Assumptions C165_horizon.

Theorem C165_values : forall a m, distinct a -> construct a = Ok m ->
  predicts_horizon a (m_predict m) /\ estimates a (m_advantage m) /\ (m_in_loss m = true <-> joint a).
Proof. intros a m D E. apply construct_ok in E; auto. destruct E as (_ & O). split; [|split]; apply O. Qed.
Print Assumptions C165_values.

Theorem C165_decays : forall a m, distinct a -> construct a = Ok m ->
  decay_effect a "trace_decay" 1 (m_trace m) /\ decay_effect a "gae_decay" 0 (m_gae m) /\
  (forall v, given "trace_decay" (a_reward_estimation a) v -> ~ number_is v 1 -> m_predict m = VStr "early") /\
  (forall v, given "gae_decay" (a_reward_estimation a) v -> ~ number_is v 0 -> a_memory a = Recent /\ m_advantage m <> False_ /\ m_in_loss m = false).
Proof.
  intros a m D E. apply construct_ok in E; auto. destruct E as ((_ & _ & G & _) & O). assert (ND := proj1 (proj2 D)).
  destruct O as (_ & _ & _ & P & Ad & J & _ & _ & _ & _ & _ & _ & _ & _ & _ & _ & T & Ga). split; auto. split; auto.
  destruct G as (_ & _ & _ & _ & _ & _ & _ & G1 & G2). split.
  - intros v Gv N. destruct (G1 v (or_introl Gv)) as (_ & [C|C]); [tauto|]. eapply predicts_fun; eauto.
  - intros v Gv N. destruct (G2 v (or_introl Gv)) as (_ & [C|(C1 & C2 & C3)]); [tauto|]. split; auto. split.
    + intros F. rewrite F in Ad. auto.
    + destruct (m_in_loss m); auto. tauto.
Qed.
Print Assumptions C165_decays.

Theorem C165_rejected : forall a, distinct a -> ~ good_reward a -> exists e, construct a = Err e.
Proof. intros a D N. apply rejected; auto. intros (_ & _ & G & _). auto. Qed.
Print Assumptions C165_rejected.

(** Late predictions for whole episodes are rejected *)
Theorem C165_late : forall a, distinct a -> given "horizon" (a_reward_estimation a) (VStr "episode") ->
  given "predict_horizon_values" (a_reward_estimation a) (VStr "late") -> exists e, construct a = Err e.
Proof.
  intros a D Gh Gp. apply C165_rejected; auto. intros (_ & [(_ & H)|(v & lo & hi & G & R & _)] & _); [tauto|].
  assert (v = VStr "episode") as -> by (eapply given_fun; eauto; apply D). inversion R.
Qed.
Print Assumptions C165_late.

(** None means the default of predict_horizon_values, but giving None is not the same as giving nothing *)
Theorem C165_none_refuted : exists a b m n, distinct a /\ distinct b /\ omitted "predict_horizon_values" (a_reward_estimation a) /\
  a_reward_estimation b = ("predict_horizon_values", VNone) :: a_reward_estimation a /\
  construct a = Ok m /\ construct b = Ok n /\ m_predict m = False_ /\ m_predict n = VStr "late".
Proof.
  exists plain, (with_reward (("predict_horizon_values", VNone) :: a_reward_estimation plain) plain). eexists. eexists.
  split; [dist|]. split; [dist|]. split; [intros v; unfold given; cbn; intuition discriminate|]. split; [reflexivity|].
  split; [vm_compute; reflexivity|]. split; [vm_compute; reflexivity|]. split; reflexivity.
Qed.
Print Assumptions C165_none_refuted.

(** Any other string is accepted *)
Theorem C165_unknown_refuted : exists a m, distinct a /\ construct a = Ok m /\ m_predict m = VStr "lte" /\ m_advantage m = VStr "erly".
Proof.
  exists (with_reward [("horizon", int_ 20); ("predict_horizon_values", VStr "lte"); ("estimate_advantage", VStr "erly")] plain). eexists.
  split; [dist|]. split; [vm_compute; reflexivity|]. split; reflexivity.
Qed.
Print Assumptions C165_unknown_refuted.

(** An int is no float: a discount of 1 is rejected, 1.0 is accepted *)
Theorem C165_integer_refuted : 
  (forall a n, distinct a -> given "discount" (a_reward_estimation a) (VNum (NInt n)) -> exists e, construct a = Err e) /\
  exists a, distinct a /\ given "discount" (a_reward_estimation a) (float_ 1) /\ exists m, construct a = Ok m.
Proof.
  split.
  - intros a n D G. apply C165_rejected; auto. intros (_ & _ & H & _). assert (ND := proj1 (proj2 D)).
    destruct H as [[U|U]|(v & Gv & lo & hi & R & _)].
    + destruct (given_omitted _ _ _ G U).
    + assert (X : VNum (NInt n) = VNone) by (eapply given_fun; eauto). discriminate.
    + assert (v = VNum (NInt n)) as -> by (eapply given_fun; eauto). inversion R.
  - exists (with_reward [("horizon", int_ 20); ("discount", float_ 1)] plain). split; [dist|]. split; [gives|].
    eexists; vm_compute; reflexivity.
Qed.
Print Assumptions C165_integer_refuted.

Definition actor_critic : args :=
  with_baseline Network (Some (Value true))
    (with_reward [("horizon", int_ 20); ("discount", float_ (99 # 100)); ("estimate_advantage", VStr "early"); ("gae_decay", float_ (1 # 2));
                  ("predict_horizon_values", VStr "early"); ("trace_decay", float_ (9 # 10)); ("advantage_processing", VLayers true)] plain).
Example C165_example : distinct actor_critic /\ exists m, construct actor_critic = Ok m /\
  m_horizon m = Steps (Some 20, Some 20) /\ m_predict m = VStr "early" /\ m_advantage m = VStr "early" /\ m_in_loss m = false /\
  m_gae m = (Some (1 # 2), Some (1 # 2))%Q /\ m_weight m = Some (Some 1, Some 1)%Q.
Proof. split; [dist|]. eexists. split; [vm_compute; reflexivity|]. repeat split. Qed.
Example C165_example_rejected : distinct (with_reward [("horizon", int_ 101)] plain) /\ ~ good_reward (with_reward [("horizon", int_ 101)] plain).
Proof.
  split; [dist|]. intros (_ & [(H & _)|(v & lo & hi & G & R & _ & M)] & _).
  - unfold given in H; cbn in H. intuition discriminate.
  - unfold given in G; cbn in G. destruct G as [G|[]]. injection G as <-. destruct (M 100 eq_refl) as (x & -> & L).
    inversion R; subst. lia.
Qed.
Example C165_example_late : let a := with_reward [("horizon", VStr "episode"); ("predict_horizon_values", VStr "late")] plain in
  distinct a /\ given "horizon" (a_reward_estimation a) (VStr "episode") /\ given "predict_horizon_values" (a_reward_estimation a) (VStr "late").
Proof. split; [dist|]. split; gives. Qed.

(** ** C166: policy and baseline *)
Theorem C166_policy : forall a m, distinct a -> construct a = Ok m ->
  class_effect a (a_policy a) (policy_use a) (m_policy m) /\
  (a_policy a = Network -> forall f, policy_use a f -> provides (m_policy m) f) /\
  (a_policy a = Network -> In (m_policy m) [ValuePolicy; Distributions]).
Proof.
  intros a m D E. apply construct_ok in E; auto. destruct E as (_ & O).
  assert (C : class_effect a (a_policy a) (policy_use a) (m_policy m)) by apply O. split; auto. split.
  - intros N f F. rewrite N in C. eapply simplest_provides; eauto. apply policy_use_functions.
  - intros N. rewrite N in C. assert (P : policy_use a "policy") by (left; auto). destruct (m_policy m); cbn in C |- *; auto.
    + specialize (C _ P). discriminate.
    + destruct C as (_ & C & _). specialize (C _ P). discriminate.
Qed.
Print Assumptions C166_policy.

Theorem C166_baseline : forall a m, distinct a -> construct a = Ok m ->
  (a_baseline a = None <-> m_baseline m = None) /\
  forall s, a_baseline a = Some s -> exists c, m_baseline m = Some c /\ class_effect a s (baseline_considered a) c /\
    (s = Network -> forall f, baseline_use a f -> provides c f) /\
    (s = Network -> predicting a -> simplest a (baseline_use a) c).
Proof.
  intros a m D E. apply construct_ok in E; auto. destruct E as (_ & O).
  destruct O as (_ & _ & _ & _ & _ & _ & _ & _ & _ & _ & _ & B & _).
  destruct (a_baseline a) as [s|].
  - destruct B as (c & -> & C & _). split; [split; discriminate|]. intros s' [= <-]. exists c. split; auto. split; auto. split.
    + intros -> f F. cbn in C. eapply simplest_provides; [apply considered_functions|exact C|left; auto].
    + intros -> P. cbn in C. assert (X : forall f, baseline_considered a f <-> baseline_use a f) by (unfold baseline_considered; tauto).
      assert (Y : forall g, (forall f, baseline_considered a f -> f = g) <-> (forall f, baseline_use a f -> f = g)).
      { intros g. split; intros H f F; apply H, X; auto. }
      unfold simplest in *. destruct c; rewrite ?Y, ?X in C; auto.
  - destruct B as (B & _). split; [tauto|discriminate].
Qed.
Print Assumptions C166_baseline.

Theorem C166_warnings : forall a m, distinct a -> construct a = Ok m ->
  warning_effect a (policy_use a) (fst (m_warned m)) /\
  (a_baseline a <> None -> warning_effect a (baseline_considered a) (snd (m_warned m))) /\
  (a_baseline a = None -> snd (m_warned m) = false).
Proof.
  intros a m D E. apply construct_ok in E; auto. destruct E as (_ & O). split; [apply O|].
  destruct O as (_ & _ & _ & _ & _ & _ & _ & _ & _ & _ & _ & B & _). destruct (a_baseline a).
  - destruct B as (c & _ & _ & W). split; [auto|discriminate].
  - split; [congruence|tauto].
Qed.
Print Assumptions C166_warnings.

(** The entropy of the policy *)
Theorem C166_entropy : forall a m, distinct a -> construct a = Ok m ->
  scale_effect (a_entropy_regularization a) (m_entropy m) /\
  (a_entropy_regularization a <> VNone -> ~ zero (a_entropy_regularization a) -> m_policy m = Distributions).
Proof.
  intros a m D E. apply construct_ok in E; auto. destruct E as ((_ & _ & _ & _ & G & _) & O). split; [apply O|].
  destruct G as (_ & _ & _ & _ & G & _). intros N Z. destruct G as [G|(_ & [G|[G|(G & U)]])]; try tauto.
  - assert (C : class_effect a (a_policy a) (policy_use a) (m_policy m)) by apply O. rewrite G in C. auto.
  - assert (C : class_effect a (a_policy a) (policy_use a) (m_policy m)) by apply O. rewrite G in C. cbn in C.
    assert (P : policy_use a "policy") by (left; auto). destruct (m_policy m); cbn in C; auto; exfalso.
    + specialize (C _ P). discriminate.
    + destruct C as (_ & C & _). specialize (C _ P). discriminate.
    + tauto.
Qed.
Print Assumptions C166_entropy.

Theorem C166_rejected : forall a, distinct a -> ~ good_policies a -> exists e, construct a = Err e.
Proof. intros a D N. apply rejected; auto. intros (_ & _ & _ & _ & G & _). auto. Qed.
Print Assumptions C166_rejected.

(** A separate baseline for state values does not get the policy for state values, if no values are predicted *)
Theorem C166_leak_refuted : exists a m, distinct a /\ construct a = Ok m /\ a_baseline a = Some Network /\
  (forall f, baseline_use a f -> f = "state_value") /\ m_baseline m = Some Distributions.
Proof.
  exists (with_baseline Network (Some (Value true)) (with_reward [("horizon", int_ 20); ("predict_horizon_values", False_)] plain)).
  eexists. split; [dist|]. split; [vm_compute; reflexivity|]. split; [reflexivity|]. split; [|reflexivity].
  intros f [(P & _)|[(Dt & _)|(o & E & U)]].
  - destruct P as [P|P]; destruct P.
    + right; left. split; [gives|discriminate].
    + right. split; [intros v; unfold given; cbn; intuition discriminate|]. right. split; auto.
      intros (_ & J & _). discriminate.
  - inversion Dt.
  - injection E as <-. inversion U; auto.
Qed.
Print Assumptions C166_leak_refuted.

(** There is a warning about the default class even if it is not used *)
Theorem C166_warning_refuted : exists a m, distinct a /\ construct a = Ok m /\ a_policy a = Typed ValuePolicy /\ m_policy m = ValuePolicy /\
  fst (m_warned m) = true.
Proof.
  exists (with_policy (Typed ValuePolicy) (Plus PolicyGradient (Value true)) [("move", TInt)] VNone plain). eexists.
  split; [dist|]. split; [vm_compute; reflexivity|]. repeat split.
Qed.
Print Assumptions C166_warning_refuted.

Example C166_example : let a := with_baseline Network (Some (Value true)) (with_reward [("horizon", int_ 20)]
    (with_policy Network PolicyGradient [("move", TInt)] (float_ (1 # 100)) plain)) in
  distinct a /\ predicting a /\ ~ zero (a_entropy_regularization a) /\
  exists m, construct a = Ok m /\ m_policy m = Distributions /\ m_baseline m = Some StateValue /\ m_warned m = (false, false).
Proof.
  cbn zeta. split; [dist|]. split; [|split].
  - left. intros [(N & _)|[(G & _)|(_ & [(G & _)|(_ & H)])]]; [destruct N; discriminate|unfold given in G; cbn in G; intuition discriminate..|discriminate].
  - intros (x & y & R & E & _). inversion R; subst. vm_compute in E. discriminate.
  - eexists. split; [vm_compute; reflexivity|]. repeat split.
Qed.
Example C166_example_rejected : let a := with_policy Network (Value false) [("move", TInt)] (float_ (1 # 100)) plain in
  distinct a /\ ~ good_policies a.
Proof.
  cbn zeta. split; [dist|]. intros (_ & _ & _ & _ & G & _). destruct G as [G|(_ & [(x & y & R & E & _)|[G|(_ & [U|N])]])]; try discriminate.
  - inversion R; subst. vm_compute in E. discriminate.
  - destruct U as [U|[U|(_ & [(_ & [(U & _)|(U & _)])|[(U & _)|(o & U & _)]])]]; try discriminate; inversion U.
  - destruct N. intros n t [H|[]]. injection H as <- <-. discriminate.
Qed.

(** ** C167: memory *)
Theorem C167_capacity : forall a m, distinct a -> construct a = Ok m ->
  (forall n, space a n -> n <= m_capacity m) /\ (a_capacity a = None -> space a (m_capacity m)) /\
  (forall c, a_capacity a = Some c -> m_capacity m = c).
Proof. intros a m D E. apply construct_ok in E; auto. destruct E as (_ & O). split; [|split]; apply O. Qed.
Print Assumptions C167_capacity.

Theorem C167_rejected : forall a, distinct a -> ~ good_memory a -> exists e, construct a = Err e.
Proof. intros a D N. apply rejected; auto. intros (_ & _ & _ & _ & _ & G). auto. Qed.
Print Assumptions C167_rejected.

(** If nothing bounds the number of timesteps which have to be kept, every capacity is rejected, and there is no
    default *)
Theorem C167_unlimited_refuted : 
  (forall a, distinct a -> given "unit" (a_update a) (VStr "episodes") -> a_max a = None -> a_buffer_observe a = None -> exists e, construct a = Err e) /\
  exists a, distinct a /\ given "unit" (a_update a) (VStr "episodes") /\ a_max a = None /\ a_buffer_observe a = None /\ a_capacity a = Some 1000000 /\
    good_update (a_update a) /\ good_reward a /\ good_policies a /\ (forall n, ~ space a n).
Proof.
  split.
  - intros a D U M B. apply C167_rejected; auto. intros (_ & _ & G & _). apply G; auto.
  - set (a0 := with_memory None (Some 1000000) (Some 1)
      (with_update [("unit", VStr "episodes"); ("batch_size", int_ 8)] plain)).
    assert (D0 : distinct a0) by dist. assert (X : exists m, construct a0 = Ok m) by (eexists; vm_compute; reflexivity).
    destruct X as (m & X). apply construct_ok in X; auto. destruct X as ((_ & _ & X1 & X2 & X3 & _) & _).
    exists (with_memory None (Some 1000000) None (with_update [("unit", VStr "episodes"); ("batch_size", int_ 8)] plain)).
    split; [dist|]. split; [gives|]. split; [reflexivity|]. split; [reflexivity|]. split; [reflexivity|].
    split; [exact X2|]. split; [exact X1|]. split; [exact X3|].
    intros n S. inversion S as [b h p K1|x K1 K2|b x K1 K2 K3|x K1 K2|x K1]; try discriminate.
    unfold given in K1; cbn in K1. intuition discriminate.
Qed.
Print Assumptions C167_unlimited_refuted.

(** The buffers for observations fit into the memory *)
Theorem C167_buffers : forall a m c f, distinct a -> construct a = Ok m -> core_initialize a m = Ok (c, f) ->
  0 <= a_policy_past a ->
  (exists x, a_max a = Some x /\ 0 <= x) \/
  (given "unit" (a_update a) (VStr "timesteps") /\
   forall n, a_buffer_observe a = Some n -> a_parallel_interactions a <= 1 /\ exists b, largest_batch a b /\ n <= b + 1) ->
  c <= m_capacity m.
Proof.
  intros a m c f D E I P H. assert (E' := E). apply construct_ok in E'; auto. destruct E' as ((_ & _ & _ & _ & _ & G) & O).
  assert (HE : horizon_effect a (m_horizon m)) by apply O. assert (UE : update_effect (a_update a) (m_update m)) by apply O.
  destruct (C167_capacity a m D E) as (S & _ & _). unfold core_initialize in I. apply bind_inv in I. destruct I as (c' & I & F).
  assert (c' = c).
  { destruct (u_frequency (m_update m)) as [(?, [?|])|]; try discriminate. injection F; auto. }
  subst c'. clear F.
  assert (M : forall x, a_max a = Some x -> 0 <= x -> x <= m_capacity m).
  { intros x Ex Hx. destruct (unit_cases a _ D UE) as [(U & _)|(U & _)].
    - apply S, space_episode; auto. destruct UE as (_ & _ & Gu & _). rewrite U in Gu. auto.
    - assert (Gu : given "unit" (a_update a) (VStr "episodes")) by (destruct UE as (_ & _ & Gu & _); rewrite U in Gu; auto).
      destruct G as (_ & G & _). destruct (G Gu) as (b & L); [congruence|]. assert (X := S _ (space_episodes a b x Gu L Ex)).
      apply (largest_iff a _ b (proj1 D) UE) in L. destruct UE as (_ & _ & _ & batch & _ & R & (y & Y1 & Y2) & _).
      rewrite L, Y1 in R. assert (y <= b) by (inversion R as [k K|lo' hi' k K]; [lia|apply K; auto]). nia. }
  destruct H as [(x & Ex & Hx)|(Gu & B)].
  - specialize (M x Ex Hx). rewrite Ex in I. destruct (m_horizon m) as [|s], (a_buffer_observe a) as [n|]; try (injection I as <-; auto; fail).
    destruct (a_parallel_interactions a >? 1); [injection I as <-; auto|]. destruct (snd s); [|discriminate]. injection I as <-. lia.
  - assert (N : forall x, a_max a = Some x -> x <= m_capacity m) by (intros x Ex; apply S, space_episode; auto).
    destruct (a_buffer_observe a) as [n|] eqn:Eb.
    + destruct (B n eq_refl) as (Pa & b & L & Hn).
      destruct (m_horizon m) as [|s] eqn:Eh.
      * destruct (a_max a) as [x|] eqn:Ex; [|discriminate]. injection I as <-. auto.
      * replace (a_parallel_interactions a >? 1) with false in I by (symmetry; rewrite Z.gtb_ltb; apply Z.ltb_ge; auto).
        destruct (snd s) as [s'|] eqn:Es; [|discriminate].
        assert (LH : longest_horizon a s') by (apply (longest_iff a _ s' (proj1 (proj2 D)) HE); auto).
        assert (X := S _ (space_batch a b s' _ Gu L LH (proj2 (past_iff a _) eq_refl))).
        destruct (a_max a) as [x|]; injection I as <-; lia.
    + assert (I' : match a_max a with Some x => Ok x | None => Err "TypeError" end = Ok c) by (destruct (m_horizon m); auto).
      destruct (a_max a) as [x|] eqn:Ex; [|discriminate]. injection I' as <-. auto.
Qed.
Print Assumptions C167_buffers.

(** They do not, if there is no bound for the length of episodes and batches are episodes *)
Theorem C167_buffers_refuted : exists a m c f, distinct a /\ construct a = Ok m /\ core_initialize a m = Ok (c, f) /\
  0 <= a_policy_past a /\ m_capacity m < c.
Proof.
  exists (with_memory None None (Some 4) (with_update [("unit", VStr "episodes"); ("batch_size", int_ 8)] plain)).
  eexists. eexists. eexists. split; [dist|]. split; [vm_compute; reflexivity|]. split; [vm_compute; reflexivity|]. split; cbn; lia.
Qed.
Print Assumptions C167_buffers_refuted.

Example C167_example : let a := with_memory (Some 100) (Some 200) (Some 50) plain in distinct a /\
  space a 85 /\ space a 100 /\ exists m, construct a = Ok m /\ m_capacity m = 200 /\ core_initialize a m = Ok (70, -16).
Proof.
  cbn zeta. split; [dist|]. split; [|split].
  - apply (space_batch _ 64 20 0).
    + gives.
    + exists (int_ 64), (Some 64). split; [gives|constructor].
    + right. exists (int_ 20), (Some 20). split; [gives|constructor].
    + split; [auto|]. split; [cbn; lia|]. cbn. congruence.
  - apply space_episode; [gives|reflexivity].
  - eexists. split; [vm_compute; reflexivity|]. split; reflexivity.
Qed.
Example C167_example_rejected : let a := with_memory (Some 100) (Some 99) (Some 50) plain in distinct a /\ ~ good_memory a.
Proof.
  cbn zeta. split; [dist|]. intros (_ & _ & _ & G). specialize (G 99 eq_refl 100).
  assert (100 <= 99); [|lia]. apply G. apply space_episode; [gives|reflexivity].
Qed.

(** ** C168: exploration *)
Theorem C168_exploration : forall a m, distinct a -> construct a = Ok m ->
  exploration_effect a (m_exploration m) /\ scale_effect (a_variable_noise a) (m_noise m).
Proof. intros a m D E. apply construct_ok in E; auto. destruct E as (_ & O). split; apply O. Qed.
Print Assumptions C168_exploration.

(** Exploration for each action is a probability, or a scale for numbers *)
Theorem C168_probabilities : forall a m l n t b, distinct a -> construct a = Ok m -> m_exploration m = PerAction l ->
  In (n, t) (a_actions a) -> In (n, Some b) l -> nonnegative (fst b) /\ (t <> TFloat -> at_most_one (snd b)).
Proof.
  intros a m l n t b D E El I I'. apply C168_exploration in E; auto. destruct E as (E & _). unfold exploration_effect in E. rewrite El in E.
  destruct (a_exploration a) as [v|d p]; [tauto|]. destruct E as (_ & Em & E).
  apply In_nth_error in I. destruct I as (i & I). destruct (E i n t I) as (b' & N & A).
  assert (b' = Some b).
  { apply In_nth_error in I'. destruct I' as (j & J). assert (ND : NoDup (map fst l)) by (rewrite Em; apply D).
    rewrite NoDup_nth_error in ND. assert (i = j).
    - apply ND. + rewrite map_length. apply nth_error_Some. rewrite N. discriminate.
      + rewrite (map_nth_error fst _ _ N), (map_nth_error fst _ _ J). reflexivity.
    - subst. congruence. }
  subst b'. destruct A as [(v & w & _ & _ & _ & A1 & A2 & [= <-])|(_ & A)]; [auto|discriminate].
Qed.
Print Assumptions C168_probabilities.

Theorem C168_rejected : forall a, distinct a -> ~ good_exploration a -> exists e, construct a = Err e.
Proof. intros a D N. apply rejected; auto. intros (G & _). auto. Qed.
Print Assumptions C168_rejected.

(** One exploration for all actions is not bounded by 1, even if no action is a number *)
Theorem C168_global_refuted : exists a m, distinct a /\ none_float a /\ construct a = Ok m /\ m_exploration m = Global (Some (3#2), Some (3#2))%Q.
Proof.
  exists (with_exploration (EValue (float_ (3 # 2))) [("move", TInt)] plain). eexists. split; [dist|]. split.
  - intros n t [H|[]]. injection H as <- <-. discriminate.
  - split; [vm_compute; reflexivity|reflexivity].
Qed.
Print Assumptions C168_global_refuted.

(** Exploration for types of actions, which are no names of actions, is not found: it is taken for the specification of a
    parameter, which it is not *)
Theorem C168_type_refuted : forall a d p, distinct a -> a_exploration a = EDict d p -> ~ positive_float p ->
  (exists k v, In k ["bool"; "int"; "float"] /\ given k d v /\ forall t, ~ In (k, t) (a_actions a)) -> exists e, construct a = Err e.
Proof.
  intros a d p D E N (k & v & _ & G & H). apply C168_rejected; auto. unfold good_exploration. rewrite E.
  intros [(A & _)|(_ & B)]; [|tauto]. destruct (A k v G) as (t & I). apply (H t I).
Qed.
Print Assumptions C168_type_refuted.

(** The exploration for an action which is called like a type serves for other actions of this type, too *)
Theorem C168_own_refuted : exists a m d p l b, distinct a /\ a_exploration a = EDict d p /\ construct a = Ok m /\
  m_exploration m = PerAction l /\ In ("move", TInt) (a_actions a) /\ In ("int", TInt) (a_actions a) /\ omitted "move" d /\ In ("move", Some b) l.
Proof.
  exists (with_exploration (EDict [("int", float_ (1 # 10))] VOther) [("move", TInt); ("int", TInt)] plain).
  eexists. eexists. eexists. eexists. eexists. split; [dist|]. split; [reflexivity|]. split; [vm_compute; reflexivity|]. split; [reflexivity|].
  split; [cbn; auto|]. split; [cbn; auto|]. split; [intros v; unfold given; cbn; intuition discriminate|]. cbn. left. reflexivity.
Qed.
Print Assumptions C168_own_refuted.

Example C168_example : let a := with_exploration (EDict [("turn", float_ 2); ("move", float_ (1 # 10))] VOther) [("move", TInt); ("turn", TFloat); ("stop", TBool)] plain in
  distinct a /\ exists m, construct a = Ok m /\
  m_exploration m = PerAction [("move", Some (Some (1 # 10), Some (1 # 10))); ("turn", Some (Some 2, Some 2)); ("stop", None)]%Q.
Proof. cbn zeta. split; [dist|]. eexists. split; [vm_compute; reflexivity|reflexivity]. Qed.
Example C168_example_rejected : let a := with_exploration (EDict [("int", float_ (1 # 10))] VOther) [("move", TInt)] plain in
  distinct a /\ a_exploration a = EDict [("int", float_ (1 # 10))] VOther /\ ~ positive_float VOther /\
  (exists k v, In k ["bool"; "int"; "float"] /\ given k [("int", float_ (1 # 10))] v /\ forall t, ~ In (k, t) (a_actions a)).
Proof.
  cbn zeta. split; [dist|]. split; [reflexivity|]. split; [intros (lo & hi & R & _); inversion R|].
  exists "int", (float_ (1 # 10)). split; [cbn; auto|]. split; [gives|]. intros t [H|[]]. discriminate.
Qed.

(** ** C169: all arguments *)
Theorem C169_accepted : forall a, distinct a -> (exists m, construct a = Ok m) <-> accepted a.
Proof.
  intros a D. split; [intros (m & E); apply (construct_ok a m D E)|apply construct_total; auto].
Qed.
Print Assumptions C169_accepted.

(** The weight for the loss of the baseline *)
Theorem C169_weight : forall a m, distinct a -> construct a = Ok m -> weight_effect a (m_weight m).
Proof. intros a m D E. apply construct_ok in E; auto. destruct E as (_ & O). apply O. Qed.
Print Assumptions C169_weight.

(** After the constructor, the initialization fails exactly if updates never happen, or if the length of the buffers is not
    known *)
Theorem C169_initialize : forall a m, distinct a -> construct a = Ok m ->
  (exists r, core_initialize a m = Ok r) <->
  (~ given "frequency" (a_update a) (VStr "never") /\
   (a_max a <> None \/
    (a_parallel_interactions a <= 1 /\ a_buffer_observe a <> None /\
     exists v lo n, given "horizon" (a_reward_estimation a) v /\ int_range v lo (Some n)))).
Proof.
  intros a m D E. assert (E' := E). apply construct_ok in E'; auto. destruct E' as (_ & O).
  assert (HE : horizon_effect a (m_horizon m)) by apply O. assert (UE : update_effect (a_update a) (m_update m)) by apply O.
  assert (ND := proj1 (proj2 D)).
  assert (F : ~ given "frequency" (a_update a) (VStr "never") -> exists lo f, u_frequency (m_update m) = Some (lo, Some f)).
  { intros N. destruct UE as (_ & _ & _ & batch & _ & _ & _ & C). destruct C as [(C & _)|(most & f & s & _ & C1 & C2 & _)]; [tauto|].
    destruct (C164_frequency a m f most D E C2 C1) as (k & K & _). exists (fst f), k. rewrite C2. destruct f; cbn in K; subst; auto. }
  split.
  - intros ((c, f) & I). split.
    + intros N. destruct (proj1 C164_never_refuted a m D E N) as (e & He). congruence.
    + unfold core_initialize in I. apply bind_inv in I. destruct I as (c' & I & _).
      destruct (a_max a) as [x|]; [left; discriminate|right].
      destruct HE as [(G & Eh)|(v & lo & hi & G & R & _ & _ & Eh)]; rewrite Eh in I.
      * discriminate.
      * destruct (a_buffer_observe a); [|discriminate]. destruct (a_parallel_interactions a >? 1) eqn:P; [discriminate|].
        rewrite Z.gtb_ltb in P. apply Z.ltb_ge in P. split; auto. split; [discriminate|].
        cbn in I. destruct hi as [n|]; [|discriminate]. eauto.
  - intros (N & H). destruct (F N) as (lo & f & Ef). unfold core_initialize. rewrite Ef.
    destruct HE as [(G & Eh)|(v & lo' & hi & G & R & _ & M & Eh)]; rewrite Eh.
    + destruct H as [H|(_ & _ & v & l & n & G' & R)].
      * destruct (a_max a); [cbn; eauto|congruence].
      * assert (v = VStr "episode") as -> by (eapply given_fun; eauto). inversion R.
    + destruct H as [H|(P & B & v' & l & n & G' & R')].
      * destruct (a_max a) as [x|]; [|congruence]. destruct (M x eq_refl) as (y & -> & _). cbn [snd].
        destruct (a_buffer_observe a); [|cbn; eauto]. destruct (_ >? 1); cbn; eauto.
      * assert (v' = v) as -> by (eapply given_fun; eauto). destruct (int_range_fun _ _ _ _ _ R R') as (_ & ->).
        replace (a_parallel_interactions a >? 1) with false by (symmetry; rewrite Z.gtb_ltb; apply Z.ltb_ge; auto).
        destruct (a_buffer_observe a); [|congruence]. cbn. eauto.
Qed.
Print Assumptions C169_initialize.

Example C169_example : accepted plain /\ accepted actor_critic.
Proof.
  split; (apply C169_accepted; [dist|]); eexists; vm_compute; reflexivity.
Qed.
Example C169_example_rejected : ~ accepted (with_baseline (Typed ValuePolicy) None plain).
Proof.
  rewrite <- C169_accepted by dist. intros (m & E). vm_compute in E. discriminate.
Qed.
