(** Proofs for C165, C166, C168: reward estimation, policy and baseline, exploration. *)

From Coq Require Import String List ZArith QArith Bool Lia Lqa.
From Verif Require Import Base CfgModel CfgSpec CfgProofs.
Import ListNotations.
Open Scope string_scope.
Open Scope list_scope.
Open Scope Z_scope.

(** ** Horizon *)
Lemma no_baseline_dec a : {no_baseline a} + {~ no_baseline a}.
Proof.
  unfold no_baseline. destruct (a_baseline a); [right; intros [H _]; discriminate|].
  destruct (a_baseline_objective a); [right; intros [_ H]; discriminate|left; auto].
Qed.

Lemma predict_horizon_eq a p : predict_horizon a p =
  if no_baseline_dec a then (if has "predict_horizon_values" (a_reward_estimation a) then p else False_) else p.
Proof.
  unfold predict_horizon, False_. destruct (no_baseline_dec a) as [[-> ->]|N]; auto.
  unfold no_baseline in N. destruct (a_baseline a), (a_baseline_objective a); auto. exfalso; auto.
Qed.

Lemma val_none_dec v : {v = VNone} + {v <> VNone}.
Proof. destruct v; [left|right|right|right|right|right]; congruence. Qed.

Lemma predicts_fun a v w : NoDup (map fst (a_reward_estimation a)) -> predicts_horizon a v -> predicts_horizon a w -> v = w.
Proof.
  intros ND. unfold predicts_horizon. cbn zeta.
  intros [(N & O & ->)|[(G & X)|([G|(O & N)] & [(H & ->)|(H & ->)])]] [(N' & O' & ->)|[(G' & X')|([G'|(O' & N')] & [(H' & ->)|(H' & ->)])]];
    try tauto; try (match goal with G : given ?k _ _, O : omitted ?k _ |- _ => destruct (given_omitted _ _ _ G O) end).
  all: try (eapply given_fun; eauto; fail); exfalso; try (apply X; eapply given_fun; eauto; fail); try (apply X'; eapply given_fun; eauto; fail).
Qed.

Lemma horizon_ok a h p : NoDup (map fst (a_reward_estimation a)) -> return_horizon (a_max a) (a_reward_estimation a) = Ok (h, p) ->
  good_horizon a /\ horizon_effect a h /\ predicts_horizon a (predict_horizon a p).
Proof.
  intros ND. unfold return_horizon. set (r := a_reward_estimation a) in *.
  destruct (get_cases "horizon" r ND) as [(v & -> & G)|(-> & _)]; [|discriminate].
  assert (P : forall d q, (match get_or "predict_horizon_values" VNone r with VNone => d | x => x end) = q ->
    ((given "horizon" r (VStr "episode") /\ d = VStr "early") \/ (~ given "horizon" r (VStr "episode") /\ d = VStr "late")) ->
    predicts_horizon a (predict_horizon a q)).
  { intros d q E D. unfold predicts_horizon; cbn zeta. fold r. rewrite predict_horizon_eq. fold r.
    destruct (get_cases "predict_horizon_values" r ND) as [(x & Ex & Gx)|(Ex & Ox)].
    - assert (Hh : has "predict_horizon_values" r = true) by (unfold has; rewrite Ex; auto). rewrite Hh.
      assert (E' : q = (match x with VNone => d | x => x end)) by (unfold get_or in E; rewrite Ex in E; subst q; try destruct x; reflexivity). clear E.
      replace (if no_baseline_dec a then q else q) with q by (destruct (no_baseline_dec a); auto).
      destruct (val_none_dec x) as [->|Nx].
      + right; right. subst q. split; [auto|exact D].
      + right; left. subst q. destruct x; try congruence; auto; split; auto; discriminate.
    - assert (Hh : has "predict_horizon_values" r = false) by (unfold has; rewrite Ex; auto). rewrite Hh.
      assert (E' : q = d) by (unfold get_or in E; rewrite Ex in E; subst q; try destruct x; reflexivity). clear E. subst q.
      destruct (no_baseline_dec a); [left; auto|right; right; auto]. }
  destruct (is_str "episode" v) eqn:S.
  - apply is_str_iff in S; subst v. intros E.
    assert (L : ~ given "predict_horizon_values" r (VStr "late") /\ h = Episode /\ (match get_or "predict_horizon_values" VNone r with VNone => VStr "early" | x => x end) = p).
    { split; [intros X; apply (get_or_some _ _ (VStr "late")) in X; auto; [rewrite X in E; cbn in E; discriminate|discriminate]|].
      destruct (get_or "predict_horizon_values" VNone r); cbv beta iota in E; try (injection E as <- <-; auto; fail);
        destruct (is_str "late" _); try discriminate; injection E as <- <-; auto. }
    destruct L as (L1 & -> & L2). split; [|split].
    + left; auto.
    + left; auto.
    + apply (P _ _ L2). auto.
  - intros E. apply bind_inv in E. destruct E as (b & B & E). injection E as <- <-.
    rewrite int_parameter_ok, ge_int in B. destruct B as (B1 & B2 & B3). destruct b as [lo hi]; cbn [fst snd] in *.
    assert (M : forall n, a_max a = Some n -> at_most n hi) by (intros n E; apply le_int; rewrite <- E; auto).
    assert (N : ~ given "horizon" r (VStr "episode")).
    { intros X. rewrite (given_fun _ _ _ _ ND G X) in S. discriminate. }
    split; [|split].
    + right. exists v, lo, hi. auto.
    + right. exists v, lo, hi. auto.
    + apply (P (VStr "late")); [destruct (get_or "predict_horizon_values" VNone r); reflexivity|auto].
Qed.

Lemma horizon_total a : NoDup (map fst (a_reward_estimation a)) -> good_horizon a ->
  exists h p, return_horizon (a_max a) (a_reward_estimation a) = Ok (h, p).
Proof.
  intros ND. unfold good_horizon, return_horizon; cbn zeta. set (r := a_reward_estimation a) in *.
  intros [(G & L)|(v & lo & hi & G & R & A & M)].
  - apply get_given in G; auto. rewrite G.
    change (is_str "episode" (VStr "episode")) with true. cbv beta iota.
    assert (S : is_str "late" (get_or "predict_horizon_values" VNone r) = false).
    { apply not_true_is_false. rewrite is_str_iff. intros X. apply get_or_some in X; auto. discriminate. }
    rewrite S. destruct (get_or "predict_horizon_values" VNone r); eauto.
  - apply get_given in G; auto. rewrite G.
    assert (S : is_str "episode" v = false) by (destruct v; auto; inversion R). rewrite S.
    assert (E : int_parameter (Some 1) (a_max a) v = Ok (lo, hi)).
    { rewrite int_parameter_ok, ge_int. cbn [fst snd]. split; [exact R|]. split; [exact A|]. exact M. }
    rewrite E. cbn [bind]. eauto.
Qed.

(** ** Advantages *)
Lemma in_loss_iff a : in_loss a = true <-> joint a.
Proof.
  unfold in_loss, joint. destruct (a_baseline a), (a_baseline_objective a), (a_baseline_optimizer a); split; intros H;
    try discriminate; try (destruct H as (A & B & C); congruence); auto; split; [discriminate|auto].
Qed.

Lemma estimates_ok a : NoDup (map fst (a_reward_estimation a)) -> estimates a (advantage a).
Proof.
  intros ND. unfold estimates, advantage; cbn zeta. set (r := a_reward_estimation a) in *.
  destruct (get_cases "estimate_advantage" r ND) as [(v & E & G)|(E & O)].
  - assert (H : has "estimate_advantage" r = true) by (unfold has; rewrite E; auto). rewrite H, andb_false_r.
    unfold get_or; rewrite E. auto.
  - assert (H : has "estimate_advantage" r = false) by (unfold has; rewrite E; auto). rewrite H, andb_true_r.
    right. split; auto. destruct (in_loss a) eqn:J.
    + left. split; auto. apply in_loss_iff; auto.
    + right. split; [rewrite <- in_loss_iff; congruence|]. unfold get_or; rewrite E; auto.
Qed.

Lemma estimates_fun a v w : NoDup (map fst (a_reward_estimation a)) -> estimates a v -> estimates a w -> v = w.
Proof.
  intros ND. unfold estimates; cbn zeta.
  intros [G|(O & [(J & ->)|(J & ->)])] [G'|(O' & [(J' & ->)|(J' & ->)])]; try tauto; try (exfalso; eapply given_omitted; eauto; fail).
  eapply given_fun; eauto.
Qed.

Lemma is_false_advantage a : NoDup (map fst (a_reward_estimation a)) -> is_false (advantage a) = true <-> estimates a False_.
Proof.
  intros ND. rewrite is_false_iff. split; [intros <-; apply estimates_ok; auto|].
  intros H. eapply estimates_fun; eauto. apply estimates_ok; auto.
Qed.

(** ** Processing and decays *)
Lemma processing_ok k r : NoDup (map fst r) -> (exists b, processing k r = Ok b) <-> good_processing k r.
Proof.
  intros ND. unfold processing, good_processing. split.
  - intros (b & E). destruct (get_or k VNone r) eqn:G; try discriminate.
    + left. apply get_or_none; auto.
    + destruct same; [|discriminate]. right. apply get_or_some in G; auto. discriminate.
  - intros [U|G].
    + apply get_or_none in U; auto. rewrite U; eauto.
    + apply (get_or_some _ _ (VLayers true)) in G; auto; [|discriminate]. rewrite G; eauto.
Qed.

Lemma advantage_processing_ok a : NoDup (map fst (a_reward_estimation a)) ->
  (exists b, advantage_processing a = Ok b) <->
  (good_processing "advantage_processing" (a_reward_estimation a) /\ (given "advantage_processing" (a_reward_estimation a) (VLayers true) -> ~ estimates a False_)).
Proof.
  intros ND. rewrite <- is_false_advantage, <- processing_ok by auto. unfold advantage_processing, processing.
  set (r := a_reward_estimation a) in *.
  split.
  - intros (b & E). destruct (get_or "advantage_processing" VNone r) eqn:G.
    + split; eauto. intros X. apply (get_or_some _ _ (VLayers true)) in X; auto; [congruence|discriminate].
    + destruct (is_false (advantage a)); discriminate.
    + destruct (is_false (advantage a)); discriminate.
    + destruct (is_false (advantage a)); discriminate.
    + destruct (is_false (advantage a)); [discriminate|]. split; eauto.
    + destruct (is_false (advantage a)); discriminate.
  - intros ((b & E) & F). destruct (get_or "advantage_processing" VNone r) eqn:G; try discriminate; eauto.
    destruct same; [|discriminate]. apply get_or_some in G; auto; [|discriminate].
    destruct (is_false (advantage a)); [exfalso; apply F; auto|eauto].
Qed.

Lemma trace_ok a p : NoDup (map fst (a_reward_estimation a)) -> predicts_horizon a p ->
  (exists t, trace_decay a p = Ok t) <->
  (forall v, value_or "trace_decay" (a_reward_estimation a) (VNum (NFloat 1)) v -> fraction v /\ (number_is v 1 \/ predicts_horizon a (VStr "early"))).
Proof.
  intros ND P. unfold trace_decay.
  assert (Q : is_str "early" p = true <-> predicts_horizon a (VStr "early")).
  { rewrite is_str_iff. split; [intros <-; auto|]. intros H. eapply predicts_fun; eauto. }
  set (v := get_or "trace_decay" (VNum (NFloat 1)) (a_reward_estimation a)).
  assert (V : value_or "trace_decay" (a_reward_estimation a) (VNum (NFloat 1)) v) by (apply get_or_value; auto).
  split.
  - intros (t & E) v' V'. apply get_or_value in V'; auto. subst v'. fold v.
    destruct (equals v 1) eqn:Eq; cbn [negb andb] in E.
    + split; [apply fraction_iff; eauto|]. left. apply equals_iff; auto.
    + destruct (is_str "early" p) eqn:S; cbn [negb] in E; [|discriminate].
      split; [apply fraction_iff; eauto|]. right. apply Q; auto.
  - intros H. destruct (H v V) as (F & C). apply fraction_iff in F. destruct F as (w & F). exists w.
    destruct C as [C|C].
    + apply equals_iff in C. rewrite C. cbn. auto.
    + apply Q in C. rewrite C. rewrite andb_false_r. auto.
Qed.

Lemma gae_ok a : NoDup (map fst (a_reward_estimation a)) ->
  (exists t, gae_decay a = Ok t) <->
  (forall v, value_or "gae_decay" (a_reward_estimation a) (VNum (NFloat 0)) v ->
     fraction v /\ (number_is v 0 \/ (a_memory a = Recent /\ ~ estimates a False_ /\ ~ joint a))).
Proof.
  intros ND. unfold gae_decay. assert (HA := is_false_advantage a ND). assert (HJ := in_loss_iff a).
  set (v := get_or "gae_decay" (VNum (NFloat 0)) (a_reward_estimation a)).
  assert (V : value_or "gae_decay" (a_reward_estimation a) (VNum (NFloat 0)) v) by (apply get_or_value; auto).
  split.
  - intros (t & E) v' V'. apply get_or_value in V'; auto. subst v'. fold v.
    destruct (equals v 0) eqn:Eq; cbn [negb] in E.
    + split; [apply fraction_iff; eauto|]. left. apply equals_iff; auto.
    + destruct (a_memory a); [|discriminate]. destruct (is_false (advantage a)); [discriminate|].
      destruct (in_loss a); [discriminate|]. split; [apply fraction_iff; eauto|]. right.
      rewrite <- HA, <- HJ. split; [auto|]. split; discriminate.
  - intros H. destruct (H v V) as (F & C). apply fraction_iff in F. destruct F as (w & F). exists w.
    destruct C as [C|(-> & A & J)].
    + apply equals_iff in C. rewrite C. cbn. auto.
    + rewrite <- HA in A. rewrite <- HJ in J. destruct (equals v 0); cbn [negb]; auto.
      destruct (is_false (advantage a)); [congruence|]. destruct (in_loss a); [congruence|auto].
Qed.

(** ** Objectives *)
Lemma policy_fns_iff o f : In f (policy_fns o) <-> uses o f.
Proof.
  split.
  - induction o as [| |[]|]; cbn; try (intros [<-|[]]; constructor).
    rewrite in_app_iff; intros [H|H]; [apply uses_left|apply uses_right]; auto.
  - induction 1; cbn; auto; rewrite in_app_iff; auto.
Qed.

Lemma baseline_fns_iff o f : In f (baseline_fns o) <-> deterministic o /\ f = "action_value".
Proof.
  split.
  - induction o as [| |[]|]; cbn; try tauto.
    + intros [<-|[]]. split; [constructor|auto].
    + rewrite in_app_iff; intros [H|H]; [destruct (IHo1 H); split; auto; apply det_left; auto|destruct (IHo2 H); split; auto; apply det_right; auto].
  - intros [D ->]. induction D; cbn; auto; rewrite in_app_iff; auto.
Qed.

Lemma no_baseline_fns o : match baseline_fns o with [] => true | _ => false end = true <-> ~ deterministic o.
Proof.
  split.
  - intros E D. assert (H : In "action_value" (baseline_fns o)) by (apply baseline_fns_iff; auto).
    destruct (baseline_fns o); [destruct H|discriminate].
  - intros N. destruct (baseline_fns o) as [|f l] eqn:E; auto. exfalso; apply N.
    apply (baseline_fns_iff o f). rewrite E; cbn; auto.
Qed.

Lemma continuous_iff a : continuous (a_actions a) = true <-> all_float a.
Proof.
  unfold continuous, all_float. rewrite forallb_forall. split.
  - intros H n t I. specialize (H _ I). cbn in H. destruct t; congruence.
  - intros H (n, t) I. cbn. rewrite (H n t I); auto.
Qed.

Lemma discrete_iff a : discrete (a_actions a) = true <-> none_float a.
Proof.
  unfold discrete, none_float. rewrite forallb_forall. split.
  - intros H n t I. specialize (H _ I). cbn in H. destruct t; congruence.
  - intros H (n, t) I. cbn. specialize (H n t I). destruct t; congruence.
Qed.

Lemma objective_ok_iff a o : objective_ok (a_actions a) o = true <-> (deterministic o -> all_float a).
Proof.
  induction o as [| |b|o1 IH1 o2 IH2]; cbn [objective_ok].
  - split; auto. intros _ D; inversion D.
  - rewrite continuous_iff. split; auto. intros H; apply H; constructor.
  - split; auto. intros _ D; inversion D.
  - rewrite andb_true_iff, IH1, IH2. split.
    + intros [A B] D; inversion D; auto.
    + intros H; split; intros D; apply H; [apply det_left|apply det_right]; auto.
Qed.

(** ** Policy and baseline *)
Lemma value_fn_iff a f : NoDup (map fst (a_reward_estimation a)) -> f = value_fn (a_reward_estimation a) <-> value_function a f.
Proof.
  intros ND. unfold value_fn, value_function. set (r := a_reward_estimation a) in *.
  destruct (get_cases "predict_action_values" r ND) as [(v & E & G)|(E & O)]; unfold get_or; rewrite E.
  - destruct (truthy v) eqn:T.
    + apply truthy_iff in T. split; [intros ->; left; eauto|]. intros [(-> & _)|(_ & H)]; auto. destruct (H v G T).
    + apply falsy_iff in T. split.
      * intros ->; right. split; auto. intros w W. rewrite <- (given_fun _ _ _ _ ND G W). auto.
      * intros [(-> & w & W & X)|(-> & _)]; auto. rewrite <- (given_fun _ _ _ _ ND G W) in X. tauto.
  - cbn. split.
    + intros ->; right. split; auto. intros v G. destruct (O v G).
    + intros [(-> & w & W & X)|(-> & _)]; auto. destruct (O w W).
Qed.

Lemma predicts_iff a p : NoDup (map fst (a_reward_estimation a)) -> predicts_horizon a p ->
  predicts p (advantage a) = true <-> predicting a.
Proof.
  intros ND P. unfold predicts, predicting. rewrite <- is_false_advantage by auto.
  assert (Q : is_false p = true <-> predicts_horizon a False_).
  { rewrite is_false_iff. split; [intros <-; auto|]. intros H. eapply predicts_fun; eauto. }
  rewrite <- Q, orb_true_iff, !negb_true_iff, !not_true_iff_false. tauto.
Qed.

Lemma predicting_dec a p : NoDup (map fst (a_reward_estimation a)) -> predicts_horizon a p -> {predicting a} + {~ predicting a}.
Proof.
  intros ND P. destruct (predicts p (advantage a)) eqn:E; [left|right].
  - apply (predicts_iff a p); auto.
  - rewrite <- (predicts_iff a p) by auto. congruence.
Qed.

Lemma objective_fns_iff a f : In f (baseline_objective_fns a) <-> exists o, a_baseline_objective a = Some o /\ uses o f.
Proof.
  unfold baseline_objective_fns. destruct (a_baseline_objective a) as [o|].
  - rewrite policy_fns_iff. split; [eauto|intros (o' & [= <-] & H); auto].
  - split; [intros []|intros (o & H & _); discriminate].
Qed.

Lemma baseline_part_iff a p f : NoDup (map fst (a_reward_estimation a)) -> predicts_horizon a p ->
  In f ((if predicts p (advantage a) then [value_fn (a_reward_estimation a)] else []) ++ baseline_fns (a_objective a) ++ baseline_objective_fns a) <->
  baseline_use a f.
Proof.
  intros ND P. rewrite !in_app_iff, baseline_fns_iff, objective_fns_iff. unfold baseline_use.
  rewrite <- (predicts_iff a p) by auto. rewrite <- value_fn_iff by auto.
  destruct (predicts p (advantage a)); cbn [In]; intuition congruence.
Qed.

Lemma policy_required_iff a p f : NoDup (map fst (a_reward_estimation a)) -> predicts_horizon a p ->
  In f (policy_required a p) <-> policy_use a f.
Proof.
  intros ND P. unfold policy_required, policy_use. cbn [In]. rewrite in_app_iff, policy_fns_iff.
  rewrite <- (baseline_part_iff a p) by auto. destruct (a_baseline a); cbn [In]; intuition congruence.
Qed.

Lemma baseline_required_iff a p f : NoDup (map fst (a_reward_estimation a)) -> predicts_horizon a p ->
  In f (baseline_required a p) <-> baseline_considered a f.
Proof.
  intros ND P. unfold baseline_required, baseline_considered.
  rewrite <- (baseline_part_iff a p), <- (policy_required_iff a p), <- (predicts_iff a p) by auto.
  rewrite !in_app_iff. destruct (predicts p (advantage a)); cbn [In]; intuition congruence.
Qed.

Lemma within_iff fns allowed : within fns allowed = true <-> forall f, In f fns -> In f allowed.
Proof. unfold within. rewrite forallb_forall. split; intros H f I; apply existsb_str; auto. Qed.

Definition functions : list string := ["policy"; "stochastic"; "state_value"; "action_value"].
Lemma uses_functions o f : uses o f -> In f functions.
Proof. induction 1; cbn; auto. Qed.
Lemma baseline_use_functions a f : baseline_use a f -> In f functions.
Proof.
  intros [(_ & [(-> & _)|(-> & _)])|[(_ & ->)|(o & _ & H)]]; cbn; auto. apply (uses_functions o f); auto.
Qed.
Lemma policy_use_functions a f : policy_use a f -> In f functions.
Proof.
  intros [->|[H|(_ & H)]]; [cbn; auto|apply (uses_functions _ f H)|apply (baseline_use_functions a f H)].
Qed.
Lemma considered_functions a f : baseline_considered a f -> In f functions.
Proof. intros [H|(_ & H)]; [apply (baseline_use_functions a f H)|apply (policy_use_functions a f H)]. Qed.

Lemma default_ok a fns (use : string -> Prop) : (forall f, In f fns <-> use f) -> (forall f, use f -> In f functions) ->
  simplest a use (fst (default_module (a_actions a) fns)) /\
  (snd (default_module (a_actions a) fns) = true <->
     fst (default_module (a_actions a) fns) = Distributions /\ (use "state_value" \/ use "action_value")).
Proof.
  intros F A. unfold default_module.
  assert (W1 : within fns ["state_value"] = true <-> (forall f, use f -> f = "state_value")).
  { rewrite within_iff. split; intros H f I; [apply F in I; destruct (H f I) as [<-|[]]; auto|cbn; left; symmetry; apply H, F; auto]. }
  assert (W2 : within fns ["action_value"] = true <-> (forall f, use f -> f = "action_value")).
  { rewrite within_iff. split; intros H f I; [apply F in I; destruct (H f I) as [<-|[]]; auto|cbn; left; symmetry; apply H, F; auto]. }
  assert (W3 : within fns ["policy"; "action_value"; "state_value"] = true <-> ~ use "stochastic").
  { rewrite within_iff. split.
    - intros H U. apply F in U. specialize (H _ U). cbn in H. destruct H as [H|[H|[H|[]]]]; discriminate.
    - intros H f I. assert (U := proj1 (F f) I). specialize (A f U). cbn in A. cbn.
      destruct A as [<-|[<-|[<-|[<-|[]]]]]; auto; destruct (H U). }
  assert (W4 : within fns ["policy"; "stochastic"] = true <-> ~ (use "state_value" \/ use "action_value")).
  { rewrite within_iff. split.
    - intros H [U|U]; apply F in U; specialize (H _ U); cbn in H; destruct H as [H|[H|[]]]; discriminate.
    - intros H f I. assert (U := proj1 (F f) I). specialize (A f U). cbn in A. cbn.
      destruct A as [<-|[<-|[<-|[<-|[]]]]]; auto; exfalso; apply H; auto. }
  assert (C := continuous_iff a). assert (D := discrete_iff a).
  destruct (within fns ["state_value"]); cbn [fst snd].
  { split; [cbn [simplest]; apply W1; auto|]. split; [discriminate|intros [H _]; discriminate]. }
  assert (N1 : ~ (forall f, use f -> f = "state_value")) by (rewrite <- W1; discriminate).
  destruct (within fns ["action_value"] && continuous (a_actions a)) eqn:E2; cbn [fst snd].
  { apply andb_true_iff in E2. destruct E2 as [E2 E3]. split; [cbn; split; auto; split; [apply W2; auto|apply C; auto]|].
    split; [discriminate|intros [H _]; discriminate]. }
  assert (N2 : ~ ((forall f, use f -> f = "action_value") /\ all_float a)).
  { rewrite <- W2, <- C, <- andb_true_iff. congruence. }
  destruct (within fns ["policy"; "action_value"; "state_value"] && discrete (a_actions a)) eqn:E3; cbn [fst snd].
  { apply andb_true_iff in E3. destruct E3 as [E3 E4]. split; [cbn; split; auto; split; auto; split; [apply W3; auto|apply D; auto]|].
    split; [discriminate|intros [H _]; discriminate]. }
  assert (N3 : ~ (~ use "stochastic" /\ none_float a)).
  { rewrite <- W3, <- D, <- andb_true_iff. congruence. }
  destruct (within fns ["policy"; "stochastic"]); cbn [fst snd].
  { split; [cbn; auto|]. split; [discriminate|]. intros [_ H]. exfalso. apply W4; auto. }
  split; [cbn; auto|]. split; auto. intros _. split; auto.
  destruct (in_dec string_dec "state_value" fns) as [I|I]; [left; apply F; auto|].
  destruct (in_dec string_dec "action_value" fns) as [J|J]; [right; apply F; auto|].
  exfalso. rewrite F in I, J. assert (X : false = true) by (apply W4; tauto). discriminate.
Qed.

Lemma simplest_fun a use c c' : simplest a use c -> simplest a use c' -> c = c'.
Proof. destruct c, c'; cbn; intros A B; auto; tauto. Qed.

Lemma simplest_provides a (use : string -> Prop) c f : (forall f, use f -> In f functions) -> simplest a use c -> use f -> provides c f.
Proof.
  intros A S U. destruct c; cbn in S |- *; auto.
  - destruct S as (_ & H & _). auto.
  - destruct S as (_ & _ & N & _). specialize (A f U). cbn in A. destruct A as [H|[H|[H|[H|[]]]]]; auto. subst f; tauto.
  - specialize (A f U). cbn in A. auto.
Qed.

(** ** Exploration *)
Lemma named_iff a d : forallb (fun k => existsb (fun p => String.eqb (fst k) (fst p)) (a_actions a)) d = true <->
  (forall k v, given k d v -> exists t, In (k, t) (a_actions a)).
Proof.
  rewrite forallb_forall. unfold given. split.
  - intros H k v I. specialize (H _ I). apply existsb_exists in H. destruct H as ((n, t) & I' & E). cbn in E.
    apply String.eqb_eq in E; subst. eauto.
  - intros H (k, v) I. destruct (H k v I) as (t & I'). apply existsb_exists. exists (k, t). split; auto. cbn. apply String.eqb_refl.
Qed.

Lemma action_exploration_ok d n t b : NoDup (map fst d) -> action_exploration d (n, t) = Ok b <-> action_effect d n t b.
Proof.
  intros ND. unfold action_exploration, action_effect. cbn [fst snd]. cbn zeta. fold (type_name t).
  set (v := match get n d with Some v => v | None => get_or (type_name t) VNone d end).
  assert (V : (v <> VNone -> given n d v \/ (omitted n d /\ given (type_name t) d v)) /\ (v = VNone -> given n d VNone \/ (omitted n d /\ unset (type_name t) d)) /\
              (forall w, (given n d w \/ (omitted n d /\ given (type_name t) d w)) -> w = v) /\
              ((given n d VNone \/ (omitted n d /\ unset (type_name t) d)) -> v = VNone)).
  { unfold v. destruct (get_cases n d ND) as [(x & -> & G)|(-> & O)].
    - split; auto. split; [intros ->; auto|]. split.
      + intros w [W|(W & _)]; [eapply given_fun; eauto|destruct (given_omitted _ _ _ G W)].
      + intros [W|(W & _)]; [eapply given_fun; eauto|destruct (given_omitted _ _ _ G W)].
    - split; [intros N; right; split; auto; apply get_or_some; auto|]. split; [intros E; right; split; auto; apply get_or_none; auto|].
      split.
      + intros w [W|(_ & W)]; [destruct (given_omitted _ _ _ W O)|]. apply get_given in W; auto. unfold get_or; rewrite W; auto.
      + intros [W|(_ & W)]; [destruct (given_omitted _ _ _ W O)|]. apply get_or_none; auto. }
  destruct V as (V1 & V2 & V3 & V4). clearbody v. destruct (val_none_dec v) as [->|N].
  - split; [intros [= <-]; right; auto|]. intros [(x & w & X & Nx & _)|(_ & ->)]; auto. destruct Nx. rewrite (V3 x X); auto.
  - match goal with |- ?L = Ok b <-> _ =>
      replace L with (do b0 <- float_parameter (Some 0%Q) (match t with TFloat => None | _ => Some 1%Q end) v; Ok (Some b0)) by (destruct v; [congruence|reflexivity..]) end.
    rewrite bind_ok. split.
    + intros (w & E & [= <-]). apply float_parameter_ok in E. rewrite ge_zero in E. destruct E as (E1 & E2 & E3).
      left. exists v, w. split; auto. split; auto. split; auto. split; auto. split; auto. intros NF. apply (proj1 (le_one _)). destruct t; [exact E3|exact E3|congruence].
    + intros [(x & w & X & Nx & E1 & E2 & E3 & ->)|(U & _)]; [|destruct N; auto].
      rewrite (V3 x X) in *. exists w. split; auto. apply float_parameter_ok. rewrite ge_zero. split; auto. split; auto.
      destruct t; [apply (proj2 (le_one _)), E3; discriminate|apply (proj2 (le_one _)), E3; discriminate|apply le_none].
Qed.

Lemma map_res_nth {X Y} (f : X -> res Y) l r : map_res f l = Ok r ->
  length r = length l /\ forall i x, nth_error l i = Some x -> exists y, nth_error r i = Some y /\ f x = Ok y.
Proof.
  revert r; induction l as [|x l IH]; cbn; intros r H.
  - injection H as <-. split; auto. intros [|i] x; discriminate.
  - apply bind_inv in H. destruct H as (y & E & H). apply bind_inv in H. destruct H as (q & Eq & H). injection H as <-.
    destruct (IH q Eq) as (L & N). cbn. split; [congruence|]. intros [|i] z; cbn; [intros [= <-]; eauto|apply N].
Qed.

Lemma map_res_total {X Y} (f : X -> res Y) l : (forall x, In x l -> exists y, f x = Ok y) -> exists r, map_res f l = Ok r.
Proof.
  induction l as [|x l IH]; cbn; intros H; [eauto|]. destruct (H x (or_introl eq_refl)) as (y & ->).
  destruct IH as (r & ->); [auto|]. cbn. eauto.
Qed.

Lemma or_zero_ok v w : float_parameter (Some 0%Q) None (or_zero v) = Ok w <->
  (v = VNone /\ w = (Some 0%Q, Some 0%Q)) \/ (float_range v (fst w) (snd w) /\ nonnegative (fst w)).
Proof.
  rewrite positive_ok. destruct (val_none_dec v) as [->|N].
  - cbn. split.
    + intros (A & B). left. split; auto. destruct w; cbn in *. inversion A; subst; auto.
    + intros [(_ & ->)|(A & _)]; [|inversion A]. cbn. split; [constructor|]. exists 0%Q. split; auto. lra.
  - replace (or_zero v) with v by (destruct v; [destruct N; reflexivity|reflexivity..]). split; [auto|intros [(E & _)|H]; [congruence|auto]].
Qed.

Lemma or_zero_iff v : (exists w, float_parameter (Some 0%Q) None (or_zero v) = Ok w) <-> v = VNone \/ positive_float v.
Proof.
  unfold positive_float. split.
  - intros (w & E). apply or_zero_ok in E. destruct E as [(E & _)|(A & B)]; eauto.
  - intros [->|(lo & hi & A & B)].
    + exists (Some 0%Q, Some 0%Q). apply or_zero_ok; auto.
    + exists (lo, hi). apply or_zero_ok; auto.
Qed.

Lemma explore_ok a e : distinct a -> explore (a_actions a) (a_exploration a) = Ok e -> good_exploration a /\ exploration_effect a e.
Proof.
  intros (_ & _ & _ & ND). unfold explore, good_exploration, exploration_effect. destruct (a_exploration a) as [v|d v].
  - intros E. apply bind_inv in E. destruct E as (w & E & [= <-]). split; [apply or_zero_iff; eauto|apply or_zero_ok; auto].
  - assert (NI := named_iff a d). destruct (forallb _ d); intros E.
    + apply bind_inv in E. destruct E as (l & E & [= <-]).
      assert (NN := proj1 NI eq_refl). apply map_res_nth in E. destruct E as (L & E).
      assert (E' : forall i n t, nth_error (a_actions a) i = Some (n, t) -> exists b, nth_error l i = Some (n, b) /\ action_effect d n t b).
      { intros i n t H. destruct (E _ _ H) as (y & Hy & F). apply bind_inv in F. destruct F as (b & B & [= <-]).
        exists b. split; auto. apply action_exploration_ok; auto. }
      split.
      * left. split; auto. intros n t I v' G. apply In_nth_error in I. destruct I as (i & I).
        destruct (E' _ _ _ I) as (b & _ & [(x & w & X & Nx & F1 & F2 & F3 & _)|(U & _)]).
        { assert (x = v') as <-.
          { destruct X as [X|(X1 & X2)], G as [G|(G1 & G2)];
            try (match goal with A : given ?k _ _, B : omitted ?k _ |- _ => destruct (given_omitted _ _ _ A B) end); eapply given_fun; eauto. }
          right. split; [exists (fst w), (snd w); auto|]. intros NF. exists (fst w), (snd w); auto. }
        { left. destruct U as [U|(U1 & U2)], G as [G|(G1 & G2)];
            try (match goal with A : given ?k _ _, B : omitted ?k _ |- _ => destruct (given_omitted _ _ _ A B) end).
          - eapply given_fun; eauto.
          - destruct U2 as [U2|U2]; [destruct (given_omitted _ _ _ G2 U2)|eapply given_fun; eauto]. }
      * split; auto. split; auto.
        apply nth_ext with (d := "") (d' := ""); [rewrite !map_length; auto|].
        intros i Hi. rewrite map_length in Hi. 
        destruct (nth_error (a_actions a) i) as [(n, t)|] eqn:Hn; [|apply nth_error_None in Hn; lia].
        destruct (E' _ _ _ Hn) as (b & Hb & _).
        rewrite (nth_indep (map fst l) "" (fst ("", @None (option Q * option Q)))) by (rewrite map_length; lia).
        rewrite (nth_indep (map fst (a_actions a)) "" (fst ("", TBool))) by (rewrite map_length; lia).
        rewrite !map_nth. rewrite (nth_error_nth _ _ _ Hn), (nth_error_nth _ _ _ Hb). auto.
    + assert (NN : ~ (forall k v, given k d v -> exists t, In (k, t) (a_actions a))) by (rewrite <- NI; discriminate).
      apply bind_inv in E. destruct E as (w & E & [= <-]). split.
      * right. split; auto. apply positive_iff; eauto.
      * split; auto. apply positive_ok; auto.
Qed.

Lemma explore_total a : distinct a -> good_exploration a -> exists e, explore (a_actions a) (a_exploration a) = Ok e.
Proof.
  intros (_ & _ & _ & ND). unfold explore, good_exploration. destruct (a_exploration a) as [v|d v].
  - intros H. apply or_zero_iff in H. destruct H as (w & ->). cbn. eauto.
  - assert (NI := named_iff a d). intros H. destruct (forallb _ d).
    + assert (NN := proj1 NI eq_refl). destruct H as [(_ & H)|(N & _)]; [|tauto].
      destruct (map_res_total (fun p => do b <- action_exploration d p; Ok (fst p, b)) (a_actions a)) as (l & ->); [|cbn; eauto].
      intros (n, t) I. cbn [fst].
      assert (X : exists b, action_exploration d (n, t) = Ok b); [|destruct X as (b & ->); cbn; eauto].
      specialize (H n t I). fold (type_name t) in H.
      assert (C : (exists v, v <> VNone /\ (given n d v \/ (omitted n d /\ given (type_name t) d v))) \/ (given n d VNone \/ (omitted n d /\ unset (type_name t) d))).
      { destruct (get_cases n d ND) as [(x & _ & G)|(_ & O)].
        - destruct (val_none_dec x) as [->|]; [right; auto|left; eauto].
        - destruct (get_cases (type_name t) d ND) as [(x & _ & G)|(_ & O')].
          + destruct (val_none_dec x) as [->|]; [right; right; split; auto; right; auto|left; eauto].
          + right; right; split; auto; left; auto. }
      destruct C as [(x & Nx & G)|U].
      * destruct (H x G) as [->|(P & F)]; [congruence|].
        destruct P as (lo & hi & P1 & P2). exists (Some (lo, hi)). apply action_exploration_ok; auto. left. exists x, (lo, hi).
        split; auto. split; auto. split; auto. split; auto. split; auto. intros NF. destruct (F NF) as (lo' & hi' & F1 & F2 & F3).
        cbn. assert (hi' = hi); [|subst; auto]. inversion P1; subst; inversion F1; subst; auto.
      * exists None. apply action_exploration_ok; auto. right; auto.
    + assert (NN : ~ (forall k v, given k d v -> exists t, In (k, t) (a_actions a))) by (rewrite <- NI; discriminate).
      destruct H as [(N & _)|(_ & P)]; [tauto|]. apply positive_iff in P. destruct P as (w & ->). cbn; eauto.
Qed.
