(** What an update trains on what (C90 - C95). *)

From Coq Require Import String List Arith Lia Reals Lra Bool.
From Verif Require Import Base OptVec ParModel DistModel DistProofs ObjModel ObjProps UpdModel.
Import ListNotations.
Open Scope R_scope.

(** ** C93: L2 regularization *)
(** Specification: the trainable variables below a module, each with the coefficient that applies to
    it: its own module's, or the one of the nearest module above that has one. *)
Fixpoint coefficients (above : R) (t : tree) : list (R * tensor) :=
  match t with
  | Node l2 _ vs subs =>
      let c := match l2 with Some c => c | None => above end in
      map (pair c) vs ++ concat (map (fun m => if trainable m then coefficients c m else []) subs)
  end.
Definition squares (t : tensor) : R := tsum (map (fun x => x ^ 2) t).
Definition penalty (l : list (R * tensor)) : R := rsum (map (fun ct => fst ct * squares (snd ct)) l).

Lemma rsum_app l m : rsum (l ++ m) = rsum l + rsum m.
Proof. induction l as [|x l IH]; unfold rsum in *; cbn; [ring|]. rewrite IH. ring. Qed.
Lemma penalty_app l m : penalty (l ++ m) = penalty l + penalty m.
Proof. unfold penalty. rewrite map_app. apply rsum_app. Qed.
Lemma penalty_vars c vs : penalty (map (pair c) vs) = c * vsum (vmap (fun x => x ^ 2) vs).
Proof.
  unfold penalty, vsum, vmap. rewrite map_map. cbn [fst snd]. induction vs as [|t vs IH]; cbn; [lra|].
  fold (rsum (map (fun x => c * squares x) vs)). rewrite IH. unfold squares. cbn. lra.
Qed.

Fixpoint tree_ind' (P : tree -> Prop) (H : forall l2 b vs subs, Forall P subs -> P (Node l2 b vs subs)) (t : tree) : P t :=
  match t with
  | Node l2 b vs subs =>
      H l2 b vs subs ((fix go l : Forall P l := match l with [] => Forall_nil P | x :: l' => Forall_cons x (tree_ind' P H x) (go l') end) subs)
  end.

(** Every trainable variable is penalized once, with its own coefficient. *)
Theorem C93_l2 above t : regularize above t = penalty (coefficients above t).
Proof.
  revert above. induction t as [l2 b vs subs IH] using tree_ind'. intros above.
  cbn [regularize coefficients]. cbv zeta. set (c := match l2 with Some c => c | None => above end).
  rewrite penalty_app, penalty_vars.
  assert (F : forall a, fold_left (fun acc m => if trainable m then acc + regularize c m else acc) subs a
    = a + penalty (concat (map (fun m => if trainable m then coefficients c m else []) subs))).
  { clear b vs. clearbody c. induction IH as [|m subs Hm _ IHs]; intros a; cbn [fold_left map concat].
    - unfold penalty. cbn. lra.
    - rewrite IHs, penalty_app. destruct (trainable m); [rewrite Hm; lra|]. unfold penalty at 2. cbn. lra. }
  rewrite F. f_equal. clearbody c. destruct vs as [|v vs]; [unfold vsum, vmap; cbn; ring|].
  destruct (Req_EM_T c 0) as [->|N]; [lra|reflexivity].
Qed.

Section Update.
Variables X D : Type.
Notation config := (config X D).
Notation state := (state X).
Implicit Type k : config.
Arguments policy_variables {X}.
Arguments separate_variables {X}.

(** ** Specification *)
(** An optimizer that finds the least value of the loss, over the variables it is given. *)
Definition minimizes {Y} (opt : optimizer X Y) : Prop :=
  forall f src y y', opt f src y = Ok y' -> forall z, exists r r', f y' = Ok r /\ f z = Ok r' /\ r <= r'.
(** One that never increases it. *)
Definition descends {Y} (opt : optimizer X Y) : Prop :=
  forall f src y y', opt f src y = Ok y' -> exists r r', f y' = Ok r /\ f y = Ok r' /\ r <= r'.
(** mean of a function over a batch *)
Definition mean {A} (f : A -> R) (l : list A) : R := rmean (map f l).
(** mean squared error (halved) of the baseline's state values with respect to the returns *)
Definition error (m : module X D) (batch : list D) (returns : list R) (b : X) : R :=
  mean (fun dr => 1 / 2 * (rmean (m_states X D m b (fst dr)) - snd dr) ^ 2) (combine batch returns).

Lemma value_loss_mean s m b batch returns refs :
  (exists ls, ObjModel.loss s (ValueObjective true None true) (map (fun d => {| w_logps := m_logps X D m b d; w_states := m_states X D m b d;
     w_actions := m_actions X D m b d; w_critic := None |}) batch) returns refs = Ok ls /\ rmean ls = error m batch returns b).
Proof.
  eexists. split; [apply C88_own_partial; now left|]. unfold error, mean. f_equal.
  revert returns. induction batch as [|d batch IH]; intros [|r rs]; cbn; [reflexivity..|]. now rewrite IH.
Qed.

(** ** C90: training the baseline *)
Definition trains_baseline k m : Prop :=
  k_baseline X D k = Some m /\ k_baseline_objective X D k = Some (ValueObjective true None true).

Lemma update_policy_frozen k opt opt_all batch reward brefs st st' : advantage_in_loss X D k = false ->
  update_policy X D k opt opt_all batch reward brefs st = Ok st' -> separate_variables st' = separate_variables st.
Proof.
  intros A U. unfold update_policy in U. cbv zeta in U. rewrite A in U.
  destruct (estimate_advantage X D k);
    match type of U with (do p <- ?o; _) = _ => destruct o as [p|e] end; cbn in U; try discriminate U; injection U as <-; reflexivity.
Qed.

Lemma update_baseline_frozen k opt batch returns refs st st' : separate X D k = true ->
  update_baseline X D k opt batch returns refs st = Ok st' -> policy_variables st' = policy_variables st.
Proof.
  intros S U. unfold update_baseline in U. cbv zeta in U. rewrite S in U.
  match type of U with (do p <- ?o; _) = _ => destruct o as [p|e] end; cbn in U; try discriminate U; injection U as <-; reflexivity.
Qed.

(** How the baseline's variables come about with an optimizer of their own: from its own loss with
    the (processed) returns as targets, whatever is done about advantages. *)
Lemma baseline_result k m opt opt_all bopt batch terminals returns st st' :
  k_baseline X D k = Some m -> k_baseline_optimizer X D k = Optimizer ->
  core_update X D k opt opt_all bopt batch terminals returns st = Ok st' ->
  exists refs src, bopt (baseline_loss X D k batch (k_return_processing X D k returns) refs) src (separate_variables st) = Ok (separate_variables st').
Proof.
  intros HB HO U.
  assert (S : separate X D k = true) by (unfold separate; now rewrite HB).
  assert (A : advantage_in_loss X D k = false).
  { unfold advantage_in_loss. rewrite HB, HO. now destruct (k_baseline_objective X D k). }
  assert (H : has_baseline_optimizer X D k = true) by (unfold has_baseline_optimizer; now rewrite HO).
  assert (K : forall refs s s', update_baseline X D k bopt batch (k_return_processing X D k returns) refs s = Ok s' ->
    exists src, bopt (baseline_loss X D k batch (k_return_processing X D k returns) refs) src (separate_variables s) = Ok (separate_variables s')).
  { intros refs s s' E. unfold update_baseline in E. cbv zeta in E. rewrite S in E.
    unfold baseline_variables in E. rewrite S in E.
    match type of E with (do p <- bopt _ ?src _; _) = _ => exists src end.
    match type of E with (do p <- ?o; _) = _ => destruct o as [p|e] end; cbn in E; try discriminate E. injection E as <-. reflexivity. }
  unfold core_update in U. cbv zeta in U. rewrite H in U. cbn [andb] in U.
  match type of U with context [update_baseline _ _ _ _ _ _ ?r st] => set (refs := r) in U end. clearbody refs.
  destruct (estimate_advantage X D k) eqn:EA; cbn [negb] in U.
  - destruct (update_baseline X D k bopt batch (k_return_processing X D k returns) refs st) as [s1|e] eqn:E1; [|discriminate U]. cbn [bind] in U.
    match type of U with (do s <- ?o; _) = _ => destruct o as [s2|e] eqn:E2 end; [|discriminate U]. cbn [bind] in U. injection U as <-.
    apply update_policy_frozen in E2; [|exact A]. rewrite E2. exists refs. now apply K.
  - cbn [bind] in U. rewrite A in U.
    match type of U with (do s <- ?o; _) = _ => destruct o as [s2|e] eqn:E2 end; [|discriminate U]. cbn [bind] in U.
    apply update_policy_frozen in E2; [|exact A]. exists refs. rewrite <- E2. now apply K.
  - destruct (update_baseline X D k bopt batch (k_return_processing X D k returns) refs st) as [s1|e] eqn:E1; [|discriminate U]. cbn [bind] in U.
    rewrite A in U.
    match type of U with (do s <- ?o; _) = _ => destruct o as [s2|e] eqn:E2 end; [|discriminate U]. cbn [bind] in U. injection U as <-.
    apply update_policy_frozen in E2; [|exact A]. rewrite E2. exists refs. now apply K.
Qed.

Lemma baseline_loss_value k m batch returns refs b : trains_baseline k m ->
  baseline_loss X D k batch returns refs b
  = Ok (error m batch returns b + penalty (coefficients (k_l2_regularization X D k) (m_tree X D m b))).
Proof.
  intros [HB HV]. unfold baseline_loss. rewrite HV. unfold separate, baseline_view, baseline. rewrite HB.
  destruct (value_loss_mean (k_shapes X D k) m b batch returns refs) as (ls & E & M).
  rewrite E. cbn [bind]. rewrite M, C93_l2. reflexivity.
Qed.

(** With an optimizer of its own, a separate baseline is trained towards the returns: the new
    variables are the best fit to them (plus the L2 penalty) the optimizer can find, in all
    advantage modes, and no worse than the old ones. *)
Theorem C90_fit k m opt opt_all bopt batch terminals returns st st' :
  trains_baseline k m -> k_baseline_optimizer X D k = Optimizer ->
  core_update X D k opt opt_all bopt batch terminals returns st = Ok st' ->
  let total b := error m batch (k_return_processing X D k returns) b + penalty (coefficients (k_l2_regularization X D k) (m_tree X D m b)) in
  (descends bopt -> total (separate_variables st') <= total (separate_variables st))
  /\ (minimizes bopt -> forall b, total (separate_variables st') <= total b).
Proof.
  intros T HO U total. destruct (baseline_result k m opt opt_all bopt batch terminals returns st st' (proj1 T) HO U) as (refs & src & E).
  split.
  - intros H. destruct (H _ _ _ _ E) as (r & r' & E1 & E2 & L).
    rewrite (baseline_loss_value k m) in E1, E2 by exact T. injection E1 as <-. injection E2 as <-. exact L.
  - intros H b. destruct (H _ _ _ _ E b) as (r & r' & E1 & E2 & L).
    rewrite (baseline_loss_value k m) in E1, E2 by exact T. injection E1 as <-. injection E2 as <-. exact L.
Qed.

(** With a weight instead of an optimizer ("shared loss"), the separate baseline is never trained at
    all, whatever the optimizer: the update is given the policy's variables only. *)
Theorem C90_shared_refuted k m opt opt_all bopt batch terminals returns st st' :
  k_baseline X D k = Some m -> k_baseline_optimizer X D k <> Optimizer ->
  (k_baseline_objective X D k = None -> k_baseline_optimizer X D k <> NoOptimizer) ->
  core_update X D k opt opt_all bopt batch terminals returns st = Ok st' ->
  separate_variables st' = separate_variables st.
Proof.
  intros HB HO HN U.
  assert (A : advantage_in_loss X D k = false).
  { unfold advantage_in_loss. rewrite HB. destruct (k_baseline_objective X D k); [reflexivity|].
    destruct (k_baseline_optimizer X D k); [|reflexivity..]. now destruct (HN eq_refl). }
  assert (H : has_baseline_optimizer X D k = false).
  { unfold has_baseline_optimizer. destruct (k_baseline_optimizer X D k); [reflexivity..|congruence]. }
  unfold core_update in U. cbv zeta in U. rewrite H in U. cbn [andb bind] in U.
  match type of U with (do s <- ?o; _) = _ => destruct o as [s2|e] eqn:E2 end; [|discriminate U]. cbn [bind] in U. injection U as <-.
  now apply update_policy_frozen in E2.
Qed.

(** ** C91: the baseline an advantage is taken from *)
(** 'early': the policy's update is the same whatever happens to the baseline. *)
Theorem C91_early k m opt opt_all bopt1 bopt2 batch terminals returns st st1 st2 :
  k_baseline X D k = Some m -> k_estimate_advantage X D k = Some Early ->
  core_update X D k opt opt_all bopt1 batch terminals returns st = Ok st1 ->
  core_update X D k opt opt_all bopt2 batch terminals returns st = Ok st2 ->
  policy_variables st1 = policy_variables st2.
Proof.
  intros HB HE U1 U2.
  assert (S : separate X D k = true) by (unfold separate; now rewrite HB).
  unfold core_update in U1, U2. cbv zeta in U1, U2.
  assert (EA : estimate_advantage X D k = Early) by (unfold estimate_advantage; now rewrite HE).
  rewrite EA in U1, U2. cbn [negb] in U1, U2. rewrite !andb_false_r in U1, U2. cbn [bind] in U1, U2.
  match type of U1 with (do s <- ?o; _) = _ => destruct o as [sp|e] eqn:E2 end; [|discriminate U1]. cbn [bind] in U1, U2.
  rewrite andb_true_r in U1, U2. destruct (has_baseline_optimizer X D k).
  - apply update_baseline_frozen in U1, U2; [congruence|exact S..].
  - congruence.
Qed.

(** Otherwise, it is the one with the already updated baseline: the same as if that had been the
    baseline all along, and is left alone. *)
Definition leave : optimizer X X := fun _ _ b => Ok b.
Lemma refs_unused k opt opt_all batch reward brefs brefs' st : k_baseline_optimizer X D k = Optimizer ->
  update_policy X D k opt opt_all batch reward brefs st = update_policy X D k opt opt_all batch reward brefs' st.
Proof. intros H. destruct k. cbn in H. subst. reflexivity. Qed.
Theorem C91_late k m opt opt_all bopt batch terminals returns st st' :
  k_baseline X D k = Some m -> k_baseline_optimizer X D k = Optimizer ->
  k_estimate_advantage X D k <> Some Early ->
  core_update X D k opt opt_all bopt batch terminals returns st = Ok st' ->
  core_update X D k opt opt_all leave batch terminals returns
    {| policy_variables := policy_variables st; separate_variables := separate_variables st' |} = Ok st'.
Proof.
  intros HB HO HE U.
  assert (S : separate X D k = true) by (unfold separate; now rewrite HB).
  assert (A : advantage_in_loss X D k = false).
  { unfold advantage_in_loss. rewrite HB, HO. now destruct (k_baseline_objective X D k). }
  assert (EA : match estimate_advantage X D k with Early => true | _ => false end = false).
  { unfold estimate_advantage. rewrite A. destruct (k_estimate_advantage X D k) as [[]|]; try reflexivity. now destruct HE. }
  unfold core_update in *. cbv zeta in *. rewrite EA in *.
  unfold has_baseline_optimizer in *. rewrite HO in *. cbn [andb negb] in *.
  match type of U with (do s <- ?o; _) = _ => destruct o as [s1|e] eqn:E1 end; [|discriminate U]. cbn [bind] in U.
  match type of U with (do s <- ?o; _) = _ => destruct o as [s2|e] eqn:E2 end; [|discriminate U]. cbn [bind] in U. injection U as <-.
  pose proof E2 as F2. apply update_policy_frozen in F2; [|exact A].
  apply update_baseline_frozen in E1; [|exact S].
  match goal with |- (do s <- ?o; _) = _ => assert (E : o = Ok s1) end.
  { unfold update_baseline. cbv zeta. unfold leave. rewrite S. cbn [bind]. unfold baseline_variables. rewrite S. cbn.
    rewrite F2, <- E1. now destruct s1. }
  rewrite E. cbn [bind]. erewrite refs_unused by exact HO. rewrite E2. reflexivity.
Qed.

(** The advantage itself, without further processing: return minus prediction. *)
Theorem C91_advantage k batch terminals returns b i d0 : k_gae_decay X D k = 0 ->
  (forall l, k_advantage_processing X D k l = l) -> length returns = length batch -> (i < length batch)%nat ->
  nth i (advantages X D k batch terminals returns b) 0 = nth i returns 0 - prediction X D k b (nth i batch d0).
Proof.
  intros G P L I. unfold advantages. cbv zeta. rewrite P. destruct (Req_EM_T (k_gae_decay X D k) 0); [|contradiction].
  apply (nth_map2_lt (fun r d => r - prediction X D k b d) 0 0 d0); [exact L|lia].
Qed.

(** ** C93: the loss *)
(** Mean objective, minus entropy, plus L2 penalty of the policy (and of a baseline without an
    optimizer of its own), plus the weighted loss of the baseline with its own penalty. *)
Definition mask_tree (b : bool) (t : tree) : tree := match t with Node l2 _ vs subs => Node l2 b vs subs end.
Lemma coefficients_mask b c t : coefficients c (mask_tree b t) = coefficients c t.
Proof. now destruct t. Qed.

Lemma model_regularize_eq k st batch :
  model_regularize X D k st batch =
  penalty (coefficients (k_l2_regularization X D k) (m_tree X D (k_policy X D k) (policy_variables st)))
  + (match k_baseline X D k with
     | Some m => if has_baseline_optimizer X D k then 0 else penalty (coefficients (k_l2_regularization X D k) (m_tree X D m (separate_variables st)))
     | None => 0
     end)
  - k_entropy_regularization X D k * mean (m_entropy X D (k_policy X D k) (policy_variables st)) batch.
Proof.
  unfold model_regularize. cbv zeta. rewrite C93_l2. cbn [coefficients map app]. 
  set (e := if Req_EM_T _ 0 then 0 else _).
  assert (E : e = - k_entropy_regularization X D k * mean (m_entropy X D (k_policy X D k) (policy_variables st)) batch).
  { unfold e, mean. destruct (Req_EM_T (k_entropy_regularization X D k) 0) as [->|N]; lra. }
  rewrite E. clear e E.
  assert (P : forall t, (match t with Node l2 _ vs subs => Node l2 true vs subs end) = mask_tree true t) by reflexivity.
  rewrite P. cbn [map concat].
  replace (trainable (mask_tree true _)) with true by now destruct (m_tree X D (k_policy X D k) (policy_variables st)).
  rewrite coefficients_mask, penalty_app.
  destruct (k_baseline X D k) as [m|].
  - destruct (m_tree X D m (separate_variables st)) as [l2 b vs subs] eqn:T. cbn [map concat trainable].
    unfold baseline_is_trainable. destruct (has_baseline_optimizer X D k); cbn [negb].
    + unfold penalty at 2. cbn. lra.
    + rewrite app_nil_r. cbn [coefficients]. lra.
  - cbn [map concat]. unfold penalty at 2. cbn. lra.
Qed.

Theorem C93_loss k batch reward refs brefs st l : 
  UpdModel.loss X D k batch reward refs brefs st = Ok l ->
  exists ls extra,
    ObjModel.loss (k_shapes X D k) (k_objective X D k) (map (policy_view X D k st) batch) reward refs = Ok ls
    /\ l = rmean ls
       - k_entropy_regularization X D k * mean (m_entropy X D (k_policy X D k) (policy_variables st)) batch
       + penalty (coefficients (k_l2_regularization X D k) (m_tree X D (k_policy X D k) (policy_variables st)))
       + extra
    /\ (k_baseline X D k = None -> baseline_loss_weight X D k = None -> extra = 0)
    /\ (has_baseline_optimizer X D k = true -> extra = 0).
Proof.
  unfold UpdModel.loss. intros U. destruct (ObjModel.loss _ _ _ _ _) as [ls|e]; [|discriminate U]. cbn [bind] in U. cbv zeta in U.
  rewrite model_regularize_eq in U.
  exists ls.
  destruct (baseline_loss_weight X D k) as [w|] eqn:W.
  - assert (HO : has_baseline_optimizer X D k = false).
    { unfold baseline_loss_weight in W. unfold has_baseline_optimizer. destruct (k_baseline_optimizer X D k); [reflexivity..|discriminate W]. }
    rewrite HO in U.
    destruct (Req_EM_T w 0).
    + injection U as <-. exists (match k_baseline X D k with Some m => penalty (coefficients (k_l2_regularization X D k) (m_tree X D m (separate_variables st))) | None => 0 end). split; [reflexivity|]. split; [ring|].
      split; [discriminate|]. congruence.
    + destruct (baseline_loss _ _ _ _ _ _ _) as [bl|e]; [|discriminate U]. cbn [bind] in U. injection U as <-.
      exists (match k_baseline X D k with Some m => penalty (coefficients (k_l2_regularization X D k) (m_tree X D m (separate_variables st))) | None => 0 end + w * bl). split; [reflexivity|]. split; [ring|].
      split; [discriminate|]. congruence.
  - injection U as <-.
    exists (match k_baseline X D k with Some m => if has_baseline_optimizer X D k then 0 else penalty (coefficients (k_l2_regularization X D k) (m_tree X D m (separate_variables st))) | None => 0 end).
    split; [reflexivity|]. split; [lra|]. split; [intros -> _; reflexivity|].
    intros ->. now destruct (k_baseline X D k).
Qed.

(** The baseline's part of a shared loss: its error with respect to the rewards the policy's
    objective gets, and its penalty with coefficient 1 + weight instead of 1 (or weight). *)
Theorem C93_shared k m w batch reward refs brefs st l : trains_baseline k m -> k_baseline_optimizer X D k = Weight w -> w <> 0 ->
  UpdModel.loss X D k batch reward refs brefs st = Ok l ->
  exists ls, ObjModel.loss (k_shapes X D k) (k_objective X D k) (map (policy_view X D k st) batch) reward refs = Ok ls
  /\ l = rmean ls
     - k_entropy_regularization X D k * mean (m_entropy X D (k_policy X D k) (policy_variables st)) batch
     + penalty (coefficients (k_l2_regularization X D k) (m_tree X D (k_policy X D k) (policy_variables st)))
     + w * error m batch reward (separate_variables st)
     + (1 + w) * penalty (coefficients (k_l2_regularization X D k) (m_tree X D m (separate_variables st))).
Proof.
  intros T HW NW. unfold UpdModel.loss. intros U. destruct (ObjModel.loss _ _ _ _ _) as [ls|e]; [|discriminate U]. cbn [bind] in U. cbv zeta in U.
  rewrite model_regularize_eq in U. exists ls. split; [reflexivity|].
  unfold baseline_loss_weight, has_baseline_optimizer in U. rewrite HW in U. destruct (Req_EM_T w 0); [contradiction|].
  rewrite (baseline_loss_value k m) in U by exact T. cbn [bind] in U. injection U as <-.
  destruct T as [HB HV]. unfold baseline_variables, separate. rewrite HB. lra.
Qed.

(** The policy as its own baseline: its values are fitted to the rewards the objective gets. *)
Theorem C93_main k w batch reward refs brefs st l : k_baseline X D k = None ->
  k_baseline_objective X D k = Some (ValueObjective true None true) -> k_baseline_optimizer X D k = Weight w -> w <> 0 ->
  UpdModel.loss X D k batch reward refs brefs st = Ok l ->
  exists ls, ObjModel.loss (k_shapes X D k) (k_objective X D k) (map (policy_view X D k st) batch) reward refs = Ok ls
  /\ l = rmean ls
     - k_entropy_regularization X D k * mean (m_entropy X D (k_policy X D k) (policy_variables st)) batch
     + penalty (coefficients (k_l2_regularization X D k) (m_tree X D (k_policy X D k) (policy_variables st)))
     + w * error (k_policy X D k) batch reward (policy_variables st).
Proof.
  intros HB HV HW NW. unfold UpdModel.loss. intros U. destruct (ObjModel.loss _ _ _ _ _) as [ls|e]; [|discriminate U]. cbn [bind] in U. cbv zeta in U.
  rewrite model_regularize_eq in U. exists ls. split; [reflexivity|].
  unfold baseline_loss_weight, has_baseline_optimizer in U. rewrite HW in U. destruct (Req_EM_T w 0); [contradiction|].
  unfold baseline_loss in U. rewrite HV in U. unfold separate, baseline_view, baseline, baseline_variables, separate in U. rewrite HB in U.
  match type of U with context [ObjModel.loss _ (ValueObjective _ _ _) _ _ ?r] => destruct (value_loss_mean (k_shapes X D k) (k_policy X D k) (policy_variables st) batch reward r) as (ls' & E & M); rewrite E in U end.
  cbn [bind] in U. injection U as <-. rewrite M. lra.
Qed.

(** ** C94: which settings can be run *)
(** An optimizer that evaluates the loss. *)
Definition evaluates {Y} (opt : optimizer X Y) : Prop :=
  forall f src y e, f y = Err e -> exists e', opt f src y = Err e'.

(** A baseline_optimizer without a baseline_objective is documented to share the policy's objective;
    instead, every update fails, unless it is one like synchronization that needs no loss. *)
Theorem C94_shared_objective_refuted k m opt opt_all bopt batch terminals returns st :
  k_baseline X D k = Some m -> k_baseline_objective X D k = None ->
  (k_baseline_optimizer X D k = Optimizer \/ exists w, w <> 0 /\ k_baseline_optimizer X D k = Weight w) ->
  evaluates opt -> evaluates bopt ->
  exists e, core_update X D k opt opt_all bopt batch terminals returns st = Err e.
Proof.
  intros HB HN HO Hp Hb.
  assert (A : advantage_in_loss X D k = false).
  { unfold advantage_in_loss. rewrite HB, HN. destruct HO as [->|(w & _ & ->)]; reflexivity. }
  assert (BL : forall batch r refs b, exists e, baseline_loss X D k batch r refs b = Err e).
  { intros. unfold baseline_loss. rewrite HN. eauto. }
  assert (UB : forall refs s, exists e, update_baseline X D k bopt batch (k_return_processing X D k returns) refs s = Err e).
  { intros refs s. unfold update_baseline. cbv zeta.
    destruct (BL batch (k_return_processing X D k returns) refs (baseline_variables X D k s)) as [e E].
    match goal with |- context [bopt ?f ?src ?y] => destruct (Hb f src y e E) as [e' ->] end. cbn. eauto. }
  unfold core_update. cbv zeta. destruct HO as [HO|(w & Hw & HO)].
  - unfold has_baseline_optimizer. rewrite HO. cbn [andb].
    destruct (estimate_advantage X D k); cbn [negb].
    + match goal with |- context [update_baseline _ _ _ _ _ _ ?r st] => destruct (UB r st) as [e ->] end. cbn. eauto.
    + cbn [bind]. match goal with |- context [do s <- ?o; _] => destruct o as [sp|e] end; cbn [bind]; [|eauto]. apply UB.
    + match goal with |- context [update_baseline _ _ _ _ _ _ ?r st] => destruct (UB r st) as [e ->] end. cbn. eauto.
  - unfold has_baseline_optimizer. rewrite HO. cbn [andb bind].
    match goal with |- context [do s <- ?o; _] => assert (U : exists e, o = Err e) end.
    { unfold update_policy. cbv zeta. rewrite A.
      assert (L : forall r refs brefs s, exists e, UpdModel.loss X D k batch r refs brefs s = Err e).
      { intros r refs brefs s. unfold UpdModel.loss. destruct (ObjModel.loss _ _ _ _ _); cbn [bind]; [|eauto].
        unfold baseline_loss_weight. rewrite HO. destruct (Req_EM_T w 0); [contradiction|].
        match goal with |- context [baseline_loss _ _ _ ?a ?b ?c ?d] => destruct (BL a b c d) as [e ->] end. cbn. eauto. }
      destruct (estimate_advantage X D k);
        match goal with |- context [opt ?f ?src ?y] => destruct (L (k_return_processing X D k returns) [] [] st) as [e0 _];
          assert (E : exists e, f y = Err e) by apply L; destruct E as [e E]; destruct (Hp f src y e E) as [e' ->] end; cbn; eauto. }
    destruct U as [e ->]. cbn. eauto.
Qed.

(** With a policy gradient for the policy and state values for the baseline (VPG, PPO, TRPO, AC with
    a baseline_optimizer), and optimizers that succeed where the loss is defined, every update does. *)
Definition succeeds {Y} (opt : optimizer X Y) : Prop :=
  forall f src y, (forall y', exists r, f y' = Ok r) -> exists y', opt f src y = Ok y'.
Theorem C94_defined k m imp clip early opt opt_all bopt batch terminals returns st :
  trains_baseline k m -> k_objective X D k = PolicyGradient imp clip early ->
  succeeds opt -> succeeds bopt ->
  exists st', core_update X D k opt opt_all bopt batch terminals returns st = Ok st'.
Proof.
  intros T HP Hp Hb.
  assert (A : advantage_in_loss X D k = false).
  { unfold advantage_in_loss. destruct T as [-> ->]. reflexivity. }
  assert (UB : forall refs r s, exists s', update_baseline X D k bopt batch r refs s = Ok s').
  { intros refs r s. unfold update_baseline. cbv zeta.
    match goal with |- context [bopt ?f ?src ?y] => destruct (Hb f src y) as [b' ->] end; [|cbn; eauto].
    intros y'. rewrite (baseline_loss_value k m) by exact T. eauto. }
  assert (UP : forall r brefs s, exists s', update_policy X D k opt opt_all batch r brefs s = Ok s').
  { intros r brefs s. unfold update_policy. cbv zeta. rewrite A.
    assert (L : forall refs s, exists l, UpdModel.loss X D k batch r refs brefs s = Ok l).
    { intros refs s'. unfold UpdModel.loss. rewrite HP. cbn [ObjModel.loss bind]. cbv zeta.
      destruct (baseline_loss_weight X D k) as [w|]; [|eauto]. destruct (Req_EM_T w 0); [eauto|].
      rewrite (baseline_loss_value k m) by exact T. cbn. eauto. }
    destruct (estimate_advantage X D k);
      (match goal with |- context [opt ?f ?src ?y] => destruct (Hp f src y) as [p' ->] end; [|cbn; eauto]); intros y'; apply L. }
  unfold core_update. cbv zeta.
  match goal with |- context [if ?c then update_baseline _ _ _ _ _ _ ?r st else Ok st] => assert (E1 : exists s, (if c then update_baseline X D k bopt batch (k_return_processing X D k returns) r st else Ok st) = Ok s) by (destruct c; [apply UB|eauto]) end.
  destruct E1 as [s1 ->]. cbn [bind].
  match goal with |- context [update_policy _ _ _ _ _ _ ?r ?b s1] => destruct (UP r b s1) as [s2 ->] end. cbn [bind].
  match goal with |- context [if ?c then _ else Ok s2] => destruct c end; [apply UB|eauto].
Qed.

(** ** C95: target networks *)
(** synchronization: the variables become a mixture of the sources and themselves *)
Definition mixes (mix : X -> X -> X) (opt : optimizer X X) : Prop := forall f src y, opt f (Some src) y = Ok (mix src y).
(** a sequence of states, each coming from the one before by an update *)
Fixpoint trace k bopt (st : state) (l : list state) : Prop :=
  match l with
  | [] => True
  | st' :: l' => (exists opt opt_all batch terminals returns, core_update X D k opt opt_all bopt batch terminals returns st = Ok st') /\ trace k bopt st' l'
  end.

(** The baseline of a DQN-like agent only ever changes towards the policies before the updates, from
    the oldest to the newest; the update of the policy it was called in comes too late for it. *)
Theorem C95_target k m mix bopt st l :
  k_baseline X D k = Some m -> k_baseline_optimizer X D k = Optimizer -> k_same_names X D k = true ->
  k_estimate_advantage X D k <> Some Early -> mixes mix bopt -> trace k bopt st l ->
  separate_variables (last l st) = fold_left (fun b s => mix (policy_variables s) b) (removelast (st :: l)) (separate_variables st).
Proof.
  intros HB HO HN HE HC. revert st.
  assert (S : separate X D k = true) by (unfold separate; now rewrite HB).
  assert (A : advantage_in_loss X D k = false).
  { unfold advantage_in_loss. rewrite HB, HO. now destruct (k_baseline_objective X D k). }
  assert (EA : match estimate_advantage X D k with Early => true | _ => false end = false).
  { unfold estimate_advantage. rewrite A. destruct (k_estimate_advantage X D k) as [[]|]; try reflexivity. now destruct HE. }
  induction l as [|st' l IH]; intros st T; [reflexivity|].
  destruct T as [(opt & opt_all & batch & terminals & returns & U) T].
  assert (E : separate_variables st' = mix (policy_variables st) (separate_variables st)).
  { unfold core_update in U. cbv zeta in U. rewrite EA in U. unfold has_baseline_optimizer in U. rewrite HO in U. cbn [andb negb] in U.
    unfold update_baseline in U at 1. cbv zeta in U. rewrite S, HN in U. cbn [negb orb] in U. rewrite HC in U. cbn [bind] in U.
    match type of U with (do s <- ?o; _) = _ => destruct o as [s2|e] eqn:E2 end; [|discriminate U]. cbn [bind] in U. injection U as <-.
    apply update_policy_frozen in E2; [|exact A]. rewrite E2. cbn [separate_variables]. unfold baseline_variables. now rewrite S. }
  specialize (IH st' T). destruct l as [|s'' l].
  - cbn. exact E.
  - change (last (st' :: s'' :: l) st) with (last (s'' :: l) st). 
    assert (L : last (s'' :: l) st = last (s'' :: l) st').
    { clear. revert s''. induction l as [|x l IH]; intros s''; [reflexivity|]. exact (IH x). }
    rewrite L, IH, E. reflexivity.
Qed.

(** ** C90 for a policy that is its own baseline *)
(** Nothing but the values depends on the variables. *)
Definition only_values k : Prop :=
  (forall p p' d, m_logps X D (k_policy X D k) p d = m_logps X D (k_policy X D k) p' d)
  /\ k_entropy_regularization X D k = 0 /\ (forall p, coefficients (k_l2_regularization X D k) (m_tree X D (k_policy X D k) p) = []).

(** Without advantages, its values are trained towards the returns. *)
Theorem C90_main k w imp clip early opt opt_all bopt batch terminals returns st st' :
  k_baseline X D k = None -> k_baseline_objective X D k = Some (ValueObjective true None true) ->
  k_baseline_optimizer X D k = Weight w -> 0 < w -> k_objective X D k = PolicyGradient imp clip early -> only_values k ->
  k_estimate_advantage X D k = Some Never -> descends opt ->
  core_update X D k opt opt_all bopt batch terminals returns st = Ok st' ->
  error (k_policy X D k) batch (k_return_processing X D k returns) (policy_variables st')
  <= error (k_policy X D k) batch (k_return_processing X D k returns) (policy_variables st).
Proof.
  intros HB HV HW PW HP (O1 & O2 & O3) HE HD U.
  unfold core_update in U. cbv zeta in U. unfold has_baseline_optimizer in U. rewrite HW in U. cbn [andb bind] in U.
  assert (EA : estimate_advantage X D k = Never) by (unfold estimate_advantage; now rewrite HE).
  rewrite EA in U. unfold update_policy in U. cbv zeta in U. rewrite EA in U.
  match type of U with context [opt ?f ?src ?y] => destruct (opt f src y) as [p'|e] eqn:E end; [|discriminate U].
  cbn [bind] in U. injection U as <-. cbn [policy_variables].
  destruct (HD _ _ _ _ E) as (r & r' & E1 & E2 & L).
  assert (NW : w <> 0) by lra.
  destruct (C93_main k w _ _ _ _ _ _ HB HV HW NW E1) as (ls & F1 & G1).
  destruct (C93_main k w _ _ _ _ _ _ HB HV HW NW E2) as (ls' & F2 & G2).
  cbn [policy_variables] in G1, G2. rewrite !O3, O2 in G1, G2.
  assert (M : ls = ls').
  { rewrite HP in F1, F2. cbn [ObjModel.loss] in F1, F2. injection F1 as <-. injection F2 as <-.
    match goal with |- map2 ?g (map ?f1 _) ?m = map2 _ (map ?f2 _) _ => generalize m end. intros m0.
    revert m0. generalize batch as b. clear - O1. induction b as [|d b IH]; intros [|x m0]; cbn; [reflexivity..|]. f_equal; [|apply IH].
    unfold pg_loss. cbn [w_logps policy_view policy_variables]. rewrite (O1 p' (policy_variables st) d). reflexivity. }
  subst ls'. apply Rmult_le_reg_l with w; [exact PW|]. lra.
Qed.
End Update.

(** ** C92: generalized advantage estimation *)
(** [n] entries from [i] on: to the end of the episode, or of the batch *)
Definition stretch (terminals : list nat) (i n : nat) : Prop :=
  (0 < n)%nat /\ (i + n <= length terminals)%nat
  /\ (forall j, (j + 1 < n)%nat -> nth (i + j) terminals 0%nat = 0%nat)
  /\ (nth (i + n - 1) terminals 0%nat <> 0%nat \/ (i + n = length terminals)%nat).

Lemma gae_length g d l : length (gae g d l) = length l.
Proof. induction l as [|[a t] l IH]; cbn; [reflexivity|]. now rewrite IH. Qed.

Lemma rsum_map_scale c (f : nat -> R) l : rsum (map (fun j => c * f j) l) = c * rsum (map f l).
Proof. induction l as [|x l IH]; unfold rsum in *; cbn; [ring|]. rewrite IH. ring. Qed.

(** Every entry becomes the sum of the advantages from there on to the end of its episode, weighted
    by powers of discount times decay. *)
Theorem C92_sum g d l i n : stretch (map snd l) i n ->
  nth i (gae g d l) 0 = rsum (map (fun j => (g * d) ^ j * nth (i + j) (map fst l) 0) (seq 0 n)).
Proof.
  revert i n. induction l as [|[a t] l IH]; intros i n (N & L & Z & E).
  - cbn in L. lia.
  - destruct i as [|i].
    + cbn [gae nth]. cbv zeta. destruct n as [|n]; [lia|].
      change (seq 0 (S n)) with (0%nat :: seq 1 n). cbn [map]. rewrite <- seq_shift, map_map.
      change (rsum (?x :: ?r)) with (x + rsum r). rewrite pow_O, Rmult_1_l. cbn [Nat.add nth map fst].
      destruct n as [|n].
      * replace (if Nat.eqb t 0 then hd 0 (gae g d l) else 0) with 0; [cbn; ring|].
        cbn in E. destruct E as [E|E].
        -- destruct (Nat.eqb_spec t 0); [contradiction|reflexivity].
        -- destruct l; [|discriminate E]. cbn. now destruct (Nat.eqb t 0).
      * assert (T : t = 0%nat) by (specialize (Z 0%nat ltac:(lia)); exact Z). subst t. cbn [Nat.eqb].
        assert (H : hd 0 (gae g d l) = nth 0 (gae g d l) 0) by (destruct (gae g d l); reflexivity).
        rewrite H, (IH 0%nat (S n)).
        2:{ repeat split; [lia|cbn in L |- *; lia| |].
            - intros j Hj. specialize (Z (S j) ltac:(lia)). exact Z.
            - destruct E as [E|E]; [left|right].
              + cbn in E |- *. rewrite Nat.sub_0_r. exact E.
              + cbn in E |- *. lia. }
        rewrite <- rsum_map_scale. f_equal. f_equal. apply map_ext. intros j. cbn [Nat.add nth map fst pow]. ring.
    + cbn [gae nth]. cbv zeta. rewrite (IH i n).
      2:{ repeat split; [exact N|cbn in L; lia| |].
          - intros j Hj. exact (Z j Hj).
          - destruct E as [E|E]; [left|right; cbn in E; lia].
            replace (S i + n - 1)%nat with (S (i + n - 1)) in E by lia. exact E. }
      reflexivity.
Qed.

(** One-step advantages of an episode: reward, plus discounted next value, minus value.  [v] are the
    values of the states, 0 after the end. *)
Fixpoint td (g : R) (rv : list (R * R)) : list R :=
  match rv with
  | [] => []
  | (r, v) :: rest => (r + g * (match rest with (_, v') :: _ => v' | [] => 0 end) - v) :: td g rest
  end.
(** discounted returns *)
Fixpoint discounted (g : R) (rv : list (R * R)) : list R :=
  match rv with [] => [] | (r, _) :: rest => (r + g * hd 0 (discounted g rest)) :: discounted g rest end.
Definition terminals_of {A} (l : list A) : list nat := repeat 0%nat (length l - 1) ++ repeat 1%nat (Nat.min 1 (length l)).

(** For an episode of one-step advantages, decay 1.0 gives the full returns minus the values, and
    decay 0.0 the one-step advantages. *)
Theorem C92_episode g rv :
  gae g 1 (combine (td g rv) (terminals_of rv)) = map2 (fun x y => x - snd y) (discounted g rv) rv
  /\ gae g 0 (combine (td g rv) (terminals_of rv)) = td g rv.
Proof.
  assert (T : forall A (x y : A) l, terminals_of (x :: y :: l) = 0%nat :: terminals_of (y :: l)).
  { intros. unfold terminals_of. cbn. now rewrite Nat.sub_0_r. }
  split.
  - induction rv as [|[r v] [|[r' v'] rv] IH]; [reflexivity|cbn; f_equal; ring|].
    rewrite T. change (td g ((r, v) :: (r', v') :: rv)) with ((r + g * v' - v) :: td g ((r', v') :: rv)).
    remember (td g ((r', v') :: rv)) as t eqn:Et. remember (terminals_of ((r', v') :: rv)) as te.
    cbn [combine gae]. cbv zeta. rewrite IH. subst t te. cbn [Nat.eqb discounted map2 hd snd]. f_equal. ring.
  - induction rv as [|[r v] [|[r' v'] rv] IH]; [reflexivity|cbn; f_equal; ring|].
    rewrite T. change (td g ((r, v) :: (r', v') :: rv)) with ((r + g * v' - v) :: td g ((r', v') :: rv)).
    remember (td g ((r', v') :: rv)) as t eqn:Et. remember (terminals_of ((r', v') :: rv)) as te.
    cbn [combine gae]. cbv zeta. rewrite IH. subst t te. f_equal. ring.
Qed.

(** With returns over more than one step the sum counts rewards repeatedly: for full returns, decay
    1.0 does not give returns minus values. *)
Theorem C92_horizon_refuted : ~ (forall g rv,
  gae g 1 (combine (map2 (fun x y => x - snd y) (discounted g rv) rv) (terminals_of rv))
  = map2 (fun x y => x - snd y) (discounted g rv) rv).
Proof. intros H. specialize (H 1 [(0, 0); (1, 0)]). cbn in H. injection H as H. lra. Qed.

(** ** A small agent *)
(** state value = variable; the policy's likelihood does not depend on it *)
Definition small : module R unit :=
  {| m_logps := fun _ _ => [0]; m_states := fun x _ => [x]; m_actions := fun x _ => [x]; m_entropy := fun _ _ => 0;
     m_tree := fun x => Node None true [] [] |}.
Definition agent (b : option (module R unit)) (o : option objective) (u : baseline_update) (e : option advantage) : config R unit :=
  {| k_shapes := [[]]; k_policy := small; k_baseline := b; k_critic := fun b _ _ => b; k_same_names := true;
     k_objective := PolicyGradient false None true; k_baseline_objective := o; k_baseline_optimizer := u;
     k_estimate_advantage := e; k_predict_action_values := false; k_return_processing := fun l => l;
     k_advantage_processing := fun l => l; k_discount := 1; k_gae_decay := 0; k_entropy_regularization := 0; k_l2_regularization := 0 |}.
Definition squared : option objective := Some (ValueObjective true None true).
(** tries one value *)
Definition try (v : R) : optimizer R R := fun f _ y =>
  match f v, f y with Ok a, Ok b => Ok (if Rle_dec a b then v else y) | Err e, _ | _, Err e => Err e end.
Definition idle : optimizer R (state R) := fun _ _ st => Ok st.
Definition at_ (p b : R) : state R := {| policy_variables := p; separate_variables := b |}.

Lemma try_descends v : descends R (try v).
Proof.
  intros f src y y' E. unfold try in E. destruct (f v) as [a|] eqn:Fv; [|discriminate E]. destruct (f y) as [b|] eqn:Fy; [|discriminate E].
  injection E as <-. destruct (Rle_dec a b).
  - exists a, b. auto.
  - exists b, b. auto using Rle_refl.
Qed.

Ltac run := unfold core_update, update_policy, update_baseline, UpdModel.loss, baseline_loss, model_regularize, advantages, prediction, value_losses, rmean, pg_loss, pg_entry, baseline_variables; cbn.
Ltac decide_all := repeat match goal with |- context [Req_EM_T ?a ?b] => destruct (Req_EM_T a b); try lra end.

(** Once estimate_advantage is used, values that were right are trained to become 0: the targets are
    the advantages. *)
Theorem C90_main_refuted : ~ (forall X D (k : config X D) w imp clip early opt opt_all bopt batch terminals returns st st',
  k_baseline X D k = None -> k_baseline_objective X D k = Some (ValueObjective true None true) ->
  k_baseline_optimizer X D k = Weight w -> 0 < w -> k_objective X D k = PolicyGradient imp clip early -> only_values X D k ->
  descends X opt ->
  core_update X D k opt opt_all bopt batch terminals returns st = Ok st' ->
  error X D (k_policy X D k) batch (k_return_processing X D k returns) (policy_variables X st')
  <= error X D (k_policy X D k) batch (k_return_processing X D k returns) (policy_variables X st)).
Proof.
  intros H.
  specialize (H R unit (agent None squared (Weight 1) (Some Late)) 1 false None true (try 0) idle (try 0) [tt] [1%nat] [1] (at_ 1 0) (at_ 0 0)
    eq_refl eq_refl eq_refl Rlt_0_1 eq_refl).
  assert (O : only_values R unit (agent None squared (Weight 1) (Some Late))) by (repeat split; reflexivity).
  specialize (H O (try_descends 0)).
  assert (U : core_update R unit (agent None squared (Weight 1) (Some Late)) (try 0) idle (try 0) [tt] [1%nat] [1] (at_ 1 0) = Ok (at_ 0 0)).
  { run. unfold try. run. decide_all. unfold rmean. cbn. decide_all. destruct (Rle_dec _ _) as [L|L]; [reflexivity|]. exfalso. apply L. lra. }
  specialize (H U). unfold error, mean, rmean in H. cbn in H. lra.
Qed.

(** ** Examples *)
(* a baseline with its own optimizer moves to the mean return; one with a weight stays *)
Example C90_example :
  core_update R unit (agent (Some small) squared Optimizer (Some Late)) (try 5) idle (try 2) [tt; tt] [0%nat; 1%nat] [1; 3] (at_ 0 0) = Ok (at_ 5 2)
  /\ trains_baseline R unit (agent (Some small) squared Optimizer (Some Late)) small /\ descends R (try 2).
Proof.
  split; [|split; [split; reflexivity|apply try_descends]].
  run. unfold try. run. decide_all. unfold rmean. cbn. decide_all. destruct (Rle_dec _ _) as [L|L]; [|exfalso; apply L; lra]. cbn. decide_all.
  destruct (Rle_dec _ _) as [L2|L2]; [|exfalso; apply L2; lra]. reflexivity.
Qed.
Example C90_shared_example :
  core_update R unit (agent (Some small) squared (Weight 1) (Some Late)) (try 5) idle (try 2) [tt; tt] [0%nat; 1%nat] [1; 3] (at_ 0 0) = Ok (at_ 5 0).
Proof.
  run. unfold try. run. decide_all. unfold rmean. cbn. decide_all. destruct (Rle_dec _ _) as [L|L]; [|exfalso; apply L; lra]. reflexivity.
Qed.
Example C90_main_example :
  core_update R unit (agent None squared (Weight 1) (Some Never)) (try 2) idle (try 2) [tt; tt] [0%nat; 1%nat] [1; 3] (at_ 0 0) = Ok (at_ 2 0).
Proof.
  run. unfold try. run. decide_all. unfold rmean. cbn. decide_all. destruct (Rle_dec _ _) as [L|L]; [|exfalso; apply L; lra]. reflexivity.
Qed.
Example C91_example : exists st', core_update R unit (agent (Some small) squared Optimizer (Some Early)) (try 5) idle (try 2) [tt; tt] [0%nat; 1%nat] [1; 3] (at_ 0 0) = Ok st'.
Proof.
  apply (C94_defined R unit _ small false None true); [split; reflexivity|reflexivity| |];
    intros f src y H; unfold try; destruct (H 5) as [a5 E5], (H 2) as [a2 E2], (H y) as [b Eb]; rewrite ?E5, ?E2, Eb; eauto.
Qed.
Example C92_example : stretch [0%nat; 2%nat; 0%nat] 0 2 /\ gae (1 / 2) 1 [(1, 0%nat); (2, 2%nat); (8, 0%nat)] = [2; 2; 8].
Proof.
  split; [repeat split; try (cbn; lia); intros [|j] H; [reflexivity|lia]|]. cbn. f_equal; [lra|]. f_equal; [lra|]. f_equal. lra.
Qed.
(* a module without coefficient below one with 2, next to one with 3 that is not trainable *)
Example C93_example : regularize 7 (Node (Some 2) true [] [Node None true [[1; 2]] []; Node (Some 3) false [[5]] []]) = 10.
Proof. rewrite C93_l2. unfold penalty. cbn. lra. Qed.
Example C94_example : evaluates R (try 1).
Proof. intros f src y e E. unfold try. rewrite E. destruct (f 1); eauto. Qed.
Example C95_example : mixes R (fun s _ => s) (fun _ src y => match src with Some s => Ok s | None => Ok y end)
  /\ trace R unit (agent (Some small) None Optimizer (Some Never)) (fun _ src y => match src with Some s => Ok s | None => Ok y end) (at_ 4 0) [at_ 5 4].
Proof.
  split; [intros f src y; reflexivity|]. split; [|exact I].
  exists (fun _ _ _ => Ok 5), idle, [], [], []. reflexivity.
Qed.

Print Assumptions C90_fit.
Print Assumptions C90_shared_refuted.
Print Assumptions C90_main.
Print Assumptions C90_main_refuted.
Print Assumptions C91_early.
Print Assumptions C91_late.
Print Assumptions C91_advantage.
Print Assumptions C92_sum.
Print Assumptions C92_episode.
Print Assumptions C92_horizon_refuted.
Print Assumptions C93_l2.
Print Assumptions C93_loss.
Print Assumptions C93_shared.
Print Assumptions C93_main.
Print Assumptions C94_shared_objective_refuted.
Print Assumptions C94_defined.
Print Assumptions C95_target.
