(** More about updates: what rewards the policy's objective gets, defaults, and where an update
    starts (C89, C91, C93, C94). *)

From Coq Require Import String List Arith Lia Reals Lra Bool.
From Verif Require Import Base OptVec ParModel DistModel DistProofs ObjModel ObjProps UpdModel UpdProps.
Import ListNotations.
Open Scope R_scope.

(** ** Specification *)
(** arithmetic mean *)
Definition average (l : list R) : R := fold_right Rplus 0 l / INR (length l).
(** All components of actions of given shapes: their indices *)
Fixpoint indices (shape : list nat) : list (list nat) :=
  match shape with
  | [] => [[]]
  | n :: shape => concat (map (fun i => map (cons i) (indices shape)) (seq 0 n))
  end.
Definition components (s : shapes) : list (nat * list nat) :=
  concat (map (fun p => map (pair (fst p)) (indices (snd p))) (combine (seq 0 (length s)) s)).

Lemma indices_length s : length (indices s) = fold_right Nat.mul 1%nat s.
Proof.
  induction s as [|n s IH]; [reflexivity|]. cbn [indices fold_right]. rewrite <- IH. generalize 0%nat at 1.
  induction n as [|n IHn]; intros a; [reflexivity|]. cbn [seq map concat]. rewrite app_length, map_length, IHn. reflexivity.
Qed.
Lemma components_length s : length (components s) = size s.
Proof.
  unfold components, size. generalize 0%nat at 1. induction s as [|x s IH]; intros a; [reflexivity|].
  cbn [length seq combine map concat fold_right fst snd]. rewrite app_length, map_length, indices_length. f_equal. apply IH.
Qed.

(** ** C89: references of combined objectives, one log probability for each component *)
Theorem C89_components s o1 o2 before batch rewards :
  (forall w, In w before -> length (w_logps w) = length (components s)) ->
  ObjModel.loss s (Plus o1 o2) batch rewards (map (reference (Plus o1 o2)) before)
  = do l1 <- ObjModel.loss s o1 batch rewards (map (reference o1) before);
    do l2 <- ObjModel.loss s o2 batch rewards (map (reference o2) before);
    Ok (map2 Rplus l1 l2).
Proof. intros H. apply C89_plus. intros w I. rewrite <- components_length. now apply H. Qed.

Section Update.
Variables X D : Type.
Notation config := (config X D).
Notation state := (state X).
Implicit Type k : config.
Arguments policy_variables {X}.
Arguments separate_variables {X}.

(** ** Specification, continued *)
(** the values the baseline predicts: of states or of actions *)
Definition values k (b : X) (d : D) : list R :=
  let m := match k_baseline X D k with Some m => m | None => k_policy X D k end in
  if k_predict_action_values X D k then m_actions X D m b d else m_states X D m b d.
(** return minus value *)
Definition surplus k (b : X) (d : D) (r : R) : R := r - average (values k b d).
(** L2 penalty and entropy bonus of the policy *)
Definition regularizers k (p : X) (batch : list D) : R :=
  penalty (coefficients (k_l2_regularization X D k) (m_tree X D (k_policy X D k) p))
  - k_entropy_regularization X D k * average (map (m_entropy X D (k_policy X D k) p) batch).
(** another setting of estimate_advantage, of baseline_optimizer *)
Definition set_advantage (a : option advantage) k : config :=
  {| k_shapes := k_shapes X D k; k_policy := k_policy X D k; k_baseline := k_baseline X D k; k_critic := k_critic X D k;
     k_same_names := k_same_names X D k; k_objective := k_objective X D k; k_baseline_objective := k_baseline_objective X D k;
     k_baseline_optimizer := k_baseline_optimizer X D k; k_estimate_advantage := a;
     k_predict_action_values := k_predict_action_values X D k; k_return_processing := k_return_processing X D k;
     k_advantage_processing := k_advantage_processing X D k; k_discount := k_discount X D k; k_gae_decay := k_gae_decay X D k;
     k_entropy_regularization := k_entropy_regularization X D k; k_l2_regularization := k_l2_regularization X D k |}.
Definition set_optimizer (u : baseline_update) k : config :=
  {| k_shapes := k_shapes X D k; k_policy := k_policy X D k; k_baseline := k_baseline X D k; k_critic := k_critic X D k;
     k_same_names := k_same_names X D k; k_objective := k_objective X D k; k_baseline_objective := k_baseline_objective X D k;
     k_baseline_optimizer := u; k_estimate_advantage := k_estimate_advantage X D k;
     k_predict_action_values := k_predict_action_values X D k; k_return_processing := k_return_processing X D k;
     k_advantage_processing := k_advantage_processing X D k; k_discount := k_discount X D k; k_gae_decay := k_gae_decay X D k;
     k_entropy_regularization := k_entropy_regularization X D k; k_l2_regularization := k_l2_regularization X D k |}.

(** ** C91: advantages *)
(** Every reward for the policy's objective is the sum, over the rest of the episode (or batch), of
    return minus value, with powers of discount times decay; with decay 0.0 return minus value. *)
Theorem C91_gae k batch terminals returns b i n d0 :
  (forall l, k_advantage_processing X D k l = l) -> length returns = length batch -> length terminals = length batch ->
  stretch terminals i n ->
  nth i (advantages X D k batch terminals returns b) 0
  = rsum (map (fun j => (k_discount X D k * k_gae_decay X D k) ^ j * surplus k b (nth (i + j) batch d0) (nth (i + j) returns 0)) (seq 0 n)).
Proof.
  intros P L1 L2 S. unfold advantages. cbv zeta. rewrite P.
  set (rs := map2 (fun r d => r - prediction X D k b d) returns batch).
  assert (LR : length rs = length batch) by (unfold rs; rewrite map2_length; lia).
  assert (NR : forall j, (j < length batch)%nat -> nth j rs 0 = surplus k b (nth j batch d0) (nth j returns 0)).
  { intros j Hj. unfold rs, surplus. rewrite (nth_map2_lt (fun r d => r - prediction X D k b d) 0 0 d0); [reflexivity|exact L1|lia]. }
  assert (S' := S). destruct S as (N & L & _ & _).
  destruct (Req_EM_T (k_gae_decay X D k) 0) as [Z|Z].
  - rewrite Z, Rmult_0_r. destruct n as [|n]; [lia|]. cbn [seq map]. rewrite Nat.add_0_r.
    change (rsum (?x :: ?l)) with (x + rsum l). cbn [pow]. rewrite NR by lia.
    assert (E : rsum (map (fun j => 0 ^ j * surplus k b (nth (i + j) batch d0) (nth (i + j) returns 0)) (seq 1 n)) = 0).
    { rewrite <- seq_shift, map_map. generalize (seq 0 n). induction l as [|x l IH]; [reflexivity|]. cbn [map]. change (rsum (?x :: ?l)) with (x + rsum l).
      rewrite IH. cbn [pow]. ring. }
    rewrite E. ring.
  - rewrite (C92_sum _ _ _ i n).
    + f_equal. apply map_ext_in. intros j Hj. apply in_seq in Hj.
      replace (map fst (combine rs terminals)) with rs.
      * now rewrite NR by lia.
      * clear - LR L2. assert (E : length rs = length terminals) by lia. clear LR L2. revert terminals E.
        induction rs as [|x l IH]; intros [|t ts] E; cbn in *; try discriminate; [reflexivity|]. f_equal. apply IH. lia.
    + replace (map snd (combine rs terminals)) with terminals; [exact S'|].
      assert (E : length rs = length terminals) by lia. clear - E. revert terminals E.
      induction rs as [|x l IH]; intros [|t ts] E; cbn in *; try discriminate; [reflexivity|]. f_equal. apply IH. lia.
Qed.

(** The default of estimate_advantage: late if there is a baseline without objective and optimizer,
    not at all otherwise. *)
Theorem C91_default k opt opt_all bopt batch terminals returns st : k_estimate_advantage X D k = None ->
  core_update X D k opt opt_all bopt batch terminals returns st
  = core_update X D (set_advantage (Some (match k_baseline X D k, k_baseline_objective X D k, k_baseline_optimizer X D k with
                                          | Some _, None, NoOptimizer => Late
                                          | _, _, _ => Never
                                          end)) k) opt opt_all bopt batch terminals returns st.
Proof.
  intros N. destruct k as [sh po ba cr sn ob bo u ea pa rp ap di ga en l2]. cbn in N. subst ea. unfold set_advantage. cbn [k_baseline k_baseline_objective k_baseline_optimizer].
  unfold core_update, estimate_advantage, advantage_in_loss, update_policy. cbn.
  destruct ba as [m|]; [|reflexivity]. destruct bo as [o|]; [reflexivity|]. destruct u; reflexivity.
Qed.

(** A baseline objective without baseline optimizer is weighted with 1.0. *)
Theorem C93_weight k opt opt_all bopt batch terminals returns st o :
  k_baseline_optimizer X D k = NoOptimizer -> k_baseline_objective X D k = Some o ->
  core_update X D k opt opt_all bopt batch terminals returns st
  = core_update X D (set_optimizer (Weight 1) k) opt opt_all bopt batch terminals returns st.
Proof.
  intros N O. destruct k as [sh po ba cr sn ob bo u ea pa rp ap di ga en l2]. cbn in N, O. subst u bo. unfold set_optimizer. cbn.
  unfold core_update, estimate_advantage, advantage_in_loss, update_policy. cbn. destruct ba as [m|]; reflexivity.
Qed.

Lemma regularizers_eq k st batch : model_regularize X D k st batch = regularizers k (policy_variables st) batch
  + match k_baseline X D k with
    | Some m => if has_baseline_optimizer X D k then 0 else penalty (coefficients (k_l2_regularization X D k) (m_tree X D m (separate_variables st)))
    | None => 0
    end.
Proof. rewrite model_regularize_eq. unfold regularizers, mean. change average with rmean. lra. Qed.

(** A baseline without objective and optimizer is trained together with the policy: the loss is the
    one of the policy gradient with the advantages of the very variables that are optimized. *)
Definition joint_loss k m (batch : list D) (returns : list R) (st : state) : R :=
  average (map2 (fun d r => - (rsum (m_logps X D (k_policy X D k) (policy_variables st) d) * r)) batch
             (k_advantage_processing X D k (map2 (fun d r => surplus k (separate_variables st) d r) batch returns)))
  + regularizers k (policy_variables st) batch
  + penalty (coefficients (k_l2_regularization X D k) (m_tree X D m (separate_variables st))).

Theorem C91_joint k m opt opt_all bopt batch terminals returns st st' :
  k_baseline X D k = Some m -> k_baseline_objective X D k = None -> k_baseline_optimizer X D k = NoOptimizer ->
  k_estimate_advantage X D k <> Some Never ->
  k_objective X D k = PolicyGradient false None true ->
  (forall l, length (k_advantage_processing X D k l) = length l) -> length returns = length batch -> (forall l, length (k_return_processing X D k l) = length l) ->
  descends X opt_all ->
  core_update X D k opt opt_all bopt batch terminals returns st = Ok st' ->
  joint_loss k m batch (k_return_processing X D k returns) st' <= joint_loss k m batch (k_return_processing X D k returns) st.
Proof.
  intros HB HO HU HE HP LA LR LP DE U.
  assert (A : advantage_in_loss X D k = true) by (unfold advantage_in_loss; now rewrite HB, HO, HU).
  assert (NO : has_baseline_optimizer X D k = false) by (unfold has_baseline_optimizer; now rewrite HU).
  assert (E : estimate_advantage X D k <> Never).
  { unfold estimate_advantage. destruct (k_estimate_advantage X D k); [congruence|]. rewrite A. discriminate. }
  unfold core_update in U. cbv zeta in U. rewrite NO in U. cbn [andb bind] in U.
  set (rt := k_return_processing X D k returns) in *. assert (LRT : length rt = length batch) by (unfold rt; rewrite LP; exact LR). clearbody rt.
  assert (UP : exists refs brefs src, length refs = length batch /\ opt_all (fun st' =>
        UpdModel.loss X D k batch (k_advantage_processing X D k (map2 (fun r d => r - prediction X D k (baseline_variables X D k st') d) rt batch)) refs brefs st') src st = Ok st').
  { match type of U with context [update_policy _ _ _ _ _ _ _ ?b _] => set (brefs := b) in U end.
    destruct (estimate_advantage X D k) eqn:EA; [congruence| |]; rewrite A in U;
      (destruct (update_policy X D k opt opt_all batch rt brefs st) as [s|] eqn:UU; [|discriminate U]; cbn [bind] in U; injection U as ->;
       unfold update_policy in UU; cbv zeta in UU; rewrite EA, A in UU; eexists; exists brefs; eexists; split; [|exact UU]; now rewrite map_length). }
  destruct UP as (refs & brefs & src & LF & UP).
  destruct (DE _ _ _ _ UP) as (r & r' & F1 & F2 & LE).
  assert (J : forall s, UpdModel.loss X D k batch (k_advantage_processing X D k (map2 (fun r d => r - prediction X D k (baseline_variables X D k s) d) rt batch)) refs brefs s
    = Ok (joint_loss k m batch rt s)).
  { intros s. unfold UpdModel.loss. rewrite HP. cbn [ObjModel.loss bind]. cbv zeta.
    unfold baseline_loss_weight. rewrite HU, HO. f_equal. rewrite regularizers_eq, HB, NO. unfold joint_loss. rewrite <- !Rplus_assoc. f_equal. f_equal.
    change average with rmean. f_equal.
    assert (S : map2 (fun r d => r - prediction X D k (baseline_variables X D k s) d) rt batch = map2 (fun d r => surplus k (separate_variables s) d r) batch rt).
    { unfold baseline_variables, separate. rewrite HB. unfold surplus. clear. revert batch. induction rt as [|x l IH]; intros [|d ds]; cbn; [reflexivity..|]. now rewrite IH. }
    rewrite S. set (adv := k_advantage_processing X D k _).
    assert (LAD : length adv = length batch) by (unfold adv; rewrite LA, map2_length; lia). clearbody adv.
    clear - LAD LF. revert adv refs LAD LF. induction batch as [|d ds IH]; intros [|a adv] [|rf refs] L1 L2; cbn in *; try discriminate; [reflexivity|].
    rewrite IH by lia. f_equal. }
  rewrite J in F1, F2. injection F1 as <-. injection F2 as <-. exact LE.
Qed.

(** ** C93: where the update starts *)
(** Importance sampling compares with the policy (and baseline) before the update: at the current
    variables the loss is minus the mean reward, plus the regularizers, plus the same for a baseline
    with an objective of this kind.  The source of the optimizer is the baseline, if its variables
    correspond. *)
Theorem C93_start k m c c' w batch terminals returns st :
  k_baseline X D k = Some m -> k_objective X D k = PolicyGradient true c true ->
  k_baseline_objective X D k = Some (PolicyGradient true c' true) -> k_baseline_optimizer X D k = Weight w -> w <> 0 ->
  match c with Some v => 0 <= v | None => True end -> match c' with Some v => 0 <= v | None => True end ->
  k_estimate_advantage X D k = Some Never -> length (k_return_processing X D k returns) = length batch ->
  exists f, (forall opt opt_all bopt, core_update X D k opt opt_all bopt batch terminals returns st
      = do p <- opt f (if k_same_names X D k then Some (separate_variables st) else None) (policy_variables st);
        Ok {| policy_variables := p; separate_variables := separate_variables st |})
  /\ f (policy_variables st) = Ok (
       - average (k_return_processing X D k returns) + regularizers k (policy_variables st) batch
       + penalty (coefficients (k_l2_regularization X D k) (m_tree X D m (separate_variables st)))
       + w * (- average (k_return_processing X D k returns) + penalty (coefficients (k_l2_regularization X D k) (m_tree X D m (separate_variables st))))).
Proof.
  intros HB HP HO HU NW HC HC' HE L.
  assert (A : advantage_in_loss X D k = false) by (unfold advantage_in_loss; now rewrite HB, HO).
  assert (NO : has_baseline_optimizer X D k = false) by (unfold has_baseline_optimizer; now rewrite HU).
  assert (E : estimate_advantage X D k = Never) by (unfold estimate_advantage; now rewrite HE).
  assert (S : separate X D k = true) by (unfold separate; now rewrite HB).
  eexists. split.
  - intros opt opt_all bopt. unfold core_update. cbv zeta. rewrite NO, E. cbn [andb bind]. unfold update_policy. cbv zeta. rewrite E, S. cbn [andb].
    assert (I : forall r : res state, (do s <- r; Ok s) = r) by (intros []; reflexivity). rewrite I. reflexivity.
  - cbv beta. set (rt := k_return_processing X D k returns) in *. clearbody rt. unfold UpdModel.loss. rewrite HP, HO. cbn [ObjModel.loss bind]. cbv zeta.
    unfold baseline_loss_weight. rewrite HU. destruct (Req_EM_T w 0); [contradiction|].
    unfold baseline_loss. rewrite HO. cbn [ObjModel.loss bind]. cbv zeta. rewrite S.
    assert (G : forall (v : D -> view) cc, match cc with Some v => 0 <= v | None => True end ->
      rmean (map2 (fun wv rr => pg_loss true cc true wv (fst rr) (snd rr)) (map v batch) (combine rt (map (fun d => reference (PolicyGradient true cc true) (v d)) batch))) = - average rt).
    { intros v cc Hcc. assert (M : map2 (fun wv rr => pg_loss true cc true wv (fst rr) (snd rr)) (map v batch) (combine rt (map (fun d => reference (PolicyGradient true cc true) (v d)) batch)) = map Ropp rt).
      { clear - Hcc L. revert rt L. induction batch as [|d ds IH]; intros [|r rt] L; cbn [length] in L; try discriminate; [reflexivity|].
        cbn [map combine map2]. rewrite IH by lia. f_equal. cbn [fst snd]. exact (proj1 (C87_reference (v d) r cc Hcc)). }
      rewrite M. unfold rmean, average. rewrite map_length. fold (rsum rt).
      assert (SO : rsum (map Ropp rt) = - rsum rt) by (clear; induction rt as [|x l IH]; unfold rsum in *; cbn; [lra|rewrite IH; lra]).
      rewrite SO. unfold Rdiv. ring. }
    assert (ST : {| policy_variables := policy_variables st; separate_variables := separate_variables st |} = st) by now destruct st.
    rewrite ST.
    rewrite (G (policy_view X D k st) c HC). rewrite (G (baseline_view X D k (baseline_variables X D k st)) c' HC'). f_equal.
    rewrite regularizers_eq, HB, NO. unfold baseline_variables, baseline. rewrite S, HB. rewrite C93_l2. ring.
Qed.

(** ** C94: deterministic policy gradients need a separate baseline *)
Theorem C94_critic_refuted k opt opt_all bopt batch terminals returns st :
  k_baseline X D k = None -> k_objective X D k = DetPolicyGradient -> evaluates X opt -> has_baseline_optimizer X D k = false -> batch <> [] ->
  exists e, core_update X D k opt opt_all bopt batch terminals returns st = Err e.
Proof.
  intros HB HP EV NO NE. unfold core_update. cbv zeta. rewrite NO. cbn [andb bind].
  assert (A : advantage_in_loss X D k = false) by (unfold advantage_in_loss; now rewrite HB). rewrite A.
  match goal with |- context [update_policy _ _ _ _ _ _ ?r ?b _] => set (rt := r); set (brefs := b) end. clearbody rt brefs.
  assert (UP : exists e, update_policy X D k opt opt_all batch rt brefs st = Err e).
  { unfold update_policy. cbv zeta. rewrite A.
    assert (Z : forall f src, (exists e, f (policy_variables st) = Err e) -> exists e, (do p <- opt f src (policy_variables st); Ok {| policy_variables := p; separate_variables := separate_variables st |}) = Err e).
    { intros f src [e F]. destruct (EV _ src _ _ F) as [e' O]. rewrite O. now exists e'. }
    destruct (estimate_advantage X D k); apply Z; unfold UpdModel.loss; rewrite HP; cbn [ObjModel.loss];
      (destruct batch as [|d ds]; [contradiction|]); cbn [map dpg_losses]; unfold policy_view at 1; cbn [w_critic]; unfold separate; rewrite HB; cbn [bind]; eexists; reflexivity. }
  destruct UP as [e UP]. rewrite UP. now exists e.
Qed.
End Update.

(** ** Examples *)
Example C89_components_example : components [[]; [2%nat]; [2%nat; 2%nat]]
  = [(0, []); (1, [0]); (1, [1]); (2, [0; 0]); (2, [0; 1]); (2, [1; 0]); (2, [1; 1])]%nat.
Proof. reflexivity. Qed.
Example C91_gae_example : stretch [0; 0; 1; 0]%nat 1 2 /\ stretch [0; 0; 1; 0]%nat 3 1.
Proof.
  split; (split; [lia|split; [cbn; lia|split]]).
  - intros [|j] Hj; [reflexivity|lia].
  - left. cbn. lia.
  - intros j Hj. lia.
  - right. reflexivity.
Qed.
Example C91_joint_example : exists st',
  core_update R unit (agent (Some small) None NoOptimizer None) (try 0) (fun _ _ st => Ok st) (try 0) [tt] [1%nat] [2] (at_ 1 3) = Ok st'.
Proof. eexists. unfold core_update, update_policy. cbn. reflexivity. Qed.
Example C93_start_example : k_baseline R unit {| k_shapes := [[]]; k_policy := small; k_baseline := Some small; k_critic := fun b _ _ => b; k_same_names := true;
     k_objective := PolicyGradient true (Some (1 / 5)) true; k_baseline_objective := Some (PolicyGradient true None true); k_baseline_optimizer := Weight 2;
     k_estimate_advantage := Some Never; k_predict_action_values := false; k_return_processing := fun l => l;
     k_advantage_processing := fun l => l; k_discount := 1; k_gae_decay := 0; k_entropy_regularization := 0; k_l2_regularization := 0 |} = Some small
  /\ 0 <= 1 / 5 /\ (2 : R) <> 0.
Proof. repeat split; lra. Qed.
Example C94_critic_example : evaluates R (try 1) /\ has_baseline_optimizer R unit (agent None None NoOptimizer None) = false.
Proof.
  split; [|reflexivity]. intros f src y e E. unfold try. destruct (f 1); rewrite ?E; eauto.
Qed.

Print Assumptions C89_components.
Print Assumptions C91_gae.
Print Assumptions C91_default.
Print Assumptions C93_weight.
Print Assumptions C91_joint.
Print Assumptions C93_start.
Print Assumptions C94_critic_refuted.
