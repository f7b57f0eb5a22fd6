(** Further properties of experience: C151 inputs that are rejected. *)

From Coq Require Import String List ZArith Bool Lia.
From Verif Require Import Base InpModel InpSpec InpProofs InpActProofs InpRowProofs InpOutProofs InpBatchProofs InpMaskProofs ExpModel ExpSpec ExpProofs ExpRunProofs ExpFedProofs ExpCutProofs ExpProps.
Import ListNotations.
Open Scope string_scope.
Open Scope list_scope.
Open Scope nat_scope.

Lemma in_turn_err {M A} (f : A -> M -> M * res unit) a : (forall m, exists m' e, f a m = (m', Err e)) ->
  forall l m, In a l -> exists m' e, in_turn f l m = (m', Err e).
Proof.
  intros H. induction l as [|b l IH]; intros m Hin; [contradiction|]. cbn [in_turn]. destruct Hin as [->|Hin].
  - destruct (H m) as (m' & e & ->). do 2 eexists. reflexivity.
  - destruct (f b m) as [m' [u|e]]; cbn [andthen]; [apply IH; exact Hin|do 2 eexists; reflexivity].
Qed.
Lemma interval_of ks : forall o j, j < fold_right Nat.add 0 ks -> exists a k, In (a, k) (intervals o ks) /\ a <= o + j < a + k.
Proof.
  induction ks as [|k ks IH]; intros o j H; cbn [fold_right intervals] in *; [lia|].
  destruct (Nat.lt_ge_cases j k); [exists o, k; split; [left; reflexivity|lia]|]. destruct (IH (o + k) (j - k) ltac:(lia)) as (a & b & H1 & H2).
  exists a, b. split; [right; exact H1|lia].
Qed.
Lemma in_part {A} (l : list A) j v o k : nth_error l j = Some v -> o <= j < o + k -> In v (part o k l).
Proof.
  intros H Hj. unfold part. apply (nth_error_In _ (j - o)). 
  assert (E1 : nth_error (skipn o l) (j - o) = Some v).
  { rewrite <- H. rewrite <- (firstn_skipn o l) at 2. assert (HL : j < length l) by (apply nth_error_Some; congruence). rewrite nth_error_app2; rewrite firstn_length_le by lia; [reflexivity|lia]. }
  rewrite <- (firstn_skipn k (skipn o l)) in E1. assert (HL : j < length l) by (apply nth_error_Some; congruence).
  rewrite nth_error_app1 in E1; [exact E1|]. rewrite firstn_length, skipn_length. lia.
Qed.

Section Rejected.
Variable V : Type.
Variable conv : leaf -> V -> option V.
Variables conv_terminal conv_reward : V -> option V.
Variable is_zero : V -> bool.
Variable one : V.
Variable masking : bool.
Variables states_spec actions_spec internals_spec : tree leaf.
Variable initial : tree (arr V).
Variable M : Type.
Variable model_experience : M -> batch V -> M * res unit.
Notation experience := (experience V conv conv_terminal conv_reward is_zero one masking states_spec actions_spec internals_spec initial M model_experience).
Notation written := (written V initial).

Lemma conv_entries_bad f (vs : list V) v : In v vs -> f v = None -> exists e, conv_entries V f vs = Err e.
Proof.
  intros Hin Hv. induction vs as [|w vs IH]; [contradiction|]. cbn [conv_entries]. destruct (f w) as [w'|] eqn:Ew; [|eexists; reflexivity].
  destruct Hin as [->|Hin]; [congruence|]. destruct (IH Hin) as [e ->]. eexists. reflexivity.
Qed.

(** In the middle of an episode of act and observe, experience is rejected. *)
Theorem C151_busy : forall m s a t r i, exists e, experience true m s a t r i = (m, Err e).
Proof. intros. eexists. reflexivity. Qed.

(** A terminal or reward that is not a valid value is rejected, in whichever episode. *)
Theorem C151_values : forall n x s a t r i m v, n <> 0 -> trace_ok V n x -> fits V states_spec (t_states V x) -> written n x s a t r i ->
  (In v (t_terminal V x) /\ conv_terminal v = None) \/ (In v (t_reward V x) /\ conv_reward v = None) ->
  exists m' e, experience false m s a t r i = (m', Err e).
Proof.
  intros n x s a t r i m v Hn Hx Hf W Hv.
  rewrite (experience_written V conv conv_terminal conv_reward is_zero one masking states_spec actions_spec internals_spec initial M model_experience n x s a t r i m Hn Hx Hf W).
  unfold row_experience. destruct (row_inputs V one masking states_spec actions_spec n (t_states V x)) as [sm|e]; [|do 2 eexists; reflexivity].
  destruct (match rev (t_terminal V x) with [] => true | t0 :: _ => is_zero t0 end) eqn:E; [do 2 eexists; reflexivity|].
  apply ends_rev in E. destruct (finished_whole V is_zero _ E) as [ks Hw]. rewrite (row_run_whole V is_zero M model_experience _ ks _ Hw).
  destruct Hx as (_ & _ & _ & _ & HLt & HLr).
  assert (HS : fold_right Nat.add 0 ks = n).
  { rewrite <- HLt. clear - Hw. induction Hw as [|e t ks ts He Ht Hw IH]; [reflexivity|]. rewrite app_length. cbn [fold_right length]. rewrite IH. lia. }
  assert (HJ : exists j, j < n /\ ((nth_error (t_terminal V x) j = Some v /\ conv_terminal v = None) \/ (nth_error (t_reward V x) j = Some v /\ conv_reward v = None))).
  { destruct Hv as [[Hin Hc]|[Hin Hc]]; apply In_nth_error in Hin; destruct Hin as [j Hj]; exists j; (split; [|auto]); [rewrite <- HLt|rewrite <- HLr]; apply nth_error_Some; congruence. }
  destruct HJ as (j & Hj & HJ). destruct (interval_of ks 0 j ltac:(lia)) as (o & k & Hin & Ho). cbn [Nat.add] in Ho.
  apply (in_turn_err _ (o, k)); [|exact Hin]. intros m'. cbn [fst snd].
  destruct (row_episode V conv conv_terminal conv_reward states_spec actions_spec internals_spec sm x o k) as [b|e] eqn:EB; [|do 2 eexists; reflexivity].
  exfalso. unfold row_episode in EB. do 4 (apply bind_ok in EB; destruct EB as [? [_ EB]]). apply bind_ok in EB. destruct EB as [tt0 [E1 EB]]. apply bind_ok in EB. destruct EB as [rr [E2 _]].
  unfold scalar_tensor in E1, E2. cbn [shape vector tl shape_eqb data] in E1, E2. destruct HJ as [[HN Hc]|[HN Hc]].
  - destruct (conv_entries_bad conv_terminal (part o k (t_terminal V x)) v (in_part _ _ _ _ _ HN Ho) Hc) as [e Ee]. rewrite Ee in E1. discriminate.
  - destruct (conv_entries_bad conv_reward (part o k (t_reward V x)) v (in_part _ _ _ _ _ HN Ho) Hc) as [e Ee]. rewrite Ee in E2. discriminate.
Qed.

(** Rewards with several numbers per timestep are rejected. *)
Theorem C151_rewards : forall n x s a t r i m n' d sh vs, n <> 0 -> trace_ok V n x -> fits V states_spec (t_states V x) ->
  states_steps V n (t_states V x) s \/ states_arrays V (t_states V x) s -> writes V r (Arr (n' :: d :: sh) vs) ->
  exists e, experience false m s a t r i = (m, Err e).
Proof.
  intros n x s a t r i m n' d sh vs Hn Hx Hf Hs Hr.
  apply rejected. intros y Hy o k. unfold process in Hy. apply bind_ok in Hy. destruct Hy as [[[[T batched] n0] iter] [Hp Hy]].
  assert (EB : batched = true).
  { destruct Hx as (HT & _). destruct Hs as [Hs|Hs]; [rewrite (states_steps_ok V _ n _ _ Hn HT Hf Hs) in Hp|rewrite (states_arrays_ok V _ n _ _ Hn HT Hf Hs) in Hp]; congruence. }
  subst batched. do 3 (apply bind_ok in Hy; destruct Hy as [? [_ Hy]]). apply bind_ok in Hy. destruct Hy as [rew [Hrew Hy]].
  assert (ER : rew = Arr (n' :: d :: sh) vs) by (rewrite (asarray_writes r _ Hr) in Hrew; congruence). 
  assert (EI : i_reward V y = rew).
  { repeat (apply bind_ok in Hy; destruct Hy as [? [_ Hy]]). apply ok_inj in Hy. subst y. reflexivity. }
  unfold episode. apply bind_err. intros ? _. apply bind_err. intros ? _. apply bind_err. intros ? _. apply bind_err. intros ? _. apply bind_err. intros ? _.
  rewrite EI, ER. eexists. reflexivity.
Qed.

(** Internals that are not given in the form of the states are rejected: a list of timesteps needs a list, ... *)
Theorem C151_internals_steps : forall n x s a t r i m, n <> 0 -> table V n x -> fits V states_spec x -> states_steps V n x s ->
  (forall ps, i <> PList ps) -> exists e, experience false m s a t r (Some i) = (m, Err e).
Proof.
  intros n x s a t r i m Hn Hx Hf Hs Hi. apply rejected. intros y Hy. exfalso. unfold process in Hy. rewrite (states_steps_ok V _ n _ _ Hn Hx Hf Hs) in Hy. cbn [bind internals_list] in Hy.
  destruct i as [v|b|ps|d]; try discriminate. apply (Hi ps). reflexivity.
Qed.
(** ... a dictionary of arrays needs a dictionary. *)
Theorem C151_internals_arrays : forall n x s a t r i m, n <> 0 -> table V n x -> fits V states_spec x -> states_arrays V x s ->
  (forall d, i <> PDict d) -> exists e, experience false m s a t r (Some i) = (m, Err e).
Proof.
  intros n x s a t r i m Hn Hx Hf Hs Hi. apply rejected. intros y Hy. exfalso. unfold process in Hy. rewrite (states_arrays_ok V _ n _ _ Hn Hx Hf Hs) in Hy. cbn [bind ExpModel.internals_arrays] in Hy.
  destruct i as [v|b|ps|d]; try discriminate. apply (Hi d). reflexivity.
Qed.
End Rejected.

(** ** Examples *)
Example C151_busy_example : exists e, experience Z ex_conv ex_terminal Some (Z.eqb 0) 1%Z true ex_states ex_actions ex_internals ex_initial (list (batch Z)) note true [] (batchv Z (t_states Z ex_full)) (batchv Z ex_a)
  (PArr (vector Z [0; 1; 2]%Z)) (PArr (vector Z [10; 20; 30]%Z)) (Some (batchv Z (always Z 3 ex_initial))) = ([], Err e).
Proof. eexists. reflexivity. Qed.
(** The terminal of the second episode is not valid, the first is in the model *)
Example C151_values_example : ex_terminal 5%Z = None /\ exists e, ex_experience [] (batchv Z (t_states Z ex_full)) (batchv Z ex_a)
  (PArr (vector Z [0; 1; 5]%Z)) (PArr (vector Z [10; 20; 30]%Z)) (Some (batchv Z (always Z 3 ex_initial))) = (firstn 1 ex_fed, Err e).
Proof. split; [reflexivity|]. eexists. vm_compute. reflexivity. Qed.
Example C151_rewards_example : writes Z (PArr (Arr [3; 2]%nat [1; 2; 3; 4; 5; 6]%Z)) (Arr [3; 2]%nat [1; 2; 3; 4; 5; 6]%Z) /\ exists e, ex_experience [] (batchv Z (t_states Z ex_full)) (batchv Z ex_a)
  (PArr (vector Z [0; 1; 2]%Z)) (PArr (Arr [3; 2]%nat [1; 2; 3; 4; 5; 6]%Z)) (Some (batchv Z (always Z 3 ex_initial))) = ([], Err e).
Proof. split; [constructor|]. eexists. vm_compute. reflexivity. Qed.
Example C151_internals_steps_example : exists e, ex_experience [] (PList (map (fun i => flatv Z i (t_states Z ex_full)) [0; 1; 2])) (PList (map (fun i => flatv Z i ex_a) [0; 1; 2]))
  (nums [0; 1; 2]%Z) (nums [10; 20; 30]%Z) (Some (batchv Z (always Z 3 ex_initial))) = ([], Err e).
Proof. eexists. vm_compute. reflexivity. Qed.
Example C151_internals_arrays_example : exists e, ex_experience [] (batchv Z (t_states Z ex_full)) (batchv Z ex_a)
  (PArr (vector Z [0; 1; 2]%Z)) (PArr (vector Z [10; 20; 30]%Z)) (Some (PList (map (fun i => flatv Z i (always Z 3 ex_initial)) [0; 1; 2]))) = ([], Err e).
Proof. eexists. vm_compute. reflexivity. Qed.

Print Assumptions C151_busy.
Print Assumptions C151_values.
Print Assumptions C151_rewards.
Print Assumptions C151_internals_steps.
Print Assumptions C151_internals_arrays.
