(** Properties of experience: C149 the ways of writing the same timesteps and what the model is given, C150 calls
    with several episodes, C151 inputs that are rejected. *)

From Coq Require Import String List ZArith Bool Lia.
From Verif Require Import Base InpModel InpSpec InpProofs InpActProofs InpRowProofs InpOutProofs InpBatchProofs InpMaskProofs ExpModel ExpSpec ExpProofs ExpRunProofs ExpFedProofs ExpCutProofs.
Import ListNotations.
Open Scope string_scope.
Open Scope list_scope.
Open Scope nat_scope.

Section Experience.
Variable V : Type.
Variable conv : leaf -> V -> option V.
Variables conv_terminal conv_reward : V -> option V.
Variable is_zero : V -> bool.
Variable one : V.
Variable masking : bool.
Variables states_spec actions_spec internals_spec : tree leaf.
Variable initial : tree (arr V).
Variable M : Type.
Variable model_experience : M -> batch V -> M * res unit.
Notation experience := (experience V conv conv_terminal conv_reward is_zero one masking states_spec actions_spec internals_spec initial M model_experience false).
Notation written := (written V initial).
Notation trace_ok := (trace_ok V).
Notation cut := (cut V).

(** All ways of writing the same timesteps (a list of dictionaries, a dictionary of arrays, one timestep alone, ...)
    have the same effect on the model and the same result. *)
Theorem C149_forms : forall n x s a t r i s' a' t' r' i' m, n <> 0 -> trace_ok n x -> fits V states_spec (t_states V x) ->
  written n x s a t r i -> written n x s' a' t' r' i' -> experience m s a t r i = experience m s' a' t' r' i'.
Proof.
  intros n x s a t r i s' a' t' r' i' m Hn Hx Hf H1 H2.
  rewrite (experience_written V conv conv_terminal conv_reward is_zero one masking states_spec actions_spec internals_spec initial M model_experience n x s a t r i m Hn Hx Hf H1).
  symmetry. apply experience_written; assumption.
Qed.

(** The model is given the episodes, one after the other, with the values of the arguments (terminals and rewards
    converted) and the masks that are part of the states; actions whose mask is not given may use all options. *)
Theorem C149_fed : forall ct cr n x masks T s a t r i ks m, n <> 0 -> trace_ok n x ->
  entries states_spec <> [] -> flat actions_spec = true -> distinct actions_spec ->
  conforms V conv states_spec (t_states V x) -> conforms V conv actions_spec (t_actions V x) -> conforms V conv internals_spec (t_internals V x) ->
  (forall v, In v (t_terminal V x) -> conv_terminal v = Some (ct v)) -> (forall v, In v (t_reward V x) -> conv_reward v = Some (cr v)) ->
  (forall p l j, In (p, l) (entries actions_spec) -> l_num l = Some j -> conv (mkLeaf (l_shape l ++ [j]) None) one = Some one) ->
  no_masks V actions_spec (t_states V x) -> masking = true \/ masks = [] -> masks_ok V conv actions_spec n masks -> masked V (t_states V x) masks T ->
  written n (mkTrace V T (t_actions V x) (t_internals V x) (t_terminal V x) (t_reward V x)) s a t r i ->
  whole V is_zero ks (t_terminal V x) ->
  experience m s a t r i =
  in_turn (fun ok m => model_experience m (fed V one masking actions_spec masks n (converted V ct cr x) (fst ok) (snd ok))) (intervals 0 ks) m.
Proof.
  intros ct cr n x masks T s a t r i ks m Hn Hx He Hf Hd C1 C2 C3 C4 C5 C6 Hno Hk Hok HT HW Hks.
  rewrite <- (row_experience_fed V conv conv_terminal conv_reward is_zero one masking states_spec actions_spec internals_spec M model_experience ct cr n x masks T m) by assumption.
  apply experience_written; [exact Hn| | |exact HW].
  - destruct Hx as (H1 & H2 & H3 & H4 & H5 & H6). unfold ExpSpec.trace_ok. cbn [t_states t_actions t_internals t_terminal t_reward].
    split; [|tauto]. apply (table_masked V conv actions_spec n (t_states V x) masks T); assumption.
  - cbn [t_states]. apply (fits_masked V conv states_spec (t_states V x) masks T); assumption.
Qed.

(** Timesteps whose last one is terminal consist of episodes. *)
Theorem C149_episodes : forall ts, finished V is_zero ts -> exists ks, whole V is_zero ks ts /\ fold_right Nat.add 0 ks = length ts.
Proof.
  intros ts H. destruct (finished_whole V is_zero ts H) as [ks Hk]. exists ks. split; [exact Hk|]. clear H.
  induction Hk as [|e t ks ts He Ht Hw IH]; [reflexivity|]. rewrite app_length. cbn [fold_right length]. rewrite IH. lia.
Qed.

(** Episodes can be given in one call or in several. *)
Theorem C150_split : forall n k x s a t r i s1 a1 t1 r1 i1 s2 a2 t2 r2 i2 m, trace_ok n x -> fits V states_spec (t_states V x) ->
  0 < k -> k < n -> finished V is_zero (part 0 k (t_terminal V x)) -> finished V is_zero (t_terminal V x) ->
  written n x s a t r i -> written k (cut 0 k x) s1 a1 t1 r1 i1 -> written (n - k) (cut k (n - k) x) s2 a2 t2 r2 i2 ->
  experience m s a t r i = andthen (experience m s1 a1 t1 r1 i1) (fun m' => experience m' s2 a2 t2 r2 i2).
Proof.
  intros n k x s a t r i s1 a1 t1 r1 i1 s2 a2 t2 r2 i2 m Hx Hf Hk Hkn E1 E2 W W1 W2.
  rewrite (experience_written V conv conv_terminal conv_reward is_zero one masking states_spec actions_spec internals_spec initial M model_experience n x s a t r i m ltac:(lia) Hx Hf W).
  rewrite (row_experience_split V conv conv_terminal conv_reward is_zero one masking states_spec actions_spec internals_spec M model_experience n k x m Hx ltac:(lia) ltac:(lia) ltac:(lia) E1 E2).
  rewrite <- (experience_written V conv conv_terminal conv_reward is_zero one masking states_spec actions_spec internals_spec initial M model_experience k (cut 0 k x) s1 a1 t1 r1 i1 m ltac:(lia) (trace_cut V n 0 k x ltac:(lia) Hx) (fits_cut V _ _ 0 k Hf) W1).
  unfold andthen. destruct (experience m s1 a1 t1 r1 i1) as [m' [u|e]]; [|reflexivity]. symmetry.
  apply (experience_written V conv conv_terminal conv_reward is_zero one masking states_spec actions_spec internals_spec initial M model_experience (n - k) (cut k (n - k) x)); [lia| | |exact W2].
  - apply (trace_cut V n); [lia|exact Hx].
  - apply fits_cut. exact Hf.
Qed.

(** An unfinished episode is rejected, and the model stays as it is. *)
Theorem C150_unfinished : forall n x s a t r i m, n <> 0 -> trace_ok n x -> fits V states_spec (t_states V x) -> written n x s a t r i ->
  ~ finished V is_zero (t_terminal V x) -> exists e, experience m s a t r i = (m, Err e).
Proof.
  intros n x s a t r i m Hn Hx Hf W Hnf.
  rewrite (experience_written V conv conv_terminal conv_reward is_zero one masking states_spec actions_spec internals_spec initial M model_experience n x s a t r i m Hn Hx Hf W).
  unfold row_experience. destruct (row_inputs V one masking states_spec actions_spec n (t_states V x)) as [sm|e]; [|exists e; reflexivity].
  destruct (match rev (t_terminal V x) with [] => true | t0 :: _ => is_zero t0 end) eqn:E; [eexists; reflexivity|]. exfalso. apply Hnf. apply ends_rev. exact E.
Qed.

(** Omitted internals do not work for one timestep alone, ... *)
Theorem C151_alone_refuted : forall n x s a t r m, n = 1 -> table V n x -> fits V states_spec x -> writes_state V s (instance V 0 x) ->
  like internals_spec initial -> distinct initial -> entries initial <> [] ->
  (forall p l b, In (p, l) (entries internals_spec) -> In (p, b) (entries initial) -> shape b = l_shape l) ->
  exists e, experience m s a t r None = (m, Err e).
Proof. intros. eapply reject_alone; eassumption. Qed.

(** ... nor for a dictionary of arrays of several timesteps, unless all internals are numbers. *)
Theorem C151_arrays_refuted : forall n x s a t r m, 1 < n -> table V n x -> fits V states_spec x -> states_arrays V x s ->
  (exists p b, In (p, b) (entries initial) /\ shape b <> []) ->
  exists e, experience m s a t r None = (m, Err e).
Proof. intros n x s a t r m Hn. intros. eapply (reject_arrays V conv conv_terminal conv_reward is_zero one masking states_spec actions_spec internals_spec initial M model_experience m n); try eassumption; lia. Qed.

(** Several values of a single state cannot be combined with a dictionary of actions. *)
Theorem C151_single_refuted : forall n xs s d t r i m, n <> 0 -> rows V n xs -> fits V states_spec (Leaf xs) -> states_steps V n (Leaf xs) s ->
  exists e, experience m s (PDict d) t r i = (m, Err e).
Proof. intros. eapply reject_single; eassumption. Qed.

(** If the only action is called 'action', no way of writing it is accepted. *)
Theorem C151_named_refuted : forall l s a t r i m, actions_spec = Dict [("action", Leaf l)] ->
  (exists b, a = PArr b) \/ (exists q, a = PDict [(["action"], q)] /\ is_dict V q = false) \/
  (exists qs, a = PList qs /\ forall p, In p qs -> exists q, p = PDict [(["action"], q)] /\ is_dict V q = false) ->
  exists e, experience m s a t r i = (m, Err e).
Proof. intros l s a t r i m Hd. apply (reject_named V conv conv_terminal conv_reward is_zero one masking states_spec actions_spec internals_spec initial M model_experience m _ s a t r i Hd). Qed.

(** A single action as a number, as act returns it, is rejected. *)
Theorem C151_number_refuted : forall v s t r i m, exists e, experience m s (PNum v) t r i = (m, Err e).
Proof.
  intros v s t r i m. unfold ExpModel.experience, process. destruct (process_states V states_spec s) as [[[[T b] n] iter]|e]; [|eexists; reflexivity]. cbn [bind].
  destruct (match iter with Some true => internals_list V initial n i | _ => ExpModel.internals_arrays V initial n i end) as [i'|e]; [|eexists; reflexivity].
  cbn [bind]. destruct iter as [[]|]; eexists; reflexivity.
Qed.
End Experience.

(** ** Examples *)

(** Two states, two actions (the first with three options), internals of two numbers; two episodes of two timesteps and one *)
Definition ex_conv (l : leaf) (v : Z) : option Z :=
  match l_num l with Some k => if ((0 <=? v) && (v <? Z.of_nat k))%Z then Some v else None | None => Some v end.
Definition ex_terminal (v : Z) : option Z := if ((0 <=? v) && (v <=? 2))%Z then Some v else None.
Definition ex_states : tree leaf := Dict [("a", Leaf (mkLeaf [2] None)); ("b", Leaf (mkLeaf [] None))].
Definition ex_actions : tree leaf := Dict [("x", Leaf (mkLeaf [] (Some 3))); ("y", Leaf (mkLeaf [] None))].
Definition ex_internals : tree leaf := Dict [("h", Leaf (mkLeaf [2] None))].
Definition ex_initial : tree (arr Z) := Dict [("h", Leaf (Arr [2]%nat [8; 9]%Z))].
Definition ex_s : tree (list (arr Z)) :=
  Dict [("a", Leaf [Arr [2]%nat [1; 2]%Z; Arr [2]%nat [3; 4]%Z; Arr [2]%nat [5; 6]%Z]); ("b", Leaf [Arr []%nat [7]%Z; Arr []%nat [8]%Z; Arr []%nat [9]%Z])]%Z.
Definition ex_a : tree (list (arr Z)) :=
  Dict [("x", Leaf [Arr []%nat [0]%Z; Arr []%nat [2]%Z; Arr []%nat [1]%Z]); ("y", Leaf [Arr []%nat [-1]%Z; Arr []%nat [-2]%Z; Arr []%nat [-3]%Z])]%Z.
Definition ex_masks : list (string * list (arr Z)) := [("x_mask", [Arr [3]%nat [1; 1; 0]%Z; Arr [3]%nat [0; 0; 1]%Z; Arr [3]%nat [0; 1; 1]%Z]%Z)].
Definition ex_trace : trace Z := mkTrace Z ex_s ex_a (always Z 3 ex_initial) [0; 1; 2]%Z [10; 20; 30]%Z.
Definition ex_full : trace Z := mkTrace Z (Dict [("a", Leaf [Arr [2]%nat [1; 2]%Z; Arr [2]%nat [3; 4]%Z; Arr [2]%nat [5; 6]%Z]); ("b", Leaf [Arr []%nat [7]%Z; Arr []%nat [8]%Z; Arr []%nat [9]%Z]);
    ("x_mask", Leaf [Arr [3]%nat [1; 1; 0]%Z; Arr [3]%nat [0; 0; 1]%Z; Arr [3]%nat [0; 1; 1]%Z])]%Z) ex_a (always Z 3 ex_initial) [0; 1; 2]%Z [10; 20; 30]%Z.
(** Model.experience that notes what it is given *)
Definition note (m : list (batch Z)) (b : batch Z) : list (batch Z) * res unit := (m ++ [b], Ok tt).
Definition ex_experience := experience Z ex_conv ex_terminal Some (Z.eqb 0) 1%Z true ex_states ex_actions ex_internals ex_initial (list (batch Z)) note false.
Definition nums (vs : list Z) : pv Z := PList (map PNum vs).

Ltac rows_tac := split; [reflexivity|eexists; intros ? Hx; repeat (destruct Hx as [<-|Hx]; [split; reflexivity|]); destruct Hx].
Ltac table_tac := constructor; [repeat constructor; cbn; intuition discriminate|repeat (constructor; [cbn [snd]; constructor; rows_tac|]); constructor].

Lemma ex_trace_ok : trace_ok Z 3 ex_trace.
Proof. unfold trace_ok. cbn. split; [table_tac|]. split; [table_tac|]. split; [table_tac|]. split; [eexists; reflexivity|split; reflexivity]. Qed.
Lemma ex_full_ok : trace_ok Z 3 ex_full.
Proof. unfold trace_ok. cbn. split; [table_tac|]. split; [table_tac|]. split; [table_tac|]. split; [eexists; reflexivity|split; reflexivity]. Qed.
Lemma ex_fits : fits Z ex_states (t_states Z ex_full).
Proof. cbn [fits ex_states t_states ex_full]. exists ["a"], (mkLeaf [2] None). eexists. split; [reflexivity|]. split; [reflexivity|]. intros x Hx. cbn in Hx. repeat (destruct Hx as [<-|Hx]; [reflexivity|]). destruct Hx. Qed.
Ltac any_tac := split; [eexists; reflexivity|]; right; split; [|split; [constructor; [repeat constructor; cbn; intuition discriminate|repeat constructor]|repeat constructor]].
Lemma writes_nums vs : vs <> [] -> writes Z (nums vs) (vector Z vs).
Proof.
  intros H. unfold nums, vector. replace (length vs) with (length (map PNum vs)) by apply map_length.
  replace vs with (concat (map data (map (fun v : Z => Arr [] [v]) vs))) at 3.
  - constructor; [destruct vs; [congruence|discriminate]| |]; [|intros x Hx; apply in_map_iff in Hx; destruct Hx as [v [<- _]]; reflexivity].
    clear H. induction vs as [|v vs IH]; constructor; [constructor|exact IH].
  - clear H. induction vs as [|v vs IH]; [reflexivity|]. cbn. f_equal. exact IH.
Qed.
(** Values per timestep, without internals *)
Lemma ex_steps : written Z ex_initial 3 ex_full (PList (map (fun i => flatv Z i (t_states Z ex_full)) [0; 1; 2])) (PList (map (fun i => flatv Z i ex_a) [0; 1; 2]))
  (nums [0; 1; 2]%Z) (nums [10; 20; 30]%Z) None.
Proof.
  apply by_steps; cbn [t_states t_actions t_internals t_terminal t_reward ex_full].
  - left. eexists. split; [reflexivity|]. split; [reflexivity|]. intros i q Hq. destruct i as [|[|[|i]]]; cbn in Hq; [| | |destruct i; discriminate]; injection Hq as <-; constructor;
    [repeat constructor; cbn; intuition discriminate|repeat (constructor; [split; [reflexivity|constructor; constructor]|]); constructor|repeat constructor; cbn; intuition discriminate|repeat (constructor; [split; [reflexivity|constructor; constructor]|]); constructor|repeat constructor; cbn; intuition discriminate|repeat (constructor; [split; [reflexivity|constructor; constructor]|]); constructor].
  - eexists. split; [reflexivity|]. split; [reflexivity|]. intros i q Hq. destruct i as [|[|[|i]]]; cbn in Hq; [| | |destruct i; discriminate]; injection Hq as <-;
    (split; [any_tac; split; [eexists; reflexivity|]; eexists; split; [reflexivity|]; repeat (constructor; [split; [reflexivity|constructor]|]); constructor|intros x Hx; discriminate]).
  - left. split; reflexivity.
  - apply writes_nums. discriminate.
  - apply writes_nums. discriminate.
Qed.
(** Dictionaries of arrays *)
Lemma ex_arrays : written Z ex_initial 3 ex_full (batchv Z (t_states Z ex_full)) (batchv Z ex_a) (PArr (vector Z [0; 1; 2]%Z)) (PArr (vector Z [10; 20; 30]%Z))
  (Some (batchv Z (always Z 3 ex_initial))).
Proof.
  apply by_arrays; cbn [t_states t_actions t_internals t_terminal t_reward ex_full].
  - split; [eexists; reflexivity|]. any_tac. apply batchv_writes.
  - split; [any_tac; apply batchv_writes|intros x Hx; discriminate].
  - right. eexists. split; [reflexivity|]. any_tac. apply batchv_writes.
  - constructor.
  - constructor.
Qed.
Definition ex_fed : list (batch Z) := map (fun ok => fed Z 1%Z true ex_actions ex_masks 3 ex_trace (fst ok) (snd ok)) [(0, 2); (2, 1)].

Example C149_forms_example : trace_ok Z 3 ex_full /\ fits Z ex_states (t_states Z ex_full) /\
  exists s a t r i s' a' t' r' i', written Z ex_initial 3 ex_full s a t r i /\ written Z ex_initial 3 ex_full s' a' t' r' i' /\ s <> s' /\ i <> i' /\
    ex_experience [] s a t r i = (ex_fed, Ok tt) /\ ex_experience [] s' a' t' r' i' = (ex_fed, Ok tt).
Proof.
  split; [exact ex_full_ok|]. split; [exact ex_fits|]. do 10 eexists. split; [exact ex_steps|]. split; [exact ex_arrays|]. split; [discriminate|]. split; [discriminate|].
  split; vm_compute; reflexivity.
Qed.
Example C149_fed_example : trace_ok Z 3 ex_trace /\ conforms Z ex_conv ex_states ex_s /\ conforms Z ex_conv ex_actions ex_a /\
  conforms Z ex_conv ex_internals (always Z 3 ex_initial) /\ no_masks Z ex_actions ex_s /\ masks_ok Z ex_conv ex_actions 3 ex_masks /\
  masked Z ex_s ex_masks (t_states Z ex_full) /\ whole Z (Z.eqb 0) [2; 1] [0; 1; 2]%Z /\ map (fun b => b_terminal Z b) ex_fed = [vector Z [0; 1]; vector Z [2]]%Z /\
  map (fun b => b_masks Z b) ex_fed = [[(["x"], Arr [2; 3]%nat [1; 1; 0; 0; 0; 1]%Z)]; [(["x"], Arr [1; 3]%nat [0; 1; 1]%Z)]]%Z.
Proof.
  split; [exact ex_trace_ok|].
  assert (CL : forall l xs, forallb (fun x => shape_eqb (shape x) (l_shape l) && forallb (fun v => match ex_conv l v with Some w => Z.eqb w v | None => false end) (data x)) xs = true -> conforms Z ex_conv (Leaf l) (Leaf xs)).
  { intros l xs H. constructor. intros x Hx. rewrite forallb_forall in H. specialize (H x Hx). apply andb_true_iff in H. destruct H as [H1 H2]. split; [apply (proj1 (shape_eqb_true _ _)); exact H1|].
    intros v Hv. rewrite forallb_forall in H2. specialize (H2 v Hv). destruct (ex_conv l v); [|discriminate]. apply Z.eqb_eq in H2. congruence. }
  split; [constructor; [repeat constructor; cbn; intuition discriminate|repeat (constructor; [split; [reflexivity|apply CL; reflexivity]|]); constructor]|].
  split; [constructor; [repeat constructor; cbn; intuition discriminate|repeat (constructor; [split; [reflexivity|apply CL; reflexivity]|]); constructor]|].
  split; [constructor; [repeat constructor; cbn; intuition discriminate|repeat (constructor; [split; [reflexivity|apply CL; reflexivity]|]); constructor]|].
  split.
  { intros path l name d Hin Hm E. injection E as <-. cbn in Hin. destruct Hin as [E|[E|[]]]; injection E as <- _; destruct Hm as [[Hm _]|[k [Hm ->]]]; try discriminate; injection Hm as <-; cbn; intuition discriminate. }
  split.
  { split; [repeat constructor; cbn; tauto|]. intros name xs [E|[]]. injection E as <- <-. exists ["x"], (mkLeaf [] (Some 3)), 3. split; [left; reflexivity|]. split; [reflexivity|]. split; [reflexivity|].
    split; [rows_tac|]. intros x Hx. cbn in Hx. repeat (destruct Hx as [<-|Hx]; [split; [reflexivity|intros; reflexivity]|]). destruct Hx. }
  split; [exact (masked_dict Z _ ex_masks)|].
  split; [apply (whole_cons Z (Z.eqb 0) [0%Z] 1%Z [1] [2%Z]); [intros v [<-|[]]; reflexivity|reflexivity|]; apply (whole_cons Z (Z.eqb 0) [] 2%Z [] []); [intros v []|reflexivity|constructor]|].
  split; reflexivity.
Qed.
Example C149_episodes_example : finished Z (Z.eqb 0) [0; 0; 1; 2; 0; 1]%Z /\ whole Z (Z.eqb 0) [3; 1; 2] [0; 0; 1; 2; 0; 1]%Z.
Proof.
  split; [exists [0; 0; 1; 2; 0]%Z, 1%Z; split; reflexivity|].
  apply (whole_cons Z (Z.eqb 0) [0; 0]%Z 1%Z [1; 2] [2; 0; 1]%Z); [intros v [<-|[<-|[]]]; reflexivity|reflexivity|].
  apply (whole_cons Z (Z.eqb 0) [] 2%Z [2] [0; 1]%Z); [intros v []|reflexivity|].
  apply (whole_cons Z (Z.eqb 0) [0%Z] 1%Z [] []); [intros v [<-|[]]; reflexivity|reflexivity|constructor].
Qed.
Example C150_split_example : finished Z (Z.eqb 0) (part 0 2 (t_terminal Z ex_full)) /\ finished Z (Z.eqb 0) (t_terminal Z ex_full) /\
  ex_experience [] (batchv Z (t_states Z ex_full)) (batchv Z ex_a) (PArr (vector Z [0; 1; 2]%Z)) (PArr (vector Z [10; 20; 30]%Z)) (Some (batchv Z (always Z 3 ex_initial)))
  = andthen (ex_experience [] (batchv Z (timesteps Z 0 2 (t_states Z ex_full))) (batchv Z (timesteps Z 0 2 ex_a)) (nums [0; 1]%Z) (nums [10; 20]%Z) (Some (batchv Z (always Z 2 ex_initial))))
      (fun m => ex_experience m (batchv Z (timesteps Z 2 1 (t_states Z ex_full))) (batchv Z (timesteps Z 2 1 ex_a)) (nums [2]%Z) (nums [30]%Z) None).
Proof.
  split; [exists [0%Z], 1%Z; split; reflexivity|]. split; [exists [0; 1]%Z, 2%Z; split; reflexivity|]. vm_compute. reflexivity.
Qed.
Example C150_unfinished_example : ~ finished Z (Z.eqb 0) [0; 1; 0]%Z /\ ex_experience [] (batchv Z (t_states Z ex_full)) (batchv Z ex_a) (nums [0; 1; 0]%Z) (nums [10; 20; 30]%Z) None
    = ([], Err "TensorforceError: len != len(states)") /\
  ex_experience [] (batchv Z (t_states Z ex_full)) (batchv Z ex_a) (nums [0; 1; 0]%Z) (nums [10; 20; 30]%Z) (Some (batchv Z (always Z 3 ex_initial)))
    = ([], Err "TensorforceError: Agent.experience() requires full episodes as input.").
Proof.
  split; [|split; vm_compute; reflexivity]. intros (ts & t & E & Ht). destruct ts as [|a [|b [|c ts]]]; cbn in E; inversion E; subst; try discriminate. destruct ts; discriminate.
Qed.

(** A call that is rejected because of a later episode has already given the earlier ones to the model. *)
Theorem C150_atomic_refuted : exists s a t r i m e, ex_experience [] s a t r i = (m, Err e) /\ length m = 1.
Proof.
  exists (batchv Z ex_s), (batchv Z (Dict [("x", Leaf [Arr []%nat [0]%Z; Arr []%nat [2]%Z; Arr []%nat [3]%Z]); ("y", Leaf [Arr []%nat [-1]%Z; Arr []%nat [-2]%Z; Arr []%nat [-3]%Z])]%Z)), (nums [0; 1; 2]%Z), (nums [10; 20; 30]%Z), (Some (batchv Z (always Z 3 ex_initial))).
  eexists _, _. split; [vm_compute; reflexivity|]. reflexivity.
Qed.
Example C151_alone_example : ex_experience [] (flatv Z 0 ex_s) (flatv Z 0 ex_a) (PNum 1%Z) (PNum 5%Z) None = ([], Err "TensorforceError: invalid value shape") /\
  snd (ex_experience [] (flatv Z 0 ex_s) (flatv Z 0 ex_a) (PNum 1%Z) (PNum 5%Z) (Some (flatv Z 0 (always Z 3 ex_initial)))) = Ok tt /\ like ex_internals ex_initial /\ entries ex_initial <> [].
Proof. split; [vm_compute; reflexivity|]. split; [vm_compute; reflexivity|]. split; [reflexivity|discriminate]. Qed.
Example C151_arrays_example : snd (ex_experience [] (batchv Z ex_s) (batchv Z ex_a) (nums [0; 1; 2]%Z) (nums [10; 20; 30]%Z) None) = Err "TensorforceError: len != len(states)" /\
  snd (ex_experience [] (batchv Z ex_s) (batchv Z ex_a) (nums [0; 1; 2]%Z) (nums [10; 20; 30]%Z) (Some (batchv Z (always Z 3 ex_initial)))) = Ok tt.
Proof. split; vm_compute; reflexivity. Qed.
Definition ex_single := experience Z ex_conv ex_terminal Some (Z.eqb 0) 1%Z true (Leaf (mkLeaf [] None)) ex_actions (Dict []) (Dict []) (list (batch Z)) note false.
Example C151_single_example : states_steps Z 3 (Leaf [Arr []%nat [1]%Z; Arr []%nat [2]%Z; Arr []%nat [3]%Z]%Z) (nums [1; 2; 3]%Z) /\
  snd (ex_single [] (nums [1; 2; 3]%Z) (batchv Z ex_a) (nums [0; 1; 2]%Z) (nums [10; 20; 30]%Z) None) = Err "TensorforceError: actions is not tuple/list" /\
  snd (ex_single [] (nums [1; 2; 3]%Z) (PList (map (fun i => flatv Z i ex_a) [0; 1; 2])) (nums [0; 1; 2]%Z) (nums [10; 20; 30]%Z) None) = Ok tt.
Proof. split; [right; eexists; split; [reflexivity|apply (writes_nums [1; 2; 3]%Z); discriminate]|]. split; vm_compute; reflexivity. Qed.
Definition ex_named := experience Z ex_conv ex_terminal Some (Z.eqb 0) 1%Z true (Leaf (mkLeaf [] None)) (Dict [("action", Leaf (mkLeaf [] (Some 3)))]) (Dict []) (Dict []) (list (batch Z)) note false.
Example C151_named_example : snd (ex_named [] (nums [1; 2]%Z) (PArr (vector Z [0; 1]%Z)) (nums [0; 1]%Z) (nums [1; 2]%Z) None) = Err "TensorforceError: invalid value" /\
  snd (ex_named [] (nums [1; 2]%Z) (PList [PDict [(["action"], PNum 0%Z)]; PDict [(["action"], PNum 1%Z)]]) (nums [0; 1]%Z) (nums [1; 2]%Z) None) = Err "TensorforceError: invalid value".
Proof. split; vm_compute; reflexivity. Qed.
Definition ex_plain := experience Z ex_conv ex_terminal Some (Z.eqb 0) 1%Z true (Leaf (mkLeaf [] None)) (Leaf (mkLeaf [] (Some 3))) (Dict []) (Dict []) (list (batch Z)) note false.
Example C151_number_example : snd (ex_plain [] (PNum 1%Z) (PNum 2%Z) (PNum 1%Z) (PNum 5%Z) None) = Err "TensorforceError: actions is not dict" /\
  snd (ex_plain [] (PNum 1%Z) (PDict [(["action"], PNum 2%Z)]) (PNum 1%Z) (PNum 5%Z) None) = Ok tt.
Proof. split; vm_compute; reflexivity. Qed.

Print Assumptions C149_forms.
Print Assumptions C149_fed.
Print Assumptions C149_episodes.
Print Assumptions C150_split.
Print Assumptions C150_unfinished.
Print Assumptions C150_atomic_refuted.
Print Assumptions C151_alone_refuted.
Print Assumptions C151_arrays_refuted.
Print Assumptions C151_single_refuted.
Print Assumptions C151_named_refuted.
Print Assumptions C151_number_refuted.
