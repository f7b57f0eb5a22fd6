(** Proofs for experience, continued: episodes as rows, and parts of a trace. *)

From Coq Require Import String List ZArith Bool Lia.
From Verif Require Import Base InpModel InpSpec InpProofs InpActProofs InpRowProofs InpOutProofs InpBatchProofs ExpModel ExpSpec ExpProofs.
Import ListNotations.
Open Scope string_scope.
Open Scope list_scope.
Open Scope nat_scope.

Section Run.
Variable V : Type.
Variable conv : leaf -> V -> option V.
Variables conv_terminal conv_reward : V -> option V.
Variable is_zero : V -> bool.
Variable one : V.
Variable masking : bool.
Variables states_spec actions_spec internals_spec : tree leaf.
Variable initial : tree (arr V).
Variable M : Type.
Variable model_experience : M -> batch V -> M * res unit.
Notation experience := (experience V conv conv_terminal conv_reward is_zero one masking states_spec actions_spec internals_spec initial M model_experience).
Notation process := (process V one masking states_spec actions_spec initial).
Notation episode := (ExpModel.episode V conv conv_terminal conv_reward states_spec actions_spec internals_spec).
Notation episodes := (episodes V conv conv_terminal conv_reward is_zero states_spec actions_spec internals_spec M model_experience).
Notation trace := (trace V).
Notation written := (written V initial).
Notation piles := (piles V).
Notation to_tensor := (to_tensor V conv).

(** the states without the masks, and the masks *)
Definition row_inputs (n : nat) (t : tree (list (arr V))) : res (tree (list (arr V)) * list (list string * option (tree (list (arr V))))) :=
  do mt <- take_masks masking (ones_rows V one n) (items actions_spec) t;
  do s <- rename_single states_spec (snd mt);
  Ok (s, fst mt).
Definition row_episode (sm : tree (list (arr V)) * list (list string * option (tree (list (arr V))))) (x : trace) (o k : nat) : res (batch V) :=
  do s <- to_tensors to_tensor states_spec (tmap (piles o k) (fst sm));
  do i <- to_tensors_rec to_tensor internals_spec (tmap (piles o k) (t_internals V x));
  do m <- masks_to_tensors to_tensor (items actions_spec) (mmap (piles o k) (snd sm));
  do a <- to_tensors to_tensor actions_spec (tmap (piles o k) (t_actions V x));
  do t <- scalar_tensor V conv_terminal (vector V (part o k (t_terminal V x)));
  do r <- scalar_tensor V conv_reward (vector V (part o k (t_reward V x)));
  Ok (mkBatch V s i m a t r).
Fixpoint row_run (ep : nat -> nat -> res (batch V)) (ts : list V) (last index : nat) (m : M) : M * res unit :=
  match ts with
  | [] => (m, Ok tt)
  | t :: r =>
      if is_zero t then row_run ep r last (S index) m
      else match ep last (S index - last) with
           | Err e => (m, Err e)
           | Ok b => andthen (model_experience m b) (row_run ep r (S index) (S index))
           end
  end.

Lemma row_inputs_even n t sm : even V n t -> row_inputs n t = Ok sm ->
  even V n (fst sm) /\ forall p o, In (p, Some o) (snd sm) -> even V n o.
Proof.
  intros He H. unfold row_inputs in H. apply bind_ok in H. destruct H as [[ms s] [H1 H]]. apply bind_ok in H. destruct H as [s' [H2 H]]. apply ok_inj in H. subst sm.
  cbn [fst snd] in *. destruct (inputs_leaves V one masking states_spec actions_spec n t He ms s s' H1 H2) as [I1 I2]. split; [exact I1|].
  intros p o Ho. exact (I2 p o Ho).
Qed.

(** the arguments *)
Lemma process_written n x s a t r i : n <> 0 -> trace_ok V n x -> fits V states_spec (t_states V x) -> written n x s a t r i ->
  process s a t r i = do sm <- row_inputs n (t_states V x);
    Ok (mkInputs V (piled V (fst sm)) (piled V (t_internals V x)) (mmap (pile V) (snd sm)) (piled V (t_actions V x))
                 (vector V (t_terminal V x)) (vector V (t_reward V x))).
Proof.
  intros Hn (HT & HA & HI & Hd & Ht & Hr) Hf HW.
  assert (TM : (do mt <- take_masks masking (ones V one n) (items actions_spec) (piled V (t_states V x));
                do s <- rename_single states_spec (snd mt);
                Ok (mkInputs V s (piled V (t_internals V x)) (fst mt) (piled V (t_actions V x)) (vector V (t_terminal V x)) (vector V (t_reward V x)))) =
               do sm <- row_inputs n (t_states V x);
    Ok (mkInputs V (piled V (fst sm)) (piled V (t_internals V x)) (mmap (pile V) (snd sm)) (piled V (t_actions V x))
                 (vector V (t_terminal V x)) (vector V (t_reward V x)))).
  { rewrite piled_tmap at 1. rewrite (take_masks_tmap (pile V) masking (ones_rows V one n)) by (intros; apply ones_pile; exact Hn).
    rewrite rmap_bind. unfold row_inputs. destruct (take_masks _ _ _ _) as [[ms sm]|e]; [|reflexivity]. cbn [bind fst snd].
    rewrite rename_tmap. rewrite rmap_bind. destruct (rename_single _ _) as [u|e]; [|reflexivity]. cbn [bind fst snd]. rewrite <- piled_tmap. reflexivity. }
  assert (LI : map_res (check_length V n) (leaves (piled V (t_internals V x))) = Ok (map (fun _ => tt) (leaves (piled V (t_internals V x))))).
  { apply check_lengths. apply piled_lengths. exact HI. }
  assert (LA : map_res (check_length V n) (leaves (piled V (t_actions V x))) = Ok (map (fun _ => tt) (leaves (piled V (t_actions V x))))).
  { apply check_lengths. apply piled_lengths. exact HA. }
  assert (LT : check_length V n (vector V (t_terminal V x)) = Ok tt) by (unfold check_length, dim0, vector; cbn; rewrite Ht, Nat.eqb_refl; reflexivity).
  assert (LR : check_length V n (vector V (t_reward V x)) = Ok tt) by (unfold check_length, dim0, vector; cbn; rewrite Hr, Nat.eqb_refl; reflexivity).
  unfold ExpModel.process. destruct HW as [s a t r i H1 H2 H3 H4 H5|s a t r i H1 H2 H3 H4 H5|s a t r i E H1 H2 H3 H4 H5].
  - rewrite (states_steps_ok V _ n _ _ Hn HT Hf H1). cbn [bind]. rewrite (internals_steps_ok V initial n _ _ Hn HI H3). cbn [bind].
    rewrite (actions_steps_ok V n _ _ Hn HA H2). cbn [bind]. rewrite (asarray_writes _ _ H4), (asarray_writes _ _ H5). cbn [bind].
    rewrite LI, LA, LT, LR. cbn [bind]. exact TM.
  - rewrite (states_arrays_ok V _ n _ _ Hn HT Hf H1). cbn [bind]. rewrite (internals_arrays_ok V initial n _ _ Hn HI H3). cbn [bind].
    rewrite (actions_arrays_ok V _ _ H2). cbn [bind]. rewrite (asarray_writes _ _ H4), (asarray_writes _ _ H5). cbn [bind].
    rewrite LI, LA, LT, LR. cbn [bind]. exact TM.
  - rewrite (process_one_any V states_spec (t_states V x) n 0 s ltac:(lia) HT Hf H1). cbn [bind]. rewrite (internals_alone_ok V initial 1 _ _ H3). cbn [bind].
    rewrite (action_alone_ok V _ _ H2). cbn [bind]. rewrite (expand_instance V n _ E HI), (expand_instance V n _ E HA).
    rewrite alone_expand, (expand_instance V n _ E HT). cbn [asarray map_res bind np_stack forallb length concat map data app shape].
    change (Arr [1] [t]) with (vector V [t]). change (Arr [1] [r]) with (vector V [r]). rewrite <- H4, <- H5, <- E.
    rewrite LI, LA, LT, LR. cbn [bind]. exact TM.
Qed.

Lemma mmap_mmap {A B C} (f : A -> B) (g : B -> C) ms : mmap g (mmap f ms) = mmap (fun x => g (f x)) ms.
Proof.
  unfold mmap. rewrite map_map. apply map_ext. intros [p o]. cbn. f_equal. destruct o as [t|]; [|reflexivity]. cbn. rewrite tmap_tmap. reflexivity.
Qed.
Lemma mmap_ext_leaves {A B} (f g : A -> B) (ms : list (list string * option (tree A))) :
  (forall p t a, In (p, Some t) ms -> In a (leaves t) -> f a = g a) -> mmap f ms = mmap g ms.
Proof.
  intros H. unfold mmap. apply map_ext_in. intros [p o] Hin. cbn. f_equal. destruct o as [t|]; [|reflexivity]. cbn. f_equal.
  apply tmap_ext_leaves. intros a Ha. eapply H; eauto.
Qed.

Lemma episode_rows n x sm o k : k <> 0 -> o + k <= n -> trace_ok V n x -> even V n (fst sm) ->
  (forall p t, In (p, Some t) (snd sm) -> even V n t) ->
  episode (mkInputs V (piled V (fst sm)) (piled V (t_internals V x)) (mmap (pile V) (snd sm)) (piled V (t_actions V x))
                 (vector V (t_terminal V x)) (vector V (t_reward V x))) o (o + k) = row_episode sm x o k.
Proof.
  intros Hk H (HT & HA & HI & Hd & Ht & Hr) E1 E2. unfold ExpModel.episode, row_episode. cbn [i_states i_internals i_masks i_actions i_terminal i_reward].
  rewrite (slice_piled V n o k _ Hk H E1), (slice_piled V n o k _ Hk H (table_even n _ HI)), (slice_piled V n o k _ Hk H (table_even n _ HA)).
  rewrite !slice_vector by lia.
  change (map (fun po : list string * option (tree (arr V)) => (fst po, option_map (tmap (np_slice o (o + k))) (snd po))) (mmap (pile V) (snd sm)))
    with (mmap (np_slice o (o + k)) (mmap (pile V) (snd sm))).
  rewrite mmap_mmap. rewrite (mmap_ext_leaves (fun xs => np_slice o (o + k) (pile V xs)) (piles o k)); [reflexivity|].
  intros p t xs Hin Hx. specialize (E2 p t Hin). unfold even in E2. rewrite Forall_forall in E2. apply (slice_pile V n); auto.
Qed.
Lemma episodes_rows n x sm : trace_ok V n x -> even V n (fst sm) -> (forall p t, In (p, Some t) (snd sm) -> even V n t) ->
  forall ts last index m, last <= index -> index + length ts <= n ->
  episodes (mkInputs V (piled V (fst sm)) (piled V (t_internals V x)) (mmap (pile V) (snd sm)) (piled V (t_actions V x))
                 (vector V (t_terminal V x)) (vector V (t_reward V x))) ts last index m = row_run (row_episode sm x) ts last index m.
Proof.
  intros Hx E1 E2. induction ts as [|t ts IH]; intros last index m H1 H2; [reflexivity|]. cbn [ExpModel.episodes row_run]. cbn [length] in H2.
  destruct (is_zero t); [apply IH; lia|].
  replace (S index) with (last + (S index - last)) at 1 by lia. rewrite (episode_rows n); [|lia|lia|exact Hx|exact E1|exact E2].
  destruct (row_episode _ _ _ _) as [b|e]; [|reflexivity]. unfold andthen. destruct (model_experience m b) as [m' [u|e]]; [|reflexivity]. apply IH; lia.
Qed.

Definition row_experience (n : nat) (x : trace) (m : M) : M * res unit :=
  match row_inputs n (t_states V x) with
  | Err e => (m, Err e)
  | Ok sm => if match rev (t_terminal V x) with t :: _ => is_zero t | [] => true end
             then (m, Err "TensorforceError: Agent.experience() requires full episodes as input.")
             else row_run (row_episode sm x) (t_terminal V x) 0 0 m
  end.
Lemma experience_written n x s a t r i m : n <> 0 -> trace_ok V n x -> fits V states_spec (t_states V x) -> written n x s a t r i ->
  experience false m s a t r i = row_experience n x m.
Proof.
  intros Hn Hx Hf HW. unfold ExpModel.experience. rewrite (process_written n x s a t r i Hn Hx Hf HW). unfold row_experience.
  destruct (row_inputs n (t_states V x)) as [sm|e] eqn:ER; [|reflexivity]. cbn [bind i_terminal vector shape data].
  destruct (rev (t_terminal V x)) as [|v vs] eqn:EV.
  - apply (f_equal (@length V)) in EV. rewrite rev_length in EV. destruct Hx as (_ & _ & _ & _ & HL & _). cbn in EV. congruence.
  - destruct (is_zero v); [reflexivity|]. destruct (row_inputs_even n _ sm (table_even n _ (proj1 Hx)) ER) as [E1 E2].
    apply (episodes_rows n); auto. destruct Hx as (_ & _ & _ & _ & HL & _). rewrite HL. cbn. lia.
Qed.

(** parts *)
Lemma row_inputs_part n o k t : o + k <= n ->
  row_inputs k (timesteps V o k t) = rmap (fun sm => (tmap (part o k) (fst sm), mmap (part o k) (snd sm))) (row_inputs n t).
Proof.
  intros H. unfold row_inputs. rewrite timesteps_tmap. rewrite (take_masks_tmap (part o k) masking (ones_rows V one n)).
  - rewrite rmap_bind. destruct (take_masks _ _ _ _) as [[ms s]|e]; [|reflexivity]. cbn [bind fst snd]. rewrite rename_tmap, rmap_bind.
    destruct (rename_single _ _) as [u|e]; reflexivity.
  - intros l j. unfold ones_rows. symmetry. apply part_repeat. exact H.
Qed.
Lemma row_episode_part sm x o k o' k' : o' + k' <= k ->
  row_episode (tmap (part o k) (fst sm), mmap (part o k) (snd sm)) (cut V o k x) o' k' = row_episode sm x (o + o') k'.
Proof.
  intros H. unfold row_episode. cbn [fst snd]. unfold cut. cbn [t_internals t_actions t_terminal t_reward]. rewrite !timesteps_tmap, !tmap_tmap, mmap_mmap, !part_part by exact H.
  assert (E : forall t, tmap (fun xs => piles o' k' (part o k xs)) t = tmap (piles (o + o') k') t).
  { intros t. apply tmap_ext_leaves. intros xs _. unfold ExpProofs.piles. rewrite part_part by exact H. reflexivity. }
  rewrite !E. rewrite (mmap_ext_leaves (fun xs => piles o' k' (part o k xs)) (piles (o + o') k')); [reflexivity|].
  intros p t xs _ _. unfold ExpProofs.piles. rewrite part_part by exact H. reflexivity.
Qed.
Lemma row_run_ext ep ep' d n : (forall o k, o + k <= n -> ep o k = ep' (d + o) k) -> forall ts last index m, last <= index -> index + length ts <= n ->
  row_run ep ts last index m = row_run ep' ts (d + last) (d + index) m.
Proof.
  intros H. induction ts as [|t ts IH]; intros last index m H1 H2; [reflexivity|]. cbn [row_run]. cbn [length] in H2. destruct (is_zero t).
  - rewrite (IH last (S index)) by lia. f_equal. lia.
  - rewrite H by lia. replace (S (d + index) - (d + last)) with (S index - last) by lia. destruct (ep' _ _) as [b|e]; [|reflexivity].
    unfold andthen. destruct (model_experience m b) as [m' [u|e]]; [|reflexivity]. rewrite (IH (S index) (S index)) by lia. f_equal; lia.
Qed.
(** an end of an episode *)
Lemma row_run_app ep t ts' : is_zero t = false -> forall ts last index m,
  row_run ep ((ts ++ [t]) ++ ts') last index m =
  andthen (row_run ep (ts ++ [t]) last index m) (row_run ep ts' (index + S (length ts)) (index + S (length ts))).
Proof.
  intros Ht. induction ts as [|u ts IH]; intros last index m.
  - cbn [app row_run length]. rewrite Ht. destruct (ep _ _) as [b|e]; [|reflexivity]. unfold andthen. destruct (model_experience m b) as [m' [u|e]]; [|reflexivity].
    cbn [row_run]. f_equal; lia.
  - cbn [app row_run length]. destruct (is_zero u).
    + rewrite IH. f_equal. f_equal; lia.
    + destruct (ep _ _) as [b|e]; [|reflexivity]. unfold andthen at 1 3. destruct (model_experience m b) as [m' [v|e]]; [|reflexivity].
      rewrite IH. f_equal. f_equal; lia.
Qed.

(** the timesteps up to the end of an episode, then the others *)
Notation ends := (finished V is_zero).
Lemma ends_rev ts : ends ts <-> match rev ts with t :: _ => is_zero t | [] => true end = false.
Proof.
  split.
  - intros (ts' & t & -> & H). rewrite rev_app_distr. exact H.
  - intros H. destruct (rev ts) as [|t r] eqn:E; [discriminate|]. exists (rev r), t. split; [|exact H]. rewrite <- (rev_involutive ts), E. reflexivity.
Qed.
Lemma row_experience_split n k x m : trace_ok V n x -> k <= n -> k <> 0 -> n <> k ->
  ends (part 0 k (t_terminal V x)) -> ends (t_terminal V x) ->
  row_experience n x m = andthen (row_experience k (cut V 0 k x) m) (row_experience (n - k) (cut V k (n - k) x)).
Proof.
  intros Hx Hk Hk0 Hn E1 E2. unfold row_experience. cbn [cut t_states].
  rewrite (row_inputs_part n 0 k) by lia. rewrite (row_inputs_part n k (n - k)) by lia.
  destruct (row_inputs n (t_states V x)) as [sm|e]; [|reflexivity]. cbn [rmap].
  pose proof Hx as (_ & _ & _ & _ & HL & _).
  rewrite (proj1 (ends_rev _) E2). change (t_terminal V (cut V 0 k x)) with (part 0 k (t_terminal V x)). change (t_terminal V (cut V k (n - k) x)) with (part k (n - k) (t_terminal V x)).
  rewrite (proj1 (ends_rev _) E1).
  assert (ES : t_terminal V x = part 0 k (t_terminal V x) ++ part k (n - k) (t_terminal V x)).
  { unfold part. cbn [skipn]. rewrite (firstn_all2 (n := n - k)) by (rewrite skipn_length; lia). rewrite firstn_skipn. reflexivity. }
  assert (E3 : ends (part k (n - k) (t_terminal V x))).
  { destruct E2 as (ts & t & E & Ht). unfold part. rewrite (firstn_all2 (n := n - k)) by (rewrite skipn_length; lia).
    assert (HE : length ts + 1 = n) by (rewrite <- HL, E, app_length; reflexivity).
    rewrite E. rewrite skipn_app. replace (k - length ts) with 0 by lia. cbn [skipn]. exists (skipn k ts), t. auto. }
  assert (EF : (fun m0 : M =>
     if match rev (part k (n - k) (t_terminal V x)) with [] => true | t :: _ => is_zero t end
     then (m0, Err "TensorforceError: Agent.experience() requires full episodes as input.")
     else row_run (row_episode (tmap (part k (n - k)) (fst sm), mmap (part k (n - k)) (snd sm)) (cut V k (n - k) x)) (part k (n - k) (t_terminal V x)) 0 0 m0)
     = row_run (row_episode (tmap (part k (n - k)) (fst sm), mmap (part k (n - k)) (snd sm)) (cut V k (n - k) x)) (part k (n - k) (t_terminal V x)) 0 0).
  { rewrite (proj1 (ends_rev _) E3). reflexivity. }
  rewrite EF. clear EF.
  rewrite (row_run_ext (row_episode (tmap (part 0 k) (fst sm), mmap (part 0 k) (snd sm)) (cut V 0 k x)) (row_episode sm x) 0 k); [|intros o j Hj; apply row_episode_part; exact Hj|lia|rewrite part_length by lia; lia].
  cbn [Nat.add].
  assert (EG : forall m0, row_run (row_episode (tmap (part k (n - k)) (fst sm), mmap (part k (n - k)) (snd sm)) (cut V k (n - k) x)) (part k (n - k) (t_terminal V x)) 0 0 m0 =
               row_run (row_episode sm x) (part k (n - k) (t_terminal V x)) k k m0).
  { intros m0. rewrite (row_run_ext (row_episode (tmap (part k (n - k)) (fst sm), mmap (part k (n - k)) (snd sm)) (cut V k (n - k) x)) (row_episode sm x) k (n - k)); [|intros o j Hj; apply row_episode_part; exact Hj|lia|rewrite part_length by lia; lia].
    f_equal; lia. }
  rewrite ES at 1. destruct E1 as (ts & t & E & Ht). rewrite E. rewrite (row_run_app _ t _ Ht).
  assert (HE : S (length ts) = k) by (rewrite <- (part_length 0 k (t_terminal V x)), E, app_length by lia; cbn; lia).
  rewrite HE. cbn [Nat.add]. unfold andthen. destruct (row_run _ (ts ++ [t]) 0 0 m) as [m' [u|e]]; [|reflexivity]. rewrite EG. reflexivity.
Qed.
End Run.
