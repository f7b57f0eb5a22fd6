(** observe: forms of the arguments, streams and counters, rejected calls. *)

From Coq Require Import String List ZArith Bool Lia.
From Verif Require Import Base InpModel InpSpec InpProofs InpActProofs InpStreamProofs.
Import ListNotations.
Open Scope list_scope.
Open Scope nat_scope.

(** the values at different indices after an assignment *)
Lemma nth_put : forall {A} (d : A) is x vs j, NoDup is -> length vs = length is -> (forall i, In i is -> i < length x) ->
  (~ In j is -> nth j (put x is vs) d = nth j x d) /\ (forall k v, nth_error is k = Some j -> nth_error vs k = Some v -> nth j (put x is vs) d = v).
Proof.
  intros A d. induction is as [|i is IH]; intros x vs j Hnd HL Hi.
  - split; [reflexivity|]. intros [|k] v H; discriminate.
  - destruct vs as [|w vs]; [discriminate|]. inversion Hnd as [|? ? Hni Hnd']; subst. cbn [put].
    destruct (IH (update_nth x i w) vs j Hnd') as [H1 H2]; [cbn in HL; lia|intros k Hk; rewrite update_nth_length; apply Hi; right; exact Hk|].
    assert (Hil : i < length x) by (apply Hi; left; reflexivity).
    split.
    + intros Hn. rewrite H1 by (intros H; apply Hn; right; exact H). rewrite nth_update by exact Hil. destruct (Nat.eqb_spec j i); [|reflexivity]. subst. exfalso. apply Hn. left. reflexivity.
    + intros [|k] v E1 E2; cbn in E1, E2.
      * apply some_inj in E1. apply some_inj in E2. subst i w. rewrite H1 by exact Hni. rewrite nth_update by exact Hil. rewrite Nat.eqb_refl. reflexivity.
      * eapply H2; eauto.
Qed.

Lemma pick_put : forall {A} (d : A) (is : list nat) (x vs : list A), NoDup is -> length vs = length is -> (forall i, In i is -> i < length x) -> pick (put x is vs) d is = vs.
Proof.
  intros A d is x vs Hnd HL Hi. apply nth_ext with (d := d) (d' := d); [unfold pick; rewrite map_length; symmetry; exact HL|].
  intros k Hk. unfold pick in *. rewrite map_length in Hk.
  rewrite (nth_indep _ d (nth (nth k is 0) (put x is vs) d)) by (rewrite map_length; exact Hk).
  destruct (nth_error is k) as [j|] eqn:Ej; [|apply nth_error_None in Ej; lia].
  destruct (nth_error vs k) as [v|] eqn:Ev; [|apply nth_error_None in Ev; lia].
  destruct (nth_put d is x vs j Hnd HL Hi) as [_ H].
  rewrite (map_nth (fun i => nth i (put x is vs) d)). rewrite (nth_error_nth is k 0 Ej), (nth_error_nth vs k d Ev).
  rewrite (nth_error_nth is k j Ej). eapply H; eauto.
Qed.
Lemma put_put : forall {A} (d : A) (is : list nat) (x vs ws : list A), NoDup is -> length vs = length is -> length ws = length is -> (forall i, In i is -> i < length x) ->
  put (put x is vs) is ws = put x is ws.
Proof.
  intros A d is x vs ws Hnd H1 H2 Hi. apply nth_ext with (d := d) (d' := d); [rewrite !put_length; reflexivity|]. intros j Hj.
  assert (Hi' : forall i, In i is -> i < length (put x is vs)) by (intros i H; rewrite put_length; auto).
  destruct (nth_put d is (put x is vs) ws j Hnd H2 Hi') as [A1 A2]. destruct (nth_put d is x ws j Hnd H2 Hi) as [B1 B2]. destruct (nth_put d is x vs j Hnd H1 Hi) as [C1 _].
  destruct (in_dec Nat.eq_dec j is) as [Hin|Hn].
  - apply In_nth_error in Hin. destruct Hin as [k Hk]. destruct (nth_error ws k) as [w|] eqn:Ew; [|exfalso; apply nth_error_None in Ew; assert (k < length is) by (apply nth_error_Some; congruence); lia].
    rewrite (A2 k w Hk Ew), (B2 k w Hk Ew). reflexivity.
  - rewrite A1, B1, C1 by exact Hn. reflexivity.
Qed.

Section Observe.
Variable V : Type.
Variable M : Type.
Variable streams : nat.
Variable max_steps : option Z.
Variable is_zero : V -> bool.
Variable zero : V.
Notation observe := (observe V M streams max_steps is_zero zero).
Notation counter := (counter M).
Notation completed := (completed M).
Notation model := (model M).
Implicit Types st : state M.

(** * C141: forms of the arguments *)

(** Single values are lists of one element; a missing terminal means that no stream ends, a missing reward
    means zeros, and a missing parallel means all streams. *)
Theorem C141_forms : forall st,
  (forall v b z, observe st (RNum V v) (TBool b) (ParInt z) = observe st (RSeq V [v]) (TSeq [if b then 1%Z else 0%Z]) (ParSeq [z])) /\
  (forall v k z, observe st (RNum V v) (TInt k) (ParInt z) = observe st (RSeq V [v]) (TSeq [k]) (ParSeq [z])) /\
  (forall rs p, observe st (RSeq V rs) (TBool false) p = observe st (RSeq V rs) (TSeq (repeat 0%Z (length rs))) p) /\
  (forall v ts p, is_zero v = true -> observe st (RNum V v) (TSeq ts) p = observe st (RSeq V (repeat zero (length ts))) (TSeq ts) p) /\
  (forall v l, is_zero v = true -> observe st (RNum V v) (TBool false) (ParSeq l) = observe st (RSeq V (repeat zero (length l))) (TSeq (repeat 0%Z (length l))) (ParSeq l)) /\
  (forall rs t, length rs = streams -> observe st (RSeq V rs) t (ParInt 0) = observe st (RSeq V rs) t (ParSeq (map Z.of_nat (seq 0 streams)))) /\
  (forall v ts, length ts = streams -> observe st (RNum V v) (TSeq ts) (ParInt 0) = observe st (RNum V v) (TSeq ts) (ParSeq (map Z.of_nat (seq 0 streams)))).
Proof.
  intros st. split; [|split; [|split; [|split; [|split; [|split]]]]].
  - intros v b z. unfold InpModel.observe, process_observe. cbn. destruct b; reflexivity.
  - intros v k z. reflexivity.
  - intros rs p. reflexivity.
  - intros v ts p Hv. unfold InpModel.observe, process_observe. cbn [reward_vec]. rewrite Hv, repeat_length. reflexivity.
  - intros v l Hv. unfold InpModel.observe, process_observe. cbn [reward_vec terminal_vec parallel_vec bind]. rewrite Hv. reflexivity.
  - intros rs t HL. unfold InpModel.observe, process_observe. cbn [parallel_vec Z.eqb]. rewrite HL, Nat.eqb_refl. reflexivity.
  - intros v ts HL. unfold InpModel.observe, process_observe. cbn [parallel_vec Z.eqb]. rewrite HL, Nat.eqb_refl. reflexivity.
Qed.

Lemma observe_lists : forall st rs ts l, l <> [] -> length rs = length l -> length ts = length l ->
  process_observe V streams is_zero zero (RSeq V rs) (TSeq ts) (ParSeq l) = Ok (rs, ts, l).
Proof.
  intros st rs ts l Hl H1 H2. unfold process_observe. cbn [parallel_vec terminal_vec bind]. destruct l; [congruence|]. rewrite H1, H2, !Nat.eqb_refl. reflexivity.
Qed.

(** The number of timesteps of a stream after an observation *)
Definition steps_after (t c : Z) : Z := if (0 <? t)%Z then 0%Z else (c + 1)%Z.
Definition too_long (t c : Z) : bool := match max_steps with Some m => (t =? 0)%Z && (m <? c + 1)%Z | None => false end.

Section Lists.
Variables (st : state M) (rs : list V) (ts l : list Z).
Hypothesis Hp : proper streams st.
Hypothesis Hnd : NoDup l.
Hypothesis Hl : l <> [].
Hypothesis Hr : length rs = length l.
Hypothesis Ht : length ts = length l.
Hypothesis Hin : forall z, In z l -> (0 <= z < Z.of_nat streams)%Z.
Let is := map Z.to_nat l.
Let news := map (fun tc => steps_after (fst tc) (snd tc)) (combine ts (pick (counter st) 0%Z is)).

Lemma is_nodup : NoDup is.
Proof using Hnd Hin.
  clear Hr Ht.
  unfold is. clear - Hnd Hin. induction Hnd as [|z l' Hz _ IH]; [constructor|]. cbn. constructor.
  - intros H. apply in_map_iff in H. destruct H as [y [E Hy]]. pose proof (Hin z (or_introl eq_refl)). pose proof (Hin y (or_intror Hy)). assert (y = z) by lia. subst. contradiction.
  - apply IH; [inversion Hnd; assumption|]. intros y Hy. apply Hin. right. exact Hy.
Qed.
Lemma is_lt : forall i, In i is -> i < streams.
Proof using Hin. clear Hr Ht. intros i H. unfold is in H. apply in_map_iff in H. destruct H as [z [<- Hz]]. specialize (Hin z Hz). lia. Qed.
Lemma observe_run :
  observe st (RSeq V rs) (TSeq ts) (ParSeq l) =
  if existsb (fun i => nth i (completed st) true) is then (st, Err "TensorforceError: Calling agent.observe must be preceded by agent.act.")
  else if existsb (fun tc => too_long (fst tc) (snd tc)) (combine ts (pick (counter st) 0%Z is)) then
    (mkState M (put (counter st) is (map (fun c => (c + 1)%Z) (pick (counter st) 0%Z is))) (put (completed st) is (map (fun _ => true) is)) (model st),
     Err "TensorforceError: Episode longer than max_episode_timesteps.")
  else (mkState M (put (counter st) is news) (put (completed st) is (map (fun _ => true) is)) (model st), Ok (rs, ts, l)).
Proof.
  unfold InpModel.observe. rewrite (observe_lists st) by assumption. rewrite (index_all streams l Hin). fold is. rewrite pick_any.
  destruct (existsb (fun i => nth i (completed st) true) is); [reflexivity|]. cbn [set_completed set_counter InpModel.counter InpModel.completed InpModel.model].
  assert (HL : length (map (fun c => (c + 1)%Z) (pick (counter st) 0%Z is)) = length is) by (unfold pick; rewrite !map_length; reflexivity).
  assert (Hb : forall i, In i is -> i < length (counter st)) by (rewrite (proj2 Hp); exact is_lt).
  rewrite (pick_put 0%Z is (counter st) _ is_nodup HL Hb).
  assert (EX : match max_steps with None => false | Some m => existsb (fun tc => (fst tc =? 0)%Z && (m <? snd tc)%Z) (combine ts (map (fun c => (c + 1)%Z) (pick (counter st) 0%Z is))) end =
               existsb (fun tc => too_long (fst tc) (snd tc)) (combine ts (pick (counter st) 0%Z is))).
  { unfold too_long. generalize (pick (counter st) 0%Z is). clear. induction ts as [|t l IH]; intros [|c cs]; cbn; try (destruct max_steps; reflexivity).
    specialize (IH cs). destruct max_steps; [|exact IH]. rewrite IH. reflexivity. }
  rewrite EX. destruct (existsb _ _); [reflexivity|]. f_equal. f_equal.
  assert (EN : map (fun tc : Z * Z => if (0 <? fst tc)%Z then 0%Z else snd tc) (combine ts (map (fun c => (c + 1)%Z) (pick (counter st) 0%Z is))) = news).
  { unfold news. generalize (pick (counter st) 0%Z is). clear. induction ts as [|t l IH]; intros [|c cs]; cbn; try reflexivity. rewrite IH. reflexivity. }
  rewrite EN. unfold set_counter, set_completed. cbn [InpModel.counter InpModel.completed InpModel.model]. f_equal. apply (put_put 0%Z); [exact is_nodup|exact HL| |exact Hb].
  unfold news, pick. rewrite map_length, combine_length, map_length. unfold is in *. rewrite map_length. lia.
Qed.

Lemma acting_all : existsb (fun i => nth i (completed st) true) is = false <-> forall z, In z l -> closed st (Z.to_nat z) = false.
Proof using Hp Hin.
  split.
  - intros H z Hz. unfold closed. destruct (nth (Z.to_nat z) (completed st) false) eqn:E; [|reflexivity]. rewrite <- H. symmetry. apply existsb_exists. exists (Z.to_nat z).
    assert (Hi : In (Z.to_nat z) is) by (apply in_map; exact Hz). split; [exact Hi|]. rewrite nth_false_true by (rewrite (proj1 Hp); apply is_lt; exact Hi). exact E.
  - intros H. destruct (existsb _ is) eqn:E; [|reflexivity]. apply existsb_exists in E. destruct E as [i [Hi E]].
    rewrite nth_false_true in E by (rewrite (proj1 Hp); apply is_lt; exact Hi). unfold is in Hi. apply in_map_iff in Hi. destruct Hi as [z [<- Hz]]. specialize (H z Hz). unfold closed in H. congruence.
Qed.
Lemma pairs : forall k t z, nth_error ts k = Some t -> nth_error l k = Some z -> nth_error (combine ts (pick (counter st) 0%Z is)) k = Some (t, nth (Z.to_nat z) (counter st) 0%Z).
Proof using.
  unfold is, pick. clear. revert l. induction ts as [|t' ts' IH]; intros [|z' l'] [|k] t z H1 H2; try discriminate; cbn in *.
  - apply some_inj in H1. apply some_inj in H2. subst. reflexivity.
  - apply IH; assumption.
Qed.
Lemma long_none : existsb (fun tc => too_long (fst tc) (snd tc)) (combine ts (pick (counter st) 0%Z is)) = false <->
  forall m k z, max_steps = Some m -> nth_error l k = Some z -> nth_error ts k = Some 0%Z -> (nth (Z.to_nat z) (counter st) 0 + 1 <= m)%Z.
Proof using Ht.
  clear Hr.
  split.
  - intros H m k z Hm Hz H0. destruct (Z.leb_spec (nth (Z.to_nat z) (counter st) 0%Z + 1) m); [assumption|]. exfalso.
    assert (E : existsb (fun tc => too_long (fst tc) (snd tc)) (combine ts (pick (counter st) 0%Z is)) = true); [|congruence].
    apply existsb_exists. eexists. split; [eapply nth_error_In; eapply pairs; eauto|]. cbn. unfold too_long. rewrite Hm. cbn. apply Z.ltb_lt. lia.
  - intros H. destruct (existsb _ _) eqn:E; [|reflexivity]. apply existsb_exists in E. destruct E as [tc [Hi E]]. apply In_nth_error in Hi. destruct Hi as [k Hk].
    unfold too_long in E. destruct max_steps as [m|] eqn:Em; [|discriminate]. apply andb_prop in E. destruct E as [E1 E2]. apply Z.eqb_eq in E1. apply Z.ltb_lt in E2.
    assert (Kl : k < length l).
    { assert (Kc : k < length (combine ts (pick (counter st) 0%Z is))) by (apply nth_error_Some; congruence). rewrite combine_length in Kc. lia. }
    destruct (nth_error l k) as [z|] eqn:Ez; [|apply nth_error_None in Ez; lia]. destruct (nth_error ts k) as [t|] eqn:Et; [|apply nth_error_None in Et; lia].
    rewrite (pairs k t z Et Ez) in Hk. apply some_inj in Hk. subst tc. cbn in E1, E2. subst t. specialize (H m k z eq_refl Ez Et). lia.
Qed.
End Lists.

(** Lists of values for different streams are accepted if all the streams were acting and no episode that does not end
    is too long. *)
Theorem C141_accepted : forall st rs ts l, proper streams st -> NoDup l -> l <> [] -> length rs = length l -> length ts = length l ->
  (forall z, In z l -> (0 <= z < Z.of_nat streams)%Z) ->
  (exists st', observe st (RSeq V rs) (TSeq ts) (ParSeq l) = (st', Ok (rs, ts, l))) <->
  (forall z, In z l -> closed st (Z.to_nat z) = false) /\
  (forall m k z, max_steps = Some m -> nth_error l k = Some z -> nth_error ts k = Some 0%Z -> (nth (Z.to_nat z) (counter st) 0 + 1 <= m)%Z).
Proof.
  intros st rs ts l Hp Hnd Hl Hr Ht Hin. rewrite <- (acting_all st l Hp Hin), <- (long_none st ts l Ht), (observe_run st rs ts l Hp Hnd Hl Hr Ht Hin).
  destruct (existsb (fun i => nth i (completed st) true) (map Z.to_nat l)); [split; [intros [st' E]; inversion E|intros [E _]; discriminate]|].
  destruct (existsb _ (combine ts _)); [split; [intros [st' E]; inversion E|intros [_ E]; discriminate]|].
  split; [auto|]. intros _. eexists; reflexivity.
Qed.

(** Then exactly these streams are completed, their numbers of timesteps are increased or, if the
    episode ends, reset, and everything else is unchanged. *)
Theorem C141_streams : forall st st' rs ts l o, proper streams st -> NoDup l -> l <> [] -> length rs = length l -> length ts = length l ->
  (forall z, In z l -> (0 <= z < Z.of_nat streams)%Z) ->
  observe st (RSeq V rs) (TSeq ts) (ParSeq l) = (st', Ok o) ->
  o = (rs, ts, l) /\ model st' = model st /\ proper streams st' /\
  (forall j, closed st' j = if among j l then true else closed st j) /\
  (forall j, among j l = false -> nth j (counter st') 0%Z = nth j (counter st) 0%Z) /\
  (forall k z t, nth_error l k = Some z -> nth_error ts k = Some t ->
     nth (Z.to_nat z) (counter st') 0%Z = if (0 <? t)%Z then 0%Z else (nth (Z.to_nat z) (counter st) 0 + 1)%Z).
Proof.
  intros st st' rs ts l o Hp Hnd Hl Hr Ht Hin H. rewrite (observe_run st rs ts l Hp Hnd Hl Hr Ht Hin) in H.
  destruct (existsb (fun i => nth i (completed st) true) (map Z.to_nat l)); [inversion H|]. destruct (existsb _ (combine ts _)); [inversion H|]. inversion H; subst. clear H.
  split; [reflexivity|]. split; [reflexivity|]. split; [|split; [|split]].
  - destruct Hp as [H1 H2]. split; cbn; rewrite put_length; assumption.
  - intros j. unfold closed. cbn. rewrite nth_put_const by (intros i Hi; rewrite (proj1 Hp); eapply is_lt; eauto).
    rewrite among_indices by (intros z Hz; specialize (Hin z Hz); lia). reflexivity.
  - intros j Hj. cbn. apply nth_put; [eapply is_nodup; eauto| |intros i Hi; rewrite (proj2 Hp); eapply is_lt; eauto|].
    + unfold pick. rewrite map_length, combine_length, !map_length. lia.
    + intros Hi. rewrite <- (among_indices j l) in Hj by (intros z Hz; specialize (Hin z Hz); lia).
      assert (E : existsb (Nat.eqb j) (map Z.to_nat l) = true) by (apply existsb_exists; exists j; split; [exact Hi|apply Nat.eqb_refl]). congruence.
  - intros k z t Hz Hk. cbn.
    destruct (nth_put 0%Z (map Z.to_nat l) (counter st) (map (fun tc => steps_after (fst tc) (snd tc)) (combine ts (pick (counter st) 0%Z (map Z.to_nat l)))) (Z.to_nat z)) as [_ H].
    + eapply is_nodup; eauto.
    + unfold pick. rewrite map_length, combine_length, !map_length. lia.
    + intros i Hi. rewrite (proj2 Hp). eapply is_lt; eauto.
    + rewrite (H k (steps_after t (nth (Z.to_nat z) (counter st) 0%Z))); [reflexivity| |].
      * rewrite nth_error_map, Hz. reflexivity.
      * rewrite nth_error_map, (pairs st ts l k t z Hk Hz). reflexivity.
Qed.

(** A rejected observation never changes the model; it changes nothing at all unless an episode is too long. *)
Theorem C141_kept : forall st st' r t p e, observe st r t p = (st', Err e) ->
  model st' = model st /\ (st' = st \/ max_steps <> None /\ e = "TensorforceError: Episode longer than max_episode_timesteps."%string).
Proof.
  intros st st' r t p e H. unfold InpModel.observe in H. destruct (process_observe _ _ _ _ r t p) as [[[rs ts] ps]|]; [|inversion H; auto].
  destruct (map_res (index streams) ps) as [is|]; [|inversion H; auto]. destruct (existsb _ (pick _ true is)); [inversion H; auto|].
  destruct max_steps as [m|]; [|inversion H]. destruct (existsb _ (combine ts _)); [|inversion H]. inversion H; subst. cbn. split; [reflexivity|]. right. split; [discriminate|reflexivity].
Qed.

(** But an observation that is rejected since the episode is too long leaves the stream completed and
    its timestep counted, although it is not passed on. *)
Theorem C141_long_refuted : forall st m v z, max_steps = Some m -> proper streams st -> (0 <= z < Z.of_nat streams)%Z ->
  closed st (Z.to_nat z) = false -> (m <= nth (Z.to_nat z) (counter st) 0)%Z ->
  exists st' e, observe st (RNum V v) (TBool false) (ParInt z) = (st', Err e) /\
    closed st' (Z.to_nat z) = true /\ nth (Z.to_nat z) (counter st') 0%Z = (nth (Z.to_nat z) (counter st) 0 + 1)%Z.
Proof.
  intros st m v z Hm Hp Hz Hc Hlong. destruct (C141_forms st) as [E _]. rewrite (E v false z).
  assert (Hin : forall y, In y [z] -> (0 <= y < Z.of_nat streams)%Z) by (intros y [<-|[]]; exact Hz).
  assert (Hnd : NoDup [z]) by (constructor; [intros []|constructor]).
  rewrite (observe_run st [v] [0%Z] [z] Hp Hnd ltac:(discriminate) eq_refl eq_refl Hin). cbn [map existsb pick combine fst snd]. unfold closed in Hc.
  rewrite nth_false_true by (rewrite (proj1 Hp); lia). rewrite Hc. cbn [orb]. unfold too_long. rewrite Hm. cbn [Z.eqb andb].
  destruct (Z.ltb_spec m (nth (Z.to_nat z) (counter st) 0 + 1)%Z); [|lia]. cbn [orb]. do 2 eexists. split; [reflexivity|].
  unfold closed. cbn [InpModel.completed InpModel.counter put]. rewrite !nth_update by (rewrite ?(proj1 Hp), ?(proj2 Hp); lia). rewrite Nat.eqb_refl. split; reflexivity.
Qed.

(** A single reward other than 0, a single terminal other than False, and a single stream number other
    than 0 are not extended to all streams, but rejected. *)
Theorem C141_extended_refuted : forall st,
  (forall v ts p, is_zero v = false -> exists e, observe st (RNum V v) (TSeq ts) p = (st, Err e)) /\
  (forall rs k p, exists e, observe st (RSeq V rs) (TInt k) p = (st, Err e)) /\
  (forall rs p, exists e, observe st (RSeq V rs) (TBool true) p = (st, Err e)) /\
  (forall rs t z, z <> 0%Z -> exists e, observe st (RSeq V rs) t (ParInt z) = (st, Err e)).
Proof.
  intros st.
  assert (HP : forall n p, (exists e, parallel_vec streams n p = Err e) \/ exists o, parallel_vec streams n p = Ok o) by (intros n p; destruct (parallel_vec streams n p); eauto).
  split; [|split; [|split]].
  - intros v ts p Hv. unfold InpModel.observe, process_observe. destruct (HP (length ts) p) as [[e ->]|[o ->]]; [eexists; reflexivity|].
    cbn [bind reward_vec]. rewrite Hv. destruct o as [[|z l]|]; eexists; reflexivity.
  - intros rs k p. unfold InpModel.observe, process_observe. destruct (HP (length rs) p) as [[e ->]|[o ->]]; [eexists; reflexivity|].
    cbn [bind terminal_vec]. destruct o as [[|z l]|]; eexists; reflexivity.
  - intros rs p. unfold InpModel.observe, process_observe. destruct (HP (length rs) p) as [[e ->]|[o ->]]; [eexists; reflexivity|].
    cbn [bind terminal_vec]. destruct o as [[|z l]|]; eexists; reflexivity.
  - intros rs t z Hz. unfold InpModel.observe, process_observe. cbn [parallel_vec]. destruct (Z.eqb_spec z 0); [contradiction|]. cbn [bind]. destruct (terminal_vec (length rs) t); eexists; reflexivity.
Qed.

End Observe.

(** Two streams that are acting; at most two timesteps *)
Definition ex_state : state unit := mkState unit [1; 0]%Z [false; false] tt.
Definition obs := observe Z unit 2 (Some 2%Z) (Z.eqb 0) 0%Z.

(** The same stream given twice is accepted, its timestep is counted once. *)
Theorem C141_twice_refuted : exists st', obs ex_state (RSeq Z [5; 6]%Z) (TBool false) (ParSeq [1; 1]%Z) = (st', Ok ([5; 6], [0; 0], [1; 1])%Z) /\ counter unit st' = [1; 1]%Z.
Proof. eexists. split; reflexivity. Qed.

Example C141_forms_case : obs ex_state (RSeq Z [5; 6]%Z) (TBool false) (ParInt 0) = (mkState unit [2; 1]%Z [true; true] tt, Ok ([5; 6], [0; 0], [0; 1])%Z).
Proof. reflexivity. Qed.
Example C141_accepted_case : proper 2 ex_state /\ NoDup [1; 0]%Z /\ (forall z, In z [1; 0]%Z -> closed ex_state (Z.to_nat z) = false) /\
  obs ex_state (RSeq Z [5; 6]%Z) (TSeq [0; 1]%Z) (ParSeq [1; 0]%Z) = (mkState unit [0; 1]%Z [true; true] tt, Ok ([5; 6], [0; 1], [1; 0])%Z).
Proof.
  split; [split; reflexivity|]. split; [repeat constructor; [intros [H|[]]; discriminate|intros []]|]. split; [intros z [<-|[<-|[]]]; reflexivity|reflexivity].
Qed.
Example C141_streams_case : exists st', obs ex_state (RSeq Z [5]%Z) (TSeq [2]%Z) (ParSeq [0]%Z) = (st', Ok ([5], [2], [0])%Z) /\ closed st' 1 = false /\ counter unit st' = [0; 0]%Z.
Proof. eexists. repeat split. Qed.
Example C141_kept_case : exists e, obs (mkState unit [0; 0]%Z [true; false] tt) (RNum Z 5%Z) (TBool false) (ParInt 0) = (mkState unit [0; 0]%Z [true; false] tt, Err e).
Proof. eexists. reflexivity. Qed.
Example C141_long_case : exists st' e, obs (mkState unit [2; 0]%Z [false; false] tt) (RNum Z 5%Z) (TBool false) (ParInt 0) = (st', Err e) /\ closed st' 0 = true.
Proof. do 2 eexists. split; reflexivity. Qed.
Example C141_extended_case : exists e, obs ex_state (RSeq Z [5; 6]%Z) (TInt 0) (ParInt 0) = (ex_state, Err e).
Proof. eexists. reflexivity. Qed.

Print Assumptions C141_forms.
Print Assumptions C141_accepted.
Print Assumptions C141_streams.
Print Assumptions C141_kept.
Print Assumptions C141_long_refuted.
Print Assumptions C141_extended_refuted.
Print Assumptions C141_twice_refuted.
