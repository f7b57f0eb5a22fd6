(** act in the agent-environment interaction: streams, rejected calls and masks. *)

From Coq Require Import String List ZArith Bool Lia.
From Verif Require Import Base InpModel InpSpec InpProofs InpActProofs InpRowProofs InpOutProofs InpBatchProofs InpStreamProofs InpMaskProofs InpProps.
Import ListNotations.
Open Scope list_scope.
Open Scope nat_scope.

Section Acts.
Variable V : Type.
Variable conv : leaf -> V -> option V.
Variable one : V.
Variable masking : bool.
Variables states_spec actions_spec internals_spec : tree leaf.
Variable policy : tree (arr V) -> tree (arr V) -> list (list string * arr V) -> bool -> tree (arr V) * tree (arr V).
Variable M : Type.
Variable model_act : M -> tree (arr V) -> list (list string * arr V) -> list Z -> M * tree (arr V).
Variable recording : bool.
Variable streams : nat.
Notation act := (act V conv one masking states_spec actions_spec M model_act recording streams).
Notation independent := (act_independent V conv one masking states_spec actions_spec internals_spec policy).
Notation counter := (counter M).
Notation model := (model M).
Notation state := (state M).
Implicit Types st : state.

(** * C138: streams *)

(** An accepted act was called for existing streams that were observed before; exactly they are now waiting
    for an observation, and the counters of timesteps are unchanged. *)
Theorem C138_streams : forall st st' p parallel o, proper streams st -> act st p None parallel = (st', Ok o) ->
  (forall z, In z (meant parallel) -> (0 <= z < Z.of_nat streams)%Z /\ closed st (Z.to_nat z) = true) /\
  (forall j, closed st' j = if among j (meant parallel) then false else closed st j) /\
  counter st' = counter st /\ proper streams st'.
Proof.
  intros st st' p par o [HL1 HL2] H. destruct (act_cases _ _ _ _ _ _ _ _ _ _ _ _ _ _ _ H) as [[_ [e E]]|HC]; [discriminate|].
  destruct HC as (t & b & n & iter & v & is & _ & _ & EI & EC & Hc & Hk & HC).
  destruct HC as [[_ [e E]]|(s & ms & _ & _ & HW & _)]; [discriminate|].
  pose proof (within_in streams _ HW) as HR. rewrite (index_all streams _ HR) in EI. apply ok_inj in EI. subst is.
  rewrite forallb_forall in EC. split; [|split; [|split]].
  - intros z Hz. split; [apply HR; exact Hz|]. apply EC. apply in_map. exact Hz.
  - intros j. unfold closed. rewrite Hc, set_completed_closed.
    + rewrite among_indices by (intros z Hz; specialize (HR z Hz); lia). reflexivity.
    + intros i Hi. apply in_map_iff in Hi. destruct Hi as [z [<- Hz]]. specialize (HR z Hz). lia.
  - exact Hk.
  - split; [rewrite Hc; cbn; rewrite put_length; exact HL1|rewrite Hk; exact HL2].
Qed.

(** The actions are those of independent mode, if the model chooses its actions like there; and the same
    states are accepted. One state: *)
Theorem C138_one : forall n T i p st z deterministic, recording = false -> leaves internals_spec = [] -> proper streams st ->
  i < n -> table V n T -> fits V states_spec T -> writes_state V p (instance V i T) ->
  (0 <= z < Z.of_nat streams)%Z -> closed st (Z.to_nat z) = true ->
  (forall m S Ms l, snd (model_act m S Ms l) = fst (policy S (Dict []) Ms deterministic)) ->
  forall o, (exists st', act st p None (ParInt z) = (st', Ok o)) <-> independent p None deterministic = Ok (o, None).
Proof.
  intros n T i p st z det -> Hint Hp Hi HT Hf Hw Hz Hc Hm o.
  pose proof (process_one_any V states_spec T n i p Hi HT Hf Hw) as EP.
  assert (HR : forall y, In y (meant (ParInt z)) -> (0 <= y < Z.of_nat streams)%Z) by (intros y [<-|[]]; exact Hz).
  rewrite (act_past V conv one masking states_spec actions_spec M model_act false streams st p (ParInt z) _ _ _ _ true _ EP eq_refl (index_all streams _ HR)).
  cbn [meant map forallb]. unfold closed in Hc. rewrite Hc. cbn [andb].
  change [z] with (meant (ParInt z)). rewrite (in_within streams _ HR).
  unfold act_independent, has_internals. rewrite Hint. cbn [bind]. rewrite EP. cbn [bind].
  destruct (model_inputs V conv one masking states_spec actions_spec 1 (alone V i T)) as [[s ms]|e]; cbn [bind fst snd].
  - rewrite Hm. split; [intros [st' E]; inversion E; reflexivity|intros E; inversion E; subst; eexists; reflexivity].
  - split; [intros [st' E]; inversion E|discriminate].
Qed.
(** A list of states: *)
Theorem C138_list : forall n T ps st l deterministic, recording = false -> leaves internals_spec = [] -> proper streams st ->
  n <> 0 -> table V n T -> fits V states_spec T -> length ps = n -> (forall i p, nth_error ps i = Some p -> writes_tree V p (instance V i T)) ->
  length l = n -> (forall z, In z l -> (0 <= z < Z.of_nat streams)%Z /\ closed st (Z.to_nat z) = true) ->
  (forall m S Ms l, snd (model_act m S Ms l) = fst (policy S (Dict []) Ms deterministic)) ->
  forall o, (exists st', act st (PList ps) None (ParSeq l) = (st', Ok o)) <-> independent (PList ps) None deterministic = Ok (o, None).
Proof.
  intros n T ps st l det -> Hint Hp Hn HT Hf HL Hw HLl Hl Hm o.
  pose proof (process_list V states_spec T n ps Hn HT Hf HL Hw) as EP.
  assert (HR : forall y, In y (meant (ParSeq l)) -> (0 <= y < Z.of_nat streams)%Z) by (intros y Hy; apply Hl; exact Hy).
  assert (EQ : process_parallel true n (ParSeq l) = Ok (l, true)) by (cbn; rewrite HLl, Nat.eqb_refl; reflexivity).
  rewrite (act_past V conv one masking states_spec actions_spec M model_act false streams st (PList ps) (ParSeq l) _ _ _ _ true _ EP EQ (index_all streams _ HR)).
  assert (EC : forallb (fun i => nth i (completed M st) false) (map Z.to_nat (meant (ParSeq l))) = true).
  { apply forallb_forall. intros i Hi. apply in_map_iff in Hi. destruct Hi as [z [<- Hz]]. apply Hl. exact Hz. }
  rewrite EC. rewrite (in_within streams _ HR).
  unfold act_independent, has_internals. rewrite Hint. cbn [bind]. rewrite EP. cbn [bind].
  destruct (model_inputs V conv one masking states_spec actions_spec n (piled V T)) as [[s ms]|e]; cbn [bind fst snd andb].
  - rewrite Hm. split; [intros [st' E]; inversion E; reflexivity|intros E; inversion E; subst; eexists; reflexivity].
  - split; [intros [st' E]; inversion E|discriminate].
Qed.

(** A list of states cannot be used with a single stream number, so neither with the default parallel=0. *)
Theorem C138_default_refuted : forall n T ps st z, n <> 0 -> table V n T -> fits V states_spec T -> length ps = n ->
  (forall i p, nth_error ps i = Some p -> writes_tree V p (instance V i T)) ->
  act st (PList ps) None (ParInt z) = (st, Err "IndexError: tuple index out of range").
Proof.
  intros n T ps st z Hn HT Hf HL Hw. unfold InpModel.act. rewrite (process_list V states_spec T n ps Hn HT Hf HL Hw). reflexivity.
Qed.

(** A negative stream number is rejected, but the stream counted from the end is then waiting for an
    observation, and act for that stream is rejected. *)
Theorem C138_negative_refuted : forall n T i p q st z, proper streams st -> i < n -> table V n T -> fits V states_spec T ->
  writes_state V p (instance V i T) -> writes_state V q (instance V i T) ->
  (- Z.of_nat streams <= z < 0)%Z -> closed st (Z.to_nat (z + Z.of_nat streams)) = true ->
  exists st' e, act st p None (ParInt z) = (st', Err e) /\
    (forall j, closed st' j = if Nat.eqb j (Z.to_nat (z + Z.of_nat streams)) then false else closed st j) /\
    act st' q None (ParInt (z + Z.of_nat streams)) = (st', Err "TensorforceError: Calling agent.act must be preceded by agent.observe").
Proof.
  intros n T i p q st z [HL1 HL2] Hi HT Hf Hw Hq Hz Hc.
  set (k := Z.to_nat (z + Z.of_nat streams)) in *.
  assert (Hk : k < streams) by (unfold k; lia).
  assert (EI : map_res (index streams) (meant (ParInt z)) = Ok [k]).
  { cbn [meant map_res]. unfold index. destruct (Z.ltb_spec z 0); [|lia]. destruct (Z.leb_spec 0 (z + Z.of_nat streams)); [|lia].
    destruct (Z.ltb_spec (z + Z.of_nat streams) (Z.of_nat streams)); [|lia]. reflexivity. }
  assert (EI' : map_res (index streams) (meant (ParInt (z + Z.of_nat streams))) = Ok [k]).
  { apply (index_all streams). intros y [<-|[]]. lia. }
  pose proof (process_one_any V states_spec T n i p Hi HT Hf Hw) as EP.
  pose proof (process_one_any V states_spec T n i q Hi HT Hf Hq) as EP'.
  exists (set_completed M st [k] false).
  assert (HS : forall j, closed (set_completed M st [k] false) j = if Nat.eqb j k then false else closed st j).
  { intros j. unfold closed. rewrite set_completed_closed by (intros y [<-|[]]; lia). cbn [existsb]. rewrite orb_false_r. reflexivity. }
  rewrite (act_past V conv one masking states_spec actions_spec M model_act recording streams st p (ParInt z) _ _ _ _ true _ EP eq_refl EI).
  rewrite (act_past V conv one masking states_spec actions_spec M model_act recording streams _ q (ParInt (z + Z.of_nat streams)) _ _ _ _ true _ EP' eq_refl EI').
  cbn [forallb]. unfold closed in Hc. rewrite Hc. cbn [andb].
  assert (EW : within streams (meant (ParInt z)) = false).
  { cbn. destruct (Z.leb_spec 0 z); [lia|reflexivity]. }
  rewrite EW. pose proof (HS k) as HSk. rewrite Nat.eqb_refl in HSk. unfold closed in HSk. rewrite HSk. cbn [andb].
  destruct (if recording then recordable V states_spec (alone V i T) else Ok tt); [|eexists; split; [reflexivity|split; [exact HS|reflexivity]]].
  destruct (model_inputs V conv one masking states_spec actions_spec 1 (alone V i T)) as [[s ms]|]; eexists; (split; [reflexivity|split; [exact HS|reflexivity]]).
Qed.

(** * C139: rejected calls *)

(** A rejected call changes neither the model nor the counters, and streams that are not meant stay as they are. *)
Theorem C139_kept : forall st st' p internals parallel e, proper streams st -> act st p internals parallel = (st', Err e) ->
  model st' = model st /\ counter st' = counter st /\ proper streams st' /\
  (forall j, closed st' j = closed st j \/
     closed st j = true /\ closed st' j = false /\ (In (Z.of_nat j) (meant parallel) \/ In (Z.of_nat j - Z.of_nat streams)%Z (meant parallel))).
Proof.
  intros st st' p internals par e Hp H. destruct internals as [x|]; [inversion H; subst; repeat split; try apply Hp; auto|].
  destruct (act_cases _ _ _ _ _ _ _ _ _ _ _ _ _ _ _ H) as [[-> _]|HC]; [repeat split; try apply Hp; auto|].
  destruct HC as (t & b & n & iter & v & is & _ & _ & EI & EC & Hc & Hk & HC).
  destruct HC as [[Hmod _]|(s & ms & _ & _ & _ & _ & _ & E)]; [|discriminate].
  split; [exact Hmod|]. split; [exact Hk|]. split; [split; [rewrite Hc; cbn; rewrite put_length|rewrite Hk]; apply Hp|].
  intros j. unfold closed. rewrite Hc, set_completed_closed by (intros i Hi; rewrite (proj1 Hp); eapply index_all_lt; eauto).
  destruct (existsb (Nat.eqb j) is) eqn:EX; [|left; reflexivity]. right.
  apply existsb_exists in EX. destruct EX as [i [Hi EX]]. apply Nat.eqb_eq in EX. subst i. rewrite forallb_forall in EC. split; [apply EC; exact Hi|].
  split; [reflexivity|]. clear - EI Hi. apply map_res_inv in EI. induction EI as [|z i l is Hz _ IH]; [contradiction|].
  destruct Hi as [->|Hi]; [|destruct (IH Hi); [left|right]; right; assumption].
  unfold index in Hz. destruct (Z.ltb_spec z 0).
  - destruct (Z.leb_spec 0 (z + Z.of_nat streams)); [|discriminate]. destruct (Z.ltb_spec (z + Z.of_nat streams) (Z.of_nat streams)); [|discriminate].
    apply ok_inj in Hz. right. left. lia.
  - destruct (Z.leb_spec 0 z); [|discriminate]. destruct (Z.ltb_spec z (Z.of_nat streams)); [|discriminate]. apply ok_inj in Hz. left. left. lia.
Qed.

(** act twice for a stream without an observation between is rejected and changes nothing. *)
Theorem C139_order : forall st p parallel j, proper streams st -> closed st j = false -> j < streams -> In (Z.of_nat j) (meant parallel) ->
  exists e, act st p None parallel = (st, Err e).
Proof.
  intros st p par j Hp Hc Hj Hin. destruct (act st p None par) as [st' r] eqn:E.
  destruct (act_cases _ _ _ _ _ _ _ _ _ _ _ _ _ _ _ E) as [[-> [e ->]]|HC]; [eauto|exfalso].
  destruct HC as (t & b & n & iter & v & is & _ & _ & EI & EC & _). rewrite forallb_forall in EC.
  assert (Hi : In j is).
  { clear - EI Hin Hj. apply map_res_inv in EI. induction EI as [|z i l is Hz _ IH]; [contradiction|]. destruct Hin as [->|Hin]; [|right; auto].
    left. rewrite index_ok in Hz by lia. apply ok_inj in Hz. lia. }
  specialize (EC j Hi). unfold closed in Hc. congruence.
Qed.

(** But a state that is rejected for its values leaves the stream waiting for an observation, so that the
    next act with a correct state is rejected. *)
Theorem C139_rejected_refuted : forall n T i p m U k q st z deterministic e, proper streams st -> leaves internals_spec = [] ->
  i < n -> table V n T -> fits V states_spec T -> writes_state V p (instance V i T) ->
  k < m -> table V m U -> fits V states_spec U -> writes_state V q (instance V k U) ->
  (0 <= z < Z.of_nat streams)%Z -> closed st (Z.to_nat z) = true ->
  independent p None deterministic = Err e ->
  exists st' e', act st p None (ParInt z) = (st', Err e') /\ closed st' (Z.to_nat z) = false /\
    act st' q None (ParInt z) = (st', Err "TensorforceError: Calling agent.act must be preceded by agent.observe").
Proof.
  intros n T i p m U k q st z det e [HL1 HL2] Hint Hi HT Hf Hw Hk HU HfU HwU Hz Hc He.
  pose proof (process_one_any V states_spec T n i p Hi HT Hf Hw) as EP.
  pose proof (process_one_any V states_spec U m k q Hk HU HfU HwU) as EP'.
  assert (HR : forall y, In y (meant (ParInt z)) -> (0 <= y < Z.of_nat streams)%Z) by (intros y [<-|[]]; exact Hz).
  rewrite (act_past V conv one masking states_spec actions_spec M model_act recording streams st p (ParInt z) _ _ _ _ true _ EP eq_refl (index_all streams _ HR)).
  cbn [meant map forallb]. unfold closed in Hc. rewrite Hc. cbn [andb].
  exists (set_completed M st [Z.to_nat z] false).
  assert (HS : closed (set_completed M st [Z.to_nat z] false) (Z.to_nat z) = false).
  { unfold closed. rewrite set_completed_closed by (intros y [<-|[]]; lia). cbn [existsb]. rewrite Nat.eqb_refl. reflexivity. }
  rewrite (act_past V conv one masking states_spec actions_spec M model_act recording streams _ q (ParInt z) _ _ _ _ true _ EP' eq_refl (index_all streams _ HR)).
  cbn [meant map forallb]. unfold closed in HS. rewrite HS. cbn [andb].
  unfold act_independent, has_internals in He. rewrite Hint in He. cbn [bind] in He. rewrite EP in He. cbn [bind] in He.
  destruct (model_inputs V conv one masking states_spec actions_spec 1 (alone V i T)) as [[s ms]|e']; cbn [bind fst snd] in He; [discriminate|].
  destruct (if recording then recordable V states_spec (alone V i T) else Ok tt); eexists; (split; [reflexivity|split; [exact HS|reflexivity]]).
Qed.

(** * C140: masks of actions *)

Lemma default_inputs : forall n m f d path l k name, flat actions_spec = true -> distinct actions_spec -> masking = true ->
  In (path, l) (entries actions_spec) -> l_num l = Some k -> mask_name path name -> ~ In name (map fst d) ->
  (forall l k, ones V one m l k = f (ones_rows V one n l k)) ->
  model_inputs V conv one masking states_spec actions_spec m (tmap f (Dict (d ++ [(name, Leaf (repeat (all_allowed V one (l_shape l) k) n))]))) =
  model_inputs V conv one masking states_spec actions_spec m (tmap f (Dict d)).
Proof.
  intros n m f d path l k name Hf Hd Hm Hin Hk Hname Hnew Ho.
  rewrite !(model_inputs_map V conv one masking states_spec actions_spec f n m _ Ho).
  rewrite <- items_entries in Hin.
  change (repeat (all_allowed V one (l_shape l) k) n) with (ones_rows V one n l k).
  rewrite (default_same masking (ones_rows V one n) path l k name (mask_name_path _ _ Hname)); try reflexivity.
  - unfold maskable. rewrite Hm. exact Hk.
  - apply flat_simple; assumption.
  - exact Hin.
  - apply dget_none. exact Hnew.
Qed.
Lemma find_more : forall (p : list string) (d e : list (string * tree (list (arr V)))) x, find p (Dict d) = Some x -> find p (Dict (d ++ e)) = Some x.
Proof.
  intros [|k r] d e x H; [discriminate|]. cbn in *. rewrite dget_app. destruct (dget k d); [exact H|discriminate].
Qed.
Lemma fits_more : forall d e, fits V states_spec (Dict d) -> fits V states_spec (Dict (d ++ e)).
Proof.
  intros d e H. destruct states_spec as [l|ds].
  - destruct H as [xs [H1 H2]]. exists xs. split; [apply find_more; exact H1|exact H2].
  - destruct H as (p & l & xs & H1 & H2 & H3). exists p, l, xs. split; [exact H1|]. split; [apply find_more; exact H2|exact H3].
Qed.
Lemma table_more : forall n d name xs, table V n (Dict d) -> ~ In name (map fst d) -> rows V n xs -> table V n (Dict (d ++ [(name, Leaf xs)])).
Proof.
  intros n d name xs H Hn Hx. inversion H as [|d' Hnd Hall]; subst. constructor.
  - rewrite map_app. cbn. apply NoDup_app_one; assumption.
  - apply Forall_app. split; [exact Hall|]. repeat constructor; try exact Hx. exact (proj1 Hx). exact (proj2 Hx).
Qed.

(** A missing mask means that every option is allowed. *)
Theorem C140_default : forall n d path l k name, flat actions_spec = true -> distinct actions_spec -> masking = true ->
  In (path, l) (entries actions_spec) -> l_num l = Some k -> mask_name path name -> ~ In name (map fst d) ->
  table V n (Dict d) -> fits V states_spec (Dict d) ->
  let masked := Dict (d ++ [(name, Leaf (repeat (all_allowed V one (l_shape l) k) n))]) in
  (forall i p q internals deterministic, i < n -> writes_state V p (instance V i (Dict d)) -> writes_state V q (instance V i masked) ->
     independent q internals deterministic = independent p internals deterministic /\
     (recording = false -> forall st parallel, act st q None parallel = act st p None parallel)) /\
  (forall ps qs internals deterministic, n <> 0 -> length ps = n -> length qs = n ->
     (forall i p, nth_error ps i = Some p -> writes_tree V p (instance V i (Dict d))) ->
     (forall i q, nth_error qs i = Some q -> writes_tree V q (instance V i masked)) ->
     independent (PList qs) internals deterministic = independent (PList ps) internals deterministic /\
     (recording = false -> forall st parallel, act st (PList qs) None parallel = act st (PList ps) None parallel)).
Proof.
  intros n d path l k name Hf Hd Hm Hin Hk Hname Hnew HT Hfit masked.
  assert (HT' : table V n masked) by (apply table_more; [exact HT|exact Hnew|apply ones_rows_rows]).
  assert (Hfit' : fits V states_spec masked) by (apply fits_more; exact Hfit).
  split.
  - intros i p q internals det Hi Hp Hq.
    pose proof (process_one_any V states_spec _ n i p Hi HT Hfit Hp) as EP. pose proof (process_one_any V states_spec _ n i q Hi HT' Hfit' Hq) as EQ.
    assert (EM : model_inputs V conv one masking states_spec actions_spec 1 (alone V i masked) = model_inputs V conv one masking states_spec actions_spec 1 (alone V i (Dict d))).
    { rewrite !alone_tmap. eapply default_inputs; eauto. intros l0 k0. apply ones_expand. exact Hi. }
    split.
    + unfold act_independent. rewrite EP, EQ. cbn [bind]. rewrite EM. reflexivity.
    + intros -> st par. unfold InpModel.act. rewrite EP, EQ, EM. reflexivity.
  - intros ps qs internals det Hn HLp HLq Hp Hq.
    pose proof (process_list V states_spec _ n ps Hn HT Hfit HLp Hp) as EP. pose proof (process_list V states_spec _ n qs Hn HT' Hfit' HLq Hq) as EQ.
    assert (EM : model_inputs V conv one masking states_spec actions_spec n (piled V masked) = model_inputs V conv one masking states_spec actions_spec n (piled V (Dict d))).
    { rewrite !piled_tmap. eapply default_inputs; eauto. intros l0 k0. apply ones_pile. exact Hn. }
    split.
    + unfold act_independent. rewrite EP, EQ. cbn [bind]. rewrite EM. reflexivity.
    + intros -> st par. unfold InpModel.act. rewrite EP, EQ, EM. reflexivity.
Qed.

(** For a single state with a mask the state itself is given by the name 'state'. *)
Theorem C140_single : forall n l xs, states_spec = Leaf l -> table V n (Leaf xs) -> fits V states_spec (Leaf xs) ->
  forall i p q internals deterministic, i < n -> writes V p (nth i xs (Arr [] [])) -> writes_state V q (instance V i (Dict [("state"%string, Leaf xs)])) ->
  (forall a, In a (entries actions_spec) -> exists name, mask_name (fst a) name /\ name <> "state"%string) ->
  independent q internals deterministic = independent p internals deterministic.
Proof.
  intros n l xs Es HT Hfit i p q internals det Hi Hp Hq Hacts.
  assert (HT' : table V n (Dict [("state"%string, Leaf xs)])).
  { constructor; [repeat constructor; intros []|]. constructor; [exact HT|constructor]. }
  assert (Hfit' : fits V states_spec (Dict [("state"%string, Leaf xs)])).
  { rewrite Es in *. exists xs. split; [reflexivity|exact Hfit]. }
  pose proof (process_one_any V states_spec _ n i p Hi HT Hfit (or_introl (writes_leaf V p _ Hp))) as EP.
  pose proof (process_one_any V states_spec _ n i q Hi HT' Hfit' Hq) as EQ.
  unfold act_independent. rewrite EP, EQ. cbn [bind].
  assert (EM : model_inputs V conv one masking states_spec actions_spec 1 (alone V i (Dict [("state"%string, Leaf xs)])) = model_inputs V conv one masking states_spec actions_spec 1 (alone V i (Leaf xs))).
  { unfold model_inputs. cbn [alone map fst snd]. set (x := pile V [nth i xs (Arr [] [])]).
    assert (HA : forall acts, (forall a, In a acts -> exists name, mask_name (fst a) name /\ name <> "state"%string) ->
      exists ms, take_masks masking (ones V one 1) acts (Dict [("state"%string, Leaf x)]) = Ok (ms, Dict [("state"%string, Leaf x)]) /\
                 take_masks masking (ones V one 1) acts (Leaf x) = Ok (ms, Leaf x)).
    { induction acts as [|[p' l'] acts IH]; intros H; [eexists; split; reflexivity|].
      destruct IH as [ms [E1 E2]]; [intros a Ha; apply H; right; exact Ha|]. destruct (H (p', l') (or_introl eq_refl)) as [name [Hn Hs]].
      cbn [take_masks]. destruct (maskable masking l') as [k|]; [|rewrite E1, E2; eexists; split; reflexivity].
      cbn [fst] in Hn. rewrite (mask_name_path _ _ Hn), pop_single. cbn [dget pop]. destruct (String.eqb_spec name "state"); [contradiction|].
      cbn [bind fst snd]. rewrite E1, E2. eexists; split; reflexivity. }
    rewrite items_entries. destruct (HA (entries actions_spec) Hacts) as [ms [-> ->]]. cbn [bind fst snd]. rewrite Es. reflexivity. }
  rewrite EM. reflexivity.
Qed.

(** A given mask reaches the policy: the result is the same for a second policy that agrees with the first
    wherever the given mask is among the masks. *)
Theorem C140_given : forall n d path l k name xs i p internals deterministic (other : tree (arr V) -> tree (arr V) -> list (list string * arr V) -> bool -> tree (arr V) * tree (arr V)),
  flat actions_spec = true -> distinct actions_spec -> masking = true ->
  In (path, l) (entries actions_spec) -> l_num l = Some k -> mask_name path name -> In (name, Leaf xs) d ->
  i < n -> table V n (Dict d) -> fits V states_spec (Dict d) -> writes_state V p (instance V i (Dict d)) ->
  (forall S I Ms given, In (path, given) Ms -> shape given = 1 :: l_shape l ++ [k] ->
     Forall2 (fun v w => conv (mkLeaf (l_shape l ++ [k]) None) v = Some w) (data (nth i xs (Arr [] []))) (data given) ->
     policy S I Ms deterministic = other S I Ms deterministic) ->
  independent p internals deterministic = act_independent V conv one masking states_spec actions_spec internals_spec other p internals deterministic.
Proof.
  intros n d path l k name xs i p internals det other Hf Hd Hm Hin Hk Hname Hgiven Hi HT Hfit Hw Hagree.
  pose proof (process_one_any V states_spec _ n i p Hi HT Hfit Hw) as EP. unfold act_independent. rewrite EP. cbn [bind].
  destruct (model_inputs V conv one masking states_spec actions_spec 1 (alone V i (Dict d))) as [[S Ms]|e] eqn:EM; [|reflexivity]. cbn [bind fst snd].
  assert (HG : exists given, In (path, given) Ms /\ shape given = 1 :: l_shape l ++ [k] /\ 
     Forall2 (fun v w => conv (mkLeaf (l_shape l ++ [k]) None) v = Some w) (data (nth i xs (Arr [] []))) (data given)).
  { unfold model_inputs in EM. apply bind_ok in EM. destruct EM as [[ms s] [ET EM]]. apply bind_ok in EM. destruct EM as [s1 [_ EM]]. apply bind_ok in EM. destruct EM as [s2 [_ EM]].
    apply bind_ok in EM. destruct EM as [bs [EB EM]]. apply ok_inj in EM. inversion EM; subst. cbn [fst] in EB.
    rewrite <- items_entries in Hin. cbn [alone] in ET.
    assert (Hk' : maskable true l = Some k) by exact Hk.
    assert (Hg : dget name (map (fun kt => (fst kt, alone V i (snd kt))) d) = Some (Leaf (pile V [nth i xs (Arr [] [])]))).
    { rewrite (dget_map (alone V i)). inversion HT as [|d' Hnd _]; subst. rewrite (dget_in _ _ _ Hnd Hgiven). reflexivity. }
    destruct (given_used true _ _ path l k name _ (mask_name_path _ _ Hname) Hk' _ _ _ _ _ (flat_simple _ Hf Hd) Hin Hg ET EB) as [b [Hb Hi2]].
    exists b. split; [exact Hi2|]. unfold to_tensor in Hb. destruct (shape_eqb _ _) eqn:ES in Hb; [|discriminate]. apply bind_ok in Hb. destruct Hb as [vs [Hv E]]. apply ok_inj in E. subst b.
    cbn [shape data]. cbn [pile shape tl mask_leaf l_shape length] in ES |- *. apply shape_eqb_true in ES. split; [f_equal; exact ES|].
    cbn [pile data map concat] in Hv. rewrite app_nil_r in Hv. apply conv_all_inv in Hv. exact Hv. }
  destruct HG as (g & G1 & G2 & G3). 
  destruct (match internals with Some _ => Ok tt | None => _ end); [|reflexivity]. cbn [bind].
  destruct (match internals with Some p0 => _ | None => Ok None end) as [it|e]; [|reflexivity]. cbn [bind].
  destruct (match it with Some i0 => to_tensors_rec _ _ i0 | None => Ok (Dict []) end) as [j|e]; [|reflexivity]. cbn [bind].
  rewrite (Hagree S j Ms g G1 G2 G3). reflexivity.
Qed.

(** While recording, a single state that is given with a mask is rejected, and the stream is left waiting
    for an observation. *)
Theorem C140_record_refuted : forall n d i p st z l, recording = true -> states_spec = Leaf l -> proper streams st ->
  i < n -> table V n (Dict d) -> fits V states_spec (Dict d) -> writes_state V p (instance V i (Dict d)) ->
  (0 <= z < Z.of_nat streams)%Z -> closed st (Z.to_nat z) = true ->
  exists st', act st p None (ParInt z) = (st', Err "AssertionError") /\ closed st' (Z.to_nat z) = false.
Proof.
  intros n d i p st z l -> Es [HL1 HL2] Hi HT Hf Hw Hz Hc.
  pose proof (process_one_any V states_spec _ n i p Hi HT Hf Hw) as EP.
  assert (HR : forall y, In y (meant (ParInt z)) -> (0 <= y < Z.of_nat streams)%Z) by (intros y [<-|[]]; exact Hz).
  rewrite (act_past V conv one masking states_spec actions_spec M model_act true streams st p (ParInt z) _ _ _ _ true _ EP eq_refl (index_all streams _ HR)).
  cbn [meant map forallb]. unfold closed in Hc. rewrite Hc. cbn [andb]. rewrite Es. cbn [recordable alone].
  eexists. split; [reflexivity|]. unfold closed. rewrite set_completed_closed by (intros y [<-|[]]; lia). cbn [existsb]. rewrite Nat.eqb_refl. reflexivity.
Qed.

(** An agent with a state 'a' and an int action 'b' nested in 'a' can never act. *)
Theorem C140_nested_refuted : forall a b l sh k p internals deterministic, masking = true ->
  states_spec = Dict [(a, Leaf l)] -> actions_spec = Dict [(a, Dict [(b, Leaf (mkLeaf sh (Some k)))])] ->
  exists e, independent p internals deterministic = Err e.
Proof.
  intros a b l sh k p internals det Hm Es Ea. unfold act_independent. destruct (match internals with Some _ => Ok tt | None => _ end) as [u|e]; [|eexists; reflexivity]. cbn [bind].
  destruct (process_states V states_spec p) as [[[[t bt] n] iter]|e]; [|eexists; reflexivity]. cbn [bind].
  destruct (match internals with None => Ok None | Some p0 => _ end) as [it|e]; [|eexists; reflexivity]. cbn [bind].
  assert (EM : exists e, model_inputs V conv one masking states_spec actions_spec n t = Err e).
  { unfold model_inputs. rewrite Ea, Es. cbn [items map concat app fst snd take_masks]. unfold maskable. rewrite Hm. cbn [mask_path l_num].
    destruct t as [x|d]; [cbn; eexists; reflexivity|]. rewrite pop_cons2. destruct (dget a d) as [[x|e]|] eqn:Eg; [eexists; reflexivity| |].
    - rewrite pop_single.
      assert (HG : forall d', exists e0, to_tensors (to_tensor V conv) (Dict [(a, Leaf l)]) (Dict (map (fun kt => if (a =? fst kt)%string then (a, Dict d') else kt) d)) = Err e0).
      { intros d'. cbn [to_tensors]. destruct (same_names _ _); [|eexists; reflexivity].
        assert (Ed : dget a (map (fun kt : string * tree (arr V) => if (a =? fst kt)%string then (a, Dict d') else kt) d) = Some (Dict d')).
        { clear - Eg. induction d as [|[k0 x] d IH]; [discriminate|]. cbn in *. destruct (String.eqb_spec a k0) as [<-|Hne]; cbn [fst].
          - rewrite String.eqb_refl. reflexivity.
          - destruct (String.eqb_spec a k0); [contradiction|]. apply IH. exact Eg. }
        cbn [child]. rewrite Ed. cbn [bind to_tensors]. eexists; reflexivity. }
      destruct (dget (b ++ "_mask")%string e) as [y|]; cbn [bind fst snd rename_single]; edestruct HG as [e0 He]; rewrite He; eexists; reflexivity.
    - cbn [bind fst snd rename_single]. cbn [to_tensors]. destruct (same_names _ _); [|eexists; reflexivity]. cbn [child]. rewrite Eg. eexists; reflexivity. }
  destruct EM as [e ->]. eexists; reflexivity.
Qed.

End Acts.

(** An agent with two streams and the states of InpProps.v; the model adds the numbers of streams up. *)
Definition ex_model (actions : tree leaf) (m : Z) (S : tree (arr Z)) (Ms : list (list string * arr Z)) (l : list Z) : Z * tree (arr Z) :=
  ((m + fold_right Z.add 0 l)%Z, fst (sum_policy actions (Dict []) S (Dict []) Ms false)).
Definition ready : state Z := mkState Z [3; 5]%Z [true; true] 0%Z.
Definition small (l : leaf) (v : Z) : option Z := if (v <? 10)%Z then Some v else None.
Notation go := (act Z small 1%Z true ex_spec (Leaf num) Z (ex_model (Leaf num)) false 2).

(** The same stream given twice is accepted. *)
Theorem C138_twice_refuted : exists st', go ready (PList ex_list) None (ParSeq [1; 1]%Z) = (st', Ok (PList [PNum 3%Z; PNum 7%Z])).
Proof. eexists. reflexivity. Qed.

Example C138_streams_case : proper 2 ready /\ exists st', go ready (PList ex_list) None (ParSeq [1; 0]%Z) = (st', Ok (PList [PNum 3%Z; PNum 7%Z])) /\
  closed st' 0 = false /\ closed st' 1 = false /\ model Z st' = 1%Z.
Proof. split; [split; reflexivity|]. eexists. repeat split. Qed.
Example C138_one_case : writes_state Z (hd (PList []) ex_list) (instance Z 0 ex_table) /\ table Z 2 ex_table /\ fits Z ex_spec ex_table /\
  (forall m S Ms l, snd (ex_model (Leaf num) m S Ms l) = fst (sum_policy (Leaf num) (Dict []) S (Dict []) Ms false)) /\
  exists st', go ready (hd (PList []) ex_list) None (ParInt 1) = (st', Ok (PNum 3%Z)).
Proof.
  split; [left; apply (ex_list_ok 0); reflexivity|]. split; [apply ex_table_ok|]. split; [apply ex_table_ok|]. split; [reflexivity|]. eexists. reflexivity.
Qed.
Example C138_list_case : length ex_list = 2 /\ (forall i p, nth_error ex_list i = Some p -> writes_tree Z p (instance Z i ex_table)) /\
  (forall z, In z [1; 0]%Z -> (0 <= z < Z.of_nat 2)%Z /\ closed ready (Z.to_nat z) = true) /\
  act_independent Z small 1%Z true ex_spec (Leaf num) (Dict []) (sum_policy (Leaf num) (Dict [])) (PList ex_list) None false = Ok (PList [PNum 3%Z; PNum 7%Z], None).
Proof.
  split; [reflexivity|]. split; [exact ex_list_ok|]. split; [|reflexivity]. intros z [<-|[<-|[]]]; split; try reflexivity; lia.
Qed.
Example C138_default_case : go ready (PList ex_list) None (ParInt 0) = (ready, Err "IndexError: tuple index out of range").
Proof. reflexivity. Qed.
Example C138_negative_case : exists st' e, go ready (hd (PList []) ex_list) None (ParInt (-1)) = (st', Err e) /\ closed st' 1 = false /\ closed st' 0 = true.
Proof. do 2 eexists. repeat split. Qed.
Example C139_kept_case : exists st' e, go ready (PList ex_list) None (ParSeq [0; 5]%Z) = (st', Err e) /\ st' = ready.
Proof. do 2 eexists. split; reflexivity. Qed.
Example C139_order_case : exists e, go (mkState Z [3; 5]%Z [true; false] 0%Z) (PList ex_list) None (ParSeq [0; 1]%Z) = (mkState Z [3; 5]%Z [true; false] 0%Z, Err e).
Proof. eexists. reflexivity. Qed.
Example C139_rejected_case :
  let big := PDict [(["s"%string], PArr (Arr [2] [3; 40]%Z))] in
  table Z 1 (Dict [("s"%string, Leaf [Arr [2] [3; 40]%Z])]) /\ writes_state Z big (instance Z 0 (Dict [("s"%string, Leaf [Arr [2] [3; 40]%Z])])) /\
  (exists e, act_independent Z small 1%Z true ex_spec (Leaf num) (Dict []) (sum_policy (Leaf num) (Dict [])) big None false = Err e) /\
  exists st' e e', go ready big None (ParInt 0) = (st', Err e) /\ go st' (hd (PList []) ex_list) None (ParInt 0) = (st', Err e').
Proof.
  split; [|split; [|split]].
  - constructor; [repeat constructor; intros []|]. repeat constructor. exists [2]. intros x [<-|[]]; split; reflexivity.
  - left. constructor; [repeat constructor; intros []|]. constructor; [|constructor]. split; [reflexivity|]. constructor. constructor.
  - eexists. reflexivity.
  - do 3 eexists. split; reflexivity.
Qed.

(** An action with three options, and a mask that forbids the second *)
Definition three : leaf := mkLeaf [] (Some 3).
Notation choose := (act_independent Z any 1%Z true ex_spec (Dict [("x"%string, Leaf three)]) (Dict []) (sum_policy (Dict [("x"%string, Leaf three)]) (Dict []))).
Definition plain : list (string * tree (list (arr Z))) := [("s"%string, Leaf [Arr [2] [3; 4]%Z])].
Example C140_default_case : flat (Dict [("x"%string, Leaf three)]) = true /\ distinct (Dict [("x"%string, Leaf three)]) /\
  In (["x"%string], three) (entries (Dict [("x"%string, Leaf three)])) /\ mask_name ["x"%string] "x_mask" /\ table Z 1 (Dict plain) /\ fits Z ex_spec (Dict plain) /\
  choose (PDict [(["s"%string], PArr (Arr [2] [3; 4]%Z))]) None false = Ok (PDict [(["x"%string], PNum 10%Z)], None) /\
  choose (PDict [(["s"%string], PArr (Arr [2] [3; 4]%Z)); (["x_mask"%string], PArr (Arr [3] [1; 1; 1]%Z))]) None false = Ok (PDict [(["x"%string], PNum 10%Z)], None).
Proof.
  split; [reflexivity|]. split; [repeat constructor; intros []|]. split; [left; reflexivity|]. split; [right; exists "x"%string; split; reflexivity|].
  split; [|split; [|split; reflexivity]].
  - constructor; [repeat constructor; intros []|]. repeat constructor. exists [2]. intros x [<-|[]]; split; reflexivity.
  - exists ["s"%string], (mkLeaf [2] None), [Arr [2] [3; 4]%Z]. repeat split. intros x [<-|[]]; reflexivity.
Qed.
Example C140_single_case :
  let act := act_independent Z any 1%Z true (Leaf num) (Leaf three) (Dict []) (sum_policy (Leaf three) (Dict [])) in
  act (PDict [(["state"%string], PNum 5%Z)]) None false = Ok (PNum 8%Z, None) /\ act (PNum 5%Z) None false = Ok (PNum 8%Z, None) /\
  (forall a, In a (entries (Leaf three)) -> exists name, mask_name (fst a) name /\ name <> "state"%string).
Proof.
  split; [reflexivity|]. split; [reflexivity|]. intros a [<-|[]]. exists "action_mask"%string. split; [left; split; reflexivity|discriminate].
Qed.
(** two policies that are different, but not if the mask is the given one *)
Example C140_given_case :
  let other := fun S I Ms det => if existsb (fun pm => existsb (Z.eqb 0) (data (snd pm))) Ms then sum_policy (Dict [("x"%string, Leaf three)]) (Dict []) S I Ms det else (S, I) in
  choose (PDict [(["s"%string], PArr (Arr [2] [3; 4]%Z)); (["x_mask"%string], PArr (Arr [3] [1; 0; 1]%Z))]) None false = Ok (PDict [(["x"%string], PNum 9%Z)], None) /\
  act_independent Z any 1%Z true ex_spec (Dict [("x"%string, Leaf three)]) (Dict []) other
    (PDict [(["s"%string], PArr (Arr [2] [3; 4]%Z)); (["x_mask"%string], PArr (Arr [3] [1; 0; 1]%Z))]) None false = Ok (PDict [(["x"%string], PNum 9%Z)], None) /\
  (forall S I Ms given, In (["x"%string], given) Ms -> shape given = 1 :: l_shape three ++ [3] -> Forall2 (fun v w => any (mkLeaf [3] None) v = Some w) [1; 0; 1]%Z (data given) ->
     sum_policy (Dict [("x"%string, Leaf three)]) (Dict []) S I Ms false = other S I Ms false).
Proof.
  split; [reflexivity|]. split; [reflexivity|]. intros S I Ms given Hin _ HF. cbv zeta beta.
  assert (E : existsb (fun pm : list string * arr Z => existsb (Z.eqb 0) (data (snd pm))) Ms = true); [|rewrite E; reflexivity].
  apply existsb_exists. exists (["x"%string], given). split; [exact Hin|]. cbn [snd]. inversion HF as [|? ? ? ? H1 HF1]; subst. inversion HF1 as [|? ? ? ? H3 _]; subst.
  apply some_inj in H3. subst. cbn. apply orb_true_r.
Qed.
Example C140_record_case : exists st',
  act Z any 1%Z true (Leaf num) (Leaf three) Z (ex_model (Leaf three)) true 2 ready (PDict [(["state"%string], PNum 5%Z); (["action_mask"%string], PArr (Arr [3] [1; 0; 1]%Z))]) None (ParInt 0) =
  (st', Err "AssertionError") /\ closed st' 0 = false.
Proof. eexists. split; reflexivity. Qed.
Example C140_nested_case : exists e,
  act_independent Z any 1%Z true (Dict [("a"%string, Leaf num)]) (Dict [("a"%string, Dict [("b"%string, Leaf three)])]) (Dict []) (sum_policy (Leaf num) (Dict []))
    (PDict [(["a"%string], PNum 5%Z)]) None false = Err e.
Proof. eexists. reflexivity. Qed.

Print Assumptions C138_streams.
Print Assumptions C138_one.
Print Assumptions C138_list.
Print Assumptions C138_default_refuted.
Print Assumptions C138_negative_refuted.
Print Assumptions C138_twice_refuted.
Print Assumptions C139_kept.
Print Assumptions C139_order.
Print Assumptions C139_rejected_refuted.
Print Assumptions C140_default.
Print Assumptions C140_single.
Print Assumptions C140_given.
Print Assumptions C140_record_refuted.
Print Assumptions C140_nested_refuted.
