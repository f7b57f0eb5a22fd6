(** More about the agent: limits, recurrent state, update frequency, evaluation,
    episodes given directly (C22-C25, C28). *)

From Coq Require Import String List ZArith Lia Bool QArith Qcanon.
From Coq Require Import ZifyBool ZifyNat.
From Verif Require Import Base BaseFacts Field MemSpec MemModel MemProofs MemQueries
  RetSpec RetModel RetProofs RetProps AgentSpec AgentModel AgentProofs AgentInv AgentRuns AgentFlush AgentProps.
Import ListNotations.
Open Scope Z_scope.

Section AgentMore.
Variable K : field.
Variables St In Au Ac W : Type.
Variable pol : W -> St -> In -> Au -> Ac * In.
Variable init_int : In.
Notation X := (X St In Au Ac).
Notation tstep := (X * K * Z)%type.
Variable zero_x : X.

Notation oracle := (oracle K St In Au Ac).
Notation mstate := (mstate K St In Au Ac).
Notation astate := (astate K St In Au Ac).
Notation event := (event K St In Au Ac).
Notation op := (op K St In Au Ac W oracle).
Notation o_rc := (o_rc K St In Au Ac).
Notation o_bval := (o_bval K St In Au Ac).
Notation o_freq := (o_freq K St In Au Ac).
Notation o_start := (o_start K St In Au Ac).
Notation o_past := (o_past K St In Au Ac).
Notation m_timesteps := (m_timesteps K St In Au Ac).
Notation m_episodes := (m_episodes K St In Au Ac).
Notation m_updates := (m_updates K St In Au Ac).
Notation m_len := (m_len K St In Au Ac).
Notation m_ret := (m_ret K St In Au Ac).
Notation m_int := (m_int K St In Au Ac).
Notation m_mem := (m_mem K St In Au Ac).
Notation a_completed := (a_completed K St In Au Ac).
Notation a_tbuf := (a_tbuf K St In Au Ac).
Notation a_rbuf := (a_rbuf K St In Au Ac).
Notation a_timesteps := (a_timesteps K St In Au Ac).
Notation a_episodes := (a_episodes K St In Au Ac).
Notation a_updates := (a_updates K St In Au Ac).
Notation a_m := (a_m K St In Au Ac).
Notation agent_run := (agent_run K St In Au Ac W pol init_int zero_x).
Notation agent_step := (agent_step K St In Au Ac W pol init_int).
Notation agent_run_from := (agent_run_from K St In Au Ac W pol init_int).
Notation EAct := (EAct K St In Au Ac).
Notation EObserve := (EObserve K St In Au Ac).
Notation EIndAct := (EIndAct K St In Au Ac).
Notation updates_of := (updates_of K St In Au Ac).
Notation periodic_of := (periodic_of K St In Au Ac).
Notation xt := (xt K St In Au Ac).
Notation xs_of := (xs_of K St In Au Ac).
Notation rs_of := (rs_of K St In Au Ac).
Notation ts_of := (ts_of K St In Au Ac).
Notation wf_config := (wf_config).
Notation spec_of := (spec_of pol init_int).
Notation zero := (zero_x, 0%F : K).

Notation pa := (pa St Au W).
Notation po := (po K St In Au Ac).
Notation fl := (fl K St In Au Ac).
Notation a_counter := (a_counter K St In Au Ac).
Notation m_index := (m_index K St In Au Ac).
Notation any_conf := (any_conf K).
Notation legal cf := (legal_run K St In Au Ac W pol init_int cf False any_conf (fun _ => 0%F)).

(** ** C22 *)

Lemma observe_flags cf items : forall a n r,
  fold_res (agent_observe_one K St In Au Ac init_int cf) (a, n) items = Ok r -> Forall (fun it => 0 <= fl it) items.
Proof.
  induction items as [|[[[p t] r0] o] items IH]; intros a n r H; [constructor|]. cbn [fold_res] in H. binv H. destruct v as [a1 n1].
  constructor; [|eapply IH; exact H]. change (0 <= t).
  apply observe_one_inv in E as (tb & rb & _ & _ & _ & _ & _ & [(-> & _)|(_ & _ & _ & _ & _ & u & E & _)]); [lia|].
  unfold model_observe in E. binv E. binv E. apply assert_inv in E1. rewrite forallb_forall in E1.
  specialize (E1 t ltac:(apply in_or_app; right; now left)). lia.
Qed.

(** A stream never has more than max_episode_timesteps timesteps observed in an
    unfinished episode.  Missing for the full property: one more timestep is let
    through if it ends the episode ([C22_refuted]). *)
Theorem C22_limit_partial : forall cf M ops a evs p, cf_maxep cf = Some M -> 0 <= M ->
  Forall distinct ops -> agent_run cf ops = Ok (a, evs) -> 0 <= p < cf_par cf ->
  steps_after p ops <= M.
Proof.
  intros cf M ops a evs p HM M0 HD E Hp. revert ops a evs E HD.
  apply (run_ind K St In Au Ac W pol init_int zero_x cf (fun ops a evs => Forall distinct ops -> steps_after p ops <= M)).
  - intros a _ _. cbn. exact M0.
  - intros ops a evs x a' ev E IH H HD. pose proof HD as HD'. apply Forall_app in HD as [HD HDx]. apply Forall_inv in HDx.
    specialize (IH HD). unfold steps_after. rewrite fold_left_app. cbn [fold_left]. fold (steps_after p ops).
    destruct x as [items|items|items|os items|o|]; cbn [steps_op]; try exact IH; [|lia].
    cbn [AgentModel.agent_step] in H. binv H. destruct v as [a1 u].
    apply observe_inv in E0 as (_ & _ & cs & a0 & HC & HMx & _ & _ & _ & _ & _ & _ & _ & _ & EF). specialize (HMx M HM).
    apply observe_flags in EF.
    cbn [distinct] in HDx. change (NoDup (map po items)) in HDx.
    destruct (in_dec Z.eq_dec p (map po items)) as [Hin|Hn].
    2: { rewrite (steps_items K St In Au Ac) by exact Hn. exact IH. }
    apply in_map_iff in Hin as (it & Hpo & Hin).
    rewrite (steps_items_in K St In Au Ac p items _ it HDx Hin Hpo).
    rewrite Forall_forall in EF. specialize (EF it Hin).
    destruct (Z.ltb_spec 0 (fl it)); [lia|].
    destruct (run_counter _ _ _ _ _ _ _ _ _ _ _ _ _ E HD) as [_ HG].
    assert (exists c, gather (a_counter a) (po it) = Ok c /\ (fl it = 0 -> c + 1 <= M)) as (c & Hc & Hle).
    { clear - HC HMx Hin. induction HC as [|i c items cs Hi HC IH]; [contradiction|].
      inversion HMx; subst. destruct Hin as [->|Hin]; [exists c; auto|]. apply IH; auto. }
    rewrite Hpo, (HG p Hp) in Hc. injection Hc as <-. lia.
Qed.

(** The observation exceeding the limit is rejected. *)
Theorem C22_rejected_partial : forall cf M ops items a evs, cf_maxep cf = Some M -> Forall distinct ops ->
  agent_run cf ops = Ok (a, evs) ->
  Forall (fun it => in_range cf (po it) /\ pending_after (po it) ops = true) items ->
  (exists it, List.In it items /\ fl it = 0 /\ M < steps_after (po it) ops + 1) ->
  agent_step cf a (OObserve items) = Err "Episode longer than max_episode_timesteps.".
Proof.
  intros cf M ops items a evs HM HD E HF (it & Hin & H0 & HL). cbn [AgentModel.agent_step]. unfold agent_observe.
  change (map (fun it : Z * Z * K * oracle => fst (fst (fst it))) items) with (map po items).
  change (map (fun it : Z * Z * K * oracle => snd (fst (fst it))) items) with (map fl items).
  assert (Forall (in_range cf) (map po items)) as HR.
  { rewrite Forall_forall in *. intros p Hp. apply in_map_iff in Hp as (i & <- & Hi). now apply HF. }
  rewrite (completed_gathers _ _ _ _ _ _ _ _ _ _ _ _ _ _ E HR).
  assert (len items =? 0 = false) as -> by (destruct items; [contradiction|reflexivity]).
  cbn [negb assert_ bind]. replace (existsb _ _) with false.
  2: { symmetry. apply not_true_iff_false. intros C. apply existsb_exists in C as (b & Hb & Hbt). rewrite map_map in Hb.
       apply in_map_iff in Hb as (i & <- & Hi). rewrite Forall_forall in HF. destruct (HF i Hi) as [_ Hpd]. rewrite Hpd in Hbt. discriminate. }
  cbn [negb assert_ bind].
  destruct (run_flags _ _ _ _ _ _ _ _ _ _ _ _ _ E) as [HLc _].
  destruct (scatter_const (a_completed a) (map po items) true) as (l' & -> & _).
  { rewrite Forall_forall in *. intros p Hp. specialize (HR p Hp). unfold in_range in HR. lia. }
  cbn [bind].
  destruct (run_counter _ _ _ _ _ _ _ _ _ _ _ _ _ E HD) as [_ HG].
  rewrite (gathers_ok (a_counter a) (map po items) (fun p => steps_after p ops)).
  2: { intros p Hp. apply HG. rewrite Forall_forall in HR. now apply HR. }
  cbn [bind]. rewrite HM. replace (forallb _ _) with false; [reflexivity|].
  symmetry. apply not_true_iff_false. rewrite forallb_forall. intros C.
  specialize (C (fl it, steps_after (po it) ops + 1)). cbn [fst snd] in C.
  enough (negb ((fl it =? 0) && (M <? steps_after (po it) ops + 1)) = true) by lia. apply C. clear - Hin.
  rewrite !map_map. induction items as [|i items IH]; [contradiction|]. cbn [map combine].
  destruct Hin as [->|Hin]; [now left|]. right. now apply IH.
Qed.

(** ** C23 *)

(** An act uses, for each of its streams, the recurrent state folded over the earlier
    acts of the same episode and stream, starting from the initial state.  Missing for
    the full property: resets in the middle of an episode ([C23_refuted]). *)
Theorem C23_recurrent_state_partial : forall cf ops items a evs, Forall distinct ops ->
  clean_resets K St In Au Ac W cf ops ->
  agent_run cf (ops ++ [OAct items]) = Ok (a, evs) ->
  exists evs0, evs = evs0 ++ [EAct (map (fun it => let '(p, st, au, w) := it in
    let i := fold_int pol init_int (acts_since p ops) in
    (p, mkX st i au (fst (pol w st i au)))) items)].
Proof.
  intros cf ops items a evs HD HR H. apply agent_run_snoc in H as (a0 & evs0 & a' & ev & E & E' & Er).
  injection Er as -> ->. exists evs0. f_equal. f_equal. cbn [AgentModel.agent_step] in E'. binv E'. destruct v as [a1 xs].
  injection E' as _ <-. cbn [snd].
  pose proof (act_inv K St In Au Ac W pol init_int cf _ _ _ _ E0) as (_ & _ & _ & _ & _ & _ & HRg & _ & ->).
  destruct (run_int _ _ _ _ _ _ _ _ _ _ _ _ _ E HD HR) as [HL HG].
  f_equal. apply map_ext_in. intros [[[p st] au] w] Hin. rewrite Forall_forall in HRg. specialize (HRg _ Hin).
  change (0 <= p < len (m_int (a_m a0))) in HRg. unfold AgentRuns.pa, act_x, int_of. cbn [fst].
  rewrite (HG p) by (unfold in_range; lia). reflexivity.
Qed.

(** ** C24 *)

(** Unit episodes: the number of updates follows from the number of episodes. *)
Theorem C24_episodes : forall cf s f ops a evs, 1 <= f -> cf_freq cf = Some f -> cf_unit_ts cf = false ->
  Forall (observes K St In Au Ac W (fun o => o_start o = s /\ o_freq o = f) false) ops ->
  agent_run cf ops = Ok (a, evs) ->
  let E := total_episodes ops in
  periodic_of evs = if E <? Z.max s f then 0 else (E - Z.max s f) / f + 1.
Proof.
  intros cf s f ops a evs H1 H2 H3 HF E. exact (episodes_updates _ _ _ _ _ _ _ _ _ cf s f H1 H2 H3 _ _ _ E HF).
Qed.

(** Unit timesteps, full-episode horizon: none before the start, then at least [f]
    timesteps apart.  (Missing in [C24_timesteps_horizon_partial]: the start, which
    is not respected with a horizon given in timesteps, see [C24_refuted].) *)
Theorem C24_timesteps_start_partial : forall cf s f past ops a evs,
  1 <= f -> 0 <= s -> 0 <= past -> cf_freq cf = Some f -> cf_unit_ts cf = true -> cf_ephor cf = true ->
  Forall (observes K St In Au Ac W (fun o => o_start o = s /\ o_freq o = f /\ o_past o = past) true) ops ->
  agent_run cf ops = Ok (a, evs) ->
  (total_acts ops < s -> periodic_of evs = 0) /\
  (s <= total_acts ops -> periodic_of evs <= (total_acts ops - s) / f + 1).
Proof.
  intros cf s f past ops a evs H1 H2 H3 H4 H5 H6 HF E.
  destruct (timesteps_updates _ _ _ _ _ _ _ _ _ cf s f past H1 H2 H3 H4 H5 H6 _ _ _ E HF) as [A B].
  set (fu := first_update cf s f past) in *. assert (s <= fu) as Hfu by (unfold fu, first_update; lia).
  split; intros Hs; [apply A; lia|].
  destruct (Z_lt_le_dec (total_acts ops) fu) as [Hl|Hl].
  - rewrite (A Hl). assert (0 <= (total_acts ops - s) / f) by (apply Z.div_pos; lia). lia.
  - specialize (B Hl). assert ((total_acts ops - fu) / f <= (total_acts ops - s) / f) by (apply Z.div_le_mono; lia). lia.
Qed.

Theorem C24_timesteps_apart_partial : forall cf s f past ops1 ops2 a1 evs1 a2 evs2,
  1 <= f -> 0 <= s -> 0 <= past -> cf_freq cf = Some f -> cf_unit_ts cf = true -> cf_ephor cf = true ->
  Forall (observes K St In Au Ac W (fun o => o_start o = s /\ o_freq o = f /\ o_past o = past) true) (ops1 ++ ops2) ->
  agent_run cf ops1 = Ok (a1, evs1) -> agent_run_from cf a1 ops2 = Ok (a2, evs2) ->
  periodic_of evs2 = 0 \/ f * (periodic_of evs2 - 1) <= total_acts ops2.
Proof.
  intros cf s f past ops1 ops2 a1 evs1 a2 evs2 H1 H2 H3 H4 H5 H6 HF E1 E2.
  destruct (timesteps_window _ _ _ _ _ _ _ _ _ cf s f past H1 H2 H3 H4 H5 H6 _ _ _ _ _ _ E1 E2 HF) as [->|]; lia.
Qed.

(** With a horizon given in timesteps, from the end of the first episode on. *)
Theorem C24_timesteps_horizon_partial : forall cf f ops1 ops2 a1 evs1 a2 evs2,
  1 <= f -> cf_freq cf = Some f -> cf_unit_ts cf = true -> cf_ephor cf = false ->
  Forall (observes K St In Au Ac W (fun o => o_freq o = f /\ rc_horizon K (o_rc o) <> None) true) ops2 ->
  agent_run cf ops1 = Ok (a1, evs1) -> agent_run_from cf a1 ops2 = Ok (a2, evs2) -> 0 < total_episodes ops1 ->
  periodic_of evs2 = 0 \/ f * (periodic_of evs2 - 1) <= total_acts ops2.
Proof.
  intros cf f ops1 ops2 a1 evs1 a2 evs2 H1 Hf Hu Hh HF E1 E2 HE.
  pose proof (run_syn _ _ _ _ _ _ _ _ _ _ _ _ _ E1) as (_ & T1 & _ & Ep1 & _).
  set (b := match cf_bo cf with Some b => Z.max 0 b | None => 0 end).
  set (T1' := total_acts ops1) in *.
  pose proof (run_from_last K St In Au Ac W pol init_int cf
    (fun o => o_freq o = f /\ rc_horizon K (o_rc o) <> None) true
    (fun T E l u => T1' <= T /\ 0 < E /\ (u = 0 \/ (1 <= u /\ T1' - b + f * (u - 1) <= l <= T - b)))) as HI.
  specialize (HI ltac:(cbv beta; intros; lia) ltac:(cbv beta; intros; lia)).
  assert (total_acts (ops1 ++ ops2) = total_acts ops1 + total_acts ops2) as Eapp.
  { clear. induction ops1 as [|x ops IH]; [reflexivity|]. cbn [app total_acts fold_right].
    fold (total_acts (ops ++ ops2)). fold (total_acts ops). rewrite IH. unfold total_acts. lia. }
  assert (agent_run cf (ops1 ++ ops2) = Ok (a2, evs1 ++ evs2)) as H12.
  { unfold AgentModel.agent_run in *. binv E1. rewrite E. cbn [bind]. rewrite agent_run_from_app, E1. cbn [bind fst snd]. rewrite E2. reflexivity. }
  pose proof (run_syn _ _ _ _ _ _ _ _ _ _ _ _ _ H12) as (_ & T2 & _).
  specialize (HI ltac:(
    cbv beta zeta; intros o T E l n t u l' [Ho1 Ho2] (A1 & A2 & A3) A4;
    unfold units_at in A4; rewrite Hu, Hh in A4; destruct (rc_horizon K (o_rc o)) as [h|]; [|congruence];
    rewrite Ho1 in A4;
    replace (0 <? E) with true in A4 by lia;
    unfold b in *; destruct t, u, (cf_bo cf); nia) ops2 a1 a2 evs2 0 E2 HF).
  rewrite Z.add_0_l in HI. cbv beta in HI. rewrite T1, Ep1, T2, Eapp in HI. 
  destruct HI as (_ & _ & [->|HI]); [unfold T1'; lia|now left|right; lia].
Qed.

(** ** C25 *)

(** An independent act leaves everything as it is (attributes of the agent, counters,
    buffers, recurrent states, memory), and what it returns depends only on its
    arguments.  Missing for the full property: the state of preprocessing layers is
    not part of this model. *)
Theorem C25_unchanged_partial : forall cf a items,
  agent_step cf a (OIndAct items) =
  Ok (a, EIndAct (map (fun it => let '(s, i, au, w) := it in pol w s i au) items)).
Proof. intros cf a items. destruct a. reflexivity. Qed.

(** So it can be left out of any history. *)
Theorem C25_removable_partial : forall cf ops1 items ops2 a evs,
  agent_run cf (ops1 ++ OIndAct items :: ops2) = Ok (a, evs) <->
  exists evs1 evs2, length evs1 = length ops1 /\ agent_run cf (ops1 ++ ops2) = Ok (a, evs1 ++ evs2) /\
    evs = evs1 ++ EIndAct (map (fun it => let '(s, i, au, w) := it in pol w s i au) items) :: evs2.
Proof.
  intros cf ops1 items ops2 a evs. unfold AgentModel.agent_run.
  destruct (agent_initialize K St In Au Ac init_int zero_x cf) as [a0|]; cbn [bind].
  2: { split; [discriminate|]. intros (? & ? & _ & C & _). discriminate. }
  rewrite !agent_run_from_app. cbn [AgentModel.agent_run_from].
  assert (forall ops a r, agent_run_from cf a ops = Ok r -> length (snd r) = length ops) as HLen.
  { clear. induction ops as [|x ops IH]; intros a r H; cbn [AgentModel.agent_run_from] in H.
    - injection H as <-. reflexivity.
    - binv H. binv H. injection H as <-. cbn [snd length]. f_equal. eapply IH. exact E0. }
  destruct (agent_run_from cf a0 ops1) as [[a1 e1]|] eqn:E1; cbn [bind fst snd].
  2: { split; [discriminate|]. intros (? & ? & _ & C & _). discriminate. }
  specialize (HLen _ _ _ E1). cbn [snd] in HLen.
  rewrite C25_unchanged_partial. cbn [bind fst snd].
  destruct (agent_run_from cf a1 ops2) as [[a2 e2]|]; cbn [bind fst snd].
  2: { split; [discriminate|]. intros (? & ? & _ & C & _). discriminate. }
  split.
  - intros H. injection H as <- <-. exists e1, e2. auto.
  - intros (e1' & e2' & Hl & H & ->). injection H as -> H.
    assert (e1 = e1' /\ e2 = e2') as [-> ->]; [|reflexivity].
    rewrite <- Hl in HLen. clear - H HLen. revert e1' H HLen. induction e1 as [|x e1 IH]; intros [|y e1'] H HLen; try discriminate; auto.
    cbn [app] in H. injection H as -> H. injection HLen as HLen. destruct (IH _ H HLen) as [-> ->]. auto.
Qed.

(** ** C28 *)

(** An episode: one terminal timestep, the last. *)
Definition episode (ep : list tstep) : Prop :=
  exists pre e, ep = pre ++ [e] /\ Forall (fun x => snd x = 0) pre /\ snd e <> 0.

Lemma cut_episodes_ok (items : list tstep) : forall cur, Forall (fun x => snd x = 0) cur ->
  (exists pre e, items = pre ++ [e] /\ snd e <> 0) \/ (items = [] /\ cur = []) ->
  concat (cut_episodes cur items) = cur ++ items /\ Forall episode (cut_episodes cur items).
Proof.
  induction items as [|x items IH]; intros cur Hc HE.
  - destruct HE as [(pre & e & E & _)|[_ ->]]; [destruct pre; discriminate|]. split; [reflexivity|constructor].
  - destruct HE as [(pre & e & E & He)|[E _]]; [|discriminate]. cbn [cut_episodes].
    destruct pre as [|y pre]; cbn [app] in E; injection E as -> ->.
    + destruct (Z.eqb_spec (snd e) 0); [contradiction|]. cbn [cut_episodes concat].
      split; [apply app_nil_r|]. repeat constructor. exists cur, e. auto.
    + destruct (Z.eqb_spec (snd y) 0) as [Ey|Ny].
      * destruct (IH (cur ++ [y])) as [H1 H2]; [apply Forall_app; auto|left; eauto|].
        split; [rewrite H1, <- app_assoc; reflexivity|exact H2].
      * destruct (IH []) as [H1 H2]; [constructor|left; eauto|]. cbn [concat]. rewrite H1, <- app_assoc.
        split; [reflexivity|]. constructor; [|exact H2]. exists cur, y. auto.
Qed.

(** agent.experience passes its input on to the model episode by episode. *)
Theorem C28_episodes : forall cf os items ops a evs, agent_run cf (ops ++ [OExperience os items]) = Ok (a, evs) ->
  exists eps calls, concat eps = items /\ Forall episode eps /\
    model_run K St In Au Ac W pol init_int zero_x cf (calls ++ numbered os 0 eps) = Ok (a_m a) /\
    exists a0 evs0, agent_run cf ops = Ok (a0, evs0) /\
      model_run K St In Au Ac W pol init_int zero_x cf calls = Ok (a_m a0).
Proof.
  intros cf os items ops a evs H. apply agent_run_snoc in H as (a0 & evs0 & a' & ev & E & E' & Er). injection Er as -> ->.
  destruct (run_kept _ _ _ _ _ _ _ _ _ _ _ _ _ E) as (HM & _).
  cbn [AgentModel.agent_step] in E'. binv E'. injection E' as <- <-. unfold agent_experience in E0. binv E0. binv E0. binv E0.
  apply assert_inv in E3.
  assert (exists pre e, items = pre ++ [e] /\ snd e <> 0) as Hl.
  { destruct (list_rev_destruct items) as [->|(pre & e & ->)]; [discriminate E2|]. exists pre, e. split; [reflexivity|].
    rewrite map_app in E2. cbn [map] in E2. rewrite last_ok in E2. injection E2 as <-. lia. }
  destruct (cut_episodes_ok items [] ltac:(constructor) (or_introl Hl)) as [H1 H2].
  exists (cut_episodes [] items), (snd (flush (cf_bo cf) ops)).
  split; [exact H1|]. split; [exact H2|]. split; [|exists a0, evs0; auto].
  eapply experience_loop_kept; [exact E0|exact HM].
Qed.

(** Input which does not end an episode is rejected, before anything is stored. *)
Theorem C28_incomplete_rejected : forall cf os items a,
  (items = [] \/ exists pre e, items = pre ++ [e] /\ snd e = 0) ->
  exists e, agent_step cf a (OExperience os items) = Err e.
Proof.
  intros cf os items a H. cbn [AgentModel.agent_step]. unfold agent_experience.
  destruct (assert_ _ _); cbn [bind]; [|eauto].
  destruct H as [->|(pre & e & -> & He)]; [eexists; reflexivity|]. rewrite map_app. cbn [map]. rewrite last_ok. cbn [bind]. rewrite He. cbn. eauto.
Qed.

Lemma gather_shift {A} (x : A) l q i : gather l q = Ok i -> gather (x :: l) (q + 1) = Ok i.
Proof.
  intros Hq. pose proof (gather_range _ _ _ Hq). unfold gather in *.
  replace (q + 1 <? 0) with false by lia. replace (q <? 0) with false in Hq by lia.
  replace (Z.to_nat (q + 1)) with (S (Z.to_nat q)) by lia. exact Hq.
Qed.

(** So are calls while an episode is in progress on some stream. *)
Theorem C28_mid_episode_rejected : forall cf cap ops os items a evs p, wf_config cf cap -> legal cf ops ->
  agent_run cf ops = Ok (a, evs) -> 0 <= p < cf_par cf ->
  (s_open (sp_st (spec_of ops) p) <> [] \/ s_pend (sp_st (spec_of ops) p) <> None) ->
  exists e, agent_step cf a (OExperience os items) = Err e.
Proof.
  intros cf cap ops os items a evs p WF HL E Hp Ho.
  destruct (legal_run_inv _ _ _ _ _ _ _ _ _ _ _ _ _ _ WF HL E) as [[_ (d & HI)] _].
  pose proof (li_m _ _ _ _ _ _ _ _ _ _ _ _ _ _ HI) as HM.
  assert (0 < fold_right Z.add 0 (m_index (a_m a))) as HS.
  { assert (forall q i, gather (m_index (a_m a)) q = Ok i -> 0 <= i /\ (q = p -> 0 < i)) as HP.
    { intros q i Hq. pose proof (gather_range _ _ _ Hq) as Hr.
      assert (0 <= q < cf_par cf) as Hq'.
      { destruct (mi_len _ _ _ _ _ _ _ _ _ _ _ _ _ _ HM) as (L & _). lia. }
      destruct (mi_rows _ _ _ _ _ _ _ _ _ _ _ _ _ _ HM q Hq') as (r & Er & HR).
      apply row_at_ok in Er. destruct Er as (R1 & _). rewrite Hq in R1. injection R1 as ->.
      rewrite (mr_index _ _ _ _ _ _ _ _ _ _ (mr_b _ _ _ _ _ _ _ _ _ _ HR)). unfold pending.
      split; [clear; destruct (s_pend (sp_st (spec_of ops) q)); lia|]. intros ->.
      destruct (s_open (sp_st (spec_of ops) p)), (s_pend (sp_st (spec_of ops) p)); cbn [length]; try lia.
      destruct Ho; congruence. }
    assert (p < len (m_index (a_m a))) as Hlt.
    { destruct (mi_len _ _ _ _ _ _ _ _ _ _ _ _ _ _ HM) as (L & _). lia. }
    clear - HP Hp Hlt. revert p HP Hp Hlt. generalize (cf_par cf) as n. generalize (m_index (a_m a)) as l.
    assert (forall l : list Z, (forall q i, gather l q = Ok i -> 0 <= i) -> 0 <= fold_right Z.add 0 l) as Hnn.
    { induction l as [|x l IH]; intros H; [cbn; lia|]. cbn [fold_right].
      assert (0 <= x) by (apply (H 0); reflexivity).
      assert (0 <= fold_right Z.add 0 l); [|lia]. apply IH. intros q i Hq. apply (H (q + 1)).
      now apply gather_shift. }
    induction l as [|x l IH]; intros n p HP Hp Hlt; [cbn [length] in Hlt; lia|]. cbn [fold_right].
    pose proof (fun q i => gather_shift x l q i) as Hsh.
    destruct (HP 0 x eq_refl) as [Hx Hx0].
    destruct (Z.eq_dec p 0) as [->|Np].
    - specialize (Hx0 eq_refl). assert (0 <= fold_right Z.add 0 l); [|lia]. apply Hnn. intros q i Hq. apply (HP (q + 1)). auto.
    - assert (0 < fold_right Z.add 0 l); [|lia]. apply (IH n (p - 1)); [|lia|cbn [length] in Hlt; lia].
      intros q i Hq. destruct (HP (q + 1) i (Hsh q i Hq)) as [A B]. split; [exact A|]. intros ->. apply B. lia. }
  cbn [AgentModel.agent_step]. unfold agent_experience.
  destruct (assert_ _ _); cbn [bind]; [|eauto].
  destruct (last_ (map snd items)) as [tl|] eqn:El; cbn [bind]; [|eauto].
  destruct (assert_ (negb (tl =? 0)) _) eqn:Ea; cbn [bind]; [|eauto].
  assert (exists pre e, items = pre ++ [e] /\ snd e <> 0) as (pre & e & -> & He).
  { destruct (list_rev_destruct items) as [->|(pre & e & ->)]; [discriminate El|]. exists pre, e. split; [reflexivity|].
    rewrite map_app in El. cbn [map] in El. rewrite last_ok in El. injection El as <-. apply assert_inv in Ea. lia. }
  enough (forall pre seg k, exists er, experience_loop K St In Au Ac os a seg (pre ++ [e]) k = Err er) as Hx.
  { destruct (Hx pre [] O) as (er & ->). cbn [bind]. eauto. }
  clear - HS He. assert (forall o xs ts rs, exists er, model_experience K St In Au Ac o (a_m a) xs ts rs = Err er) as Hm.
  { intros. unfold model_experience. destruct (assert_ _ _); cbn [bind]; [|eauto].
    destruct (assert_ _ _); cbn [bind]; [|eauto].
    replace (fold_right Z.add 0 (m_index (a_m a)) =? 0) with false by lia. cbn. eauto. }
  induction pre as [|x pre IH]; intros seg k; cbn [app AgentModel.experience_loop].
  - destruct (Z.eqb_spec (snd e) 0); [contradiction|]. 
    match goal with |- context [model_experience K St In Au Ac ?o ?m ?x ?t ?r] => destruct (Hm o x t r) as (er & ->) end. cbn [bind]. eauto.
  - destruct (snd x =? 0); [apply IH|].
    match goal with |- context [model_experience K St In Au Ac ?o ?m ?x ?t ?r] => destruct (Hm o x t r) as (er & ->) end. cbn [bind]. eauto.
Qed.

End AgentMore.

(** ** Refutations and examples *)

Definition cf_lim : config :=
  {| cf_par := 1; cf_maxep := Some 2; cf_bo := Some 1; cf_ephor := false; cf_hmax := 2; cf_memcap := 9;
     cf_unit_ts := false; cf_freq := Some 1 |}.
Example cf_lim_wf : wf_config cf_lim 2.
Proof. split; cbn; try lia; try discriminate; try reflexivity. intros b H. injection H as <-. lia. Qed.

(** An episode of three timesteps with a limit of two, the last one terminal: accepted,
    and the memory gets the third timestep's state and action also in place of the
    first one's. *)
Theorem C22_refuted : exists cf M cap ops ep, wf_config cf cap /\ cf_maxep cf = Some M /\
  sp_fin (xspec ops) = [ep] /\ M < Z.of_nat (length ep) /\
  after (xrun cf ops) (fun '(a, evs) =>
    states_of ep = [1; 2; 3] /\ firstn 3 (in_memory a) = [3; 2; 3]).
Proof.
  exists cf_lim, 2, 2, (step_one 1 0 1 ++ step_one 2 0 2 ++ step_one 3 1 3). eexists.
  split; [exact cf_lim_wf|]. split; [reflexivity|]. split; [vm_compute; reflexivity|]. run_tac.
Qed.

Example C22_example :
  Forall distinct (step_one 1 0 1 ++ step_one 2 0 2) /\
  steps_after 0 (step_one 1 0 1 ++ step_one 2 0 2) = 2 /\
  after (xrun cf_lim (step_one 1 0 1 ++ step_one 2 0 2)) (fun _ => True) /\
  xrun cf_lim (step_one 1 0 1 ++ step_one 2 0 2 ++ step_one 3 0 3) = Err "Episode longer than max_episode_timesteps.".
Proof. split; [repeat constructor; cbn; tauto|]. run_tac. Qed.

(** A reset in the middle of an episode keeps the recurrent state: the next act
    continues from it. *)
Theorem C23_refuted : exists ops items, Forall distinct ops /\ acts_since 0 ops = [] /\
  after (xrun cf_two (ops ++ [OAct items])) (fun '(a, evs) =>
    exists x, last evs (EReset _ _ _ _ _) = EAct _ _ _ _ _ [(0, x)] /\ x_int x <> fold_int xpol 0 (acts_since 0 ops)).
Proof.
  exists [OAct [xact 0 1]; OReset], [xact 0 2]. split; [repeat constructor; cbn; tauto|]. split; [reflexivity|].
  vm_compute. eexists. split; [reflexivity|]. discriminate.
Qed.

(** The third act of stream 0 and the second episode of stream 1; a reset between episodes. *)
Example C23_example :
  Forall distinct (ops_two ++ [OObserve [xobs None 0 0 1]]) /\
  acts_since 0 (ops_two ++ [OObserve [xobs None 0 0 1]]) = [(3, tt, 1); (6, tt, 1)] /\
  clean_resets Qc_field Z Z unit Z Z cf_one (firstn 12 ops_one ++ [OReset]) /\
  after (xrun cf_two (ops_two ++ [OObserve [xobs None 0 0 1]] ++ [OAct [xact 0 7]])) (fun '(a, evs) =>
    last evs (EReset _ _ _ _ _) = EAct _ _ _ _ _ [(0, mkX 7 2 tt 127)]).
Proof.
  split; [repeat constructor; cbn; lia|]. split; [reflexivity|]. split; [|run_tac].
  intros pre post E p Hp. assert (p = 0) as -> by (unfold in_range in Hp; cbn in Hp; lia).
  assert (length (firstn 12 ops_one) = 12%nat) as Hl by reflexivity.
  assert (pre = firstn 12 ops_one) as ->; [|reflexivity].
  assert (Forall (fun x => x <> OReset) (firstn 12 ops_one)) as HF by (repeat constructor; discriminate).
  revert E HF. generalize (firstn 12 ops_one) as l. clear. intros l. revert pre.
  induction l as [|x l IH]; intros pre E HF.
  - destruct pre as [|y pre]; [reflexivity|]. destruct pre; discriminate.
  - destruct pre as [|y pre]; cbn [app] in E; injection E as E1 E2.
    + exfalso. apply (Forall_inv HF). exact E1.
    + subst y. f_equal. apply (IH _ E2 (Forall_inv_tail HF)).
Qed.

(** Unit timesteps with horizon 1: update start and frequency. *)
Definition cf_ts (f : Z) : config :=
  {| cf_par := 1; cf_maxep := None; cf_bo := Some 1; cf_ephor := false; cf_hmax := 1; cf_memcap := 20;
     cf_unit_ts := true; cf_freq := Some f |}.
Definition xo_ts (f s : Z) : oracle Qc_field Z Z unit Z :=
  {| o_rc := ex_conf (Some 1) true false None; o_bval := fun _ => qc 0;
     o_freq := f; o_start := s; o_past := 0; o_future := 0 |}.
Definition step_ts (f s t : Z) : list xop := [OAct [xact 0 1]; OObserve [(0, t, qc 1, xo_ts f s)]].
Example cf_ts_wf : wf_config (cf_ts 4) 2.
Proof. split; cbn; try lia; try discriminate; try reflexivity. intros b H. injection H as <-. lia. Qed.

(** The configured start 100 is ignored once the first episode (here two timesteps) is
    over. *)
Theorem C24_start_refuted : exists cf cap ops, wf_config cf cap /\
  Forall (observes Qc_field Z Z unit Z Z (fun o => o_start _ _ _ _ _ o = 100) false) ops /\ xlegal cf ops /\
  total_acts ops = 3 /\ after (xrun cf ops) (fun '(a, evs) => periodic_of _ _ _ _ _ evs = 1).
Proof.
  exists (cf_ts 1), 2, (step_ts 1 100 0 ++ step_ts 1 100 1 ++ step_ts 1 100 0).
  split; [split; cbn; try lia; try discriminate; try reflexivity; intros b H; injection H as <-; lia|].
  split; [repeat constructor|]. split; [apply legalb_ok; vm_compute; reflexivity|]. run_tac.
Qed.

(** Two updates two timesteps apart with frequency 4, around the end of the first episode. *)
Theorem C24_spacing_refuted : exists cf cap ops1 ops2, wf_config cf cap /\
  Forall (observes Qc_field Z Z unit Z Z (fun o => o_freq _ _ _ _ _ o = 4) false) (ops1 ++ ops2) /\ xlegal cf (ops1 ++ ops2) /\
  total_acts ops2 = 2 /\
  after (xrun cf ops1) (fun '(a1, evs1) => periodic_of _ _ _ _ _ evs1 = 0 /\
    after (agent_run_from Qc_field Z Z unit Z Z xpol 0 cf a1 ops2) (fun '(a2, evs2) => periodic_of _ _ _ _ _ evs2 = 1) /\
    after (agent_run_from Qc_field Z Z unit Z Z xpol 0 cf a1 (ops2 ++ step_ts 4 0 0)) (fun '(a2, evs2) => periodic_of _ _ _ _ _ evs2 = 2)).
Proof.
  exists (cf_ts 4), 2, (concat (repeat (step_ts 4 0 0) 5)), (step_ts 4 0 0 ++ step_ts 4 0 1).
  split; [exact cf_ts_wf|]. split; [repeat constructor|]. split; [apply legalb_ok; vm_compute; reflexivity|]. run_tac.
Qed.

(** Six single-timestep episodes, start 2, frequency 3: updates after episodes 3 and 6. *)
Definition cf_ep : config :=
  {| cf_par := 1; cf_maxep := Some 3; cf_bo := None; cf_ephor := true; cf_hmax := 1; cf_memcap := 9;
     cf_unit_ts := false; cf_freq := Some 3 |}.
Definition step_ep : list xop :=
  [OAct [xact 0 1]; OObserve [(0, 1, qc 1, {| o_rc := ex_conf None true false None; o_bval := fun _ => qc 0;
     o_freq := 3; o_start := 2; o_past := 0; o_future := 0 |})]].
Example C24_episodes_example :
  Forall (observes Qc_field Z Z unit Z Z (fun o => o_start _ _ _ _ _ o = 2 /\ o_freq _ _ _ _ _ o = 3) false) (concat (repeat step_ep 7)) /\
  total_episodes (concat (repeat step_ep 7)) = 7 /\
  after (xrun cf_ep (concat (repeat step_ep 7))) (fun '(a, evs) => periodic_of _ _ _ _ _ evs = 2).
Proof. split; [repeat constructor|]. run_tac. Qed.

(** Frequency 2, start 3 with full-episode horizon: updates at timesteps 4 and 6 (the
    first episode ends at timestep 3). *)
Definition cf_te : config :=
  {| cf_par := 1; cf_maxep := Some 9; cf_bo := Some 1; cf_ephor := true; cf_hmax := 1; cf_memcap := 20;
     cf_unit_ts := true; cf_freq := Some 2 |}.
Definition step_te (t : Z) : list xop :=
  [OAct [xact 0 1]; OObserve [(0, t, qc 1, {| o_rc := ex_conf None true false None; o_bval := fun _ => qc 0;
     o_freq := 2; o_start := 3; o_past := 0; o_future := 0 |})]].
Example C24_timesteps_example :
  let ops := step_te 0 ++ step_te 0 ++ step_te 1 ++ step_te 0 ++ step_te 0 ++ step_te 0 in
  Forall (observes Qc_field Z Z unit Z Z (fun o => o_start _ _ _ _ _ o = 3 /\ o_freq _ _ _ _ _ o = 2 /\ o_past _ _ _ _ _ o = 0) true) ops /\
  total_acts ops = 6 /\ after (xrun cf_te ops) (fun '(a, evs) => periodic_of _ _ _ _ _ evs = 2).
Proof. split; [repeat constructor|]. run_tac. Qed.
(** Frequency 4, horizon 1, after a first episode of one timestep. *)
Example C24_horizon_example :
  let ops1 := step_ts 4 0 1 in let ops2 := concat (repeat (step_ts 4 0 0) 9) in
  0 < total_episodes ops1 /\
  after (xrun (cf_ts 4) ops1) (fun '(a1, evs1) =>
    after (agent_run_from Qc_field Z Z unit Z Z xpol 0 (cf_ts 4) a1 ops2) (fun '(a2, evs2) => periodic_of _ _ _ _ _ evs2 = 3)).
Proof. run_tac. Qed.

(** An independent act in the middle of an episode: its recurrent state is its own. *)
Example C25_example :
  after (xrun cf_two ops_two) (fun '(a, evs) =>
    nth 5 evs (EReset _ _ _ _ _) = EIndAct _ _ _ _ _ [(98, 10)] /\
    after (xrun cf_two (firstn 5 ops_two ++ skipn 6 ops_two)) (fun '(a', evs') =>
      in_memory a' = in_memory a /\ m_int _ _ _ _ _ (a_m _ _ _ _ _ a') = m_int _ _ _ _ _ (a_m _ _ _ _ _ a) /\
      m_int _ _ _ _ _ (a_m _ _ _ _ _ a) = [2; 1])).
Proof. run_tac. Qed.

(** Two episodes of two and three timesteps. *)
Definition xts (s t : Z) : X Z Z unit Z * Qc_field * Z := (mkX s 0 tt 0, qc s, t).
Definition two_episodes := [xts 1 0; xts 2 1; xts 3 0; xts 4 0; xts 5 2].
Example C28_example :
  map states_of (cut_episodes [] two_episodes) = [[1; 2]; [3; 4; 5]] /\
  after (xrun cf_ep [OExperience (fun _ => xo None) two_episodes]) (fun '(a, evs) =>
    in_memory a = [1; 2; 3; 4; 5; 0; 0; 0; 0] /\ a_episodes _ _ _ _ _ a = 2 /\ a_timesteps _ _ _ _ _ a = 5) /\
  xrun cf_ep [OExperience (fun _ => xo None) (firstn 4 two_episodes)] = Err "Agent.experience() requires full episodes as input." /\
  xrun cf_ep [OAct [xact 0 1]; OExperience (fun _ => xo None) two_episodes] = Err "Agent.experience: cannot be called mid-episode.".
Proof. run_tac. Qed.

Print Assumptions C22_limit_partial.
Print Assumptions C22_rejected_partial.
Print Assumptions C23_recurrent_state_partial.
Print Assumptions C24_episodes.
Print Assumptions C24_timesteps_start_partial.
Print Assumptions C24_timesteps_apart_partial.
Print Assumptions C24_timesteps_horizon_partial.
Print Assumptions C25_unchanged_partial.
Print Assumptions C25_removable_partial.
Print Assumptions C28_episodes.
Print Assumptions C28_incomplete_rejected.
Print Assumptions C28_mid_episode_rejected.
Print Assumptions C22_refuted.
Print Assumptions C23_refuted.
Print Assumptions C24_start_refuted.
Print Assumptions C24_spacing_refuted.
