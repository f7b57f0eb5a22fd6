(** Theorems about the agent: act, observe, experience, update and reset
    (C13, C16 - C25, C28). *)

From Coq Require Import String List ZArith Lia Bool QArith Qcanon.
From Coq Require Import ZifyBool ZifyNat.
From Verif Require Import Base BaseFacts Field MemSpec MemModel MemProofs MemQueries
  RetSpec RetModel RetProofs RetProps AgentSpec AgentModel AgentProofs AgentInv AgentRuns AgentFlush.
Import ListNotations.
Open Scope Z_scope.

(** The reward estimates stored for a finished episode with states etc. [xs],
    rewards [rs] and final terminal flag [f]. *)
Definition episode_estimates {K : field} {X} (c : rconf K) (bval : X -> K) (xs : list X) (rs : list K) (f : Z) : list K :=
  let T := length rs in
  let V := used_values bval (rc_early K c) xs in
  let r := if negb (rc_predterm K c) && (f =? 1) then at_ rs else with_last (at_ rs) T (V (T - 1)%nat) in
  let h := effective_horizon (rc_horizon K c) T in
  tabulate T (match rc_trace K c with
              | None => nstep (rc_discount K c) r V T h
              | Some l => lambda_return (rc_discount K c) l r V T h
              end).

Section AgentProps.
Variable K : field.
Variables St In Au Ac W : Type.
Variable pol : W -> St -> In -> Au -> Ac * In.
Variable init_int : In.
Notation X := (X St In Au Ac).
Notation tstep := (X * K * Z)%type.
Variable zero_x : X.

Notation oracle := (oracle K St In Au Ac).
Notation mstate := (mstate K St In Au Ac).
Notation astate := (astate K St In Au Ac).
Notation event := (event K St In Au Ac).
Notation op := (op K St In Au Ac W oracle).
Notation o_rc := (o_rc K St In Au Ac).
Notation o_bval := (o_bval K St In Au Ac).
Notation o_freq := (o_freq K St In Au Ac).
Notation o_start := (o_start K St In Au Ac).
Notation o_past := (o_past K St In Au Ac).
Notation m_timesteps := (m_timesteps K St In Au Ac).
Notation m_episodes := (m_episodes K St In Au Ac).
Notation m_updates := (m_updates K St In Au Ac).
Notation m_len := (m_len K St In Au Ac).
Notation m_ret := (m_ret K St In Au Ac).
Notation m_int := (m_int K St In Au Ac).
Notation m_mem := (m_mem K St In Au Ac).
Notation a_completed := (a_completed K St In Au Ac).
Notation a_tbuf := (a_tbuf K St In Au Ac).
Notation a_rbuf := (a_rbuf K St In Au Ac).
Notation a_timesteps := (a_timesteps K St In Au Ac).
Notation a_episodes := (a_episodes K St In Au Ac).
Notation a_updates := (a_updates K St In Au Ac).
Notation a_m := (a_m K St In Au Ac).
Notation agent_run := (agent_run K St In Au Ac W pol init_int zero_x).
Notation agent_step := (agent_step K St In Au Ac W pol init_int).
Notation agent_run_from := (agent_run_from K St In Au Ac W pol init_int).
Notation EAct := (EAct K St In Au Ac).
Notation EObserve := (EObserve K St In Au Ac).
Notation EIndAct := (EIndAct K St In Au Ac).
Notation updates_of := (updates_of K St In Au Ac).
Notation periodic_of := (periodic_of K St In Au Ac).
Notation xt := (xt K St In Au Ac).
Notation xs_of := (xs_of K St In Au Ac).
Notation rs_of := (rs_of K St In Au Ac).
Notation ts_of := (ts_of K St In Au Ac).
Notation wf_config := (wf_config).
Notation spec_of := (spec_of pol init_int).
Notation zero := (zero_x, 0%F : K).

(** Histories which follow the rules: act and observe alternate on each stream,
    streams are in range and not repeated in a call, episodes are not longer than
    max_episode_timesteps, flags are 0, 1 or 2, experience and reset come between
    episodes, and the hyperparameter values are in the range the agent was built
    for.  If [C], the settings of the reward estimation are [c0], [bv] throughout. *)
Definition any_conf : rconf K :=
  {| rc_horizon := None; rc_discount := 1%F; rc_early := false; rc_predterm := false; rc_trace := None |}.
Notation legal cf := (legal_run K St In Au Ac W pol init_int cf False any_conf (fun _ => 0%F)).
Notation legal_with cf c0 bv := (legal_run K St In Au Ac W pol init_int cf True c0 bv).

Lemma legal_run_ok cf cap ops : wf_config cf cap -> legal cf ops ->
  (exists e, update_error e /\ agent_run cf ops = Err e) \/
  (exists a evs, agent_run cf ops = Ok (a, evs) /\
     AInv K St In Au Ac zero_x cf cap False any_conf (fun _ => 0%F) a (spec_of ops) /\
     events_of K St In Au Ac W pol init_int (spec0 init_int) ops evs).
Proof.
  intros WF HL. destruct (agent_run_ok K St In Au Ac W pol init_int zero_x cf cap False any_conf (fun _ => 0%F) WF
    (fun H => False_ind _ H) (fun H => False_ind _ H) ops HL) as [H|(a & evs & E & HI & Hev & _)]; [left; exact H|].
  right. exists a, evs. auto.
Qed.

Lemma legal_run_inv cf cap ops a evs : wf_config cf cap -> legal cf ops -> agent_run cf ops = Ok (a, evs) ->
  AInv K St In Au Ac zero_x cf cap False any_conf (fun _ => 0%F) a (spec_of ops) /\
  events_of K St In Au Ac W pol init_int (spec0 init_int) ops evs.
Proof.
  intros WF HL E. destruct (legal_run_ok cf cap ops WF HL) as [(e & _ & E')|(a' & evs' & E' & H)]; rewrite E in E'; [discriminate|].
  injection E' as <- <-. exact H.
Qed.

(** ** C16 *)

(** Every history following the rules is accepted, except that an update may find
    too little data. *)
Theorem C16_accepted : forall cf cap ops, wf_config cf cap -> legal cf ops ->
  (exists r, agent_run cf ops = Ok r) \/
  agent_run cf ops = Err "num_timesteps >= 1" \/ agent_run cf ops = Err "episode_count >= 1".
Proof.
  intros cf cap ops WF HL. destruct (legal_run_ok cf cap ops WF HL) as [(e & [->| ->] & E)|(a & evs & E & _)]; eauto.
Qed.

(** The memory holds (in the sense of C01 - C10) a sequence of timesteps made of the
    finished episodes in the order in which they finished, each with its own states,
    actions and flags, followed by a prefix [part] of the episode in progress. *)
Theorem C16_every_timestep_once : forall cf cap ops a evs, wf_config cf cap -> legal cf ops ->
  agent_run cf ops = Ok (a, evs) ->
  let fin := sp_fin (spec_of ops) in
  let open := s_open (sp_st (spec_of ops) 0) in
  exists calls part,
    Forall (legal_call (cf_memcap cf)) calls /\ qrun zero (cf_memcap cf) calls = Ok (m_mem (a_m a)) /\
    map xt (log_of calls) = map xt (concat fin) ++ map xt part /\
    part = firstn (length part) open /\
    (circular cf = false -> part = []) /\
    (circular cf = true -> forall b, cf_bo cf = Some b -> len open - len part < b + cf_hmax cf).
Proof.
  intros cf cap ops a evs WF HL E fin open.
  destruct (legal_run_inv _ _ _ _ _ WF HL E) as [[_ (d & HI)] _].
  pose proof (li_m _ _ _ _ _ _ _ _ _ _ _ _ _ _ HI) as HM.
  destruct (mi_log _ _ _ _ _ _ _ _ _ _ _ _ _ _ HM) as (sts & part & (calls & H1 & H2 & H3) & H4 & H5).
  assert (map xt (concat sts) = map xt (concat fin)) as Ec.
  { fold fin in H4. clear - H4. induction H4 as [|ep st fin sts [Hs _] _ IH]; [reflexivity|].
    cbn [concat]. rewrite !map_app, IH. f_equal. exact Hs. }
  exists calls. destruct (circular cf) eqn:Ecirc.
  - destruct H5 as (start & Hs & (P1 & P2 & P3 & P4)). fold open in P2, P3, P4.
    exists (firstn (length part) open).
    assert (length part <= length open)%nat as Hle.
    { destruct P2 as [->|P2]; cbn [length] in *; lia. }
    assert (length (firstn (length part) open) = length part) as El by (rewrite firstn_length; lia).
    split; [exact H1|]. split; [exact H2|]. split; [|split; [|split; [discriminate|]]].
    + rewrite H3, map_app, Ec. f_equal. change (map xt part = map xt (firstn (length part) open)).
      rewrite P3, firstn_map. reflexivity.
    + rewrite El. reflexivity.
    + intros _ b Hb. rewrite El.
      pose proof (circular_par cf Ecirc) as (Hpar & _ & _).
      assert (0 <= 0 < cf_par cf) as H0 by lia.
      pose proof (li_bo _ _ _ _ _ _ _ _ _ _ _ _ _ _ HI 0 H0) as Hbo. rewrite Hb in Hbo. fold open in Hbo.
      destruct (mi_rows _ _ _ _ _ _ _ _ _ _ _ _ _ _ HM 0 H0) as (r & Hr & HR).
      apply row_at_ok in Hr. destruct Hr as (_ & Hr & _). rewrite Hs in Hr. injection Hr as ->.
      pose proof (mr_start _ _ _ _ _ _ _ _ _ _ (mr_b _ _ _ _ _ _ _ _ _ _ HR)) as Hst. rewrite Ecirc in Hst. lia.
  - exists []. subst part. rewrite app_nil_r in H3. split; [exact H1|]. split; [exact H2|]. rewrite H3, app_nil_r.
    split; [exact Ec|]. split; [reflexivity|]. split; [reflexivity|]. discriminate.
Qed.

(** ** C13 *)

Definition ex (e : tstep) : X := fst (fst e).
Definition er (e : tstep) : K := snd (fst e).

(** The settings [c] fit an agent built for [cf]. *)
Definition fits (cf : config) (c : rconf K) : Prop :=
  if cf_ephor cf then rc_horizon K c = None else exists h, rc_horizon K c = Some h /\ 1 <= h <= cf_hmax cf.

Definition estimates_of (c : rconf K) (bv : X -> K) (ep : list tstep) : list K :=
  episode_estimates c bv (map ex ep) (map er ep) (last (map snd ep) 0).

(** The stored version of an episode: same timesteps, rewards replaced by estimates. *)
Definition stored_as (c : rconf K) (bv : X -> K) (ep st : list tstep) : Prop :=
  map xt st = map xt ep /\ map er st = estimates_of c bv ep.

Lemma stored_rewards_estimates c bv ep : stored_rewards K St In Au Ac c bv ep = estimates_of c bv ep.
Proof.
  unfold stored_rewards, estimates_of, episode_estimates. cbv zeta. rewrite map_length.
  unfold ret, rews, vals, final_reward, used_values, AgentInv.rs_of, AgentInv.xs_of, AgentInv.ts_of.
  rewrite map_length. unfold horizon_of, effective_horizon.
  change (AgentInv.ex K St In Au Ac) with ex. change (AgentInv.er K St In Au Ac) with er.
  change (AgentInv.et K St In Au Ac) with (@snd (X * K) Z). destruct (rc_trace K c); reflexivity.
Qed.

Lemma legal_with_inv cf cap c bv ops a evs : wf_config cf cap -> fits cf c -> rc_discount K c <> 0%F ->
  legal_with cf c bv ops -> agent_run cf ops = Ok (a, evs) ->
  AInv K St In Au Ac zero_x cf cap True c bv a (spec_of ops).
Proof.
  intros WF HF HD HL E.
  destruct (agent_run_ok K St In Au Ac W pol init_int zero_x cf cap True c bv WF
    (fun _ => HF) (fun _ => HD) ops HL) as [(e & _ & E')|(a' & evs' & E' & HI & _)]; rewrite E in E'; [discriminate|].
  injection E' as <- <-. exact HI.
Qed.

(** With constant settings, the estimates in the memory are those of the complete
    episodes, however the episodes were observed; and those of the stored part of the
    episode in progress are already those of the complete episode, whatever follows. *)
Theorem C13_stored_estimates : forall cf cap c bv ops a evs, wf_config cf cap -> fits cf c ->
  rc_discount K c <> 0%F -> legal_with cf c bv ops -> agent_run cf ops = Ok (a, evs) ->
  let fin := sp_fin (spec_of ops) in
  let open := s_open (sp_st (spec_of ops) 0) in
  exists calls sts part,
    Forall (legal_call (cf_memcap cf)) calls /\ qrun zero (cf_memcap cf) calls = Ok (m_mem (a_m a)) /\
    log_of calls = concat sts ++ part /\ Forall2 (stored_as c bv) fin sts /\
    map xt part = firstn (length part) (map xt open) /\
    forall rest, map er part = firstn (length part) (estimates_of c bv (open ++ rest)).
Proof.
  intros cf cap c bv ops a evs WF HF HD HL E fin open.
  destruct (legal_with_inv _ _ _ _ _ _ _ WF HF HD HL E) as [_ (d & HI)].
  pose proof (li_m _ _ _ _ _ _ _ _ _ _ _ _ _ _ HI) as HM.
  destruct (mi_log _ _ _ _ _ _ _ _ _ _ _ _ _ _ HM) as (sts & part & (calls & H1 & H2 & H3) & H4 & H5).
  exists calls, sts, part. split; [exact H1|]. split; [exact H2|]. split; [exact H3|]. split.
  { fold fin in H4. clear - H4. induction H4 as [|ep st fin sts [Hs Hr] _ IH]; constructor; [|exact IH].
    split; [exact Hs|]. rewrite <- stored_rewards_estimates. exact (Hr I). }
  destruct (circular cf) eqn:Ecirc; [|subst part; split; [reflexivity|]; intros; reflexivity].
  destruct H5 as (start & Hs & (P1 & P2 & P3 & P4)). fold open in P2, P3, P4. split; [exact P3|].
  specialize (P4 I). intros rest. pose proof (circular_par cf Ecirc) as (_ & _ & Heh).
  unfold fits in HF. rewrite Heh in HF. destruct HF as (h & Eh & Hh).
  apply nth_error_ext. intros k. destruct (Nat.lt_ge_cases k (length part)) as [Hk|Hk].
  2: { rewrite (proj2 (nth_error_None _ _)) by (rewrite map_length; lia).
       symmetry. apply nth_error_None. rewrite firstn_length. lia. }
  destruct (P4 k Hk) as [Hlt Hv]. unfold horizon_of in Hlt, Hv. rewrite Eh in Hlt, Hv.
  rewrite nth_error_firstn by exact Hk.
  rewrite <- stored_rewards_estimates. unfold stored_rewards. cbv zeta.
  rewrite tabulate_nth by (rewrite app_length; lia).
  unfold horizon_of. rewrite Eh.
  rewrite (part_value K St In Au Ac zero_x bv c open rest _ k (Z.to_nat h) (last (ts_of (open ++ rest)) 0) eq_refl) in Hv by lia.
  rewrite <- Hv. unfold at_. change (AgentInv.rs_of K St In Au Ac part) with (map er part).
  erewrite nth_error_nth'; [reflexivity|]. rewrite map_length. exact Hk.
Qed.

(** The same estimates as computed in one go for the complete episode (agent.experience). *)
Theorem C13_one_go : forall c bv xs rs ts, wf_conf K c -> rc_discount K c <> 0%F ->
  length rs = length xs -> length ts = length xs -> xs <> [] ->
  (rc_trace K c <> None -> (2 <= length xs)%nat) ->
  episode_returns K X bv c xs rs ts = Ok (episode_estimates c bv xs rs (last ts 0)).
Proof.
  intros c bv xs rs ts Hc HD Hr Ht Hn H2.
  assert (1 <= length xs)%nat as H1 by (destruct xs; [contradiction|cbn; lia]).
  rewrite (episode_returns_ok K X bv c xs rs ts (last ts 0) (length xs)); auto.
  - f_equal. unfold episode_estimates, ret, rews, vals, final_reward, used_values, horizon_of, effective_horizon. cbv zeta.
    rewrite Hr. destruct (rc_trace K c); reflexivity.
  - destruct (list_rev_destruct ts) as [->|(pre & t & ->)]; [cbn in Ht; lia|]. rewrite last_last.
    rewrite app_length in Ht. cbn [length] in Ht.
    rewrite nth_error_app2 by lia. replace (length xs - 1 - length pre)%nat with O by lia. reflexivity.
Qed.

Lemma stored_as_unique c bv ep st st' : stored_as c bv ep st -> stored_as c bv ep st' -> st = st'.
Proof.
  intros [H1 H2] [H3 H4]. rewrite <- H3 in H1. rewrite <- H4 in H2. clear H3 H4. revert st' H1 H2.
  induction st as [|[[x r] t] st IH]; intros [|[[x' r'] t'] st'] H1 H2; try discriminate; [reflexivity|].
  cbn [map] in *. injection H1 as Ex Et H1. injection H2 as Er H2. unfold AgentInv.ex, AgentInv.et, er in *. cbn [fst snd] in *.
  subst. f_equal. now apply IH.
Qed.

(** Any two agents with the same settings and the same finished episodes have the same
    timesteps and estimates of them in memory: horizon buffering, observation buffering
    and the number of parallel streams make no difference. *)
Theorem C13_chunking_irrelevant : forall cf1 cap1 cf2 cap2 c bv ops1 ops2 a1 a2 evs1 evs2,
  wf_config cf1 cap1 -> wf_config cf2 cap2 -> fits cf1 c -> fits cf2 c -> rc_discount K c <> 0%F ->
  legal_with cf1 c bv ops1 -> legal_with cf2 c bv ops2 ->
  agent_run cf1 ops1 = Ok (a1, evs1) -> agent_run cf2 ops2 = Ok (a2, evs2) ->
  sp_fin (spec_of ops1) = sp_fin (spec_of ops2) ->
  exists stored calls1 part1 calls2 part2,
    qrun zero (cf_memcap cf1) calls1 = Ok (m_mem (a_m a1)) /\ log_of calls1 = stored ++ part1 /\
    qrun zero (cf_memcap cf2) calls2 = Ok (m_mem (a_m a2)) /\ log_of calls2 = stored ++ part2 /\
    map xt stored = map xt (concat (sp_fin (spec_of ops1))).
Proof.
  intros cf1 cap1 cf2 cap2 c bv ops1 ops2 a1 a2 evs1 evs2 W1 W2 F1 F2 HD L1 L2 E1 E2 Ef.
  destruct (C13_stored_estimates _ _ _ _ _ _ _ W1 F1 HD L1 E1) as (calls1 & sts1 & part1 & _ & Q1 & G1 & S1 & _).
  destruct (C13_stored_estimates _ _ _ _ _ _ _ W2 F2 HD L2 E2) as (calls2 & sts2 & part2 & _ & Q2 & G2 & S2 & _).
  rewrite <- Ef in S2.
  assert (sts1 = sts2) as <-.
  { clear - S1 S2. revert sts2 S2. induction S1 as [|ep st fin sts Hs _ IH]; intros sts2 S2; inversion S2; subst; [reflexivity|].
    f_equal; [eapply stored_as_unique; eauto|]. now apply IH. }
  exists (concat sts1), calls1, part1, calls2, part2. repeat (split; [assumption|]).
  clear - S1. induction S1 as [|ep st fin sts [Hs _] _ IH]; [reflexivity|]. cbn [concat]. rewrite !map_app, IH. f_equal. exact Hs.
Qed.

(** ** C17 *)
Notation pa := (pa St Au W).
Notation po := (po K St In Au Ac).
Notation fl := (fl K St In Au Ac).

Theorem C17_act_after_observe : forall cf ops items r, agent_run cf (ops ++ [OAct items]) = Ok r ->
  forall it, List.In it items -> pending_after (pa it) ops = false.
Proof.
  intros cf ops items r H it Hin. apply agent_run_snoc in H as (a & evs & a' & ev & E & E' & _).
  cbn [AgentModel.agent_step] in E'. binv E'. destruct v as [a1 xs].
  destruct (run_flags _ _ _ _ _ _ _ _ _ _ _ _ _ E) as [HL HG].
  pose proof (act_inv K St In Au Ac W pol init_int cf _ _ _ _ E0) as (HF & _).
  rewrite Forall_forall in HF. specialize (HF it Hin).
  assert (in_range cf (pa it)) as Hr by (apply gather_range in HF; unfold in_range; lia).
  rewrite (HG _ Hr) in HF. injection HF as HF. now apply negb_true_iff in HF.
Qed.

Theorem C17_observe_after_act : forall cf ops items r, agent_run cf (ops ++ [OObserve items]) = Ok r ->
  forall it, List.In it items -> pending_after (po it) ops = true.
Proof.
  intros cf ops items r H it Hin. apply agent_run_snoc in H as (a & evs & a' & ev & E & E' & _).
  cbn [AgentModel.agent_step] in E'. binv E'. destruct v as [a1 xs].
  destruct (run_flags _ _ _ _ _ _ _ _ _ _ _ _ _ E) as [HL HG].
  apply observe_inv in E0 as (_ & HF & _).
  rewrite Forall_forall in HF. specialize (HF it Hin).
  assert (in_range cf (po it)) as Hr by (apply gather_range in HF; unfold in_range; lia).
  rewrite (HG _ Hr) in HF. injection HF as HF. now apply negb_false_iff in HF.
Qed.

Lemma completed_gathers cf ops a evs ps : agent_run cf ops = Ok (a, evs) -> Forall (in_range cf) ps ->
  gathers (a_completed a) ps = Ok (map (fun p => negb (pending_after p ops)) ps).
Proof.
  intros E HF. destruct (run_flags _ _ _ _ _ _ _ _ _ _ _ _ _ E) as [_ HG]. rewrite Forall_forall in HF.
  apply gathers_ok. intros p Hp. apply HG. apply HF. exact Hp.
Qed.

(** The calls out of order fail, with the message meant for it, and before anything
    happened. *)
Theorem C17_act_rejected : forall cf ops items a evs, agent_run cf ops = Ok (a, evs) ->
  Forall (fun it => in_range cf (pa it)) items -> (exists it, List.In it items /\ pending_after (pa it) ops = true) ->
  agent_step cf a (OAct items) = Err "Calling agent.act must be preceded by agent.observe".
Proof.
  intros cf ops items a evs E HF (it & Hin & Hp). cbn [AgentModel.agent_step]. unfold agent_act.
  change (map (fun it : Z * St * Au * W => fst (fst (fst it))) items) with (map pa items).
  rewrite (completed_gathers _ _ _ _ _ E) by (rewrite Forall_forall in *; intros p Hpp; apply in_map_iff in Hpp as (i & <- & Hi); auto).
  cbn [bind]. replace (forallb _ _) with false; [reflexivity|].
  symmetry. apply not_true_iff_false. rewrite forallb_forall. intros C.
  specialize (C (negb (pending_after (pa it) ops))). rewrite Hp in C. discriminate C.
  rewrite <- Hp. apply in_map_iff. exists (pa it). split; [now rewrite Hp|]. now apply in_map.
Qed.

Theorem C17_observe_rejected : forall cf ops items a evs, agent_run cf ops = Ok (a, evs) ->
  Forall (fun it => in_range cf (po it)) items -> (exists it, List.In it items /\ pending_after (po it) ops = false) ->
  agent_step cf a (OObserve items) = Err "Calling agent.observe must be preceded by agent.act.".
Proof.
  intros cf ops items a evs E HF (it & Hin & Hp). cbn [AgentModel.agent_step]. unfold agent_observe.
  change (map (fun it : Z * Z * K * oracle => fst (fst (fst it))) items) with (map po items).
  rewrite (completed_gathers _ _ _ _ _ E) by (rewrite Forall_forall in *; intros p Hpp; apply in_map_iff in Hpp as (i & <- & Hi); auto).
  assert (len items =? 0 = false) as -> by (destruct items; [contradiction|reflexivity]).
  cbn [negb assert_ bind]. replace (existsb _ _) with true; [reflexivity|].
  symmetry. apply existsb_exists. exists true. split; [|reflexivity].
  apply in_map_iff. exists (po it). split; [now rewrite Hp|]. now apply in_map.
Qed.

(** ** C18 *)

(** The agent passes on to its model exactly the buffered calls: the model object is
    in the state those calls lead to, and the agent keeps what is not passed on yet. *)
Theorem C18_passes_on : forall cf ops a evs, agent_run cf ops = Ok (a, evs) ->
  let fc := flush (cf_bo cf) ops in
  model_run K St In Au Ac W pol init_int zero_x cf (snd fc) = Ok (a_m a) /\
  forall p, 0 <= p < cf_par cf ->
    gather (a_tbuf a) p = Ok (map fst (fst fc p)) /\ gather (a_rbuf a) p = Ok (map snd (fst fc p)).
Proof.
  intros cf ops a evs E fc. destruct (run_kept _ _ _ _ _ _ _ _ _ _ _ _ _ E) as (H1 & _ & _ & H2). auto.
Qed.

(** Nothing is lost, repeated or reordered. *)
Theorem C18_exactly_once : forall (bo : option Z) (ops : list op) p,
  forallb (fun x => negb (is_reset K St In Au Ac W x)) ops = true ->
  concat (batches_of p (snd (flush bo ops))) ++ fst (flush bo ops) p = observed p ops.
Proof. intros bo ops p. apply flush_sent. Qed.

(** A batch has at most one terminal, which comes last; it ends the episode or is
    exactly as large as configured.  What is kept is smaller, and nothing is kept when
    an episode has ended. *)
Theorem C18_batches : forall (bo : option Z) (ops : list op) p,
  (forall n, bo = Some n -> 1 <= n) ->
  Forall (fun b => exists pre t r, b = pre ++ [(t, r)] /\ Forall (fun e => fst e = 0) pre /\
            (forall n, bo = Some n -> len b <= n) /\ (t = 0 -> bo = Some (len b)))
         (batches_of p (snd (flush bo ops))) /\
  Forall (fun e => fst e = 0) (fst (flush bo ops) p) /\
  (forall n, bo = Some n -> len (fst (flush bo ops) p) < n).
Proof.
  intros bo ops p Hb. destruct (flush_shape K St In Au Ac W bo ops p) as [[K1 K2] HF]. split; [|split; [exact K1|]].
  - eapply Forall_impl; [|exact HF]. intros b (pre & t & r & -> & H1 & H2 & H3). exists pre, t, r.
    rewrite app_length in *. cbn [length] in *.
    split; [reflexivity|]. split; [exact H1|]. split.
    + intros n Hn. specialize (H2 n Hn). specialize (Hb n Hn). lia.
    + intros Ht. destruct (H3 Ht) as (n & Hn & Hle). specialize (H2 n Hn). specialize (Hb n Hn). rewrite Hn. f_equal. lia.
  - intros n Hn. specialize (K2 n Hn). specialize (Hb n Hn). lia.
Qed.

Theorem C18_flushed_at_end : forall (bo : option Z) (ops : list op) items p t r o,
  List.In (p, t, r, o) items -> NoDup (map po items) -> t <> 0 ->
  fst (flush bo (ops ++ [OObserve items])) p = [].
Proof. intros bo ops items p t r o H1 H2 H3. eapply flush_terminal; eauto. Qed.

(** ** C19 *)

(** The counters of the agent and of its model, after any history that did not fail. *)
Theorem C19_counters : forall cf ops a evs, agent_run cf ops = Ok (a, evs) ->
  a_timesteps a = total_acts ops /\ m_timesteps (a_m a) = total_acts ops /\
  a_episodes a = total_episodes ops /\ m_episodes (a_m a) = total_episodes ops /\
  a_updates a = updates_of evs /\ m_updates (a_m a) = updates_of evs.
Proof. intros cf ops a evs E. exact (run_syn _ _ _ _ _ _ _ _ _ _ _ _ _ E). Qed.

(** ** C20 *)

Notation stream := (stream K St In Au Ac).
Notation pcall := (pcall K St Au W).

(** One stream on its own. *)
Lemma spec_act_stream p items : forall sp,
  sp_st (fold_left (spec_act pol) items sp) p =
  fst (fold_left (stream_call pol init_int) (calls_of p (OAct items : op)) (sp_st sp p, [])).
Proof.
  induction items as [|[[[q st] au] w] items IH]; intros sp; [reflexivity|].
  cbn [fold_left]. rewrite IH. cbn [calls_of flat_map]. rewrite fold_left_app. f_equal.
  destruct (Z.eqb_spec q p) as [->|N]; cbn [fold_left stream_call fst snd spec_act sp_st]; unfold set_stream.
  - now rewrite Z.eqb_refl.
  - destruct (Z.eqb_spec p q); [congruence|reflexivity].
Qed.

Lemma stream_call_fst (cs : list pcall) : forall s l1 l2,
  fst (fold_left (stream_call pol init_int) cs (s, l1)) = fst (fold_left (stream_call pol init_int) cs (s, l2)).
Proof.
  induction cs as [|c cs IH]; intros s l1 l2; [reflexivity|]. cbn [fold_left].
  destruct c as [st au w|t r]; cbn [stream_call fst snd]; [apply IH|].
  destruct (stream_observe init_int s t r) as [s' f]. apply IH.
Qed.

Lemma spec_observe_stream p items : forall sp,
  sp_st (fold_left (spec_observe init_int) items sp) p =
  fst (fold_left (stream_call pol init_int) (calls_of p (OObserve items : op)) (sp_st sp p, [])).
Proof.
  induction items as [|[[[q t] r] o] items IH]; intros sp; [reflexivity|].
  cbn [fold_left]. rewrite IH. cbn [calls_of flat_map]. rewrite fold_left_app.
  cbn [spec_observe]. destruct (Z.eqb_spec q p) as [->|N]; cbn [fold_left stream_call fst snd sp_st].
  - destruct (stream_observe init_int (sp_st sp p) t r) as [s' f]. cbn [sp_st]. unfold set_stream. rewrite Z.eqb_refl. apply stream_call_fst.
  - destruct (stream_observe init_int (sp_st sp q) t r) as [s' f]. cbn [sp_st]. unfold set_stream.
    destruct (Z.eqb_spec p q); [congruence|reflexivity].
Qed.

Lemma stream_of_app (cs1 cs2 : list pcall) : fst (stream_of pol init_int (cs1 ++ cs2)) =
  fst (fold_left (stream_call pol init_int) cs2 (fst (stream_of pol init_int cs1), [])).
Proof.
  unfold stream_of. rewrite fold_left_app.
  destruct (fold_left (stream_call pol init_int) cs1 _) as [s l]. apply stream_call_fst.
Qed.

(** The state of a stream follows from its own calls. *)
Lemma spec_stream (ops : list op) p : sp_st (spec_of ops) p = fst (stream_of pol init_int (flat_map (calls_of p) ops)).
Proof.
  induction ops as [|x ops IH] using rev_ind; [reflexivity|].
  unfold AgentSpec.spec_of. rewrite fold_left_app. cbn [fold_left]. fold (spec_of ops).
  rewrite flat_map_app. cbn [flat_map]. rewrite app_nil_r, stream_of_app, <- IH.
  destruct x as [items|items|items|os items|o|]; cbn [spec_op]; try reflexivity.
  - apply spec_act_stream.
  - apply spec_observe_stream.
Qed.

Definition event_acts (p : Z) (e : event) : list X :=
  match e with
  | AgentModel.EAct _ _ _ _ _ l => flat_map (fun px => if fst px =? p then [snd px] else []) l
  | _ => []
  end.

Lemma acts_call_stream (cs : list pcall) : forall s l l',
  fst (fold_left (acts_call pol init_int) cs (s, l)) = fst (fold_left (stream_call pol init_int) cs (s, l')).
Proof.
  induction cs as [|c cs IH]; intros s l l'; [reflexivity|]. cbn [fold_left].
  destruct c as [st au w|t r]; cbn [acts_call stream_call fst snd]; [apply IH|].
  destruct (stream_observe init_int s t r) as [s' f]. cbn [fst]. apply IH.
Qed.
Lemma acts_call_snd (cs : list pcall) : forall s l,
  snd (fold_left (acts_call pol init_int) cs (s, l)) = l ++ snd (fold_left (acts_call (K:=K) pol init_int) cs (s, [])).
Proof.
  induction cs as [|c cs IH]; intros s l; cbn [fold_left snd]; [now rewrite app_nil_r|].
  destruct c as [st au w|t r]; cbn [acts_call fst snd].
  - rewrite IH. rewrite (IH _ ([] ++ _)). cbn [app]. rewrite <- app_assoc. reflexivity.
  - apply IH.
Qed.

Lemma acts_of_app (cs1 cs2 : list pcall) : acts_of pol init_int (cs1 ++ cs2) = acts_of pol init_int cs1 ++
  snd (fold_left (acts_call pol init_int) cs2 (fst (stream_of pol init_int cs1), [])).
Proof.
  unfold acts_of. rewrite fold_left_app.
  rewrite (surjective_pairing (fold_left (acts_call pol init_int) cs1 (idle init_int, []))).
  rewrite acts_call_snd. cbn [snd]. f_equal. unfold stream_of. rewrite (acts_call_stream cs1 _ [] []). reflexivity.
Qed.

Lemma event_acts_step cf C c bv sp x ev p : legal_op K St In Au Ac W cf C c bv sp x -> event_of K St In Au Ac W pol sp x ev ->
  event_acts p ev = snd (fold_left (acts_call pol init_int) (calls_of p x) (sp_st sp p, [])).
Proof.
  intros HL He. destruct x as [items|items|items|os items|o|]; cbn [event_of legal_op calls_of] in *.
  - subst ev. destruct HL as [ND _]. cbn [event_acts].
    change (map (AgentInv.ap St Au W) items) with (map pa items) in ND.
    induction items as [|[[[q st] au] w] items IH]; [reflexivity|].
    cbn [map] in ND |- *. apply NoDup_cons_iff in ND as [Hn ND]. specialize (IH ND). cbn [flat_map fst snd].
    change (AgentInv.ap St Au W (q, st, au, w)) with q. unfold AgentRuns.pa at 1 in Hn. cbn [fst] in Hn.
    destruct (Z.eqb_spec q p) as [->|N]; [|exact IH].
    assert (forall B (g : Z * St * Au * W -> list B) (h : Z * St * Au * W -> list B), 
      (forall it, pa it <> p -> g it = []) -> flat_map g items = []) as Hnil.
    { intros B g _ Hg. clear - Hn Hg. induction items as [|it items IH]; [reflexivity|]. cbn [flat_map map] in *.
      rewrite Hg by (intros C; apply Hn; now left). apply IH. intros C. apply Hn. now right. }
    cbn [app fold_left acts_call fst snd].
    rewrite (Hnil _ (fun it => let '(q, st, au, w) := it in if q =? p then [PAct st au w] else []) (fun _ => [])).
    2: { intros [[[q' st'] au'] w'] N. unfold AgentRuns.pa in N. cbn [fst] in N. destruct (Z.eqb_spec q' p); [contradiction|reflexivity]. }
    cbn [fold_left snd]. 
    rewrite flat_map_concat_map, map_map, <- flat_map_concat_map.
    rewrite (Hnil _ _ (fun _ => [])); [reflexivity|].
    intros [[[q' st'] au'] w'] N. unfold AgentRuns.pa in N. cbn [fst snd] in *. change (AgentInv.ap St Au W (q', st', au', w')) with q'.
    destruct (Z.eqb_spec q' p); [contradiction|reflexivity].
  - subst ev. reflexivity.
  - destruct He as (u & _ & ->). cbn [event_acts].
    generalize (sp_st sp p) as s0. clear. induction items as [|[[[q t] r] o] items IH]; intros s0; [reflexivity|].
    cbn [flat_map]. rewrite fold_left_app. destruct (q =? p); cbn [fold_left acts_call fst snd]; apply IH.
  - subst ev. reflexivity.
  - subst ev. reflexivity.
  - subst ev. reflexivity.
Qed.

Lemma events_acts cf C c bv ops : forall sp evs p, legal_from K St In Au Ac W pol init_int cf C c bv sp ops ->
  events_of K St In Au Ac W pol init_int sp ops evs ->
  flat_map (event_acts p) evs = snd (fold_left (acts_call pol init_int) (flat_map (calls_of p) ops) (sp_st sp p, [])).
Proof.
  induction ops as [|x ops IH]; intros sp evs p HL He; destruct evs as [|ev evs]; cbn [events_of legal_from] in *; try contradiction.
  - reflexivity.
  - destruct HL as [H1 H2], He as [E1 E2]. cbn [flat_map]. rewrite fold_left_app.
    rewrite (event_acts_step _ _ _ _ _ _ _ p H1 E1).
    rewrite (IH _ _ p H2 E2).
    assert (sp_st (spec_op pol init_int sp x) p = fst (fold_left (acts_call pol init_int) (calls_of p x) (sp_st sp p, []))) as Es.
    { rewrite (acts_call_stream _ _ [] []).
      destruct x as [items|items|items|os items|o|]; cbn [spec_op]; try reflexivity.
      - apply spec_act_stream.
      - apply spec_observe_stream. }
    rewrite Es. destruct (fold_left (acts_call pol init_int) (calls_of p x) (sp_st sp p, [])) as [s1 l1].
    cbn [fst snd]. symmetry. apply acts_call_snd.
Qed.

(** What a stream's acts return follows from that stream's own calls. *)
Theorem C20_actions_of_own_calls : forall cf cap ops a evs p, wf_config cf cap -> legal cf ops ->
  agent_run cf ops = Ok (a, evs) ->
  flat_map (event_acts p) evs = acts_of pol init_int (flat_map (calls_of p) ops).
Proof.
  intros cf cap ops a evs p WF HL E. destruct (legal_run_inv _ _ _ _ _ WF HL E) as [_ He].
  exact (events_acts _ _ _ _ _ _ _ p HL He).
Qed.

(** Two agents (same policy; parallel streams may differ) with the same calls on a stream: same actions. *)
Theorem C20_other_streams_irrelevant : forall cf1 cap1 cf2 cap2 ops1 ops2 a1 a2 evs1 evs2 p q,
  wf_config cf1 cap1 -> wf_config cf2 cap2 -> legal cf1 ops1 -> legal cf2 ops2 ->
  agent_run cf1 ops1 = Ok (a1, evs1) -> agent_run cf2 ops2 = Ok (a2, evs2) ->
  flat_map (calls_of p) ops1 = flat_map (calls_of q) ops2 ->
  flat_map (event_acts p) evs1 = flat_map (event_acts q) evs2.
Proof.
  intros cf1 cap1 cf2 cap2 ops1 ops2 a1 a2 evs1 evs2 p q W1 W2 L1 L2 E1 E2 Hc.
  rewrite (C20_actions_of_own_calls _ _ _ _ _ p W1 L1 E1), (C20_actions_of_own_calls _ _ _ _ _ q W2 L2 E2), Hc. reflexivity.
Qed.

(** The finished episodes are, stream by stream, those of the stream's own calls:
    they are labelled with their stream such that each stream has its own, in order. *)
Lemma label_observe items : forall (L : list (Z * list tstep)) (sp : spec K St In Au Ac) (fins : Z -> list (list tstep)),
  sp_fin sp = map snd L -> (forall p, map snd (filter (fun e => fst e =? p) L) = fins p) ->
  exists L', sp_fin (fold_left (spec_observe init_int) items sp) = map snd L' /\
    forall p, map snd (filter (fun e => fst e =? p) L') =
      snd (fold_left (stream_call pol init_int) (calls_of p (OObserve items : op)) (sp_st sp p, fins p)).
Proof.
  induction items as [|[[[q t] r] o] items IH]; intros L sp fins HL HF.
  - exists L. split; [exact HL|exact HF].
  - cbn [fold_left calls_of flat_map].
    destruct (stream_observe init_int (sp_st sp q) t r) as [s' f] eqn:Eo.
    destruct (IH (L ++ map (pair q) f) (spec_observe init_int sp (q, t, r, o))
                 (fun p => if q =? p then fins p ++ f else fins p)) as (L' & HL' & HF').
    + cbn [spec_observe]. rewrite Eo. cbn [sp_fin]. rewrite HL, map_app, map_map. cbn [snd]. now rewrite map_id.
    + intros p. rewrite filter_app, map_app, HF. destruct (Z.eqb_spec q p) as [->|N].
      * f_equal. clear. induction f as [|y f IHf]; [reflexivity|]. cbn [map filter fst]. rewrite Z.eqb_refl. cbn [map snd]. now rewrite IHf.
      * replace (map snd (filter (fun e => fst e =? p) (map (pair q) f))) with (@nil (list tstep)); [now rewrite app_nil_r|].
        clear - N. induction f as [|y f IHf]; [reflexivity|]. cbn [map filter fst]. destruct (Z.eqb_spec q p); [contradiction|]. exact IHf.
    + exists L'. split; [exact HL'|]. intros p. rewrite HF', fold_left_app. cbn [spec_observe]. rewrite Eo. cbn [sp_st]. unfold set_stream.
      destruct (Z.eqb_spec q p) as [->|N].
      * rewrite Z.eqb_refl. cbn [fold_left stream_call fst snd]. rewrite Eo. reflexivity.
      * destruct (Z.eqb_spec p q); [congruence|]. reflexivity.
Qed.

Theorem C20_episodes_of_own_calls : forall (ops : list op),
  forallb (fun x => match x with OExperience _ _ => false | _ => true end) ops = true ->
  exists L, sp_fin (spec_of ops) = map snd L /\
    forall p, map snd (filter (fun e => fst e =? p) L) = snd (stream_of pol init_int (flat_map (calls_of p) ops)).
Proof.
  induction ops as [|x ops IH] using rev_ind; intros H.
  - exists []. split; [reflexivity|]. reflexivity.
  - rewrite forallb_app in H. apply andb_true_iff in H as [H Hx]. destruct (IH H) as (L & HL & HF).
    assert (forall p, stream_of pol init_int (flat_map (calls_of p) (ops ++ [x])) =
              fold_left (stream_call pol init_int) (calls_of p x)
                (sp_st (spec_of ops) p, snd (stream_of pol init_int (flat_map (calls_of p) ops)))) as Es.
    { intros p. rewrite flat_map_app. cbn [flat_map]. rewrite app_nil_r. unfold stream_of at 1. rewrite fold_left_app.
      f_equal. rewrite spec_stream. apply surjective_pairing. }
    unfold AgentSpec.spec_of. rewrite fold_left_app. cbn [fold_left]. fold (spec_of ops).
    destruct x as [items|items|items|os items|o|]; cbn [spec_op];
      try (exists L; split; [exact HL|]; intros p; rewrite Es; exact (HF p)).
    + exists L. split.
      * rewrite <- HL. generalize (spec_of ops) as sp. clear. induction items as [|[[[q st] au] w] items IHi]; intros sp; [reflexivity|].
        cbn [fold_left]. rewrite IHi. reflexivity.
      * intros p. rewrite Es, HF. generalize (sp_st (spec_of ops) p) (snd (stream_of pol init_int (flat_map (calls_of p) ops))).
        clear. intros s l. revert s. cbn [calls_of]. induction items as [|[[[q st] au] w] items IHi]; intros s; [reflexivity|].
        cbn [flat_map]. rewrite fold_left_app. destruct (q =? p); cbn [fold_left stream_call fst snd]; apply IHi.
    + destruct (label_observe items L (spec_of ops) _ HL HF) as (L' & HL' & HF'). exists L'. split; [exact HL'|].
      intros p. rewrite Es. apply HF'.
    + discriminate.
Qed.

(** ** C21 *)

(** The episode length and return kept by the model are the number and the sum of the
    rewards of the observations passed on to it; together with those the agent still
    keeps, of all observed in the episode. *)
Theorem C21_length_and_return : forall cf cap ops a evs p, wf_config cf cap -> legal cf ops ->
  agent_run cf ops = Ok (a, evs) -> 0 <= p < cf_par cf ->
  let rewards := map er (s_open (sp_st (spec_of ops) p)) in
  exists passed kept, rewards = passed ++ kept /\
    gather (m_len (a_m a)) p = Ok (len passed) /\ gather (m_ret (a_m a)) p = Ok (fsum passed) /\
    gather (a_rbuf a) p = Ok kept /\ gather (a_tbuf a) p = Ok (map (fun _ => 0) kept).
Proof.
  intros cf cap ops a evs p WF HL E Hp rewards.
  destruct (legal_run_inv _ _ _ _ _ WF HL E) as [[_ (d & HI)] _].
  pose proof (li_m _ _ _ _ _ _ _ _ _ _ _ _ _ _ HI) as HM.
  destruct (mi_rows _ _ _ _ _ _ _ _ _ _ _ _ _ _ HM p Hp) as (r & Hr & HR).
  apply row_at_ok in Hr. destruct Hr as (_ & _ & _ & _ & _ & R1 & R2 & _).
  pose proof (mr_b _ _ _ _ _ _ _ _ _ _ HR) as HB.
  exists (firstn (d p) rewards), (skipn (d p) rewards).
  split; [now rewrite firstn_skipn|].
  pose proof (mr_d _ _ _ _ _ _ _ _ _ _ HB) as Hd.
  rewrite R1, R2, (mr_len _ _ _ _ _ _ _ _ _ _ HR), (mr_ret _ _ _ _ _ _ _ _ _ _ HR).
  rewrite (li_rb _ _ _ _ _ _ _ _ _ _ _ _ _ _ HI p Hp), (li_tb _ _ _ _ _ _ _ _ _ _ _ _ _ _ HI p Hp).
  split; [|split; [reflexivity|split; [reflexivity|]]].
  - f_equal. unfold rewards. rewrite firstn_length, map_length. lia.
  - f_equal. pose proof (mr_flags _ _ _ _ _ _ _ _ _ _ HB) as HF. unfold rewards, AgentInv.ts_of. clear - HF.
    revert HF. generalize (s_open (sp_st (spec_of ops) p)) as l. intros l HF. rewrite !skipn_map, map_map.
    assert (Forall (fun e => AgentInv.et K St In Au Ac e = 0) (skipn (d p) l)) as HF'.
    { rewrite Forall_forall in *. intros e He. apply HF. rewrite <- (firstn_skipn (d p) l). apply in_or_app. now right. }
    clear HF. revert HF'. generalize (skipn (d p) l). induction l0 as [|e l0 IH]; intros HF; [reflexivity|].
    cbn [map]. rewrite (Forall_inv HF), (IH (Forall_inv_tail HF)). reflexivity.
Qed.

(** Hence, when an episode ends, the values after adding the last batch (which are
    reported, core/models/model.py 696-747) are those of the complete episode. *)
Theorem C21_complete_at_end : forall cf cap ops a evs p x, wf_config cf cap -> legal cf ops ->
  agent_run cf ops = Ok (a, evs) -> 0 <= p < cf_par cf ->
  s_pend (sp_st (spec_of ops) p) = Some x ->
  forall t r, t <> 0 ->
  exists n s kept ep, gather (m_len (a_m a)) p = Ok n /\ gather (m_ret (a_m a)) p = Ok s /\ gather (a_rbuf a) p = Ok kept /\
    snd (stream_observe init_int (sp_st (spec_of ops) p) t r) = [ep] /\
    n + len (kept ++ [r]) = len ep /\ fadd s (fsum (kept ++ [r])) = fsum (map er ep).
Proof.
  intros cf cap ops a evs p x WF HL E Hp Hx t r Ht.
  destruct (C21_length_and_return _ _ _ _ _ p WF HL E Hp) as (passed & kept & E1 & E2 & E3 & E4 & _). cbv zeta in E1.
  unfold stream_observe. rewrite Hx. replace (t =? 0) with false by lia. cbn [snd].
  exists (len passed), (fsum passed), kept. eexists. split; [exact E2|]. split; [exact E3|]. split; [exact E4|]. split; [reflexivity|].
  apply (f_equal (@length K)) in E1 as El. rewrite map_length, app_length in El. split.
  - rewrite !app_length. cbn [length]. lia.
  - rewrite map_app. cbn [map]. unfold er at 2. cbn [fst snd]. rewrite E1. rewrite <- app_assoc. symmetry. apply fsum_app.
Qed.

(** Between episodes both are zero. *)
Theorem C21_zero_between : forall cf cap ops a evs p, wf_config cf cap -> legal cf ops ->
  agent_run cf ops = Ok (a, evs) -> 0 <= p < cf_par cf -> s_open (sp_st (spec_of ops) p) = [] ->
  gather (m_len (a_m a)) p = Ok 0 /\ gather (m_ret (a_m a)) p = Ok (0%F : K).
Proof.
  intros cf cap ops a evs p WF HL E Hp Ho.
  destruct (C21_length_and_return _ _ _ _ _ p WF HL E Hp) as (passed & kept & E1 & E2 & E3 & _). cbv zeta in E1.
  rewrite Ho in E1. cbn [map] in E1. symmetry in E1. apply app_eq_nil in E1 as [-> _]. auto.
Qed.

End AgentProps.

(** ** Examples *)

(** A test for the rules, for use in examples (histories without [OExperience]). *)
Section LegalTest.
Variable K : field.
Variables St In Au Ac W : Type.
Variable pol : W -> St -> In -> Au -> Ac * In.
Variable init_int : In.
Notation oracle := (oracle K St In Au Ac).
Notation op := (op K St In Au Ac W oracle).
Notation o_rc := (o_rc K St In Au Ac).
Variable cf : config.

Fixpoint nodupb (l : list Z) : bool :=
  match l with [] => true | x :: r => negb (existsb (Z.eqb x) r) && nodupb r end.
Definition oracleb (o : oracle) : bool :=
  match rc_trace K (o_rc o) with Some _ => rc_early K (o_rc o) | None => true end &&
  match rc_horizon K (o_rc o) with
  | None => cf_ephor cf
  | Some h => negb (cf_ephor cf) && (1 <=? h) && (h <=? cf_hmax cf)
  end.
Definition legal_opb (sp : spec K St In Au Ac) (x : op) : bool :=
  match x with
  | OAct items =>
      nodupb (map (fun it => fst (fst (fst it))) items) &&
      forallb (fun it => let p := fst (fst (fst it)) in
        (0 <=? p) && (p <? cf_par cf) && match s_pend (sp_st sp p) with None => true | _ => false end &&
        match cf_maxep cf with None => true | Some M => Z.of_nat (length (s_open (sp_st sp p))) <? M end) items
  | OIndAct _ => true
  | OObserve items =>
      match items with [] => false | _ => true end && nodupb (map (fun it => fst (fst (fst it))) items) &&
      forallb (fun it => let '(p, t, _, o) := it in
        (0 <=? p) && (p <? cf_par cf) && match s_pend (sp_st sp p) with None => false | _ => true end &&
        (0 <=? t) && (t <=? 2) && oracleb o &&
        match rc_trace K (o_rc o), s_open (sp_st sp p) with Some _, [] => t =? 0 | _, _ => true end) items
  | OExperience _ _ => false
  | OUpdate o => oracleb o
  | OReset => forallb (fun p => match s_open (sp_st sp p), s_pend (sp_st sp p) with [], None => true | _, _ => false end)
                      (zrange 0 (cf_par cf))
  end.
Fixpoint legalb (sp : spec K St In Au Ac) (ops : list op) : bool :=
  match ops with [] => true | x :: r => legal_opb sp x && legalb (spec_op pol init_int sp x) r end.

Lemma nodupb_ok l : nodupb l = true -> NoDup l.
Proof.
  induction l as [|x l IH]; intros H; constructor; cbn [nodupb] in H; apply andb_true_iff in H as [H1 H2]; auto.
  intros Hin. apply negb_true_iff in H1. apply not_true_iff_false in H1. apply H1. apply existsb_exists. exists x. split; [exact Hin|lia].
Qed.
Lemma oracleb_ok o c bv : oracleb o = true -> legal_oracle K St In Au Ac cf False c bv o.
Proof.
  unfold oracleb, legal_oracle, wf_conf. intros H. apply andb_true_iff in H as [H1 H2].
  destruct (rc_trace K (o_rc o)), (rc_horizon K (o_rc o)) as [h|], (cf_ephor cf); cbn [negb andb] in H2; try discriminate;
    (split; [split; [congruence || tauto|lia || exact I]|split; [reflexivity || (exists h; split; [reflexivity|lia])|tauto]]).
Qed.
Lemma legalb_ok c bv ops : forall sp, legalb sp ops = true ->
  legal_from K St In Au Ac W pol init_int cf False c bv sp ops.
Proof.
  induction ops as [|x ops IH]; intros sp H; [exact I|]. cbn [legalb] in H. apply andb_true_iff in H as [Hx H].
  split; [|apply IH; exact H]. clear IH H.
  destruct x as [items|items|items|os items|o|]; cbn [legal_opb legal_op] in *; [| exact I | | discriminate | now apply oracleb_ok |].
  - apply andb_true_iff in Hx as [H1 H2]. split; [now apply nodupb_ok in H1|]. rewrite forallb_forall in H2. apply Forall_forall.
    intros it Hin. specialize (H2 it Hin). cbv zeta in H2. unfold act_ok, AgentInv.ap.
    apply andb_true_iff in H2 as [H2 H4]. apply andb_true_iff in H2 as [H2 H3]. split; [lia|].
    split; [destruct (s_pend _); [discriminate|reflexivity]|]. intros M HM. rewrite HM in H4. lia.
  - apply andb_true_iff in Hx as [H1 H2]. apply andb_true_iff in H1 as [H0 H1].
    split; [intros ->; discriminate|]. split; [now apply nodupb_ok in H1|]. rewrite forallb_forall in H2. apply Forall_forall.
    intros [[[p t] r] o] Hin. specialize (H2 _ Hin). cbv beta iota in H2. unfold obs_ok.
    do 6 (apply andb_true_iff in H2 as [H2 ?]). split; [lia|]. split; [destruct (s_pend _); congruence|]. split; [lia|].
    split; [now apply oracleb_ok|]. intros Ht Htr Ho. rewrite Ho in *. destruct (rc_trace K (o_rc o)); [lia|congruence].
  - rewrite forallb_forall in Hx. intros p Hp. assert (List.In p (zrange 0 (cf_par cf))) as Hin by (apply in_zrange; lia).
    specialize (Hx p Hin). destruct (s_open _), (s_pend _); try discriminate. auto.
Qed.
End LegalTest.

(** Integer states, recurrent states (counting the timesteps of the episode), actions
    and policy parameters. *)
Definition xpol (w s i : Z) (_ : unit) : Z * Z := (s + 10 * i + 100 * w, i + 1).
Definition xzero : X Z Z unit Z := mkX 0 0 tt 0.
Notation xop := (op Qc_field Z Z unit Z Z (oracle Qc_field Z Z unit Z)).
Definition xrun (cf : config) (ops : list xop) := agent_run Qc_field Z Z unit Z Z xpol 0 xzero cf ops.
Notation xlegal cf := (legal_run Qc_field Z Z unit Z Z xpol 0 cf False (any_conf Qc_field) (fun _ => 0%F)).
Definition xspec (ops : list xop) := spec_of xpol 0 ops.
Definition xo (h : option Z) : oracle Qc_field Z Z unit Z :=
  {| o_rc := ex_conf h true false None; o_bval := fun x => qc (x_state x);
     o_freq := 1; o_start := 0; o_past := 0; o_future := 0 |}.
Definition xact (p s : Z) : Z * Z * unit * Z := (p, s, tt, 1).
Definition xobs (h : option Z) (p t r : Z) : Z * Z * Qc_field * oracle Qc_field Z Z unit Z := (p, t, qc r, xo h).

(** Two streams, buffers passed on at the end of an episode. *)
Definition cf_two : config :=
  {| cf_par := 2; cf_maxep := Some 3; cf_bo := None; cf_ephor := true; cf_hmax := 1; cf_memcap := 9;
     cf_unit_ts := false; cf_freq := Some 1 |}.
Definition ops_two : list xop :=
  [OAct [xact 0 1; xact 1 2]; OObserve [xobs None 1 0 5; xobs None 0 1 3]; OAct [xact 0 3]; OAct [xact 1 4];
   OObserve [xobs None 1 2 7]; OIndAct [(8, 9, tt, 0)]; OObserve [xobs None 0 0 9]; OAct [xact 1 5; xact 0 6]].
(** One stream, two observations at a time, horizon 2: a circular buffer. *)
Definition cf_one : config :=
  {| cf_par := 1; cf_maxep := None; cf_bo := Some 2; cf_ephor := false; cf_hmax := 2; cf_memcap := 9;
     cf_unit_ts := false; cf_freq := Some 1 |}.
Definition step_one (s t r : Z) : list xop := [OAct [xact 0 s]; OObserve [xobs (Some 2) 0 t r]].
Definition ops_one : list xop :=
  step_one 1 0 1 ++ step_one 2 0 2 ++ step_one 3 0 3 ++ step_one 4 0 4 ++ step_one 5 0 5 ++ step_one 6 1 6 ++ step_one 7 0 7.

Example cf_two_wf : wf_config cf_two 3.
Proof. split; cbn; try lia; try discriminate; reflexivity. Qed.
Example cf_one_wf : wf_config cf_one 4.
Proof. split; cbn; try lia; try discriminate; try reflexivity. intros b H. injection H as <-. lia. Qed.
Example ops_two_legal : xlegal cf_two ops_two.
Proof. apply legalb_ok. vm_compute. reflexivity. Qed.
Example ops_one_legal : xlegal cf_one ops_one.
Proof. apply legalb_ok. vm_compute. reflexivity. Qed.

Definition states_of (l : list (X Z Z unit Z * Qc_field * Z)) : list Z := map (fun e => x_state (fst (fst e))) l.

Definition in_memory (a : astate Qc_field Z Z unit Z) : list Z :=
  map (fun e => x_state (fst e)) (q_pay (m_mem _ _ _ _ _ (a_m _ _ _ _ _ a))).

(** A property of what a run leads to; rewards are compared by their value. *)
Definition after {A} (r : res A) (P : A -> Prop) : Prop := match r with Ok x => P x | Err _ => False end.
Ltac run_tac := vm_compute; repeat split; reflexivity.

(** The memory gets the finished episodes in the order in which they finished. *)
Example C16_example :
  after (xrun cf_two ops_two) (fun '(a, evs) =>
    map states_of (sp_fin (xspec ops_two)) = [[1]; [2; 4]] /\ in_memory a = [1; 2; 4; 0; 0; 0; 0; 0; 0]) /\
  after (xrun cf_one ops_one) (fun '(a, evs) =>
    map states_of (sp_fin (xspec ops_one)) = [[1; 2; 3; 4; 5; 6]] /\
    states_of (s_open (sp_st (xspec ops_one) 0)) = [7] /\ in_memory a = [1; 2; 3; 4; 5; 6; 0; 0; 0]).
Proof. run_tac. Qed.

(** Observations in pairs, or all of an episode at once: the same rewards are stored. *)
Definition stored_rewards_of (a : astate Qc_field Z Z unit Z) : list Q :=
  map (fun e => this (snd e)) (q_pay (m_mem _ _ _ _ _ (a_m _ _ _ _ _ a))).
Definition cf_one' : config :=
  {| cf_par := 1; cf_maxep := Some 9; cf_bo := None; cf_ephor := false; cf_hmax := 2; cf_memcap := 9;
     cf_unit_ts := false; cf_freq := Some 1 |}.
Example cf_one'_wf : wf_config cf_one' 9.
Proof. split; cbn; try lia; try discriminate; reflexivity. Qed.
Example ops_one_fixed : legal_run Qc_field Z Z unit Z Z xpol 0 cf_one True (o_rc _ _ _ _ _ (xo (Some 2))) (fun x => qc (x_state x)) ops_one.
Proof.
  assert (forall sp, legalb Qc_field Z Z unit Z Z xpol 0 cf_one sp ops_one = true ->
    legal_from Qc_field Z Z unit Z Z xpol 0 cf_one True (o_rc _ _ _ _ _ (xo (Some 2))) (fun x => qc (x_state x)) sp ops_one) as H.
  { assert (Forall (fun x => match x with OObserve items => Forall (fun it => snd it = xo (Some 2)) items | OExperience _ _ | OUpdate _ => False | _ => True end) ops_one) as HF
      by (repeat constructor).
    revert HF. generalize ops_one. induction l as [|x l IH]; intros HF sp H; [exact I|].
    pose proof (legalb_ok _ _ _ _ _ _ xpol 0 cf_one (any_conf Qc_field) (fun _ => 0%F) (x :: l) sp H) as [H1 _].
    cbn [legalb] in H. apply andb_true_iff in H as [_ H]. pose proof (Forall_inv HF) as Hx. split; [|exact (IH (Forall_inv_tail HF) _ H)].
    destruct x as [items|items|items|os items|o|]; cbn [legal_op] in *; try exact H1; try contradiction.
    destruct H1 as (A & B & C). split; [exact A|]. split; [exact B|]. rewrite Forall_forall in *. intros [[[p t] r] o] Hin.
    specialize (C _ Hin). specialize (Hx _ Hin). unfold obs_ok in *. cbn [snd] in Hx. subst o.
    destruct C as (C1 & C2 & C3 & (C4 & C5 & _) & C6). repeat (split; [assumption|]). split; [|exact C6].
    split; [exact C4|]. split; [exact C5|]. auto. }
  apply H. vm_compute. reflexivity.
Qed.
Example C13_example :
  after (xrun cf_one ops_one) (fun '(a, _) => after (xrun cf_one' ops_one) (fun '(a', _) =>
    firstn 6 (stored_rewards_of a) = firstn 6 (stored_rewards_of a') /\
    firstn 6 (stored_rewards_of a) = map this [Q2Qc (11 # 4); Q2Qc (9 # 2); Q2Qc (25 # 4); qc 8; qc 8; qc 6]%Q)).
Proof. run_tac. Qed.

(** A second act, and an observe without an act, are rejected. *)
Example C17_example :
  pending_after 0 ops_two = true /\ pending_after 1 ops_one = false /\ pending_after 0 ops_one = false /\
  xrun cf_two (ops_two ++ [OAct [xact 0 1]]) = Err "Calling agent.act must be preceded by agent.observe" /\
  xrun cf_one (ops_one ++ [OObserve [xobs (Some 2) 0 0 1]]) = Err "Calling agent.observe must be preceded by agent.act.".
Proof. run_tac. Qed.

(** Seven observations, passed on in pairs, one of which ends the episode. *)
Example C18_example :
  let fc := flush (cf_bo cf_one) ops_one in
  map (map fst) (batches_of 0 (snd fc)) = [[0; 0]; [0; 0]; [0; 1]] /\ map fst (fst fc 0) = [0] /\
  let fc2 := flush (cf_bo cf_two) ops_two in
  map (map fst) (batches_of 0 (snd fc2)) = [[1]] /\ map (map fst) (batches_of 1 (snd fc2)) = [[0; 2]] /\ map fst (fst fc2 0) = [0] /\
  fst (flush (cf_bo cf_two) (ops_two ++ [OObserve [xobs None 0 1 4]])) 0 = [].
Proof. run_tac. Qed.

Example C19_example :
  after (xrun cf_two ops_two) (fun '(a, evs) =>
    a_timesteps _ _ _ _ _ a = 6 /\ a_episodes _ _ _ _ _ a = 2 /\ a_updates _ _ _ _ _ a = 2 /\ updates_of _ _ _ _ _ evs = 2).
Proof. run_tac. Qed.

(** Stream 1 among two, and the same calls alone on stream 0 of a single-stream agent. *)
Definition cf_alone : config :=
  {| cf_par := 1; cf_maxep := Some 3; cf_bo := None; cf_ephor := true; cf_hmax := 1; cf_memcap := 9;
     cf_unit_ts := false; cf_freq := Some 1 |}.
Definition ops_alone : list xop :=
  [OAct [xact 0 2]; OObserve [xobs None 0 0 5]; OAct [xact 0 4]; OObserve [xobs None 0 2 7]; OAct [xact 0 5]].
Example C20_example :
  wf_config cf_alone 3 /\ xlegal cf_alone ops_alone /\
  flat_map (calls_of 1) ops_two = flat_map (calls_of 0) ops_alone /\
  after (xrun cf_two ops_two) (fun '(a, evs) =>
    flat_map (event_acts Qc_field Z Z unit Z 1) evs = [mkX 2 0 tt 102; mkX 4 1 tt 114; mkX 5 0 tt 105]) /\
  after (xrun cf_alone ops_alone) (fun '(a, evs) =>
    flat_map (event_acts Qc_field Z Z unit Z 0) evs = [mkX 2 0 tt 102; mkX 4 1 tt 114; mkX 5 0 tt 105]).
Proof.
  split; [split; cbn; try lia; try discriminate; reflexivity|]. split; [apply legalb_ok; vm_compute; reflexivity|]. run_tac.
Qed.

(** In the middle of an episode of two timesteps, observed in pairs of which none is
    passed on yet; and at its end. *)
Example C21_example :
  let ops3 := step_one 1 0 1 ++ step_one 2 0 2 ++ step_one 3 0 3 in
  xlegal cf_one ops3 /\
  after (xrun cf_one ops3) (fun '(a, evs) =>
    m_len _ _ _ _ _ (a_m _ _ _ _ _ a) = [2] /\ map this (m_ret _ _ _ _ _ (a_m _ _ _ _ _ a)) = [this (qc 3)] /\
    map (map this) (a_rbuf _ _ _ _ _ a) = [[this (qc 3)]]) /\
  xlegal cf_one (firstn 12 ops_one) /\
  s_open (sp_st (xspec (firstn 12 ops_one)) 0) = [] /\
  after (xrun cf_one (firstn 12 ops_one)) (fun '(a, evs) =>
    m_len _ _ _ _ _ (a_m _ _ _ _ _ a) = [0] /\ map this (m_ret _ _ _ _ _ (a_m _ _ _ _ _ a)) = [0%Q]).
Proof.
  split; [apply legalb_ok; vm_compute; reflexivity|]. split; [run_tac|].
  split; [apply legalb_ok; vm_compute; reflexivity|]. run_tac.
Qed.

Print Assumptions C16_accepted.
Print Assumptions C16_every_timestep_once.
Print Assumptions C13_stored_estimates.
Print Assumptions C13_one_go.
Print Assumptions C13_chunking_irrelevant.
Print Assumptions C17_act_after_observe.
Print Assumptions C17_observe_after_act.
Print Assumptions C17_act_rejected.
Print Assumptions C17_observe_rejected.
Print Assumptions C18_passes_on.
Print Assumptions C18_exactly_once.
Print Assumptions C18_batches.
Print Assumptions C18_flushed_at_end.
Print Assumptions C19_counters.
Print Assumptions C20_actions_of_own_calls.
Print Assumptions C20_other_streams_irrelevant.
Print Assumptions C20_episodes_of_own_calls.
Print Assumptions C21_length_and_return.
Print Assumptions C21_complete_at_end.
Print Assumptions C21_zero_between.
