(** Facts about every successful run of the agent (AgentModel.v), legal or not:
    counters, protocol flags, recurrent state, time of updates. *)

From Coq Require Import String List ZArith Lia Bool.
From Coq Require Import ZifyBool ZifyNat.
From Verif Require Import Base BaseFacts Field MemSpec MemModel MemProofs
  RetSpec RetModel RetProofs AgentSpec AgentModel AgentProofs AgentInv.
Import ListNotations.
Open Scope Z_scope.

Lemma bind_inv {A B} (e : res A) (f : A -> res B) y : (do x <- e; f x) = Ok y ->
  exists x, e = Ok x /\ f x = Ok y.
Proof. destruct e as [x|]; [|discriminate]. cbn [bind]. eauto. Qed.

Lemma assert_inv c e (u : unit) : assert_ c e = Ok u -> c = true.
Proof. unfold assert_. destruct c; [reflexivity|discriminate]. Qed.

Ltac binv H :=
  let x := fresh "v" in let E := fresh "E" in
  apply bind_inv in H; destruct H as (x & E & H); cbv beta in H.

Section AgentRuns.
Variable K : field.
Variables St In Au Ac W : Type.
Variable pol : W -> St -> In -> Au -> Ac * In.
Variable init_int : In.
Notation X := (X St In Au Ac).
Notation tstep := (X * K * Z)%type.
Variable zero_x : X.
Variable cf : config.

Notation oracle := (oracle K St In Au Ac).
Notation mstate := (mstate K St In Au Ac).
Notation astate := (astate K St In Au Ac).
Notation op := (op K St In Au Ac W oracle).
Notation event := (event K St In Au Ac).
Notation m_timesteps := (m_timesteps K St In Au Ac).
Notation m_episodes := (m_episodes K St In Au Ac).
Notation m_updates := (m_updates K St In Au Ac).
Notation m_len := (m_len K St In Au Ac).
Notation m_ret := (m_ret K St In Au Ac).
Notation m_int := (m_int K St In Au Ac).
Notation m_last := (m_last K St In Au Ac).
Notation m_mem := (m_mem K St In Au Ac).
Notation a_completed := (a_completed K St In Au Ac).
Notation a_counter := (a_counter K St In Au Ac).
Notation a_tbuf := (a_tbuf K St In Au Ac).
Notation a_rbuf := (a_rbuf K St In Au Ac).
Notation a_timesteps := (a_timesteps K St In Au Ac).
Notation a_episodes := (a_episodes K St In Au Ac).
Notation a_updates := (a_updates K St In Au Ac).
Notation a_m := (a_m K St In Au Ac).

(** What buffering and storing leave alone. *)
Definition rest (m : mstate) :=
  (m_timesteps m, m_episodes m, m_updates m, m_last m, (m_int m, m_len m, m_ret m)).

Lemma mem_enqueue_rest m xs rs ts m' : mem_enqueue K St In Au Ac m xs rs ts = Ok m' -> rest m' = rest m.
Proof. unfold mem_enqueue. intros H. binv H. binv H. binv H. injection H as <-. reflexivity. Qed.

Lemma core_experience_rest o m xs ts rs m' : core_experience K St In Au Ac o m xs ts rs = Ok m' -> rest m' = rest m.
Proof. unfold core_experience. intros H. binv H. eapply mem_enqueue_rest; eauto. Qed.

Lemma write_observed_rest m p is ts rs m' : write_observed K St In Au Ac m p is ts rs = Ok m' -> rest m' = rest m.
Proof. unfold write_observed. intros H. binv H. binv H. injection H as <-. reflexivity. Qed.

Lemma nonterminal_experience_rest o c m p s i h n m' :
  nonterminal_experience K St In Au Ac o c m p s i h n = Ok m' -> rest m' = rest m.
Proof.
  unfold nonterminal_experience. intros H. do 9 binv H. apply mem_enqueue_rest in E7. binv H. injection H as <-. exact E7.
Qed.

Lemma observe_nonterminal_rest o m p ts rs m' :
  observe_nonterminal K St In Au Ac cf o m p ts rs = Ok m' -> rest m' = rest m.
Proof.
  unfold observe_nonterminal. intros H. binv H. destruct (cf_bo cf) as [bo|].
  - destruct (rc_horizon K (o_rc K St In Au Ac o)) as [h|], (buffer_capacity cf) as [c|]; try discriminate;
      (destruct (cf_ephor cf || (1 <? cf_par cf)); [now apply write_observed_rest in H|]); try discriminate.
    binv H. binv H. apply write_observed_rest in E1. destruct (0 <? v - v0 - h).
    + apply nonterminal_experience_rest in H. congruence.
    + injection H as <-. exact E1.
  - binv H. injection H as <-. reflexivity.
Qed.

Lemma observe_terminal_rest o m p ts rs m' :
  observe_terminal K St In Au Ac cf o m p ts rs = Ok m' -> rest m' = rest m.
Proof.
  unfold observe_terminal. intros H. binv H. binv H. binv H. binv H. injection H as <-.
  change (rest v1 = rest m). destruct (cf_bo cf) as [bo|].
  - destruct (buffer_capacity cf) as [c|]; [|discriminate]. binv E1. binv E1.
    destruct (cf_ephor cf || (1 <? cf_par cf)); [now apply core_experience_rest in E1|].
    do 5 binv E1. apply core_experience_rest in E9. binv E1. injection E1 as <-. exact E9.
  - now apply core_experience_rest in E1.
Qed.

(** The units counted for the update condition, from the counters. *)
Definition units_at (o : oracle) (timesteps episodes : Z) (terminal : bool) : Z :=
  let start := o_start K St In Au Ac o in
  if cf_unit_ts cf then
    let start := Z.max start (o_freq K St In Au Ac o + o_past K St In Au Ac o) in
    let start :=
      match cf_ephor cf, rc_horizon K (o_rc K St In Au Ac o) with
      | false, Some h => if 0 <? episodes then 0 else start + 2 * h
      | _, _ => Z.max start (if 0 <? episodes then start else timesteps + 1)
      end in
    let start :=
      match cf_bo cf with
      | None => Z.max start (if 0 <? episodes then start else timesteps + 1)
      | Some bo => Z.max start bo
      end in
    timesteps - start
  else episodes + (if terminal then 1 else 0) - Z.max start (o_freq K St In Au Ac o).

Definition int_row (p : Z) (t : bool) (l : list In) : list In :=
  if t then update_nth l (Z.to_nat p) init_int else l.

Lemma core_update_inv o m m' : core_update K St In Au Ac cf o m = Ok m' ->
  m_timesteps m' = m_timesteps m /\ m_episodes m' = m_episodes m /\ m_updates m' = m_updates m + 1 /\
  m_last m' = m_last m /\ m_int m' = m_int m /\ m_len m' = m_len m /\ m_ret m' = m_ret m /\ m_mem m' = m_mem m.
Proof. unfold core_update. intros H. binv H. injection H as <-. repeat split. Qed.

Lemma periodic_inv o m t m' u : periodic_update K St In Au Ac cf o m t = Ok (m', u) ->
  m_timesteps m' = m_timesteps m /\ m_episodes m' = m_episodes m /\
  m_updates m' = m_updates m + (if u : bool then 1 else 0) /\ m_int m' = m_int m /\
  m_len m' = m_len m /\ m_ret m' = m_ret m /\ m_mem m' = m_mem m /\
  (let units := units_at o (m_timesteps m) (m_episodes m) t in
   if u then m_last m + o_freq K St In Au Ac o <= units /\ m_last m' = units
   else m_last m' = m_last m /\ (cf_freq cf <> None -> units < m_last m + o_freq K St In Au Ac o)).
Proof.
  unfold periodic_update. intros H. destruct (cf_freq cf) as [f|].
  - change (update_units K St In Au Ac cf o m t) with (units_at o (m_timesteps m) (m_episodes m) t) in H.
    destruct (Z.leb_spec (m_last m + o_freq K St In Au Ac o) (units_at o (m_timesteps m) (m_episodes m) t)) as [Hl|Hl].
    + binv H. injection H as <- <-. apply core_update_inv in E as (E1 & E2 & E3 & E4 & E5 & E6 & E7 & E8).
      do 7 (split; [assumption|]). split; [exact Hl|exact E4].
    + injection H as <- <-. do 7 (split; [lia || reflexivity|]). split; [reflexivity|]. intros _. exact Hl.
  - injection H as <- <-. do 7 (split; [lia || reflexivity|]). split; [reflexivity|]. congruence.
Qed.

(** A successful model.observe. *)
Lemma model_observe_inv o m ts rs p m' u :
  model_observe K St In Au Ac init_int cf o m ts rs p = Ok (m', u) ->
  exists pre t, ts = pre ++ [t] /\ length rs = length ts /\ Forall (fun t => t = 0) pre /\ 0 <= t <= 2 /\
    0 <= p < cf_par cf /\
    m_timesteps m' = m_timesteps m /\
    m_episodes m' = m_episodes m + (if 0 <? t then 1 else 0) /\
    m_updates m' = m_updates m + (if u : bool then 1 else 0) /\
    m_int m' = int_row p (0 <? t) (m_int m) /\ (0 <? t = true -> 0 <= p < len (m_int m)) /\
    (let units := units_at o (m_timesteps m) (m_episodes m) (0 <? t) in
     if u then m_last m + o_freq K St In Au Ac o <= units /\ m_last m' = units
     else m_last m' = m_last m /\ (cf_freq cf <> None -> units < m_last m + o_freq K St In Au Ac o)).
Proof.
  unfold model_observe. intros H. binv H.
  apply bind_inv in H as (u1 & A1 & H). apply bind_inv in H as (u2 & A2 & H).
  apply bind_inv in H as (u3 & A3 & H). apply bind_inv in H as (u4 & A4 & H).
  apply bind_inv in H as (u5 & A5 & H).
  apply assert_inv in A1, A2, A3, A4, A5. binv H. binv H. binv H. destruct v2 as [m2 w].
  destruct (list_rev_destruct ts) as [->|(pre & t & ->)]; [discriminate|].
  rewrite last_ok in E. injection E as <-.
  exists pre, t. split; [reflexivity|]. apply Z.eqb_eq in A2.
  split; [lia|].
  assert (0 <= t <= 2) as Ht.
  { rewrite forallb_app in A1. apply andb_true_iff in A1 as [_ A1]. cbn [forallb] in A1. lia. }
  split.
  { (* at most one nonzero flag, which is last *)
    rewrite count_nonzero_app in A4, A5.
    assert (count_nonzero pre = 0) as Hz.
    { unfold count_nonzero in *. cbn [filter] in *. destruct (Z.eqb_spec t 0) as [->|Nt]; cbn [negb length] in *.
      - destruct (Z.ltb_spec 0 0); [lia|]. destruct (length (filter (fun t => negb (t =? 0)) pre)); [reflexivity|].
        exfalso. cbn [eqb] in A5. lia.
      - lia. }
    clear - Hz. induction pre as [|y pre IH]; [constructor|]. unfold count_nonzero in Hz. cbn [filter] in Hz.
    destruct (Z.eqb_spec y 0) as [->|N]; cbn [negb length] in Hz; [|lia]. constructor; [reflexivity|].
    apply IH. unfold count_nonzero. exact Hz. }
  split; [exact Ht|]. split; [lia|].
  unfold core_observe in E2. binv E2.
  assert (last (0 :: pre ++ [t]) 0 = t) as El by (rewrite app_comm_cons; apply last_last). rewrite El in E, E2.
  set (m1 := {| AgentModel.m_timesteps := _ |}) in *.
  assert (rest v = rest m1) as Hr.
  { destruct (0 <? t); [eapply observe_terminal_rest; eauto|eapply observe_nonterminal_rest; eauto]. }
  injection Hr as R1 R2 R3 R4 R5 R6 R7.
  apply periodic_inv in E2 as (P1 & P2 & P3 & P4 & P5 & P6 & P7 & P8).
  rewrite R1, R2, R4 in P8. unfold m1 in *. cbn [AgentModel.m_timesteps AgentModel.m_episodes AgentModel.m_updates AgentModel.m_int AgentModel.m_last] in *.
  destruct (0 <? t) eqn:Et.
  - binv H. binv H. binv H. injection H as <- <-. cbn [AgentModel.m_timesteps AgentModel.m_episodes AgentModel.m_updates AgentModel.m_int AgentModel.m_last].
    split; [congruence|]. split; [congruence|]. split; [congruence|].
    assert (0 <= p < len (m_int m2)) as Hp.
    { cbn [scatter] in E2. destruct ((p <? 0) || (len (m_int m2) <=? p)) eqn:Eb; [discriminate|lia]. }
    rewrite scatter_one in E2 by exact Hp. injection E2 as <-.
    split; [unfold int_row; congruence|]. split; [intros _; congruence|]. exact P8.
  - injection H as <- <-. split; [congruence|]. split; [lia|]. split; [congruence|].
    split; [unfold int_row; congruence|]. split; [discriminate|]. exact P8.
Qed.

(** ** Calls *)
Notation agent_observe_one := (agent_observe_one K St In Au Ac init_int cf).
Notation agent_observe := (agent_observe K St In Au Ac init_int cf).
Notation model_observe := (model_observe K St In Au Ac init_int cf).
Notation agent_step := (agent_step K St In Au Ac W pol init_int cf).
Notation agent_run_from := (agent_run_from K St In Au Ac W pol init_int cf).
Notation agent_run := (agent_run K St In Au Ac W pol init_int zero_x cf).
Notation event_updates := (event_updates K St In Au Ac).
Notation updates_of := (updates_of K St In Au Ac).

Lemma scatter_one_inv {A} (l : list A) p u l' : scatter l [p] [u] = Ok l' ->
  0 <= p < len l /\ l' = update_nth l (Z.to_nat p) u.
Proof.
  cbn [scatter]. destruct ((p <? 0) || (len l <=? p)) eqn:Eb; [discriminate|].
  intros H. injection H as <-. split; [lia|reflexivity].
Qed.

(** One observation: kept by the agent, or delivered with all kept before. *)
Lemma observe_one_inv a n p t r o a' n' : agent_observe_one (a, n) (p, t, r, o) = Ok (a', n') ->
  exists tb rb, gather (a_tbuf a) p = Ok tb /\ gather (a_rbuf a) p = Ok rb /\
    a_completed a' = a_completed a /\ a_counter a' = a_counter a /\ a_timesteps a' = a_timesteps a /\
    ((t = 0 /\ (forall b, cf_bo cf = Some b -> len tb + 1 < b) /\
      a_tbuf a' = update_nth (a_tbuf a) (Z.to_nat p) (tb ++ [t]) /\
      a_rbuf a' = update_nth (a_rbuf a) (Z.to_nat p) (rb ++ [r]) /\
      a_m a' = a_m a /\ a_episodes a' = a_episodes a /\ a_updates a' = a_updates a /\ n' = n)
     \/
     ((t = 0 -> exists b, cf_bo cf = Some b /\ b <= len tb + 1) /\
      a_tbuf a' = update_nth (a_tbuf a) (Z.to_nat p) [] /\
      a_rbuf a' = update_nth (a_rbuf a) (Z.to_nat p) [] /\
      a_episodes a' = m_episodes (a_m a') /\ a_updates a' = m_updates (a_m a') /\
      exists u, model_observe o (a_m a) (tb ++ [t]) (rb ++ [r]) p = Ok (a_m a', u) /\
        n' = n + (if u : bool then 1 else 0))).
Proof.
  unfold AgentModel.agent_observe_one. intros H. binv H. binv H. exists v, v0. split; [exact E|]. split; [exact E0|].
  destruct ((t =? 0) && _) eqn:Ec.
  - binv H. binv H. injection H as <- <-. cbn.
    apply scatter_one_inv in E1 as [_ ->]. apply scatter_one_inv in E2 as [_ ->].
    apply andb_true_iff in Ec as [Et Eb]. apply Z.eqb_eq in Et. split; [reflexivity|]. split; [reflexivity|]. split; [reflexivity|].
    left. split; [exact Et|]. split; [|repeat split].
    intros b Hb. rewrite Hb, app_length in Eb. cbn [length] in Eb. lia.
  - binv H. binv H. binv H. destruct v3 as [m1 u]. injection H as <- <-. cbn.
    apply scatter_one_inv in E1 as [_ ->]. apply scatter_one_inv in E2 as [_ ->].
    split; [reflexivity|]. split; [reflexivity|]. split; [reflexivity|].
    right. split; [|split; [reflexivity|]; split; [reflexivity|]; split; [reflexivity|]; split; [reflexivity|]; exists u; auto].
    intros ->. cbn [Z.eqb andb] in Ec. destruct (cf_bo cf) as [b|]; [|discriminate]. exists b. split; [reflexivity|].
    rewrite app_length in Ec. cbn [length] in Ec. lia.
Qed.

(** Counters of the agent and of the model. *)
Definition Syn (a : astate) (T E U : Z) : Prop :=
  a_timesteps a = T /\ m_timesteps (a_m a) = T /\ a_episodes a = E /\ m_episodes (a_m a) = E /\
  a_updates a = U /\ m_updates (a_m a) = U.

Lemma ended_cons t ts : ended_of (t :: ts) = (if t =? 0 then 0 else 1) + ended_of ts.
Proof. unfold ended_of. cbn [filter]. destruct (t =? 0); cbn [negb length]; lia. Qed.

Lemma observe_one_syn a n it a' n' T E U : agent_observe_one (a, n) it = Ok (a', n') -> Syn a T E U ->
  Syn a' T (E + (if snd (fst (fst it)) =? 0 then 0 else 1)) (U + (n' - n)).
Proof.
  destruct it as [[[p t] r] o]. intros H (S1 & S2 & S3 & S4 & S5 & S6). cbn [fst snd].
  apply observe_one_inv in H as (tb & rb & _ & _ & _ & _ & Ets & [(Et & _ & _ & _ & Em & Ee & Eu & En)|(_ & _ & _ & Ee & Eu & u & Em & En)]).
  - subst t n'. rewrite Z.eqb_refl. unfold Syn. rewrite Em, Ets, Ee, Eu. repeat split; lia.
  - apply model_observe_inv in Em as (pre & t' & Eq & _ & _ & Ht & _ & M1 & M2 & M3 & _).
    apply app_inj_tail in Eq as [<- <-]. unfold Syn. rewrite Ee, Eu, M1, M2, M3, Ets.
    assert ((if 0 <? t then 1 else 0) = (if t =? 0 then 0 else 1)) as -> by (destruct (Z.ltb_spec 0 t), (Z.eqb_spec t 0); lia).
    repeat split; lia.
Qed.

Lemma observe_loop_syn items : forall a n a' n' T E U,
  fold_res agent_observe_one (a, n) items = Ok (a', n') -> Syn a T E U ->
  Syn a' T (E + ended_of (map (fun it => snd (fst (fst it))) items)) (U + (n' - n)).
Proof.
  induction items as [|it items IH]; intros a n a' n' T E U H HS; cbn [fold_res] in H.
  - injection H as <- <-. cbn. replace (E + 0) with E by lia. replace (U + (n - n)) with U by lia. exact HS.
  - binv H. destruct v as [a1 n1]. apply (observe_one_syn _ _ _ _ _ _ _ _ E0) in HS.
    specialize (IH _ _ _ _ _ _ _ H HS). cbn [map]. rewrite ended_cons.
    destruct IH as (I1 & I2 & I3 & I4 & I5 & I6). repeat split; try assumption; lia.
Qed.

Lemma experience_loop_syn os items : forall a seg k a' T E U,
  experience_loop K St In Au Ac os a seg items k = Ok a' -> Syn a T E U ->
  (items = [] -> seg = []) -> (items <> [] -> exists pre e, items = pre ++ [e] /\ snd e <> 0) ->
  Syn a' (T + len seg + len items) (E + ended_of (map snd items)) U.
Proof.
  induction items as [|e items IH]; intros a seg k a' T E U H HS Hn Hl; cbn [AgentModel.experience_loop] in H.
  - injection H as <-. rewrite (Hn eq_refl). cbn. replace (T + 0 + 0) with T by lia. replace (E + 0) with E by lia. exact HS.
  - assert (items <> [] -> exists pre e0, items = pre ++ [e0] /\ snd e0 <> 0) as Hl'.
    { intros N. destruct (Hl ltac:(discriminate)) as (pre & e0 & Ee & He0).
      destruct pre as [|y pre]; [injection Ee as E1 E2; contradiction|]. injection Ee as _ Ee. exists pre, e0. auto. }
    cbn [map]. rewrite ended_cons. destruct (Z.eqb_spec (snd e) 0) as [Ez|Ez].
    + eapply IH in H; [|exact HS| |exact Hl'].
      * rewrite app_length in H. cbn [length] in *. destruct H as (I1 & I2 & I3 & I4 & I5 & I6).
        repeat split; try assumption; lia.
      * intros ->. exfalso. destruct (Hl ltac:(discriminate)) as (pre & e0 & Ee & He0).
        destruct pre as [|y pre]; [injection Ee as <-; contradiction|]. destruct pre; discriminate.
    + binv H. apply (IH _ _ _ _ (T + len seg + 1) (E + 1) U) in H; [| |reflexivity|exact Hl'].
      * cbn [length] in *. destruct H as (I1 & I2 & I3 & I4 & I5 & I6). repeat split; try assumption; lia.
      * unfold model_experience in E0.
        apply bind_inv in E0 as (? & _ & E0). apply bind_inv in E0 as (? & _ & E0). apply bind_inv in E0 as (? & _ & E0).
        apply bind_inv in E0 as (? & _ & E0). apply bind_inv in E0 as (? & _ & E0). apply bind_inv in E0 as (? & _ & E0).
        apply bind_inv in E0 as (m1 & Ec & E0). injection E0 as <-. apply core_experience_rest in Ec.
        injection Ec as R1 R2 R3 R4 R5 R6 R7. destruct HS as (S1 & S2 & S3 & S4 & S5 & S6).
        unfold Syn. cbn. rewrite R1, R2, R3, map_length, app_length. cbn [length].
        repeat split; lia.
Qed.

Lemma last_map_inv {A B} (f : A -> B) l x : last_ (map f l) = Ok x -> exists pre e, l = pre ++ [e] /\ f e = x.
Proof.
  destruct (list_rev_destruct l) as [->|(pre & e & ->)]; [discriminate|]. rewrite map_app. cbn [map]. rewrite last_ok.
  intros H. injection H as <-. exists pre, e. auto.
Qed.

Lemma agent_step_syn a x a' ev T E U : agent_step a x = Ok (a', ev) -> Syn a T E U ->
  Syn a' (T + op_acts x) (E + op_episodes x) (U + event_updates ev).
Proof.
  intros H HS. pose proof HS as (S1 & S2 & S3 & S4 & S5 & S6).
  destruct x as [items|items|items|os items|o|]; cbn [AgentModel.agent_step op_acts op_episodes] in *.
  - binv H. destruct v as [a1 xs]. injection H as <- <-. unfold agent_act in E0. do 4 binv E0. destruct v2 as [m1 xs'].
    injection E0 as <- <-. unfold model_act in E4. do 3 binv E4. destruct v4 as [m2 outs].
    unfold core_act in E6. destruct (buffer_capacity cf); [|discriminate]. do 4 binv E6. injection E6 as <- <-.
    do 2 binv E4. injection E4 as <- <-. unfold Syn. cbn. repeat split; lia.
  - binv H. destruct v as [a1 outs]. injection H as <- <-. unfold agent_independent_act in E0. binv E0. destruct v as [m1 o1].
    injection E0 as <- <-. unfold model_independent_act in E1. cbn [AgentModel.core_act] in E1. injection E1 as <- <-.
    unfold Syn. cbn. repeat split; lia.
  - binv H. destruct v as [a1 u]. injection H as <- <-. unfold AgentModel.agent_observe in E0.
    apply bind_inv in E0 as (? & _ & E0). do 4 binv E0. binv E0. binv E0. 
    eapply observe_loop_syn in E0; [|exact (conj S1 (conj S2 (conj S3 (conj S4 (conj S5 S6)))))].
    destruct E0 as (I1 & I2 & I3 & I4 & I5 & I6). unfold Syn. cbn [AgentInv.event_updates]. repeat split; lia.
  - binv H. injection H as <- <-. unfold agent_experience in E0. binv E0. binv E0. binv E0.
    apply last_map_inv in E2 as (pre & e & -> & <-). apply assert_inv in E3.
    eapply experience_loop_syn in E0; [|exact HS|reflexivity|].
    + cbn [length AgentInv.event_updates] in *. destruct E0 as (I1 & I2 & I3 & I4 & I5 & I6). repeat split; lia.
    + intros _. exists pre, e. split; [reflexivity|]. lia.
  - binv H. injection H as <- <-. unfold agent_update in E0. binv E0. injection E0 as <-.
    apply core_update_inv in E1 as (C1 & C2 & C3 & _). unfold Syn. cbn. rewrite C1, C2, C3. repeat split; lia.
  - binv H. injection H as <- <-. unfold agent_reset in E0. binv E0. injection E0 as <-.
    unfold model_reset in E1. binv E1. injection E1 as <-. unfold Syn. cbn. repeat split; lia.
Qed.

Lemma agent_run_from_app ops1 : forall a ops2,
  agent_run_from a (ops1 ++ ops2) =
  do r1 <- agent_run_from a ops1; do r2 <- agent_run_from (fst r1) ops2; Ok (fst r2, snd r1 ++ snd r2).
Proof.
  induction ops1 as [|x ops1 IH]; intros a ops2; cbn [app AgentModel.agent_run_from].
  - cbn [bind fst snd]. destruct (agent_run_from a ops2) as [[a2 e2]|]; reflexivity.
  - destruct (agent_step a x) as [[a1 ev]|]; cbn [bind fst snd]; [|reflexivity]. rewrite IH.
    destruct (agent_run_from a1 ops1) as [[a2 e2]|]; cbn [bind fst snd]; [|reflexivity].
    destruct (agent_run_from a2 ops2) as [[a3 e3]|]; reflexivity.
Qed.

Lemma agent_run_snoc ops x r : agent_run (ops ++ [x]) = Ok r ->
  exists a evs a' ev, agent_run ops = Ok (a, evs) /\ agent_step a x = Ok (a', ev) /\ r = (a', evs ++ [ev]).
Proof.
  unfold AgentModel.agent_run. intros H. binv H. rewrite agent_run_from_app in H. binv H. destruct v0 as [a evs].
  cbn [fst snd AgentModel.agent_run_from] in H. binv H. binv E1. destruct v1 as [a' ev]. cbn [fst snd bind] in *.
  injection E1 as <-. injection H as <-. exists a, evs, a', ev. rewrite E. cbn [bind]. auto.
Qed.

(** Induction over successful runs. *)
Lemma run_ind (P : list op -> astate -> list event -> Prop) :
  (forall a, agent_initialize K St In Au Ac init_int zero_x cf = Ok a -> P [] a []) ->
  (forall ops a evs x a' ev, agent_run ops = Ok (a, evs) -> P ops a evs -> agent_step a x = Ok (a', ev) ->
     P (ops ++ [x]) a' (evs ++ [ev])) ->
  forall ops a evs, agent_run ops = Ok (a, evs) -> P ops a evs.
Proof.
  intros H0 HS ops. induction ops as [|x ops IH] using rev_ind; intros a evs H.
  - unfold AgentModel.agent_run in H. binv H. cbn in H. injection H as <- <-. apply H0. exact E.
  - apply agent_run_snoc in H as (a0 & evs0 & a' & ev & E1 & E2 & E). injection E as -> ->. eapply HS; eauto.
Qed.

Lemma initialize_inv a : agent_initialize K St In Au Ac init_int zero_x cf = Ok a ->
  exists f, cf_freq cf = Some f /\ Syn a 0 0 0 /\ m_last (a_m a) = - f /\
    a_completed a = repeat true (Z.to_nat (cf_par cf)) /\ a_counter a = repeat 0 (Z.to_nat (cf_par cf)) /\
    a_tbuf a = repeat [] (Z.to_nat (cf_par cf)) /\ a_rbuf a = repeat [] (Z.to_nat (cf_par cf)) /\
    m_int (a_m a) = repeat init_int (Z.to_nat (cf_par cf)).
Proof.
  unfold agent_initialize, model_initialize. intros H. destruct (buffer_capacity cf); [|discriminate].
  destruct (cf_freq cf) as [f|]; [|discriminate]. binv H. binv H. binv E. injection E as <-. injection H as <-.
  unfold model_reset in E0. binv E0. injection E0 as <-. exists f. cbn. repeat split.
Qed.

Lemma total_acts_snoc (ops : list op) x : total_acts (ops ++ [x]) = total_acts ops + op_acts x.
Proof. induction ops as [|y ops IH]; cbn [total_acts fold_right app]; [lia|]. fold (total_acts (ops ++ [x])). rewrite IH. unfold total_acts. lia. Qed.
Lemma total_episodes_snoc (ops : list op) x : total_episodes (ops ++ [x]) = total_episodes ops + op_episodes x.
Proof. induction ops as [|y ops IH]; cbn [total_episodes fold_right app]; [lia|]. fold (total_episodes (ops ++ [x])). rewrite IH. unfold total_episodes. lia. Qed.
Lemma updates_snoc evs ev : updates_of (evs ++ [ev]) = updates_of evs + event_updates ev.
Proof. induction evs as [|y evs IH]; cbn [AgentInv.updates_of fold_right app]; [lia|]. unfold AgentInv.updates_of in IH |- *. rewrite IH. lia. Qed.

Lemma run_syn ops a evs : agent_run ops = Ok (a, evs) -> Syn a (total_acts ops) (total_episodes ops) (updates_of evs).
Proof.
  revert ops a evs. apply run_ind.
  - intros a H. apply initialize_inv in H as (f & _ & HS & _). exact HS.
  - intros ops a evs x a' ev _ HS H. rewrite total_acts_snoc, total_episodes_snoc, updates_snoc.
    eapply agent_step_syn; eauto.
Qed.

(** ** Inversion of acts and observes *)
Notation act_item := (Z * St * Au * W)%type.
Notation obs_item := (Z * Z * K * oracle)%type.
Notation agent_act := (agent_act K St In Au Ac W pol cf).
Definition pa (it : act_item) : Z := fst (fst (fst it)).
Definition po (it : obs_item) : Z := fst (fst (fst it)).
Definition fl (it : obs_item) : Z := snd (fst (fst it)).

Lemma gathers_inv {A} (l : list A) is rs : gathers l is = Ok rs ->
  Forall2 (fun i r => gather l i = Ok r) is rs.
Proof.
  revert rs. induction is as [|i is IH]; intros rs H; unfold gathers in H; cbn [map_res] in H.
  - injection H as <-. constructor.
  - binv H. binv H. injection H as <-. constructor; [exact E|]. apply IH. exact E0.
Qed.

Definition int_of (a : astate) (p : Z) : In := match gather (m_int (a_m a)) p with Ok i => i | Err _ => init_int end.
Definition act_x (a : astate) (it : act_item) : X :=
  let '(p, st, au, w) := it in mkX st (int_of a p) au (fst (pol w st (int_of a p) au)).
Definition act_next (a : astate) (it : act_item) : In :=
  let '(p, st, au, w) := it in snd (pol w st (int_of a p) au).

Lemma gather_range {A} (l : list A) i x : gather l i = Ok x -> 0 <= i < len l.
Proof. apply BaseFacts.gather_range. Qed.

Lemma act_inv a items a' xs : agent_act a items = Ok (a', xs) ->
  Forall (fun it => gather (a_completed a) (pa it) = Ok true) items /\
  scatter (a_completed a) (map pa items) (map (fun _ => false) (map pa items)) = Ok (a_completed a') /\
  a_counter a' = a_counter a /\ a_tbuf a' = a_tbuf a /\ a_rbuf a' = a_rbuf a /\ m_last (a_m a') = m_last (a_m a) /\
  Forall (fun it => 0 <= pa it < len (m_int (a_m a))) items /\
  scatter (m_int (a_m a)) (map pa items) (map (act_next a) items) = Ok (m_int (a_m a')) /\
  xs = map (fun it => (pa it, act_x a it)) items.
Proof.
  unfold AgentModel.agent_act. change (map (fun it : act_item => fst (fst (fst it))) items) with (map pa items).
  intros H. do 4 binv H. destruct v2 as [m1 xs']. injection H as <- <-.
  cbn [AgentModel.a_completed AgentModel.a_counter AgentModel.a_tbuf AgentModel.a_rbuf AgentModel.a_m].
  split; [|split; [exact E1|]].
  - apply gathers_inv in E. apply assert_inv in E0. clear - E E0.
    revert v E E0. induction items as [|it items IH]; intros v E E0; [constructor|].
    cbn [map] in E. inversion E as [|? b ? ? H1 H2]; subst. cbn [forallb] in E0. apply andb_true_iff in E0 as [Hb E0].
    subst b. constructor; [exact H1|]. eapply IH; eauto.
  - unfold model_act in E2. change (map (fun it : act_item => fst (fst (fst it))) items) with (map pa items) in E2.
    binv E2.
    assert (v2 = map (fun it => int_of a (pa it)) items /\ Forall (fun it => 0 <= pa it < len (m_int (a_m a))) items) as [Ev HF].
    { apply gathers_inv in E3. clear - E3. revert v2 E3.
      induction items as [|it items IH]; intros v2 E3; cbn [map] in *; inversion E3 as [|? b ? ? H1 H2]; subst; [split; [reflexivity|constructor]|].
      destruct (IH _ H2) as [-> I2]. split; [|constructor; [eapply gather_range; eauto|exact I2]].
      f_equal. unfold int_of. now rewrite H1. }
    subst v2.
    set (st := fun it : act_item => snd (fst (fst it))).
    set (au := fun it : act_item => snd (fst it)).
    set (ii := fun it => int_of a (pa it)) in *.
    assert (vec2 (fun (it : act_item) (i : In) => let '(_, s, a0, w) := it in (s, i, a0, w)) items (map ii items)
          = Ok (map (fun it => (st it, ii it, au it, snd it)) items)) as Ev.
    { rewrite <- (map_id items) at 1. rewrite vec2_maps. f_equal.
      apply map_ext. intros [[[p s0] a0] w0]. reflexivity. }
    rewrite Ev in E2. cbn [bind] in E2. clear Ev.
    set (out := fun it : act_item => pol (snd it) (st it) (ii it) (au it)).
    binv E2. destruct v2 as [m2 outs]. unfold core_act in E4.
    destruct (buffer_capacity cf) as [c|]; [|discriminate]. do 4 binv E4. injection E4 as <- <-.
    assert (map (fun '(s, i, au, w) => pol w s i au) (map (fun it : act_item => (st it, ii it, au it, snd it)) items) = map out items) as Eo
      by (rewrite map_map; reflexivity).
    rewrite Eo in E2.
    cbn [AgentModel.m_int] in E2. binv E2. rewrite combine_map, vec2_maps in E2. cbn [bind] in E2. injection E2 as <- <-.
    cbn [AgentModel.m_int AgentModel.m_last].
    split; [reflexivity|]. split; [reflexivity|]. split; [reflexivity|]. split; [reflexivity|]. split; [exact HF|].
    rewrite map_map in E4. split.
    + rewrite <- E4. f_equal. apply map_ext. intros [[[p s0] a0] w0]. reflexivity.
    + apply map_ext. intros [[[p s0] a0] w0]. reflexivity.
Qed.

Lemma observe_inv a items a' u : agent_observe a items = Ok (a', u) ->
  items <> [] /\ Forall (fun it => gather (a_completed a) (po it) = Ok false) items /\
  exists cs a0, Forall2 (fun it c => gather (a_counter a) (po it) = Ok c) items cs /\
  (forall M, cf_maxep cf = Some M -> Forall2 (fun it c => fl it = 0 -> c + 1 <= M) items cs) /\
  scatter (a_completed a) (map po items) (map (fun _ => true) (map po items)) = Ok (a_completed a0) /\
  scatter (a_counter a) (map po items)
    (map (fun tn => if 0 <? fst tn then 0 else snd tn) (combine (map fl items) (map (fun n => n + 1) cs))) = Ok (a_counter a0) /\
  a_tbuf a0 = a_tbuf a /\ a_rbuf a0 = a_rbuf a /\ a_m a0 = a_m a /\ a_timesteps a0 = a_timesteps a /\
  a_episodes a0 = a_episodes a /\ a_updates a0 = a_updates a /\
  fold_res agent_observe_one (a0, 0) items = Ok (a', u).
Proof.
  unfold AgentModel.agent_observe. change (map (fun it : obs_item => fst (fst (fst it))) items) with (map po items).
  change (map (fun it : obs_item => snd (fst (fst it))) items) with (map fl items).
  intros H. binv H. apply assert_inv in E. binv H. binv H. apply assert_inv in E1. binv H. binv H. binv H. apply assert_inv in E4. binv H.
  split; [intros ->; discriminate|]. split.
  - apply gathers_inv in E0. clear - E0 E1. revert v0 E0 E1. induction items as [|it items IH]; intros v E E0; [constructor|].
    cbn [map] in E. inversion E as [|? b ? ? H1 H2]; subst. cbn [existsb] in E0. destruct b; [discriminate|].
    constructor; [exact H1|]. eapply IH; eauto.
  - exists v3. eexists. split; [|split; [|split; [|split; [|split; [|split; [|split; [|split; [|split; [|split; [|exact H]]]]]]]]]];
      try reflexivity; try eassumption.
    + apply gathers_inv in E3. clear - E3. revert v3 E3. induction items as [|it items IH]; intros v E; cbn [map] in E;
        inversion E; subst; constructor; auto.
    + intros M EM. rewrite EM in E4. apply gathers_inv in E3. clear - E3 E4. revert v3 E3 E4.
      induction items as [|it items IH]; intros v E E4; cbn [map] in E; inversion E; subst; constructor.
      * intros Hf. cbn [map combine forallb fst snd] in E4. apply andb_true_iff in E4 as [E4 _]. lia.
      * apply IH; auto. cbn [map combine forallb] in E4. apply andb_true_iff in E4 as [_ E4]. exact E4.
Qed.

(** ** Act and observe alternate *)
Lemma observe_loop_same items : forall a n a' n', fold_res agent_observe_one (a, n) items = Ok (a', n') ->
  a_completed a' = a_completed a /\ a_counter a' = a_counter a.
Proof.
  induction items as [|[[[p t] r] o] items IH]; intros a n a' n' H; cbn [fold_res] in H.
  - injection H as <- <-. auto.
  - binv H. destruct v as [a1 n1]. apply observe_one_inv in E as (tb & rb & _ & _ & E1 & E2 & _).
    apply IH in H as [H1 H2]. split; congruence.
Qed.

Lemma experience_loop_same os items : forall a seg k a', experience_loop K St In Au Ac os a seg items k = Ok a' ->
  a_completed a' = a_completed a /\ a_counter a' = a_counter a /\ a_tbuf a' = a_tbuf a /\ a_rbuf a' = a_rbuf a /\
  m_int (a_m a') = m_int (a_m a) /\ m_last (a_m a') = m_last (a_m a).
Proof.
  induction items as [|e items IH]; intros a seg k a' H; cbn [AgentModel.experience_loop] in H.
  - injection H as <-. repeat split.
  - destruct (snd e =? 0); [eapply IH; exact H|]. binv H. apply IH in H. cbn in H.
    unfold model_experience in E.
    apply bind_inv in E as (? & _ & E). apply bind_inv in E as (? & _ & E). apply bind_inv in E as (? & _ & E).
    apply bind_inv in E as (? & _ & E). apply bind_inv in E as (? & _ & E). apply bind_inv in E as (? & _ & E).
    apply bind_inv in E as (m1 & Ec & E). injection E as <-. apply core_experience_rest in Ec.
    injection Ec as R1 R2 R3 R4 R5 R6 R7. cbn in H. rewrite R4, R5 in H. exact H.
Qed.

Lemma existsb_map_eqb {B} (f : B -> Z) p l : existsb (Z.eqb p) (map f l) = existsb (fun it => f it =? p) l.
Proof. induction l as [|y l IH]; [reflexivity|]. cbn [map existsb]. rewrite IH, Z.eqb_sym. reflexivity. Qed.

Definition in_range (p : Z) : Prop := 0 <= p < cf_par cf.

Definition FlagsInv (ops : list op) (a : astate) : Prop :=
  len (a_completed a) = Z.max 0 (cf_par cf) /\
  forall p, in_range p -> gather (a_completed a) p = Ok (negb (pending_after p ops)).

Lemma scatter_const_inv {A} (l : list A) is (v : A) l' : scatter l is (map (fun _ => v) is) = Ok l' ->
  length l' = length l /\ forall j, gather l' j = if existsb (Z.eqb j) is then Ok v else gather l j.
Proof.
  intros H.
  assert (Forall (fun i => 0 <= i < len l) is) as HF.
  { clear - H. revert l H. induction is as [|i is IH]; intros l H; [constructor|]. cbn [map scatter] in H.
    destruct ((i <? 0) || (len l <=? i)) eqn:E; [discriminate|]. constructor; [lia|].
    apply IH in H. now rewrite update_nth_length in H. }
  destruct (scatter_const l is v HF) as (l'' & E & HL & HG). rewrite E in H. injection H as <-. auto.
Qed.

Lemma run_flags ops a evs : agent_run ops = Ok (a, evs) -> FlagsInv ops a.
Proof.
  revert ops a evs. apply run_ind.
  - intros a H. apply initialize_inv in H as (f & _ & _ & _ & Hc & _). unfold FlagsInv. rewrite Hc, repeat_length.
    split; [lia|]. intros p Hp. unfold in_range in Hp. apply gather_repeat. lia.
  - intros ops a evs x a' ev _ [HL HG] H. unfold FlagsInv, pending_after. rewrite <- HL.
    assert ((forall p, pending_op p (pending_after p ops) x = pending_after p ops) -> a_completed a' = a_completed a ->
            len (a_completed a') = len (a_completed a) /\
            forall p, in_range p -> gather (a_completed a') p = Ok (negb (fold_left (pending_op p) (ops ++ [x]) false))) as Hsame.
    { intros Hp ->. split; [reflexivity|]. intros p Hr. rewrite fold_left_app. cbn [fold_left].
      fold (pending_after p ops). rewrite Hp. apply HG. exact Hr. }
    destruct x as [items|items|items|os items|o|]; cbn [AgentModel.agent_step] in H.
    + binv H. destruct v as [a1 xs]. injection H as <- <-. apply act_inv in E as (_ & E & _).
      apply scatter_const_inv in E as [E1 E2]. cbn [fst]. split; [now rewrite E1|].
      intros p Hr. rewrite E2, fold_left_app, existsb_map_eqb. cbn [fold_left pending_op].
      unfold pa. destruct (existsb _ items); [reflexivity|]. apply HG. exact Hr.
    + apply Hsame; [reflexivity|]. binv H. destruct v as [a1 outs]. injection H as <- <-. unfold agent_independent_act in E. binv E. destruct v as [m1 o1].
      injection E as <- <-. reflexivity.
    + binv H. destruct v as [a1 u]. injection H as <- <-. cbn [fst]. apply observe_inv in E as (_ & _ & cs & a0 & _ & _ & E & _ & _ & _ & _ & _ & _ & _ & E').
      apply observe_loop_same in E' as [-> _]. apply scatter_const_inv in E as [E1 E2]. split; [now rewrite E1|].
      intros p Hr. rewrite E2, fold_left_app, existsb_map_eqb. cbn [fold_left pending_op].
      unfold po. destruct (existsb _ items); [reflexivity|]. apply HG. exact Hr.
    + apply Hsame; [reflexivity|]. binv H. injection H as <- <-. unfold agent_experience in E. binv E. binv E. binv E.
      apply experience_loop_same in E as (E & _). exact E.
    + apply Hsame; [reflexivity|]. binv H. injection H as <- <-. unfold agent_update in E. binv E. injection E as <-. reflexivity.
    + binv H. injection H as <- <-. unfold agent_reset in E. binv E. injection E as <-. cbn.
      rewrite map_length. split; [reflexivity|]. intros p Hr. rewrite fold_left_app. cbn [fold_left pending_op negb].
      unfold in_range in Hr. destruct (gather_map_ok (fun _ : bool => true) (a_completed a) p ltac:(lia)) as (i & _ & G). exact G.
Qed.

(** ** Length of the episode in progress *)
Lemma steps_items p items : forall n, ~ List.In p (map po items) -> fold_left (steps_item p) items n = n.
Proof.
  induction items as [|[[[q t] r] o] items IH]; intros n H; [reflexivity|]. cbn [fold_left steps_item map] in *.
  destruct (Z.eqb_spec q p) as [->|]; [exfalso; apply H; now left|]. apply IH. intros C. apply H. now right.
Qed.

Lemma steps_items_in p items : forall n it, NoDup (map po items) -> List.In it items -> po it = p ->
  fold_left (steps_item p) items n = if 0 <? fl it then 0 else n + 1.
Proof.
  induction items as [|it' items IH]; intros n it ND Hin Hp; [contradiction|].
  cbn [map] in ND. apply NoDup_cons_iff in ND as [Hn ND]. cbn [fold_left]. destruct Hin as [->|Hin].
  - rewrite steps_items by (rewrite <- Hp; exact Hn). destruct it as [[[q t] r] o]. cbn in Hp |- *. subst q.
    now rewrite Z.eqb_refl.
  - assert (po it' <> p) as Np by (intros C; apply Hn; rewrite C, <- Hp; apply in_map; exact Hin).
    destruct it' as [[[q t] r] o]. cbn [steps_item]. destruct (Z.eqb_spec q p); [contradiction|]. apply IH; auto.
Qed.

Definition CountInv (ops : list op) (a : astate) : Prop :=
  len (a_counter a) = Z.max 0 (cf_par cf) /\
  forall p, in_range p -> gather (a_counter a) p = Ok (steps_after p ops).

Lemma scatter_zip_inv {A B} (p : B -> Z) (items : list B) (us : list A) l l' :
  NoDup (map p items) -> scatter l (map p items) us = Ok l' ->
  length l' = length l /\ Forall2 (fun it u => gather l' (p it) = Ok u) items us /\
  (forall j, ~ List.In j (map p items) -> gather l' j = gather l j).
Proof.
  revert us l. induction items as [|it items IH]; intros us l ND H; cbn [map scatter] in H.
  - destruct us; [|discriminate]. injection H as <-. repeat split; auto.
  - destruct us as [|u us]; [discriminate|]. destruct ((p it <? 0) || (len l <=? p it)) eqn:E; [discriminate|].
    cbn [map] in ND. apply NoDup_cons_iff in ND as [Hn ND]. apply IH in H as (H1 & H2 & H3); [|exact ND].
    rewrite update_nth_length in H1. split; [exact H1|]. split.
    + constructor; [|exact H2]. rewrite H3 by exact Hn. apply gather_update_same. lia.
    + intros j Hj. cbn [map] in Hj. rewrite H3 by (intros C; apply Hj; now right).
      apply gather_update_other; [lia|]. intros C. apply Hj. left. lia.
Qed.

Lemma run_counter ops a evs : agent_run ops = Ok (a, evs) -> Forall distinct ops -> CountInv ops a.
Proof.
  revert ops a evs. apply (run_ind (fun ops a evs => Forall distinct ops -> CountInv ops a)).
  - intros a H _. apply initialize_inv in H as (f & _ & _ & _ & _ & Hc & _). unfold CountInv. rewrite Hc, repeat_length.
    split; [lia|]. intros p Hp. unfold in_range in Hp. apply gather_repeat. lia.
  - intros ops a evs x a' ev _ IH H HD. apply Forall_app in HD as [HD HDx]. apply Forall_inv in HDx.
    destruct (IH HD) as [HL HG]. clear IH. unfold CountInv, steps_after. rewrite <- HL.
    assert ((forall p, steps_op p (steps_after p ops) x = steps_after p ops) -> a_counter a' = a_counter a ->
            len (a_counter a') = len (a_counter a) /\
            forall p, in_range p -> gather (a_counter a') p = Ok (fold_left (steps_op p) (ops ++ [x]) 0)) as Hsame.
    { intros Hp ->. split; [reflexivity|]. intros p Hr. rewrite fold_left_app. cbn [fold_left].
      fold (steps_after p ops). rewrite Hp. apply HG. exact Hr. }
    destruct x as [items|items|items|os items|o|]; cbn [AgentModel.agent_step] in H.
    + apply Hsame; [reflexivity|]. binv H. destruct v as [a1 xs]. injection H as <- <-. apply act_inv in E as (_ & _ & E & _). exact E.
    + apply Hsame; [reflexivity|]. binv H. destruct v as [a1 outs]. injection H as <- <-. unfold agent_independent_act in E. binv E. destruct v as [m1 o1].
      injection E as <- <-. reflexivity.
    + binv H. destruct v as [a1 u]. injection H as <- <-. cbn [fst]. cbn [distinct] in HDx.
      change (map (fun it : obs_item => fst (fst (fst it))) items) with (map po items) in HDx.
      apply observe_inv in E as (_ & _ & cs & a0 & Hcs & _ & _ & E & _ & _ & _ & _ & _ & _ & E').
      apply observe_loop_same in E' as [_ ->].
      assert (length cs = length items) as Lcs by (clear - Hcs; induction Hcs; cbn; congruence).
      apply scatter_zip_inv in E as (E1 & E2 & E3); [|exact HDx].
      assert (forall it, List.In it items -> gather (a_counter a0) (po it) =
                Ok (if 0 <? fl it then 0 else steps_after (po it) ops + 1)) as HV.
      { clear - E2 Hcs HG Lcs HL. intros it Hin.
        revert items E2 Hcs Lcs Hin. induction cs as [|c cs IHc]; intros [|it' items] E2 Hcs Lcs Hin; try discriminate; [contradiction|].
        cbn [map combine] in E2. inversion E2 as [|? ? ? ? G1 G2]; subst. inversion Hcs as [|? ? ? ? C1 C2]; subst.
        destruct Hin as [->|Hin].
        - rewrite G1. cbn [fst snd]. f_equal.
          assert (in_range (po it)) as Hr by (apply gather_range in C1; unfold in_range; lia).
          rewrite (HG _ Hr) in C1. injection C1 as <-. reflexivity.
        - apply (IHc items); auto. }
      split; [now rewrite E1|]. intros p Hr. rewrite fold_left_app. cbn [fold_left steps_op].
      fold (steps_after p ops).
      destruct (in_dec Z.eq_dec p (map po items)) as [Hin|Hout].
      * apply in_map_iff in Hin as (it & <- & Hin). rewrite HV by exact Hin.
        rewrite (steps_items_in _ _ _ it); auto.
      * rewrite E3, steps_items by exact Hout. apply HG. exact Hr.
    + apply Hsame; [reflexivity|]. binv H. injection H as <- <-. unfold agent_experience in E. binv E. binv E. binv E.
      apply experience_loop_same in E as (_ & E & _). exact E.
    + apply Hsame; [reflexivity|]. binv H. injection H as <- <-. unfold agent_update in E. binv E. injection E as <-. reflexivity.
    + binv H. injection H as <- <-. unfold agent_reset in E. binv E. injection E as <-. cbn.
      rewrite map_length. split; [reflexivity|]. intros p Hr. rewrite fold_left_app. cbn [fold_left steps_op].
      unfold in_range in Hr. destruct (gather_map_ok (fun _ : Z => 0) (a_counter a) p ltac:(lia)) as (i & _ & G). exact G.
Qed.

(** ** Recurrent state *)
Lemma acts_items p items : forall l, ~ List.In p (map pa items) -> fold_left (acts_item p) items l = l.
Proof.
  induction items as [|[[[q st] au] w] items IH]; intros l H; [reflexivity|]. cbn [fold_left acts_item map] in *.
  destruct (Z.eqb_spec q p) as [->|]; [exfalso; apply H; now left|]. apply IH. intros C. apply H. now right.
Qed.

Lemma acts_items_in p items : forall l it, NoDup (map pa items) -> List.In it items -> pa it = p ->
  fold_left (acts_item p) items l = l ++ [(snd (fst (fst it)), snd (fst it), snd it)].
Proof.
  induction items as [|it' items IH]; intros l it ND Hin Hp; [contradiction|].
  cbn [map] in ND. apply NoDup_cons_iff in ND as [Hn ND]. cbn [fold_left]. destruct Hin as [->|Hin].
  - rewrite acts_items by (rewrite <- Hp; exact Hn). destruct it as [[[q st] au] w]. cbn in Hp |- *. subst q.
    now rewrite Z.eqb_refl.
  - assert (pa it' <> p) as Np by (intros C; apply Hn; rewrite C, <- Hp; apply in_map; exact Hin).
    destruct it' as [[[q st] au] w]. cbn [acts_item]. destruct (Z.eqb_spec q p); [contradiction|]. apply IH; auto.
Qed.

Lemma fold_int_snoc acts st au w : fold_int pol init_int (acts ++ [(st, au, w)]) =
  snd (pol w st (fold_int pol init_int acts) au).
Proof. unfold fold_int. rewrite fold_left_app. reflexivity. Qed.

(** One row of the recurrent states, for given acts of every stream. *)
Definition IntRows (l : list In) (acts : Z -> list (St * Au * W)) : Prop :=
  len l = Z.max 0 (cf_par cf) /\ forall p, in_range p -> gather l p = Ok (fold_int pol init_int (acts p)).

Lemma observe_loop_int items : forall a n a' n' acts, fold_res agent_observe_one (a, n) items = Ok (a', n') ->
  IntRows (m_int (a_m a)) acts ->
  IntRows (m_int (a_m a')) (fun p => fold_left (ends_item p) items (acts p)).
Proof.
  induction items as [|[[[p t] r] o] items IH]; intros a n a' n' acts H HI; cbn [fold_res] in H.
  - injection H as <- <-. exact HI.
  - binv H. destruct v as [a1 n1]. cbn [fold_left]. eapply IH; [exact H|].
    apply observe_one_inv in E as (tb & rb & _ & _ & _ & _ & _ & [(Et & _ & _ & _ & Em & _)|(_ & _ & _ & _ & _ & u & Em & _)]).
    + subst t. rewrite Em. destruct HI as [HL HG]. split; [exact HL|]. intros q Hq. cbn [ends_item].
      rewrite Z.eqb_refl, andb_false_r. apply HG. exact Hq.
    + apply model_observe_inv in Em as (pre & t' & Eq & _ & _ & Ht & Hp & _ & _ & _ & Ei & Hl & _).
      apply app_inj_tail in Eq as [_ <-]. rewrite Ei. unfold int_row. destruct HI as [HL HG].
      destruct (Z.ltb_spec 0 t) as [Htp|Htn].
      * split; [now rewrite update_nth_length|]. intros q Hq. cbn [ends_item].
        destruct (Z.eqb_spec p q) as [->|N].
        -- replace (t =? 0) with false by lia. cbn [negb andb]. rewrite gather_update_same by (apply Hl; lia). reflexivity.
        -- cbn [andb]. rewrite gather_update_other by (try (apply Hl; lia); lia). apply HG. exact Hq.
      * split; [exact HL|]. intros q Hq. cbn [ends_item]. replace (t =? 0) with true by lia.
        rewrite andb_false_r. apply HG. exact Hq.
Qed.

Definition clean_resets (ops : list op) : Prop :=
  forall pre post, ops = pre ++ OReset :: post -> forall p, in_range p -> acts_since p pre = [].

Lemma clean_resets_snoc ops x : clean_resets (ops ++ [x]) ->
  clean_resets ops /\ (x = OReset -> forall p, in_range p -> acts_since p ops = []).
Proof.
  intros H. split.
  - intros pre post E. apply (H pre (post ++ [x])). rewrite E, <- app_assoc. reflexivity.
  - intros ->. apply (H ops []). reflexivity.
Qed.

Lemma run_int ops a evs : agent_run ops = Ok (a, evs) -> Forall distinct ops -> clean_resets ops ->
  IntRows (m_int (a_m a)) (fun p => acts_since p ops).
Proof.
  revert ops a evs. apply (run_ind (fun ops a evs => Forall distinct ops -> clean_resets ops ->
    IntRows (m_int (a_m a)) (fun p => acts_since p ops))).
  - intros a H _ _. apply initialize_inv in H as (f & _ & _ & _ & _ & _ & _ & _ & Hi). rewrite Hi.
    split; [rewrite repeat_length; lia|]. intros p Hp. unfold in_range in Hp. apply gather_repeat. lia.
  - intros ops a evs x a' ev _ IH H HD HR. apply Forall_app in HD as [HD HDx]. apply Forall_inv in HDx.
    apply clean_resets_snoc in HR as [HR HRx]. specialize (IH HD HR).
    assert ((forall p, in_range p -> acts_op p (acts_since p ops) x = acts_since p ops) -> m_int (a_m a') = m_int (a_m a) ->
            IntRows (m_int (a_m a')) (fun p => acts_since p (ops ++ [x]))) as Hsame.
    { intros Hp ->. destruct IH as [HL HG]. split; [exact HL|]. intros p Hr. unfold acts_since. rewrite fold_left_app. cbn [fold_left].
      fold (acts_since p ops). rewrite Hp by exact Hr. apply HG. exact Hr. }
    destruct x as [items|items|items|os items|o|]; cbn [AgentModel.agent_step] in H.
    + binv H. destruct v as [a1 xs]. injection H as <- <-. cbn [fst]. cbn [distinct] in HDx.
      change (map (fun it : act_item => fst (fst (fst it))) items) with (map pa items) in HDx.
      apply act_inv in E as (_ & _ & _ & _ & _ & _ & HF & E & _).
      apply scatter_zip_inv in E as (E1 & E2 & E3); [|exact HDx]. destruct IH as [HL HG].
      split; [now rewrite E1|]. intros p Hr. unfold acts_since. rewrite fold_left_app. cbn [fold_left acts_op].
      fold (acts_since p ops).
      destruct (in_dec Z.eq_dec p (map pa items)) as [Hin|Hout].
      * apply in_map_iff in Hin as (it & <- & Hin). rewrite (acts_items_in _ _ _ it) by auto.
        rewrite fold_int_snoc.
        assert (forall it, List.In it items -> gather (m_int (a_m a1)) (pa it) = Ok (act_next a it)) as HV.
        { clear - E2. induction items as [|y items IH]; intros it Hin; [contradiction|]. cbn [map] in E2.
          inversion E2; subst. destruct Hin as [->|Hin]; auto. }
        rewrite HV by exact Hin. f_equal. destruct it as [[[q st] au] w]. cbn [act_next fst snd]. unfold int_of, pa in *.
        cbn [fst] in *. rewrite HG by exact Hr. reflexivity.
      * rewrite E3, acts_items by exact Hout. apply HG. exact Hr.
    + apply Hsame; [reflexivity|]. binv H. destruct v as [a1 outs]. injection H as <- <-. unfold agent_independent_act in E. binv E. destruct v as [m1 o1].
      injection E as <- <-. unfold model_independent_act in E0. cbn [AgentModel.core_act] in E0. injection E0 as <- <-. reflexivity.
    + binv H. destruct v as [a1 u]. injection H as <- <-. cbn [fst].
      apply observe_inv in E as (_ & _ & cs & a0 & _ & _ & _ & _ & _ & _ & Em & _ & _ & _ & E').
      eapply observe_loop_int in E'; [|rewrite Em; exact IH].
      destruct E' as [HL HG]. split; [exact HL|]. intros p Hr. rewrite HG by exact Hr. unfold acts_since.
      rewrite fold_left_app. reflexivity.
    + apply Hsame; [reflexivity|]. binv H. injection H as <- <-. unfold agent_experience in E. binv E. binv E. binv E.
      apply experience_loop_same in E as (_ & _ & _ & _ & E & _). exact E.
    + apply Hsame; [reflexivity|]. binv H. injection H as <- <-. unfold agent_update in E. binv E. injection E as <-. 
      apply core_update_inv in E0 as (_ & _ & _ & _ & E0 & _). exact E0.
    + apply Hsame; [intros p Hp; cbn [acts_op]; symmetry; apply HRx; auto|].
      binv H. injection H as <- <-. unfold agent_reset in E. binv E. injection E as <-.
      unfold model_reset in E0. binv E0. injection E0 as <-. reflexivity.
Qed.

(** ** Time of periodic updates *)
Definition periodic_of (evs : list event) : Z :=
  fold_right (fun e n => match e with EObserve _ _ _ _ _ _ u => u | _ => 0 end + n) 0 evs.

Lemma periodic_snoc evs ev : periodic_of (evs ++ [ev]) = periodic_of evs + match ev with EObserve _ _ _ _ _ _ u => u | _ => 0 end.
Proof. induction evs as [|y evs IH]; cbn [periodic_of fold_right app]; [lia|]. unfold periodic_of in IH |- *. rewrite IH. lia. Qed.

(** The hyperparameter values of an observe satisfy [P]; without episodes given directly if not [ex]. *)
Definition observes (P : oracle -> Prop) (ex : bool) (x : op) : Prop :=
  match x with
  | OObserve items => Forall (fun it => P (snd it)) items
  | OExperience _ _ => ex = true
  | _ => True
  end.

(** A property of (acts, episodes, last update time) and the number of updates kept by
    each check for an update is kept by every run. *)
Lemma step_last (P : oracle -> Prop) (ex : bool) (R : Z -> Z -> Z -> Z -> Prop) :
  (forall T T' E l u, T <= T' -> R T E l u -> R T' E l u) ->
  (ex = true -> forall T T' E E' l u, T <= T' -> E <= E' -> R T E l u -> R T' E' l u) ->
  (forall o T E l n t u l', P o -> R T E l n ->
     (let units := units_at o T E t in
      if u : bool then l + o_freq K St In Au Ac o <= units /\ l' = units
      else l' = l /\ (cf_freq cf <> None -> units < l + o_freq K St In Au Ac o)) ->
     R T (E + (if t : bool then 1 else 0)) l' (n + (if u then 1 else 0))) ->
  forall a x a' ev n, agent_step a x = Ok (a', ev) -> observes P ex x ->
    R (m_timesteps (a_m a)) (m_episodes (a_m a)) (m_last (a_m a)) n ->
    R (m_timesteps (a_m a')) (m_episodes (a_m a')) (m_last (a_m a'))
      (n + match ev with EObserve _ _ _ _ _ _ u => u | _ => 0 end).
Proof.
  intros HT HX HS a x a' ev n H HP HR.
  assert (forall items a n0 a' n', Forall (fun it => P (snd it)) items ->
    fold_res agent_observe_one (a, n0) items = Ok (a', n') ->
    R (m_timesteps (a_m a)) (m_episodes (a_m a)) (m_last (a_m a)) (n + n0) ->
    R (m_timesteps (a_m a')) (m_episodes (a_m a')) (m_last (a_m a')) (n + n')) as HL.
  { clear a x a' ev H HP HR. induction items as [|[[[p t] r] o] items IH]; intros a n0 a' n' HF H HR; cbn [fold_res] in H.
    - injection H as <- <-. exact HR.
    - binv H. destruct v as [a1 n1]. eapply IH; [exact (Forall_inv_tail HF)|exact H|].
      apply Forall_inv in HF. cbn [snd] in HF.
      apply observe_one_inv in E as (tb & rb & _ & _ & _ & _ & _ & [(_ & _ & _ & _ & Em & _ & _ & En)|(_ & _ & _ & _ & _ & u & Em & En)]).
      + rewrite Em, En. exact HR.
      + apply model_observe_inv in Em as (pre & t' & Eq & _ & _ & Ht & Hp & M1 & M2 & _ & _ & _ & M3).
        apply app_inj_tail in Eq as [_ <-]. rewrite M1, M2, En. replace (n + (n0 + (if u then 1 else 0))) with (n + n0 + (if u then 1 else 0)) by lia.
        eapply HS; eauto. }
  destruct x as [items|items|items|os items|o|]; cbn [AgentModel.agent_step] in H.
  - binv H. destruct v as [a1 xs]. injection H as <- <-. cbn [fst]. rewrite Z.add_0_r.
    apply act_inv in E as E1. destruct E1 as (_ & _ & _ & _ & _ & El & _). rewrite El.
    assert (m_episodes (a_m a1) = m_episodes (a_m a) /\ m_timesteps (a_m a) <= m_timesteps (a_m a1)) as [-> Ht].
    { clear - E. unfold AgentModel.agent_act in E. do 4 binv E. destruct v2 as [m1 xs']. injection E as <- <-.
      unfold model_act in E3. do 3 binv E3. destruct v4 as [m2 outs].
      unfold core_act in E5. destruct (buffer_capacity cf); [|discriminate]. do 4 binv E5. injection E5 as <- <-.
      do 2 binv E3. injection E3 as <- <-. cbn. split; [reflexivity|lia]. }
    eapply HT; [exact Ht|exact HR].
  - binv H. destruct v as [a1 outs]. injection H as <- <-. unfold agent_independent_act in E. binv E. destruct v as [m1 o1].
    injection E as <- <-. unfold model_independent_act in E0. cbn [AgentModel.core_act] in E0. injection E0 as <- <-. cbn. rewrite Z.add_0_r. exact HR.
  - binv H. destruct v as [a1 u]. injection H as <- <-. cbn [fst snd].
    apply observe_inv in E as (_ & _ & cs & a0 & _ & _ & _ & _ & _ & _ & Em & _ & _ & _ & E').
    eapply HL; [exact HP|exact E'|]. rewrite Em, Z.add_0_r. exact HR.
  - binv H. injection H as <- <-. rewrite Z.add_0_r. unfold agent_experience in E. binv E. binv E. binv E.
    cbn [observes] in HP. specialize (HX HP). clear HL HP E0 E1 E2. revert HR E.
    generalize (@nil tstep) as seg, O as k. generalize a at 1 2 3 4 as b. induction items as [|e items IH]; intros b seg k HR E.
    + cbn in E. injection E as <-. exact HR.
    + cbn [AgentModel.experience_loop] in E. destruct (snd e =? 0); [eapply IH; eauto|]. binv E. eapply IH; [|exact E].
      cbn. unfold model_experience in E0.
      apply bind_inv in E0 as (? & _ & E0). apply bind_inv in E0 as (? & _ & E0). apply bind_inv in E0 as (? & _ & E0).
      apply bind_inv in E0 as (? & _ & E0). apply bind_inv in E0 as (? & _ & E0). apply bind_inv in E0 as (? & _ & E0).
      apply bind_inv in E0 as (m1 & Ec & E0). injection E0 as <-. apply core_experience_rest in Ec.
      injection Ec as R1 R2 R3 R4 R5 R6 R7. cbn. rewrite R1, R2, R4. eapply HX; [| |exact HR]; lia.
  - binv H. injection H as <- <-. unfold agent_update in E. binv E. injection E as <-. cbn.
    apply core_update_inv in E0 as (C1 & C2 & C3 & C4 & _). rewrite C1, C2, C4, Z.add_0_r. exact HR.
  - binv H. injection H as <- <-. unfold agent_reset in E. binv E. injection E as <-.
    unfold model_reset in E0. binv E0. injection E0 as <-. cbn. rewrite Z.add_0_r. exact HR.
Qed.

Lemma run_from_last (P : oracle -> Prop) (ex : bool) (R : Z -> Z -> Z -> Z -> Prop) :
  (forall T T' E l u, T <= T' -> R T E l u -> R T' E l u) ->
  (ex = true -> forall T T' E E' l u, T <= T' -> E <= E' -> R T E l u -> R T' E' l u) ->
  (forall o T E l n t u l', P o -> R T E l n ->
     (let units := units_at o T E t in
      if u : bool then l + o_freq K St In Au Ac o <= units /\ l' = units
      else l' = l /\ (cf_freq cf <> None -> units < l + o_freq K St In Au Ac o)) ->
     R T (E + (if t : bool then 1 else 0)) l' (n + (if u then 1 else 0))) ->
  forall ops a a' evs n, agent_run_from a ops = Ok (a', evs) -> Forall (observes P ex) ops ->
    R (m_timesteps (a_m a)) (m_episodes (a_m a)) (m_last (a_m a)) n ->
    R (m_timesteps (a_m a')) (m_episodes (a_m a')) (m_last (a_m a')) (n + periodic_of evs).
Proof.
  intros HT HX HS. induction ops as [|x ops IH]; intros a a' evs n H HF HR; cbn [AgentModel.agent_run_from] in H.
  - injection H as <- <-. cbn. rewrite Z.add_0_r. exact HR.
  - binv H. destruct v as [a1 ev]. binv H. destruct v as [a2 evs2]. cbn [fst snd] in *. injection H as <- <-.
    cbn [periodic_of fold_right]. fold (periodic_of evs2). rewrite Z.add_assoc.
    eapply IH; [exact E0|exact (Forall_inv_tail HF)|].
    eapply (step_last P ex R); eauto. exact (Forall_inv HF).
Qed.

(** Unit episodes, with constant start and frequency. *)
Section Episodes.
Variables s f : Z.
Hypothesis f1 : 1 <= f.
Hypothesis freq : cf_freq cf = Some f.
Hypothesis unit_ep : cf_unit_ts cf = false.

Definition const_ep (o : oracle) : Prop := o_start K St In Au Ac o = s /\ o_freq K St In Au Ac o = f.
Definition expected_updates (E : Z) : Z :=
  if E <? Z.max s f then 0 else (E - Z.max s f) / f + 1.

Lemma episodes_updates ops a evs : agent_run ops = Ok (a, evs) -> Forall (observes const_ep false) ops ->
  periodic_of evs = expected_updates (total_episodes ops).
Proof.
  intros H HF. pose proof (run_syn _ _ _ H) as (_ & _ & _ & HE & _).
  unfold AgentModel.agent_run in H. binv H.
  apply initialize_inv in E as (f' & Ef & (_ & _ & _ & E0 & _) & El & _). rewrite freq in Ef. injection Ef as <-.
  assert (0 <= total_episodes ops) as Hpos.
  { clear. induction ops as [|x ops IH]; [cbn; lia|]. cbn [total_episodes fold_right]. fold (total_episodes ops).
    destruct x; cbn [op_episodes]; unfold ended_of; lia. }
  pose proof (run_from_last const_ep false
    (fun T E l u => l = f * (u - 1) /\ 0 <= u /\ 0 <= E /\
       (u = 0 -> E < Z.max s f) /\ (0 < u -> f * (u - 1) <= E - Z.max s f < f * u))) as HI.
  specialize (HI ltac:(auto) ltac:(discriminate)).
  match type of HI with ?A -> _ => assert A as HA end.
  { intros o T E l n t u l' [Hs Ho] (H1 & H2 & H3 & H4 & H5). unfold units_at. rewrite unit_ep, Hs, Ho, freq.
    intros HU. set (E1 := E + (if t then 1 else 0)) in *.
    assert (E <= E1 <= E + 1) as HE1 by (unfold E1; destruct t; lia).
    set (fn := f * n) in *. replace (f * (n - 1)) with (fn - f) in * by (unfold fn; ring).
    destruct u.
    - replace (f * (n + 1 - 1)) with fn by (unfold fn; ring). replace (f * (n + 1)) with (fn + f) by (unfold fn; ring).
      destruct HU as [HU ->].
      destruct (Z.eq_dec n 0) as [Hn|Hn].
      + assert (fn = 0) by (unfold fn; rewrite Hn; lia). specialize (H4 Hn). repeat split; lia.
      + specialize (H5 ltac:(lia)). repeat split; lia.
    - rewrite Z.add_0_r. destruct HU as [-> HU]. specialize (HU ltac:(discriminate)). fold fn.
      replace (f * (n - 1)) with (fn - f) in * by (unfold fn; ring).
      destruct (Z.eq_dec n 0) as [Hn|Hn].
      + assert (fn = 0) by (unfold fn; rewrite Hn; lia). specialize (H4 Hn). repeat split; lia.
      + specialize (H5 ltac:(lia)). repeat split; lia. }
  specialize (HI HA ops v a evs 0 H HF). rewrite E0, El in HI.
  destruct HI as (_ & I2 & _ & I4 & I5); [repeat split; lia|].
  rewrite HE in *. rewrite Z.add_0_l in *. unfold expected_updates. destruct (Z.ltb_spec (total_episodes ops) (Z.max s f)) as [Hlt|Hge].
  - destruct (Z.eq_dec (periodic_of evs) 0) as [|N]; [assumption|]. specialize (I5 ltac:(lia)). nia.
  - destruct (Z.eq_dec (periodic_of evs) 0) as [N|N]; [specialize (I4 N); lia|]. specialize (I5 ltac:(lia)).
    assert ((total_episodes ops - Z.max s f) / f = periodic_of evs - 1) as ->; [|lia].
    symmetry. apply Z.div_unique with (r := total_episodes ops - Z.max s f - f * (periodic_of evs - 1)); lia.
Qed.
End Episodes.

(** Unit timesteps with an episode horizon. *)
Section Timesteps.
Variables s f past : Z.
Hypothesis f1 : 1 <= f.
Hypothesis s0 : 0 <= s.
Hypothesis past0 : 0 <= past.
Hypothesis freq : cf_freq cf = Some f.
Hypothesis unit_ts : cf_unit_ts cf = true.
Hypothesis horizon : cf_ephor cf = true.

Definition const_ts (o : oracle) : Prop :=
  o_start K St In Au Ac o = s /\ o_freq K St In Au Ac o = f /\ o_past K St In Au Ac o = past.
(** First time an update is possible. *)
Definition first_update : Z :=
  Z.max (Z.max s (f + past)) (match cf_bo cf with Some b => b | None => 0 end).

Lemma units_ts o T E t : const_ts o -> 0 <= T -> 
  (0 < E -> units_at o T E t = T - first_update) /\ (E <= 0 -> units_at o T E t < 0).
Proof.
  intros (H1 & H2 & H3) HT. unfold units_at, first_update. rewrite unit_ts, horizon, H1, H2, H3.
  destruct (cf_bo cf) as [b|], (Z.ltb_spec 0 E); split; lia.
Qed.

Lemma total_acts_pos (l : list op) : 0 <= total_acts l.
Proof.
  induction l as [|x ops IH]; [cbn; lia|]. cbn [total_acts fold_right]. fold (total_acts ops).
  destruct x; cbn [op_acts]; lia.
Qed.

Lemma timesteps_first ops a evs : agent_run ops = Ok (a, evs) -> Forall (observes const_ts true) ops ->
  let T := total_acts ops in let u := periodic_of evs in let l := m_last (a_m a) in
  (u = 0 /\ l = - f) \/ (0 <= l /\ l <= T - first_update /\ 0 <= f * (u - 1) <= l).
Proof.
  intros H HF. pose proof (run_syn _ _ _ H) as (_ & HT & _).
  unfold AgentModel.agent_run in H. binv H.
  apply initialize_inv in E as (f' & Ef & (_ & T0 & _ & E0 & _) & El & _). rewrite freq in Ef. injection Ef as <-.
  pose proof (run_from_last const_ts true
    (fun T E l u => 0 <= T /\ ((u = 0 /\ l = - f) \/ (0 <= l /\ l <= T - first_update /\ 0 <= f * (u - 1) <= l)))) as HI.
  specialize (HI ltac:(cbv beta; intros; lia) ltac:(cbv beta; intros; lia)).
  match type of HI with ?A -> _ => assert A as HA end.
  { intros o T E l n t u l' Ho (J1 & J2) HU.
    destruct (units_ts o T E t Ho J1) as [U1 U2]. destruct Ho as (_ & Ho & _). rewrite Ho, freq in HU.
    split; [lia|]. destruct u.
    - destruct HU as [HU ->]. right. replace (f * (n + 1 - 1)) with (f * (n - 1) + f) by ring.
      destruct (Z.ltb_spec 0 E) as [He|He].
      + rewrite U1 in * by exact He. destruct J2 as [[-> ->]|J2]; lia.
      + specialize (U2 He). lia.
    - rewrite Z.add_0_r. destruct HU as [-> _]. exact J2. }
  specialize (HI HA ops v a evs 0 H HF). cbv beta in HI. rewrite T0, El in HI. rewrite HT in HI.
  destruct HI as (_ & HI); [|exact HI]. split; [lia|]. left. lia.
Qed.

(** In any window of a run, the updates are at least [f] acts apart. *)
Lemma timesteps_window ops1 ops2 a evs1 evs2 a1 : agent_run ops1 = Ok (a1, evs1) -> agent_run_from a1 ops2 = Ok (a, evs2) ->
  Forall (observes const_ts true) (ops1 ++ ops2) ->
  periodic_of evs2 = 0 \/ 0 <= f * (periodic_of evs2 - 1) <= total_acts ops2.
Proof.
  intros H H2 HF. pose proof (run_syn _ _ _ H) as (_ & HT & _). apply Forall_app in HF as [HF1 HF2].
  assert (agent_run (ops1 ++ ops2) = Ok (a, evs1 ++ evs2)) as H12.
  { unfold AgentModel.agent_run in *. binv H. rewrite E. cbn [bind]. rewrite agent_run_from_app, H. cbn [bind fst snd]. rewrite H2. reflexivity. }
  pose proof (run_syn _ _ _ H12) as (_ & HT2 & _).
  assert (total_acts (ops1 ++ ops2) = total_acts ops1 + total_acts ops2) as Eapp.
  { clear. induction ops1 as [|x ops IH]; [reflexivity|]. cbn [app total_acts fold_right].
    fold (total_acts (ops ++ ops2)) (total_acts ops). rewrite IH. lia. }
  pose proof (timesteps_first _ _ _ H HF1) as H0. cbv zeta in H0.
  pose proof (total_acts_pos ops1) as Hpos.
  set (T1 := total_acts ops1) in *.
  pose proof (run_from_last const_ts true
    (fun T E l u => T1 <= T /\ - f <= l /\ (u = 0 \/ (0 <= f * (u - 1) <= l - (T1 - first_update) /\ l <= T - first_update)))) as HI.
  specialize (HI ltac:(cbv beta; intros; lia) ltac:(cbv beta; intros; lia)).
  match type of HI with ?A -> _ => assert A as HA end.
  { intros o T E l n t u l' Ho (J1 & J2 & J3) HU.
    destruct (units_ts o T E t Ho ltac:(lia)) as [U1 U2]. destruct Ho as (_ & Ho & _). rewrite Ho, freq in HU.
    split; [lia|]. destruct u.
    - destruct HU as [HU ->]. split; [lia|]. right.
      replace (f * (n + 1 - 1)) with (f * (n - 1) + f) by ring.
      destruct (Z.ltb_spec 0 E) as [He|He].
      + rewrite U1 in * by exact He. destruct J3 as [->|J3]; lia.
      + specialize (U2 He). lia.
    - rewrite Z.add_0_r. destruct HU as [-> _]. auto. }
  specialize (HI HA ops2 a1 a evs2 0 H2 HF2). cbv beta in HI. rewrite HT, HT2, Eapp, Z.add_0_l in HI. fold T1 in HI.
  destruct HI as (I1 & I2 & I3); [|lia]. split; [lia|]. split; [lia|]. now left.
Qed.

Lemma timesteps_updates ops a evs : agent_run ops = Ok (a, evs) -> Forall (observes const_ts true) ops ->
  (total_acts ops < first_update -> periodic_of evs = 0) /\
  (first_update <= total_acts ops -> periodic_of evs <= (total_acts ops - first_update) / f + 1).
Proof.
  intros H HF. pose proof (timesteps_first _ _ _ H HF) as H0. cbv zeta in H0. split; intros HT.
  - lia.
  - destruct H0 as [[-> _]|H0].
    + assert (0 <= (total_acts ops - first_update) / f) by (apply Z.div_pos; lia). lia.
    + assert (periodic_of evs - 1 <= (total_acts ops - first_update) / f); [|lia].
      apply Z.div_le_lower_bound; lia.
Qed.
End Timesteps.

End AgentRuns.
