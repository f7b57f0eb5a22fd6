(** The invariant of the runner's loop *)
From Coq Require Import String List ZArith Lia Bool Arith.
From Verif Require Import Base RunSpec RunModel RunProofs.
Import ListNotations.
Open Scope string_scope.
Open Scope list_scope.
Open Scope Z_scope.

Section P.
Context {S A R I : Type}.
Variable zero : R.
Variable add : R -> R -> R.
Variable w : world S A R I.
Variable c : config.
Notation runner := (@runner S A R I).
Notation event := (event S A R I).
Notation history := (history S A R I).
Implicit Types q : runner.
Implicit Types h : history.
Notation phase_of n h := (at_phase (is_eval c n) n h).
Notation good n h := (proper (is_eval c n) n h).
Notation got := RunSpec.rewards.
Notation sum l := (fold_left add l zero).

Hypothesis Hvalid : valid w.

(** Environment n between two visits; t is its last terminal value *)
Definition ok (n : nat) (q : runner) (t : Z) : Prop :=
  good n (log q) /\
  match pending q n with
  | Some None => phase_of n (log q) = Resetting /\ t <= 0 /\ got n (log q) = [] /\
                 episode_timestep q n = 0%nat /\ episode_return q n = zero
  | Some (Some a) => phase_of n (log q) = Running a /\ t <= 0 /\
                     episode_timestep q n = Datatypes.S (length (got n (log q))) /\
                     episode_return q n = sum (got n (log q))
  | None => phase_of n (log q) = Closed /\ 0 < t /\ episode_timestep q n = 0%nat /\ episode_return q n = zero
  end.

(** Environment n after its answer was received, (batch_agent_calls) after the agent observed
    it, and after the agent chose an action *)
Inductive stage := Received | Told | Decided.
Definition acts (st : stage) (n : nat) (q : runner) : Prop :=
  match st with
  | Decided => exists a, actions q n = Some a /\ phase_of n (log q) = Chosen a
  | _ => exists s, states q n = Some s /\ phase_of n (log q) = Ready s
  end.
Definition pre (st : stage) (n : nat) (q : runner) : Prop :=
  good n (log q) /\ pending q n = None /\
  (terminals q n = -1 /\ got n (log q) = [] /\ episode_timestep q n = 0%nat /\ episode_return q n = zero /\ acts st n q \/
   exists r rs, 0 <= terminals q n <= 2 /\ rewards q n = Some r /\ got n (log q) = rs ++ [r] /\
     episode_timestep q n = length (rs ++ [r]) /\ episode_return q n = sum rs /\
     if match st with Received => is_eval c n | _ => true end
     then (if terminals q n =? 0 then acts st n q else phase_of n (log q) = Closed)
     else exists s, states q n = Some s /\ phase_of n (log q) = Answered s (terminals q n) r).

(** What happens to one environment leaves the others' status as it is *)
Lemma ok_other n m q q' es t : frame n q q' -> m <> n -> log q' = es ++ log q -> Forall (other c m) es -> ok m q t -> ok m q' t.
Proof.
  intros F Hm Hl Ho [Hg H]. unfold ok. rewrite Hl, (phase_other c m), (rewards_others c m) by auto. split; [now apply proper_other|].
  rewrite (f_pending _ _ _ F), (f_timestep _ _ _ F), (f_return _ _ _ F) by auto. exact H.
Qed.
Lemma acts_other st n m q q' es : frame n q q' -> m <> n -> log q' = es ++ log q -> Forall (other c m) es -> acts st m q -> acts st m q'.
Proof.
  intros F Hm Hl Ho H. unfold acts in *. rewrite Hl, (phase_other c m) by auto. rewrite (f_states _ _ _ F) by auto. rewrite (f_actions _ _ _ F).
  exact H.
Qed.
Lemma pre_other st n m q q' es : frame n q q' -> m <> n -> log q' = es ++ log q -> Forall (other c m) es -> pre st m q -> pre st m q'.
Proof.
  intros F Hm Hl Ho (Hg & Hp & H). unfold pre. rewrite (f_pending _ _ _ F), (f_timestep _ _ _ F), (f_return _ _ _ F), (f_terminals _ _ _ F), (f_rewards _ _ _ F), (f_states _ _ _ F) by auto.
  assert (acts st m q -> acts st m q') as Ha by (eapply acts_other; eauto).
  rewrite Hl, (phase_other c m), (rewards_others c m) by auto. split; [now apply proper_other|]. split; auto.
  destruct H as [(H1 & H2 & H3 & H4 & H5)|(r & rs & H1 & H2 & H3 & H4 & H5 & H6)]; [left; auto 6|].
  right. exists r, rs. repeat split; try tauto; auto. destruct st; [destruct (is_eval c m)| |]; auto; destruct (_ =? _); auto.
Qed.

Lemma eval_only n m : is_eval c n = true -> m <> n -> is_eval c m = false.
Proof.
  unfold is_eval. intros H Hm. apply andb_prop in H. destruct H as [-> H]. apply Nat.eqb_eq in H. cbn. apply Nat.eqb_neq. congruence.
Qed.

(** Log extensions by events of environment n *)
Definition own (n : nat) (es : list event) : Prop := forall m, m <> n -> Forall (other c m) es.
Lemma own_app n es es' : own n es -> own n es' -> own n (es ++ es').
Proof. intros H1 H2 m Hm. apply Forall_app. auto. Qed.
Lemma own_neutral n es : Forall neutral es -> own n es.
Proof. intros H m _. now apply neutral_others. Qed.
Lemma own_cons n e es : (forall m, m <> n -> other c m e) -> own n es -> own n (e :: es).
Proof. intros H1 H2 m Hm. constructor; auto. Qed.
Lemma own_nil n : own n [].
Proof. intros m _. constructor. Qed.

Lemma frame_trans n q q1 q2 : frame n q q1 -> frame n q1 q2 -> frame n q q2.
Proof.
  intros F G. constructor.
  - rewrite (f_prev _ _ _ G). apply F.
  - intros. rewrite (f_pending _ _ _ G) by auto. now apply F.
  - intros. rewrite (f_terminals _ _ _ G) by auto. now apply F.
  - intros. rewrite (f_states _ _ _ G) by auto. now apply F.
  - intros. rewrite (f_rewards _ _ _ G) by auto. now apply F.
  - rewrite (f_actions _ _ _ G). apply F.
  - intros. rewrite (f_return _ _ _ G) by auto. now apply F.
  - intros. rewrite (f_timestep _ _ _ G) by auto. now apply F.
Qed.

Lemma answers_neutral es h ev : Forall neutral es -> answers w ev h -> answers w ev (es ++ h).
Proof. induction 1 as [|e es He]; cbn [app answers]; auto. intros. split; auto. destruct e; cbn in *; tauto. Qed.
Lemma starts_own ns n es h : own n es -> ns n = false -> starts ns (es ++ h) = starts ns h.
Proof.
  intros H Hn. induction es as [|e es IH]; auto. cbn [app]. 
  assert (starts ns (es ++ h) = starts ns h) as E by (apply IH; intros m Hm; specialize (H m Hm); now inversion H).
  destruct e; cbn; rewrite E; auto. destruct (Nat.eq_dec n0 n) as [->|Hd]; [now rewrite Hn|].
  specialize (H n0 Hd). inversion H as [|? ? H1]. cbn in H1. congruence.
Qed.

(** The answer ends the episode, or the runner does *)
Definition closing (n : nat) (q : runner) : bool := (0 <? terminals q n) || aborts c n q.
Definition restarts (q : runner) : bool := (terminate q =? 0) && negb (sync_episodes c).
Definition calm : Prop := steady w \/ callback_timestep_frequency c = None.
Definition same_records (q q' : runner) : Prop :=
  episode_returns q' = episode_returns q /\ episode_timesteps q' = episode_timesteps q /\
  evaluation_returns q' = evaluation_returns q /\ evaluation_timesteps q' = evaluation_timesteps q.
Definition new_record (n : nat) (rs : list R) (q q' : runner) : Prop :=
  if is_eval c n then
      episode_returns q' = episode_returns q /\ episode_timesteps q' = episode_timesteps q /\
      evaluation_returns q' = evaluation_returns q ++ [sum rs] /\
      evaluation_timesteps q' = evaluation_timesteps q ++ [length rs]
    else
      episode_returns q' = episode_returns q ++ [sum rs] /\
      episode_timesteps q' = episode_timesteps q ++ [length rs] /\
      evaluation_returns q' = evaluation_returns q /\ evaluation_timesteps q' = evaluation_timesteps q.

Record went_on (n : nat) (q q' : runner) : Prop := WentOn {
  o_pending : exists a, pending q' n = Some (Some a);
  o_finished : finished (log q') = finished (log q);
  o_evaluated : evaluated (last c) (log q') = evaluated (last c) (log q);
  o_records : same_records q q';
  o_episodes : episodes q' = episodes q;
  o_timesteps : timesteps q' = (timesteps q + if counted c n then 1 else 0)%nat;
  o_executions : forall ns, executions ns (log q') = (executions ns (log q) + if ns n then 1 else 0)%nat;
  o_starts : forall ns, starts ns (log q') = starts ns (log q);
  o_term : terminate q' = terminate q \/ terminate q' = 2;
  o_reached : counted c n = true -> reached (timesteps q') (num_timesteps c) = true -> terminate q' = 2;
  o_calm : calm -> num_updates c = None ->
    terminate q' = terminate q \/ counted c n = true /\ reached (timesteps q') (num_timesteps c) = true }.

Record ended (n : nat) (q q' : runner) : Prop := Ended {
  e_pending : if restarts q' then pending q' n = Some None else pending q' n = None;
  e_finished : finished (log q') =
    finished (log q) ++ (if batch_agent_calls c || is_eval c n then [] else [(n, got n (log q))]);
  e_evaluated : evaluated (last c) (log q') = evaluated (last c) (log q);
  e_records : new_record n (got n (log q)) q q';
  e_episodes : episodes q' = (episodes q + if counted c n then 1 else 0)%nat;
  e_timesteps : timesteps q' = timesteps q;
  e_executions : forall ns, executions ns (log q') = executions ns (log q);
  e_starts : forall ns, starts ns (log q') =
    (starts ns (log q) + if restarts q' && ns n then 1 else 0)%nat;
  e_internals : internals q' =
    if restarts q' && is_eval c n then w_initial w else internals q;
  e_term : terminate q' = terminate q \/ terminate q' = 2 /\ num_updates c <> None \/
           terminate q = 0 /\ terminate q' = 1 /\ counted c n = true /\ (steady w -> reached (episodes q') (num_episodes c) = true);
  e_reached : terminate q' = 0 -> counted c n = true -> reached (episodes q') (num_episodes c) = false }.

Record did (n : nat) (q q' : runner) : Prop := Did {
  d_frame : frame n q q';
  d_log : exists es, log q' = es ++ log q /\ own n es;
  d_ok : ok n q' (terminals q' n);
  d_answers : answers w (is_eval c) (log q') ;
  d_kind : if closing n q then ended n q q' else went_on n q q' }.

Definition now : stage := if batch_agent_calls c then Decided else Received.

Lemma next_act n h s i a i' e : chosen w c n h s i a i' e -> phase_of n h = Ready s ->
  phase_of n (e :: h) = Chosen a /\ (good n h -> good n (e :: h)) /\ own n [e] /\
  got n (e :: h) = got n h /\ (answers w (is_eval c) h -> answers w (is_eval c) (e :: h)) /\
  finished (e :: h) = finished h /\ evaluated (last c) (e :: h) = evaluated (last c) h /\
  (forall ns, executions ns (e :: h) = executions ns h) /\ (forall ns, starts ns (e :: h) = starts ns h).
Proof.
  unfold chosen. destruct (is_eval c n) eqn:He; intros H Hp.
  - destruct H as [-> Hw]. cbn [at_phase next]. repeat split; auto. 
    + cbn. intros _. exact Hp.
    + intros m Hm. constructor; [|constructor]. cbn. eapply eval_only; eauto.
  - destruct H as (-> & -> & Ha). cbn [at_phase next find fst snd]. rewrite Nat.eqb_refl. repeat split; auto.
    + cbn. repeat constructor. intros [].
    + match goal with Hi : In _ _ |- _ => destruct Hi as [Hi|[]]; injection Hi as <- <- end. exact Hp.
    + intros m Hm. constructor; [|constructor]. cbn. split; [intros [|[]]; congruence|]. repeat constructor. intros [].
    + intros n0 s0 a0 [Hi|[]]. injection Hi as <- <- <-. exact Ha.
Qed.

Lemma acted_spec n q q' : good n (log q) -> pending q n = None -> acts now n q -> acted w c n q q' ->
  answers w (is_eval c) (log q) -> terminals q n <= 0 ->
  episode_timestep q n = length (got n (log q)) -> episode_return q n = sum (got n (log q)) ->
  ok n q' (terminals q' n) /\ (exists es, log q' = es ++ log q /\ own n es) /\ answers w (is_eval c) (log q') /\
  finished (log q') = finished (log q) /\ evaluated (last c) (log q') = evaluated (last c) (log q) /\
  (forall ns, executions ns (log q') = (executions ns (log q) + if ns n then 1 else 0)%nat) /\
  (forall ns, starts ns (log q') = starts ns (log q)).
Proof.
  intros Hg Hp Ha [F Hp0 (a & act & es & Hc & Hn & Hl & Hpn) Ht Hr Hts _ _ _ _ _ _ _ _] Hw H0 E1 E2.
  assert (phase_of n (act ++ log q) = Chosen a /\ good n (act ++ log q) /\ own n act /\ got n (act ++ log q) = got n (log q) /\
    answers w (is_eval c) (act ++ log q) /\ finished (act ++ log q) = finished (log q) /\
    evaluated (last c) (act ++ log q) = evaluated (last c) (log q) /\
    (forall ns, executions ns (act ++ log q) = executions ns (log q)) /\
    (forall ns, starts ns (act ++ log q) = starts ns (log q))) as (P1 & P2 & P3 & P4 & P5 & P6 & P7 & P8 & P9).
  { unfold now, chooses in *. destruct (batch_agent_calls c).
    - destruct Hc as (-> & Ea & _). destruct Ha as (a' & Ea' & Ph). rewrite Ea in Ea'. injection Ea' as <-.
      repeat split; auto using own_nil.
    - destruct Hc as (s & e & Es & Hch & ->). destruct Ha as (s' & Es' & Ph). rewrite Es in Es'. injection Es' as <-.
      destruct (next_act _ _ _ _ _ _ _ Hch Ph) as (Q1 & Q2 & Q3 & Q4 & Q5 & Q6 & Q7 & Q8 & Q9). cbn [app]. auto 10. }
  assert (own n (Execute n a :: act)) as P3' by (apply own_cons; auto; intros m Hm; cbn; congruence).
  split; [|split; [|split; [|split; [|split]]]].
  - unfold ok. rewrite Hl, Hpn. split.
    + apply proper_other; [now apply neutral_others|]. cbn. auto.
    + rewrite (phase_other c n), (rewards_others c n) by now apply neutral_others. cbn [at_phase next]. rewrite Nat.eqb_refl.
      repeat split; auto; [lia| |].
      * rewrite Hts, E1. cbn. now rewrite P4.
      * rewrite Hr, E2. cbn. now rewrite P4.
  - exists (es ++ Execute n a :: act). rewrite Hl, <- app_assoc. split; auto. apply own_app; auto. now apply own_neutral.
  - rewrite Hl. apply answers_neutral; auto. cbn. auto.
  - rewrite Hl, finished_neutral by auto. cbn. auto.
  - rewrite Hl, evaluated_neutral by auto. cbn. auto.
  - split; intros ns.
    + rewrite Hl, executions_neutral by auto. cbn. rewrite P8. destruct (ns n); lia.
    + rewrite Hl, starts_neutral by auto. cbn. auto.
Qed.

Lemma told n q q1 r rs : good n (log q) -> pending q n = None -> observed c add n q q1 ->
  0 <= terminals q n <= 2 -> rewards q n = Some r -> got n (log q) = rs ++ [r] -> episode_return q n = sum rs ->
  (batch_agent_calls c = true -> terminate q <> 2) ->
  (if match now with Received => is_eval c n | _ => true end
     then (if terminals q n =? 0 then acts now n q else phase_of n (log q) = Closed)
     else exists s, states q n = Some s /\ phase_of n (log q) = Answered s (terminals q n) r) ->
  answers w (is_eval c) (log q) ->
  good n (log q1) /\ pending q1 n = None /\ got n (log q1) = rs ++ [r] /\ episode_return q1 n = sum (rs ++ [r]) /\
  (exists es, log q1 = es ++ log q /\ own n es) /\ answers w (is_eval c) (log q1) /\
  0 <= terminals q1 n <= 2 /\ (0 <? terminals q1 n) = closing n q /\
  (if 0 <? terminals q1 n then phase_of n (log q1) = Closed else acts now n q1) /\
  finished (log q1) = finished (log q) ++ (if batch_agent_calls c || is_eval c n then [] else
    if 0 <? terminals q1 n then [(n, got n (log q))] else []) /\
  evaluated (last c) (log q1) = evaluated (last c) (log q) /\
  (forall ns, executions ns (log q1) = executions ns (log q)) /\ (forall ns, starts ns (log q1) = starts ns (log q)).
Proof.
  intros Hg Hp [F (r' & Er' & Hl & Hret) Ht Hpn Hst Hts _ _ _ _ _ _] H02 Er Hgot E2 Hb2 Hph Hw.
  rewrite Er in Er'. injection Er' as <-.
  assert (got n (log q1) = got n (log q)) as Eg by (rewrite Hl; unfold observes; destruct (_ || _); reflexivity).
  assert (own n (observes c n (terminals q1 n) r)) as Ho.
  { unfold observes. destruct (_ || _); [apply own_nil|]. intros m Hm. constructor; [|constructor]. cbn. split; [intros [|[]]; congruence|].
    repeat constructor. intros []. }
  assert (0 <= terminals q1 n <= 2) as H02'.
  { rewrite Ht. destruct (aborts c n q); lia. }
  assert ((0 <? terminals q1 n) = closing n q) as Hcl.
  { rewrite Ht. unfold closing. destruct (aborts c n q); [now rewrite orb_true_r|now rewrite orb_false_r]. }
  assert (batch_agent_calls c || is_eval c n = true -> terminals q1 n = terminals q n) as Hsame.
  { intros Hbe. rewrite Ht. unfold aborts. destruct (is_eval c n); auto. rewrite orb_false_r in Hbe. specialize (Hb2 Hbe). cbn [negb andb].
    apply Z.eqb_neq in Hb2. rewrite Hb2, andb_false_r. auto. }
  assert (forall ph, acts ph n q -> log q1 = log q -> acts ph n q1) as Hac.
  { intros ph Ha El. unfold acts in Ha |- *. rewrite El, Hst, (f_actions _ _ _ F). exact Ha. }
  unfold observes in *. unfold now in *. destruct (batch_agent_calls c || is_eval c n) eqn:Hbe.
  - cbn [app] in Hl. specialize (Hsame eq_refl). rewrite !Hl, Hpn, Hret, E2, fold_left_app, Hsame, app_nil_r. 
    assert (match (if batch_agent_calls c then Decided else Received) with Received => is_eval c n | _ => true end = true) as Ex
      by (destruct (batch_agent_calls c); auto).
    rewrite Ex in Hph.
    repeat split; auto; try lia; [exists []; auto using own_nil|congruence|].
    destruct (Z.ltb_spec 0 (terminals q n)); destruct (Z.eqb_spec (terminals q n) 0); try lia; auto.
  - apply orb_false_iff in Hbe. destruct Hbe as [Hb He]. rewrite Hb in *. rewrite He in *. cbn [app] in Hl.
    destruct Hph as (s & Es & Ph).
    assert (terminals q1 n = terminals q n \/ terminals q n = 0 /\ terminals q1 n = 2) as Htt.
    { rewrite Ht. unfold aborts. rewrite He. cbn [negb andb]. destruct (Z.eqb_spec (terminals q n) 0); destruct (Z.eqb_spec (terminate q) 2); cbn [andb]; auto. }
    rewrite Hl. cbn [at_phase next find fst snd map]. rewrite Nat.eqb_refl, Ph. rewrite Hpn, Hret, E2, fold_left_app.
    split; [|split; [|split; [|split; [|split; [|split; [|split; [|split; [|split; [|split; [|split; [|split]]]]]]]]]]]; auto.
    + cbn [proper]. split; auto. cbn. split; [repeat constructor; intros []|].
      intros t' r0 [Hi|[]]. injection Hi as <- <-. split; auto. exists s, (terminals q n). split; auto.
    + eexists [_]. split; [reflexivity|]. auto.
    + cbn. auto.
    + destruct (0 <? terminals q1 n) eqn:Hz; auto. exists s. rewrite Hst. split; auto. rewrite Hl. cbn [at_phase next find fst snd map].
      rewrite He. now rewrite Nat.eqb_refl, Ph, Hz.
    + cbn [finished filter snd fst map]. destruct (0 <? terminals q1 n); reflexivity.
Qed.

Lemma handle_did n q q' : pre now n q -> (batch_agent_calls c = true -> terminate q <> 2) -> answers w (is_eval c) (log q) ->
  handle zero add w c n q = Ok q' -> did n q q'.
Proof.
  intros (Hg & Hp & Hpre) Hb2 Hw H. apply handle_spec in H. destruct H as [Ht Ha|q1 Ht Ho Ht1 Ha|q1 Ht Ho Ht1 Ha].
  - destruct Hpre as [(_ & Hgot & Hts & Hr & Hac)|(r & rs & Hx & _)]; [|lia].
    destruct (acted_spec n q q') as (P1 & P2 & P3 & P4 & P5 & P6 & P7); auto; try (rewrite Hgot; auto; fail); [lia|].
    assert (closing n q = false) as Hcl by (unfold closing, aborts; rewrite Ht; cbn; now rewrite andb_false_r).
    destruct Ha. constructor; auto. rewrite Hcl. constructor; auto.
    + destruct a_log as (a & ? & ? & _ & _ & _ & ->). eauto.
  - destruct Hpre as [(Hx & _)|(r & rs & Hx & Hr & Hgot & Hts & Hret & Hph)]; [lia|].
    destruct (told n q q1 r rs) as (T1 & T2 & T3 & T4 & (es1 & T5 & T5') & T6 & T7 & T8 & T9 & T10 & T11 & T12 & T13); auto.
    rewrite Ht1 in T8, T9, T10. cbn in T8, T9, T10.
    destruct (acted_spec n q1 q') as (P1 & (es2 & P2 & P2') & P3 & P4 & P5 & P6 & P7); auto; try lia; try congruence.
    { rewrite (b_timestep _ _ _ _ _ Ho), T3. auto. }
    destruct Ho. destruct Ha. constructor; auto.
    + eapply frame_trans; eauto.
    + exists (es2 ++ es1). rewrite P2, T5, app_assoc. split; auto using own_app.
    + rewrite <- T8. constructor; auto.
      * destruct a_log as (a & ? & ? & _ & _ & _ & ->). eauto.
      * rewrite P4, T10. destruct (_ || _); now rewrite app_nil_r.
      * congruence.
      * unfold same_records. destruct a_records as (-> & -> & -> & ->). auto.
      * congruence.
      * rewrite a_timesteps, b_timesteps. auto.
      * intros ns. now rewrite P6, T12.
      * intros ns. now rewrite P7, T13.
      * destruct a_term as [->| ->]; auto. destruct b_term as [|[]]; auto.
      * intros Hc Hu. destruct b_term as [<-|[_ Hz]]; [|congruence]. destruct (a_steady Hc); auto.
  - destruct Hpre as [(Hx & _)|(r & rs & Hx & Hr & Hgot & Hts & Hret & Hph)]; [lia|].
    destruct (told n q q1 r rs) as (T1 & T2 & T3 & T4 & (es1 & T5 & T5') & T6 & T7 & T8 & T9 & T10 & T11 & T12 & T13); auto.
    assert ((0 <? terminals q1 n) = true) as Hz by (apply Z.ltb_lt; lia). rewrite Hz in T8, T9, T10. 
    destruct Ho. destruct Ha.
    destruct t_next as (es & Hn & Hnext).
    assert (exists es2, Forall neutral es /\ log q' = es2 ++ log q1 /\ own n es2 /\ ok n q' (terminals q' n) /\
      answers w (is_eval c) (log q') /\ finished (log q') = finished (log q1) /\
      evaluated (last c) (log q') = evaluated (last c) (log q1) /\
      (forall ns, executions ns (log q') = executions ns (log q1)) /\
      (forall ns, starts ns (log q') = (starts ns (log q1) + if restarts q' && ns n then 1 else 0)%nat) /\
      (if restarts q' then pending q' n = Some None else pending q' n = None) /\
      internals q' = if restarts q' && is_eval c n then w_initial w else internals q1)
      as (es2 & _ & P2 & P2' & P1 & P3 & P4 & P5 & P6 & P7 & P8 & P9).
    { destruct Hnext as [(Hl & _ & Hpn & Htn & Hter & Hsy & Hin)|(Hl & Hpn & Htn & Hter & Hin)].
      - exists (Reset n :: es). assert (restarts q' = true) as Hre by (unfold restarts; now rewrite Hter, Hsy).
        rewrite Hre. split; auto. split; auto. split; [apply own_cons; [intros m Hm; cbn; congruence|now apply own_neutral]|].
        split.
        { unfold ok. rewrite Hpn, Hl. cbn [proper allowed at_phase next]. rewrite Nat.eqb_refl.
          rewrite (phase_other c n), T9 by now apply neutral_others. repeat split; auto.
          - apply proper_other; auto. now apply neutral_others.
          - cbn. now rewrite Nat.eqb_refl. }
        rewrite Hl. split; [cbn; split; auto; now apply answers_neutral|].
        split; [cbn; now apply finished_neutral|]. split; [cbn; now apply evaluated_neutral|].
        split; [intros ns; cbn; now apply executions_neutral|].
        split; [intros ns; cbn; rewrite starts_neutral by auto; destruct (ns n); lia|]. auto.
      - exists es. assert (restarts q' = false) as Hre.
        { unfold restarts. destruct Hter as [Hter| ->]; [apply Z.eqb_neq in Hter; now rewrite Hter|now rewrite andb_false_r]. }
        rewrite Hre. split; auto. split; auto. split; [now apply own_neutral|].
        split.
        { unfold ok. rewrite Hpn, Hl, T2. rewrite (phase_other c n) by now apply neutral_others. repeat split; auto; [|lia].
          apply proper_other; auto. now apply neutral_others. }
        rewrite Hl. split; [now apply answers_neutral|].
        split; [now apply finished_neutral|]. split; [now apply evaluated_neutral|].
        split; [intros ns; now apply executions_neutral|].
        split; [intros ns; rewrite starts_neutral by auto; cbn; lia|]. split; [congruence|auto]. }
    constructor; auto.
    + eapply frame_trans; eauto.
    + exists (es2 ++ es1). rewrite P2, T5, app_assoc. split; auto using own_app.
    + rewrite <- T8. constructor; auto.
      * rewrite P4, T10. reflexivity.
      * congruence.
      * unfold new_record. destruct b_records as (B1 & B2 & B3 & B4).
        rewrite T4, b_timestep, Hts, <- Hgot, B1, B2, B3, B4 in t_records. exact t_records.
      * rewrite t_episodes, b_episodes. auto.
      * congruence.
      * intros ns. now rewrite P6, T12.
      * intros ns. now rewrite P7, T13.
      * rewrite P9, b_internals. auto.
      * destruct t_term as [->|(Hz0 & Hz1 & Hz2)]; [tauto|]. destruct b_term as [Hb|[Hb _]]; [|lia]. rewrite Hb in Hz0. tauto.
Qed.

End P.
