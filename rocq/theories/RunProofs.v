(** Lemmas about the runner model *)
From Coq Require Import String List ZArith Lia Bool Arith.
From Verif Require Import Base RunSpec RunModel.
Import ListNotations.
Open Scope string_scope.
Open Scope list_scope.
Open Scope Z_scope.

Lemma bind_inv {X Y} (x : res X) (f : X -> res Y) y : bind x f = Ok y -> exists a, x = Ok a /\ f a = Ok y.
Proof. destruct x; cbn [bind]; intros H; [eauto | discriminate]. Qed.
Lemma upd_same {X} (f : nat -> X) n v : upd f n v n = v.
Proof. unfold upd. now rewrite Nat.eqb_refl. Qed.
Lemma upd_other {X} (f : nat -> X) n v m : m <> n -> upd f n v m = f m.
Proof. intros H. unfold upd. apply Nat.eqb_neq in H. now rewrite H. Qed.

Section P.
Context {S A R I : Type}.
Variable w : world S A R I.
Variable c : config.
Notation runner := (@runner S A R I).
Notation event := (event S A R I).
Notation history := (history S A R I).
Implicit Types q : runner.
Implicit Types h : history.

(** ** What events do to a history *)
Definition neutral (e : event) : Prop := match e with Callback _ | Score _ | Save => True | _ => False end.
Definition other (n : nat) (e : event) : Prop :=
  match e with
  | Reset m | Execute m _ | Wait m | Reply m _ _ _ => m <> n
  | Act l => ~ In n (map (fun x => fst (fst x)) l) /\ NoDup (map (fun x => fst (fst x)) l)
  | Observe l => ~ In n (map (fun x => fst (fst x)) l) /\ NoDup (map (fun x => fst (fst x)) l)
  | ActEval _ _ _ _ => is_eval c n = false
  | _ => True
  end.

Lemma find_out {X Y} n (l : list (nat * X * Y)) :
  ~ In n (map (fun x => fst (fst x)) l) -> find (fun x => Nat.eqb (fst (fst x)) n) l = None.
Proof.
  induction l as [|x l IH]; cbn; auto. intros H. destruct (Nat.eqb_spec (fst (fst x)) n); [tauto|]. apply IH. tauto.
Qed.
Lemma next_other n e p : other n e -> next (is_eval c n) n e p = p.
Proof.
  destruct e; cbn; auto; try (intros H; apply Nat.eqb_neq in H; now rewrite H).
  - intros [H _]. rewrite find_out by auto. now destruct (is_eval c n).
  - intros [H _]. rewrite find_out by auto. now destruct (is_eval c n).
  - intros ->. auto.
Qed.
Lemma allowed_other n e p : other n e -> allowed (is_eval c n) n e p.
Proof.
  destruct e; cbn; auto; try (intros H ?; congruence).
  - intros [H D]. split; auto. intros s a Hi. exfalso. apply H. apply in_map_iff. eexists; split; [|exact Hi]. reflexivity.
  - intros [H D]. split; auto. intros s a Hi. exfalso. apply H. apply in_map_iff. eexists; split; [|exact Hi]. reflexivity.
Qed.
Lemma phase_other n es h : Forall (other n) es -> at_phase (is_eval c n) n (es ++ h) = at_phase (is_eval c n) n h.
Proof. induction 1; cbn [app at_phase]; auto. rewrite next_other; auto. Qed.
Lemma proper_other n es h : Forall (other n) es -> proper (is_eval c n) n h -> proper (is_eval c n) n (es ++ h).
Proof. induction 1; cbn [app proper]; auto. intros. split; auto. now apply allowed_other. Qed.
Lemma rewards_other n e h : other n e -> RunSpec.rewards n (e :: h) = RunSpec.rewards n h.
Proof. destruct e; cbn; auto; try destruct r; auto; intros H; apply Nat.eqb_neq in H; now rewrite H. Qed.
Lemma rewards_others n es h : Forall (other n) es -> RunSpec.rewards n (es ++ h) = RunSpec.rewards n h.
Proof. induction 1; cbn [app]; auto. rewrite rewards_other; auto. Qed.
Lemma waits_other n e h : other n e -> waits n (e :: h) = waits n h.
Proof. destruct e; cbn; auto; intros H; apply Nat.eqb_neq in H; now rewrite H. Qed.
Lemma waits_others n es h : Forall (other n) es -> waits n (es ++ h) = waits n h.
Proof. induction 1; cbn [app]; auto. rewrite waits_other; auto. Qed.
Lemma neutral_other n e : neutral e -> other n e.
Proof. destruct e; cbn; tauto. Qed.
Lemma neutral_others n es : Forall neutral es -> Forall (other n) es.
Proof. intros H. eapply Forall_impl; [|exact H]. intros a. apply neutral_other. Qed.
Lemma finished_neutral es h : Forall neutral es -> finished (es ++ h) = finished h.
Proof. induction 1 as [|e es He]; cbn [app]; auto. destruct e; cbn in *; tauto. Qed.
Lemma evaluated_neutral n es h : Forall neutral es -> evaluated n (es ++ h) = evaluated n h.
Proof. induction 1 as [|e es He]; cbn [app]; auto. destruct e; cbn in *; tauto. Qed.
Lemma starts_neutral ns es h : Forall neutral es -> starts ns (es ++ h) = starts ns h.
Proof. induction 1 as [|e es He]; cbn [app]; auto. destruct e; cbn in *; tauto. Qed.
Lemma executions_neutral ns es h : Forall neutral es -> executions ns (es ++ h) = executions ns h.
Proof. induction 1 as [|e es He]; cbn [app]; auto. destruct e; cbn in *; tauto. Qed.

(** ** Which parts of the runner a call changes *)
Definition counted (n : nat) : bool := negb (is_eval c n) || Nat.eqb (num_environments c) 1.

(** Only environment n's part of the state changes *)
Record frame (n : nat) (q q' : runner) : Prop := Frame {
  f_prev : prev_terminals q' = prev_terminals q;
  f_pending : forall m, m <> n -> pending q' m = pending q m;
  f_terminals : forall m, m <> n -> terminals q' m = terminals q m;
  f_states : forall m, m <> n -> states q' m = states q m;
  f_rewards : forall m, m <> n -> rewards q' m = rewards q m;
  f_actions : actions q' = actions q;
  f_return : forall m, m <> n -> episode_return q' m = episode_return q m;
  f_timestep : forall m, m <> n -> episode_timestep q' m = episode_timestep q m }.

Definition chosen (n : nat) (h : history) (s : S) (i : I) (a : A) (i' : I) (e : event) : Prop :=
  if is_eval c n then e = ActEval s i a i' /\ w_act_eval w h s i = (a, i')
  else e = Act [(n, s, a)] /\ i' = i /\ a = w_act w h [(n, s)] n.
Definition chooses (n : nat) (q : runner) (a : A) (i' : I) (es : list event) : Prop :=
  if batch_agent_calls c then es = [] /\ actions q n = Some a /\ i' = internals q
  else exists s e, states q n = Some s /\ chosen n (log q) s (internals q) a i' e /\ es = [e].
Definition observes (n : nat) (t : Z) (r : R) : list event :=
  if batch_agent_calls c || is_eval c n then [] else [Observe [(n, t, r)]].
Definition steady : Prop := forall h p, w_callback w h p = true.

(** [count_timestep]'s effect *)
Record counts_timestep (n : nat) (q q' : runner) : Prop := CountsTimestep {
  ct_log : exists es, Forall neutral es /\ log q' = es ++ log q;
  ct_q : q' = set_terminate (terminate q') (set_log (log q') (set_timesteps (Datatypes.S (timesteps q)) q));
  ct_term : terminate q' = terminate q \/ terminate q' = 2;
  ct_reached : reached (Datatypes.S (timesteps q)) (num_timesteps c) = true -> terminate q' = 2;
  ct_steady : steady \/ callback_timestep_frequency c = None /\ episode_timestep q n <> 0%nat ->
    terminate q' = terminate q \/ reached (Datatypes.S (timesteps q)) (num_timesteps c) = true }.

Lemma count_timestep_spec n p q : counts_timestep n q (count_timestep w c n p q).
Proof.
  unfold count_timestep, call_back, steady. destruct (divides _ _) eqn:Hd.
  - split.
    + exists [Callback p]. split; [repeat constructor|]. destruct (_ || _); reflexivity.
    + destruct (_ || _); reflexivity.
    + destruct (_ || _); cbn; auto.
    + cbn. intros ->. now rewrite orb_true_r.
    + cbn. intros [->|[Hn He]]; [cbn [negb orb]; destruct (reached _ _); auto|].
      rewrite Hn in Hd. cbn in Hd. apply Nat.eqb_eq in Hd. contradiction.
  - split.
    + exists []. split; [constructor|]. destruct (_ || _); reflexivity.
    + destruct (_ || _); reflexivity.
    + destruct (_ || _); cbn; auto.
    + cbn. intros ->. auto.
    + cbn. destruct (reached _ _); auto.
Qed.

(** The agent chooses an action, which is executed *)
Record acted (n : nat) (q q' : runner) : Prop := Acted {
  a_frame : frame n q q';
  a_pending0 : pending q n = None;
  a_log : exists a act es, chooses n q a (internals q') act /\ Forall neutral es /\ log q' = es ++ Execute n a :: act ++ log q /\
          pending q' n = Some (Some a);
  a_terminals : terminals q' n = terminals q n;
  a_return : episode_return q' = episode_return q;
  a_timestep : episode_timestep q' n = Datatypes.S (episode_timestep q n);
  a_timesteps : timesteps q' = (timesteps q + if counted n then 1 else 0)%nat;
  a_episodes : episodes q' = episodes q;
  a_updates : updates q' = updates q;
  a_records : episode_returns q' = episode_returns q /\ episode_timesteps q' = episode_timesteps q /\
              evaluation_returns q' = evaluation_returns q /\ evaluation_timesteps q' = evaluation_timesteps q;
  a_best : best q' = best q;
  a_term : terminate q' = terminate q \/ terminate q' = 2;
  a_reached : counted n = true -> reached (timesteps q') (num_timesteps c) = true -> terminate q' = 2;
  a_steady : steady \/ callback_timestep_frequency c = None -> terminate q' = terminate q \/ counted n = true /\ reached (timesteps q') (num_timesteps c) = true }.

Ltac fr := constructor; cbn; intros; auto using upd_other.

Lemma start_execute_ok n a q q' : start_execute n a q = Ok q' -> pending q n = None /\ q' = emit (Execute n a) (set_pending (upd (pending q) n (Some (Some a))) q).
Proof. unfold start_execute. destruct (pending q n); intros [= <-]; auto. Qed.
Lemma start_reset_ok n q q' : start_reset n q = Ok q' -> pending q n = None /\ q' = emit (Reset n) (set_pending (upd (pending q) n (Some None)) q).
Proof. unfold start_reset. destruct (pending q n); intros [= <-]; auto. Qed.

Lemma handle_act_spec n q q' : is_eval c n = false -> handle_act w c n q = Ok q' -> acted n q q'.
Proof.
  intros He H. unfold handle_act in H. apply bind_inv in H. destruct H as (q1 & H1 & H2).
  assert (exists a act, chooses n q a (internals q) act /\ pending q n = None /\
    q1 = emit (Execute n a) (set_pending (upd (pending q) n (Some (Some a))) (set_log (act ++ log q) q))) as (a & act & Hc & Hp & ->).
  { unfold chooses. destruct (batch_agent_calls c).
    - destruct (actions q n) as [a|] eqn:E; [|discriminate]. apply start_execute_ok in H1. destruct H1 as [Hp ->].
      exists a, []. repeat split; auto.
    - destruct (states q n) as [s|] eqn:E; [|discriminate]. apply start_execute_ok in H1. destruct H1 as [Hp ->].
      eexists _, [_]. split; [exists s; eexists; split; [reflexivity|]; split; [|reflexivity]; unfold chosen; rewrite He; repeat split; reflexivity|].
      split; [exact Hp|reflexivity]. }
  clear H1. injection H2 as <-.
  match goal with |- context [count_timestep w c n ?p ?x] => destruct (count_timestep_spec n p x) as [(es & Hn & Hl) Hq Ht Hr Hs]; set (q' := count_timestep w c n p x) in * end.
  clearbody q'. cbn in Hr, Hs, Ht, Hl. 
  assert (counted n = true) as Hct by (unfold counted; now rewrite He).
  constructor.
  - constructor; rewrite Hq; cbn; intros; auto using upd_other.
  - auto.
  - exists a, act, es. split; [rewrite Hq; exact Hc|]. repeat split; auto. rewrite Hq. cbn. now rewrite upd_same.
  - now rewrite Hq.
  - now rewrite Hq.
  - rewrite Hq. cbn. now rewrite upd_same.
  - rewrite Hq, Hct. cbn. lia.
  - now rewrite Hq.
  - now rewrite Hq.
  - now rewrite Hq.
  - now rewrite Hq.
  - auto.
  - intros _. rewrite Hq at 1. cbn. auto.
  - intros Hst. rewrite Hq at 2. cbn. rewrite upd_same in Hs. destruct Hs; auto. destruct Hst; auto.
Qed.

Lemma handle_act_evaluation_spec n q q' : is_eval c n = true -> handle_act_evaluation w c q = Ok q' -> acted n q q'.
Proof.
  intros He H. assert (n = last c) as -> by (unfold is_eval in He; apply andb_prop in He; now apply Nat.eqb_eq).
  assert (evaluation_run c = true) as Hev by (unfold is_eval in He; now apply andb_prop in He).
  unfold handle_act_evaluation in H. apply bind_inv in H. destruct H as (q1 & H1 & H2).
  assert (exists a act i, chooses (last c) q a i act /\ pending q (last c) = None /\
    q1 = emit (Execute (last c) a) (set_pending (upd (pending q) (last c) (Some (Some a))) (set_internals i (set_log (act ++ log q) q)))) as (a & act & i & Hc & Hp & ->).
  { unfold chooses. destruct (batch_agent_calls c).
    - destruct (actions q (last c)) as [a|] eqn:E; [|discriminate]. apply start_execute_ok in H1. destruct H1 as [Hp ->].
      exists a, [], (internals q). repeat split; auto.
    - destruct (states q (last c)) as [s|] eqn:E; [|discriminate]. destruct (w_act_eval w _ _ _) as [a i] eqn:Ea.
      apply start_execute_ok in H1. destruct H1 as [Hp ->].
      eexists _, [_], _. split; [exists s; eexists; split; [reflexivity|]; split; [|reflexivity]; unfold chosen; rewrite He; split; [reflexivity|exact Ea]|].
      split; [exact Hp|reflexivity]. }
  clear H1. rewrite Hev in H2. cbn [andb] in H2.
  destruct (Nat.eqb (num_environments c) 1) eqn:H1.
  - injection H2 as <-.
    match goal with |- context [count_timestep w c ?n ?p ?x] => destruct (count_timestep_spec n p x) as [(es & Hn & Hl) Hq Ht Hr Hs]; set (q' := count_timestep w c n p x) in * end.
    clearbody q'. cbn in Hr, Hs, Ht, Hl.
    assert (counted (last c) = true) as Hct by (unfold counted; now rewrite H1, orb_true_r).
    constructor.
    + constructor; rewrite Hq; cbn; intros; auto using upd_other.
    + auto.
    + exists a, act, es. split; [rewrite Hq; exact Hc|]. repeat split; auto. rewrite Hq. cbn. now rewrite upd_same.
    + now rewrite Hq.
    + now rewrite Hq.
    + rewrite Hq. cbn. now rewrite upd_same.
    + rewrite Hq, Hct. cbn. lia.
    + now rewrite Hq.
    + now rewrite Hq.
    + now rewrite Hq.
    + now rewrite Hq.
    + auto.
    + intros _. rewrite Hq at 1. cbn. auto.
    + intros Hst. rewrite Hq at 2. cbn. rewrite upd_same in Hs. destruct Hs; auto. destruct Hst; auto.
  - injection H2 as <-.
    assert (counted (last c) = false) as Hct by (unfold counted; now rewrite H1, He).
    constructor; cbn; auto.
    + constructor; cbn; intros; auto using upd_other.
    + exists a, act, []. split; [exact Hc|]. repeat split; auto. now rewrite upd_same.
    + now rewrite upd_same.
    + rewrite Hct. lia.
    + congruence.
Qed.

Variable zero : R.
Variable add : R -> R -> R.

(** The reward is counted and the agent told *)
Definition aborts (n : nat) (q : runner) : bool := negb (is_eval c n) && (terminals q n =? 0) && (terminate q =? 2).
Record observed (n : nat) (q q' : runner) : Prop := Observed {
  b_frame : frame n q q';
  b_log : exists r, rewards q n = Some r /\ log q' = observes n (terminals q' n) r ++ log q /\
          episode_return q' n = add (episode_return q n) r;
  b_terminals : terminals q' n = if aborts n q then 2 else terminals q n;
  b_pending : pending q' = pending q;
  b_states : states q' = states q;
  b_timestep : episode_timestep q' = episode_timestep q;
  b_timesteps : timesteps q' = timesteps q;
  b_episodes : episodes q' = episodes q;
  b_records : episode_returns q' = episode_returns q /\ episode_timesteps q' = episode_timesteps q /\
              evaluation_returns q' = evaluation_returns q /\ evaluation_timesteps q' = evaluation_timesteps q;
  b_best : best q' = best q;
  b_internals : internals q' = internals q;
  b_term : terminate q' = terminate q \/ terminate q' = 2 /\ num_updates c <> None }.

Lemma handle_observe_spec n q q' : is_eval c n = false -> handle_observe add w c n q = Ok q' -> observed n q q'.
Proof.
  intros He H. unfold handle_observe in H. destruct (rewards q n) as [r|] eqn:Hr; [|discriminate].
  cbv zeta in H.
  match type of H with context [if ?b then set_terminals ?x ?y else ?z] => set (q1 := if b then set_terminals x y else z) in H end.
  match type of H with context [if batch_agent_calls c then q1 else ?z] => set (q2 := if batch_agent_calls c then q1 else z) in H end.
  injection H as <-.
  assert (q1 = set_terminals (terminals q1) (set_episode_return (upd (episode_return q) n (add (episode_return q n) r)) q)) as E1
    by (unfold q1; destruct (_ && _); reflexivity).
  assert (terminals q1 n = if aborts n q then 2 else terminals q n) as Et.
  { unfold q1, aborts. rewrite He. cbn [negb andb]. cbn. destruct (_ && _); cbn; auto. now rewrite upd_same. }
  assert (forall m, m <> n -> terminals q1 m = terminals q m) as Eo
    by (intros m Hm; unfold q1; destruct (_ && _); cbn; auto using upd_other).
  clearbody q1.
  assert (q2 = set_updates (updates q2) (set_log (observes n (terminals q1 n) r ++ log q1) q1)) as E2.
  { unfold q2, observes. rewrite He, orb_false_r. destruct (batch_agent_calls c); cbn; [destruct q1|]; reflexivity. }
  clearbody q2.
  match goal with |- observed _ _ ?x => set (q3 := x) end.
  assert (q3 = set_terminate (terminate q3) q2) as E3 by (unfold q3; destruct (reached _ _); [|destruct q2]; reflexivity).
  assert (terminate q3 = terminate q2 \/ terminate q3 = 2 /\ num_updates c <> None) as E4.
  { unfold q3, reached. destruct (num_updates c); auto. destruct (Nat.leb _ _); cbn; auto. right. split; congruence. }
  clearbody q3.
  assert (terminals q3 = terminals q1) as E5 by (rewrite E3, E2; reflexivity).
  constructor; rewrite ?E5; auto; try (rewrite E3, E2, E1; reflexivity).
  - constructor; try (rewrite E3, E2, E1; reflexivity); rewrite ?E5; auto; intros; rewrite E3, E2, E1; cbn; auto using upd_other.
  - exists r. split; auto. split; [rewrite E3, E2; cbn; now rewrite E1|]. rewrite E3, E2, E1. cbn. now rewrite upd_same.
  - rewrite E3, E2, E1. cbn. auto.
  - destruct E4 as [E4|]; auto. left. rewrite E4, E2, E1. reflexivity.
Qed.
Lemma handle_observe_evaluation_spec n q q' : is_eval c n = true -> handle_observe_evaluation add c q = Ok q' -> observed n q q'.
Proof.
  intros He H. assert (n = last c) as -> by (unfold is_eval in He; apply andb_prop in He; now apply Nat.eqb_eq).
  unfold handle_observe_evaluation in H. destruct (rewards q (last c)) as [r|] eqn:Hr; [|discriminate]. injection H as <-.
  constructor; cbn; auto.
  - constructor; cbn; intros; auto using upd_other.
  - exists r. split; auto. unfold observes. rewrite He, orb_true_r. split; auto. now rewrite upd_same.
  - unfold aborts. now rewrite He.
Qed.

(** An episode is recorded as finished, and perhaps a new one started *)
Record terminated (n : nat) (q q' : runner) : Prop := Terminated {
  t_frame : frame n q q';
  t_next : exists es, Forall neutral es /\
    (log q' = Reset n :: es ++ log q /\ pending q n = None /\ pending q' n = Some None /\ terminals q' n <= 0 /\
     terminate q' = 0 /\ sync_episodes c = false /\ internals q' = (if is_eval c n then w_initial w else internals q) \/
     log q' = es ++ log q /\ pending q' n = pending q n /\ terminals q' n = terminals q n /\
     (terminate q' <> 0 \/ sync_episodes c = true) /\ internals q' = internals q);
  t_return : episode_return q' n = zero;
  t_timestep : episode_timestep q' n = 0%nat;
  t_timesteps : timesteps q' = timesteps q;
  t_episodes : episodes q' = (episodes q + if counted n then 1 else 0)%nat;
  t_updates : updates q' = updates q;
  t_records : if is_eval c n then
      episode_returns q' = episode_returns q /\ episode_timesteps q' = episode_timesteps q /\
      evaluation_returns q' = evaluation_returns q ++ [episode_return q n] /\
      evaluation_timesteps q' = evaluation_timesteps q ++ [episode_timestep q n]
    else
      episode_returns q' = episode_returns q ++ [episode_return q n] /\
      episode_timesteps q' = episode_timesteps q ++ [episode_timestep q n] /\
      evaluation_returns q' = evaluation_returns q /\ evaluation_timesteps q' = evaluation_timesteps q;
  t_term : terminate q' = terminate q \/ terminate q = 0 /\ terminate q' = 1 /\ counted n = true /\
           (steady -> reached (episodes q') (num_episodes c) = true);
  t_reached : terminate q' = 0 -> counted n = true -> reached (episodes q') (num_episodes c) = false }.

Record counts_episode (q q' : runner) : Prop := CountsEpisode {
  ce_log : exists es, Forall neutral es /\ log q' = es ++ log q;
  ce_q : q' = set_terminate (terminate q') (set_log (log q') (set_episodes (Datatypes.S (episodes q)) q));
  ce_term : terminate q' = terminate q \/ terminate q = 0 /\ terminate q' = 1 /\
            (steady -> reached (Datatypes.S (episodes q)) (num_episodes c) = true);
  ce_reached : terminate q' = 0 -> reached (Datatypes.S (episodes q)) (num_episodes c) = false }.
Lemma count_episode_spec p q : counts_episode q (count_episode w c p q).
Proof.
  unfold count_episode, call_back. cbn.
  destruct (Z.eqb_spec (terminate q) 0) as [Ht|Ht]; cbn.
  2:{ constructor; cbn; auto; [exists []; auto | tauto]. }
  assert (forall x b q1 es, Forall neutral es ->
     q1 = set_log (es ++ log q) (set_episodes (Datatypes.S (episodes q)) q) -> (b = true -> ~ steady) ->
     x = (if b || reached (episodes q1) (num_episodes c) then set_terminate 1 q1 else q1) -> counts_episode q x) as G.
  { intros x b q1 es Hn E Hb ->. replace (episodes q1) with (Datatypes.S (episodes q)) by (rewrite E; reflexivity).
    assert (log q1 = es ++ log q) as El by (rewrite E; reflexivity).
    assert (terminate q1 = terminate q) as Et by (rewrite E; reflexivity).
    destruct (reached _ _) eqn:Er; destruct b; cbn [orb]; constructor; rewrite ?Er; cbn; rewrite ?Et; eauto 6;
      try (rewrite E; reflexivity); try lia.
    right. repeat split; auto. intros Hs. now specialize (Hb eq_refl). }
  destruct (divides _ _); cbn.
  - eapply (G _ (negb (w_callback w (log q) p)) _ [Callback p]); [repeat constructor|reflexivity| |reflexivity].
    intros Hb Hs. rewrite Hs in Hb. discriminate.
  - eapply (G _ false _ []); [constructor|reflexivity|discriminate|reflexivity].
Qed.

Lemma handle_terminal_spec n q q' : is_eval c n = false -> handle_terminal zero w c n q = Ok q' -> terminated n q q'.
Proof.
  intros He H. unfold handle_terminal in H.
  match type of H with context [count_episode w c ?p ?x] => destruct (count_episode_spec p x) as [(es & Hn & Hl) Hq Ht Hr]; set (q1 := count_episode w c p x) in * end.
  clearbody q1. cbn in Ht, Hr, Hl. cbn [terminate set_episode_return set_episode_timestep] in H.
  assert (counted n = true) as Hct by (unfold counted; now rewrite He).
  destruct ((terminate q1 =? 0) && negb (sync_episodes c)) eqn:Hx.
  - apply andb_prop in Hx. destruct Hx as [Hx1 Hx2]. apply Z.eqb_eq in Hx1. apply negb_true_iff in Hx2.
    apply start_reset_ok in H. destruct H as [Hp ->]. cbn in Hp.
    constructor; cbn; rewrite ?upd_same, ?He; auto; try (rewrite Hq; reflexivity).
    + constructor; cbn; rewrite Hq; cbn; intros; rewrite ?upd_other by auto; auto.
    + exists es. split; auto. left. rewrite Hl. repeat split; auto; try lia; rewrite Hq in *; auto.
    + rewrite Hq, Hct. cbn. lia.
    + rewrite Hq. repeat split.
    + rewrite Hct. rewrite Hq at 3. cbn. destruct Ht as [Ht|(? & ? & ?)]; auto 6.
    + intros. rewrite Hq. cbn. auto.
  - injection H as <-. apply andb_false_iff in Hx.
    assert (terminate q1 <> 0 \/ sync_episodes c = true) as Hx'.
    { destruct Hx as [Hx|Hx]; [left; now apply Z.eqb_neq|right; now apply negb_false_iff]. }
    constructor; cbn; rewrite ?upd_same, ?He; auto; try (rewrite Hq; reflexivity).
    + constructor; cbn; rewrite Hq; cbn; intros; rewrite ?upd_other by auto; auto.
    + exists es. split; auto. right. rewrite Hl. repeat split; auto; rewrite Hq; auto.
    + rewrite Hq, Hct. cbn. lia.
    + rewrite Hq. repeat split.
    + rewrite Hct. rewrite Hq at 3. cbn. destruct Ht as [Ht|(? & ? & ?)]; auto 6.
    + intros. rewrite Hq. cbn. auto.
Qed.

Lemma evaluate_spec q : exists es b, Forall neutral es /\ evaluate w c q = set_best b (set_log (es ++ log q) q).
Proof.
  unfold evaluate. destruct (save_best_agent c).
  - cbn. destruct (best q) eqn:E; [destruct (_ <? _)|].
    + eexists [_; _], _. split; [|reflexivity]. repeat constructor.
    + eexists [_], (Some z). split; [|rewrite <- E; reflexivity]. repeat constructor.
    + eexists [_], _. split; [|reflexivity]. repeat constructor.
  - exists [], (best q). split; [constructor|]. destruct q; reflexivity.
Qed.

Lemma handle_terminal_evaluation_spec n q q' : is_eval c n = true -> handle_terminal_evaluation zero w c q = Ok q' -> terminated n q q'.
Proof.
  intros He H. assert (n = last c) as -> by (unfold is_eval in He; apply andb_prop in He; now apply Nat.eqb_eq).
  assert (evaluation_run c = true) as Hev by (unfold is_eval in He; now apply andb_prop in He).
  unfold handle_terminal_evaluation in H.
  set (q0 := set_evaluation_timesteps _ _) in H. destruct (evaluate_spec q0) as (es0 & b & Hn0 & E0). rewrite E0 in H.
  rewrite Hev in H. cbn [andb] in H.
  assert (exists q1 es, Forall neutral es /\ log q1 = es ++ log q /\
     q1 = set_terminate (terminate q1) (set_log (log q1) (set_best b (set_episodes (episodes q + if counted (last c) then 1 else 0)%nat q0))) /\
     (terminate q1 = terminate q \/ terminate q = 0 /\ terminate q1 = 1 /\ counted (last c) = true /\
           (steady -> reached (episodes q1) (num_episodes c) = true)) /\
     (terminate q1 = 0 -> counted (last c) = true -> reached (episodes q1) (num_episodes c) = false) /\
     (let q := set_episode_return (upd (episode_return q1) (last c) zero) q1 in
      let q := set_episode_timestep (upd (episode_timestep q) (last c) 0%nat) q in
      (if (terminate q =? 0) && negb (sync_episodes c) then
        do q <- start_reset (last c) (set_terminals (upd (terminals q) (last c) 0) q);
        Ok (set_internals (w_initial w) q) else Ok q) = Ok q')) as (q1 & es & Hn & Hl & Hq & Ht & Hr & H1).
  { destruct (Nat.eqb (num_environments c) 1) eqn:H1.
    - match type of H with context [count_episode w c ?p ?x] => destruct (count_episode_spec p x) as [(es & Hn & Hl) Hq Ht Hr]; set (q1 := count_episode w c p x) in * end.
      clearbody q1. assert (counted (last c) = true) as Hct by (unfold counted; now rewrite H1, orb_true_r).
      exists q1, (es ++ es0). rewrite Hct. split; [now apply Forall_app|]. split; [rewrite Hl, <- app_assoc; reflexivity|].
      split; [rewrite Hq at 1; rewrite Nat.add_1_r; reflexivity|].
      assert (episodes q1 = Datatypes.S (episodes q)) as Ee by (rewrite Hq; reflexivity). rewrite Ee.
      cbn in Ht, Hr. split; [destruct Ht as [Ht|(? & ? & ?)]; auto 6|]. split; auto.
    - exists (set_best b (set_log (es0 ++ log q0) q0)), es0.
      assert (counted (last c) = false) as Hct by (unfold counted; now rewrite H1, He). rewrite Hct.
      split; auto. split; [reflexivity|]. split; [rewrite Nat.add_0_r; reflexivity|]. split; [auto|]. split; [congruence|exact H]. }
  clear H. rename H1 into H. cbn [terminate set_episode_return set_episode_timestep] in H. cbv zeta in H.
  assert (episodes q1 = (episodes q + if counted (last c) then 1 else 0)%nat) as Ee by (rewrite Hq; reflexivity).
  destruct ((terminate q1 =? 0) && negb (sync_episodes c)) eqn:Hx.
  - apply andb_prop in Hx. destruct Hx as [Hx1 Hx2]. apply Z.eqb_eq in Hx1. apply negb_true_iff in Hx2.
    apply bind_inv in H. destruct H as (q2 & H2 & H3). injection H3 as <-.
    apply start_reset_ok in H2. destruct H2 as [Hp ->]. cbn in Hp.
    constructor; cbn; rewrite ?upd_same, ?He; auto; try (rewrite Hq; reflexivity).
    + constructor; cbn; rewrite Hq; cbn; intros; rewrite ?upd_other by auto; auto.
    + exists es. split; auto. left. rewrite Hl. repeat split; auto; try lia; rewrite Hq in *; auto.
    + rewrite Hq. repeat split.
  - injection H as <-. apply andb_false_iff in Hx.
    assert (terminate q1 <> 0 \/ sync_episodes c = true) as Hx'.
    { destruct Hx as [Hx|Hx]; [left; now apply Z.eqb_neq|right; now apply negb_false_iff]. }
    constructor; cbn; rewrite ?upd_same, ?He; auto; try (rewrite Hq; reflexivity).
    + constructor; cbn; rewrite Hq; cbn; intros; rewrite ?upd_other by auto; auto.
    + exists es. split; auto. right. rewrite Hl. repeat split; auto; rewrite Hq; auto.
    + rewrite Hq. repeat split.
Qed.

(** One visit's handling of an answer *)
Inductive handled (n : nat) (q q' : runner) : Prop :=
| h_first : terminals q n = -1 -> acted n q q' -> handled n q q'
| h_step q1 : terminals q n <> -1 -> observed n q q1 -> terminals q1 n = 0 -> acted n q1 q' -> handled n q q'
| h_last q1 : terminals q n <> -1 -> observed n q q1 -> terminals q1 n <> 0 -> terminated n q1 q' -> handled n q q'.

Lemma handle_spec n q q' : handle zero add w c n q = Ok q' -> handled n q q'.
Proof.
  unfold handle. destruct (is_eval c n) eqn:He; destruct (Z.eqb_spec (terminals q n) (-1)) as [Ht|Ht]; intros H.
  - apply h_first; auto. now apply handle_act_evaluation_spec.
  - apply bind_inv in H. destruct H as (q1 & H1 & H2). apply (handle_observe_evaluation_spec n) in H1; auto.
    destruct (Z.eqb_spec (terminals q1 n) 0) as [E|E].
    + apply h_step with q1; auto. now apply handle_act_evaluation_spec.
    + apply h_last with q1; auto. now apply handle_terminal_evaluation_spec.
  - apply h_first; auto. now apply handle_act_spec.
  - apply bind_inv in H. destruct H as (q1 & H1 & H2). apply (handle_observe_spec n) in H1; auto.
    destruct (Z.eqb_spec (terminals q1 n) 0) as [E|E].
    + apply h_step with q1; auto. now apply handle_act_spec.
    + apply h_last with q1; auto. now apply handle_terminal_spec.
Qed.
End P.
