(** Theorems on Runner.run (C29-C33, C62, C63).

    A run is [run zero add w c fuel]: up to [fuel] passes of the loop; it stopped once [running] is
    false, and further passes change nothing. *)
From Coq Require Import String List ZArith Lia Bool Arith.
From Verif Require Import Base RunSpec RunModel RunProofs RunInv RunHist RunLoop RunBatch RunPass RunHead RunEnd RunKeep.
Import ListNotations.
Open Scope string_scope.
Open Scope list_scope.
Open Scope Z_scope.

(** ** Vocabulary *)
Section Spec.
Context {S A R I : Type}.
Variable w : world S A R I.
Variable c : config.
Notation history := (history S A R I).
Notation runner := (@runner S A R I).
Notation k := (num_environments c).

(** The environments whose episodes and timesteps are counted: all but the evaluation
    environment, unless it is the only one (runner.py 768-775, 889-895) *)
Definition works (n : nat) : bool := negb (evaluation_run c && Nat.eqb n (k - 1)) || Nat.eqb k 1.
Definition workers : nat := if evaluation_run c && negb (Nat.eqb k 1) then k - 1 else k.
Definition evaluates (n : nat) : bool := evaluation_run c && Nat.eqb n (k - 1).
(** Finished episodes of these environments *)
Definition finished_count (h : history) : nat :=
  if evaluation_run c && Nat.eqb k 1 then length (evaluated (k - 1) h) else length (finished h).
Definition stopped (q : runner) : Prop := running c q = false.
(** Arguments as documented: limits are positive (runner.py 245-255), at least one environment, and
    the parallel options are not used for a single one *)
Record sensible : Prop := Sensible {
  s_envs : (0 < k)%nat;
  s_parallel : k = 1%nat -> batch_agent_calls c = false /\ sync_timesteps c = false /\ sync_episodes c = false;
  s_episodes : num_episodes c <> Some 0%nat;
  s_timesteps : num_timesteps c <> Some 0%nat }.
(** Agent calls are not batched, or nothing but the end of an episode ends it *)
Definition undisturbed : Prop :=
  batch_agent_calls c = false \/
  num_timesteps c = None /\ num_updates c = None /\ (goes_on w \/ callback_timestep_frequency c = None).
End Spec.

Section Props.
Context {S A R I : Type}.
Variable zero : R.
Variable add : R -> R -> R.
Variable w : world S A R I.
Variable c : config.
Notation history := (history S A R I).
Notation runner := (@runner S A R I).
Notation k := (num_environments c).
Notation head := (RunHead.head zero add w c).

Lemma workers_cnt : (0 < k)%nat -> cnt k (counted c) = workers c.
Proof.
  intros Hk. unfold workers. destruct (evaluation_run c && negb (k =? 1)%nat) eqn:He.
  - apply andb_prop in He. destruct He as [He H1]. apply negb_true_iff in H1.
    assert (cnt k (counted c) + length [last c] = cnt k (fun _ => true))%nat as E.
    { apply cnt_remove.
      - constructor; [intros []|constructor].
      - intros n [<-|[]]. split; auto. unfold last. lia.
      - intros m. unfold counted, is_eval. rewrite He, H1. cbn. now rewrite !orb_false_r. }
    cbn [length] in E. assert (cnt k (fun _ => true) = k) as E2; [|lia].
    unfold cnt. rewrite <- (seq_length k 0) at 2. f_equal. clear. induction (seq 0 k); cbn; congruence.
  - rewrite (cnt_ext k (counted c) (fun _ => true)).
    + unfold cnt. rewrite <- (seq_length k 0) at 2. f_equal. clear. induction (seq 0 k); cbn; congruence.
    + intros m _. unfold counted, is_eval. destruct (evaluation_run c); cbn in *; auto. apply negb_false_iff in He. rewrite He. apply orb_true_r.
Qed.
Lemma sensible_refused : sensible c -> refused c = false.
Proof.
  intros [_ H _ _]. unfold refused. destruct (Nat.eqb_spec k 1) as [E|E]; auto. destruct (H E) as (-> & -> & ->). reflexivity.
Qed.
Lemma the_run fuel : valid w -> undisturbed w c -> sensible c -> exists q, run zero add w c fuel = Ok q /\ head q.
Proof. intros Hv Hu Hs. apply run_spec; auto; try apply Hs. now apply sensible_refused. Qed.
Lemma is_head fuel q : valid w -> undisturbed w c -> sensible c -> run zero add w c fuel = Ok q -> head q.
Proof. intros Hv Hu Hs E. destruct (the_run fuel Hv Hu Hs) as (q' & E' & H). congruence. Qed.
Lemma episodes_finished (q : runner) : head q -> episodes q = finished_count c (log q).
Proof.
  intros H. destruct (h_books _ _ _ _ _ (h_core _ _ _ _ _ H)) as [(dr & E1 & _ & _ & E2) Hev _].
  unfold finished_count. change (evaluation_run c && (k =? 1)%nat) with (single c). destruct (single c) eqn:Hs.
  - assert (evaluation_run c = true) as He by (unfold single in Hs; now apply andb_prop in Hs).
    destruct (Hev He) as (de & F1 & _ & _ & F2). rewrite F2 by auto. change (k - 1)%nat with (last c). now rewrite F1, app_nil_r.
  - rewrite app_nil_r in E1. rewrite E2 by auto. rewrite <- E1. apply map_length.
Qed.
Lemma stopped_all (q : runner) : stopped c q <-> forall m, (m < k)%nat -> 0 < prev_terminals q m.
Proof.
  unfold stopped, running. split.
  - intros H m Hm. destruct (Z.ltb_spec 0 (prev_terminals q m)); auto. assert (existsb (fun n => prev_terminals q n <=? 0) (seq 0 k) = true); [|congruence].
    apply existsb_exists. exists m. split; [apply in_seq; lia|]. now apply Z.leb_le.
  - intros H. destruct (existsb _ _) eqn:E; auto. apply existsb_exists in E. destruct E as (m & Hm & Hle). apply in_seq in Hm. apply Z.leb_le in Hle. specialize (H m). lia.
Qed.
Lemma stopped_why (q : runner) : (0 < k)%nat -> head q -> stopped c q -> goes_on w -> num_updates c = None ->
  reached (episodes q) (num_episodes c) = true \/ sync_episodes c = false /\ reached (timesteps q) (num_timesteps c) = true.
Proof.
  intros Hk H Hst Hg Hu. rewrite stopped_all in Hst. destruct (sync_episodes c) eqn:Hs.
  - left. apply (h_sync _ _ _ _ _ H); auto.
  - destruct (Z.eq_dec (terminate q) 0) as [E|E].
    + destruct (h_open _ _ _ _ _ H Hs E) as [_ Ho]. specialize (Ho 0%nat). specialize (Hst 0%nat). lia.
    + destruct (l_why _ _ _ (h_ctl _ _ _ _ _ (h_core _ _ _ _ _ H)) E Hg Hu); auto.
Qed.

(** ** C29 *)
(** At any time, at most N + k - 1 episodes were finished (with sync_episodes, max N k). *)
Theorem C29_finishes_at_most fuel q N : valid w -> undisturbed w c -> sensible c -> num_episodes c = Some N ->
  run zero add w c fuel = Ok q ->
  (finished_count c (log q) <= if sync_episodes c then Nat.max N (workers c) else N + workers c - 1)%nat.
Proof.
  intros Hv Hu Hs HN E. pose proof (is_head fuel q Hv Hu Hs E) as H. rewrite <- episodes_finished by auto.
  pose proof (h_bound _ _ _ _ _ H N HN) as B. rewrite workers_cnt in B by apply Hs.
  pose proof (h_count _ _ _ _ _ (h_core _ _ _ _ _ H)) as C. unfold count_ok in C. lia.
Qed.

(** When it stopped and no other limit was given, at least N were. *)
Theorem C29_finishes_at_least fuel q N : valid w -> goes_on w -> sensible c -> num_episodes c = Some N ->
  num_timesteps c = None -> num_updates c = None -> run zero add w c fuel = Ok q -> stopped c q ->
  (N <= finished_count c (log q))%nat.
Proof.
  intros Hv Hg Hs HN HT HU E Hst. assert (undisturbed w c) as Hu by (right; auto).
  pose proof (is_head fuel q Hv Hu Hs E) as H. rewrite <- episodes_finished by auto.
  destruct (stopped_why q (s_envs _ Hs) H Hst Hg HU) as [Hr|[_ Hr]]; [rewrite HN in Hr; now apply Nat.leb_le in Hr|rewrite HT in Hr; discriminate].
Qed.

(** Exactly N: with one counted environment, or with sync_episodes if N is not smaller than their number. *)
Theorem C29_finishes_exactly fuel q N : valid w -> goes_on w -> sensible c -> num_episodes c = Some N ->
  num_timesteps c = None -> num_updates c = None ->
  workers c = 1%nat \/ sync_episodes c = true /\ (workers c <= N)%nat ->
  run zero add w c fuel = Ok q -> stopped c q -> finished_count c (log q) = N.
Proof.
  intros Hv Hg Hs HN HT HU Hw E Hst. assert (undisturbed w c) as Hu by (right; auto).
  pose proof (C29_finishes_at_least fuel q N Hv Hg Hs HN HT HU E Hst).
  pose proof (C29_finishes_at_most fuel q N Hv Hu Hs HN E). pose proof (s_episodes _ Hs). rewrite HN in *.
  assert (N <> 0%nat) by congruence. destruct (sync_episodes c), Hw as [Hw|[Hw1 Hw2]]; try discriminate; lia.
Qed.

(** It stops if every episode ends and every answer arrives. *)
Theorem C29_stops N : valid w -> undisturbed w c -> sensible c -> num_episodes c = Some N -> episodes_end w -> answers_arrive w ->
  exists fuel q, stopped c q /\ forall fuel', (fuel <= fuel')%nat -> run zero add w c fuel' = Ok q.
Proof.
  intros Hv Hu Hs HN (limit & Hl) (patience & Hp). pose proof (sensible_refused Hs) as Hr.
  destruct (start_spec zero add w c (s_envs _ Hs) Hr (s_episodes _ Hs) (s_timesteps _ Hs)) as (q0 & E0 & H0 & _).
  destruct (loop_ends zero add w c Hv Hu (s_envs _ Hs) Hr limit patience Hl Hp N HN q0 H0) as (fuel & q & E & Hst & _).
  exists fuel, q. split; auto. intros fuel' Hf. unfold run. rewrite E0. cbn [bind]. eapply loop_more; eauto; apply Hs.
Qed.

(** ** C30 *)
Lemma executions_all (h : history) : evaluation_run c = false -> executions (fun _ => true) h = executions (counted c) h.
Proof.
  intros He. induction h as [|e h IH]; cbn; auto. destruct e; auto. unfold counted, is_eval. rewrite He. cbn. now rewrite IH.
Qed.
(** One training environment and a limit of T timesteps: the run stops, and then exactly T actions
    were executed and the environment's stream of the agent is closed. *)
Theorem C30_executes_exactly T : valid w -> goes_on w -> answers_arrive w -> sensible c -> k = 1%nat -> evaluation_run c = false ->
  num_episodes c = None -> num_timesteps c = Some T -> num_updates c = None ->
  exists fuel q, stopped c q /\ (forall fuel', (fuel <= fuel')%nat -> run zero add w c fuel' = Ok q) /\
    executions (fun _ => true) (log q) = T /\ proper false 0 (log q) /\ at_phase false 0 (log q) = Closed.
Proof.
  intros Hv Hg (patience & Hp) Hs Hk He HN HT HU. destruct (s_parallel _ Hs Hk) as (Hb & Hst & Hse).
  assert (undisturbed w c) as Hu by (left; auto). pose proof (sensible_refused Hs) as Hr.
  destruct (start_spec zero add w c (s_envs _ Hs) Hr (s_episodes _ Hs) (s_timesteps _ Hs)) as (q0 & E0 & H0 & _).
  destruct (loop_stops zero add w c Hv Hu (s_envs _ Hs) patience Hp Hb Hse He T HT q0 H0) as (fuel & q & E & Hq & H).
  exists fuel, q. split; auto. split; [|split].
  - intros fuel' Hf. unfold run. rewrite E0. cbn [bind]. eapply loop_more; eauto; apply Hs.
  - rewrite executions_all by auto. destruct (h_books _ _ _ _ _ (h_core _ _ _ _ _ H)) as [_ _ <-].
    destruct (stopped_why q (s_envs _ Hs) H Hq Hg HU) as [Hre|[_ Hre]]; [rewrite HN in Hre; discriminate|].
    rewrite HT in Hre. apply Nat.leb_le in Hre.
    assert (single c = false) as Hsi by (unfold single; now rewrite He).
    pose proof (h_room _ _ _ _ _ H Hsi Hb Hse T HT) as Rm. rewrite workers_cnt in Rm by apply Hs.
    unfold workers in Rm. rewrite He, Hk in Rm. cbn in Rm. lia.
  - pose proof (proj1 (stopped_all q) Hq) as Hq1. clear Hq. rename Hq1 into Hq. destruct (h_ok _ _ _ _ _ (h_core _ _ _ _ _ H) 0%nat (s_envs _ Hs)) as [Hgood Hx].
    unfold is_eval in *. rewrite He in *. cbn in *. specialize (Hq 0%nat (s_envs _ Hs)). split; auto.
    destruct (pending q 0%nat) as [[a|]|]; [lia|lia|tauto].
Qed.

(** Several environments, one agent call each: between T and T + k - 1 actions of the counted environments. *)
Theorem C30_parallel fuel q T : valid w -> sensible c -> batch_agent_calls c = false -> sync_episodes c = false ->
  evaluation_run c && Nat.eqb k 1 = false -> num_timesteps c = Some T -> run zero add w c fuel = Ok q ->
  (executions (works c) (log q) <= T + workers c - 1)%nat /\
  (goes_on w -> num_episodes c = None -> num_updates c = None -> stopped c q -> (T <= executions (works c) (log q))%nat).
Proof.
  intros Hv Hs Hb Hse Hsi HT E. assert (undisturbed w c) as Hu by (left; auto).
  pose proof (is_head fuel q Hv Hu Hs E) as H. change (works c) with (counted c).
  destruct (h_books _ _ _ _ _ (h_core _ _ _ _ _ H)) as [_ _ <-]. split.
  - pose proof (h_room _ _ _ _ _ H Hsi Hb Hse T HT) as Rm. rewrite workers_cnt in Rm by apply Hs. lia.
  - intros Hg HN HU Hst. destruct (stopped_why q (s_envs _ Hs) H Hst Hg HU) as [Hr|[_ Hr]]; [rewrite HN in Hr; discriminate|].
    rewrite HT in Hr. now apply Nat.leb_le in Hr.
Qed.

(** ** C31 *)
(** The run never fails; for every environment n the calls are in proper order and the answers
    are the environment's; when the run stopped, every stream is closed. *)
Theorem C31_protocol fuel : valid w -> undisturbed w c -> sensible c ->
  exists q, run zero add w c fuel = Ok q /\
    (forall n, proper (evaluates c n) n (log q)) /\ answers w (evaluates c) (log q) /\
    (stopped c q -> forall n, at_phase (evaluates c n) n (log q) = Closed).
Proof.
  intros Hv Hu Hs. destruct (the_run fuel Hv Hu Hs) as (q & E & H). exists q. split; auto.
  assert (forall n, proper (evaluates c n) n (log q)) as Hg by exact (good_all zero add w c q H).
  split; [exact Hg|split].
  - apply (h_answers _ _ _ _ _ (h_core _ _ _ _ _ H)).
  - intros Hst n. rewrite stopped_all in Hst. destruct (Nat.lt_ge_cases n k) as [Hn|Hn].
    + destruct (h_ok _ _ _ _ _ (h_core _ _ _ _ _ H) n Hn) as [_ Hx]. specialize (Hst n Hn).
      change (evaluates c n) with (is_eval c n). destruct (pending q n) as [[a|]|]; [lia|lia|tauto].
    + apply closed_beyond; auto; [apply Hs|]. apply (h_ranged _ _ _ _ _ (h_core _ _ _ _ _ H)).
Qed.

(** ** C32 *)
Theorem C32_statistics fuel q : valid w -> undisturbed w c -> sensible c -> run zero add w c fuel = Ok q ->
  episode_returns q = map (fun x => fold_left add (snd x) zero) (finished (log q)) /\
  episode_timesteps q = map (fun x => length (snd x)) (finished (log q)) /\
  (evaluation_run c = true ->
     evaluation_returns q = map (fun rs => fold_left add rs zero) (evaluated (k - 1) (log q)) /\
     evaluation_timesteps q = map (@length R) (evaluated (k - 1) (log q))) /\
  timesteps q = executions (works c) (log q) /\ episodes q = finished_count c (log q).
Proof.
  intros Hv Hu Hs E. pose proof (is_head fuel q Hv Hu Hs E) as H.
  destruct (h_books _ _ _ _ _ (h_core _ _ _ _ _ H)) as [(dr & E1 & E2 & E3 & _) Hev E4]. rewrite app_nil_r in E1.
  split; [rewrite E2, <- E1; apply map_map|]. split; [rewrite E3, <- E1; apply map_map|]. split; [|split; [exact E4|now apply episodes_finished]].
  intros He. destruct (Hev He) as (de & F1 & F2 & F3 & _). rewrite app_nil_r in F1. change (k - 1)%nat with (last c). now rewrite F1.
Qed.

(** ** C33 *)
(** With a limit on episodes, a run with sync_episodes stops. *)
Theorem C33_episode_limit_partial N : valid w -> undisturbed w c -> sensible c -> sync_episodes c = true -> num_episodes c = Some N ->
  episodes_end w -> answers_arrive w ->
  exists fuel q, stopped c q /\ forall fuel', (fuel <= fuel')%nat -> run zero add w c fuel' = Ok q.
Proof. intros Hv Hu Hs _. now apply C29_stops. Qed.

(** Without one it never stops, whatever the other limits and the callback: all environments are
    started again (runner.py 671-682) without looking at self.terminate. *)
Theorem C33_never_stops_refuted fuel : valid w -> undisturbed w c -> sensible c -> sync_episodes c = true -> num_episodes c = None ->
  exists q, run zero add w c fuel = Ok q /\ ~ stopped c q.
Proof.
  intros Hv Hu Hs Hse HN. destruct (the_run fuel Hv Hu Hs) as (q & E & H). exists q. split; auto. intros Hst.
  rewrite stopped_all in Hst. pose proof (h_sync _ _ _ _ _ H Hse Hst) as Hr. rewrite HN in Hr. discriminate.
Qed.

(** ** C62 *)
(** Without sync_episodes, every evaluation act gets the internals of the same episode's previous
    act, and the initial ones at the start of an episode. *)
Theorem C62_evaluation_internals fuel q : (0 < k)%nat -> evaluation_run c = true -> sync_episodes c = false ->
  run zero add w c fuel = Ok q -> internals_kept w (k - 1) (log q).
Proof. intros Hk He Hs E. exact (proj1 (run_kept zero add w c fuel q Hk He Hs E)). Qed.

(** ** C63 *)
(** The agent is saved after every evaluation score better than all earlier ones except the
    first, and at no other time; best is the maximal score so far. *)
Theorem C63_saved_when_better fuel q : (0 < k)%nat -> run zero add w c fuel = Ok q ->
  saves_ok (log q) /\ saved_ok (log q) /\
  match best q with
  | None => scores (log q) = []
  | Some b => In b (scores (log q)) /\ Forall (fun y => y <= b) (scores (log q))
  end.
Proof. intros Hk E. destruct (run_book zero add w c fuel q Hk E) as (H1 & H2 & H3). auto. Qed.
End Props.
Print Assumptions C29_finishes_at_most.
Print Assumptions C29_finishes_at_least.
Print Assumptions C29_finishes_exactly.
Print Assumptions C29_stops.
Print Assumptions C30_executes_exactly.
Print Assumptions C30_parallel.
Print Assumptions C31_protocol.
Print Assumptions C32_statistics.
Print Assumptions C33_episode_limit_partial.
Print Assumptions C33_never_stops_refuted.
Print Assumptions C62_evaluation_internals.
Print Assumptions C63_saved_when_better.

(** ** Examples *)
(** Environment n's episodes have n + 2 steps, it needs n waits, rewards are the step's number;
    the agent's action is the state, the internals count the evaluation acts. *)
Definition toy (go : history nat nat Z nat -> bool) (len : nat -> nat) (score : history nat nat Z nat -> Z) : world nat nat Z nat :=
  World (fun _ n => n) (fun h n _ => let l := length (RunSpec.rewards n h) in (l, if Nat.leb (len n) (l + 1) then 1 else 0, Z.of_nat (l + 1)))
    (fun h n => Nat.leb n (waits n h)) (fun _ l n => match find (fun x => Nat.eqb (fst x) n) l with Some (_, s) => s | None => 0%nat end)
    (fun _ s i => (s, Datatypes.S i)) (fun _ l => length l) 0%nat (fun h _ => go h) score.
Definition plain_toy := toy (fun _ => true) (fun n => n + 2)%nat (fun _ => 0).
Lemma toy_valid go len score : valid (toy go len score).
Proof. intros h n a. cbn. destruct (Nat.leb _ _); cbn; lia. Qed.
Lemma toy_ends go len score : episodes_end (toy go len score).
Proof. exists (fun n _ => len n). intros n h a Hl. cbn. apply Nat.leb_le in Hl. rewrite Hl. reflexivity. Qed.
Lemma toy_arrive go len score : answers_arrive (toy go len score).
Proof. exists (fun n _ => n). intros n h Hl. now apply Nat.leb_le. Qed.

Definition three := Config 3 false (Some 4%nat) None None false false false None None false.
Definition three_sync := Config 3 true (Some 4%nat) None None true true true (Some 2%nat) None true.
Definition one_steps := Config 1 false None (Some 5%nat) None false false false None (Some 2%nat) false.
Definition two_steps := Config 2 false None (Some 5%nat) None false false false None None false.

Definition summary (c : config) (x : res (@runner nat nat Z nat)) :=
  match x with
  | Ok q => Some (running c q, finished_count c (log q), executions (works c) (log q), episode_returns q, episode_timesteps q)
  | Err _ => None
  end.
Example three_sensible : sensible three.
Proof. constructor; cbn; try lia; discriminate. Qed.
Example three_undisturbed : undisturbed plain_toy three.
Proof. now left. Qed.
Example three_sync_sensible : sensible three_sync.
Proof. constructor; cbn; try lia; discriminate. Qed.
Example three_sync_undisturbed : undisturbed plain_toy three_sync.
Proof. right. repeat split. left. intros h p. reflexivity. Qed.
Example plain_toy_goes_on : goes_on plain_toy.
Proof. intros h p. reflexivity. Qed.

(** Three environments, four episodes asked for: six are finished, the most possible. *)
Example C29_three : summary three (run 0 Z.add plain_toy three 60) =
  Some (false, 6%nat, 16%nat, [3; 3; 6; 3; 10; 6], [2; 2; 3; 2; 4; 3]%nat).
Proof. vm_compute. reflexivity. Qed.
Example C29_three_bound : (6 <= 4 + workers three - 1)%nat.
Proof. cbn. lia. Qed.
(** Two of three synchronised environments are trained: exactly four. *)
Example C29_three_sync : summary three_sync (run 0 Z.add plain_toy three_sync 60) =
  Some (false, 4%nat, 10%nat, [3; 6; 3; 6], [2; 3; 2; 3]%nat) /\ (workers three_sync <= 4)%nat.
Proof. split; [vm_compute; reflexivity|cbn; lia]. Qed.
Example C29_stops_three : exists fuel q, stopped three q /\ forall fuel', (fuel <= fuel')%nat -> run 0 Z.add plain_toy three fuel' = Ok q.
Proof.
  apply (C29_stops 0 Z.add plain_toy three 4); [apply toy_valid|apply three_undisturbed|apply three_sensible|reflexivity|apply toy_ends|apply toy_arrive].
Qed.

(** Five timesteps in episodes of two: the third is aborted. *)
Example one_sensible : sensible one_steps.
Proof. constructor; cbn; try lia; try discriminate; auto. Qed.
Example C30_one : summary one_steps (run 0 Z.add plain_toy one_steps 60) = Some (false, 3%nat, 5%nat, [3; 3; 1], [2; 2; 1]%nat) /\
  match run 0 Z.add plain_toy one_steps 60 with Ok q => hd_error (log q) = Some (Observe [(0%nat, 2, 1)]) | Err _ => False end.
Proof. split; vm_compute; reflexivity. Qed.
Example C30_two : summary two_steps (run 0 Z.add plain_toy two_steps 60) = Some (false, 3%nat, 5%nat, [3; 1; 3], [2; 1; 2]%nat).
Proof. vm_compute. reflexivity. Qed.

(** The evaluation environment alone: the limit does not abort the episode (runner.py 768-775 sets
    terminate, 814-821 and 642-653 do not look at it), so that more actions are executed than asked for. *)
Definition eval_steps := Config 1 true None (Some 2%nat) None false false false None None false.
Theorem C30_evaluation_refuted : exists (w : world nat nat Z nat) c T fuel q,
  valid w /\ goes_on w /\ answers_arrive w /\ sensible c /\ num_environments c = 1%nat /\
  num_episodes c = None /\ num_timesteps c = Some T /\ num_updates c = None /\
  run 0 Z.add w c fuel = Ok q /\ stopped c q /\ executions (fun _ => true) (log q) = (T + 2)%nat.
Proof.
  set (v := toy (fun _ => true) (fun _ => 4%nat) (fun _ => 0)).
  destruct (run 0 Z.add v eval_steps 20) as [q|m] eqn:E; [|vm_compute in E; discriminate].
  exists v, eval_steps, 2%nat, 20%nat, q. split; [apply toy_valid|]. split; [intros h p; reflexivity|]. split; [apply toy_arrive|].
  split; [constructor; cbn; try lia; try discriminate; auto|]. repeat split; auto.
  - unfold stopped. revert E. vm_compute. intros E. injection E as <-. reflexivity.
  - revert E. vm_compute. intros E. injection E as <-. reflexivity.
Qed.
Print Assumptions C30_evaluation_refuted.

(** Batched agent calls with a limit on timesteps: when the limit aborts an episode the agent was
    already told that it goes on and has chosen its next action (runner.py 560-585 before 642-667),
    so that its stream is not closed when the run stopped, and the recorded return belongs to an
    episode which the agent was not told to be finished. *)
Definition batch_steps := Config 2 false None (Some 3%nat) None true false false None None false.
Theorem C31_batched_limit_refuted : exists (w : world nat nat Z nat) c fuel q,
  valid w /\ goes_on w /\ sensible c /\ run 0 Z.add w c fuel = Ok q /\ stopped c q /\
  at_phase (evaluates c 1) 1 (log q) <> Closed /\ length (episode_returns q) <> length (finished (log q)).
Proof.
  destruct (run 0 Z.add plain_toy batch_steps 20) as [q|m] eqn:E; [|vm_compute in E; discriminate].
  exists plain_toy, batch_steps, 20%nat, q. split; [apply toy_valid|]. split; [intros h p; reflexivity|].
  split; [constructor; cbn; try lia; try discriminate|]. split; auto.
  revert E. vm_compute. intros E. injection E as <-. repeat split; discriminate.
Qed.
Print Assumptions C31_batched_limit_refuted.

Example C31_three : exists q, run 0 Z.add plain_toy three 60 = Ok q /\ stopped three q /\
  proper false 2 (log q) /\ at_phase false 2 (log q) = Closed /\ (executions (Nat.eqb 2) (log q) = 4)%nat.
Proof.
  destruct (C31_protocol 0 Z.add plain_toy three 60 (toy_valid _ _ _) three_undisturbed three_sensible) as (q & E & H1 & _ & H2).
  exists q. split; auto. assert (stopped three q) as Hs by (revert E; vm_compute; intros E; injection E as <-; reflexivity).
  split; auto. split; [exact (H1 2%nat)|]. split; [exact (H2 Hs 2%nat)|]. revert E. vm_compute. intros E. injection E as <-. reflexivity.
Qed.
(** The statistics of [C29_three] are those of the history. *)
Example C32_three : match run 0 Z.add plain_toy three 60 with
  | Ok q => finished (log q) = [(0%nat, [1; 2]); (0%nat, [1; 2]); (1%nat, [1; 2; 3]); (0%nat, [1; 2]); (2%nat, [1; 2; 3; 4]); (1%nat, [1; 2; 3])]
  | Err _ => False end.
Proof. vm_compute. reflexivity. Qed.

(** Synchronised episodes with a limit on timesteps only; with a callback which asks to stop *)
Definition sync_steps := Config 2 false None (Some 3%nat) None false false true None None false.
Example C33_witness fuel : exists q, run 0 Z.add (toy (fun _ => false) (fun n => n + 2)%nat (fun _ => 0)) sync_steps fuel = Ok q /\ ~ stopped sync_steps q.
Proof.
  apply C33_never_stops_refuted; try reflexivity; [apply toy_valid|now left|constructor; cbn; try lia; discriminate].
Qed.
Example C33_three_sync : exists fuel q, stopped three_sync q /\ forall fuel', (fuel <= fuel')%nat -> run 0 Z.add plain_toy three_sync fuel' = Ok q.
Proof.
  apply (C33_episode_limit_partial 0 Z.add plain_toy three_sync 4); try reflexivity;
    [apply toy_valid|apply three_sync_undisturbed|apply three_sync_sensible|apply toy_ends|apply toy_arrive].
Qed.

(** With sync_episodes the internals are not reset for the next evaluation episode
    (runner.py 680-682 against 901-907). *)
Definition sync_eval := Config 2 true (Some 2%nat) None None false false true None None false.
Theorem C62_sync_episodes_refuted : exists (w : world nat nat Z nat) c fuel q,
  valid w /\ goes_on w /\ sensible c /\ evaluation_run c = true /\ run 0 Z.add w c fuel = Ok q /\ stopped c q /\
  ~ internals_kept w (num_environments c - 1) (log q).
Proof.
  destruct (run 0 Z.add plain_toy sync_eval 60) as [q|m] eqn:E; [|vm_compute in E; discriminate].
  exists plain_toy, sync_eval, 60%nat, q. split; [apply toy_valid|]. split; [intros h p; reflexivity|].
  split; [constructor; cbn; try lia; try discriminate|]. split; auto. split; auto.
  revert E. vm_compute. intros E. injection E as <-. split; [reflexivity|]. intuition discriminate.
Qed.
Print Assumptions C62_sync_episodes_refuted.
Definition eval_two := Config 2 true (Some 3%nat) None None false false false None None false.
Example C62_kept : match run 0 Z.add plain_toy eval_two 60 with
  | Ok q => running eval_two q = false /\ length (evaluated 1 (log q)) = 2%nat /\ internals_kept plain_toy 1 (log q)
  | Err _ => False end.
Proof. vm_compute. intuition reflexivity. Qed.

(** The first evaluation is never saved, even if it is the best. *)
Definition best_eval := Config 1 true (Some 3%nat) None None false false false None None true.
Definition worse := toy (fun _ => true) (fun _ => 1%nat) (fun h => - Z.of_nat (length (scores h))).
Definition better := toy (fun _ => true) (fun _ => 1%nat) (fun h => Z.of_nat (length (scores h))).
Theorem C63_first_refuted : exists (w : world nat nat Z nat) c fuel q x l,
  valid w /\ goes_on w /\ sensible c /\ save_best_agent c = true /\ run 0 Z.add w c fuel = Ok q /\ stopped c q /\
  scores (log q) = l ++ [x] /\ best q = Some x /\ l <> [] /\ Forall (fun y => y < x) l /\ ~ In Save (log q).
Proof.
  destruct (run 0 Z.add worse best_eval 20) as [q|m] eqn:E; [|vm_compute in E; discriminate].
  exists worse, best_eval, 20%nat, q, 0, [-2; -1]. split; [apply toy_valid|]. split; [intros h p; reflexivity|].
  split; [constructor; cbn; try lia; try discriminate; auto|]. split; auto. split; auto.
  revert E. vm_compute. intros E. injection E as <-. repeat split; try discriminate.
  - repeat constructor.
  - intuition discriminate.
Qed.
Print Assumptions C63_first_refuted.
Example C63_better : match run 0 Z.add better best_eval 20 with
  | Ok q => scores (log q) = [2; 1; 0] /\ filter (fun e => match e with Save | Score _ => true | _ => false end) (log q) = [Save; Score 2; Save; Score 1; Score 0]
  | Err _ => False end.
Proof. vm_compute. split; reflexivity. Qed.
