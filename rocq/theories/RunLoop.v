(** One pass of the runner's loop *)
From Coq Require Import String List ZArith Lia Bool Arith.
From Verif Require Import Base RunSpec RunModel RunProofs RunInv RunHist.
Import ListNotations.
Open Scope string_scope.
Open Scope list_scope.
Open Scope Z_scope.

Section P.
Context {S A R I : Type}.
Variable zero : R.
Variable add : R -> R -> R.
Variable w : world S A R I.
Variable c : config.
Notation runner := (@runner S A R I).
Notation event := (event S A R I).
Notation history := (history S A R I).
Implicit Types q : runner.
Implicit Types h : history.
Notation k := (num_environments c).
Notation phase_of n h := (at_phase (is_eval c n) n h).
Notation good n h := (proper (is_eval c n) n h).
Notation got := RunSpec.rewards.
Notation sum l := (fold_left add l zero).
Notation ok := (RunInv.ok zero add c).
Notation pre := (RunInv.pre zero add c).
Notation did := (RunInv.did zero add w c).
Hypothesis Hvalid : valid w.

Definition still (q q' : runner) : Prop :=
  same_records q q' /\ episodes q' = episodes q /\ timesteps q' = timesteps q /\ terminate q' = terminate q /\
  (forall ns, executions ns (log q') = executions ns (log q)) /\ (forall ns, starts ns (log q') = starts ns (log q)).
Lemma still_refl q : still q q.
Proof. repeat split. Qed.
Lemma still_trans q q1 q2 : still q q1 -> still q1 q2 -> still q q2.
Proof.
  intros ((A1 & A2 & A3 & A4) & A5 & A6 & A7 & A8 & A9) ((B1 & B2 & B3 & B4) & B5 & B6 & B7 & B8 & B9).
  repeat split; try congruence.
Qed.

(** ** Nothing fails *)
Lemma act_total n q : pending q n = None -> acts c (now c) n q -> exists q', handle_act w c n q = Ok q'.
Proof.
  intros Hp Ha. unfold handle_act, acts, now in *. destruct (batch_agent_calls c).
  - destruct Ha as (a & -> & _). unfold start_execute. rewrite Hp. cbn. eauto.
  - destruct Ha as (s & -> & _). unfold start_execute. cbn. rewrite Hp. cbn. eauto.
Qed.
Lemma act_eval_total n q : n = last c -> pending q n = None -> acts c (now c) n q -> exists q', handle_act_evaluation w c q = Ok q'.
Proof.
  intros -> Hp Ha. unfold handle_act_evaluation, acts, now in *. destruct (batch_agent_calls c).
  - destruct Ha as (a & -> & _). unfold start_execute. rewrite Hp. cbn. eauto.
  - destruct Ha as (s & -> & _). destruct (w_act_eval _ _ _ _). unfold start_execute. cbn. rewrite Hp. cbn. eauto.
Qed.
Lemma terminal_total n q : pending q n = None -> exists q', handle_terminal zero w c n q = Ok q'.
Proof.
  intros Hp. unfold handle_terminal, start_reset. 
  match goal with |- context [count_episode w c ?p ?x] => destruct (count_episode_spec w c zero add p x) as [_ Hq _ _]; set (q1 := count_episode w c p x) in * end.
  clearbody q1. destruct (_ && _); eauto. cbn.
  assert (pending q1 n = None) as -> by (rewrite Hq; exact Hp). eauto.
Qed.
Lemma terminal_eval_total n q : n = last c -> pending q n = None -> exists q', handle_terminal_evaluation zero w c q = Ok q'.
Proof.
  intros -> Hp. unfold handle_terminal_evaluation.
  match goal with |- context [evaluate w c ?x] => destruct (evaluate_spec w c x) as (es & b & _ & E); rewrite E end.
  match goal with |- context [if evaluation_run c && ?b then ?x else ?y] => set (q1 := if evaluation_run c && b then x else y) end.
  assert (pending q1 (last c) = None) as Hp1.
  { unfold q1. destruct (_ && _); [|exact Hp].
    match goal with |- context [count_episode w c ?p ?x] => destruct (count_episode_spec w c zero add p x) as [_ Hq _ _] end. rewrite Hq. exact Hp. }
  clearbody q1. cbn zeta. destruct (_ && _); [|eauto]. unfold start_reset. cbn. rewrite Hp1. cbn. eauto.
Qed.

Lemma handle_total n q : pre (now c) n q -> (batch_agent_calls c = true -> terminate q <> 2) -> answers w (is_eval c) (log q) ->
  exists q', handle zero add w c n q = Ok q'.
Proof.
  intros (Hg & Hp & Hpre) Hb2 Hw. unfold handle.
  destruct Hpre as [(Ht & Hgot & Hts & Hr & Hac)|(r & rs & Hx & Hr & Hgot & Hts & Hret & Hph)].
  - rewrite Ht. cbn. destruct (is_eval c n) eqn:He; [|now apply act_total]. apply act_eval_total with n; auto.
    unfold is_eval in He; apply andb_prop in He; now apply Nat.eqb_eq.
  - assert (terminals q n =? -1 = false) as -> by (apply Z.eqb_neq; lia).
    assert (is_eval c n = true \/ is_eval c n = false) as [He|He] by (destruct (is_eval c n); auto); rewrite He.
    + assert (n = last c) as En by (unfold is_eval in He; apply andb_prop in He; now apply Nat.eqb_eq).
      destruct (handle_observe_evaluation add c q) as [q1|m] eqn:Ho; [|unfold handle_observe_evaluation in Ho; rewrite <- En, Hr in Ho; discriminate].
      cbn [bind]. apply (handle_observe_evaluation_spec c add n) in Ho; auto.
      destruct (told zero add w c n q q1 r rs) as (T1 & T2 & T3 & T4 & _ & T6 & T7 & T8 & T9 & _); auto.
      destruct (Z.eqb_spec (terminals q1 n) 0) as [E0|E0].
      * rewrite E0 in T9. cbn in T9. now apply act_eval_total with n.
      * now apply terminal_eval_total with n.
    + destruct (handle_observe add w c n q) as [q1|m] eqn:Ho; [|unfold handle_observe in Ho; rewrite Hr in Ho; discriminate].
      cbn [bind]. apply (handle_observe_spec w c add n) in Ho; auto.
      destruct (told zero add w c n q q1 r rs) as (T1 & T2 & T3 & T4 & _ & T6 & T7 & T8 & T9 & _); auto.
      destruct (Z.eqb_spec (terminals q1 n) 0) as [E0|E0].
      * rewrite E0 in T9. cbn in T9. now apply act_total.
      * now apply terminal_total.
Qed.

(** ** Receiving an answer *)
Record came (n : nat) (q q' : runner) : Prop := Came {
  c_frame : frame n q q';
  c_log : exists s t r, log q' = Reply n s t r :: log q;
  c_pre : pre Received n q';
  c_answers : answers w (is_eval c) (log q) -> answers w (is_eval c) (log q');
  c_finished : finished (log q') = finished (log q);
  c_evaluated : evaluation_run c = true -> evaluated (last c) (log q') =
    evaluated (last c) (log q) ++ (if is_eval c n && (0 <? terminals q' n) then [got n (log q')] else []);
  c_still : still q q';
  c_internals : internals q' = internals q }.

Lemma receive_spec n q t : ok n q t -> pending q n <> None -> exists q', receive w n q = Ok q' /\ came n q q'.
Proof.
  intros [Hg H] Hp. unfold receive. destruct (pending q n) as [[a|]|] eqn:Ep; [| |congruence].
  - destruct H as (Hph & _ & Hts & Hret). destruct (w_step w (log q) n a) as [[s t0] r] eqn:Ew.
    pose proof (Hvalid (log q) n a) as Hv. rewrite Ew in Hv. cbn in Hv.
    eexists. split; [reflexivity|]. 
    assert (got n (Reply n s t0 (Some r) :: log q) = got n (log q) ++ [r]) as Eg by (cbn; now rewrite Nat.eqb_refl).
    constructor; cbn [log emit set_log set_rewards set_terminals set_states set_pending].
    + constructor; cbn; intros; auto using upd_other.
    + eauto.
    + unfold RunInv.pre. cbn [log emit set_log set_rewards set_terminals set_states set_pending pending terminals rewards states episode_timestep episode_return].
      rewrite !upd_same. split.
      * cbn [proper allowed]. split; eauto.
      * split; auto. right. exists r, (got n (log q)). split; auto. split; auto. split; auto. split; [rewrite Hts, app_length; cbn; lia|]. split; auto.
        cbn [at_phase next]. rewrite Nat.eqb_refl. destruct (is_eval c n) eqn:He.
        -- destruct (Z.eqb_spec t0 0) as [->|Hn].
           ++ unfold acts. cbn [log emit set_log set_rewards set_terminals set_states set_pending states]. exists s. rewrite upd_same. split; auto.
              cbn [at_phase next]. rewrite Nat.eqb_refl, He. reflexivity.
           ++ assert (0 <? t0 = true) as -> by (apply Z.ltb_lt; lia). reflexivity.
        -- exists s. auto.
    + cbn. intros Hw. split; auto. exists a. auto.
    + reflexivity.
    + intros Hev. rewrite Eg. cbn [terminals emit set_log set_rewards set_terminals]. rewrite upd_same. unfold is_eval. rewrite Hev. cbn.
      destruct (n =? last c)%nat eqn:E; cbn; [|now rewrite app_nil_r]. apply Nat.eqb_eq in E. subst n.
      destruct (0 <? t0); auto. now rewrite app_nil_r.
    + repeat split.
    + reflexivity.
  - destruct H as (Hph & _ & Hgot & Hts & Hret).
    eexists. split; [reflexivity|]. 
    constructor; cbn [log emit set_log set_rewards set_terminals set_states set_pending].
    + constructor; cbn; intros; auto using upd_other.
    + eauto.
    + unfold RunInv.pre. cbn [log emit set_log set_rewards set_terminals set_states set_pending pending terminals rewards states episode_timestep episode_return].
      rewrite !upd_same. split.
      * cbn [proper allowed]. split; auto.
      * split; auto. left. repeat split; auto. unfold acts. cbn [log emit set_log set_rewards set_terminals set_states set_pending states].
        eexists. rewrite upd_same. split; [reflexivity|]. cbn [at_phase next]. now rewrite Nat.eqb_refl.
    + cbn. intros Hw. split; auto.
    + reflexivity.
    + intros Hev. cbn [terminals emit set_log set_rewards set_terminals]. rewrite upd_same. cbn. now rewrite andb_false_r, app_nil_r.
    + repeat split.
    + reflexivity.
Qed.
Lemma came_own n q q' : came n q q' -> exists es, log q' = es ++ log q /\ own c n es.
Proof.
  intros H. destruct (c_log _ _ _ H) as (s & t & r & E). exists [Reply n s t r]. split; auto. intros m Hm. constructor; [|constructor]. cbn. congruence.
Qed.

Lemma each_seq (f : nat -> runner -> res runner) (P : nat -> runner -> Prop) len : forall a q,
  P a q -> (forall i q, (a <= i < a + len)%nat -> P i q -> exists q', f i q = Ok q' /\ P (Datatypes.S i) q') ->
  exists q', each f (seq a len) q = Ok q' /\ P (a + len)%nat q'.
Proof.
  induction len as [|len IH]; intros a q H Hs; cbn [seq each].
  - exists q. rewrite Nat.add_0_r. auto.
  - destruct (Hs a q) as (q1 & E & H1); auto; [lia|]. rewrite E. cbn [bind].
    destruct (IH (Datatypes.S a) q1) as (q' & E' & H'); auto.
    + intros i q2 Hi. apply Hs. lia.
    + exists q'. split; auto. now replace (a + Datatypes.S len)%nat with (Datatypes.S a + len)%nat by lia.
Qed.

End P.
