(** One pass of the runner's loop: the environments are visited one by one *)
From Coq Require Import String List ZArith Lia Bool Arith.
From Verif Require Import Base RunSpec RunModel RunProofs RunInv RunHist RunLoop RunBatch.
Import ListNotations.
Open Scope string_scope.
Open Scope list_scope.
Open Scope Z_scope.

Section P.
Context {S A R I : Type}.
Variable zero : R.
Variable add : R -> R -> R.
Variable w : world S A R I.
Variable c : config.
Notation runner := (@runner S A R I).
Notation event := (event S A R I).
Notation history := (history S A R I).
Implicit Types q : runner.
Implicit Types h : history.
Notation k := (num_environments c).
Notation phase_of n h := (at_phase (is_eval c n) n h).
Notation good n h := (proper (is_eval c n) n h).
Notation got := RunSpec.rewards.
Notation sum l := (fold_left add l zero).
Notation ok := (RunInv.ok zero add c).
Notation pre := (RunInv.pre zero add c).
Notation did := (RunInv.did zero add w c).
Notation came := (RunLoop.came zero add w c).
Notation status := (RunBatch.status zero add c).
Hypothesis Hvalid : valid w.

(** The agent is not called in batches, or nothing aborts a running episode. *)
Definition plain : Prop :=
  batch_agent_calls c = false \/ num_timesteps c = None /\ num_updates c = None /\ calm w c.
Hypothesis Hplain : plain.

(** Environments below i were visited, the others not yet *)
Record base (i : nat) (q : runner) : Prop := Base {
  b_answers : answers w (is_eval c) (log q);
  b_ranged : Forall (ranged c) (log q);
  b_beyond : forall m, (k <= m)%nat -> good m (log q);
  b_done : forall m, (m < i)%nat -> ok m q (terminals q m);
  b_todo : forall m, (i <= m < k)%nat ->
    if batch_agent_calls c && (prev_terminals q m <=? 0) then pre Decided m q else ok m q (prev_terminals q m);
  b_two : batch_agent_calls c = true -> terminate q <> 2 }.

Inductive visited (i : nat) (q q' : runner) : Prop :=
| v_skip : 0 < prev_terminals q i -> q' = set_terminals (upd (terminals q) i (prev_terminals q i)) q -> visited i q q'
| v_wait : prev_terminals q i <= 0 -> batch_agent_calls c = false -> w_ready w (log q) i = false ->
    q' = emit (Wait i) (set_terminals (upd (terminals q) i (prev_terminals q i)) q) -> visited i q q'
| v_did q1 : prev_terminals q i <= 0 -> (if batch_agent_calls c then q1 = q else came i q q1) ->
    (if batch_agent_calls c then pending q i = None else pending q i <> None) ->
    (batch_agent_calls c = false -> (terminals q1 i = -1 <-> pending q i = Some None)) ->
    pre (now c) i q1 -> did i q1 q' -> visited i q q'.

Lemma ranged_own i es h : (i < k)%nat -> own c i es -> Forall (ranged c) h -> Forall (ranged c) (es ++ h).
Proof.
  intros Hi Ho Hh. apply Forall_app. split; auto. apply Forall_forall. intros e He. destruct e; cbn; auto.
  destruct (Nat.eq_dec n i) as [->|Hd]; auto. specialize (Ho n Hd). rewrite Forall_forall in Ho. specialize (Ho _ He). cbn in Ho. congruence.
Qed.

Lemma base_next i q q' es : (i < k)%nat -> base i q -> frame i q q' -> log q' = es ++ log q -> own c i es ->
  answers w (is_eval c) (log q') -> ok i q' (terminals q' i) -> (batch_agent_calls c = true -> terminate q' <> 2) ->
  base (Datatypes.S i) q'.
Proof.
  intros Hi [Ha Hr Hb Hd Ht H2] F El Ho Ha' Hok H2'. constructor; auto.
  - rewrite El. now apply (ranged_own i).
  - intros m Hm. rewrite El. apply proper_other; auto. apply Ho. lia.
  - intros m Hm. destruct (Nat.eq_dec m i) as [->|Hne]; auto. rewrite (f_terminals _ _ _ F) by auto.
    eapply ok_other; eauto. apply Hd. lia.
  - intros m Hm. rewrite (f_prev _ _ _ F). assert (m <> i) as Hne by lia. specialize (Ht m). assert (i <= m < k)%nat as Hm' by lia. specialize (Ht Hm').
    destruct (_ && _); [eapply pre_other; eauto|eapply ok_other; eauto].
Qed.

Lemma did_two i q q' : did i q q' -> batch_agent_calls c = true -> terminate q <> 2 -> terminate q' <> 2.
Proof.
  intros [_ _ _ _ D] Hb H2. destruct Hplain as [Hx|(Ht & Hu & Hc)]; [congruence|]. destruct (closing c i q).
  - destruct (e_term _ _ _ _ _ _ _ D) as [->|[[_ Hx]|(_ & Hx & _)]]; try congruence; lia.
  - destruct (o_calm _ _ _ _ _ D Hc Hu) as [->|[_ Hx]]; auto. rewrite Ht in Hx. discriminate.
Qed.

Lemma visit_total i q : (i < k)%nat -> base i q ->
  exists q', visit zero add w c i q = Ok q' /\ visited i q q' /\ base (Datatypes.S i) q'.
Proof.
  intros Hi B. unfold visit. pose proof (b_todo _ _ B i (conj (Nat.le_refl i) Hi)) as Ht.
  destruct (Z.ltb_spec 0 (prev_terminals q i)) as [Hp|Hp].
  { eexists. split; [reflexivity|]. split; [now apply v_skip|].
    assert (prev_terminals q i <=? 0 = false) as Hle by (apply Z.leb_gt; lia). rewrite Hle, andb_false_r in Ht.
    apply (base_next i q _ []); auto using own_nil; try apply B.
    - constructor; cbn; intros; auto using upd_other.
    - cbn. rewrite upd_same. exact Ht. }
  apply Z.leb_le in Hp. rewrite Hp in Ht. rewrite andb_true_r in Ht.
  assert (batch_agent_calls c = true \/ batch_agent_calls c = false) as [Hb|Hb] by (destruct (batch_agent_calls c); auto); rewrite Hb in *.
  { assert (pre (now c) i q) as Hpre by (unfold now; rewrite Hb; exact Ht).
    destruct (handle_total zero add w c i q) as (q' & E); auto; try apply B.
    exists q'. rewrite E. split; auto. pose proof (handle_did zero add w c i q q' Hpre (b_two _ _ B) (b_answers _ _ B) E) as D. split.
    - apply v_did with q; rewrite ?Hb; auto; try congruence. now apply Z.leb_le. apply Hpre.
    - destruct (d_log _ _ _ _ _ _ _ D) as (es & El & Ho). apply (base_next i q q' es); auto; try apply D.
      intros _. eapply did_two; eauto. now apply B. }
  destruct (sync_timesteps c || w_ready w (log q) i) eqn:Hs.
  - assert (pending q i <> None) as Hpn.
    { intros E. destruct Ht as [_ Hx]. rewrite E in Hx. apply Z.leb_le in Hp. lia. }
    destruct (receive_spec zero add w c Hvalid i q _ Ht Hpn) as (q1 & E1 & C). rewrite E1. cbn [bind].
    pose proof (c_frame _ _ _ _ _ _ _ C) as F. 
    assert (pre (now c) i q1) as Hpre by (unfold now; rewrite Hb; apply C).
    assert (answers w (is_eval c) (log q1)) as Ha1 by (apply C; apply B).
    destruct (handle_total zero add w c i q1) as (q' & E); auto; try congruence.
    exists q'. split; auto. pose proof (handle_did zero add w c i q1 q' Hpre ltac:(congruence) Ha1 E) as D. split.
    + apply v_did with q1; rewrite ?Hb; auto. 
      * now apply Z.leb_le.
      * intros _. unfold receive in E1. destruct (pending q i) as [[a|]|] eqn:Ep; [| |discriminate].
        -- pose proof (Hvalid (log q) i a) as Hv. destruct (w_step w (log q) i a) as [[s t] r]. injection E1 as <-. cbn in Hv |- *.
           rewrite upd_same. split; [lia|discriminate].
        -- injection E1 as <-. cbn. rewrite upd_same. split; auto.
    + destruct (d_log _ _ _ _ _ _ _ D) as (es & El & Ho). destruct (came_own zero add w c i q q1 C) as (es1 & El1 & Ho1).
      apply (base_next i q q' (es ++ es1)); auto using own_app; try apply D; try congruence.
      * eapply frame_trans; [exact F|apply D].
      * now rewrite El, El1, app_assoc.
  - apply orb_false_iff in Hs. destruct Hs as [_ Hs]. eexists. split; [reflexivity|]. split; [apply v_wait; auto; now apply Z.leb_le|].
    assert (own c i [Wait i : event]) as Ho by (intros m Hm; constructor; [|constructor]; cbn; congruence).
    apply (base_next i q _ [Wait i]); auto; try congruence.
    + constructor; cbn; intros; auto using upd_other.
    + cbn. split; auto. apply B.
    + destruct Ht as [Hg Hx]. unfold RunInv.ok. cbn [log emit set_log set_terminals terminals pending episode_timestep episode_return at_phase next RunSpec.rewards].
      rewrite upd_same. split; auto. cbn [proper]. split; auto. cbn. intros _.
      destruct (pending q i) as [[a|]|]; [right; exists a; tauto|left; tauto|]. apply Z.leb_le in Hp. lia.
Qed.

(** ** Counting *)
Definition flag (i : nat) (q : runner) (m : nat) : bool :=
  counted c m && (if Nat.ltb m i then match pending q m with None => false | Some _ => true end else prev_terminals q m <=? 0).
Definition count_ok (i : nat) (q : runner) : Prop :=
  starts (counted c) (log q) = (episodes q + cnt k (flag i q))%nat.

Lemma flag_next i q q' : frame i q q' -> forall m, m <> i -> flag (Datatypes.S i) q' m = flag i q m.
Proof.
  intros F m Hm. unfold flag. rewrite (f_pending _ _ _ F), (f_prev _ _ _ F) by auto.
  destruct (Nat.ltb_spec m i); destruct (Nat.ltb_spec m (Datatypes.S i)); auto; lia.
Qed.
Lemma flag_here i q : flag (Datatypes.S i) q i = counted c i && match pending q i with None => false | Some _ => true end.
Proof. unfold flag. destruct (Nat.ltb_spec i (Datatypes.S i)); auto; lia. Qed.
Lemma flag_before i q : flag i q i = counted c i && (prev_terminals q i <=? 0).
Proof. unfold flag. destruct (Nat.ltb_spec i i); auto; lia. Qed.

Lemma visited_frame i q q' : visited i q q' -> frame i q q' /\ exists es, log q' = es ++ log q /\ own c i es.
Proof.
  intros [Hp ->|Hp Hb Hw ->|q1 Hp H1 H2 H3 Hpre D].
  - split; [constructor; cbn; intros; auto using upd_other|]. exists []. auto using own_nil.
  - split; [constructor; cbn; intros; auto using upd_other|]. exists [Wait i]. split; auto. intros m Hm; constructor; [|constructor]; cbn; congruence.
  - destruct (d_log _ _ _ _ _ _ _ D) as (es & El & Ho). destruct (batch_agent_calls c).
    + subst q1. split; [apply D|eauto].
    + destruct (came_own zero add w c i q q1 H1) as (es1 & El1 & Ho1). split.
      * eapply frame_trans; [apply H1|apply D].
      * exists (es ++ es1). rewrite El, El1, app_assoc. auto using own_app.
Qed.
Lemma visited_still i q q1 : (if batch_agent_calls c then q1 = q else came i q q1) -> still q q1.
Proof. destruct (batch_agent_calls c); [intros ->; apply still_refl|intros C; apply C]. Qed.

Lemma count_next i q q' : (i < k)%nat -> base i q -> visited i q q' -> count_ok i q -> count_ok (Datatypes.S i) q'.
Proof.
  intros Hi B V C. destruct (visited_frame _ _ _ V) as [F _]. unfold count_ok in *.
  pose proof (cnt_one k (flag (Datatypes.S i) q') (flag i q) i Hi (flag_next i q q' F)) as E. rewrite flag_here, flag_before in E.
  destruct V as [Hp ->|Hp Hb Hw ->|q1 Hp H1 H2 H3 Hpre D].
  - cbn [log set_terminals episodes pending] in *.
    pose proof (b_todo _ _ B i (conj (Nat.le_refl i) Hi)) as Ht. assert (prev_terminals q i <=? 0 = false) as Hle by (apply Z.leb_gt; lia).
    rewrite Hle, andb_false_r in Ht. destruct Ht as [_ Ht]. rewrite Hle in E.
    destruct (pending q i) as [[a|]|]; lia.
  - cbn [log set_terminals emit set_log episodes pending starts] in *.
    pose proof (b_todo _ _ B i (conj (Nat.le_refl i) Hi)) as Ht. rewrite Hb in Ht. cbn in Ht. destruct Ht as [_ Ht].
    apply Z.leb_le in Hp. rewrite Hp in E. apply Z.leb_le in Hp.
    destruct (pending q i) as [[a|]|]; lia.
  - apply Z.leb_le in Hp. rewrite Hp in E.
    destruct (visited_still _ _ _ H1) as (_ & Eep & _ & _ & _ & Est). destruct D as [_ _ Hok _ D]. destruct (closing c i q1).
    + pose proof (e_pending _ _ _ _ _ _ _ D) as Ep. rewrite (e_starts _ _ _ _ _ _ _ D), (e_episodes _ _ _ _ _ _ _ D), Est, Eep.
      destruct (restarts c q'); rewrite Ep in E; destruct (counted c i); cbn [andb b2n] in *; lia.
    + destruct (o_pending _ _ _ _ _ D) as (a & Ep). rewrite (o_starts _ _ _ _ _ D), (o_episodes _ _ _ _ _ D), Est, Eep.
      rewrite Ep in E. lia.
Qed.

(** ** Limits *)
Lemma cnt_mono (f g : nat -> bool) n : (forall m, (m < n)%nat -> f m = true -> g m = true) -> (cnt n f <= cnt n g)%nat.
Proof.
  intros H. unfold cnt. assert (forall m, In m (seq 0 n) -> f m = true -> g m = true) as H' by (intros m Hm; apply in_seq in Hm; apply H; lia).
  revert H'. generalize (seq 0 n). intros l H'. induction l as [|x l IH]; cbn; auto.
  assert (length (filter f l) <= length (filter g l))%nat as IH' by (apply IH; intros; apply H'; auto; now right).
  specialize (H' x (or_introl eq_refl)). destruct (f x); [rewrite H' by auto; cbn; lia|]. destruct (g x); cbn; lia.
Qed.
Lemma reached_mono x y limit : (x <= y)%nat -> reached x limit = true -> reached y limit = true.
Proof. destruct limit as [m|]; cbn; auto. rewrite !Nat.leb_le. lia. Qed.

Record ctl (q : runner) : Prop := Ctl {
  l_range : 0 <= terminate q <= 2;
  l_open : terminate q = 0 -> reached (episodes q) (num_episodes c) = false;
  l_steps : terminate q <> 2 -> reached (timesteps q) (num_timesteps c) = false;
  l_why : terminate q <> 0 -> steady w -> num_updates c = None ->
    reached (episodes q) (num_episodes c) = true \/ reached (timesteps q) (num_timesteps c) = true }.

Lemma ctl_same q q' : terminate q' = terminate q -> episodes q' = episodes q -> timesteps q' = timesteps q -> ctl q -> ctl q'.
Proof. intros E1 E2 E3 []. constructor; rewrite ?E1, ?E2, ?E3; auto. Qed.
Lemma ctl_next i q q' : visited i q q' -> ctl q -> ctl q'.
Proof.
  intros [Hp ->|Hp Hb Hw ->|q1 Hp H1 H2 H3 Hpre D] C.
  - revert C. apply ctl_same; auto.
  - revert C. apply ctl_same; auto.
  - destruct (visited_still _ _ _ H1) as (_ & E1 & E2 & E3 & _). 
    assert (ctl q1) as C1 by (revert C; apply ctl_same; auto). clear C H1 H2 H3 E1 E2 E3. destruct C1 as [L1 L2 L3 L4].
    destruct D as [_ _ _ _ D]. destruct (closing c i q1).
    + pose proof (e_term _ _ _ _ _ _ _ D) as Et. pose proof (e_episodes _ _ _ _ _ _ _ D) as Ee. pose proof (e_timesteps _ _ _ _ _ _ _ D) as Es.
      constructor.
      * destruct Et as [->|[[-> _]|(_ & -> & _)]]; lia.
      * intros E0. assert (terminate q1 = 0) as E1 by (destruct Et as [Et|[[Et _]|(_ & Et & _)]]; lia).
        destruct (counted c i) eqn:Hc; [now apply (e_reached _ _ _ _ _ _ _ D)|]. rewrite Ee, Nat.add_0_r. auto.
      * intros E2. rewrite Es. apply L3. destruct Et as [Et|[[Et _]|(Et & _ & _)]]; congruence.
      * intros E0 Hs Hu. rewrite Es. destruct Et as [Et|[[_ Et]|(_ & _ & _ & Et)]]; [|congruence|auto].
        destruct L4 as [L4|L4]; auto; [congruence|]. left. eapply reached_mono; [|exact L4]. lia.
    + pose proof (o_term _ _ _ _ _ D) as Et. pose proof (o_episodes _ _ _ _ _ D) as Ee. pose proof (o_timesteps _ _ _ _ _ D) as Es.
      constructor.
      * destruct Et as [->| ->]; lia.
      * intros E0. rewrite Ee. apply L2. destruct Et; lia.
      * intros E2. destruct Et as [Et|Et]; [|congruence]. destruct (counted c i) eqn:Hc.
        -- destruct (reached (timesteps q') (num_timesteps c)) eqn:Hr; auto. now apply (o_reached _ _ _ _ _ D) in Hr.
        -- rewrite Es, Nat.add_0_r. apply L3. congruence.
      * intros E0 Hs Hu. rewrite Ee. destruct (o_calm _ _ _ _ _ D (or_introl Hs) Hu) as [Et'|[_ Et']]; auto.
        destruct L4 as [L4|L4]; auto; [congruence|]. right. eapply reached_mono; [|exact L4]. lia.
Qed.
Lemma term_zero i q q' : visited i q q' -> terminate q' = 0 -> terminate q = 0.
Proof.
  intros [Hp ->|Hp Hb Hw ->|q1 Hp H1 H2 H3 Hpre D] E; auto.
  destruct (visited_still _ _ _ H1) as (_ & _ & _ & E3 & _). rewrite <- E3. destruct D as [_ _ _ _ D]. destruct (closing c i q1).
  - destruct (e_term _ _ _ _ _ _ _ D) as [Et|[[Et _]|(_ & Et & _)]]; lia.
  - destruct (o_term _ _ _ _ _ D); lia.
Qed.

Definition open_ok (i : nat) (q : runner) : Prop := sync_episodes c = false -> terminate q = 0 ->
  (forall m, (m < i)%nat -> terminals q m <= 0) /\ (forall m, (i <= m < k)%nat -> prev_terminals q m <= 0).
Lemma open_next i q q' : (i < k)%nat -> visited i q q' -> open_ok i q -> open_ok (Datatypes.S i) q'.
Proof.
  intros Hi V O Hs E0. destruct (O Hs (term_zero _ _ _ V E0)) as [O1 O2]. destruct (visited_frame _ _ _ V) as [F _]. split.
  2:{ intros m Hm. rewrite (f_prev _ _ _ F). apply O2. lia. }
  intros m Hm. destruct (Nat.eq_dec m i) as [->|Hd].
  2:{ rewrite (f_terminals _ _ _ F) by auto. apply O1. lia. }
  destruct V as [Hp ->|Hp Hb Hw ->|q1 Hp H1 H2 H3 Hpre D].
  - specialize (O2 i). lia.
  - cbn. now rewrite upd_same.
  - destruct D as [_ _ Hok _ D]. assert (pending q' i <> None) as Hpn.
    { destruct (closing c i q1); [|destruct (o_pending _ _ _ _ _ D) as (a & ->); discriminate]. pose proof (e_pending _ _ _ _ _ _ _ D) as Ep. unfold restarts in Ep. rewrite E0, Hs in Ep. cbn in Ep. congruence. }
    destruct Hok as [_ Hx]. destruct (pending q' i) as [[a|]|]; [| |congruence]; lia.
Qed.

(** Starts of episodes are limited *)
Definition bound (q : runner) : Prop := forall N, num_episodes c = Some N ->
  (starts (counted c) (log q) <= if sync_episodes c then Nat.max N (cnt k (counted c)) else N + cnt k (counted c) - 1)%nat.
Lemma bound_next i q q' : visited i q q' -> ctl q' -> count_ok (Datatypes.S i) q' -> bound q -> bound q'.
Proof.
  intros V C Hc B N HN. assert (sync_episodes c = false /\ terminate q' = 0 \/ restarts c q' = false) as [[Hs E0]|Hr].
  { unfold restarts. destruct (sync_episodes c); [right; apply andb_false_r|]. destruct (Z.eqb_spec (terminate q') 0); auto. }
  - rewrite Hs. rewrite Hc. pose proof (l_open _ C E0) as L. rewrite HN in L. cbn in L. apply Nat.leb_gt in L.
    assert (cnt k (flag (Datatypes.S i) q') <= cnt k (counted c))%nat as M.
    { apply cnt_mono. intros m _ Hm. unfold flag in Hm. apply andb_prop in Hm. apply Hm. }
    lia.
  - specialize (B N HN). assert (starts (counted c) (log q') = starts (counted c) (log q)) as ->; auto.
    destruct V as [Hp ->|Hp Hb Hw ->|q1 Hp H1 H2 H3 Hpre D]; auto.
    destruct (visited_still _ _ _ H1) as (_ & _ & _ & _ & _ & Est). destruct D as [_ _ Hok _ D]. destruct (closing c i q1).
    + rewrite (e_starts _ _ _ _ _ _ _ D), Hr. cbn. rewrite Est. lia.
    + now rewrite (o_starts _ _ _ _ _ D), Est.
Qed.

(** Actions are limited *)
Definition waiting (q : runner) (m : nat) : bool := counted c m && match pending q m with Some None => true | _ => false end.
Definition room (q : runner) : Prop := forall T, num_timesteps c = Some T ->
  (timesteps q + cnt k (waiting q) <= T + cnt k (counted c) - 1)%nat.
Lemma waiting_le q : (cnt k (waiting q) <= cnt k (counted c))%nat.
Proof. apply cnt_mono. intros m _ Hm. apply andb_prop in Hm. apply Hm. Qed.
Lemma room_next i q q' : (i < k)%nat -> single c = false -> batch_agent_calls c = false -> visited i q q' -> ctl q -> ctl q' -> room q -> room q'.
Proof.
  intros Hi Hsg Hb V C C' Rm T HT.
  destruct (Z.eq_dec (terminate q') 2) as [E2|E2].
  2:{ pose proof (l_steps _ C' E2) as L. rewrite HT in L. cbn in L. apply Nat.leb_gt in L. pose proof (waiting_le q'). lia. }
  specialize (Rm T HT). destruct (visited_frame _ _ _ V) as [F _].
  assert (forall m, m <> i -> waiting q' m = waiting q m) as Hw by (intros m Hm; unfold waiting; now rewrite (f_pending _ _ _ F)).
  pose proof (cnt_one k (waiting q') (waiting q) i Hi Hw) as E.
  assert (forall q, cnt k (waiting q) + b2n (counted c i) <= cnt k (counted c) + b2n (waiting q i))%nat as Hle.
  { intros q2. pose proof (cnt_one k (fun m => if Nat.eqb m i then counted c i else waiting q2 m) (waiting q2) i Hi) as Ex.
    cbn in Ex. rewrite Nat.eqb_refl in Ex. rewrite <- Ex by (intros m Hm; apply Nat.eqb_neq in Hm; now rewrite Hm).
    assert (cnt k (fun m => if Nat.eqb m i then counted c i else waiting q2 m) <= cnt k (counted c))%nat; [|lia].
    apply cnt_mono. intros m _. destruct (Nat.eqb_spec m i) as [->|]; auto. intros Hm. apply andb_prop in Hm. apply Hm. }
  destruct V as [Hp ->|Hp Hb' Hwr ->|q1 Hp H1 H2 H3 Hpre D]; auto.
  rewrite Hb in *. destruct (c_still _ _ _ _ _ _ _ H1) as (_ & _ & Ets & Ete & _). destruct D as [_ _ Hok _ D]. destruct (closing c i q1) eqn:Hcl.
  - pose proof (e_pending _ _ _ _ _ _ _ D) as Ep. unfold restarts in Ep. rewrite E2 in Ep. cbn in Ep.
    rewrite (e_timesteps _ _ _ _ _ _ _ D), Ets. unfold waiting in E at 4. rewrite Ep, andb_false_r in E. cbn in E.
    destruct (waiting q i); cbn in E; lia.
  - assert (waiting q' i = false) as Ew'.
    { unfold waiting. destruct (o_pending _ _ _ _ _ D) as (a & ->). apply andb_false_r. }
    rewrite (o_timesteps _ _ _ _ _ D), Ets. rewrite Ew' in E. cbn in E. pose proof (Hle q'). rewrite Ew' in *. cbn in *.
    destruct (Z.eq_dec (terminate q) 2) as [E2'|E2'].
    + destruct (counted c i) eqn:Hct; [|destruct (waiting q i); cbn in E; lia].
      assert (waiting q i = true) as Ew; [|rewrite Ew in E; cbn in E; lia].
      unfold waiting. rewrite Hct, (proj1 (H3 eq_refl)); auto.
      unfold closing, aborts in Hcl. apply orb_false_iff in Hcl. destruct Hcl as [Hc1 Hc2].
      assert (is_eval c i = false) as He.
      { unfold counted in Hct. destruct (is_eval c i) eqn:He; auto. cbn in Hct. apply Nat.eqb_eq in Hct.
        unfold single in Hsg. unfold is_eval in He. apply andb_prop in He. destruct He as [He _]. rewrite He, Hct in Hsg. discriminate. }
      rewrite He, Ete, E2' in Hc2. cbn in Hc2. rewrite andb_true_r in Hc2. apply Z.eqb_neq in Hc2. apply Z.ltb_ge in Hc1.
      destruct Hpre as (_ & _ & [(Ht & _)|(r & rs & Ht & _)]); [auto|lia].
    + pose proof (l_steps _ C E2') as L. rewrite HT in L. cbn in L. apply Nat.leb_gt in L.
      destruct (counted c i); cbn in *; [lia|]. destruct (waiting q i); cbn in E; lia.
Qed.

(** ** The records of finished episodes; td, te: episodes which ended but are not yet recorded *)
Record books (td te : list (list R)) (q : runner) : Prop := Books {
  k_train : exists dr, map snd (finished (log q)) = dr ++ td /\ episode_returns q = map (fun rs => sum rs) dr /\
    episode_timesteps q = map (@length R) dr /\ (single c = false -> episodes q = length dr);
  k_eval : evaluation_run c = true -> exists de, evaluated (last c) (log q) = de ++ te /\
    evaluation_returns q = map (fun rs => sum rs) de /\ evaluation_timesteps q = map (@length R) de /\
    (single c = true -> episodes q = length de);
  k_steps : timesteps q = executions (counted c) (log q) }.

Definition todo (i : nat) (q : runner) : list (list R) :=
  if batch_agent_calls c then map (fun m => got m (log q)) (closed_list c q i) else [].
Definition todo_eval (i : nat) (q : runner) : list (list R) :=
  if batch_agent_calls c && Nat.leb i (last c) then eval_closed c q else [].

Lemma closed_list_here i q : (i < training c)%nat -> closed_list c q i =
  (if (prev_terminals q i <=? 0) && (0 <? terminals q i) then [i] else []) ++ closed_list c q (Datatypes.S i).
Proof.
  intros Hi. unfold closed_list. replace (training c - i)%nat with (Datatypes.S (training c - Datatypes.S i)) by lia.
  cbn [seq filter]. destruct (_ && _); reflexivity.
Qed.
Lemma closed_list_out i q : (training c <= i)%nat -> closed_list c q i = [].
Proof. intros Hi. unfold closed_list. now replace (training c - i)%nat with 0%nat by lia. Qed.
Lemma closed_list_next i q q' : frame i q q' -> closed_list c q' (Datatypes.S i) = closed_list c q (Datatypes.S i).
Proof.
  intros F. unfold closed_list. apply filter_ext_in'. intros m Hm. apply in_seq in Hm. rewrite (f_prev _ _ _ F), (f_terminals _ _ _ F); auto. lia.
Qed.
Lemma todo_next i q q' es : frame i q q' -> log q' = es ++ log q -> own c i es -> todo (Datatypes.S i) q' = todo (Datatypes.S i) q.
Proof.
  intros F El Ho. unfold todo. destruct (batch_agent_calls c); auto. rewrite (closed_list_next _ _ _ F). apply map_ext_in. intros m Hm.
  unfold closed_list in Hm. apply filter_In in Hm. destruct Hm as [Hm _]. apply in_seq in Hm. rewrite El. apply (rewards_others c). apply Ho. lia.
Qed.
Lemma todo_eval_next i q q' es : i <> last c -> frame i q q' -> log q' = es ++ log q -> own c i es ->
  todo_eval (Datatypes.S i) q' = todo_eval i q.
Proof.
  intros Hi F El Ho. unfold todo_eval. destruct (batch_agent_calls c); auto. cbn [andb].
  destruct (Nat.leb_spec i (last c)); destruct (Nat.leb_spec (Datatypes.S i) (last c)); auto; try lia.
  unfold eval_closed. rewrite (f_prev _ _ _ F), (f_terminals _ _ _ F) by lia. rewrite El, (rewards_others c); auto.
Qed.
Lemma counted_train i : (i < k)%nat -> single c = false -> counted c i = negb (is_eval c i).
Proof.
  intros Hi Hs. unfold counted. destruct (is_eval c i) eqn:He; auto. cbn. unfold single in Hs. unfold is_eval in He. apply andb_prop in He.
  destruct He as [He _]. now rewrite He in Hs.
Qed.
Lemma counted_single i : single c = true -> counted c i = true.
Proof. unfold single, counted. intros H. apply andb_prop in H. destruct H as [_ ->]. apply orb_true_r. Qed.
Lemma train_range i : (i < k)%nat -> is_eval c i = false -> (i < training c)%nat.
Proof. intros Hi He. rewrite training_eval in He by (auto; lia). now apply negb_false_iff, Nat.ltb_lt in He. Qed.
Lemma eval_last i : is_eval c i = true -> i = last c /\ evaluation_run c = true.
Proof. unfold is_eval. intros H. apply andb_prop in H. destruct H as [-> H]. apply Nat.eqb_eq in H. auto. Qed.
Lemma eval_training i : (i < k)%nat -> is_eval c i = true -> training c = i.
Proof. intros Hi He. apply eval_last in He. destruct He as [-> He]. unfold training, last in *. rewrite He. lia. Qed.

Lemma todo_skip i q : (i < k)%nat -> is_eval c i = true \/ (prev_terminals q i <=? 0) && (0 <? terminals q i) = false ->
  todo (Datatypes.S i) q = todo i q.
Proof.
  intros Hi H. unfold todo. destruct (batch_agent_calls c); auto. destruct (Nat.lt_ge_cases i (training c)) as [Hl|Hl].
  - rewrite (closed_list_here i) by auto. destruct H as [H|H]; [rewrite (eval_training i) in Hl; auto; lia|]. now rewrite H.
  - rewrite !closed_list_out by lia. reflexivity.
Qed.
Lemma todo_take i q : (i < k)%nat -> is_eval c i = false -> (prev_terminals q i <=? 0) && (0 <? terminals q i) = true ->
  batch_agent_calls c = true -> todo i q = got i (log q) :: todo (Datatypes.S i) q.
Proof.
  intros Hi He H Hb. unfold todo. rewrite Hb, (closed_list_here i) by now apply train_range. now rewrite H.
Qed.

Lemma books_next i q q' : (i < k)%nat -> base i q -> visited i q q' ->
  books (todo i q) (todo_eval i q) q -> books (todo (Datatypes.S i) q') (todo_eval (Datatypes.S i) q') q'.
Proof.
  intros Hi B V Bk. destruct (visited_frame _ _ _ V) as [F (es & El & Ho)]. rewrite (todo_next _ _ _ _ F El Ho).
  assert (i <> last c -> todo_eval (Datatypes.S i) q' = todo_eval i q) as HE by (intros; eapply todo_eval_next; eauto).
  assert (i = last c -> todo_eval (Datatypes.S i) q' = []) as HE'.
  { intros ->. unfold todo_eval. destruct (Nat.leb_spec (Datatypes.S (last c)) (last c)); [lia|]. rewrite ?andb_false_r. reflexivity. }
  destruct V as [Hp ->|Hp Hb Hw ->|q1 Hp H1 H2 H3 Hpre D].
  - assert (prev_terminals q i <=? 0 = false) as Hle by (apply Z.leb_gt; lia). rewrite todo_skip by (auto; right; now rewrite Hle).
    destruct Bk as [B1 B2 B3]. constructor; auto. intros Hev. destruct (Nat.eq_dec i (last c)) as [E|E]; [|rewrite HE by auto; auto].
    rewrite HE' by auto. destruct (B2 Hev) as (de & X1 & X2). exists de. split; auto. cbn [log set_terminals].
    rewrite X1. unfold todo_eval. destruct (_ && _); auto. unfold eval_closed. rewrite <- E, Hle. cbn. now rewrite andb_false_r.
  - unfold todo, todo_eval in *. rewrite Hb in *. cbn [andb] in *. destruct Bk as [B1 B2 B3]. constructor; auto.
  - apply Z.leb_le in Hp.
    assert (finished (log q1) = finished (log q)) as Hf by (destruct (batch_agent_calls c); [congruence|apply H1]).
    destruct (visited_still _ _ _ H1) as ((S1 & S2 & S3 & S4) & Eep & Ets & _ & Eex & _).
    assert (batch_agent_calls c = true -> closing c i q1 = (0 <? terminals q i)) as Hcb.
    { intros Hb. rewrite Hb in H1. subst q1. unfold closing, aborts. pose proof (b_two _ _ B Hb) as H2'. apply Z.eqb_neq in H2'. rewrite H2', andb_false_r. apply orb_false_r. }
    assert (is_eval c i = true -> closing c i q1 = (0 <? terminals q1 i)) as Hce.
    { intros He. unfold closing, aborts. rewrite He. apply orb_false_r. }
    assert (evaluation_run c = true -> is_eval c i = false -> i <> last c) as Hil.
    { intros Hev He. unfold is_eval in He. rewrite Hev in He. now apply Nat.eqb_neq in He. }
    assert (evaluation_run c = true -> is_eval c i = false -> evaluated (last c) (log q1) = evaluated (last c) (log q)) as Hev1.
    { intros Hev He. destruct (batch_agent_calls c); [congruence|]. rewrite (c_evaluated _ _ _ _ _ _ _ H1 Hev), He. apply app_nil_r. }
    assert (is_eval c i = true -> evaluated (last c) (log q1) =
      evaluated (last c) (log q) ++ (if batch_agent_calls c then [] else if 0 <? terminals q1 i then [got i (log q1)] else [])) as Hev2.
    { intros He. destruct (batch_agent_calls c); [subst q1; now rewrite app_nil_r|].
      rewrite (c_evaluated _ _ _ _ _ _ _ H1) by now apply (eval_last i). now rewrite He. }
    assert (is_eval c i = true -> todo_eval i q = if batch_agent_calls c then (if 0 <? terminals q i then [got i (log q)] else []) else []) as Hte.
    { intros He. destruct (eval_last i He) as [E Hev]. unfold todo_eval, eval_closed. rewrite Hev, <- E, Hp, Nat.leb_refl, andb_true_r. reflexivity. }
    destruct Bk as [(dr & B1 & B2 & B3 & B4) Bv B5]. destruct D as [_ _ _ _ D]. destruct (closing c i q1) eqn:Hcl.
    + pose proof (e_records _ _ _ _ _ _ _ D) as Hrec. unfold new_record in Hrec.
      constructor.
      * rewrite (e_finished _ _ _ _ _ _ _ D), Hf. rewrite (e_episodes _ _ _ _ _ _ _ D), Eep.
        assert (is_eval c i = true \/ is_eval c i = false) as [He|He] by (destruct (is_eval c i); auto); rewrite He in *.
        -- destruct Hrec as (-> & -> & _). exists dr. rewrite orb_true_r, app_nil_r, todo_skip by auto. rewrite S1, S2.
           split; auto. split; auto. split; auto. intros Hs. rewrite counted_train, He by auto. cbn. rewrite Nat.add_0_r. auto.
        -- destruct Hrec as (-> & -> & _). exists (dr ++ [got i (log q1)]). rewrite orb_false_r, S1, S2, B2, B3, !map_app. split; [|split; [auto|split; [auto|]]].
           ++ destruct (batch_agent_calls c) eqn:Hb.
              ** subst q1. rewrite app_nil_r, B1, todo_take by (auto; rewrite Hp, <- Hcb by auto; reflexivity). now rewrite <- app_assoc.
              ** unfold todo in *. rewrite Hb in *. rewrite B1, !app_nil_r. reflexivity.
           ++ intros Hs. rewrite counted_train, He by auto. rewrite app_length, B4 by auto. reflexivity.
      * intros Hev. destruct (Bv Hev) as (de & V1 & V2 & V3 & V4). rewrite (e_evaluated _ _ _ _ _ _ _ D), (e_episodes _ _ _ _ _ _ _ D), Eep.
        assert (is_eval c i = true \/ is_eval c i = false) as [He|He] by (destruct (is_eval c i); auto); rewrite He in *.
        -- destruct Hrec as (_ & _ & -> & ->). exists (de ++ [got i (log q1)]). rewrite HE', app_nil_r by now apply eval_last.
           rewrite S3, S4, V2, V3, !map_app. split; [|split; [auto|split; [auto|]]].
           ++ rewrite Hev2, V1, Hte by auto. destruct (batch_agent_calls c).
              ** subst q1. rewrite <- Hcb by auto. apply app_nil_r.
              ** rewrite <- Hce by auto. now rewrite app_nil_r.
           ++ intros Hs. rewrite counted_single, app_length, V4 by auto. reflexivity.
        -- destruct Hrec as (_ & _ & -> & ->). exists de. rewrite HE, Hev1, S3, S4 by auto. split; auto. split; auto. split; auto.
           intros Hs. assert (is_eval c i = true) by (apply single_eval; auto; lia). congruence.
      * rewrite (e_timesteps _ _ _ _ _ _ _ D), (e_executions _ _ _ _ _ _ _ D), Ets, Eex. auto.
    + destruct (o_records _ _ _ _ _ D) as (Q1 & Q2 & Q3 & Q4).
      constructor.
      * rewrite (o_finished _ _ _ _ _ D), Hf, (o_episodes _ _ _ _ _ D), Eep, Q1, Q2, S1, S2. exists dr. split; auto.
        destruct (batch_agent_calls c) eqn:Hb; [|unfold todo in *; rewrite Hb in *; auto].
        rewrite todo_skip; auto. right. rewrite Hp, <- Hcb by auto. reflexivity.
      * intros Hev. destruct (Bv Hev) as (de & V1 & V2 & V3 & V4). rewrite (o_evaluated _ _ _ _ _ D), (o_episodes _ _ _ _ _ D), Eep, Q3, Q4, S3, S4.
        exists de. split; auto.
        assert (is_eval c i = true \/ is_eval c i = false) as [He|He] by (destruct (is_eval c i); auto).
        -- rewrite HE', app_nil_r by now apply eval_last. rewrite Hev2, V1, Hte by auto. destruct (batch_agent_calls c).
           ++ rewrite <- Hcb by auto. now rewrite !app_nil_r.
           ++ rewrite <- Hce by auto. now rewrite !app_nil_r.
        -- rewrite HE, Hev1 by auto. auto.
      * rewrite (o_timesteps _ _ _ _ _ D), (o_executions _ _ _ _ _ D), Ets, Eex. rewrite B5. reflexivity.
Qed.

End P.
