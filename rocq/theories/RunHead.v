(** The invariant at the head of the runner's loop *)
From Coq Require Import String List ZArith Lia Bool Arith.
From Verif Require Import Base RunSpec RunModel RunProofs RunInv RunHist RunLoop RunBatch RunPass.
Import ListNotations.
Open Scope string_scope.
Open Scope list_scope.
Open Scope Z_scope.

Section P.
Context {S A R I : Type}.
Variable zero : R.
Variable add : R -> R -> R.
Variable w : world S A R I.
Variable c : config.
Notation runner := (@runner S A R I).
Notation event := (event S A R I).
Notation history := (history S A R I).
Implicit Types q : runner.
Implicit Types h : history.
Notation k := (num_environments c).
Notation phase_of n h := (at_phase (is_eval c n) n h).
Notation good n h := (proper (is_eval c n) n h).
Notation got := RunSpec.rewards.
Notation ok := (RunInv.ok zero add c).
Notation pre := (RunInv.pre zero add c).
Notation status := (RunBatch.status zero add c).
Notation base := (RunPass.base zero add w c).
Notation visited := (RunPass.visited zero add w c).
Notation books := (RunPass.books zero add c).
Hypothesis Hvalid : valid w.
Hypothesis Hplain : plain w c.
Hypothesis Hk : (0 < k)%nat.
Hypothesis Hrefused : refused c = false.

Record inv (i : nat) (q : runner) : Prop := Inv {
  i_base : base i q;
  i_count : count_ok c i q;
  i_books : books (todo c i q) (todo_eval c i q) q;
  i_ctl : ctl w c q;
  i_open : open_ok c i q;
  i_bound : bound c q;
  i_room : single c = false -> batch_agent_calls c = false -> sync_episodes c = false -> room c q }.

Lemma inv_next i q q' : (i < k)%nat -> inv i q -> visited i q q' -> base (Datatypes.S i) q' -> inv (Datatypes.S i) q'.
Proof.
  intros Hi [H1 H2 H3 H4 H5 H6 H7] V B.
  assert (ctl w c q') as C by (eapply ctl_next; eauto).
  assert (count_ok c (Datatypes.S i) q') as Cn by (eapply count_next; eauto).
  constructor; auto.
  - eapply books_next; eauto.
  - eapply open_next; eauto.
  - eapply bound_next; eauto.
  - intros Hs Hb Hse. eapply room_next; eauto.
Qed.

Record core (q : runner) : Prop := Core {
  h_answers : answers w (is_eval c) (log q);
  h_ranged : Forall (ranged c) (log q);
  h_beyond : forall m, (k <= m)%nat -> good m (log q);
  h_ok : forall m, (m < k)%nat -> ok m q (prev_terminals q m);
  h_two : batch_agent_calls c = true -> terminate q <> 2;
  h_count : count_ok c 0 q;
  h_books : books [] [] q;
  h_ctl : ctl w c q }.
Record head (q : runner) : Prop := Head {
  h_core : core q;
  h_open : open_ok c 0 q;
  h_bound : bound c q;
  h_room : single c = false -> batch_agent_calls c = false -> sync_episodes c = false -> room c q;
  h_sync : sync_episodes c = true -> (forall m, (m < k)%nat -> 0 < prev_terminals q m) ->
           reached (episodes q) (num_episodes c) = true }.

(** ** Before the visits *)
Definition asked (q q' : runner) : Prop :=
  prev_terminals q' = prev_terminals q /\ (exists es, log q' = es ++ log q) /\
  (forall ns, starts ns (log q') = starts ns (log q)) /\
  if batch_agent_calls c then forall m, (m < k)%nat -> status Decided m q' else q' = q.
Definition prepare (q : runner) : res runner :=
  if batch_agent_calls c then
    do q <- each (receive_batch w) (seq 0 k) q;
    do q <- handle_observe_joint w c q;
    handle_act_joint w c q
  else Ok q.
Lemma prepare_spec q : head q -> exists q', prepare q = Ok q' /\ inv 0 q' /\ asked q q'.
Proof.
  intros [[H1 H2 H3 H4 H5 H6 H7 H8] Ho Hb Hr _]. unfold prepare, asked.
  assert (batch_agent_calls c = true \/ batch_agent_calls c = false) as [Eb|Eb] by (destruct (batch_agent_calls c); auto); rewrite Eb.
  2:{ exists q. split; auto. split; [|split; [auto|split; [exists []; auto|auto]]]. constructor; auto.
      - constructor; auto; [intros m Hm; lia|]. intros m Hm. rewrite Eb. cbn. apply H4. lia.
      - unfold todo, todo_eval. rewrite Eb. cbn. auto. }
  destruct (receive_all zero add w c Hvalid Hk q H4 H1) as (q1 & E1 & [R1 R2 R3 R4 R5 R6 R7 R8 (es1 & R9 & R10)]).
  rewrite E1. cbn [bind].
  destruct (observe_joint zero add w c Hk q1) as (q2 & E2 & O1 & O2 & (es2 & O3 & O4 & O5) & O6 & O7 & O8); auto.
  rewrite E2. cbn [bind].
  destruct (act_joint zero add w c Hk q2) as (q3 & E3 & A1 & (es3 & A2 & A3) & A4 & A5 & A6 & A7 & A8 & A9 & A10 & _); auto.
  exists q3. split; auto.
  assert (log q3 = (es3 ++ es2 ++ es1) ++ log q) as El by (rewrite A2, O3, R9, !app_assoc; reflexivity).
  pose proof (same_trans _ _ _ O1 A1) as T. destruct T as (T1 & T2 & T3 & T4 & T5 & T6 & T7 & (T8 & T9 & T10 & T11) & T12 & T13 & T14).
  destruct R7 as ((S1 & S2 & S3 & S4) & S5 & S6 & S7 & S8 & S9).
  assert (prev_terminals q3 = prev_terminals q) as Ep by congruence.
  assert (forall m, (k <= m)%nat -> Forall (other c m) (es3 ++ es2 ++ es1)) as Hoth.
  { intros m Hm. apply Forall_app. split; auto. apply Forall_app. split; auto. eapply Forall_impl; [|exact R10].
    intros e He. destruct e; cbn in *; try tauto. lia. }
  assert (forall ns, starts ns (log q2) = starts ns (log q1)) as Est2 by (intros ns; rewrite O3; destruct O5 as [->|(o & ->)]; reflexivity).
  assert (forall ns, executions ns (log q2) = executions ns (log q1)) as Eex2 by (intros ns; rewrite O3; destruct O5 as [->|(o & ->)]; reflexivity).
  assert (forall ns, starts ns (log q3) = starts ns (log q)) as Est by (intros ns; rewrite A9, Est2; auto).
  assert (forall m, got m (log q3) = got m (log q1)) as Egot by (intros m; rewrite A10, O3; destruct O5 as [->|(o & ->)]; reflexivity).
  split; [|split; [auto|split; [eauto|split; auto]]].
  constructor.
  - constructor; auto.
    + rewrite El. apply Forall_app. split; auto. apply Forall_forall. intros e He. destruct e; cbn; auto.
      destruct (Nat.lt_ge_cases n k) as [|Hn]; auto. specialize (Hoth n Hn). rewrite Forall_forall in Hoth. specialize (Hoth _ He). cbn in Hoth. congruence.
    + intros m Hm. rewrite El. apply proper_other; auto.
    + intros m Hm. lia.
    + intros m Hm. rewrite Eb. cbn [andb]. pose proof (A4 m (proj2 Hm)) as Hs. unfold RunBatch.status in Hs. destruct (_ <=? _); tauto.
    + intros _. rewrite T14, S7. auto.
  - unfold count_ok in *. rewrite Est, H6, T12, S5. f_equal. apply cnt_ext. intros m _. unfold flag. cbn. now rewrite Ep.
  - destruct H7 as [(dr & B1 & B2 & B3 & B4) Bv B5]. constructor.
    + exists dr. unfold todo. rewrite Eb, A6, O8, map_app, R5, B1, app_nil_r, map_map. cbn [snd].
      assert (closed_list c q3 0 = closed_list c q1 0) as -> by (unfold closed_list; now rewrite T1, T3).
      split; [f_equal; apply map_ext; auto|]. rewrite T8, T9, T12, S1, S2, S5. auto.
    + intros Hev. destruct (Bv Hev) as (de & V1 & V2 & V3 & V4). exists de. rewrite app_nil_r in V1.
      unfold todo_eval. rewrite Eb. cbn [andb Nat.leb]. rewrite A7.
      assert (evaluated (last c) (log q2) = evaluated (last c) (log q1)) as -> by (rewrite O3; destruct O5 as [->|(o & ->)]; reflexivity).
      rewrite (R6 Hev), V1. pose proof (last_range c Hk) as Hlr. apply Nat.ltb_lt in Hlr. rewrite Hlr. unfold eval_closed.
      rewrite T1, T3, Egot, T10, T11, T12, S3, S4, S5. auto.
    + rewrite T13, S6, A8, Eex2, S8. auto.
  - eapply ctl_same; [| | |exact H8]; congruence.
  - intros Hse E0. destruct Ho as [_ Ho]; auto; [congruence|]. split; [intros; lia|]. rewrite Ep. auto.
  - intros N HN. rewrite Est. auto.
  - congruence.
Qed.

(** ** After the visits *)
Lemma inv_core q : inv k q -> core (set_prev_terminals (terminals q) q) /\
  (sync_episodes c = false -> head (set_prev_terminals (terminals q) q)).
Proof.
  intros [[B1 B2 B3 B4 B5 B6] Hc Hb Hl Ho Hbd Hr].
  set (q' := set_prev_terminals (terminals q) q).
  assert (core q') as C.
  { constructor; auto.
    - unfold count_ok in *. change (log q') with (log q). change (episodes q') with (episodes q). rewrite Hc. f_equal.
      apply cnt_ext. intros m Hm. unfold flag. change (m <? 0)%nat with false. cbn [prev_terminals q' set_prev_terminals].
      assert (m <? k = true)%nat as -> by now apply Nat.ltb_lt. f_equal. destruct (B4 m Hm) as [_ Hx].
      destruct (pending q m) as [[a|]|]; symmetry; [apply Z.leb_le; lia|apply Z.leb_le; lia|apply Z.leb_gt; lia].
    - unfold todo, todo_eval in Hb. rewrite closed_list_out in Hb by (unfold training; lia).
      assert (k <=? last c = false)%nat as E by (apply Nat.leb_gt; unfold last; lia). rewrite E, andb_false_r in Hb.
      assert (books [] [] q) as [K1 K2 K3] by (destruct (batch_agent_calls c); exact Hb). constructor; auto.
    - revert Hl. apply ctl_same; auto. }
  split; auto. intros Hs. constructor; auto.
  - intros _ E0. destruct (Ho Hs E0) as [Ho1 _]. split; [intros; lia|]. intros m Hm. apply Ho1. lia.
  - intros Hs'. congruence.
Qed.

(** ** 671-682 *)
Lemma restart_core n q : (n < k)%nat -> core q -> 0 < prev_terminals q n ->
  exists q', restart n q = Ok q' /\ core q' /\ prev_terminals q' = upd (prev_terminals q) n (-1) /\
    log q' = Reset n :: log q /\ episodes q' = episodes q /\ pending q n = None.
Proof.
  intros Hn [H1 H2 H3 H4 H5 H6 H7 H8] Hp. unfold restart, start_reset. cbn [pending set_prev_terminals].
  destruct (H4 n Hn) as [Hg Hx]. destruct (pending q n) as [[a|]|] eqn:Ep; try lia. destruct Hx as (Hph & _ & Hts & Hret).
  eexists. split; [reflexivity|]. split; [|auto]. set (q' := emit _ _).
  assert (log q' = Reset n :: log q) as El by reflexivity.
  assert (prev_terminals q' = upd (prev_terminals q) n (-1)) as Epv by reflexivity.
  assert (forall m, m <> n -> @other S A R I c m (Reset n)) as Hoth by (intros m Hm; cbn; congruence).
  constructor; auto.
  - rewrite El. cbn. auto.
  - rewrite El. constructor; auto.
  - intros m Hm. rewrite El. apply (proper_other c m [Reset n]); auto. constructor; auto. apply Hoth. lia.
  - intros m Hm. rewrite Epv. destruct (Nat.eq_dec m n) as [->|Hd].
    + rewrite upd_same. unfold RunInv.ok. rewrite El. cbn [pending q' emit set_log set_pending]. rewrite upd_same.
      cbn [proper allowed at_phase next]. rewrite Nat.eqb_refl. cbn [RunSpec.rewards]. rewrite Nat.eqb_refl. repeat split; auto; lia.
    + rewrite upd_other by auto. destruct (H4 m Hm) as [Hg' Hx']. unfold RunInv.ok. rewrite El.
      cbn [pending q' emit set_log set_pending set_prev_terminals episode_timestep episode_return]. rewrite upd_other by auto.
      change (Reset n :: log q) with ([Reset n] ++ log q). rewrite (phase_other c m), (rewards_others c m) by auto. split; auto.
      apply (proper_other c m [Reset n]); auto.
  - unfold count_ok in *. rewrite El. cbn [starts]. change (episodes q') with (episodes q).
    pose proof (cnt_one k (flag c 0 q') (flag c 0 q) n Hn) as E. unfold flag in E at 4 6. cbn [Nat.ltb Nat.leb] in E.
    rewrite Epv, upd_same in E. assert (prev_terminals q n <=? 0 = false) as Hle by (apply Z.leb_gt; lia). rewrite Hle, andb_false_r in E.
    cbn [b2n] in E. change (-1 <=? 0) with true in E. rewrite andb_true_r in E.
    rewrite H6. destruct (counted c n); cbn [b2n] in E; rewrite Nat.add_0_r in E; rewrite E; try lia;
      intros m Hm; unfold flag; cbn [Nat.ltb Nat.leb]; rewrite Epv, upd_other by auto; reflexivity.
  - destruct H7 as [B1 B2 B3]. constructor; auto.
  - revert H8. apply ctl_same; auto.
Qed.

Lemma training_pos : sync_episodes c = true -> single c = false /\ (0 < training c)%nat.
Proof.
  intros Hs. unfold refused in Hrefused. rewrite Hs, !orb_true_r, andb_true_r in Hrefused. unfold single. rewrite Hrefused, andb_false_r.
  split; auto. apply Nat.eqb_neq in Hrefused. unfold training. destruct (evaluation_run c); lia.
Qed.

Lemma restart_all_spec q : core q -> sync_episodes c = true -> bound c q -> prev_terminals q = terminals q ->
  exists q', restart_all c q = Ok q' /\ head q' /\ (exists es, log q' = es ++ log q) /\
    (q' = q \/ (starts (counted c) (log q) < starts (counted c) (log q'))%nat).
Proof.
  intros C Hs Hb Ept. unfold restart_all. rewrite Hs. cbn [andb]. destruct (training_pos Hs) as [Hsg Htr].
  destruct (forallb _ _) eqn:Hall.
  2:{ exists q. split; auto. split; [|split; [exists []; auto|auto]]. constructor; auto; try congruence.
      intros _ Hp. exfalso. apply eq_true_false_abs with (2 := Hall). apply forallb_forall. intros m Hm. apply in_seq in Hm.
        rewrite <- Ept. apply Z.ltb_lt. apply Hp. lia. }
  assert (forall m, (m < k)%nat -> 0 < prev_terminals q m) as Hpos.
  { intros m Hm. rewrite forallb_forall in Hall. rewrite Ept. apply Z.ltb_lt. apply Hall. apply in_seq. lia. }
  assert (cnt k (flag c 0 q) = 0%nat) as Hz.
  { apply cnt_zero. intros m Hm. unfold flag. cbn. specialize (Hpos m Hm). assert (prev_terminals q m <=? 0 = false) as -> by (apply Z.leb_gt; lia). apply andb_false_r. }
  set (len := match match num_episodes c with Some m => Some (m - episodes q)%nat | None => None end with Some m => Nat.min (training c) m | None => training c end).
  assert (len <= training c)%nat as Hlen by (unfold len; destruct (num_episodes c); lia).
  assert (training c <= k)%nat as Htk by (unfold training; lia).
  assert (forall m, (m < training c)%nat -> counted c m = true) as Hct.
  { intros m Hm. rewrite counted_train; auto; [|lia]. rewrite training_eval by lia. apply Nat.ltb_lt in Hm. now rewrite Hm. }
  destruct (each_seq restart (fun i q' => core q' /\ (forall m, (i <= m < k)%nat -> 0 < prev_terminals q' m) /\
     (forall m, (m < i)%nat -> prev_terminals q' m = -1) /\
     (exists es, log q' = es ++ log q) /\ episodes q' = episodes q /\ starts (counted c) (log q') = (starts (counted c) (log q) + i)%nat) len 0%nat q)
    as (q1 & E1 & C1 & P1 & P1' & (es1 & L1) & Ep1 & S1).
  { split; auto. split; [intros; apply Hpos; lia|]. split; [intros; lia|]. split; [exists []; auto|]. split; auto. }
  { intros i q1 Hi (C1 & P1 & P1' & (es1 & L1) & Ep1 & S1). assert (i < k)%nat as Hik by lia.
    destruct (restart_core i q1 Hik C1 (P1 i (conj (Nat.le_refl i) Hik))) as (q2 & E2 & C2 & P2 & L2 & Ep2 & _).
    exists q2. split; auto. split; auto. rewrite P2, L2. split; [|split; [|split; [|split]]].
    - intros m Hm. rewrite upd_other by lia. apply P1. lia.
    - intros m Hm. destruct (Nat.eq_dec m i) as [->|Hd]; [apply upd_same|]. rewrite upd_other by auto. apply P1'. lia.
    - exists (Reset i :: es1). now rewrite L1.
    - congruence.
    - cbn [starts]. rewrite Hct by lia. lia. }
  cbn [Nat.add] in P1, S1. rewrite E1. cbn [bind].
  assert (exists q2, (if evaluation_run c && match match num_episodes c with Some m => Some (m - episodes q)%nat | None => None end with Some m => Nat.ltb 0 m | None => true end
     then restart (last c) q1 else Ok q1) = Ok q2 /\ core q2 /\ (exists es, log q2 = es ++ log q) /\ episodes q2 = episodes q /\
     starts (counted c) (log q2) = starts (counted c) (log q1) /\ (forall m, (m < len)%nat -> prev_terminals q2 m = -1) /\ (len = 0%nat -> q2 = q1))
    as (q2 & E2 & C2 & (es2 & L2) & Ep2 & S2 & P2 & Hz2).
  { match goal with |- context [evaluation_run c && ?b] => set (bb := b) end.
    destruct (evaluation_run c && bb) eqn:Hev; [|exists q1; eauto 10].
    apply andb_prop in Hev. destruct Hev as [Hev Hbb].
    assert (training c = last c) as Etr by (unfold training, last; now rewrite Hev).
    assert (last c < k)%nat as Hlr by (apply last_range; auto).
    destruct (restart_core (last c) q1 Hlr C1) as (q2 & E2 & C2 & P2 & L2 & Ep2 & _); [apply P1; lia|].
    exists q2. rewrite L2, P2. split; auto. split; auto. split; [exists (Reset (last c) :: es1); now rewrite L1|]. split; [congruence|]. split; [|split].
    - cbn [starts]. rewrite counted_train by (auto; lia). unfold is_eval. rewrite Hev, Nat.eqb_refl. reflexivity.
    - intros m Hm. rewrite upd_other by lia. auto.
    - intros Hl0. exfalso. unfold len in Hl0. unfold bb in Hbb. destruct (num_episodes c); [apply Nat.ltb_lt in Hbb|]; lia. }
  rewrite E2. exists q2. split; auto. split; [|split; [eauto|]].
  - constructor; auto; try congruence.
    + intros N HN. rewrite Hs, S2, S1. specialize (Hb N HN). rewrite Hs in Hb. pose proof (h_count _ C) as Hc. unfold count_ok in Hc. rewrite Hz in Hc.
      unfold len. rewrite HN. lia.
    + intros _ Hp. rewrite Ep2. destruct len as [|l] eqn:El.
      * unfold len in El. destruct (num_episodes c) as [N|]; [|lia]. cbn. apply Nat.leb_le. lia.
      * specialize (P2 0%nat). specialize (Hp 0%nat Hk). rewrite P2 in Hp; lia.
  - destruct len as [|l] eqn:El.
    + left. rewrite Hz2 by auto. cbn in E1. congruence.
    + right. rewrite S2, S1. lia.
Qed.

(** ** The loop *)
Lemma visit_all q : inv 0 q -> exists q', each (visit zero add w c) (seq 0 k) q = Ok q' /\ inv k q'.
Proof.
  intros H. apply (each_seq (visit zero add w c) inv); auto. intros i q1 Hi H1.
  destruct (visit_total zero add w c Hvalid Hplain i q1) as (q' & E & V & B); [lia|apply H1|]. exists q'. split; auto. eapply inv_next; eauto. lia.
Qed.
Lemma pass_spec q : head q -> exists q', pass zero add w c q = Ok q' /\ head q'.
Proof.
  intros H. unfold pass. destruct (prepare_spec q H) as (q1 & E1 & H1 & _). unfold prepare in E1. rewrite E1. cbn [bind].
  destruct (visit_all q1 H1) as (q2 & E2 & H2). rewrite E2. cbn [bind].
  destruct (inv_core q2 H2) as [C3 H3].
  destruct (sync_episodes c) eqn:Hs.
  - destruct (restart_all_spec _ C3 Hs) as (q' & E & Hh & _); [intros N HN; apply (i_bound _ _ H2 N HN)|reflexivity|eauto].
  - unfold restart_all. rewrite Hs. cbn. eauto.
Qed.

Hypothesis Hepisodes : num_episodes c <> Some 0%nat.
Hypothesis Htimesteps : num_timesteps c <> Some 0%nat.

Lemma start_spec : exists q, start zero w c = Ok q /\ head q /\ log q = map Reset (rev (seq 0 k)).
Proof.
  unfold start. rewrite Hrefused.
  destruct (each_seq start_reset (fun i q => q = set_log (map Reset (rev (seq 0 i)))
     (set_pending (fun m => if Nat.ltb m i then Some None else None) (initial zero w)) \/
     (log q = map Reset (rev (seq 0 i)) /\ (forall m, pending q m = if Nat.ltb m i then Some None else None) /\
      q = set_log (log q) (set_pending (pending q) (initial zero w)))) k 0%nat (initial zero w)) as (q & E & H).
  { right. split; auto. }
  { intros i q Hi H. assert (log q = map Reset (rev (seq 0 i)) /\ (forall m, pending q m = if Nat.ltb m i then Some None else None) /\
      q = set_log (log q) (set_pending (pending q) (initial zero w))) as (L & P & Q) by (destruct H as [->|H]; auto).
    unfold start_reset. rewrite P, Nat.ltb_irrefl. eexists. split; [reflexivity|]. right. cbn [log emit set_log set_pending pending]. split; [|split].
    - rewrite L, seq_S, rev_app_distr. reflexivity.
    - intros m. unfold upd. rewrite P. destruct (Nat.eqb_spec m i) as [->|Hd].
      + assert (i <? Datatypes.S i = true)%nat as -> by (apply Nat.ltb_lt; lia). reflexivity.
      + destruct (Nat.ltb_spec m i); destruct (Nat.ltb_spec m (Datatypes.S i)); auto; lia.
    - rewrite Q. reflexivity. }
  assert (log q = map Reset (rev (seq 0 k)) /\ (forall m, pending q m = if Nat.ltb m k then Some None else None) /\
      q = set_log (log q) (set_pending (pending q) (initial zero w))) as (L & P & Q) by (destruct H as [->|H]; auto).
  exists q. split; auto. split; auto.
  assert (forall l, NoDup l -> answers w (is_eval c) (map Reset l) /\ (forall m, good m (map Reset l : history)) /\
    (forall m, phase_of m (map Reset l : history) = if existsb (Nat.eqb m) l then Resetting else Closed) /\
    (forall m, got m (map Reset l : history) = []) /\ finished (map Reset l : history) = [] /\ evaluated (last c) (map Reset l : history) = [] /\
    executions (counted c) (map Reset l : history) = 0%nat /\ starts (counted c) (map Reset l : history) = length (filter (counted c) l)) as HR.
  { induction l as [|x l IH]; [intros _; repeat split; auto|]. intros Hd. inversion Hd as [|? ? Hx Hd']. subst.
    destruct (IH Hd') as (I1 & I2 & I3 & I4 & I5 & I6 & I7 & I8). cbn [map answers proper finished evaluated executions starts RunSpec.rewards].
    split; auto. split; [|split; [|split; [|split; [|split; [|split]]]]]; auto.
    - intros m. split; auto. cbn. intros <-. rewrite I3. destruct (existsb (Nat.eqb x) l) eqn:Ex; auto. apply existsb_exists in Ex.
      destruct Ex as (y & Hy & Exy). apply Nat.eqb_eq in Exy. subst. tauto.
    - intros m. cbn [at_phase next existsb]. rewrite I3, (Nat.eqb_sym m x). destruct (Nat.eqb x m); auto.
    - intros m. rewrite I4. destruct (Nat.eqb x m); auto.
    - cbn [filter]. rewrite I8. destruct (counted c x); auto. }
  destruct (HR (rev (seq 0 k)) (NoDup_rev (seq_NoDup k 0))) as (R1 & R2 & R3 & R4 & R5 & R6 & R7 & R8). rewrite <- L in *.
  assert (forall m, (m < k)%nat -> existsb (Nat.eqb m) (rev (seq 0 k)) = true) as Hin.
  { intros m Hm. apply existsb_exists. exists m. split; [apply -> in_rev; apply in_seq; lia|apply Nat.eqb_refl]. }
  assert (prev_terminals q = fun _ => -1) as Q1 by (rewrite Q; reflexivity).
  assert (terminate q = 0) as Q2 by (rewrite Q; reflexivity).
  assert (episodes q = 0%nat) as Q3 by (rewrite Q; reflexivity).
  assert (timesteps q = 0%nat) as Q4 by (rewrite Q; reflexivity).
  assert (starts (counted c) (log q) = cnt k (counted c)) as R8'.
  { rewrite R8. unfold cnt. generalize (seq 0 k). intros l. clear. induction l as [|x l IH]; cbn; auto. rewrite filter_app, app_length, IH. cbn.
    destruct (counted c x); cbn; lia. }
  constructor.
  - constructor; auto.
    + rewrite L. apply Forall_forall. intros e He. apply in_map_iff in He. destruct He as (m & <- & Hm). apply in_rev, in_seq in Hm. cbn. lia.
    + intros m Hm. unfold RunInv.ok. rewrite P. assert (m <? k = true)%nat as -> by now apply Nat.ltb_lt.
      rewrite R3, R4, Hin, Q1 by auto. rewrite Q. repeat split; auto; try lia.
    + intros _. rewrite Q2. discriminate.
    + unfold count_ok. rewrite R8', Q3. cbn [Nat.add]. apply cnt_ext. intros m _. unfold flag. cbn. rewrite Q1. cbn. now rewrite andb_true_r.
    + constructor.
      * exists []. rewrite R5, Q. auto.
      * intros _. exists []. rewrite R6, Q. auto.
      * rewrite R7, Q. auto.
    + constructor; rewrite ?Q2, ?Q3, ?Q4; try lia.
      * intros _. destruct (num_episodes c) as [[|N]|]; auto. congruence.
      * intros _. destruct (num_timesteps c) as [[|N]|]; auto. congruence.
  - intros _ _. rewrite Q1. split; intros; lia.
  - intros N HN. rewrite R8'. destruct (sync_episodes c); [lia|]. destruct N; [congruence|lia].
  - intros Hsg Hb Hs T HT. rewrite Q4. pose proof (waiting_le c q). destruct T; [congruence|lia].
  - intros _ Hp. specialize (Hp 0%nat Hk). rewrite Q1 in Hp. lia.
Qed.

Lemma loop_spec fuel : forall q, head q -> exists q', loop zero add w c fuel q = Ok q' /\ head q'.
Proof.
  induction fuel as [|fuel IH]; intros q H; cbn [loop]; eauto. destruct (running c q); eauto.
  destruct (pass_spec q H) as (q1 & E & H1). rewrite E. cbn [bind]. auto.
Qed.
Theorem run_spec fuel : exists q, run zero add w c fuel = Ok q /\ head q.
Proof. unfold run. destruct start_spec as (q & E & H & _). rewrite E. cbn [bind]. now apply loop_spec. Qed.

End P.
