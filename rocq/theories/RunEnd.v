(** The runner's loop ends *)
From Coq Require Import String List ZArith Lia Bool Arith Wf_nat.
From Verif Require Import Base RunSpec RunModel RunProofs RunInv RunHist RunLoop RunBatch RunPass RunHead.
Import ListNotations.
Open Scope string_scope.
Open Scope list_scope.
Open Scope Z_scope.

Section P.
Context {S A R I : Type}.
Variable zero : R.
Variable add : R -> R -> R.
Variable w : world S A R I.
Variable c : config.
Notation runner := (@runner S A R I).
Notation event := (event S A R I).
Notation history := (history S A R I).
Implicit Types q : runner.
Implicit Types h : history.
Notation k := (num_environments c).
Notation phase_of n h := (at_phase (is_eval c n) n h).
Notation good n h := (proper (is_eval c n) n h).
Notation got := RunSpec.rewards.
Notation ok := (RunInv.ok zero add c).
Notation pre := (RunInv.pre zero add c).
Notation status := (RunBatch.status zero add c).
Notation base := (RunPass.base zero add w c).
Notation visited := (RunPass.visited zero add w c).
Notation inv := (RunHead.inv zero add w c).
Notation head := (RunHead.head zero add w c).

(** ** What an environment is told and answers *)
Definition is_reset (m : nat) (e : event) : bool := match e with Reset n => Nat.eqb n m | _ => false end.
Definition is_execute (m : nat) (e : event) : bool := match e with Execute n _ => Nat.eqb n m | _ => false end.
Definition is_reply (m : nat) (e : event) : bool := match e with Reply n _ _ _ => Nat.eqb n m | _ => false end.
Definition is_wait (m : nat) (e : event) : bool := match e with Wait n => Nat.eqb n m | _ => false end.

Section Limits.
Variable limit : nat -> history -> nat.
Variable patience : nat -> history -> nat.
Hypothesis Hlimit : forall n h a,
    (limit n (since_reset n h) <= length (RunSpec.rewards n h) + 1)%nat -> 0 < snd (fst (w_step w h n a)).
Hypothesis Hpatience : forall n h, (patience n (since_told n h) <= waits n h)%nat -> w_ready w h n = true.

Definition left_over (m : nat) (h : history) : nat := 1 + (limit m (since_reset m h) - length (got m h)).
Definition rank (m : nat) (h : history) : nat :=
  match phase_of m h with
  | Closed => 0
  | Resetting => 2 + limit m (since_reset m h)
  | Answered _ t _ => if (0 <? t)%Z then 0 else left_over m h
  | _ => left_over m h
  end%nat.
Definition tries (m : nat) (h : history) : nat := patience m (since_told m h) - waits m h.

Lemma rank_step m e h : good m (e :: h) -> answers w (is_eval c) (e :: h) -> is_reset m e = false ->
  (rank m (e :: h) <= rank m h)%nat /\ (is_reply m e = true -> (rank m (e :: h) < rank m h)%nat).
Proof.
  intros [Hg Ha] [_ Hw] Hr. unfold rank, left_over. destruct e; cbn [at_phase next since_reset RunSpec.rewards is_reset is_reply allowed] in *.
  - rewrite Hr. split; [lia|discriminate].
  - destruct (Nat.eqb_spec n m) as [->|]; [|split; [lia|discriminate]]. rewrite Ha by auto. split; [lia|discriminate].
  - split; [lia|discriminate].
  - destruct (Nat.eqb_spec n m) as [->|].
    2:{ destruct r; split; try lia; discriminate. }
    specialize (Ha eq_refl). destruct r as [r|].
    + destruct Ha as (a & Ha). destruct Hw as (a' & Ha' & Hst). pose proof (Hlimit m h a') as Hl. rewrite Hst in Hl. cbn in Hl. rewrite Ha.
      rewrite app_length. cbn [length].
      destruct (is_eval c m); destruct (Z.ltb_spec 0 t); split; intros; try lia;
        (destruct (Nat.le_gt_cases (limit m (since_reset m h)) (length (got m h) + 1)) as [Hx|Hx]; [specialize (Hl Hx); lia|lia]).
    + destruct Ha as [Ha _]. rewrite Ha. lia.
  - destruct (is_eval c m); [split; [lia|discriminate]|].
    destruct (find _ l) as [[[n s] a]|] eqn:Hf; [|split; [lia|discriminate]]. apply find_in in Hf. destruct Hf as [Hi E]. cbn in E. subst n.
    destruct Ha as [_ Ha]. destruct (Ha s a Hi) as [_ ->]. split; [lia|discriminate].
  - destruct (is_eval c m); [split; [lia|discriminate]|].
    destruct (find _ l) as [[[n t] r]|] eqn:Hf; [|split; [lia|discriminate]]. apply find_in in Hf. destruct Hf as [Hi E]. cbn in E. subst n.
    destruct Ha as [_ Ha]. destruct (Ha t r Hi) as [_ (s & t0 & Hp & Ht)]. rewrite Hp. split; [|discriminate].
    destruct (Z.ltb_spec 0 t); [lia|]. destruct (Z.ltb_spec 0 t0); lia.
  - destruct (is_eval c m); [|split; [lia|discriminate]]. rewrite Ha by auto. split; [lia|discriminate].
  - split; [lia|discriminate].
  - split; [lia|discriminate].
  - split; [lia|discriminate].
Qed.
Lemma rank_app m es h : good m (es ++ h) -> answers w (is_eval c) (es ++ h) -> existsb (is_reset m) es = false ->
  (rank m (es ++ h) <= rank m h)%nat /\ (existsb (is_reply m) es = true -> (rank m (es ++ h) < rank m h)%nat).
Proof.
  induction es as [|e es IH]; cbn [app existsb]; intros Hg Ha Hr.
  - split; [lia|discriminate].
  - apply orb_false_iff in Hr. destruct Hr as [Hr Hr']. destruct (IH (proj1 Hg) (proj1 Ha) Hr') as [I1 I2].
    destruct (rank_step m e (es ++ h) Hg Ha Hr) as [J1 J2]. split; [lia|]. intros H. apply orb_prop in H. destruct H as [H|H]; [specialize (J2 H)|specialize (I2 H)]; lia.
Qed.
Lemma tries_app m es h : answers w (is_eval c) (es ++ h) -> existsb (is_reset m) es = false -> existsb (is_execute m) es = false ->
  (tries m (es ++ h) <= tries m h)%nat /\ (existsb (is_wait m) es = true -> (tries m (es ++ h) < tries m h)%nat).
Proof.
  induction es as [|e es IH]; cbn [app existsb]; intros Ha Hr He.
  - split; [lia|discriminate].
  - apply orb_false_iff in Hr, He. destruct Hr as [Hr Hr']. destruct He as [He He']. destruct Ha as [Ha Hw]. destruct (IH Ha Hr' He') as [I1 I2].
    unfold tries in *. destruct e; cbn [since_told waits is_reset is_execute is_wait orb] in *; auto.
    + rewrite Hr. auto.
    + rewrite He. auto.
    + destruct (Nat.eqb_spec n m) as [->|]; auto. pose proof (Hpatience m (es ++ h)) as Hp. rewrite Hw in Hp.
      assert (~ (patience m (since_told m (es ++ h)) <= waits m (es ++ h))%nat) by (intros Hx; now specialize (Hp Hx)).
      cbn [orb]. split; [lia|]. intros _. lia.
Qed.
End Limits.

(** An environment which did not answer is told nothing *)
Lemma quiet m es h : good m (es ++ h) -> existsb (is_reset m) es = false -> existsb (is_reply m) es = false ->
  match phase_of m h with Closed | Resetting | Running _ => True | _ => False end ->
  phase_of m (es ++ h) = phase_of m h /\ existsb (is_execute m) es = false.
Proof.
  intros Hg Hr Hy Hp. induction es as [|e es IH]; cbn [app existsb] in *; auto.
  apply orb_false_iff in Hr, Hy. destruct Hr as [Hr Hr']. destruct Hy as [Hy Hy']. destruct Hg as [Hg Ha]. destruct (IH Hg Hr' Hy') as [I1 I2].
  rewrite I2, orb_false_r. cbn [at_phase]. rewrite I1 in *. 
  destruct e; cbn [next is_reset is_reply is_execute allowed] in *; auto.
  - rewrite Hr. auto.
  - destruct (Nat.eqb_spec n m) as [->|]; auto. rewrite Ha in Hp by auto. destruct Hp.
  - rewrite Hy. auto.
  - destruct (is_eval c m); auto. destruct (find _ l) as [[[n s] a]|] eqn:Hf; auto. apply find_in in Hf. destruct Hf as [Hi E]. cbn in E. subst n.
    destruct Ha as [_ Ha]. destruct (Ha s a Hi) as [_ Hx]. rewrite Hx in Hp. destruct Hp.
  - destruct (is_eval c m); auto. destruct (find _ l) as [[[n t] r]|] eqn:Hf; auto. apply find_in in Hf. destruct Hf as [Hi E]. cbn in E. subst n.
    destruct Ha as [_ Ha]. destruct (Ha t r Hi) as [_ (s & t0 & Hx & _)]. rewrite Hx in Hp. destruct Hp.
  - destruct (is_eval c m) eqn:He; auto. rewrite Ha in Hp by auto. destruct Hp.
Qed.
Lemma starts_reset ns m es h : ns m = true -> existsb (is_reset m) es = true -> (starts ns h < starts ns (es ++ h))%nat.
Proof.
  intros Hm. assert (forall es', starts ns h <= starts ns (es' ++ h))%nat as Hmono.
  { induction es' as [|e es' IH]; cbn [app]; [lia|]. destruct e; cbn [starts]; auto. destruct (ns n); lia. }
  induction es as [|e es IH]; cbn [app existsb]; [discriminate|]. intros H. specialize (Hmono es).
  destruct e; cbn [starts is_reset orb] in *; auto.
  destruct (Nat.eqb_spec n m) as [->|]; [rewrite Hm; lia|]. cbn in H. specialize (IH H). destruct (ns n); lia.
Qed.

(** ** Every environment which has something to answer is heard in a pass *)
Hypothesis Hvalid : valid w.
Hypothesis Hplain : plain w c.
Hypothesis Hk : (0 < k)%nat.
Hypothesis Hrefused : refused c = false.

Definition heard (m : nat) (es : list event) : Prop := existsb (fun e => is_reply m e || is_wait m e) es = true.
Lemma heard_app m es es' : heard m es' -> heard m (es ++ es').
Proof. unfold heard. intros H. rewrite existsb_app, H. apply orb_true_r. Qed.
Lemma heard_app' m es es' : heard m es -> heard m (es ++ es').
Proof. unfold heard. intros H. rewrite existsb_app, H. reflexivity. Qed.

Record pace (i : nat) (q0 q : runner) : Prop := Pace {
  p_log : exists es, log q = es ++ log q0 /\
    forall m, (m < if batch_agent_calls c then k else i)%nat -> prev_terminals q0 m <= 0 -> heard m es;
  p_prev : prev_terminals q = prev_terminals q0;
  p_starts : (terminate q0 <> 0 \/ sync_episodes c = true) ->
    (terminate q <> 0 \/ sync_episodes c = true) /\ forall ns, starts ns (log q) = starts ns (log q0) }.

Lemma pace_next i q0 q q' : (i < k)%nat -> visited i q q' -> pace i q0 q -> pace (Datatypes.S i) q0 q'.
Proof.
  intros Hi V [(es & El & Hh) Hp Hs]. pose proof (visited_frame _ _ _ _ _ _ _ V) as [F _]. constructor.
  - assert (exists es', log q' = es' ++ log q /\ (batch_agent_calls c = false -> prev_terminals q i <= 0 -> heard i es')) as (es' & El' & Hh').
    { destruct V as [Hx ->|Hx Hb Hw ->|q1 Hx H1 H2 H3 Hpre D].
      - exists []. split; auto. lia.
      - exists [Wait i]. split; auto. intros _ _. unfold heard. cbn. now rewrite Nat.eqb_refl.
      - destruct (d_log _ _ _ _ _ _ _ D) as (es1 & E1 & _). destruct (batch_agent_calls c).
        + subst q1. exists es1. split; auto. discriminate.
        + destruct (c_log _ _ _ _ _ _ _ H1) as (s & t & r & E2). exists (es1 ++ [Reply i s t r]). rewrite E1, E2, <- app_assoc. split; auto.
          intros _ _. apply heard_app. unfold heard. cbn. now rewrite Nat.eqb_refl. }
    exists (es' ++ es). rewrite El', El, app_assoc. split; auto. intros m Hm Hpm. destruct (batch_agent_calls c) eqn:Hb; [apply heard_app; auto|].
    destruct (Nat.eq_dec m i) as [->|Hd]; [|apply heard_app, Hh; auto; lia]. apply heard_app', Hh'; auto. rewrite Hp. auto.
  - rewrite (f_prev _ _ _ F). auto.
  - intros Ht. destruct (Hs Ht) as [Ht1 Hs1].
    assert (terminate q' <> 0 \/ sync_episodes c = true) as Ht2.
    { destruct Ht1 as [Ht1|]; auto. left. intros E. apply Ht1. eapply term_zero; eauto. }
    split; auto. intros ns. rewrite <- Hs1. destruct V as [Hx ->|Hx Hb Hw ->|q1 Hx H1 H2 H3 Hpre D]; auto.
    destruct (visited_still zero add w c i q q1 H1) as (_ & _ & _ & _ & _ & Est). destruct D as [_ _ Hok _ D]. destruct (closing c i q1).
    + rewrite (e_starts _ _ _ _ _ _ _ D), Est. assert (restarts c q' = false) as ->; [|cbn; lia].
      unfold restarts. destruct Ht2 as [Ht2| ->]; [apply Z.eqb_neq in Ht2; now rewrite Ht2|apply andb_false_r].
    + now rewrite (o_starts _ _ _ _ _ D), Est.
Qed.

Lemma resting q m : head q -> (m < k)%nat -> match phase_of m (log q) with Closed | Resetting | Running _ => True | _ => False end.
Proof.
  intros H Hm. destruct (h_ok _ _ _ _ _ (h_core _ _ _ _ _ H) m Hm) as [_ Hx]. destruct (pending q m) as [[a|]|]; destruct Hx as [-> _]; auto.
Qed.
Lemma good_all q : head q -> forall m, good m (log q).
Proof.
  intros [C _ _ _ _] m. destruct (Nat.lt_ge_cases m k) as [Hm|Hm]; [apply (h_ok _ _ _ _ _ C m Hm)|apply C; auto].
Qed.

Lemma pace_start q q' : head q -> inv 0 q' -> asked zero add c q q' -> terminate q' = terminate q -> pace 0 q q'.
Proof.
  intros H HI (Ep & (es & El) & Est & Hb) Et. constructor; auto.
  - exists es. split; auto. destruct (batch_agent_calls c); [|intros; lia]. intros m Hm Hpm. pose proof (Hb m Hm) as Hs. unfold RunBatch.status in Hs.
    rewrite Ep in Hs. apply Z.leb_le in Hpm. rewrite Hpm in Hs.
    assert (existsb (is_reset m) es = false) as Hr.
    { destruct (existsb (is_reset m) es) eqn:Hr; auto. pose proof (starts_reset (Nat.eqb m) m es (log q) (Nat.eqb_refl m) Hr) as Hx.
      rewrite <- El, Est in Hx. lia. }
    destruct (existsb (is_reply m) es) eqn:Hy.
    { unfold heard. apply existsb_exists in Hy. destruct Hy as (e & Hi & He). apply existsb_exists. exists e. split; auto. now rewrite He. }
    exfalso. assert (good m (log q')) as Hg by apply Hs. rewrite El in Hg.
    destruct (quiet m es (log q) Hg Hr Hy (resting q m H Hm)) as [Hq _]. rewrite <- El in Hq.
    destruct (h_ok _ _ _ _ _ (h_core _ _ _ _ _ H) m Hm) as [_ Hx]. apply Z.leb_le in Hpm.
    assert (match phase_of m (log q') with Chosen _ | Closed => True | _ => False end) as Hph.
    { destruct Hs as (_ & _ & [(_ & _ & _ & _ & a & _ & ->)|(r & rs & _ & _ & _ & _ & _ & Hz)]); auto.
      destruct (_ =? _); [destruct Hz as (a & _ & ->)|rewrite Hz]; auto. }
    rewrite Hq in Hph. destruct (pending q m) as [[a|]|]; try lia; destruct Hx as [Hx _]; rewrite Hx in Hph; auto.
  - intros Ht. rewrite Et. auto.
Qed.

Definition progress (q q' : runner) : Prop :=
  (starts (counted c) (log q) < starts (counted c) (log q'))%nat \/
  exists es, log q' = es ++ log q /\ (forall m, (m < k)%nat -> prev_terminals q m <= 0 -> heard m es) /\
    (terminate q <> 0 \/ sync_episodes c = true -> forall ns, starts ns (log q') = starts ns (log q)).

Lemma prepare_term q q' : head q -> prepare w c q = Ok q' -> terminate q' = terminate q.
Proof.
  intros [[H1 H2 H3 H4 H5 H6 H7 H8] Ho Hb Hr _] E. unfold prepare in E. destruct (batch_agent_calls c); [|congruence].
  destruct (receive_all zero add w c Hvalid Hk q H4 H1) as (q1 & E1 & [R1 R2 R3 R4 R5 R6 (_ & _ & _ & R7 & _) R8 _]).
  rewrite E1 in E. cbn [bind] in E.
  destruct (observe_joint zero add w c Hk q1) as (q2 & E2 & (_ & _ & _ & _ & _ & _ & _ & _ & _ & _ & O1) & _ & _ & O6 & O7 & _); auto.
  rewrite E2 in E. cbn [bind] in E.
  destruct (act_joint zero add w c Hk q2) as (q3 & E3 & (_ & _ & _ & _ & _ & _ & _ & _ & _ & _ & A1) & _); auto. congruence.
Qed.

Lemma pass_progress q : head q -> exists q', pass zero add w c q = Ok q' /\ head q' /\ progress q q'.
Proof.
  intros H. unfold pass. destruct (prepare_spec zero add w c Hvalid Hk q H) as (q1 & E1 & H1 & As).
  pose proof (prepare_term q q1 H E1) as Et. unfold prepare in E1. rewrite E1. cbn [bind].
  pose proof (pace_start q q1 H H1 As Et) as P1.
  destruct (each_seq (visit zero add w c) (fun i q' => inv i q' /\ pace i q q') k 0%nat q1) as (q2 & E2 & H2 & P2); auto.
  { intros i q2 Hi [Hiv Hpc]. destruct (visit_total zero add w c Hvalid Hplain i q2) as (q' & E & V & B); [lia|apply Hiv|].
    exists q'. split; auto. split; [eapply inv_next; eauto; lia|]. eapply pace_next; eauto. lia. }
  cbn [Nat.add] in H2, P2. rewrite E2. cbn [bind].
  destruct (inv_core zero add w c Hk q2 H2) as [C3 H3]. destruct P2 as [(es & El & Hh) Hpv Hst].
  destruct (sync_episodes c) eqn:Hs.
  - destruct (restart_all_spec zero add w c Hk Hrefused _ C3 Hs) as (q' & E & Hhd & (es' & El') & Hx); [intros N HN; apply (i_bound _ _ _ _ _ _ H2 N HN)|reflexivity|].
    exists q'. split; auto. split; auto. destruct (Hst (or_intror eq_refl)) as [_ Hst']. destruct Hx as [->|Hx].
    + right. exists es. split; auto. split; [intros m Hm Hpm; apply Hh; auto; destruct (batch_agent_calls c); auto|]. intros _ ns. apply Hst'.
    + left. rewrite <- (Hst' (counted c)). exact Hx.
  - unfold restart_all. rewrite Hs. cbn [andb]. eexists. split; [reflexivity|]. split; [auto|].
    right. exists es. split; auto. split; [intros m Hm Hpm; apply Hh; auto; destruct (batch_agent_calls c); auto|]. intros Ht ns. apply Hst. rewrite Hs in Ht. exact Ht.
Qed.

(** ** Sums over the counted environments *)
Definition total (f : nat -> nat) : nat := list_sum (map (fun m => if counted c m then f m else 0%nat) (seq 0 k)).
Lemma total_le f g : (forall m, (m < k)%nat -> counted c m = true -> (f m <= g m)%nat) -> (total f <= total g)%nat.
Proof.
  intros H. unfold total. assert (forall m, In m (seq 0 k) -> counted c m = true -> (f m <= g m)%nat) as H'.
  { intros m Hm. apply in_seq in Hm. apply H. lia. }
  revert H'. generalize (seq 0 k). intros l H'. induction l as [|x l IH]; cbn; auto.
  assert (forall m, In m l -> counted c m = true -> (f m <= g m)%nat) as H'' by (intros; apply H'; auto; now right).
  specialize (IH H''). specialize (H' x (or_introl eq_refl)). destruct (counted c x); [specialize (H' eq_refl)|]; unfold list_sum in *; lia.
Qed.
Lemma total_lt f g n : (forall m, (m < k)%nat -> counted c m = true -> (f m <= g m)%nat) -> (n < k)%nat -> counted c n = true -> (f n < g n)%nat ->
  (total f < total g)%nat.
Proof.
  intros H Hn Hc Hlt. unfold total. assert (forall m, In m (seq 0 k) -> counted c m = true -> (f m <= g m)%nat) as H'.
  { intros m Hm. apply in_seq in Hm. apply H. lia. }
  assert (In n (seq 0 k)) as Hi by (apply in_seq; lia). revert H' Hi. generalize (seq 0 k). intros l H' Hi. induction l as [|x l IH]; [destruct Hi|].
  cbn [map list_sum fold_right]. 
  assert (forall m, In m l -> counted c m = true -> (f m <= g m)%nat) as H'' by (intros; apply H'; auto; now right).
  assert (list_sum (map (fun m => if counted c m then f m else 0%nat) l) <= list_sum (map (fun m => if counted c m then g m else 0%nat) l))%nat as Hle.
  { clear -H''. induction l as [|y l IH]; cbn; auto. assert (forall m, In m l -> counted c m = true -> (f m <= g m)%nat) as H3 by (intros; apply H''; auto; now right).
    specialize (IH H3). specialize (H'' y (or_introl eq_refl)). destruct (counted c y); [specialize (H'' eq_refl)|]; unfold list_sum in *; lia. }
  change (fold_right Nat.add 0%nat) with list_sum. destruct Hi as [->|Hi].
  - rewrite Hc. lia.
  - specialize (IH H'' Hi). specialize (H' x (or_introl eq_refl)). destruct (counted c x); [specialize (H' eq_refl)|]; lia.
Qed.

(** Orders by several measures *)
Lemma lex_wf {X} (f : X -> nat) (P : X -> X -> Prop) : well_founded P ->
  well_founded (fun y x => (f y < f x)%nat \/ (f y <= f x)%nat /\ P y x).
Proof.
  intros HP. assert (forall n x, (f x < n)%nat -> Acc (fun y x => (f y < f x)%nat \/ (f y <= f x)%nat /\ P y x) x) as H.
  2:{ intros x. apply (H (Datatypes.S (f x)) x). lia. }
  induction n as [|n IH]; [intros; lia|]. intros x. induction x as [x IHx] using (well_founded_ind HP). intros Hx.
  constructor. intros y [Hy|[Hy Hp]]; [apply IH; lia|]. apply IHx; auto. lia.
Qed.

Section End.
Variable limit : nat -> history -> nat.
Variable patience : nat -> history -> nat.
Hypothesis Hlimit : forall n h a,
    (limit n (since_reset n h) <= length (RunSpec.rewards n h) + 1)%nat -> 0 < snd (fst (w_step w h n a)).
Hypothesis Hpatience : forall n h, (patience n (since_told n h) <= waits n h)%nat -> w_ready w h n = true.
Variable N : nat.
Hypothesis HN : num_episodes c = Some N.
Definition limit_starts : nat := if sync_episodes c then Nat.max N (cnt k (counted c)) else (N + cnt k (counted c) - 1)%nat.
Definition before (q' q : runner) : Prop :=
  let f q := (limit_starts - starts (counted c) (log q))%nat in
  let f2 q := total (fun m => rank limit m (log q)) in
  let f3 q := total (fun m => tries patience m (log q)) in
  let f4 q := rank limit (last c) (log q) in
  let f5 q := tries patience (last c) (log q) in
  (f q' < f q \/ f q' <= f q /\ (f2 q' < f2 q \/ f2 q' <= f2 q /\ (f3 q' < f3 q \/ f3 q' <= f3 q /\ (f4 q' < f4 q \/ f4 q' <= f4 q /\ f5 q' < f5 q))))%nat.
Lemma before_wf : well_founded before.
Proof.
  unfold before. apply (lex_wf (fun q => limit_starts - starts (counted c) (log q))%nat).
  apply (lex_wf (fun q => total (fun m => rank limit m (log q)))).
  apply (lex_wf (fun q => total (fun m => tries patience m (log q)))).
  apply (lex_wf (fun q => rank limit (last c) (log q))).
  apply (well_founded_ltof _ (fun q : runner => tries patience (last c) (log q))).
Qed.

Lemma progress_before q q' : head q -> head q' -> running c q = true -> progress q q' -> before q' q.
Proof.
  intros H H' Hrun [Hlt|(es & El & Hh & Hst)].
  { left. pose proof (h_bound _ _ _ _ _ H' N HN) as Hb. fold limit_starts in Hb. lia. }
  pose proof (good_all q' H') as Hg. pose proof (h_answers _ _ _ _ _ (h_core _ _ _ _ _ H')) as Ha. rewrite El in Hg, Ha.
  assert (exists m, (m < k)%nat /\ counted c m = true /\ existsb (is_reset m) es = true \/ (forall m, (m < k)%nat -> counted c m = true -> existsb (is_reset m) es = false)) as (m0 & Hd).
  { destruct (existsb (fun m => counted c m && existsb (is_reset m) es) (seq 0 k)) eqn:Hx.
    - apply existsb_exists in Hx. destruct Hx as (m & Hm & Hx). apply in_seq in Hm. apply andb_prop in Hx. exists m. left. split; [lia|tauto].
    - exists 0%nat. right. intros m Hm Hc. destruct (existsb (is_reset m) es) eqn:E; auto. rewrite <- Hx. symmetry. apply existsb_exists. exists m.
      split; [apply in_seq; lia|]. now rewrite Hc. }
  destruct Hd as [(Hm & Hc & Hr)|Hr].
  { left. pose proof (h_bound _ _ _ _ _ H' N HN) as Hb. fold limit_starts in Hb. pose proof (starts_reset (counted c) m0 es (log q) Hc Hr) as Hx.
    rewrite <- El in Hx. lia. }
  right. assert (forall es', starts (counted c) (log q) <= starts (counted c) (es' ++ log q))%nat as Hmono.
  { induction es' as [|e es' IH]; cbn [app]; [lia|]. destruct e; cbn [starts]; auto. destruct (counted c n); lia. }
  split; [rewrite El; specialize (Hmono es); lia|].
  assert (forall m, (m < k)%nat -> counted c m = true -> (rank limit m (log q') <= rank limit m (log q))%nat) as Hrk.
  { intros m Hm Hc. rewrite El. apply rank_app; auto. }
  destruct (existsb (fun m => counted c m && existsb (is_reply m) es) (seq 0 k)) eqn:Hx.
  { left. apply existsb_exists in Hx. destruct Hx as (m & Hm & Hx). apply in_seq in Hm. apply andb_prop in Hx. destruct Hx as [Hc Hy].
    apply (total_lt _ _ m); auto; [lia|]. rewrite El. apply (rank_app limit Hlimit m es (log q) (Hg m) Ha); auto. apply Hr; auto; lia. }
  right. split; [apply total_le; auto|].
  assert (forall m, (m < k)%nat -> counted c m = true -> existsb (is_reply m) es = false) as Hy.
  { intros m Hm Hc. destruct (existsb (is_reply m) es) eqn:E; auto. rewrite <- Hx. symmetry. apply existsb_exists. exists m.
    split; [apply in_seq; lia|]. now rewrite Hc. }
  assert (forall m, (m < k)%nat -> counted c m = true -> (tries patience m (log q') <= tries patience m (log q))%nat /\
    (existsb (is_wait m) es = true -> (tries patience m (log q') < tries patience m (log q))%nat)) as Htr.
  { intros m Hm Hc. rewrite El. apply tries_app; auto. apply (quiet m es (log q)); auto. now apply resting. }
  assert (forall m, (m < k)%nat -> existsb (is_reply m) es = false -> prev_terminals q m <= 0 -> existsb (is_wait m) es = true) as Hwt.
  { intros m Hm Hny Hp. specialize (Hh m Hm Hp). unfold heard in Hh. apply existsb_exists in Hh. destruct Hh as (e & Hi & He).
    apply existsb_exists. exists e. split; auto. destruct (is_reply m e) eqn:Er; auto. exfalso.
    assert (existsb (is_reply m) es = true) by (apply existsb_exists; eauto). congruence. }
  destruct (existsb (fun m => counted c m && (prev_terminals q m <=? 0)) (seq 0 k)) eqn:Ho.
  { left. apply existsb_exists in Ho. destruct Ho as (m & Hm & Ho). apply in_seq in Hm. apply andb_prop in Ho. destruct Ho as [Hc Hp]. apply Z.leb_le in Hp.
    apply (total_lt _ _ m); auto; try lia; [apply Htr|]. apply Htr; auto; [lia|]. apply Hwt; auto; try lia. apply Hy; auto; lia. }
  right. split; [apply total_le; apply Htr|].
  assert (forall m, (m < k)%nat -> counted c m = true -> 0 < prev_terminals q m) as Hcl.
  { intros m Hm Hc. destruct (Z.ltb_spec 0 (prev_terminals q m)) as [|Hp]; auto. apply Z.leb_le in Hp. exfalso.
    apply eq_true_false_abs with (2 := Ho). apply existsb_exists. exists m. split; [apply in_seq; lia|]. now rewrite Hc, Hp. }
  unfold running in Hrun. apply existsb_exists in Hrun. destruct Hrun as (m & Hm & Hp). apply in_seq in Hm. apply Z.leb_le in Hp.
  assert (counted c m = false) as Hc.
  { destruct (counted c m) eqn:Hc; auto. assert (0 < prev_terminals q m) by (apply Hcl; auto; lia). lia. }
  assert (m = last c) as ->.
  { unfold counted in Hc. apply orb_false_iff in Hc. destruct Hc as [Hc _]. apply negb_false_iff in Hc. now apply eval_last in Hc. }
  assert (k <> 1%nat) as Hk1 by (unfold counted in Hc; apply orb_false_iff in Hc; destruct Hc as [_ Hc]; now apply Nat.eqb_neq in Hc).
  assert (counted c 0 = true) as Hc0.
  { unfold counted. replace (is_eval c 0) with false; auto. symmetry. unfold is_eval. apply andb_false_iff. right. apply Nat.eqb_neq. unfold last. lia. }
  assert (terminate q <> 0 \/ sync_episodes c = true) as Hts.
  { destruct (sync_episodes c) eqn:Hs; auto. left. intros E. destruct (h_open _ _ _ _ _ H Hs E) as [_ Hx0]. specialize (Hx0 0%nat (conj (le_n 0) Hk)). specialize (Hcl 0%nat Hk Hc0). lia. }
  specialize (Hst Hts (Nat.eqb (last c))).
  assert (existsb (is_reset (last c)) es = false) as Hrl.
  { destruct (existsb (is_reset (last c)) es) eqn:E; auto. pose proof (starts_reset (Nat.eqb (last c)) (last c) es (log q) (Nat.eqb_refl _) E) as Hz. rewrite <- El in Hz. lia. }
  destruct (existsb (is_reply (last c)) es) eqn:Hyl.
  - left. rewrite El. now apply rank_app.
  - right. rewrite El. split; [now apply rank_app|]. apply tries_app; auto.
    + apply (quiet (last c) es (log q)); auto. apply resting; auto. lia.
    + apply Hwt; auto. lia.
Qed.

Theorem loop_ends q : head q -> exists fuel q', loop zero add w c fuel q = Ok q' /\ running c q' = false /\ head q'.
Proof.
  induction q as [q IH] using (well_founded_ind before_wf). intros H. destruct (running c q) eqn:Hr.
  - destruct (pass_progress q H) as (q1 & E1 & H1 & P1). destruct (IH q1) as (fuel & q' & E & Hq); auto.
    { apply progress_before; auto. }
    exists (Datatypes.S fuel), q'. split; auto. cbn [loop]. rewrite Hr, E1. exact E.
  - exists 0%nat, q. auto.
Qed.
End End.

Lemma loop_more fuel : forall q q', loop zero add w c fuel q = Ok q' -> running c q' = false ->
  forall fuel', (fuel <= fuel')%nat -> loop zero add w c fuel' q = Ok q'.
Proof.
  induction fuel as [|fuel IH]; intros q q' E Hr fuel' Hf; cbn [loop] in E.
  - injection E as <-. destruct fuel'; cbn [loop]; auto. now rewrite Hr.
  - destruct fuel' as [|fuel']; [lia|]. cbn [loop]. destruct (running c q); auto. destruct (pass zero add w c q) as [q1|m]; cbn [bind] in *; [|discriminate].
    apply IH; auto. lia.
Qed.

(** ** Runs with a limit on actions, where episodes need not end *)
Lemma since_told_other m es h : Forall (other c m) es -> since_told m (es ++ h) = since_told m h.
Proof.
  induction 1 as [|e es He]; cbn [app since_told]; auto. destruct e; cbn [since_told other] in *; auto; apply Nat.eqb_neq in He; now rewrite He.
Qed.
Lemma tries_other patience m es h : Forall (other c m) es -> tries patience m (es ++ h) = tries patience m h.
Proof. intros H. unfold tries. rewrite since_told_other, (waits_others c m) by auto. reflexivity. Qed.

Section Steps.
Variable patience : nat -> history -> nat.
Hypothesis Hpatience : forall n h, (patience n (since_told n h) <= waits n h)%nat -> w_ready w h n = true.
Hypothesis Hbatch : batch_agent_calls c = false.
Hypothesis Hsync : sync_episodes c = false.
Hypothesis Heval : evaluation_run c = false.
Variable T : nat.
Hypothesis HT : num_timesteps c = Some T.

Definition work (p : option (option A)) : nat := match p with None => 0 | Some None => 1 | Some (Some _) => 2 end.
Definition less (m : nat) (q q0 : runner) : Prop :=
  (work (pending q m) < work (pending q0 m))%nat \/
  work (pending q m) = work (pending q0 m) /\ (tries patience m (log q) < tries patience m (log q0))%nat.
Definition same (m : nat) (q q0 : runner) : Prop :=
  work (pending q m) = work (pending q0 m) /\ tries patience m (log q) = tries patience m (log q0).

Record walk (i : nat) (q0 q : runner) : Prop := Walk {
  a_prev : prev_terminals q = prev_terminals q0;
  a_mono : (executions (counted c) (log q0) <= executions (counted c) (log q))%nat;
  a_less : (executions (counted c) (log q0) < executions (counted c) (log q))%nat \/
    forall m, if (m <? i)%nat && (prev_terminals q0 m <=? 0) then less m q q0 else same m q q0 }.

Lemma all_counted m : counted c m = true.
Proof. unfold counted, is_eval. now rewrite Heval. Qed.

Lemma walk_next i q0 q q' : (i < k)%nat -> visited i q q' -> walk i q0 q -> walk (Datatypes.S i) q0 q'.
Proof.
  intros Hi V [Hp Hm Hl]. pose proof (visited_frame _ _ _ _ _ _ _ V) as [F (es & El & Ho)].
  assert (forall m, m <> i -> same m q' q) as Hothers.
  { intros m Hd. unfold same. rewrite (f_pending _ _ _ F), El, tries_other by auto. auto. }
  assert ((executions (counted c) (log q) < executions (counted c) (log q'))%nat \/
    (executions (counted c) (log q') = executions (counted c) (log q) /\ if prev_terminals q i <=? 0 then less i q' q else same i q' q)) as Hx.
  { destruct V as [Hx ->|Hx Hb Hw ->|q1 Hx H1 H2 H3 Hpre D].
    - right. split; auto. assert (prev_terminals q i <=? 0 = false) as -> by (apply Z.leb_gt; lia). split; auto.
    - right. split; auto. apply Z.leb_le in Hx. rewrite Hx. right. split; auto. cbn [log emit set_log set_terminals]. unfold tries. cbn [since_told waits].
      rewrite Nat.eqb_refl. pose proof (Hpatience i (log q)) as Hpt. rewrite Hw in Hpt.
      assert (~ (patience i (since_told i (log q)) <= waits i (log q))%nat) by (intros Hz; now specialize (Hpt Hz)). lia.
    - apply Z.leb_le in Hx. rewrite Hx. rewrite Hbatch in *. destruct (c_still _ _ _ _ _ _ _ H1) as (_ & _ & _ & _ & Eex & _).
      destruct D as [_ _ Hok _ D]. destruct (closing c i q1) eqn:Hcl.
      + right. rewrite (e_executions _ _ _ _ _ _ _ D), Eex. split; auto. left.
        assert (work (pending q i) = 2)%nat as ->.
        { destruct (pending q i) as [[a|]|]; auto; [|congruence]. exfalso. destruct (H3 eq_refl) as [_ H4]. specialize (H4 eq_refl).
          unfold closing, aborts in Hcl. rewrite H4 in Hcl. cbn in Hcl. rewrite andb_false_r in Hcl. discriminate. }
        pose proof (e_pending _ _ _ _ _ _ _ D) as Ep. destruct (restarts c q'); rewrite Ep; cbn; lia.
      + left. rewrite (o_executions _ _ _ _ _ D), Eex, all_counted. lia. }
  constructor.
  - rewrite (f_prev _ _ _ F). auto.
  - destruct Hx as [|[Hx _]]; lia.
  - destruct Hx as [Hx|[Ex Hx]]; [left; lia|]. destruct Hl as [Hl|Hl]; [left; lia|]. right. intros m. specialize (Hl m).
    destruct (Nat.eq_dec m i) as [->|Hd].
    + assert (i <? i = false)%nat as E1 by (apply Nat.ltb_irrefl). assert (i <? Datatypes.S i = true)%nat as E2 by (apply Nat.ltb_lt; lia).
      rewrite E1 in Hl. rewrite E2. cbn [andb] in *. rewrite <- Hp. destruct Hl as [L1 L2]. destruct (prev_terminals q i <=? 0).
      * destruct Hx as [Hx|[Hx1 Hx2]]; [left; lia|right; split; [congruence|lia]].
      * destruct Hx. split; congruence.
    + assert ((m <? Datatypes.S i)%nat = (m <? i)%nat) as ->.
      { destruct (Nat.ltb_spec m i); destruct (Nat.ltb_spec m (Datatypes.S i)); auto; lia. }
      destruct (Hothers m Hd) as [O1 O2]. unfold less, same in *. rewrite O1, O2. exact Hl.
Qed.

Definition earlier (q' q : runner) : Prop :=
  let f q := (T + cnt k (counted c) - 1 - executions (counted c) (log q))%nat in
  let f2 q := total (fun m => work (pending q m)) in
  let f3 q := total (fun m => tries patience m (log q)) in
  (f q' < f q \/ f q' <= f q /\ (f2 q' < f2 q \/ f2 q' <= f2 q /\ f3 q' < f3 q))%nat.
Lemma earlier_wf : well_founded earlier.
Proof.
  unfold earlier. apply (lex_wf (fun q => T + cnt k (counted c) - 1 - executions (counted c) (log q))%nat).
  apply (lex_wf (fun q : runner => total (fun m => work (pending q m)))).
  apply (well_founded_ltof _ (fun q : runner => total (fun m => tries patience m (log q)))).
Qed.

Lemma pass_earlier q : head q -> running c q = true -> exists q', pass zero add w c q = Ok q' /\ head q' /\ earlier q' q.
Proof.
  intros H Hrun. unfold pass. rewrite Hbatch. cbn [bind].
  destruct (prepare_spec zero add w c Hvalid Hk q H) as (q1 & E1 & H1 & _). unfold prepare in E1. rewrite Hbatch in E1. injection E1 as <-.
  destruct (each_seq (visit zero add w c) (fun i q' => inv i q' /\ walk i q q') k 0%nat q) as (q2 & E2 & H2 & W2); auto.
  { split; auto. constructor; auto. right. intros m. cbn. split; auto. }
  { intros i q2 Hi [Hiv Hw]. destruct (visit_total zero add w c Hvalid Hplain i q2) as (q' & E & V & B); [lia|apply Hiv|].
    exists q'. split; auto. split; [eapply inv_next; eauto; lia|]. eapply walk_next; eauto. lia. }
  cbn [Nat.add] in H2, W2. rewrite E2. cbn [bind]. unfold restart_all. rewrite Hsync. cbn [andb]. eexists. split; [reflexivity|].
  destruct (inv_core zero add w c Hk q2 H2) as [C3 H3]. specialize (H3 Hsync). split; auto. unfold earlier. cbn [log set_prev_terminals pending].
  destruct W2 as [Wp Wm Wl]. pose proof (k_steps _ _ _ _ _ _ (i_books _ _ _ _ _ _ H2)) as Hks.
  assert (single c = false) as Hsg by (unfold single; now rewrite Heval).
  pose proof (i_room _ _ _ _ _ _ H2 Hsg Hbatch Hsync T HT) as Hrm. rewrite Hks in Hrm.
  destruct Wl as [Wl|Wl]; [left; lia|]. right. split; [lia|].
  assert (forall m, (m < k)%nat -> (work (pending q2 m) <= work (pending q m))%nat) as Hle.
  { intros m Hm. specialize (Wl m). destruct (_ && _); [destruct Wl as [Wl|[Wl _]]; lia|destruct Wl; lia]. }
  destruct (existsb (fun m => Nat.ltb (work (pending q2 m)) (work (pending q m))) (seq 0 k)) eqn:Hx.
  { left. apply existsb_exists in Hx. destruct Hx as (m & Hm & Hx). apply in_seq in Hm. apply Nat.ltb_lt in Hx.
    apply (total_lt _ _ m); auto using all_counted; lia. }
  right. split; [apply total_le; auto|].
  assert (forall m, (m < k)%nat -> if prev_terminals q m <=? 0 then (tries patience m (log q2) < tries patience m (log q))%nat else tries patience m (log q2) = tries patience m (log q)) as Htr.
  { intros m Hm. specialize (Wl m). assert (m <? k = true)%nat as E by now apply Nat.ltb_lt. rewrite E in Wl. cbn [andb] in Wl.
    destruct (prev_terminals q m <=? 0); [|apply Wl]. destruct Wl as [Wl|[_ Wl]]; auto. exfalso. apply eq_true_false_abs with (2 := Hx).
    apply existsb_exists. exists m. split; [apply in_seq; lia|now apply Nat.ltb_lt]. }
  unfold running in Hrun. apply existsb_exists in Hrun. destruct Hrun as (m & Hm & Hpm). apply in_seq in Hm.
  apply (total_lt _ _ m); auto using all_counted; try lia.
  - intros m' Hm' _. specialize (Htr m' Hm'). destruct (prev_terminals q m' <=? 0); lia.
  - specialize (Htr m). rewrite Hpm in Htr. apply Htr. lia.
Qed.

Theorem loop_stops q : head q -> exists fuel q', loop zero add w c fuel q = Ok q' /\ running c q' = false /\ head q'.
Proof.
  induction q as [q IH] using (well_founded_ind earlier_wf). intros H. destruct (running c q) eqn:Hr.
  - destruct (pass_earlier q H Hr) as (q1 & E1 & H1 & P1). destruct (IH q1) as (fuel & q' & E & Hq); auto.
    exists (Datatypes.S fuel), q'. split; auto. cbn [loop]. rewrite Hr, E1. exact E.
  - exists 0%nat, q. auto.
Qed.
End Steps.

End P.
