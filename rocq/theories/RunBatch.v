(** Batched agent calls: the part of a pass before the environments are visited *)
From Coq Require Import String List ZArith Lia Bool Arith.
From Verif Require Import Base RunSpec RunModel RunProofs RunInv RunHist RunLoop.
Import ListNotations.
Open Scope string_scope.
Open Scope list_scope.
Open Scope Z_scope.

Section P.
Context {S A R I : Type}.
Variable zero : R.
Variable add : R -> R -> R.
Variable w : world S A R I.
Variable c : config.
Notation runner := (@runner S A R I).
Notation event := (event S A R I).
Notation history := (history S A R I).
Implicit Types q : runner.
Implicit Types h : history.
Notation k := (num_environments c).
Notation phase_of n h := (at_phase (is_eval c n) n h).
Notation good n h := (proper (is_eval c n) n h).
Notation got := RunSpec.rewards.
Notation sum l := (fold_left add l zero).
Notation ok := (RunInv.ok zero add c).
Notation pre := (RunInv.pre zero add c).
Notation came := (RunLoop.came zero add w c).
Hypothesis Hvalid : valid w.
Hypothesis Hk : (0 < k)%nat.

Definition status (st : stage) (m : nat) (q : runner) : Prop :=
  if prev_terminals q m <=? 0 then pre st m q else ok m q (prev_terminals q m) /\ terminals q m = prev_terminals q m.

Lemma status_other st n m q q' es : frame n q q' -> m <> n -> log q' = es ++ log q -> Forall (other c m) es -> status st m q -> status st m q'.
Proof.
  intros F Hm Hl Ho H. unfold status in *. rewrite (f_prev _ _ _ F). rewrite (f_terminals _ _ _ F) by auto.
  destruct (_ <=? _); [eapply pre_other; eauto|]. destruct H. split; auto. eapply ok_other; eauto.
Qed.

Definition reply (e : event) : Prop := match e with Reply n _ _ _ => (n < k)%nat | _ => False end.
Definition closed_list (q : runner) (i : nat) : list nat :=
  filter (fun m => (prev_terminals q m <=? 0) && (0 <? terminals q m)) (seq i (training c - i)).
Definition eval_closed (q : runner) : list (list R) :=
  if evaluation_run c && ((prev_terminals q (last c) <=? 0) && (0 <? terminals q (last c))) then [got (last c) (log q)] else [].

Lemma last_range : (last c < k)%nat.
Proof. unfold last. lia. Qed.
Lemma training_range m : (m < training c)%nat -> (m < k)%nat.
Proof. unfold training. destruct (evaluation_run c); lia. Qed.
Lemma training_eval m : (m < k)%nat -> is_eval c m = negb (Nat.ltb m (training c)).
Proof.
  intros Hm. unfold is_eval, training, last. destruct (evaluation_run c); cbn [andb].
  - destruct (Nat.ltb_spec m (k - 1)); destruct (Nat.eqb_spec m (k - 1)); auto; lia.
  - destruct (Nat.ltb_spec m (k - 0)); auto; lia.
Qed.

(** ** 561-576 *)
Record received_upto (i : nat) (q0 q : runner) : Prop := ReceivedUpto {
  r_prev : prev_terminals q = prev_terminals q0;
  r_done : forall m, (m < i)%nat -> status Received m q;
  r_todo : forall m, (i <= m < k)%nat -> ok m q (prev_terminals q m);
  r_answers : answers w (is_eval c) (log q);
  r_finished : finished (log q) = finished (log q0);
  r_evaluated : evaluation_run c = true -> evaluated (last c) (log q) =
    evaluated (last c) (log q0) ++ (if Nat.ltb (last c) i then eval_closed q else []);
  r_still : still q0 q;
  r_internals : internals q = internals q0;
  r_log : exists es, log q = es ++ log q0 /\ Forall reply es }.

Lemma receive_all q : (forall m, (m < k)%nat -> ok m q (prev_terminals q m)) -> answers w (is_eval c) (log q) ->
  exists q', each (receive_batch w) (seq 0 k) q = Ok q' /\ received_upto k q q'.
Proof.
  intros Hok Hw. apply (each_seq (receive_batch w) (fun i q' => received_upto i q q')).
  { constructor; auto.
    - lia.
    - intros m Hm. apply Hok. lia.
    - intros _. cbn. now rewrite app_nil_r.
    - apply still_refl.
    - exists []. auto. }
  intros i q1 Hi H. unfold receive_batch. pose proof (r_todo _ _ _ H i) as Hoki. specialize (Hoki (conj (Nat.le_refl i) (proj2 Hi))).
  destruct (prev_terminals q1 i <=? 0) eqn:Hpv.
  - assert (pending q1 i <> None) as Hp.
    { intros E. destruct Hoki as [_ Hx]. rewrite E in Hx. apply Z.leb_le in Hpv. lia. }
    destruct (receive_spec zero add w c Hvalid i q1 _ Hoki Hp) as (q2 & E & C). exists q2. split; auto.
    destruct (came_own zero add w c i q1 q2 C) as (es & El & Ho).
    pose proof (c_frame _ _ _ _ _ _ _ C) as F. destruct H. constructor.
    + rewrite (f_prev _ _ _ F). auto.
    + intros m Hm. destruct (Nat.eq_dec m i) as [->|Hd].
      * unfold status. rewrite (f_prev _ _ _ F), Hpv. apply C.
      * eapply status_other; eauto. apply r_done0. lia.
    + intros m Hm. rewrite (f_prev _ _ _ F). eapply ok_other; eauto; [lia| |apply r_todo0; lia]. apply Ho. lia.
    + apply (c_answers _ _ _ _ _ _ _ C). auto.
    + rewrite (c_finished _ _ _ _ _ _ _ C). auto.
    + intros Hev. rewrite (c_evaluated _ _ _ _ _ _ _ C Hev), (r_evaluated0 Hev), <- app_assoc. f_equal.
      unfold eval_closed. rewrite Hev. cbn [andb]. unfold is_eval. rewrite Hev. cbn [andb].
      destruct (Nat.ltb_spec (last c) i); destruct (Nat.ltb_spec (last c) (Datatypes.S i)); destruct (Nat.eqb_spec i (last c)); try lia; cbn.
      * assert (last c <> i) as Hd by auto. rewrite app_nil_r, (f_prev _ _ _ F), (f_terminals _ _ _ F) by auto.
        rewrite El, (rewards_others c) by now apply Ho. reflexivity.
      * subst i. rewrite (f_prev _ _ _ F), Hpv. cbn. reflexivity.
      * reflexivity.
    + eapply still_trans; [eauto|]. apply C.
    + rewrite (c_internals _ _ _ _ _ _ _ C). auto.
    + destruct r_log0 as (es' & El' & Fe). destruct (c_log _ _ _ _ _ _ _ C) as (s & t & r & El2).
      exists (Reply i s t r :: es'). rewrite El2, El'. split; auto. constructor; auto. cbn. lia.
  - eexists. split; [reflexivity|].
    set (q2 := set_rewards _ _).
    assert (frame i q1 q2) as F by (constructor; cbn; intros; auto using upd_other).
    assert (log q2 = [] ++ log q1) as El by reflexivity.
    destruct H. constructor; auto.
    + intros m Hm. destruct (Nat.eq_dec m i) as [->|Hd].
      * unfold status. rewrite (f_prev _ _ _ F), Hpv. split; [exact Hoki|]. unfold q2. cbn. now rewrite upd_same.
      * eapply status_other; eauto. apply r_done0. lia.
    + intros m Hm. apply r_todo0. lia.
    + intros Hev. change (log q2) with (log q1). rewrite (r_evaluated0 Hev). f_equal.
      unfold eval_closed. rewrite Hev. cbn [andb].
      destruct (Nat.ltb_spec (last c) i); destruct (Nat.ltb_spec (last c) (Datatypes.S i)); try lia; cbn.
      * rewrite upd_other by lia. reflexivity.
      * assert (last c = i) as -> by lia. rewrite Hpv. reflexivity.
      * reflexivity.
Qed.

Lemma values_spec {X} (f : nat -> option X) l : (forall n, In n l -> exists x, f n = Some x) ->
  exists rs, values f l = Ok rs /\ map fst rs = l /\ forall n x, In (n, x) rs -> f n = Some x.
Proof.
  induction l as [|n l IH]; intros H; cbn.
  - exists []. repeat split; auto. intros n x [].
  - destruct (H n) as (x & E); [now left|]. rewrite E. cbn. destruct IH as (rs & E' & E1 & E2); [intros; apply H; now right|].
    unfold values in E'. rewrite E'. cbn. exists ((n, x) :: rs). split; auto. split; [cbn; congruence|].
    intros m y [Hi|Hi]; [injection Hi as <- <-; auto|auto].
Qed.
Lemma filter_map {X Y} (f : Y -> bool) (g : X -> Y) l : filter f (map g l) = map g (filter (fun x => f (g x)) l).
Proof. induction l as [|x l IH]; cbn; auto. destruct (f (g x)); cbn; now rewrite IH. Qed.
Lemma filter_filter' {X} (f g : X -> bool) l : filter f (filter g l) = filter (fun x => g x && f x) l.
Proof. induction l as [|x l IH]; cbn; auto. destruct (g x); cbn; [destruct (f x)|]; now rewrite IH. Qed.
Lemma filter_fst {X} (f : nat -> bool) (l : list (nat * X)) : map fst (filter (fun x => f (fst x)) l) = filter f (map fst l).
Proof. induction l as [|x l IH]; cbn; auto. destruct (f (fst x)); cbn; now rewrite IH. Qed.

(** An event which concerns several environments, all other parts of the state being unchanged *)
Definition same_but_log (q q' : runner) : Prop :=
  prev_terminals q' = prev_terminals q /\ pending q' = pending q /\ terminals q' = terminals q /\ states q' = states q /\
  rewards q' = rewards q /\ episode_return q' = episode_return q /\ episode_timestep q' = episode_timestep q /\
  same_records q q' /\ episodes q' = episodes q /\ timesteps q' = timesteps q /\ terminate q' = terminate q.

Lemma status_same st m q q' : same_but_log q q' -> actions q' = actions q -> log q' = log q -> status st m q -> status st m q'.
Proof.
  intros (E1 & E2 & E3 & E4 & E5 & E6 & E7 & _) E8 E9. unfold status, RunInv.pre, RunInv.ok, acts. now rewrite E1, E2, E3, E4, E5, E6, E7, E8, E9.
Qed.

(** ** 798-812 *)
Lemma observe_joint q : (forall m, (m < k)%nat -> status Received m q) -> answers w (is_eval c) (log q) ->
  exists q', handle_observe_joint w c q = Ok q' /\ same_but_log q q' /\ internals q' = internals q /\
    (exists es, log q' = es ++ log q /\ (forall m, (k <= m)%nat -> Forall (other c m) es) /\
                (es = [] \/ exists o, es = [Observe o])) /\
    (forall m, (m < k)%nat -> status Told m q') /\ answers w (is_eval c) (log q') /\
    finished (log q') = finished (log q) ++ map (fun m => (m, got m (log q))) (closed_list q 0).
Proof.
  intros Hst Hw. unfold handle_observe_joint.
  set (parallel := filter _ _).
  assert (forall m, In m parallel -> (m < training c)%nat /\ prev_terminals q m <= 0 /\ 0 <= terminals q m) as Hpar.
  { intros m Hi. apply filter_In in Hi. destruct Hi as [Hi Hx]. apply in_seq in Hi. apply andb_prop in Hx. destruct Hx as [H1 H2].
    apply Z.leb_le in H1, H2. repeat split; auto; lia. }
  assert (forall m, (m < training c)%nat -> prev_terminals q m <= 0 -> 0 <= terminals q m -> In m parallel) as Hpar'.
  { intros m Hm H1 H2. apply filter_In. split; [apply in_seq; lia|]. apply andb_true_intro. split; now apply Z.leb_le. }
  assert (NoDup parallel) as Hnd by (apply NoDup_filter, seq_NoDup).
  assert (forall m, In m parallel -> is_eval c m = false) as Hpe.
  { intros m Hi. destruct (Hpar m Hi) as [Hm _]. rewrite training_eval by now apply training_range. apply Nat.ltb_lt in Hm. now rewrite Hm. }
  assert (closed_list q 0 = filter (fun m => 0 <? terminals q m) parallel) as Ecl.
  { unfold closed_list, parallel. rewrite Nat.sub_0_r, filter_filter'. apply filter_ext_in'. intros m _.
    destruct (prev_terminals q m <=? 0); cbn; auto. destruct (Z.ltb_spec 0 (terminals q m)); destruct (Z.leb_spec 0 (terminals q m)); auto; lia. }
  assert (forall m, In m parallel -> exists r s rs, rewards q m = Some r /\ states q m = Some s /\ got m (log q) = rs ++ [r] /\
    episode_timestep q m = length (rs ++ [r]) /\ episode_return q m = sum rs /\ 0 <= terminals q m <= 2 /\
    phase_of m (log q) = Answered s (terminals q m) r) as Hans.
  { intros m Hi. destruct (Hpar m Hi) as (Hm & H1 & H2). pose proof (Hst m (training_range _ Hm)) as Hs. unfold status in Hs.
    apply Z.leb_le in H1. rewrite H1 in Hs. destruct Hs as (Hg & Hp & [(Ht & _)|(r & rs & Hx & Hr & Hgot & Hts & Hret & Hph)]); [lia|].
    rewrite (Hpe m Hi) in Hph. destruct Hph as (s & Es & Ph). rewrite (Hpe m Hi). exists r, s, rs. repeat split; auto; lia. }
  destruct (values_spec (rewards q) parallel) as (rs & Ev & Efst & Hrs).
  { intros m Hi. destruct (Hans m Hi) as (r & ? & ? & E & _). eauto. }
  destruct parallel as [|p0 pl] eqn:Ep.
  - exists q. split; auto. split; [repeat split|]. split; auto. split; [exists []; auto|]. split.
    + intros m Hm. specialize (Hst m Hm). unfold status in *. destruct (prev_terminals q m <=? 0) eqn:Hpv; auto.
      destruct Hst as (Hg & Hp & Hx). split; auto. split; auto. destruct Hx as [|(r & rs' & Hx & Hr & Hgot & Hts & Hret & Hph)]; [now left|].
      right. exists r, rs'. repeat split; auto; try lia. destruct (is_eval c m) eqn:He.
      * destruct (_ =? _); auto.
      * exfalso. apply (Hpar' m). 
        -- rewrite training_eval in He by auto. apply negb_false_iff, Nat.ltb_lt in He. auto.
        -- now apply Z.leb_le.
        -- lia.
    + split; auto. rewrite Ecl. cbn. now rewrite app_nil_r.
  - rewrite <- Ep in *. rewrite Ev. cbn [bind]. clear Ep. clearbody parallel. eexists. split; [reflexivity|].
    set (o := map _ rs). 
    assert (map (fun x => fst (fst x)) o = parallel) as Eo by (unfold o; rewrite map_map; cbn; exact Efst).
    assert (forall m t r, In (m, t, r) o -> In m parallel /\ t = terminals q m /\ rewards q m = Some r) as Ho.
    { intros m t r Hi. unfold o in Hi. apply in_map_iff in Hi. destruct Hi as ([n x] & E & Hi). cbn in E. injection E as <- <- <-.
      split; [rewrite <- Efst; apply in_map_iff; exists (n, x); auto|]. split; auto. }
    assert (forall m, In m parallel -> exists r, In (m, terminals q m, r) o) as Ho'.
    { intros m Hi. rewrite <- Efst in Hi. apply in_map_iff in Hi. destruct Hi as ([n x] & E & Hi). cbn in E. subst n. exists x. unfold o.
      apply in_map_iff. exists (m, x). auto. }
    set (q' := set_updates _ _).
    assert (same_but_log q q') as Hsame by repeat split.
    split; auto. split; auto.
    assert (log q' = Observe o :: log q) as El by reflexivity.
    assert (forall m, ~ In m parallel -> @other S A R I c m (Observe o)) as Hoth.
    { intros m Hn. cbn. rewrite Eo. split; auto. }
    split.
    { exists [Observe o]. split; auto. split; [|eauto]. intros m Hm. constructor; [|constructor]. apply Hoth. intros Hi.
      destruct (Hpar m Hi) as [Hx _]. apply training_range in Hx. lia. }
    split.
    { intros m Hm. specialize (Hst m Hm).
      destruct (in_dec Nat.eq_dec m parallel) as [Hi|Hi].
      - destruct (Hans m Hi) as (r & s & rs' & Er & Es & Eg & Ets & Eret & Ht2 & Eph). destruct (Hpar m Hi) as (Hmt & Hpv & Ht0).
        pose proof (Hpe m Hi) as He. unfold status in *. change (prev_terminals q' m) with (prev_terminals q m).
        apply Z.leb_le in Hpv. rewrite Hpv in *. destruct Hst as (Hg & Hp & _).
        destruct (Ho' m Hi) as (r' & Hio). destruct (Ho _ _ _ Hio) as (_ & _ & Er'). rewrite Er in Er'. injection Er' as <-.
        assert (NoDup (map (fun x => fst (fst x)) o)) as Hndo by now rewrite Eo.
        pose proof (in_find m o Hndo _ _ Hio) as Hfind.
        assert (phase_of m (log q') = if 0 <? terminals q m then Closed else Ready s) as Eph'.
        { rewrite El. cbn [at_phase next]. rewrite Hfind, Eph, He. reflexivity. }
        unfold RunInv.pre. split.
        { rewrite El. cbn [proper]. split; auto. rewrite He in *. cbn. split; auto. intros t' r0 Hi0. destruct (Ho _ _ _ Hi0) as (_ & -> & Er0).
          rewrite Er in Er0. injection Er0 as <-. split; auto. exists s, (terminals q m). auto. }
        split; [exact Hp|]. right. exists r, rs'. split; [exact Ht2|]. split; [exact Er|].
        split; [exact Eg|]. split; [exact Ets|]. split; [exact Eret|]. change (terminals q' m) with (terminals q m).
        destruct (Z.eqb_spec (terminals q m) 0) as [E0|E0].
        + exists s. split; [exact Es|]. rewrite Eph', E0. reflexivity.
        + rewrite Eph'. assert (0 <? terminals q m = true) as -> by (apply Z.ltb_lt; lia). reflexivity.
      - assert (Forall (@other S A R I c m) [Observe o]) as Hf by (constructor; auto).
        assert (frame (Datatypes.S m) q q') as F by (constructor; intros; reflexivity).
        assert (status Received m q') as Hst' by (eapply (status_other Received (Datatypes.S m) m q q' [Observe o]); auto).
        unfold status in *. change (prev_terminals q' m) with (prev_terminals q m) in *. destruct (prev_terminals q m <=? 0) eqn:Hpv; auto.
        destruct Hst' as (Hg & Hp & Hx). split; auto. split; auto. destruct Hx as [|(r & rs' & Hx & Hr & Hgot & Hts & Hret & Hph)]; [now left|].
        right. exists r, rs'. repeat split; auto; try lia. destruct (is_eval c m) eqn:He.
        + destruct (_ =? _); auto.
        + exfalso. apply Hi. apply Hpar'.
          * rewrite training_eval in He by auto. apply negb_false_iff, Nat.ltb_lt in He. auto.
          * now apply Z.leb_le.
          * change (terminals q' m) with (terminals q m) in Hx. lia. }
    split; [rewrite El; cbn; auto|].
    rewrite El, Ecl. cbn [finished]. f_equal. unfold o. rewrite filter_map, map_map. cbn.
    rewrite <- Efst, <- filter_fst, map_map. reflexivity.
Qed.

(** ** 722-748 *)
Lemma same_trans q q1 q2 : same_but_log q q1 -> same_but_log q1 q2 -> same_but_log q q2.
Proof.
  intros (A1 & A2 & A3 & A4 & A5 & A6 & A7 & (A8 & A9 & A10 & A11) & A12 & A13 & A14)
         (B1 & B2 & B3 & B4 & B5 & B6 & B7 & (B8 & B9 & B10 & B11) & B12 & B13 & B14).
  repeat split; congruence.
Qed.

Lemma decide m q q' : status Told m q -> same_but_log q q' -> good m (log q') -> got m (log q') = got m (log q) ->
  (if terminals q m <=? 0 then acts c Told m q -> acts c Decided m q' else phase_of m (log q') = phase_of m (log q)) ->
  status Decided m q'.
Proof.
  intros H (E1 & E2 & E3 & E4 & E5 & E6 & E7 & _) Hg Hgot Hx. unfold status in *. rewrite E1. destruct (prev_terminals q m <=? 0) eqn:Hpv.
  - destruct H as (Hg0 & Hp & H). split; auto. rewrite E2. split; auto. rewrite E3, E5, E6, E7, Hgot.
    destruct H as [(Ht & H2 & H3 & H4 & H5)|(r & rs & Ht & H2 & H3 & H4 & H5 & H6)].
    + left. rewrite Ht in Hx. change (-1 <=? 0) with true in Hx. cbv iota in Hx. repeat split; auto.
    + right. exists r, rs. repeat split; auto; try lia. destruct (Z.eqb_spec (terminals q m) 0) as [E0|E0].
      * rewrite E0 in Hx. change (0 <=? 0) with true in Hx. auto.
      * assert (terminals q m <=? 0 = false) as Hf by (apply Z.leb_gt; lia). rewrite Hf in Hx. congruence.
  - destruct H as [[Hg0 H] Ht]. rewrite E3. split; auto. split; auto. rewrite E2, E6, E7, Hgot.
    assert (terminals q m <=? 0 = false) as Hf by congruence. rewrite Hf in Hx. rewrite Hx. exact H.
Qed.
Lemma status_cong st m q q' : status st m q -> same_but_log q q' -> good m (log q') -> got m (log q') = got m (log q) ->
  phase_of m (log q') = phase_of m (log q) -> actions q' m = actions q m -> status st m q'.
Proof.
  intros H (E1 & E2 & E3 & E4 & E5 & E6 & E7 & _) Hg Hgot Hx Ha. unfold status, RunInv.pre, RunInv.ok, acts in *.
  rewrite E1, E2, E3, E4, E5, E6, E7, Hgot, Hx, Ha. destruct (_ <=? _).
  - split; auto. apply H.
  - split; [|apply H]. split; auto. apply H.
Qed.
Lemma status_good st m q : status st m q -> good m (log q).
Proof. unfold status. destruct (_ <=? _); [intros (H & _)|intros [(H & _) _]]; exact H. Qed.
Lemma status_acts m q : status Told m q -> terminals q m <= 0 -> acts c Told m q.
Proof.
  unfold status. destruct (prev_terminals q m <=? 0) eqn:Hpv.
  - intros (Hg & Hp & [(Ht & H2 & H3 & H4 & H5)|(r & rs & Ht & H2 & H3 & H4 & H5 & H6)]) Hx; auto.
    assert (terminals q m = 0) as E by lia. rewrite E in H6. exact H6.
  - intros [_ E] Hx. apply Z.leb_gt in Hpv. lia.
Qed.

Lemma act_joint q : (forall m, (m < k)%nat -> status Told m q) -> answers w (is_eval c) (log q) ->
  exists q', handle_act_joint w c q = Ok q' /\ same_but_log q q' /\
    (exists es, log q' = es ++ log q /\ (forall m, (k <= m)%nat -> Forall (other c m) es)) /\
    (forall m, (m < k)%nat -> status Decided m q') /\ answers w (is_eval c) (log q') /\
    finished (log q') = finished (log q) /\ evaluated (last c) (log q') = evaluated (last c) (log q) /\
    (forall ns, executions ns (log q') = executions ns (log q)) /\ (forall ns, starts ns (log q') = starts ns (log q)) /\
    (forall m, got m (log q') = got m (log q)) /\
    (internals_kept w (last c) (log q) -> internals q = internals_of w (last c) (log q) ->
     internals_kept w (last c) (log q') /\ internals q' = internals_of w (last c) (log q')).
Proof.
  intros Hst Hw. unfold handle_act_joint.
  set (parallel := filter _ _).
  assert (forall m, In m parallel -> (m < training c)%nat /\ terminals q m <= 0) as Hpar.
  { intros m Hi. apply filter_In in Hi. destruct Hi as [Hi Hx]. apply in_seq in Hi. apply Z.leb_le in Hx. split; auto; lia. }
  assert (forall m, (m < training c)%nat -> terminals q m <= 0 -> In m parallel) as Hpar'.
  { intros m Hm H1. apply filter_In. split; [apply in_seq; lia|]. now apply Z.leb_le. }
  assert (NoDup parallel) as Hnd by (apply NoDup_filter, seq_NoDup).
  assert (forall m, (m < training c)%nat -> is_eval c m = false) as Hpe.
  { intros m Hm. rewrite training_eval by now apply training_range. apply Nat.ltb_lt in Hm. now rewrite Hm. }
  assert (forall m, In m parallel -> exists s, states q m = Some s /\ phase_of m (log q) = Ready s) as Hrd.
  { intros m Hi. destruct (Hpar m Hi) as [H1 H2]. apply (status_acts m q); auto. apply Hst. now apply training_range. }
  assert (exists q1, match parallel with
          | [] => Ok q
          | _ =>
            do ss <- values (states q) parallel;
            let f := w_act w (log q) ss in
            let q := emit (Act (map (fun x => (fst x, snd x, f (fst x))) ss)) q in
            Ok (set_actions (fun n => if existsb (Nat.eqb n) parallel then Some (f n) else None) q)
          end = Ok q1 /\ same_but_log q q1 /\ internals q1 = internals q /\
    (exists es, log q1 = es ++ log q /\ (forall m, (k <= m)%nat -> Forall (other c m) es)) /\
    (forall m, (m < training c)%nat -> status Decided m q1) /\
    (forall m, (training c <= m < k)%nat -> status Told m q1) /\ answers w (is_eval c) (log q1) /\
    finished (log q1) = finished (log q) /\ evaluated (last c) (log q1) = evaluated (last c) (log q) /\
    (forall ns, executions ns (log q1) = executions ns (log q)) /\ (forall ns, starts ns (log q1) = starts ns (log q)) /\
    (forall m, got m (log q1) = got m (log q)) /\
    internals_of w (last c) (log q1) = internals_of w (last c) (log q) /\
    (internals_kept w (last c) (log q) -> internals_kept w (last c) (log q1)))
    as (q1 & E1 & Hs1 & Hi1 & (es1 & El1 & Ho1) & Hd1 & Ht1 & Hw1 & F1 & F2 & F3 & F4 & F5 & F6 & F7).
  { destruct (values_spec (states q) parallel) as (ss & Ev & Efst & Hss).
    { intros m Hi. destruct (Hrd m Hi) as (s & E & _). eauto. }
    destruct parallel as [|p0 pl] eqn:Ep.
    - exists q. repeat split; auto.
      + exists []. auto.
      + intros m Hm. apply (decide m q q); auto; try (repeat split; fail).
        * apply Hst. now apply training_range.
        * eapply status_good. apply Hst. now apply training_range.
        * destruct (Z.leb_spec (terminals q m) 0) as [Hle|]; auto. destruct (Hpar' m Hm Hle).
      + intros m Hm. apply Hst. lia.
    - rewrite <- Ep in *. rewrite Ev. cbn [bind]. clear Ep. clearbody parallel. eexists. split; [reflexivity|].
      set (o := map _ ss). set (q' := set_actions _ _).
      assert (map (fun x => fst (fst x)) o = parallel) as Eo by (unfold o; rewrite map_map; cbn; exact Efst).
      assert (forall m s a, In (m, s, a) o -> In m parallel /\ states q m = Some s /\ a = w_act w (log q) ss m) as Ho.
      { intros m s a Hi. unfold o in Hi. apply in_map_iff in Hi. destruct Hi as ([n x] & E & Hi). cbn in E. injection E as <- <- <-.
        split; [rewrite <- Efst; apply in_map_iff; exists (n, x); auto|]. split; auto. }
      assert (forall m, In m parallel -> exists s, In (m, s, w_act w (log q) ss m) o) as Ho'.
      { intros m Hi. rewrite <- Efst in Hi. apply in_map_iff in Hi. destruct Hi as ([n x] & E & Hi). cbn in E. subst n. exists x. unfold o.
        apply in_map_iff. exists (m, x). auto. }
      assert (same_but_log q q') as Hsame by repeat split.
      assert (log q' = Act o :: log q) as El by reflexivity.
      assert (forall m, ~ In m parallel -> @other S A R I c m (Act o)) as Hoth.
      { intros m Hn. cbn. rewrite Eo. split; auto. }
      assert (NoDup (map (fun x => fst (fst x)) o)) as Hndo by now rewrite Eo.
      assert (map fst o = ss) as Emf.
      { unfold o. rewrite map_map. cbn. rewrite <- (map_id ss) at 2. apply map_ext. now intros []. }
      split; auto. split; auto. split.
      { exists [Act o]. split; auto. intros m Hm. constructor; [|constructor]. apply Hoth. intros Hi.
        destruct (Hpar m Hi) as [Hx _]. apply training_range in Hx. lia. }
      split.
      { intros m Hm. pose proof (Hst m (training_range _ Hm)) as Hsm. pose proof (status_good _ _ _ Hsm) as Hg.
        destruct (in_dec Nat.eq_dec m parallel) as [Hi|Hi].
        - destruct (Hrd m Hi) as (s & Es & Ph). destruct (Ho' m Hi) as (s' & Hio). destruct (Ho _ _ _ Hio) as (_ & Es' & _).
          rewrite Es in Es'. injection Es' as <-.
          apply (decide m q q'); auto.
          + rewrite El. cbn [proper]. split; auto. cbn. split; auto. intros s0 a0 Hi0. destruct (Ho _ _ _ Hi0) as (_ & Es0 & _).
            rewrite Es in Es0. injection Es0 as <-. split; auto.
          + destruct (Hpar m Hi) as [_ Hle]. apply Z.leb_le in Hle. rewrite Hle. intros _. exists (w_act w (log q) ss m). split.
            * unfold q'. cbn. assert (existsb (Nat.eqb m) parallel = true) as ->; auto. apply existsb_exists. exists m. split; auto. apply Nat.eqb_refl.
            * rewrite El. cbn [at_phase next]. now rewrite (Hpe m Hm), (in_find m o Hndo _ _ Hio).
        - apply (decide m q q'); auto.
          + rewrite El. apply (proper_other c m [Act o]); auto.
          + destruct (Z.leb_spec (terminals q m) 0) as [Hle|]; [destruct Hi; auto|]. rewrite El. apply (phase_other c m [Act o]); auto. }
      split.
      { intros m Hm. assert (~ In m parallel) as Hn by (intros Hi; destruct (Hpar m Hi); lia).
        assert (is_eval c m = true) as He by (rewrite training_eval by lia; apply negb_true_iff, Nat.ltb_ge; lia).
        pose proof (Hst m (proj2 Hm)) as Hsm. pose proof (status_good _ _ _ Hsm) as Hg.
        assert (good m (log q')) as Hg' by (rewrite El; apply (proper_other c m [Act o]); auto).
        assert (phase_of m (log q') = phase_of m (log q)) as Hph' by (rewrite El; apply (phase_other c m [Act o]); auto).
        destruct Hsame as (S1 & S2 & S3 & S4 & S5 & S6 & S7 & _). unfold status, RunInv.pre, RunInv.ok, acts in Hsm |- *.
        rewrite S1, S2, S3, S4, S5, S6, S7, Hph'. change (got m (log q')) with (got m (log q)).
        destruct (_ <=? _); [split; [auto|apply Hsm]|split; [split; [auto|apply Hsm]|apply Hsm]]. }
      split; [rewrite El; cbn; split; auto; intros n s a Hi; rewrite Emf; apply (Ho _ _ _ Hi)|].
      repeat split; auto. }
  cbv zeta in E1 |- *. rewrite E1. cbn [bind].
  destruct (evaluation_run c && (terminals q1 (last c) <=? 0)) eqn:Hev.
  2:{ exists q1. split; auto. split; auto. split; [eauto|]. split.
      { intros m Hm. destruct (Nat.lt_ge_cases m (training c)) as [|Hge]; auto.
        assert (is_eval c m = true) as He by (rewrite training_eval by lia; apply negb_true_iff, Nat.ltb_ge; lia).
        unfold is_eval in He. apply andb_prop in He. destruct He as [He1 He2]. apply Nat.eqb_eq in He2. subst m. rewrite He1 in Hev. cbn in Hev.
        apply (decide (last c) q1 q1); auto; try (repeat split; fail).
        - eapply status_good; auto.
        - now rewrite Hev. }
      repeat split; auto; congruence. }
  apply andb_prop in Hev. destruct Hev as [Hev Hle]. apply Z.leb_le in Hle.
  assert (is_eval c (last c) = true) as He by (unfold is_eval; rewrite Hev, Nat.eqb_refl; auto).
  assert (training c = last c) as Etr by (unfold training, last; now rewrite Hev).
  pose proof last_range as Hlr.
  assert (status Told (last c) q1) as Hsl by (apply Ht1; lia).
  destruct (status_acts _ _ Hsl Hle) as (s & Es & Ph). rewrite Es.
  destruct (w_act_eval w (log q1) s (internals q1)) as [a i] eqn:Ea.
  eexists. split; [reflexivity|]. set (q2 := set_actions _ _).
  assert (log q2 = ActEval s (internals q1) a i :: log q1) as El by reflexivity.
  assert (same_but_log q1 q2) as Hsame by repeat split.
  split; [eapply same_trans; eauto|]. split.
  { exists (ActEval s (internals q1) a i :: es1). rewrite El, El1. split; auto. intros m Hm. constructor; auto. cbn. apply eval_range; auto. }
  assert (forall m, m <> last c -> @other S A R I c m (ActEval s (internals q1) a i)) as Hoth.
  { intros m Hm. cbn. unfold is_eval. apply Nat.eqb_neq in Hm. rewrite Hm. apply andb_false_r. }
  split.
  { intros m Hm. destruct (Nat.eq_dec m (last c)) as [->|Hd].
    - apply (decide (last c) q1 q2); auto.
      + rewrite El. cbn [proper]. split; [eapply status_good; eauto|]. cbn. intros _. exact Ph.
      + apply Z.leb_le in Hle. rewrite Hle. intros _. exists a. split; [unfold q2; cbn; now rewrite upd_same|].
        rewrite El. cbn [at_phase next]. now rewrite He.
    - assert (m < training c)%nat as Hmt by (unfold training, last in *; rewrite Hev in *; lia).
      pose proof (Hd1 m Hmt) as Hsm. apply (status_cong Decided m q1 q2); auto.
      + rewrite El. apply (proper_other c m [ActEval s (internals q1) a i]); auto. eapply status_good; eauto.
      + rewrite El. apply (phase_other c m [ActEval s (internals q1) a i]); auto.
      + unfold q2. cbn. now rewrite upd_other. }
  split; [rewrite El; cbn; auto|]. rewrite El. cbn [finished evaluated executions starts RunSpec.rewards].
  split; [auto|]. split; [auto|]. split; [auto|]. split; [auto|]. split; [auto|].
  intros J1 J2. cbn [internals_kept internals_of]. split; [|reflexivity]. split; auto. congruence.
Qed.

End P.
