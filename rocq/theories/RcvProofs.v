(** Proofs for C177 and C178. *)

From Coq Require Import String Ascii List ZArith QArith Bool Arith Lia.
From Verif Require Import Base RcvModel RcvSpec.
Import ListNotations.
Open Scope string_scope.
Open Scope list_scope.
Open Scope Z_scope.

Lemma bind_inv {X Y} (x : res X) (f : X -> res Y) y : bind x f = Ok y -> exists z, x = Ok z /\ f z = Ok y.
Proof. destruct x; [eauto|discriminate]. Qed.
Lemma assert_iff c e x : assert_ c e = Ok x <-> c = true.
Proof. destruct x. unfold assert_. destruct c; split; auto; discriminate. Qed.

(** ** Values *)
Lemma terminal_iff t : check_terminal t = Ok tt <-> exists n, terminal_value t n.
Proof.
  split.
  - destruct t; cbn; try discriminate.
    + intros _. eexists. constructor.
    + intros H. apply assert_iff, negb_true_iff, orb_false_iff in H. destruct H as (H1 & H2). apply Z.ltb_ge in H1. apply Z.ltb_ge in H2.
      exists n. constructor. cbn. lia.
  - intros (n & H). destruct H as [b|n H]; [reflexivity|]. cbn. destruct H as [<-|[<-|[<-|[]]]]; reflexivity.
Qed.
Lemma terminal_int_of t n : terminal_value t n -> int t = Ok n.
Proof. destruct 1; reflexivity. Qed.
Lemma reward_iff r : check_reward r = Ok tt <-> reward_value r.
Proof. split; [destruct r; cbn; try discriminate; constructor|]. destruct 1; reflexivity. Qed.
Lemma item_iff x y : item x = Ok y <-> plain x y.
Proof.
  split.
  - destruct x as [b|n|q|[|z [|]]|]; cbn; intros H; try discriminate; injection H as <-; constructor.
  - destruct 1; reflexivity.
Qed.

(** ** States *)
Lemma endswith_iff x s : endswith x s = true <-> exists p, s = (p ++ x)%string.
Proof.
  induction s as [|c s IH]; cbn [endswith].
  - rewrite orb_false_r, String.eqb_eq. split; [intros ->; exists ""; reflexivity|]. intros (p & H). destruct p; [auto|discriminate].
  - rewrite orb_true_iff, String.eqb_eq, IH. split.
    + intros [<-|(p & ->)]; [exists ""; reflexivity|exists (String c p); reflexivity].
    + intros (p & H). destruct p as [|d p]; [left; auto|]. cbn in H. injection H as -> ->. right. eauto.
Qed.
Lemma lookup_iff {X} k (l : list (string * X)) v : NoDup (map fst l) -> (lookup k l = Some v <-> In (k, v) l).
Proof.
  induction l as [|(k', x) q IH]; cbn; intros N; [split; [discriminate|tauto]|]. inversion N as [|y z N1 N2]; subst. destruct (String.eqb k k') eqn:E.
  - apply String.eqb_eq in E. subst k'. split; [intros [= ->]; auto|]. intros [H|H]; [congruence|]. destruct N1. apply in_map_iff. exists (k, v). auto.
  - apply String.eqb_neq in E. rewrite IH by auto. split; [auto|]. intros [H|H]; [congruence|auto].
Qed.
Lemma lookup_none {X} k (l : list (string * X)) : lookup k l = None <-> ~ In k (map fst l).
Proof.
  induction l as [|(k', x) q IH]; cbn; [tauto|]. destruct (String.eqb k k') eqn:E.
  - apply String.eqb_eq in E. subst. split; [discriminate|tauto].
  - apply String.eqb_neq in E. rewrite IH. split; intros H; [intros [F|F]; [congruence|tauto]|tauto].
Qed.
Lemma single_iff {V} (f : fits V) b x : (forall l, x = Named l -> NoDup (map fst l)) -> (check_states V (Single f) b x = Ok tt <-> one_state f b x).
Proof.
  intros ND. destruct x as [v|l]; cbn [check_states].
  - rewrite assert_iff. split; [constructor; auto|]. intros H; inversion H; auto.
  - specialize (ND l eq_refl). split.
    + intros H. apply bind_inv in H. destruct H as (u & H1 & H2). apply assert_iff in H1. rewrite forallb_forall in H1.
      destruct (lookup "state" l) as [v|] eqn:L; [|discriminate]. apply assert_iff in H2. apply lookup_iff in L; auto. econstructor; eauto.
      intros k x I. specialize (H1 (k, x) I). cbn in H1. apply orb_true_iff in H1. rewrite String.eqb_eq, endswith_iff in H1. exact H1.
    + intros H. inversion H as [|l' v N I F M E]; subst. assert (C : forallb (fun kv => String.eqb (fst kv) "state" || endswith "_mask" (fst kv)) l = true).
      { apply forallb_forall. intros (k, x) J. cbn. apply orb_true_iff. rewrite String.eqb_eq, endswith_iff. exact (M k x J). }
      rewrite C. cbn [assert_ bind]. apply lookup_iff in I; auto. rewrite I. apply assert_iff. auto.
Qed.

Lemma select_ok {V} (specs : list (string * fits V)) l s : select V specs l = Ok s ->
  s = filter (fun kv => match lookup (fst kv) specs with Some _ => true | None => false end) l /\ forall k v, In (k, v) l -> In k (map fst specs) \/ mask k.
Proof.
  revert s. induction l as [|(k, v) q IH]; intros s; cbn [select filter fst].
  - intros [= <-]. split; auto. intros k v [].
  - destruct (lookup k specs) as [f|] eqn:L.
    + intros H. apply bind_inv in H. destruct H as (s' & H1 & H2). injection H2 as <-. destruct (IH _ H1) as (-> & M). split; auto.
      intros k' v' [I|I]; [|eauto]. injection I as <- <-. left. destruct (in_dec string_dec k (map fst specs)) as [J|J]; auto. apply lookup_none in J. congruence.
    + destruct (endswith "_mask" k) eqn:E; [|discriminate]. intros H. destruct (IH _ H) as (-> & M). split; auto.
      intros k' v' [I|I]; [|eauto]. injection I as <- <-. right. apply endswith_iff in E. exact E.
Qed.
Lemma select_total {V} (specs : list (string * fits V)) l : (forall k v, In (k, v) l -> In k (map fst specs) \/ mask k) -> exists s, select V specs l = Ok s.
Proof.
  induction l as [|(k, v) q IH]; cbn [select]; intros M; [eauto|]. destruct IH as (s & E); [intros k' v' I; apply (M k' v'); right; auto|].
  destruct (lookup k specs) as [f|] eqn:L; [rewrite E; cbn; eauto|]. destruct (M k v (or_introl eq_refl)) as [I|I].
  - apply lookup_none in L. tauto.
  - apply endswith_iff in I. rewrite I. eauto.
Qed.
Lemma assert_all_iff {V} (specs : list (string * fits V)) l : NoDup (map fst l) ->
  (assert_all V specs l = Ok tt <-> forall k f, In (k, f) specs -> exists v, In (k, v) l /\ f false v = true).
Proof.
  intros N. induction specs as [|(k, f) q IH]; cbn [assert_all]; [split; [intros _ k f []|auto]|]. split.
  - destruct (lookup k l) as [v|] eqn:L; [|discriminate]. intros H. apply bind_inv in H. destruct H as (u & H1 & H2). apply assert_iff in H1.
    apply lookup_iff in L; auto. intros k' f' [I|I]; [injection I as <- <-; eauto|]. apply IH; auto.
  - intros H. destruct (H k f (or_introl eq_refl)) as (v & I & F). apply lookup_iff in I; auto. rewrite I, F. cbn. apply IH. intros k' f' J. apply H. right; auto.
Qed.
Lemma filter_nodup {X} (p : string * X -> bool) l : NoDup (map fst l) -> NoDup (map fst (filter p l)).
Proof.
  induction l as [|x l IH]; cbn; intros N; auto. inversion N as [|y z N1 N2]; subst. destruct (p x); cbn; auto. constructor; auto.
  intros F. apply N1. apply in_map_iff in F. destruct F as (y & E & I). apply filter_In in I. apply in_map_iff. exists y. tauto.
Qed.
Lemma several_iff {V} (specs : list (string * fits V)) b l : NoDup (map fst specs) -> NoDup (map fst l) ->
  (check_states V (Several specs) b (Named l) = Ok tt <-> all_states specs l).
Proof.
  intros N1 N2. set (p := fun kv : string * V => match lookup (fst kv) specs with Some _ => true | None => false end).
  assert (P : forall k v, In (k, v) (filter p l) <-> In (k, v) l /\ In k (map fst specs)).
  { intros k v. rewrite filter_In. unfold p. cbn. destruct (lookup k specs) eqn:L.
    - split; [|tauto]. intros (I & _). split; auto. destruct (in_dec string_dec k (map fst specs)) as [J|J]; auto. apply lookup_none in J. congruence.
    - apply lookup_none in L. split; [intros (_ & F); discriminate|tauto]. }
  cbn [check_states]. split.
  - intros H. apply bind_inv in H. destruct H as (s & H1 & H2). apply select_ok in H1. destruct H1 as (-> & M). unfold np_assert in H2. apply bind_inv in H2.
    destruct H2 as ([] & _ & H2). assert (H3 := proj1 (assert_all_iff specs _ (filter_nodup p l N2)) H2). split; auto. intros k f I. destruct (H3 k f I) as (v & J & F). apply P in J. exists v. tauto.
  - intros (H & M). destruct (select_total specs l M) as (s & E). rewrite E. cbn [bind]. apply select_ok in E. destruct E as (-> & _). fold p.
    unfold np_assert. assert (L : length (filter p l) = length specs).
    { rewrite <- (map_length fst (filter p l)), <- (map_length fst specs). apply Nat.le_antisymm; apply NoDup_incl_length; auto.
      - apply filter_nodup; auto.
      - intros k I. apply in_map_iff in I. destruct I as ((k', v) & <- & I). apply P in I. apply I.
      - intros k I. assert (I' := I). apply in_map_iff in I. destruct I as ((k', f) & <- & I). destruct (H k' f I) as (v & J & _). cbn in *. apply in_map_iff. exists (k', v). split; auto. apply P. auto. }
    rewrite L, Nat.eqb_refl. cbn [assert_ bind]. apply assert_all_iff; [apply filter_nodup; auto|]. intros k f I. destruct (H k f I) as (v & J & F). exists v. split; auto. apply P. split; auto.
    apply in_map_iff. exists (k, f). auto.
Qed.

(** ** Calls *)
Section Calls.
Variables (W S A V : Type) (reset : W -> res S * W) (execute : A -> W -> res (S * value * value) * W) (vexecute : A -> W -> res V * W).
Variables (vectorizable : bool) (check : S -> res unit) (vcheck : V -> res unit).
Local Notation step := (step W S A V reset execute vexecute vectorizable check vcheck).
Local Notation run := (run W S A V reset execute vexecute vectorizable check vcheck).
Local Notation state := (state W A).
Local Notation receive_reset := (receive_reset W S A V reset check).
Local Notation receive_actions := (receive_actions W S A V execute vexecute check vcheck).

Lemma expect_reset (s : state) : expect W A (snd (receive_reset s)) = None.
Proof.
  unfold RcvModel.receive_reset. destruct (parallel W A _); [reflexivity|]. destruct (reset _) as ([x|e] & w); [|reflexivity].
  destruct (reset_check W A _); [|reflexivity]. destruct (check x); reflexivity.
Qed.
Lemma expect_actions (s : state) : expect W A (snd (receive_actions s)) = None.
Proof.
  unfold RcvModel.receive_actions. destruct (actions W A _) as [a|]; [|reflexivity]. destruct (parallel W A _).
  - destruct (vexecute _ _) as ([x|e] & w); [|reflexivity]. destruct (execute_check W A _); reflexivity.
  - destruct (execute _ _) as ([((x & t) & r)|e] & w); [|reflexivity]. match goal with |- context [match (if ?c then ?a else ?b) with _ => _ end] => destruct (if c then a else b) as [(t', r')|e] end; [|reflexivity]. destruct (int t'); reflexivity.
Qed.
Lemma expect_step c (s : state) : expect W A (snd (step c s)) = pending (expect W A s) [c].
Proof.
  destruct c as [n|a|]; cbn [RcvModel.step pending].
  - unfold start_reset. destruct (expect W A s) as [k|] eqn:E; [cbn; auto|]. destruct n; [destruct vectorizable|]; reflexivity.
  - unfold start_execute. destruct (expect W A s) as [k|] eqn:E; [cbn; auto|]. destruct (actions W A _); reflexivity.
  - unfold receive. destruct (expect W A s) as [[|]|] eqn:E; [apply expect_reset|apply expect_actions|auto].
Qed.
Lemma pending_app k (c : call A) q : pending k (c :: q) = pending (pending k [c]) q.
Proof. destruct c; reflexivity. Qed.
Lemma expect_run cs (s : state) : expect W A (snd (run cs s)) = pending (expect W A s) cs.
Proof.
  revert s. induction cs as [|c q IH]; intros s; [reflexivity|]. cbn [RcvModel.run]. assert (E := expect_step c s). destruct (step c s) as (o, s1). cbn [snd] in E.
  specialize (IH s1). destruct (run q s1) as (os, s2). cbn [snd] in *. rewrite IH, E. symmetry. apply pending_app.
Qed.

(** Idle: ready for direct use *)
Definition idle (r e : bool) (w : W) : state := {| expect := None; actions := None; parallel := None; reset_check := r; execute_check := e; world := w |}.

Lemma direct_run r e w q os w' : direct W S A V reset execute check r e w q os w' ->
  exists r' e', run (flat_map both q) (idle r e w) = (replies os, idle r' e' w').
Proof.
  induction 1 as [r e w|r e w x w' q os w'' R C D (r' & e' & IH)|r w a x t y t' y' n w' q os w'' E C Pt Tn Py Ry D (r' & e' & IH)|r w a x t y n w' q os w'' E I D (r' & e' & IH)].
  - exists r, e. reflexivity.
  - exists r', e'. cbn. unfold RcvModel.receive_reset. cbn. rewrite R. cbn. destruct r.
    + rewrite (C eq_refl). cbn. unfold idle in IH. unfold set_checks. cbn. rewrite IH. reflexivity.
    + unfold idle in IH. unfold set_world, set_expect, set_parallel. cbn. rewrite IH. reflexivity.
  - exists r', e'. cbn. unfold RcvModel.receive_actions. cbn. rewrite E. cbn. unfold first_output. rewrite C. cbn [bind]. apply item_iff in Py. apply item_iff in Pt. rewrite Py. cbn [bind].
    rewrite Pt. cbn [bind]. assert (T : check_terminal t' = Ok tt) by (apply terminal_iff; eauto). apply reward_iff in Ry. rewrite T. cbn [bind]. rewrite Ry. cbn [bind].
    rewrite (terminal_int_of _ _ Tn). unfold idle in IH. unfold set_actions, set_checks. cbn. rewrite IH. reflexivity.
  - exists r', e'. cbn. unfold RcvModel.receive_actions. cbn. rewrite E. cbn. rewrite I. unfold idle in IH. unfold set_actions, set_checks. cbn. rewrite IH. reflexivity.
Qed.

Lemma run_app cs ds (s : state) : run (cs ++ ds) s = (fst (run cs s) ++ fst (run ds (snd (run cs s))), snd (run ds (snd (run cs s)))).
Proof.
  revert s. induction cs as [|c q IH]; intros s; cbn [RcvModel.run app].
  - cbn [fst snd app]. destruct (run ds s); reflexivity.
  - destruct (step c s) as (o, s1). rewrite IH. destruct (run q s1) as (os, s2). reflexivity.
Qed.

Lemma run_direct q r e w os s : run (flat_map both q) (idle r e w) = (os, s) -> (forall o, In o os -> exists x, o = Ok x) ->
  exists xs w', direct W S A V reset execute check r e w q xs w' /\ os = replies xs.
Proof.
  revert r e w os s. induction q as [|c q IH]; intros r e w os s R F.
  - cbn in R. injection R as <- <-. exists [], w. split; [constructor|reflexivity].
  - cbn [flat_map] in R. rewrite run_app in R. injection R as R1 R2. destruct c as [|a]; cbn in R1.
    + unfold RcvModel.receive_reset in R1. cbn in R1. destruct (reset w) as ([x|er] & w1) eqn:Rw; cbn in R1; [|exfalso; destruct (F (Err er)) as (y & Y); [rewrite <- R1; cbn; auto|discriminate]].
      assert (C : (r = true -> check x = Ok tt)).
      { intros ->. destruct (check x) as [[]|er]; auto. cbn in R1. exfalso. destruct (F (Err er)) as (y & Y); [rewrite <- R1; cbn; auto|discriminate]. }
      destruct (run (flat_map both q) (idle false e w1)) as (os', s') eqn:Rq. destruct (IH _ _ _ _ _ Rq) as (xs & w' & D & Eo).
      { intros o I. apply F. rewrite <- R1. destruct r; [rewrite (C eq_refl)|]; cbn; right; right; unfold idle in Rq; unfold set_checks, set_world, set_expect, set_parallel; cbn; rewrite Rq; auto. }
      exists (Received _ _ x (-1) None :: xs), w'. split; [econstructor; eauto|]. rewrite <- R1.
      destruct r; [rewrite (C eq_refl)|]; cbn; unfold idle in Rq; unfold set_checks, set_world, set_expect, set_parallel; cbn; rewrite Rq, Eo; reflexivity.
    + unfold RcvModel.receive_actions in R1. cbn in R1. destruct (execute a w) as ([((x & t) & y)|er] & w1) eqn:Ew; cbn in R1; [|exfalso; destruct (F (Err er)) as (z & Z); [rewrite <- R1; cbn; auto|discriminate]].
      destruct (if e then first_output S check x t y else Ok (t, y)) as [(t', y')|er] eqn:Fo; cbn in R1; [|exfalso; destruct (F (Err er)) as (z & Z); [rewrite <- R1; cbn; auto|discriminate]].
      destruct (int t') as [n|er] eqn:It; cbn in R1; [|exfalso; destruct (F (Err er)) as (z & Z); [rewrite <- R1; cbn; auto|discriminate]].
      destruct (run (flat_map both q) (idle r false w1)) as (os', s') eqn:Rq. destruct (IH _ _ _ _ _ Rq) as (xs & w' & D & Eo).
      { intros o I. apply F. rewrite <- R1. cbn. right; right. unfold idle in Rq; unfold set_checks, set_world, set_expect, set_actions; cbn; rewrite Rq; auto. }
      exists (Received _ _ x n (Some y') :: xs), w'. split.
      * destruct e.
        -- unfold first_output in Fo. apply bind_inv in Fo. destruct Fo as ([] & C & Fo). apply bind_inv in Fo. destruct Fo as (y1 & Iy & Fo).
           apply bind_inv in Fo. destruct Fo as (t1 & Ity & Fo). apply bind_inv in Fo. destruct Fo as ([] & Ct & Fo). apply bind_inv in Fo. destruct Fo as ([] & Cr & Fo). injection Fo as -> ->.
           apply terminal_iff in Ct. destruct Ct as (n' & Tn). assert (n' = n) as -> by (apply terminal_int_of in Tn; congruence).
           apply item_iff in Iy. apply item_iff in Ity. apply reward_iff in Cr. econstructor; eauto.
        -- injection Fo as -> ->. econstructor; eauto.
      * rewrite <- R1. cbn. unfold idle in Rq; unfold set_checks, set_world, set_expect, set_actions; cbn; rewrite Rq, Eo; reflexivity.
Qed.
End Calls.
