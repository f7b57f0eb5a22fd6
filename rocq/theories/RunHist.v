(** Counting in the runner's histories: episodes started, open and finished *)
From Coq Require Import String List ZArith Lia Bool Arith.
From Verif Require Import Base RunSpec RunModel RunProofs.
Import ListNotations.
Open Scope list_scope.
Open Scope nat_scope.

Definition b2n (b : bool) : nat := if b then 1 else 0.

Section Count.
Variable k : nat.
Definition cnt (f : nat -> bool) : nat := length (filter f (seq 0 k)).
Lemma filter_ext_in' {X} (f g : X -> bool) (l : list X) : (forall x, In x l -> f x = g x) -> filter f l = filter g l.
Proof. induction l as [|x l IH]; cbn; auto. intros H. rewrite (H x), IH by auto. reflexivity. Qed.
Lemma cnt_ext f g : (forall m, m < k -> f m = g m) -> cnt f = cnt g.
Proof. intros H. unfold cnt. f_equal. apply filter_ext_in'. intros x Hx. apply in_seq in Hx. apply H. lia. Qed.
Lemma filter_one (f g : nat -> bool) n l : NoDup l -> In n l -> (forall m, m <> n -> f m = g m) ->
  length (filter f l) + b2n (g n) = length (filter g l) + b2n (f n).
Proof.
  intros Hd. induction l as [|x l IH]; [intros []|]. inversion Hd as [|? ? Hx Hd']. subst. intros [->|Hi] H.
  - assert (filter f l = filter g l) as E by (apply filter_ext_in'; intros y Hy; apply H; congruence).
    cbn. rewrite E. destruct (f n), (g n); cbn; lia.
  - cbn. rewrite (H x) by congruence. specialize (IH Hd' Hi H). destruct (g x); cbn; lia.
Qed.
Lemma cnt_one f g n : n < k -> (forall m, m <> n -> f m = g m) -> cnt f + b2n (g n) = cnt g + b2n (f n).
Proof. intros Hn H. apply filter_one; auto; [apply seq_NoDup|]. apply in_seq. lia. Qed.
Lemma cnt_remove ns : forall f g, NoDup ns -> (forall n, In n ns -> n < k /\ g n = true) ->
  (forall m, f m = g m && negb (existsb (Nat.eqb m) ns)) -> cnt f + length ns = cnt g.
Proof.
  induction ns as [|x ns IH]; intros f g Hd Hin Hf.
  - cbn. rewrite Nat.add_0_r. apply cnt_ext. intros m _. rewrite Hf. cbn. now rewrite andb_true_r.
  - inversion Hd as [|? ? Hx Hd']. subst. destruct (Hin x (or_introl eq_refl)) as [Hxk Hgx].
    set (g1 := fun m => g m && negb (existsb (Nat.eqb m) ns)).
    assert (cnt g1 + length ns = cnt g) as E1 by (apply IH; auto; intros; apply Hin; now right).
    assert (cnt f + b2n (g1 x) = cnt g1 + b2n (f x)) as E2.
    { apply cnt_one; auto. intros m Hm. rewrite Hf. unfold g1. cbn. apply Nat.eqb_neq in Hm. now rewrite Hm. }
    assert (f x = false) as Ef by (rewrite Hf; cbn; rewrite Nat.eqb_refl; cbn; apply andb_false_r).
    assert (g1 x = true) as Eg.
    { unfold g1. rewrite Hgx. cbn. apply negb_true_iff. destruct (existsb (Nat.eqb x) ns) eqn:Ex; auto.
      apply existsb_exists in Ex. destruct Ex as (y & Hy & Hxy). apply Nat.eqb_eq in Hxy. congruence. }
    rewrite Ef, Eg in E2. cbn in E2. cbn [length]. lia.
Qed.
Lemma cnt_le f : cnt f <= k.
Proof.
  unfold cnt. rewrite <- (seq_length k 0) at 2. generalize (seq 0 k). induction l as [|x l IH]; cbn; auto. destruct (f x); cbn; lia.
Qed.
Lemma cnt_pos f n : n < k -> f n = true -> 0 < cnt f.
Proof.
  intros Hn Hf. unfold cnt. assert (In n (filter f (seq 0 k))) as H by (apply filter_In; split; auto; apply in_seq; lia).
  destruct (filter f (seq 0 k)); [destruct H|cbn; lia].
Qed.
Lemma cnt_zero f : (forall n, n < k -> f n = false) -> cnt f = 0.
Proof.
  intros H. unfold cnt. replace (filter f (seq 0 k)) with (@nil nat); auto. symmetry.
  rewrite (filter_ext_in' f (fun _ => false)) by (intros x Hx; apply H; apply in_seq in Hx; lia).
  generalize (seq 0 k). now induction l.
Qed.
End Count.

Section H.
Context {S A R I : Type}.
Variable c : config.
Notation event := (event S A R I).
Notation history := (history S A R I).
Implicit Types h : history.
Notation k := (num_environments c).
Notation phase_of n h := (at_phase (is_eval c n) n h).
Notation good n h := (proper (is_eval c n) n h).
Hypothesis Hk : k > 0.

Definition isopen (n : nat) (h : history) : bool := match phase_of n h with Closed => false | _ => true end.
Definition single : bool := evaluation_run c && Nat.eqb k 1.
Definition done (h : history) : nat := if single then length (evaluated (last c) h) else length (finished h).
Definition open_count (h : history) : nat := cnt k (fun n => isopen n h && counted c n).
Definition ranged (e : event) : Prop := match e with Reset m => m < k | _ => True end.

Lemma eval_range n : k <= n -> is_eval c n = false.
Proof. intros H. unfold is_eval, last. apply andb_false_iff. right. apply Nat.eqb_neq. lia. Qed.
Lemma single_eval n : single = true -> n < k -> is_eval c n = true.
Proof.
  unfold single, is_eval, last. intros H Hn. apply andb_prop in H. destruct H as [-> H]. apply Nat.eqb_eq in H. cbn. apply Nat.eqb_eq. lia.
Qed.
Lemma find_in {X Y} n (l : list (nat * X * Y)) x : find (fun x => Nat.eqb (fst (fst x)) n) l = Some x -> In x l /\ fst (fst x) = n.
Proof. intros H. apply find_some in H. destruct H as [H1 H2]. apply Nat.eqb_eq in H2. auto. Qed.

(** Phase of n after an allowed event *)
Lemma closed_beyond h n : Forall ranged h -> (forall m, good m h) -> k <= n -> phase_of n h = Closed.
Proof.
  intros Hr Hg Hn. assert (is_eval c n = false) as He by now apply eval_range. rewrite He.
  specialize (Hg n). rewrite He in Hg.
  induction h as [|e h IH]; auto. inversion Hr as [|? ? Hre Hr']. subst. cbn [proper] in Hg. destruct Hg as [Hg Ha].
  specialize (IH Hr' Hg). cbn [at_phase]. rewrite IH in *. destruct e; cbn in *; auto.
  - destruct (Nat.eqb_spec n0 n); auto. lia.
  - destruct (Nat.eqb_spec n0 n) as [E|]; auto. discriminate (Ha E).
  - destruct (Nat.eqb_spec n0 n) as [E|]; auto. specialize (Ha E). destruct r; [destruct Ha|destruct Ha]; discriminate.
  - destruct (find _ l) as [[[x s] a]|] eqn:Ef; auto. apply find_in in Ef. cbn in Ef. destruct Ef as [Hi ->].
    destruct Ha as [_ Ha]. destruct (Ha _ _ Hi) as [_ Hx]. discriminate.
  - destruct (find _ l) as [[[x s] a]|] eqn:Ef; auto. apply find_in in Ef. cbn in Ef. destruct Ef as [Hi ->].
    destruct Ha as [_ Ha]. destruct (Ha _ _ Hi) as (_ & ? & ? & Hx & _). discriminate.
Qed.

Lemma in_find {X Y} n (l : list (nat * X * Y)) : NoDup (map (fun x => fst (fst x)) l) ->
  forall x y, In (n, x, y) l -> find (fun x => Nat.eqb (fst (fst x)) n) l = Some (n, x, y).
Proof.
  induction l as [|z l IH]; [intros _ x y []|]. cbn. intros Hd x y [->|Hi].
  - cbn. now rewrite Nat.eqb_refl.
  - inversion Hd as [|? ? Hz Hd']. subst. destruct (Nat.eqb_spec (fst (fst z)) n) as [E|E]; auto.
    exfalso. apply Hz. rewrite E. apply in_map_iff. exists (n, x, y). auto.
Qed.

Theorem started_split h : Forall ranged h -> (forall n, good n h) ->
  starts (counted c) h = done h + open_count h.
Proof.
  induction h as [|e h IH]; intros Hr Hg.
  { unfold done, open_count. cbn. rewrite cnt_zero; [destruct single; auto|]. auto. }
  assert (Forall ranged h) as Hr' by now inversion Hr.
  assert (forall n, good n h) as Hg' by (intros n; exact (proj1 (Hg n))).
  assert (forall n, allowed (is_eval c n) n e (phase_of n h)) as Ha by (intros n; exact (proj2 (Hg n))).
  specialize (IH Hr' Hg'). pose proof (closed_beyond h) as Hb. 
  assert (forall h', done h' = done h -> (forall n, isopen n h' = isopen n h) -> starts (counted c) h' = starts (counted c) h ->
    starts (counted c) h' = done h' + open_count h') as Same.
  { intros h' H1 H2 H3. rewrite H1, H3, IH. f_equal. unfold open_count. apply cnt_ext. intros m _. now rewrite H2. }
  destruct e.
  - (* Reset *) assert (n < k) as Hn by (inversion Hr; auto).
    pose proof (Ha n) as Han. cbn in Han. specialize (Han eq_refl).
    assert (done (Reset n :: h) = done h) as -> by reflexivity.
    assert (open_count (Reset n :: h) = open_count h + b2n (counted c n)) as ->.
    { unfold open_count. pose proof (cnt_one k (fun m => isopen m (Reset n :: h) && counted c m) (fun m => isopen m h && counted c m) n Hn) as E.
      assert (isopen n h = false) as O1 by (unfold isopen; now rewrite Han).
      assert (isopen n (Reset n :: h) = true) as O2 by (unfold isopen; cbn [at_phase next]; now rewrite Nat.eqb_refl).
      cbn beta in E. rewrite O1, O2 in E. cbn [b2n andb] in E.
      rewrite Nat.add_0_r in E. apply E. intros m Hm. unfold isopen. cbn [at_phase next]. destruct (Nat.eqb_spec n m); [congruence|auto]. }
    cbn. destruct (counted c n); cbn; lia.
  - apply Same; auto. intros m. unfold isopen. cbn [at_phase next]. destruct (Nat.eqb_spec n m) as [E|E]; auto. 
    specialize (Ha m E). now rewrite Ha.
  - apply Same; auto.
  - destruct r as [r|].
    2:{ apply Same; auto. intros m. unfold isopen. cbn [at_phase next]. destruct (Nat.eqb_spec n m) as [E|E]; auto.
          destruct (Ha m E) as [Hx _]. now rewrite Hx. }
    pose proof (Ha n eq_refl) as [a Hrun]. cbn in Hrun.
    assert (n < k) as Hn. { destruct (Nat.lt_ge_cases n k) as [|Hge]; auto. rewrite Hb in Hrun by auto. discriminate. }
    destruct (is_eval c n) eqn:He.
    + assert (n = last c) as -> by (unfold is_eval in He; apply andb_prop in He; now apply Nat.eqb_eq).
      destruct (Z.ltb_spec 0 t) as [Ht|Ht].
      * assert (open_count h = open_count (Reply (last c) s t (Some r) :: h) + b2n (counted c (last c))) as E1.
        { unfold open_count. pose proof (cnt_one k (fun m => isopen m (Reply (last c) s t (Some r) :: h) && counted c m) (fun m => isopen m h && counted c m) (last c) Hn) as E.
          assert ((0 <? t)%Z = true) as Hlt by now apply Z.ltb_lt.
          assert (isopen (last c) h = true) as O1 by (unfold isopen; now rewrite He, Hrun).
          assert (isopen (last c) (Reply (last c) s t (Some r) :: h) = false) as O2
            by (unfold isopen; cbn [at_phase next]; now rewrite Nat.eqb_refl, He, Hlt).
          cbn beta in E. rewrite O1, O2 in E. cbn [b2n andb] in E. rewrite Nat.add_0_r in E. symmetry.
          apply E. intros m Hm. unfold isopen. cbn [at_phase next]. destruct (Nat.eqb_spec (last c) m); [congruence|auto]. }
        assert (done (Reply (last c) s t (Some r) :: h) = done h + b2n (counted c (last c))) as E2.
        { unfold done, single, counted. rewrite He. cbn. rewrite Nat.eqb_refl. assert ((0 <? t)%Z = true) as -> by now apply Z.ltb_lt.
          assert (evaluation_run c = true) as -> by (unfold is_eval in He; now apply andb_prop in He). cbn.
          destruct (k =? 1); cbn; auto. rewrite app_length. cbn. reflexivity. }
        rewrite E2. cbn. rewrite IH, E1. lia.
      * apply Same; auto.
        -- unfold done. cbn. assert ((0 <? t)%Z = false) as -> by now apply Z.ltb_ge. rewrite andb_false_r. reflexivity.
        -- intros m. unfold isopen. cbn [at_phase next]. destruct (Nat.eqb_spec (last c) m) as [E|E]; auto. subst m. rewrite He, Hrun.
           assert ((0 <? t)%Z = false) as -> by now apply Z.ltb_ge. reflexivity.
    + apply Same; auto.
      * unfold done. destruct single eqn:Hs; auto. rewrite (single_eval n) in He; auto. discriminate.
      * intros m. unfold isopen. cbn [at_phase next]. destruct (Nat.eqb_spec n m) as [E|E]; auto. subst m. now rewrite He, Hrun.
  - apply Same; auto. intros m. specialize (Ha m). cbn in Ha. destruct Ha as [Hd Ha]. unfold isopen. cbn [at_phase next].
    destruct (is_eval c m) eqn:He; auto. destruct (find _ l) as [[[x s] a]|] eqn:Ef; auto.
    apply find_in in Ef. cbn in Ef. destruct Ef as [Hi ->]. destruct (Ha _ _ Hi) as [_ Hx]. now rewrite Hx.
  - (* Observe *)
    set (ns := map (fun x => fst (fst x)) (filter (fun x : nat * Z * R => (0 <? snd (fst x))%Z) l)).
    assert (forall n t r, In (n, t, r) l -> n < k /\ is_eval c n = false /\ exists s t', phase_of n h = Answered s t' r) as Hin.
    { intros n t r Hi. destruct (Ha n) as [_ Han]. destruct (Han _ _ Hi) as (He & s & t' & Hp & _). split; [|split; [auto|eauto]].
      destruct (Nat.lt_ge_cases n k) as [|Hge]; auto. rewrite Hb in Hp by auto. discriminate. }
    assert (NoDup (map (fun x => fst (fst x)) l)) as Hd by exact (proj1 (Ha 0)).
    assert (NoDup ns) as Hdn.
    { unfold ns. clear - Hd. induction l as [|x l IH]; cbn in *; [constructor|]. inversion Hd as [|? ? Hx Hd']. subst.
      destruct (0 <? snd (fst x))%Z; cbn; auto. constructor; auto. intros Hi. apply Hx. apply in_map_iff in Hi. destruct Hi as (y & E & Hy).
      apply in_map_iff. exists y. split; auto. apply filter_In in Hy. tauto. }
    assert (open_count (Observe l :: h) + length ns = open_count h) as E1.
    { apply cnt_remove; auto.
      - intros n Hn. unfold ns in Hn. apply in_map_iff in Hn. destruct Hn as ([[x t] r] & E & Hy). cbn in E. subst x.
        apply filter_In in Hy. destruct Hy as [Hy _]. destruct (Hin _ _ _ Hy) as (H1 & H2 & s & t' & H3). split; auto.
        unfold isopen, counted. now rewrite H3, H2.
      - intros m. rewrite <- andb_assoc, (andb_comm (counted c m)), andb_assoc. f_equal. unfold isopen. cbn [at_phase next].
        assert (existsb (Nat.eqb m) ns = true <-> exists t r, In (m, t, r) l /\ (0 < t)%Z) as Hex.
        { rewrite existsb_exists. unfold ns. split.
          - intros (y & Hy & E). apply Nat.eqb_eq in E. subst y. apply in_map_iff in Hy. destruct Hy as ([[x t] r] & E & Hy). cbn in E. subst x.
            apply filter_In in Hy. destruct Hy as [Hy Ht]. apply Z.ltb_lt in Ht. cbn in Ht. eauto.
          - intros (t & r & Hi & Ht). exists m. split; [|apply Nat.eqb_refl]. apply in_map_iff. exists (m, t, r). split; auto.
            apply filter_In. split; auto. now apply Z.ltb_lt. }
        destruct (find _ l) as [[[x t] r]|] eqn:Ef.
        + apply find_in in Ef. cbn in Ef. destruct Ef as [Hi ->]. destruct (Hin _ _ _ Hi) as (H1 & H2 & s & t' & H3). rewrite H2, H3 in *.
          destruct (Z.ltb_spec 0 t) as [Ht|Ht].
          * assert (existsb (Nat.eqb m) ns = true) as -> by (apply Hex; eauto). reflexivity.
          * destruct (existsb (Nat.eqb m) ns) eqn:Ex; auto. destruct (proj1 Hex eq_refl) as (t2 & r2 & Hi2 & Ht2).
            pose proof (in_find _ _ Hd _ _ Hi) as F1. pose proof (in_find _ _ Hd _ _ Hi2) as F2. rewrite F1 in F2. injection F2 as -> _. lia.
        + assert (existsb (Nat.eqb m) ns = false) as ->.
          { destruct (existsb (Nat.eqb m) ns) eqn:Ex; auto. destruct (proj1 Hex eq_refl) as (t2 & r2 & Hi2 & Ht2).
            rewrite (in_find _ _ Hd _ _ Hi2) in Ef. discriminate. }
          cbn. rewrite andb_true_r. destruct (is_eval c m); reflexivity. }
    assert (done (Observe l :: h) = done h + length ns) as E2.
    { unfold done. destruct single eqn:Hs.
      - cbn. assert (ns = []) as ->; [|cbn; lia]. unfold ns. destruct l as [|[[n t] r] l]; auto.
        destruct (Hin n t r (or_introl eq_refl)) as (H1 & H2 & _). rewrite single_eval in H2 by auto. discriminate.
      - cbn. rewrite app_length, map_length. unfold ns. now rewrite map_length. }
    rewrite E2. cbn. rewrite IH. lia.
  - apply Same; auto. intros m. unfold isopen. cbn [at_phase next]. specialize (Ha m). cbn in Ha. destruct (is_eval c m); auto.
    now rewrite Ha.
  - apply Same; auto.
  - apply Same; auto.
  - apply Same; auto.
Qed.

End H.
