(** The memory refines the append-only log: invariant and its preservation. *)

From Coq Require Import String List ZArith Lia Bool Permutation.
From Coq Require Import ZifyBool ZifyNat.
From Verif Require Import Base BaseFacts MemSpec MemModel.
Import ListNotations.
Open Scope Z_scope.

Lemma list_rev_destruct {B} (l : list B) : l = [] \/ exists l0 x, l = l0 ++ [x].
Proof. destruct l using rev_ind; [now left|right; eauto]. Qed.

Section Inv.
Context {A : Type}.
Implicit Types (l : log A) (s : qstate A).

Notation len l := (Z.of_nat (length l)).

(** Terminal flag at log position [p]; position -1 is the initial pseudo
    terminal, earlier positions are the zero-initialised slots. *)
Definition vt l (p : Z) : Z :=
  if p =? -1 then 1
  else if p <? 0 then 0
  else match nth_error l (Z.to_nat p) with Some e => snd e | None => 0 end.

(** Payload at log position [p]; never written slots hold the zero payload. *)
Definition vp (zero : A) l (p : Z) : A :=
  if p <? 0 then zero
  else match nth_error l (Z.to_nat p) with Some e => fst e | None => zero end.

(** The same with the open marker. *)
Definition mt l (p : Z) : Z :=
  if (p =? len l - 1) && (vt l p =? 0) then 3 else vt l p.

Definition isb l (p : Z) : bool := negb (vt l p =? 0).

Definition bnds cap l : list Z := filter (isb l) (zrange (len l - cap) (len l)).

Record Inv (zero : A) (cap : Z) l s : Prop := mkInv {
  inv_cap1 : 1 <= cap;
  inv_cap : q_cap s = cap;
  inv_bidx : q_bidx s = len l;
  inv_lpay : len (q_pay s) = cap;
  inv_lterm : len (q_term s) = cap;
  inv_ltind : len (q_tind s) = cap + 1;
  inv_flags : Forall (fun e => 0 <= snd e <= 2) l;
  inv_term : forall p, len l - cap <= p < len l -> gather (q_term s) (p mod cap) = Ok (mt l p);
  inv_pay : forall p, len l - cap <= p < len l -> gather (q_pay s) (p mod cap) = Ok (vp zero l p);
  inv_ec : q_ecount s = len (bnds cap l) - 1;
  inv_tind : forall k b, nth_error (bnds cap l) k = Some b ->
             gather (q_tind s) (Z.of_nat k) = Ok (b mod cap)
}.

Lemma vt_range l p : Forall (fun e => 0 <= snd e <= 2) l -> 0 <= vt l p <= 2.
Proof.
  intros H. unfold vt. destruct (p =? -1); [lia|]. destruct (p <? 0); [lia|].
  destruct (nth_error l (Z.to_nat p)) eqn:E; [|lia].
  rewrite Forall_forall in H. apply H. eapply nth_error_In; eauto.
Qed.

Lemma bnds_length cap l : 0 <= cap -> len (bnds cap l) <= cap.
Proof.
  intros. unfold bnds. pose proof (filter_length_le (isb l) (zrange (len l - cap) (len l))) as H1.
  rewrite zrange_length in H1. lia.
Qed.

Lemma bnds_in cap l b : In b (bnds cap l) <-> len l - cap <= b < len l /\ vt l b <> 0.
Proof. unfold bnds. rewrite filter_In, in_zrange. unfold isb. lia. Qed.

(** ** Initial state *)
Lemma initialize_ok (zero : A) cap : 1 <= cap -> exists s, queue_initialize zero cap = Ok s.
Proof. intros. unfold queue_initialize. destruct (Z.ltb_spec cap 1); [lia|]. eauto. Qed.

Lemma filter_none {B} (f : B -> bool) (l : list B) : (forall x, In x l -> f x = false) -> filter f l = [].
Proof.
  induction l as [|x l IH]; intros H; [reflexivity|]. cbn.
  rewrite H by now left. apply IH. intros. apply H. now right.
Qed.

Lemma bnds_nil cap : 1 <= cap -> bnds cap (@nil (entry A)) = [-1].
Proof.
  intros. unfold bnds. cbn [length]. replace (Z.of_nat 0) with 0 by lia.
  rewrite (zrange_app (0 - cap) (-1) 0) by lia.
  rewrite filter_app, filter_none.
  - reflexivity.
  - intros x Hx. apply in_zrange in Hx. unfold isb, vt.
    destruct (Z.eqb_spec x (-1)); [lia|]. destruct (Z.ltb_spec x 0); [reflexivity|lia].
Qed.

Lemma initialize_inv (zero : A) cap s : queue_initialize zero cap = Ok s -> Inv zero cap [] s.
Proof.
  unfold queue_initialize. destruct (Z.ltb_spec cap 1) as [|H]; [discriminate|].
  intros [= <-]. constructor; cbn [q_cap q_pay q_term q_bidx q_tind q_ecount length]; auto.
  - rewrite repeat_length. lia.
  - rewrite app_length, repeat_length. cbn. lia.
  - rewrite repeat_length. lia.
  - intros p Hp. replace (Z.of_nat 0) with 0 in Hp by lia.
    assert (p mod cap = p + cap) as E.
    { symmetry. apply Z.mod_unique with (q := -1); lia. }
    rewrite E. apply gather_nth_error. split; [lia|].
    unfold mt, vt. cbn [length]. replace (Z.of_nat 0 - 1) with (-1) by lia.
    destruct (Z.eqb_spec p (-1)) as [->|Hp1]; cbn [andb].
    + change (1 =? 0) with false. cbn [andb].
      rewrite nth_error_app2 by (rewrite repeat_length; lia). rewrite repeat_length.
      replace (Z.to_nat (-1 + cap) - (Z.to_nat cap - 1))%nat with 0%nat by lia. reflexivity.
    + destruct (Z.ltb_spec p 0); [|lia].
      rewrite nth_error_app1 by (rewrite repeat_length; lia).
      apply nth_error_repeat. lia.
  - intros p Hp. replace (Z.of_nat 0) with 0 in Hp by lia.
    assert (p mod cap = p + cap) as E.
    { symmetry. apply Z.mod_unique with (q := -1); lia. }
    rewrite E. apply gather_nth_error. split; [lia|]. unfold vp.
    destruct (Z.ltb_spec p 0); [|lia]. apply nth_error_repeat. lia.
  - rewrite bnds_nil by lia. cbn. lia.
  - intros k b. rewrite bnds_nil by lia. destruct k as [|k]; cbn [nth_error]; [|destruct k; discriminate].
    intros [= <-]. apply gather_of_nat. cbn. f_equal.
    apply Z.mod_unique with (q := -1); lia.
Qed.

(** ** Consistency checks *)
Lemma ring_count cap N (term : list Z) (g : Z -> Z) :
  1 <= cap -> len term = cap ->
  (forall p, N - cap <= p < N -> gather term (p mod cap) = Ok (g p)) ->
  count_nonzero term = len (filter (fun p => negb (g p =? 0)) (zrange (N - cap) N)).
Proof.
  intros Hc Hl Hg. rewrite <- count_nonzero_map.
  assert (gathers term (zrange 0 cap) = Ok term) as E1.
  { clear -Hl. subst cap.
    assert (forall pre t : list Z, gathers (pre ++ t) (zrange (len pre) (len pre + len t)) = Ok t) as G.
    { intros pre t. revert pre. induction t as [|x t IH]; intros pre.
      - rewrite zrange_nil by (cbn; lia). reflexivity.
      - rewrite zrange_cons by (cbn [length]; lia). unfold gathers. cbn [map_res].
        assert (gather (pre ++ x :: t) (len pre) = Ok x) as ->.
        { apply gather_of_nat. rewrite nth_error_app2 by lia. now rewrite Nat.sub_diag. }
        cbn [bind]. specialize (IH (pre ++ [x])). rewrite <- app_assoc in IH. cbn [app] in IH.
        rewrite app_length in IH. cbn [length] in IH.
        replace (Z.of_nat (length pre + 1)) with (len pre + 1) in IH by lia.
        cbn [length]. replace (len pre + Z.of_nat (S (length t))) with (len pre + 1 + len t) by lia.
        unfold gathers in IH. rewrite IH. reflexivity. }
    specialize (G [] term). cbn [length app] in G. exact G. }
  assert (gathers term (map (fun p => p mod cap) (zrange (N - cap) N)) = Ok (map g (zrange (N - cap) N))) as E2.
  { apply gathers_map. intros p Hp. apply in_zrange in Hp. auto. }
  apply count_nonzero_perm.
  pose proof (window_perm cap N ltac:(lia)) as P.
  clear - E1 E2 P.
  assert (forall is1 is2, Permutation is1 is2 -> forall r1, gathers term is1 = Ok r1 ->
     exists r2, gathers term is2 = Ok r2 /\ Permutation r1 r2) as G.
  { unfold gathers. induction 1 as [| x l l' P0 IH | x y l | l1 l2 l3 P1 IH1 P2 IH2]; intros r1 H1.
    - exists r1. split; auto.
    - cbn in H1. destruct (gather term x) eqn:E; [cbn in H1|discriminate].
      destruct (map_res (gather term) l) eqn:E9; [cbn in H1|discriminate]. injection H1 as <-.
      destruct (IH _ eq_refl) as (r2 & H2 & PP). exists (a :: r2). cbn. rewrite E. cbn. rewrite H2. cbn. auto.
    - cbn in H1. destruct (gather term y) eqn:Ey; [cbn in H1|discriminate].
      destruct (gather term x) eqn:Ex; [cbn in H1|discriminate].
      destruct (map_res (gather term) l) eqn:E9; [cbn in H1|discriminate]. injection H1 as <-.
      exists (a0 :: a :: a1). cbn. rewrite Ex. cbn. rewrite Ey. cbn. rewrite E9. cbn. split; [auto|constructor].
    - destruct (IH1 _ H1) as (r2 & H2 & Q1). destruct (IH2 _ H2) as (r3 & H3 & Q2).
      exists r3. split; auto. eapply Permutation_trans; eauto. }
  destruct (G _ _ P _ E2) as (r2 & H2 & PP). rewrite E1 in H2. injection H2 as <-.
  now apply Permutation_sym.
Qed.

Lemma checks_ok cap l term tind ec :
  1 <= cap -> len term = cap -> len tind = cap + 1 ->
  Forall (fun e => 0 <= snd e <= 2) l ->
  (forall p, len l - cap <= p < len l -> gather term (p mod cap) = Ok (vt l p)) ->
  ec = len (bnds cap l) - 1 ->
  (forall k b, nth_error (bnds cap l) k = Some b -> gather tind (Z.of_nat k) = Ok (b mod cap)) ->
  consistency_checks term tind ec = Ok tt.
Proof.
  intros Hc Ht Hti Hf Hg He Hb. unfold consistency_checks.
  pose proof (bnds_length cap l ltac:(lia)) as HB.
  assert (slice tind 0 (ec + 1) = map (fun b => b mod cap) (bnds cap l)) as ->.
  { apply nth_ext with (d := 0) (d' := 0).
    - rewrite slice_length, map_length by lia. lia.
    - intros k Hk. rewrite slice_length in Hk by lia.
      assert (nth_error (slice tind 0 (ec + 1)) k = Some (nth k (map (fun b => b mod cap) (bnds cap l)) 0)) as E.
      { rewrite slice_nth by lia. cbn [Z.to_nat Nat.add].
        destruct (nth_error (bnds cap l) k) as [b|] eqn:Eb.
        - pose proof (Hb _ _ Eb) as G. apply gather_of_nat in G. rewrite G.
          f_equal. symmetry. apply nth_error_nth. now apply (map_nth_error (fun b0 => b0 mod cap)).
        - apply nth_error_None in Eb. lia. }
      now apply nth_error_nth with (d := 0) in E. }
  erewrite gathers_map with (g := fun b => 0 <? vt l b).
  2:{ intros b Hin. apply bnds_in in Hin. apply gather_map. apply Hg. lia. }
  cbn [bind].
  assert (forallb (fun b => b) (map (fun b => 0 <? vt l b) (bnds cap l)) = true) as ->.
  { apply forallb_forall. intros x Hx. apply in_map_iff in Hx as (b & <- & Hb').
    apply bnds_in in Hb'. pose proof (vt_range l b Hf). lia. }
  cbn [assert_ bind].
  rewrite (ring_count cap (len l) term (vt l)) by auto.
  fold (isb l). unfold bnds in He.
  assert (len (filter (isb l) (zrange (len l - cap) (len l))) =? ec + 1 = true) as -> by lia.
  reflexivity.
Qed.

(** ** Marker removal at the start of enqueue *)
Lemma unmark_ok zero cap l s :
  Inv zero cap l s ->
  exists lt term1, gather (q_term s) ((q_bidx s - 1) mod q_cap s) = Ok lt /\
    (if lt =? 3 then scatter (q_term s) [(q_bidx s - 1) mod q_cap s] [0] else Ok (q_term s)) = Ok term1 /\
    len term1 = cap /\
    (lt = mt l (len l - 1)) /\
    (forall p, len l - cap <= p < len l -> gather term1 (p mod cap) = Ok (vt l p)).
Proof.
  intros I. destruct I as [C1 Cc Cb Cp Ct Cti Cf CT CP CE CTI]. rewrite Cc, Cb.
  pose proof (Z.mod_pos_bound (len l - 1) cap ltac:(lia)) as HM.
  exists (mt l (len l - 1)). rewrite CT by lia.
  destruct (Z.eqb_spec (mt l (len l - 1)) 3) as [E3|N3].
  - rewrite scatter_one by lia. eexists. split; [reflexivity|]. split; [reflexivity|].
    rewrite update_nth_length. split; [auto|]. split; [auto|]. intros p Hp.
    destruct (Z.eq_dec p (len l - 1)) as [->|Hne].
    + rewrite gather_update_same by lia. f_equal.
      unfold mt in E3. destruct (Z.eqb_spec (vt l (len l - 1)) 0); [lia|].
      rewrite andb_false_r in E3. pose proof (vt_range l (len l - 1) Cf). lia.
    + rewrite gather_update_other; [|lia|].
      * rewrite CT by auto. unfold mt. destruct (Z.eqb_spec p (len l - 1)); [lia|]. reflexivity.
      * intros E. apply Hne. symmetry. apply (Zmod_window_inj cap _ _ (len l - cap)); auto; lia.
  - eexists. split; [reflexivity|]. split; [reflexivity|]. split; [auto|]. split; [auto|].
    intros p Hp. rewrite CT by auto. f_equal. unfold mt in *.
    destruct (Z.eqb_spec p (len l - 1)) as [->|]; [|reflexivity].
    rewrite Z.eqb_refl in N3. cbn [andb] in *. destruct (vt l (len l - 1) =? 0); [lia|reflexivity].
Qed.

(** ** Legal batches *)
Lemma legal_flags cap b : legal_batch cap b -> Forall (fun e : entry A => 0 <= snd e <= 2) b.
Proof.
  intros (pre & x & -> & Hp & Hx & _). apply Forall_app. split.
  - eapply Forall_impl; [|exact Hp]. cbn. intros a ->. lia.
  - constructor; auto.
Qed.

Lemma count_nonzero_zeros (l : list Z) : Forall (fun t => t = 0) l -> count_nonzero l = 0.
Proof.
  unfold count_nonzero. induction 1 as [|t l -> _ IH]; [reflexivity|]. cbn. exact IH.
Qed.

Lemma legal_terminal cap (b : list (entry A)) : legal_batch cap b ->
  exists pre t, map snd b = pre ++ [t] /\ Forall (fun t => t = 0) pre /\ 0 <= t <= 2.
Proof.
  intros (pre & x & -> & Hp & Hx & _). exists (map snd pre), (snd x).
  rewrite map_app. repeat split; try lia.
  apply Forall_map. exact Hp.
Qed.

Lemma correct_last_snoc pre t : correct_last (pre ++ [t]) = pre ++ [if t =? 0 then 3 else t].
Proof. unfold correct_last. rewrite rev_app_distr. cbn. now rewrite rev_involutive. Qed.

Lemma mask_app {B} (l1 l2 : list B) m1 m2 : length l1 = length m1 ->
  boolean_mask (l1 ++ l2) (m1 ++ m2) = boolean_mask l1 m1 ++ boolean_mask l2 m2.
Proof.
  revert m1. induction l1 as [|x l1 IH]; destruct m1 as [|b m1]; cbn; intros H; try discriminate; auto.
  injection H as H. rewrite IH by auto. now destruct b.
Qed.

Lemma mask_false {B} (l : list B) n : boolean_mask l (repeat false n) = [].
Proof. revert n. induction l as [|x l IH]; destruct n; cbn; auto. Qed.

Lemma map_zeros_pos pre : Forall (fun t => t = 0) pre -> map (fun t => 0 <? t) pre = repeat false (length pre).
Proof. induction 1 as [|t l -> _ IH]; [reflexivity|]. cbn. now rewrite IH. Qed.

Lemma nth_error_snd l p e : nth_error l p = Some e -> vt l (Z.of_nat p) = snd e.
Proof.
  intros H. unfold vt. destruct (Z.eqb_spec (Z.of_nat p) (-1)); [lia|].
  destruct (Z.ltb_spec (Z.of_nat p) 0); [lia|]. rewrite Nat2Z.id. now rewrite H.
Qed.

Lemma vt_app_old l b p : p < len l -> vt (l ++ b) p = vt l p.
Proof.
  intros H. unfold vt. destruct (p =? -1); [auto|]. destruct (Z.ltb_spec p 0); [auto|].
  rewrite nth_error_app1 by lia. reflexivity.
Qed.

Lemma vt_app_new l b k e : nth_error b k = Some e -> vt (l ++ b) (len l + Z.of_nat k) = snd e.
Proof.
  intros H. replace (len l + Z.of_nat k) with (Z.of_nat (length l + k)) by lia.
  apply nth_error_snd. rewrite nth_error_app2 by lia. now replace (length l + k - length l)%nat with k by lia.
Qed.

Lemma filter_ext_in {B} (f g : B -> bool) (l : list B) : (forall x, In x l -> f x = g x) -> filter f l = filter g l.
Proof.
  induction l as [|x l IH]; intros H; [reflexivity|]. cbn. rewrite H by now left.
  rewrite IH by (intros; apply H; now right). reflexivity.
Qed.

(** Boundaries after appending a legal batch. *)
Definition kept cap l n : list Z := filter (isb l) (zrange (len l - cap + n) (len l)).
Definition dropped cap l n : list Z := filter (isb l) (zrange (len l - cap) (len l - cap + n)).

Lemma bnds_split cap l n : 0 <= n <= cap -> bnds cap l = dropped cap l n ++ kept cap l n.
Proof. intros. unfold bnds, dropped, kept. rewrite <- filter_app. f_equal. apply zrange_app. lia. Qed.

Lemma bnds_app cap l pre x :
  Forall (fun e : entry A => snd e = 0) pre ->
  let n := Z.of_nat (length (pre ++ [x])) in n <= cap ->
  bnds cap (l ++ pre ++ [x]) =
  kept cap l n ++ (if snd x =? 0 then [] else [len l + n - 1]).
Proof.
  intros Hpre n Hn. unfold bnds. rewrite app_length. fold n.
  assert (n = len pre + 1) as En by (unfold n; rewrite app_length; cbn; lia).
  replace (Z.of_nat (length l + length (pre ++ [x]))) with (len l + n) by (unfold n; lia).
  rewrite (zrange_app (len l + n - cap) (len l) (len l + n)) by lia.
  rewrite filter_app. f_equal.
  - unfold kept. replace (len l - cap + n) with (len l + n - cap) by lia.
    apply filter_ext_in. intros p Hp. apply in_zrange in Hp. unfold isb. rewrite vt_app_old by lia. reflexivity.
  - rewrite En. replace (len l + (len pre + 1)) with (len l + len pre + 1) by lia.
    rewrite zrange_snoc by lia. rewrite filter_app, filter_none.
    + cbn [app filter]. unfold isb.
      assert (vt (l ++ pre ++ [x]) (len l + len pre) = snd x) as ->.
      { apply vt_app_new. rewrite nth_error_app2 by lia. now rewrite Nat.sub_diag. }
      destruct (snd x =? 0); cbn [negb]; [reflexivity|]. f_equal. lia.
    + intros p Hp. apply in_zrange in Hp. unfold isb.
      destruct (nth_error pre (Z.to_nat (p - len l))) as [e|] eqn:E.
      * replace p with (len l + Z.of_nat (Z.to_nat (p - len l))) by lia.
        rewrite (vt_app_new l (pre ++ [x]) (Z.to_nat (p - len l)) e).
        -- rewrite Forall_forall in Hpre. rewrite Hpre by (eapply nth_error_In; eauto). reflexivity.
        -- rewrite nth_error_app1; [auto|]. apply nth_error_Some. congruence.
      * apply nth_error_None in E. lia.
Qed.

Lemma nth_error_combine_map {B C} (f : B -> C) (l : list B) k x : nth_error l k = Some x -> nth_error (map f l) k = Some (f x).
Proof. apply map_nth_error. Qed.

Lemma slots_NoDup cap N n : 0 < cap -> 0 <= n <= cap -> NoDup (map (fun i => i mod cap) (zrange N (N + n))).
Proof.
  intros Hc Hn.
  assert (forall l : list Z, NoDup l -> (forall x, In x l -> N <= x < N + cap) -> NoDup (map (fun p => p mod cap) l)) as G.
  { induction l as [|x l IH]; intros ND HI; cbn; [constructor|].
    inversion_clear ND as [|? ? Hx ND']. constructor.
    - rewrite in_map_iff. intros (y & Hy & Hin). apply Hx.
      assert (y = x) as ->; auto. apply (Zmod_window_inj cap y x N); auto.
      + apply HI. now right.
      + apply HI. now left.
    - apply IH; auto. intros y Hy. apply HI. now right. }
  apply G; [apply zrange_NoDup|]. intros x Hx. apply in_zrange in Hx. lia.
Qed.

Theorem enqueue_ok zero cap l s b :
  Inv zero cap l s -> legal_batch cap b ->
  exists s', queue_enqueue s b = Ok s' /\ Inv zero cap (l ++ b) s'.
Proof.
  intros I HL. pose proof I as I0. destruct I as [C1 Cc Cb Cp Ct Cti Cf CT CP CE CTI].
  destruct (unmark_ok zero cap l s I0) as (lt & term1 & G1 & G2 & G3 & G4 & G5).
  destruct (legal_terminal cap b HL) as (tpre & t & Etm & Htpre & Ht).
  pose proof HL as HL0.
  destruct HL as (pre & x & Eb & Hpre & Hx & Hn).
  assert (tpre = map snd pre /\ t = snd x) as [-> ->].
  { rewrite Eb, map_app in Etm. cbn in Etm. apply app_inj_tail in Etm. now destruct Etm. }
  set (n := len b) in *.
  assert (n = len pre + 1) as En by (unfold n; rewrite Eb, app_length; cbn; lia).
  pose proof (bnds_length cap l ltac:(lia)) as HBl.
  unfold queue_enqueue. rewrite G1. cbn [bind]. rewrite G2. cbn [bind]. rewrite Cc, Cb. fold n.
  (* assertions *)
  assert (n <=? cap = true) as -> by lia. cbn [assert_ bind].
  assert (count_nonzero (map snd b) = if snd x =? 0 then 0 else 1) as Ecnt.
  { rewrite Etm, count_nonzero_app, count_nonzero_zeros by auto. unfold count_nonzero. cbn.
    destruct (snd x =? 0); reflexivity. }
  assert (count_nonzero (map snd b) <=? 1 = true) as -> by (rewrite Ecnt; destruct (snd x =? 0); reflexivity).
  cbn [assert_ bind].
  assert (n =? 0 = false) as -> by lia. cbn [negb assert_ bind].
  assert (Bool.eqb (existsb (fun t => 0 <? t) (map snd b)) (0 <? last (map snd b) 0) = true) as ->.
  { rewrite Etm, existsb_app, last_last. cbn [existsb]. rewrite orb_false_r.
    assert (existsb (fun t => 0 <? t) (map snd pre) = false) as ->.
    { clear -Htpre. induction Htpre as [|t l -> _ IH]; [reflexivity|]. cbn. auto. }
    cbn [orb]. apply eqb_reflx. }
  cbn [assert_ bind].
  rewrite (checks_ok cap l term1 (q_tind s) (q_ecount s)) by auto. cbn [bind].
  (* overwritten *)
  assert (gathers term1 (map (fun i => i mod cap) (zrange (len l) (len l + n)))
          = Ok (map (vt l) (zrange (len l - cap) (len l - cap + n)))) as ->.
  { replace (zrange (len l) (len l + n)) with (map (fun p => p + cap) (zrange (len l - cap) (len l - cap + n))).
    2:{ rewrite zrange_shift. f_equal; lia. }
    rewrite map_map. apply gathers_map. intros p Hp. apply in_zrange in Hp.
    rewrite Zmod_add_cap by lia. apply G5. lia. }
  cbn [bind].
  assert (count_nonzero (map (vt l) (zrange (len l - cap) (len l - cap + n))) = len (dropped cap l n)) as Edrop.
  { rewrite count_nonzero_map. reflexivity. }
  rewrite Edrop.
  pose proof (bnds_split cap l n ltac:(lia)) as HS.
  assert (len (bnds cap l) = len (dropped cap l n) + len (kept cap l n)) as HSl by (rewrite HS, app_length; lia).
  assert (len (dropped cap l n) <=? q_ecount s + 1 = true) as -> by lia. cbn [assert_ bind].
  (* shift terminal indices *)
  assert (q_ecount s + 1 - len (dropped cap l n) = len (kept cap l n)) as Ek by lia. rewrite Ek.
  destruct (scatter_ok (zrange 0 (len (kept cap l n))) (q_tind s)
             (slice (q_tind s) (len (dropped cap l n)) (q_ecount s + 1))) as (tind1 & S1 & S2 & S3 & S4).
  { rewrite zrange_length, slice_length by lia. lia. }
  { apply Forall_forall. intros i Hi. apply in_zrange in Hi. lia. }
  rewrite S1. cbn [bind].
  assert (forall k b0, nth_error (kept cap l n) k = Some b0 -> gather tind1 (Z.of_nat k) = Ok (b0 mod cap)) as HT1.
  { intros k b0 Hk. assert (k < length (kept cap l n))%nat as Hk' by (apply nth_error_Some; congruence).
    assert (nth_error (bnds cap l) (length (dropped cap l n) + k) = Some b0) as Hb0.
    { rewrite HS, nth_error_app2 by lia. now replace (length (dropped cap l n) + k - length (dropped cap l n))%nat with k by lia. }
    apply CTI in Hb0. apply gather_of_nat in Hb0.
    apply (S4 (zrange_NoDup _ _) k).
    - rewrite zrange_nth by lia. f_equal.
    - rewrite slice_nth by lia. rewrite <- Hb0. f_equal. lia. }
  (* write *)
  rewrite Etm, correct_last_snoc.
  set (slots := map (fun i => i mod cap) (zrange (len l) (len l + n))).
  assert (length slots = length b) as Lsl by (unfold slots; rewrite map_length, zrange_length; lia).
  assert (Forall (fun i => 0 <= i < cap) slots) as Fsl.
  { apply Forall_forall. intros i Hi. apply in_map_iff in Hi as (p & <- & _). apply Z.mod_pos_bound. lia. }
  assert (NoDup slots) as NDsl by (apply slots_NoDup; lia).
  destruct (scatter_ok slots term1 (map snd pre ++ [if snd x =? 0 then 3 else snd x])) as (term2 & T1 & T2 & T3 & T4).
  { rewrite Lsl, app_length, map_length, Eb, app_length. reflexivity. }
  { rewrite G3. auto. }
  rewrite T1. cbn [bind].
  destruct (scatter_ok slots (q_pay s) (map fst b)) as (pay2 & P1 & P2 & P3 & P4).
  { now rewrite Lsl, map_length. }
  { rewrite Cp. auto. }
  rewrite P1. cbn [bind].
  (* new terminal index *)
  assert (boolean_mask slots (map (fun t => 0 <? t) (map snd pre ++ [snd x]))
          = if snd x =? 0 then [] else [(len l + n - 1) mod cap]) as ->.
  { unfold slots. rewrite En. replace (len l + (len pre + 1)) with (len l + len pre + 1) by lia.
    rewrite zrange_snoc by lia. rewrite !map_app, mask_app.
    - rewrite map_zeros_pos by auto. rewrite map_length, mask_false. cbn [map app boolean_mask].
      destruct (Z.eqb_spec (snd x) 0) as [E0|E0].
      + rewrite E0. reflexivity.
      + destruct (Z.ltb_spec 0 (snd x)); [|lia].
        replace (len l + len pre + 1 - 1) with (len l + len pre) by lia. reflexivity.
    - rewrite !map_length, zrange_length. lia. }
  rewrite <- Etm, Ecnt.
  assert (q_ecount s - len (dropped cap l n) + 1 = len (kept cap l n)) as -> by lia.
  assert (exists tind2, scatter tind1
            (zrange (len (kept cap l n)) (len (kept cap l n) + (if snd x =? 0 then 0 else 1)))
            (if snd x =? 0 then [] else [(len l + n - 1) mod cap]) = Ok tind2 /\
          len tind2 = cap + 1 /\
          (forall k b0, nth_error (bnds cap (l ++ b)) k = Some b0 -> gather tind2 (Z.of_nat k) = Ok (b0 mod cap)))
    as (tind2 & U1 & U2 & U3).
  { subst b. rewrite bnds_app by (auto; lia). fold n.
    destruct (snd x =? 0).
    - rewrite zrange_nil by lia. exists tind1. split; [reflexivity|]. split; [lia|].
      intros k b0. rewrite app_nil_r. apply HT1.
    - rewrite zrange_cons, zrange_nil by lia.
      assert (len (kept cap l n) <= cap - n) as HK.
      { unfold kept. pose proof (filter_length_le (isb l) (zrange (len l - cap + n) (len l))) as H1.
        rewrite zrange_length in H1. lia. }
      rewrite scatter_one by lia. eexists. split; [reflexivity|].
      rewrite update_nth_length. split; [lia|]. intros k b0 Hk.
      destruct (Nat.lt_ge_cases k (length (kept cap l n))) as [Hlt|Hge].
      + rewrite nth_error_app1 in Hk by auto. rewrite gather_update_other by lia. auto.
      + rewrite nth_error_app2 in Hk by auto.
        destruct (k - length (kept cap l n))%nat as [|j] eqn:Ej; [|destruct j; discriminate].
        injection Hk as <-. replace k with (length (kept cap l n)) by lia.
        apply gather_update_same. lia. }
  rewrite U1. cbn [bind]. eexists. split; [reflexivity|].
  (* invariant *)
  assert (len (l ++ b) = len l + n) as Elen by (rewrite app_length; unfold n; lia).
  constructor; cbn [q_cap q_pay q_term q_bidx q_tind q_ecount]; auto.
  - lia.
  - lia.
  - apply Forall_app. split; auto. now apply legal_flags in HL0.
  - intros p Hp. rewrite Elen in Hp.
    destruct (Z.lt_ge_cases p (len l)) as [Hold|Hnew].
    + rewrite T3.
      * rewrite G5 by lia. f_equal. unfold mt. rewrite Elen.
        destruct (Z.eqb_spec p (len l + n - 1)); [lia|]. cbn [andb]. now rewrite vt_app_old.
      * unfold slots. rewrite in_map_iff. intros (q & Hq & Hin). apply in_zrange in Hin.
        assert (q = p); [|lia]. apply (Zmod_window_inj cap q p (len l + n - cap)); lia.
    + assert (nth_error slots (Z.to_nat (p - len l)) = Some (p mod cap)) as Hs.
      { unfold slots. replace p with (len l + Z.of_nat (Z.to_nat (p - len l))) at 2 by lia.
        apply (map_nth_error (fun i => i mod cap)). apply zrange_nth. lia. }
      assert (exists e, nth_error b (Z.to_nat (p - len l)) = Some e) as (e & He).
      { destruct (nth_error b (Z.to_nat (p - len l))) eqn:E; [eauto|]. apply nth_error_None in E. lia. }
      assert (vt (l ++ b) p = snd e) as Ev.
      { replace p with (len l + Z.of_nat (Z.to_nat (p - len l))) by lia. now apply vt_app_new. }
      apply (T4 NDsl (Z.to_nat (p - len l))); [auto|].
      unfold mt. rewrite Elen, Ev.
      destruct (Z.eqb_spec p (len l + n - 1)) as [Ep|Ep]; cbn [andb].
      * rewrite nth_error_app2 by (rewrite map_length; lia). rewrite map_length.
        replace (Z.to_nat (p - len l) - length pre)%nat with 0%nat by lia. cbn.
        rewrite Eb, nth_error_app2 in He by lia.
        replace (Z.to_nat (p - len l) - length pre)%nat with 0%nat in He by lia. injection He as <-. reflexivity.
      * rewrite nth_error_app1 by (rewrite map_length; lia).
        rewrite Eb, nth_error_app1 in He by lia. now apply map_nth_error.
  - intros p Hp. rewrite Elen in Hp.
    destruct (Z.lt_ge_cases p (len l)) as [Hold|Hnew].
    + rewrite P3.
      * rewrite CP by lia. f_equal. unfold vp. destruct (Z.ltb_spec p 0); [reflexivity|].
        rewrite nth_error_app1 by lia. reflexivity.
      * unfold slots. rewrite in_map_iff. intros (q & Hq & Hin). apply in_zrange in Hin.
        assert (q = p); [|lia]. apply (Zmod_window_inj cap q p (len l + n - cap)); lia.
    + assert (exists e, nth_error b (Z.to_nat (p - len l)) = Some e) as (e & He).
      { destruct (nth_error b (Z.to_nat (p - len l))) eqn:E; [eauto|]. apply nth_error_None in E. lia. }
      apply (P4 NDsl (Z.to_nat (p - len l))).
      * unfold slots. replace p with (len l + Z.of_nat (Z.to_nat (p - len l))) at 2 by lia.
        apply (map_nth_error (fun i => i mod cap)). apply zrange_nth. lia.
      * unfold vp. destruct (Z.ltb_spec p 0); [lia|]. rewrite nth_error_app2 by lia.
        replace (Z.to_nat p - length l)%nat with (Z.to_nat (p - len l)) by lia. rewrite He.
        now apply map_nth_error.
  - subst b. rewrite bnds_app by (auto; lia). fold n. rewrite app_length.
    destruct (snd x =? 0); cbn [length]; lia.
Qed.

(** ** Reset *)
Lemma close_nil : close (@nil (entry A)) = [].
Proof. reflexivity. Qed.

Lemma close_snoc l (e : entry A) : close (l ++ [e]) = l ++ [(fst e, if snd e =? 0 then 2 else snd e)].
Proof. unfold close. rewrite rev_app_distr. cbn. rewrite rev_involutive. now destruct e. Qed.

Lemma close_length l : length (close l) = length l.
Proof.
  destruct (list_rev_destruct l) as [->|(l0 & e & ->)]; [reflexivity|].
  rewrite close_snoc, !app_length. reflexivity.
Qed.

Lemma vt_snoc l (e : entry A) : vt (l ++ [e]) (len l) = snd e.
Proof. replace (len l) with (len l + Z.of_nat 0) by lia. now apply vt_app_new. Qed.

Lemma reset_ok zero cap l s :
  Inv zero cap l s -> exists s', queue_reset s = Ok s' /\ Inv zero cap (close l) s'.
Proof.
  intros I. pose proof I as I0. destruct I as [C1 Cc Cb Cp Ct Cti Cf CT CP CE CTI].
  unfold queue_reset. rewrite Cc, Cb. rewrite CT by lia. cbn [bind].
  pose proof (Z.mod_pos_bound (len l - 1) cap ltac:(lia)) as HM.
  pose proof (bnds_length cap l ltac:(lia)) as HB.
  destruct (Z.eqb_spec (mt l (len l - 1)) 3) as [E3|N3].
  - assert (vt l (len l - 1) = 0) as Ev.
    { unfold mt in E3. rewrite Z.eqb_refl in E3. cbn [andb] in E3.
      destruct (Z.eqb_spec (vt l (len l - 1)) 0); [auto|]. pose proof (vt_range l (len l - 1) Cf). lia. }
    destruct (list_rev_destruct l) as [->|(l0 & e & ->)].
    { cbn in Ev. lia. }
    rewrite close_snoc. set (e' := (fst e, if snd e =? 0 then 2 else snd e)).
    assert (len (l0 ++ [e]) = len l0 + 1) as El by (rewrite app_length; cbn; lia).
    assert (len (l0 ++ [e']) = len l0 + 1) as El' by (rewrite app_length; cbn; lia).
    rewrite El in *. replace (len l0 + 1 - 1) with (len l0) in * by lia.
    rewrite vt_snoc in Ev. assert (e' = (fst e, 2)) as Ee by (unfold e'; now rewrite Ev).
    assert (forall p, p < len l0 -> vt (l0 ++ [e']) p = vt (l0 ++ [e]) p) as Hvt.
    { intros p Hp. now rewrite !vt_app_old. }
    assert (vt (l0 ++ [e']) (len l0) = 2) as Hvt2 by (rewrite vt_snoc, Ee; reflexivity).
    assert (bnds cap (l0 ++ [e']) = bnds cap (l0 ++ [e]) ++ [len l0]) as Hb.
    { unfold bnds. rewrite El, El'. rewrite zrange_snoc by lia. rewrite !filter_app.
      cbn [filter]. unfold isb at 2 4. rewrite Hvt2, vt_snoc, Ev. cbn [Z.eqb negb]. rewrite app_nil_r. f_equal.
      apply filter_ext_in. intros p Hp. apply in_zrange in Hp. unfold isb. rewrite Hvt by lia. reflexivity. }
    assert (len (bnds cap (l0 ++ [e])) <= cap - 1) as HB1.
    { assert (len (bnds cap (l0 ++ [e'])) <= cap) by (apply bnds_length; lia).
      rewrite Hb, app_length in H. cbn [length] in H. lia. }
    assert (Forall (fun e : entry A => 0 <= snd e <= 2) (l0 ++ [e'])) as Hf'.
    { apply Forall_app in Cf as [Cf1 Cf2]. apply Forall_app. split; auto. rewrite Ee. constructor; auto. cbn. lia. }
    rewrite !scatter_one by lia. cbn [bind].
    assert (forall p, len l0 + 1 - cap <= p < len l0 + 1 ->
       gather (update_nth (q_term s) (Z.to_nat (len l0 mod cap)) 2) (p mod cap) = Ok (vt (l0 ++ [e']) p)) as HT.
    { intros p Hp. destruct (Z.eq_dec p (len l0)) as [->|Hne].
      - rewrite gather_update_same by lia. now rewrite Hvt2.
      - rewrite gather_update_other; [|lia|].
        + rewrite CT by lia. f_equal. rewrite Hvt by lia. unfold mt. rewrite El.
          destruct (Z.eqb_spec p (len l0 + 1 - 1)); [lia|]. reflexivity.
        + intros E. apply Hne. symmetry. apply (Zmod_window_inj cap _ _ (len l0 + 1 - cap)); auto; lia. }
    assert (forall k b, nth_error (bnds cap (l0 ++ [e'])) k = Some b ->
       gather (update_nth (q_tind s) (Z.to_nat (q_ecount s + 1)) (len l0 mod cap)) (Z.of_nat k) = Ok (b mod cap)) as HTI.
    { intros k b Hk. rewrite Hb in Hk.
      destruct (Nat.lt_ge_cases k (length (bnds cap (l0 ++ [e])))) as [Hlt|Hge].
      - rewrite nth_error_app1 in Hk by auto. rewrite gather_update_other by lia. auto.
      - rewrite nth_error_app2 in Hk by auto.
        destruct (k - length (bnds cap (l0 ++ [e])))%nat as [|j] eqn:Ej; [|destruct j; discriminate].
        injection Hk as <-. replace (Z.of_nat k) with (q_ecount s + 1) by lia.
        apply gather_update_same. lia. }
    assert (q_ecount s + 1 = len (bnds cap (l0 ++ [e'])) - 1) as HE.
    { rewrite Hb, app_length. cbn [length]. lia. }
    rewrite (checks_ok cap (l0 ++ [e'])); auto; rewrite ?update_nth_length; auto.
    2:{ rewrite El'. auto. }
    cbn [bind]. eexists. split; [reflexivity|].
    constructor; cbn [q_cap q_pay q_term q_bidx q_tind q_ecount]; rewrite ?update_nth_length, ?El'; auto.
    + intros p Hp. rewrite HT by auto. f_equal. unfold mt. rewrite El'.
      destruct (Z.eqb_spec p (len l0 + 1 - 1)) as [->|]; [|reflexivity].
      replace (len l0 + 1 - 1) with (len l0) by lia. now rewrite Hvt2.
    + intros p Hp. rewrite CP by lia. f_equal. unfold vp. destruct (Z.ltb_spec p 0); [reflexivity|].
      destruct (Z.eq_dec p (len l0)) as [->|].
      * rewrite Nat2Z.id, !nth_error_app2, Nat.sub_diag by lia. cbn. reflexivity.
      * rewrite !nth_error_app1 by lia. reflexivity.
  - assert (forall p, len l - cap <= p < len l -> mt l p = vt l p) as Hmv.
    { intros p Hp. unfold mt in *. rewrite Z.eqb_refl in N3. cbn [andb] in N3.
      destruct (Z.eqb_spec p (len l - 1)) as [->|]; [|reflexivity]. cbn [andb].
      destruct (vt l (len l - 1) =? 0); [lia|reflexivity]. }
    cbn [bind]. rewrite (checks_ok cap l); auto.
    2:{ intros p Hp. rewrite CT, Hmv by auto. reflexivity. }
    cbn [bind]. eexists. split; [reflexivity|].
    assert (close l = l) as ->.
    { destruct (list_rev_destruct l) as [->|(l0 & e & ->)]; [reflexivity|].
      rewrite close_snoc. destruct (Z.eqb_spec (snd e) 0) as [E0|E0].
      - exfalso. apply N3. unfold mt. rewrite Z.eqb_refl. cbn [andb].
        rewrite app_length. cbn [length]. replace (Z.of_nat (length l0 + 1) - 1) with (len l0) by lia.
        rewrite vt_snoc, E0. reflexivity.
      - now destruct e. }
    constructor; cbn [q_cap q_pay q_term q_bidx q_tind q_ecount]; auto.
Qed.

(** ** Whole histories *)
Lemma run_inv zero cap cs : 1 <= cap -> Forall (legal_call cap) cs ->
  exists s, qrun zero cap cs = Ok s /\ Inv zero cap (log_of cs) s.
Proof.
  intros Hc. unfold qrun. destruct (initialize_ok zero cap Hc) as (s0 & E0). rewrite E0. cbn [bind].
  apply initialize_inv in E0. unfold log_of. revert s0 E0. generalize (@nil (entry A)) as l.
  induction cs as [|c cs IH]; intros l s0 I HL.
  - exists s0. split; auto.
  - inversion_clear HL as [|? ? Hl HL']. cbn [run_ops fold_left].
    assert (exists s1, qstep s0 c = Ok s1 /\ Inv zero cap (append_call l c) s1) as (s1 & E1 & I1).
    { destruct c as [b|]; cbn [qstep append_call].
      - now apply enqueue_ok.
      - now apply reset_ok. }
    rewrite E1. cbn [bind]. apply IH; auto.
Qed.

Lemma run_inv' zero cap cs s : 1 <= cap -> Forall (legal_call cap) cs ->
  qrun zero cap cs = Ok s -> Inv zero cap (log_of cs) s.
Proof. intros Hc HL E. destruct (run_inv zero cap cs Hc HL) as (s' & E' & I). congruence. Qed.

Lemma qrun_snoc zero cap cs c :
  qrun zero cap (cs ++ [c]) = do s <- qrun zero cap cs; qstep s c.
Proof.
  unfold qrun. destruct (queue_initialize zero cap) as [s|e]; [cbn [bind]|reflexivity].
  rewrite run_ops_app. destruct (run_ops qstep s cs) as [s'|]; cbn; [|reflexivity].
  now destruct (qstep s' c).
Qed.

(** ** Rejection of malformed batches *)
Lemma enqueue_rejects zero cap l s b :
  Inv zero cap l s -> Forall (fun e => 0 <= snd e <= 2) b -> ~ legal_batch cap b ->
  exists e, queue_enqueue s b = Err e.
Proof.
  intros I Hf HN. destruct (unmark_ok zero cap l s I) as (lt & term1 & G1 & G2 & G3 & G4 & G5).
  unfold queue_enqueue. rewrite G1. cbn [bind]. rewrite G2. cbn [bind].
  rewrite (inv_cap _ _ _ _ I).
  destruct (Z.leb_spec (len b) cap) as [Hn|Hn]; cbn [assert_ bind]; [|eauto].
  destruct (Z.leb_spec (count_nonzero (map snd b)) 1) as [Hc|Hc]; cbn [assert_ bind]; [|eauto].
  destruct (Z.eqb_spec (len b) 0) as [H0|H0]; cbn [negb assert_ bind]; [eauto|].
  destruct (list_rev_destruct b) as [->|(pre & x & ->)]; [cbn in H0; lia|].
  rewrite map_app in *. cbn [map] in *. rewrite existsb_app, last_last. cbn [existsb]. rewrite orb_false_r.
  apply Forall_app in Hf as [Hf1 Hf2]. inversion_clear Hf2 as [|? ? Hx _].
  destruct (existsb (fun t => 0 <? t) (map snd pre)) eqn:Ex.
  - cbn [orb]. apply existsb_exists in Ex as (t & Hin & Ht).
    assert (snd x = 0) as ->.
    { destruct (Z.eq_dec (snd x) 0) as [|Hne]; [auto|]. exfalso.
      rewrite count_nonzero_app in Hc. unfold count_nonzero at 2 in Hc. cbn [filter] in Hc.
      destruct (Z.eqb_spec (snd x) 0); [lia|]. cbn [negb length] in Hc.
      assert (In t (filter (fun t => negb (t =? 0)) (map snd pre))) as Hi.
      { apply filter_In. split; auto. lia. }
      unfold count_nonzero in Hc. destruct (filter (fun t => negb (t =? 0)) (map snd pre)); [easy|].
      cbn [length] in Hc. lia. }
    cbn. eauto.
  - exfalso. apply HN. exists pre, x. repeat split; try lia.
    rewrite Forall_forall in *. intros e He. pose proof (Hf1 e He).
    assert (0 <? snd e = false) as Hz.
    { destruct (0 <? snd e) eqn:E; auto. assert (existsb (fun t => 0 <? t) (map snd pre) = true); [|congruence].
      apply existsb_exists. exists (snd e). split; auto. now apply in_map. }
    lia.
Qed.

End Inv.
