(** What the memory's queries return, in terms of the log. *)

From Coq Require Import String List ZArith Lia Bool Permutation Sorted.
From Coq Require Import ZifyBool ZifyNat.
From Verif Require Import Base BaseFacts MemSpec MemModel MemProofs.
Import ListNotations.
Open Scope Z_scope.

Lemma app_inj_length {B} (a a' b b' : list B) : a' ++ b' = a ++ b -> length a' = length a -> a = a' /\ b = b'.
Proof.
  revert a. induction a' as [|x a' IH]; destruct a as [|y a]; cbn; intros H HL; try discriminate; auto.
  injection H as -> H. injection HL as HL. destruct (IH _ H HL) as [-> ->]. auto.
Qed.

Lemma nth_error_firstn {B} n (l : list B) k : (k < n)%nat -> nth_error (firstn n l) k = nth_error l k.
Proof.
  revert l k. induction n as [|n IH]; intros l k H; [lia|]. destruct l as [|x l]; [now destruct k|].
  destruct k as [|k]; [reflexivity|]. cbn. apply IH. lia.
Qed.

Lemma nth_error_skipn {B} a (l : list B) k : nth_error (skipn a l) k = nth_error l (a + k).
Proof.
  revert l. induction a as [|a IH]; intros l; [reflexivity|]. destruct l as [|x l]; [now destruct k|]. cbn. apply IH.
Qed.

Lemma firstn_plus {B} j m (l : list B) : firstn (j + m) l = firstn j l ++ firstn m (skipn j l).
Proof.
  revert l. induction j as [|j IH]; intros l; [reflexivity|]. destruct l as [|x l]; [cbn; now rewrite firstn_nil|].
  cbn. now rewrite IH.
Qed.

Lemma repeat_S_snoc {B} (x : B) n : repeat x (S n) = repeat x n ++ [x].
Proof. induction n as [|n IH]; [reflexivity|]. cbn in *. now rewrite <- IH. Qed.

Section Q.
Context {A : Type}.
Implicit Types (l : log A) (s : qstate A).
Notation len l := (Z.of_nat (length l)).

(** ** Reading log positions *)
Lemma view_snoc l (e : entry A) : view (l ++ [e]) = l ++ [(fst e, if snd e =? 0 then 3 else snd e)].
Proof. unfold view. rewrite rev_app_distr. cbn. rewrite rev_involutive. now destruct e. Qed.

Lemma view_length l : length (view l) = length l.
Proof.
  destruct (list_rev_destruct l) as [->|(l0 & e & ->)]; [reflexivity|].
  rewrite view_snoc, !app_length. reflexivity.
Qed.

Lemma view_nth l i e : nth_error (view l) i = Some e -> vp (fst e) l (Z.of_nat i) = fst e /\ mt l (Z.of_nat i) = snd e.
Proof.
  intros H. assert (i < length l)%nat as Hi by (rewrite <- view_length; apply nth_error_Some; congruence).
  unfold vp. destruct (Z.ltb_spec (Z.of_nat i) 0); [lia|]. rewrite Nat2Z.id. unfold mt.
  destruct (list_rev_destruct l) as [->|(l0 & x & ->)]; [cbn in Hi; lia|].
  rewrite view_snoc in H. rewrite app_length in *. cbn [length] in *.
  destruct (Nat.eq_dec i (length l0)) as [->|Hne].
  - rewrite nth_error_app2, Nat.sub_diag in H by lia. injection H as <-.
    rewrite nth_error_app2, Nat.sub_diag by lia. cbn [nth_error fst snd]. split; [reflexivity|].
    rewrite vt_snoc. destruct (Z.eqb_spec (len l0) (Z.of_nat (length l0 + 1) - 1)); [|lia].
    cbn [andb]. reflexivity.
  - rewrite nth_error_app1 in H by lia. rewrite nth_error_app1 by lia. rewrite H. split; [reflexivity|].
    destruct (Z.eqb_spec (Z.of_nat i) (Z.of_nat (length l0 + 1) - 1)); [lia|]. cbn [andb].
    rewrite vt_app_old by lia. now apply nth_error_snd.
Qed.

Lemma vp_zero z1 z2 l p : 0 <= p < len l -> vp z1 l p = vp z2 l p.
Proof.
  intros H. unfold vp. destruct (Z.ltb_spec p 0); [lia|].
  destruct (nth_error l (Z.to_nat p)) eqn:E; [reflexivity|]. apply nth_error_None in E. lia.
Qed.

Lemma read_pos zero cap l s i e :
  Inv zero cap l s -> retained cap l i -> nth_error (view l) i = Some e ->
  gather (q_pay s) (Z.of_nat i mod cap) = Ok (fst e) /\
  gather (q_term s) (Z.of_nat i mod cap) = Ok (snd e).
Proof.
  intros I [H1 H2] He. destruct I as [C1 Cc Cb Cp Ct Cti Cf CT CP CE CTI].
  rewrite CP, CT by lia. destruct (view_nth _ _ _ He) as [Hv ->].
  rewrite (vp_zero zero (fst e)), Hv by lia. auto.
Qed.

Lemma retrieve_positions zero cap l s (ps : list nat) es :
  Inv zero cap l s ->
  Forall2 (fun i e => retained cap l i /\ nth_error (view l) i = Some e) ps es ->
  queue_retrieve s (map (fun i => Z.of_nat i mod cap) ps) = Ok es.
Proof.
  intros I H. unfold queue_retrieve.
  assert (gathers (q_pay s) (map (fun i => Z.of_nat i mod cap) ps) = Ok (map fst es)) as ->.
  { unfold gathers. induction H as [|i e ps es [Hr He] H IH]; [reflexivity|].
    cbn. destruct (read_pos _ _ _ _ _ _ I Hr He) as [-> _]. cbn. now rewrite IH. }
  cbn [bind].
  assert (gathers (q_term s) (map (fun i => Z.of_nat i mod cap) ps) = Ok (map snd es)) as ->.
  { unfold gathers. induction H as [|i e ps es [Hr He] H IH]; [reflexivity|].
    cbn. destruct (read_pos _ _ _ _ _ _ I Hr He) as [_ ->]. cbn. now rewrite IH. }
  cbn [bind]. f_equal. clear.
  induction es as [|e r IH]; [reflexivity|]. cbn. rewrite IH. now destruct e.
Qed.

(** Runs of consecutive positions. *)
Lemma segment_length {B} a n (l : list B) : (a + n <= length l)%nat -> length (segment a n l) = n.
Proof. intros. unfold segment. rewrite firstn_length, skipn_length. lia. Qed.

Lemma segment_nth {B} a n (l : list B) k : (k < n)%nat -> nth_error (segment a n l) k = nth_error l (a + k).
Proof.
  intros H. unfold segment. rewrite nth_error_firstn by auto. now rewrite nth_error_skipn.
Qed.

Lemma zrange_seq a n : zrange (Z.of_nat a) (Z.of_nat a + Z.of_nat n) = map Z.of_nat (seq a n).
Proof.
  unfold zrange. replace (Z.to_nat (Z.of_nat a + Z.of_nat n - Z.of_nat a)) with n by lia.
  induction n as [|n IH]; [reflexivity|].
  rewrite !seq_S, !map_app. cbn [map]. rewrite IH. do 2 f_equal. lia.
Qed.

Lemma Forall2_nth {B C} (R : B -> C -> Prop) xs ys :
  length xs = length ys ->
  (forall k x y, nth_error xs k = Some x -> nth_error ys k = Some y -> R x y) -> Forall2 R xs ys.
Proof.
  revert ys. induction xs as [|x xs IH]; destruct ys as [|y ys]; cbn; intros HL H; try discriminate; constructor.
  - apply (H 0%nat); reflexivity.
  - apply IH; [lia|]. intros k x' y' Hx Hy. apply (H (S k)); auto.
Qed.

Lemma run_positions cap l a n : (a + n <= length l)%nat -> len l - cap <= Z.of_nat a ->
  Forall2 (fun i e => retained cap l i /\ nth_error (view l) i = Some e) (seq a n) (segment a n (view l)).
Proof.
  intros H1 H2. apply Forall2_nth.
  - rewrite seq_length, segment_length; [auto|now rewrite view_length].
  - intros k i e Hi He. assert (k < n)%nat as Hk.
    { rewrite <- (seq_length n a). apply nth_error_Some. congruence. }
    rewrite segment_nth in He by auto.
    rewrite nth_error_nth' with (d := 0%nat) in Hi by (now rewrite seq_length). rewrite seq_nth in Hi by auto.
    injection Hi as <-. split; auto. split; lia.
Qed.

Lemma retrieve_run zero cap l s a n : Inv zero cap l s ->
  (a + n <= length l)%nat -> len l - cap <= Z.of_nat a ->
  queue_retrieve s (map (fun p => p mod cap) (zrange (Z.of_nat a) (Z.of_nat a + Z.of_nat n))) = Ok (segment a n (view l)).
Proof.
  intros I H1 H2. rewrite zrange_seq, map_map. eapply retrieve_positions; [eauto|].
  now apply run_positions.
Qed.

(** ** Episodes *)
Definition total (eps : list (log A)) : Z := len (concat eps).

Lemma episodes_from_snoc l : forall cur e,
  episodes_from cur (l ++ [e]) =
  let '(eps, rest) := episodes_from cur l in
  if ends e then (eps ++ [rest ++ [e]], []) else (eps, rest ++ [e]).
Proof.
  induction l as [|x l IH]; intros cur e; cbn [app episodes_from].
  - destruct (ends e); reflexivity.
  - destruct (ends x).
    + rewrite IH. destruct (episodes_from [] l) as [eps rest]. destruct (ends e); reflexivity.
    + apply IH.
Qed.

Lemma complete_snoc l e : complete_episodes (l ++ [e]) =
  if ends e then complete_episodes l ++ [open_rest l ++ [e]] else complete_episodes l.
Proof.
  unfold complete_episodes, open_rest. rewrite episodes_from_snoc.
  destruct (episodes_from [] l) as [eps rest]. destruct (ends e); reflexivity.
Qed.

Lemma open_snoc l e : open_rest (l ++ [e]) = if ends e then [] else open_rest l ++ [e].
Proof.
  unfold complete_episodes, open_rest. rewrite episodes_from_snoc.
  destruct (episodes_from [] l) as [eps rest]. destruct (ends e); reflexivity.
Qed.

Lemma log_split l : l = concat (complete_episodes l) ++ open_rest l.
Proof.
  induction l as [|e l IH] using rev_ind; [reflexivity|].
  rewrite complete_snoc, open_snoc. destruct (ends e).
  - rewrite concat_app. cbn [concat]. rewrite !app_nil_r, app_assoc. now rewrite <- IH.
  - rewrite app_assoc. now rewrite <- IH.
Qed.

(** All boundaries of the log. *)
Definition allb l : list Z := filter (isb l) (zrange (-1) (len l)).

Lemma total_app a b : total (a ++ b) = total a + total b.
Proof. unfold total. rewrite concat_app, app_length. lia. Qed.

Lemma allb_nil : allb (@nil (entry A)) = [-1].
Proof. reflexivity. Qed.

Lemma allb_snoc l e : allb (l ++ [e]) = allb l ++ (if ends e then [len l] else []).
Proof.
  unfold allb. rewrite app_length. cbn [length]. replace (Z.of_nat (length l + 1)) with (len l + 1) by lia.
  rewrite zrange_snoc by lia. rewrite filter_app. f_equal.
  - apply filter_ext_in. intros p Hp. apply in_zrange in Hp. unfold isb. rewrite vt_app_old by lia. reflexivity.
  - cbn [filter]. unfold isb. rewrite vt_snoc. unfold ends. now destruct (snd e =? 0).
Qed.

Lemma firstn_app_le {B} n (a b : list B) : (n <= length a)%nat -> firstn n (a ++ b) = firstn n a.
Proof. intros. rewrite firstn_app. replace (n - length a)%nat with 0%nat by lia. cbn. apply app_nil_r. Qed.

Lemma allb_eps l : allb l =
  map (fun j => total (firstn j (complete_episodes l)) - 1) (seq 0 (S (length (complete_episodes l)))).
Proof.
  induction l as [|e l IH] using rev_ind.
  - reflexivity.
  - rewrite allb_snoc, complete_snoc, IH. destruct (ends e) eqn:Ee; [|now rewrite app_nil_r].
    rewrite app_length. cbn [length]. rewrite Nat.add_1_r.
    rewrite (seq_S (S (length (complete_episodes l))) 0). rewrite map_app. f_equal.
    + apply map_ext_in. intros j Hj. apply in_seq in Hj. rewrite firstn_app_le by lia. reflexivity.
    + cbn [map plus]. rewrite firstn_all2 by (rewrite app_length; cbn; lia).
      rewrite total_app. unfold total at 2. cbn [concat]. rewrite app_nil_r, app_length. cbn [length].
      pose proof (f_equal (@length _) (log_split l)) as HL. rewrite app_length in HL. fold (total (complete_episodes l)) in *.
      unfold total. f_equal. lia.
Qed.

Lemma log_total l : len l = total (complete_episodes l) + len (open_rest l).
Proof. pose proof (f_equal (@length _) (log_split l)) as HL. rewrite app_length in HL. unfold total. lia. Qed.

Lemma sorted_suffix (c : Z) (L : list Z) : StronglySorted Z.lt L ->
  exists a b, L = a ++ b /\ filter (fun x => c <=? x) L = b /\ Forall (fun x => x < c) a /\ Forall (fun x => c <= x) b.
Proof.
  induction 1 as [|x L HS IH HF].
  - exists [], []. repeat split; constructor.
  - destruct IH as (a & b & -> & Hb & Ha & Hb'). cbn [filter]. destruct (Z.leb_spec c x) as [Hx|Hx].
    + exists [], (x :: a ++ b). rewrite Hb. cbn.
      assert (a = []) as ->.
      { destruct a as [|y a]; [reflexivity|]. inversion_clear HF. inversion_clear Ha. lia. }
      cbn. repeat split; auto.
    + exists (x :: a), b. cbn. repeat split; auto.
Qed.

Lemma zrange_sorted a b : StronglySorted Z.lt (zrange a b).
Proof.
  destruct (Z.le_gt_cases b a) as [H|H]; [rewrite zrange_nil by lia; constructor|].
  remember (Z.to_nat (b - a)) as n eqn:En. revert a En H.
  induction n as [|n IH]; intros a En H; [lia|].
  rewrite zrange_cons by lia. constructor.
  - destruct (Z.eq_dec (a + 1) b) as [->|]; [rewrite zrange_nil by lia; constructor|apply IH; lia].
  - apply Forall_forall. intros x Hx. apply in_zrange in Hx. lia.
Qed.

Lemma filter_sorted (f : Z -> bool) L : StronglySorted Z.lt L -> StronglySorted Z.lt (filter f L).
Proof.
  induction 1 as [|x L HS IH HF]; cbn; [constructor|]. destruct (f x); auto. constructor; auto.
  rewrite Forall_forall in *. intros y Hy. apply filter_In in Hy as [Hy _]. auto.
Qed.

Lemma filter_filter {B} (f g : B -> bool) (L : list B) : filter f (filter g L) = filter (fun x => g x && f x) L.
Proof. induction L as [|x L IH]; [reflexivity|]. cbn. destruct (g x); cbn; [destruct (f x)|]; now rewrite ?IH. Qed.

Lemma bnds_allb cap l : 1 <= cap -> bnds cap l = filter (fun x => len l - cap <=? x) (allb l).
Proof.
  intros Hc. unfold allb. rewrite filter_filter. unfold bnds.
  assert (forall p, p < -1 -> isb l p = false) as Hneg.
  { intros p Hp. unfold isb, vt. destruct (Z.eqb_spec p (-1)); [lia|]. destruct (Z.ltb_spec p 0); [reflexivity|lia]. }
  destruct (Z.le_gt_cases (len l - cap) (-1)) as [H|H].
  - rewrite (zrange_app (len l - cap) (-1) (len l)) by lia. rewrite filter_app, filter_none.
    + cbn [app]. apply filter_ext_in. intros p Hp. apply in_zrange in Hp.
      destruct (Z.leb_spec (len l - cap) p); [now rewrite andb_true_r|lia].
    + intros p Hp. apply in_zrange in Hp. apply Hneg. lia.
  - rewrite (zrange_app (-1) (len l - cap) (len l)) by lia. rewrite filter_app.
    rewrite (filter_none _ (zrange (-1) (len l - cap))).
    + cbn [app]. apply filter_ext_in. intros p Hp. apply in_zrange in Hp.
      destruct (Z.leb_spec (len l - cap) p); [now rewrite andb_true_r|lia].
    + intros p Hp. apply in_zrange in Hp.
      destruct (Z.leb_spec (len l - cap) p); [lia|now rewrite andb_false_r].
Qed.

(** Number of complete episodes, and the k-th recorded boundary. *)
Notation E l := (length (complete_episodes l)).

Lemma bnds_suffix cap l : 1 <= cap -> exists d,
  (d <= S (E l))%nat /\
  bnds cap l = map (fun j => total (firstn j (complete_episodes l)) - 1) (seq d (S (E l) - d)) /\
  (forall j, (j <= E l)%nat -> ((d <= j)%nat <-> len l - cap <= total (firstn j (complete_episodes l)) - 1)).
Proof.
  intros Hc. rewrite bnds_allb by auto.
  assert (StronglySorted Z.lt (allb l)) as HS by (apply filter_sorted, zrange_sorted).
  destruct (sorted_suffix (len l - cap) (allb l) HS) as (a & b & Eab & Eb & Ha & Hb).
  exists (length a). rewrite Eb. rewrite allb_eps in Eab.
  assert (length a + length b = S (E l))%nat as HL.
  { apply (f_equal (@length _)) in Eab. rewrite map_length, seq_length, app_length in Eab. lia. }
  split; [lia|].
  replace (S (E l)) with (length a + (S (E l) - length a))%nat in Eab at 1 by lia.
  rewrite seq_app, map_app in Eab. cbn [plus] in Eab.
  assert (a = map (fun j => total (firstn j (complete_episodes l)) - 1) (seq 0 (length a)) /\
          b = map (fun j => total (firstn j (complete_episodes l)) - 1) (seq (length a) (S (E l) - length a))) as [Ea Eb'].
  { apply app_inj_length in Eab; [destruct Eab; auto|]. now rewrite map_length, seq_length. }
  split; [exact Eb'|]. intros j Hj. split; intros H.
  - rewrite Forall_forall in Hb. apply Hb. rewrite Eb'. apply in_map_iff. exists j. split; auto. apply in_seq. lia.
  - destruct (Nat.le_gt_cases (length a) j) as [|Hlt]; [auto|]. exfalso.
    rewrite Forall_forall in Ha. specialize (Ha (total (firstn j (complete_episodes l)) - 1)).
    assert (In (total (firstn j (complete_episodes l)) - 1) a) as Hin.
    { rewrite Ea. apply in_map_iff. exists j. split; auto. apply in_seq. lia. }
    specialize (Ha Hin). lia.
Qed.

Lemma skipn_concat (eps : list (log A)) : forall j, skipn (Z.to_nat (total (firstn j eps))) (concat eps) = concat (skipn j eps).
Proof.
  induction eps as [|e eps IH]; intros j; destruct j as [|j]; cbn [firstn skipn concat]; try reflexivity.
  unfold total in *. cbn [concat]. rewrite Nat2Z.id in *. rewrite app_length.
  rewrite skipn_app. rewrite skipn_all2 by lia. cbn [app].
  replace (length e + length (concat (firstn j eps)) - length e)%nat with (length (concat (firstn j eps))) by lia.
  specialize (IH j). now rewrite Nat2Z.id in IH.
Qed.

Lemma segment_concat (eps : list (log A)) rest j m : (j + m <= length eps)%nat ->
  segment (Z.to_nat (total (firstn j eps))) (Z.to_nat (total (firstn m (skipn j eps)))) (concat eps ++ rest)
  = concat (firstn m (skipn j eps)).
Proof.
  intros H. unfold segment.
  replace (concat eps) with (concat (firstn j eps) ++ concat (skipn j eps)) by (rewrite <- concat_app; now rewrite firstn_skipn).
  rewrite <- app_assoc. unfold total. rewrite !Nat2Z.id. rewrite skipn_app, skipn_all, Nat.sub_diag. cbn [app skipn].
  replace (concat (skipn j eps)) with (concat (firstn m (skipn j eps)) ++ concat (skipn m (skipn j eps))) by (rewrite <- concat_app; now rewrite firstn_skipn).
  rewrite <- app_assoc. rewrite firstn_app, firstn_all, Nat.sub_diag. cbn [firstn]. apply app_nil_r.
Qed.

(** Complete episodes contain no open timestep, so they read back unchanged. *)
Lemma view_complete l : exists rest, view l = concat (complete_episodes l) ++ rest.
Proof.
  destruct (list_rev_destruct l) as [->|(l0 & e & ->)]; [exists []; reflexivity|].
  rewrite view_snoc. destruct (ends e) eqn:Ee.
  - assert (open_rest (l0 ++ [e]) = []) as Ho by (now rewrite open_snoc, Ee).
    exists []. pose proof (log_split (l0 ++ [e])) as HL. rewrite Ho in HL. rewrite <- HL.
    unfold ends in Ee. destruct (snd e =? 0); [discriminate|]. now destruct e.
  - rewrite complete_snoc, Ee. 
    exists (open_rest l0 ++ [(fst e, if snd e =? 0 then 3 else snd e)]).
    rewrite app_assoc. now rewrite <- log_split.
Qed.

Lemma total_nonneg eps : 0 <= total eps.
Proof. unfold total. lia. Qed.

Lemma total_firstn_mono eps j k : (j <= k)%nat -> total (firstn j eps) <= total (firstn k eps).
Proof.
  intros H. replace (firstn j eps) with (firstn j (firstn k eps)) by (rewrite firstn_firstn; f_equal; lia).
  rewrite <- (firstn_skipn j (firstn k eps)) at 2. rewrite total_app. pose proof (total_nonneg (skipn j (firstn k eps))). lia.
Qed.

(** ** Episode count and recorded boundaries *)
Lemma ecount_spec zero cap l s : Inv zero cap l s ->
  -1 <= q_ecount s <= Z.of_nat (E l) /\
  (forall k, (k <= E l)%nat ->
     (Z.of_nat k <= q_ecount s <-> total (lastn k (complete_episodes l)) + len (open_rest l) < cap)) /\
  (forall r, 0 <= r <= q_ecount s ->
     gather (q_tind s) r =
     Ok ((total (firstn (Z.to_nat (Z.of_nat (E l) - q_ecount s + r)) (complete_episodes l)) - 1) mod cap)) /\
  (forall r, 0 <= r <= q_ecount s ->
     len l - cap <= total (firstn (Z.to_nat (Z.of_nat (E l) - q_ecount s + r)) (complete_episodes l)) - 1).
Proof.
  intros I. destruct I as [C1 Cc Cb Cp Ct Cti Cf CT CP CE CTI].
  destruct (bnds_suffix cap l C1) as (d & Hd & Eb & Hj).
  assert (len (bnds cap l) = Z.of_nat (S (E l)) - Z.of_nat d) as HL.
  { rewrite Eb, map_length, seq_length. lia. }
  split; [lia|]. split; [|split].
  - intros k Hk. specialize (Hj (E l - k)%nat ltac:(lia)).
    assert (total (complete_episodes l) = total (firstn (E l - k) (complete_episodes l)) + total (lastn k (complete_episodes l))) as HT.
    { unfold lastn. rewrite <- total_app. now rewrite firstn_skipn. }
    pose proof (log_total l). split; intros H1.
    + destruct Hj as [Hj _]. specialize (Hj ltac:(lia)). lia.
    + destruct Hj as [_ Hj]. specialize (Hj ltac:(lia)). lia.
  - intros r Hr. replace r with (Z.of_nat (Z.to_nat r)) at 1 by lia. apply CTI. rewrite Eb.
    apply (map_nth_error (fun j => total (firstn j (complete_episodes l)) - 1)).
    rewrite nth_error_nth' with (d := 0%nat) by (rewrite seq_length; lia). rewrite seq_nth by lia.
    f_equal. lia.
  - intros r Hr. apply Hj; lia.
Qed.

Lemma block_indices cap p0 p1 : 1 <= cap -> p0 <= p1 < p0 + cap ->
  map (fun i => i mod cap) (zrange (p0 mod cap + 1) (correct_limit cap (p0 mod cap + 1) (p1 mod cap + 1)))
  = map (fun i => i mod cap) (zrange (p0 + 1) (p1 + 1)).
Proof.
  intros Hc Hp. pose proof (Z.div_mod p0 cap ltac:(lia)) as HD. pose proof (Z.mod_pos_bound p0 cap ltac:(lia)) as HM.
  set (q := p0 / cap) in *. set (r := p0 mod cap) in *.
  assert (correct_limit cap (r + 1) (p1 mod cap + 1) = p1 + 1 - cap * q) as ->.
  { unfold correct_limit. destruct (Z.lt_ge_cases (r + (p1 - p0)) cap) as [H|H].
    - assert (p1 mod cap = r + (p1 - p0)) as ->.
      { symmetry. apply Z.mod_unique with (q := q); [left; lia|]. lia. }
      destruct (Z.ltb_spec (r + (p1 - p0) + 1) (r + 1)); lia.
    - assert (p1 mod cap = r + (p1 - p0) - cap) as ->.
      { symmetry. apply Z.mod_unique with (q := q + 1); [left; lia|]. lia. }
      destruct (Z.ltb_spec (r + (p1 - p0) - cap + 1) (r + 1)); lia. }
  replace (zrange (p0 + 1) (p1 + 1)) with (map (fun x => x + cap * q) (zrange (r + 1) (p1 + 1 - cap * q))).
  2:{ rewrite zrange_shift. f_equal; lia. }
  rewrite map_map. apply map_ext. intros x. rewrite Z.mul_comm. now rewrite Z.mod_add by lia.
Qed.

(** The timesteps of episodes number j .. j+m-1, all of whose boundaries are retained. *)
Lemma retrieve_episode_block zero cap l s j m :
  Inv zero cap l s -> (j + m <= E l)%nat ->
  len l - cap <= total (firstn j (complete_episodes l)) - 1 ->
  let p0 := total (firstn j (complete_episodes l)) - 1 in
  let p1 := total (firstn (j + m) (complete_episodes l)) - 1 in
  queue_retrieve s (map (fun i => i mod cap) (zrange (p0 mod cap + 1) (correct_limit cap (p0 mod cap + 1) (p1 mod cap + 1))))
  = Ok (concat (firstn m (skipn j (complete_episodes l)))).
Proof.
  intros I Hjm Hret p0 p1. pose proof (inv_cap1 _ _ _ _ I) as Hc.
  pose proof (total_firstn_mono (complete_episodes l) j (j + m) ltac:(lia)) as HM.
  pose proof (total_firstn_mono (complete_episodes l) (j + m) (E l) ltac:(lia)) as HM2. rewrite firstn_all in HM2.
  pose proof (log_total l) as HT.
  assert (total (firstn (j + m) (complete_episodes l)) = total (firstn j (complete_episodes l)) + total (firstn m (skipn j (complete_episodes l)))) as HS.
  { rewrite <- total_app. f_equal. apply firstn_plus. }
  pose proof (total_nonneg (firstn j (complete_episodes l))). pose proof (total_nonneg (firstn m (skipn j (complete_episodes l)))).
  rewrite block_indices by (unfold p0, p1; lia).
  set (a := Z.to_nat (total (firstn j (complete_episodes l)))).
  set (n := Z.to_nat (total (firstn m (skipn j (complete_episodes l))))).
  replace (p0 + 1) with (Z.of_nat a) by (unfold p0, a; lia).
  replace (p1 + 1) with (Z.of_nat a + Z.of_nat n) by (unfold p1, a, n; lia).
  rewrite (retrieve_run zero cap l) by (auto; unfold a, n; lia). f_equal.
  destruct (view_complete l) as (rest & ->). unfold a, n. now apply segment_concat.
Qed.

Lemma recent_episodes_ok zero cap l s n :
  Inv zero cap l s -> 1 <= q_ecount s -> 0 <= n ->
  exists idx, recent_episodes s n = Ok idx /\
  queue_retrieve s idx = Ok (concat (lastn (Z.to_nat (Z.min n (q_ecount s))) (complete_episodes l))).
Proof.
  intros I He Hn. destruct (ecount_spec _ _ _ _ I) as (Hr & _ & HT & HP).
  unfold recent_episodes. destruct (Z.leb_spec 1 (q_ecount s)); [|lia]. cbn [assert_ bind].
  set (m := Z.min n (q_ecount s)). rewrite !HT by lia. cbn [bind]. rewrite (inv_cap _ _ _ _ I).
  eexists. split; [reflexivity|].
  replace (Z.of_nat (E l) - q_ecount s + (q_ecount s - m)) with (Z.of_nat (E l) - m) by lia.
  replace (Z.of_nat (E l) - q_ecount s + q_ecount s) with (Z.of_nat (E l)) by lia.
  replace (Z.to_nat (Z.of_nat (E l))) with (Z.to_nat (Z.of_nat (E l) - m) + Z.to_nat m)%nat by lia.
  rewrite (retrieve_episode_block zero cap l s); auto.
  - unfold lastn. replace (E l - Z.to_nat m)%nat with (Z.to_nat (Z.of_nat (E l) - m)) by lia.
    rewrite firstn_all2; [reflexivity|]. rewrite skipn_length. lia.
  - lia.
  - specialize (HP (q_ecount s - m) ltac:(lia)).
    replace (Z.of_nat (E l) - q_ecount s + (q_ecount s - m)) with (Z.of_nat (E l) - m) in HP by lia. exact HP.
Qed.

Lemma retrieve_app s a b ra rb : queue_retrieve s a = Ok ra -> queue_retrieve s b = Ok rb ->
  queue_retrieve s (a ++ b) = Ok (ra ++ rb).
Proof.
  unfold queue_retrieve, gathers.
  assert (forall C (l : list C) x y rx ry, map_res (gather l) x = Ok rx -> map_res (gather l) y = Ok ry ->
     map_res (gather l) (x ++ y) = Ok (rx ++ ry) /\ length rx = length x) as G.
  { intros C l x. induction x as [|i x IH]; cbn; intros y rx ry Hx Hy.
    - injection Hx as <-. auto.
    - destruct (gather l i); [cbn in *|discriminate]. destruct (map_res (gather l) x) eqn:E; [cbn in *|discriminate].
      injection Hx as <-. destruct (IH y a1 ry eq_refl Hy) as [-> HL]. cbn. auto. }
  destruct (map_res (gather (q_pay s)) a) as [pa|] eqn:Ea; [cbn [bind]|discriminate].
  destruct (map_res (gather (q_term s)) a) as [ta|] eqn:Eta; [cbn [bind]|discriminate]. intros [= <-].
  destruct (map_res (gather (q_pay s)) b) as [pb|] eqn:Eb; [cbn [bind]|discriminate].
  destruct (map_res (gather (q_term s)) b) as [tb|] eqn:Etb; [cbn [bind]|discriminate]. intros [= <-].
  destruct (G _ _ _ _ _ _ Ea Eb) as [-> L1]. cbn [bind]. destruct (G _ _ _ _ _ _ Eta Etb) as [-> L2]. cbn [bind].
  f_equal. clear - L1 L2. rewrite <- L2 in L1. clear L2. revert ta L1.
  induction pa as [|x pa IH]; destruct ta as [|y ta]; cbn; intros; try discriminate; auto. f_equal. apply IH. lia.
Qed.

Lemma replay_episodes_ok zero cap l s n draws :
  Inv zero cap l s -> 1 <= q_ecount s -> Forall (fun d => 0 <= d < q_ecount s) draws ->
  exists idx, replay_episodes s n draws = Ok idx /\
  queue_retrieve s idx = Ok (concat (map (fun d => nth (Z.to_nat (Z.of_nat (E l) - q_ecount s + d)) (complete_episodes l) []) draws)).
Proof.
  intros I He Hd. destruct (ecount_spec _ _ _ _ I) as (Hr & _ & HT & HP).
  unfold replay_episodes. destruct (Z.leb_spec 1 (q_ecount s)); [|lia]. cbn [assert_ bind].
  set (B := fun r => (total (firstn (Z.to_nat (Z.of_nat (E l) - q_ecount s + r)) (complete_episodes l)) - 1) mod cap).
  assert (gathers (q_tind s) draws = Ok (map B draws)) as ->.
  { rewrite <- (map_id draws) at 1. apply gathers_map. intros d Hin. rewrite Forall_forall in Hd. apply HT.
    specialize (Hd _ Hin). lia. }
  cbn [bind].
  assert (gathers (q_tind s) (map (fun d => d + 1) draws) = Ok (map (fun d => B (d + 1)) draws)) as ->.
  { apply gathers_map. intros d Hin. rewrite Forall_forall in Hd. apply HT. specialize (Hd _ Hin). lia. }
  cbn [bind]. rewrite (inv_cap _ _ _ _ I). eexists. split; [reflexivity|].
  induction Hd as [|d draws Hd0 Hd IH]; [reflexivity|].
  cbn [map combine concat]. rewrite map_app. apply retrieve_app; [|apply IH]. cbn [fst snd]. unfold B.
  specialize (HP d ltac:(lia)). set (j := Z.to_nat (Z.of_nat (E l) - q_ecount s + d)) in *.
  replace (Z.to_nat (Z.of_nat (E l) - q_ecount s + (d + 1))) with (j + 1)%nat by lia.
  rewrite (retrieve_episode_block zero cap l s) by (auto; lia). f_equal.
  destruct (nth_error (complete_episodes l) j) as [ep|] eqn:Ej.
  - rewrite (nth_error_nth _ _ _ Ej). assert (firstn 1 (skipn j (complete_episodes l)) = [ep]) as ->; [|apply app_nil_r].
    apply nth_error_split in Ej as (l1 & l2 & -> & <-). rewrite skipn_app, skipn_all, Nat.sub_diag. reflexivity.
  - apply nth_error_None in Ej. lia.
Qed.

(** ** Context queries *)
Lemma iterate_res_snoc {B} n (f : B -> res B) x : iterate_res (S n) f x = do y <- iterate_res n f x; f y.
Proof.
  revert x. induction n as [|n IH]; intros x.
  - cbn. now destruct (f x).
  - change (iterate_res (S (S n)) f x) with (do y <- f x; iterate_res (S n) f y).
    cbn [iterate_res]. destruct (f x); [cbn [bind]|reflexivity]. apply IH.
Qed.

Lemma slot_prev cap p : 1 <= cap -> (p mod cap - 1) mod cap = (p - 1) mod cap.
Proof. intros. rewrite Zminus_mod_idemp_l. reflexivity. Qed.
Lemma slot_next cap p : 1 <= cap -> (p mod cap + 1) mod cap = (p + 1) mod cap.
Proof. intros. rewrite Zplus_mod_idemp_l. reflexivity. Qed.

Lemma ends_vt l i e : nth_error l i = Some e -> ends e = isb l (Z.of_nat i).
Proof. intros H. unfold ends, isb. now rewrite (nth_error_snd _ _ _ H). Qed.

Lemma pred_walk zero cap l s i h :
  Inv zero cap l s -> retained cap l i ->
  exists w L, iterate_res h (pred_body (q_cap s) (q_term s)) (walk_init (q_cap s) (Z.of_nat i mod cap)) = Ok w /\
    longest_back cap l h i L /\ w_len w = Z.of_nat L /\
    w_idx w = map (fun p => p mod cap) (zrange (Z.of_nat i - Z.of_nat h) (Z.of_nat i + 1)) /\
    w_mask w = repeat false (S h - L) ++ repeat true L.
Proof.
  intros I HR. pose proof I as I0. destruct I as [C1 Cc Cb Cp Ct Cti Cf CT CP CE CTI]. rewrite Cc.
  pose proof HR as [HR1 HR2].
  induction h as [|h (w & L & Ew & HB & Hlen & Hidx & Hmask)].
  - exists (walk_init cap (Z.of_nat i mod cap)), 1%nat.
    cbn [w_len w_idx w_mask walk_init iterate_res]. split; [reflexivity|]. split; [|split; [reflexivity|split; [|reflexivity]]].
    + split; [lia|]. split; [lia|]. split; [intros p Hp; replace p with i by lia; auto|]. split; [intros; lia|now left].
    + rewrite Zmod_mod. rewrite zrange_cons, zrange_nil by lia. cbn. now rewrite Z.sub_0_r.
  - rewrite iterate_res_snoc, Ew. cbn [bind]. unfold pred_body. rewrite Hidx.
    rewrite zrange_cons by lia. cbn [map hd].
    rewrite slot_prev by lia.
    assert (hd false (w_mask w) = (S h =? L)%nat) as Hhd.
    { rewrite Hmask. destruct HB as (HB1 & _). destruct (Nat.eqb_spec (S h) L) as [->|Hne].
      - rewrite Nat.sub_diag. destruct L; [lia|reflexivity].
      - destruct (S h - L)%nat eqn:Es; [lia|reflexivity]. }
    rewrite Hhd.
    destruct (gather_total (q_term s) ((Z.of_nat i - Z.of_nat h - 1) mod cap)) as (pt & Ept).
    { pose proof (Z.mod_pos_bound (Z.of_nat i - Z.of_nat h - 1) cap ltac:(lia)). lia. }
    rewrite Ept. cbn [bind].
    assert (forall b L', b = (S h <? L')%nat -> (L' = L \/ L' = S L /\ L = S h)%nat ->
       longest_back cap l (S h) i L' -> exists w' L0,
       Ok {| w_len := w_len w + (if b then 1 else 0);
             w_idx := (Z.of_nat i - Z.of_nat h - 1) mod cap :: (Z.of_nat i - Z.of_nat h) mod cap :: map (fun p => p mod cap) (zrange (Z.of_nat i - Z.of_nat h + 1) (Z.of_nat i + 1));
             w_mask := b :: w_mask w |} = Ok w' /\
       longest_back cap l (S h) i L0 /\ w_len w' = Z.of_nat L0 /\
       w_idx w' = map (fun p => p mod cap) (zrange (Z.of_nat i - Z.of_nat (S h)) (Z.of_nat i + 1)) /\
       w_mask w' = repeat false (S (S h) - L0) ++ repeat true L0) as Fin.
    { intros b L' Hb HL' HB'. exists {| w_len := w_len w + (if b then 1 else 0);
             w_idx := (Z.of_nat i - Z.of_nat h - 1) mod cap :: (Z.of_nat i - Z.of_nat h) mod cap :: map (fun p => p mod cap) (zrange (Z.of_nat i - Z.of_nat h + 1) (Z.of_nat i + 1));
             w_mask := b :: w_mask w |}, L'. split; [reflexivity|]. split; [auto|]. cbn [w_len w_idx w_mask].
      destruct HB as (HB1 & _).
      split; [|split].
      - destruct (Nat.ltb_spec (S h) L'); subst b; lia.
      - rewrite (zrange_cons (Z.of_nat i - Z.of_nat (S h))) by lia.
        rewrite (zrange_cons (Z.of_nat i - Z.of_nat (S h) + 1)) by lia. cbn [map].
        replace (Z.of_nat i - Z.of_nat (S h)) with (Z.of_nat i - Z.of_nat h - 1) by lia.
        replace (Z.of_nat i - Z.of_nat h - 1 + 1) with (Z.of_nat i - Z.of_nat h) by lia. reflexivity.
      - rewrite Hmask. destruct (Nat.ltb_spec (S h) L'); subst b.
        + destruct HL' as [->|[-> ->]]; [lia|]. rewrite !Nat.sub_diag. reflexivity.
        + destruct HL' as [->|[-> ->]]; [|lia]. replace (S (S h) - L)%nat with (S (S h - L)) by lia. reflexivity. }
    destruct HB as (HB1 & HB2 & HB3 & HB4 & HB5).
    destruct (Nat.eqb_spec (S h) L) as [EL|NL].
    + (* row still running *)
      rewrite andb_true_r.
      assert (Z.of_nat i - Z.of_nat h - 1 = Z.of_nat i - Z.of_nat L) as Epos by lia.
      destruct (Z.lt_ge_cases (Z.of_nat i - Z.of_nat L) (len l - cap)) as [Hout|Hin].
      * (* slot wraps to the newest timestep or the initial pseudo terminal *)
        assert (Z.of_nat i - Z.of_nat L = len l - cap - 1) as Ew1.
        { destruct (HB3 (i + 1 - L)%nat ltac:(lia)) as [_ H3]. lia. }
        rewrite Epos, Ew1 in Ept. replace (len l - cap - 1) with (len l - 1 - cap) in Ept by lia.
        rewrite Zmod_sub_cap in Ept by lia. rewrite CT in Ept by lia. injection Ept as <-.
        assert (0 < mt l (len l - 1)) as Hpos.
        { unfold mt. rewrite Z.eqb_refl. cbn [andb]. destruct (Z.eqb_spec (vt l (len l - 1)) 0); [lia|].
          pose proof (vt_range l (len l - 1) Cf). lia. }
        apply (Fin _ L).
        -- destruct (Z.ltb_spec 0 (mt l (len l - 1))); [|lia]. cbn [negb]. symmetry. apply Nat.ltb_ge. lia.
        -- now left.
        -- split; [lia|]. split; [lia|]. split; [auto|]. split; [auto|]. right. destruct (Nat.eq_dec L (S i)); [left; auto|]. right. left. intros [_ Hr]. lia.
      * rewrite Epos, CT in Ept by lia. injection Ept as <-.
        assert (mt l (Z.of_nat i - Z.of_nat L) = vt l (Z.of_nat i - Z.of_nat L)) as Emt.
        { unfold mt. destruct (Z.eqb_spec (Z.of_nat i - Z.of_nat L) (len l - 1)); [lia|]. reflexivity. }
        rewrite Emt in *.
        pose proof (vt_range l (Z.of_nat i - Z.of_nat L) Cf) as Hvr.
        destruct (Z.ltb_spec 0 (vt l (Z.of_nat i - Z.of_nat L))) as [Hb|Hb]; cbn [negb] in *.
        -- (* boundary *)
           apply (Fin false L).
           ++ symmetry. apply Nat.ltb_ge. lia.
           ++ now left.
           ++ split; [lia|]. split; [lia|]. split; [auto|]. split; [auto|]. right. destruct (Nat.eq_dec L (S i)); [left; auto|]. right. right.
              destruct (nth_error l (i - L)) as [e|] eqn:Ee; [|apply nth_error_None in Ee; lia].
              exists e. split; auto. rewrite (ends_vt _ _ _ Ee). unfold isb.
              replace (Z.of_nat (i - L)) with (Z.of_nat i - Z.of_nat L) by lia.
              destruct (Z.eqb_spec (vt l (Z.of_nat i - Z.of_nat L)) 0); [lia|reflexivity].
        -- (* one more *)
           assert (vt l (Z.of_nat i - Z.of_nat L) = 0) as Hv0 by lia.
           assert (0 <= Z.of_nat i - Z.of_nat L) as Hnn.
           { destruct (Z.eq_dec (Z.of_nat i - Z.of_nat L) (-1)) as [Em|]; [|lia]. rewrite Em in Hv0. cbn in Hv0. lia. }
           apply (Fin true (S L)).
           ++ symmetry. apply Nat.ltb_lt. lia.
           ++ right. split; auto.
           ++ split; [lia|]. split; [lia|]. split; [|split].
              ** intros p Hp. destruct (Nat.eq_dec p (i - L)) as [->|]; [split; lia|]. apply HB3. lia.
              ** intros p e Hp1 Hp2 He. destruct (Nat.eq_dec p (i - L)) as [->|].
                 --- rewrite (ends_vt _ _ _ He). unfold isb. replace (Z.of_nat (i - L)) with (Z.of_nat i - Z.of_nat L) by lia.
                     now rewrite Hv0.
                 --- apply (HB4 p e); auto. lia.
              ** left. lia.
    + (* row already stopped *)
      rewrite andb_false_r. apply (Fin false L).
      * symmetry. apply Nat.ltb_ge. lia.
      * now left.
      * split; [lia|]. split; [lia|]. split; [auto|]. split; [auto|].
        destruct HB5 as [HB5|HB5]; [lia|]. right. exact HB5.
Qed.

Lemma succ_walk zero cap l s i h :
  Inv zero cap l s -> retained cap l i ->
  exists w L, iterate_res h (succ_body (q_cap s) (q_term s)) (walk_init (q_cap s) (Z.of_nat i mod cap)) = Ok w /\
    longest_forward l h i L /\ w_len w = Z.of_nat L /\
    w_idx w = map (fun p => p mod cap) (zrange (Z.of_nat i) (Z.of_nat i + Z.of_nat h + 1)) /\
    w_mask w = repeat true L ++ repeat false (S h - L).
Proof.
  intros I HR. pose proof I as I0. destruct I as [C1 Cc Cb Cp Ct Cti Cf CT CP CE CTI]. rewrite Cc.
  pose proof HR as [HR1 HR2].
  induction h as [|h (w & L & Ew & HB & Hlen & Hidx & Hmask)].
  - exists (walk_init cap (Z.of_nat i mod cap)), 1%nat.
    cbn [w_len w_idx w_mask walk_init iterate_res]. split; [reflexivity|]. split; [|split; [reflexivity|split; [|reflexivity]]].
    + split; [lia|]. split; [lia|]. split; [intros; lia|now left].
    + rewrite Zmod_mod. rewrite zrange_cons, zrange_nil by lia. reflexivity.
  - rewrite iterate_res_snoc, Ew. cbn [bind]. unfold succ_body. rewrite Hidx.
    rewrite zrange_snoc by lia. rewrite map_app. cbn [map]. rewrite last_last.
    rewrite slot_next by lia.
    assert (last (w_mask w) false = (S h =? L)%nat) as Hhd.
    { rewrite Hmask. destruct HB as (HB1 & _). destruct (Nat.eqb_spec (S h) L) as [->|Hne].
      - rewrite Nat.sub_diag. cbn [repeat]. rewrite app_nil_r.
        destruct L as [|L']; [lia|]. rewrite repeat_S_snoc. apply last_last.
      - destruct (S h - L)%nat eqn:Es; [lia|]. rewrite repeat_S_snoc, app_assoc. apply last_last. }
    rewrite Hhd.
    destruct (gather_total (q_term s) ((Z.of_nat i + Z.of_nat h) mod cap)) as (pt & Ept).
    { pose proof (Z.mod_pos_bound (Z.of_nat i + Z.of_nat h) cap ltac:(lia)). lia. }
    rewrite Ept. cbn [bind].
    assert (forall b L', b = (S h <? L')%nat -> (L' = L \/ L' = S L /\ L = S h)%nat ->
       longest_forward l (S h) i L' -> exists w' L0,
       Ok {| w_len := w_len w + (if b then 1 else 0);
             w_idx := (map (fun p => p mod cap) (zrange (Z.of_nat i) (Z.of_nat i + Z.of_nat h)) ++ [(Z.of_nat i + Z.of_nat h) mod cap]) ++ [(Z.of_nat i + Z.of_nat h + 1) mod cap];
             w_mask := w_mask w ++ [b] |} = Ok w' /\
       longest_forward l (S h) i L0 /\ w_len w' = Z.of_nat L0 /\
       w_idx w' = map (fun p => p mod cap) (zrange (Z.of_nat i) (Z.of_nat i + Z.of_nat (S h) + 1)) /\
       w_mask w' = repeat true L0 ++ repeat false (S (S h) - L0)) as Fin.
    { intros b L' Hb HL' HB'. eexists. exists L'. split; [reflexivity|]. split; [auto|]. cbn [w_len w_idx w_mask].
      destruct HB as (HB1 & _).
      split; [|split].
      - destruct (Nat.ltb_spec (S h) L'); subst b; lia.
      - replace (Z.of_nat i + Z.of_nat (S h) + 1) with (Z.of_nat i + Z.of_nat h + 1 + 1) by lia.
        rewrite !zrange_snoc by lia. rewrite !map_app. reflexivity.
      - rewrite Hmask. destruct (Nat.ltb_spec (S h) L'); subst b.
        + destruct HL' as [->|[-> ->]]; [lia|]. rewrite !Nat.sub_diag. cbn [repeat]. rewrite !app_nil_r. symmetry. apply (repeat_S_snoc true (S h)).
        + destruct HL' as [->|[-> ->]]; [|lia]. replace (S (S h) - L)%nat with (S (S h - L)) by lia.
          rewrite repeat_S_snoc, app_assoc. reflexivity. }
    destruct HB as (HB1 & HB2 & HB4 & HB5).
    destruct (Nat.eqb_spec (S h) L) as [EL|NL].
    + rewrite andb_true_r. rewrite CT in Ept by lia. injection Ept as <-.
      unfold mt in *. destruct (Z.eqb_spec (Z.of_nat i + Z.of_nat h) (len l - 1)) as [En|En]; cbn [andb] in *.
      * (* newest timestep *)
        match goal with |- context [negb ?c] => assert (c = true) as -> end.
        { destruct (Z.eqb_spec (vt l (Z.of_nat i + Z.of_nat h)) 0); [reflexivity|].
          pose proof (vt_range l (Z.of_nat i + Z.of_nat h) Cf). lia. }
        cbn [negb] in *. apply (Fin false L).
        -- symmetry. apply Nat.ltb_ge. lia.
        -- now left.
        -- split; [lia|]. split; [lia|]. split; [auto|]. right. left. lia.
      * pose proof (vt_range l (Z.of_nat i + Z.of_nat h) Cf) as Hvr.
        destruct (nth_error l (i + h)) as [e|] eqn:Ee; [|apply nth_error_None in Ee; lia].
        pose proof (ends_vt _ _ _ Ee) as Hee. unfold isb in Hee.
        replace (Z.of_nat (i + h)) with (Z.of_nat i + Z.of_nat h) in Hee by lia.
        destruct (Z.ltb_spec 0 (vt l (Z.of_nat i + Z.of_nat h))) as [Hb|Hb]; cbn [negb] in *.
        -- apply (Fin false L).
           ++ symmetry. apply Nat.ltb_ge. lia.
           ++ now left.
           ++ split; [lia|]. split; [lia|]. split; [auto|]. right. right. exists e.
              replace (i + L - 1)%nat with (i + h)%nat by lia. split; auto. rewrite Hee. lia.
        -- apply (Fin true (S L)).
           ++ symmetry. apply Nat.ltb_lt. lia.
           ++ right. split; auto.
           ++ split; [lia|]. split; [lia|]. split; [|left; lia].
              intros p e' Hp1 Hp2 He'. destruct (Nat.eq_dec p (i + h)) as [->|].
              ** assert (e' = e) as -> by congruence. rewrite Hee. lia.
              ** apply (HB4 p e'); auto. lia.
    + rewrite andb_false_r. apply (Fin false L).
      * symmetry. apply Nat.ltb_ge. lia.
      * now left.
      * split; [lia|]. split; [lia|]. split; [auto|].
        destruct HB5 as [HB5|HB5]; [lia|]. right. exact HB5.
Qed.

(** Flattening of rows *)
Lemma mask_concat {B} (rows : list (list B)) (masks : list (list bool)) :
  Forall2 (fun r m => length r = length m) rows masks ->
  boolean_mask (concat rows) (concat masks) = concat (map (fun rm => boolean_mask (fst rm) (snd rm)) (combine rows masks)).
Proof.
  induction 1 as [|r m rows masks H _ IH]; [reflexivity|]. cbn. rewrite mask_app by auto. now rewrite IH.
Qed.

Lemma mask_true {B} (l : list B) : boolean_mask l (repeat true (length l)) = l.
Proof. induction l as [|x l IH]; [reflexivity|]. cbn. now rewrite IH. Qed.

Lemma gathers_firsts {B} (rows : list (list B)) (d : B) : Forall (fun r => r <> []) rows -> forall pre,
  gathers (pre ++ concat rows) (cumsum_excl_from (len pre) (map (fun r => len r) rows)) = Ok (map (hd d) rows).
Proof.
  induction 1 as [|r rows Hr _ IH]; intros pre; [reflexivity|].
  cbn [map cumsum_excl_from concat]. unfold gathers in *. cbn [map_res].
  destruct r as [|x r]; [congruence|].
  assert (gather (pre ++ (x :: r) ++ concat rows) (len pre) = Ok x) as ->.
  { apply gather_of_nat. rewrite nth_error_app2, Nat.sub_diag by lia. reflexivity. }
  cbn [bind]. specialize (IH (pre ++ x :: r)). rewrite <- app_assoc, app_length in IH.
  replace (Z.of_nat (length pre + length (x :: r))) with (len pre + len (x :: r)) in IH by lia.
  rewrite IH. reflexivity.
Qed.

Lemma gathers_lasts {B} (rows : list (list B)) (d : B) : Forall (fun r => r <> []) rows -> forall pre,
  gathers (pre ++ concat rows) (map (fun e => e - 1) (cumsum_from (len pre) (map (fun r => len r) rows))) = Ok (map (fun r => last r d) rows).
Proof.
  induction 1 as [|r rows Hr _ IH]; intros pre; [reflexivity|].
  cbn [map cumsum_from concat]. unfold gathers in *. cbn [map_res].
  destruct (list_rev_destruct r) as [->|(r0 & x & ->)]; [congruence|].
  assert (gather (pre ++ (r0 ++ [x]) ++ concat rows) (len pre + len (r0 ++ [x]) - 1) = Ok x) as ->.
  { rewrite app_length. cbn [length]. replace (len pre + Z.of_nat (length r0 + 1) - 1) with (Z.of_nat (length pre + length r0)) by lia.
    apply gather_of_nat. rewrite nth_error_app2 by lia. replace (length pre + length r0 - length pre)%nat with (length r0) by lia.
    rewrite <- app_assoc, nth_error_app2, Nat.sub_diag by lia. reflexivity. }
  cbn [bind]. specialize (IH (pre ++ r0 ++ [x])). rewrite <- app_assoc, (app_length pre) in IH.
  replace (Z.of_nat (length pre + length (r0 ++ [x]))) with (len pre + len (r0 ++ [x])) in IH by lia.
  rewrite IH. rewrite last_last. reflexivity.
Qed.

Lemma retrieve_concat s rows ess :
  Forall2 (fun r es => queue_retrieve s r = Ok es) rows ess -> queue_retrieve s (concat rows) = Ok (concat ess).
Proof.
  induction 1 as [|r es rows ess H _ IH]; [reflexivity|]. cbn. now apply retrieve_app.
Qed.

Lemma retrieve_singles s idx es :
  Forall2 (fun i e => queue_retrieve s [i] = Ok [e]) idx es -> queue_retrieve s idx = Ok es.
Proof.
  induction 1 as [|i e idx es H _ IH]; [reflexivity|]. apply (retrieve_app s [i] idx [e] es H IH).
Qed.

Lemma retrieve_at zero cap l s i e : Inv zero cap l s -> retained cap l i -> nth_error (view l) i = Some e ->
  queue_retrieve s [Z.of_nat i mod cap] = Ok [e].
Proof.
  intros I HR He. unfold queue_retrieve, gathers. cbn [map_res].
  destruct (read_pos _ _ _ _ _ _ I HR He) as [-> ->]. cbn. now destruct e.
Qed.

Lemma Forall2_exists {B C} (R : B -> C -> Prop) xs : (forall x, In x xs -> exists y, R x y) -> exists ys, Forall2 R xs ys.
Proof.
  induction xs as [|x xs IH]; intros H; [exists []; constructor|].
  destruct (H x (or_introl eq_refl)) as (y & Hy). destruct IH as (ys & Hys); [intros; apply H; now right|].
  exists (y :: ys). now constructor.
Qed.

Lemma predecessors_ok zero cap l s is h :
  Inv zero cap l s -> Forall (retained cap l) is ->
  exists Ls, Forall2 (longest_back cap l h) is Ls /\
    exists firsts, Forall2 (fun iL e => nth_error (view l) (fst iL + 1 - snd iL) = Some e) (combine is Ls) firsts /\
    queue_predecessors s (map (fun i => Z.of_nat i mod cap) is) (Z.of_nat h) =
    Ok (cumsum_excl (map Z.of_nat Ls), map Z.of_nat Ls,
        concat (map (fun iL => segment (fst iL + 1 - snd iL) (snd iL) (view l)) (combine is Ls)), firsts).
Proof.
  intros I HR. pose proof (inv_cap1 _ _ _ _ I) as Hc1.
  assert (exists wL, Forall2 (fun i wl =>
     iterate_res h (pred_body (q_cap s) (q_term s)) (walk_init (q_cap s) (Z.of_nat i mod cap)) = Ok (fst wl) /\
     longest_back cap l h i (snd wl) /\ w_len (fst wl) = Z.of_nat (snd wl) /\
     w_idx (fst wl) = map (fun p => p mod cap) (zrange (Z.of_nat i - Z.of_nat h) (Z.of_nat i + 1)) /\
     w_mask (fst wl) = repeat false (S h - snd wl) ++ repeat true (snd wl)) is wL) as (wL & HF).
  { apply Forall2_exists. intros i Hi. rewrite Forall_forall in HR.
    destruct (pred_walk _ _ _ _ i h I (HR i Hi)) as (w & L & H). exists (w, L). exact H. }
  exists (map snd wL).
  assert (Forall2 (longest_back cap l h) is (map snd wL)) as HLB.
  { clear -HF. induction HF as [|i wl is wL H _ IH]; cbn; constructor; auto. apply H. }
  split; [exact HLB|].
  assert (map_res (fun i => iterate_res (Z.to_nat (Z.of_nat h)) (pred_body (q_cap s) (q_term s)) (walk_init (q_cap s) i))
            (map (fun i => Z.of_nat i mod cap) is) = Ok (map fst wL)) as Erows.
  { rewrite Nat2Z.id. apply map_res_Forall2. clear -HF. induction HF as [|i wl is wL H _ IH]; cbn; constructor; auto. apply H. }
  assert (map w_len (map fst wL) = map Z.of_nat (map snd wL)) as Elen.
  { clear -HF. induction HF as [|i wl is wL H _ IH]; cbn; auto. f_equal; auto. apply H. }
  set (rows := map (fun iL => map (fun p => p mod cap) (zrange (Z.of_nat (fst iL + 1 - snd iL)) (Z.of_nat (fst iL + 1 - snd iL) + Z.of_nat (snd iL)))) (combine is (map snd wL))).
  assert (boolean_mask (concat (map w_idx (map fst wL))) (concat (map w_mask (map fst wL))) = concat rows) as Epidx.
  { rewrite mask_concat.
    - f_equal. unfold rows. clear -HF Hc1. induction HF as [|i wl is wL (H1 & HB & H2 & H3 & H4) _ IH]; cbn; auto.
      f_equal; auto. rewrite H3, H4. destruct HB as (B1 & B2 & _). set (L := snd wl) in *.
      rewrite (zrange_app _ (Z.of_nat (i + 1 - L)) _) by lia. rewrite map_app, mask_app.
      2:{ rewrite map_length, zrange_length, repeat_length. lia. }
      rewrite mask_false. cbn [app]. replace (Z.of_nat (i + 1 - L) + Z.of_nat L) with (Z.of_nat i + 1) by lia.
      set (r := map (fun p => p mod cap) (zrange (Z.of_nat (i + 1 - L)) (Z.of_nat i + 1))).
      replace L with (length r). 2:{ unfold r. rewrite map_length, zrange_length. lia. }
      apply mask_true.
    - clear -HF. induction HF as [|i wl is wL (H1 & HB & H2 & H3 & H4) _ IH]; cbn; constructor; auto.
      rewrite H3, H4, map_length, zrange_length, app_length, !repeat_length. destruct HB as (B1 & _). lia. }
  assert (map (fun r : list Z => len r) rows = map Z.of_nat (map snd wL)) as Erl.
  { unfold rows. clear -HLB. induction HLB as [|i L is Ls HB _ IH]; cbn; auto. f_equal; auto.
    rewrite map_length, zrange_length. lia. }
  assert (Forall (fun r : list Z => r <> []) rows) as Hne.
  { unfold rows. clear -HLB. induction HLB as [|i L is Ls HB _ IH]; cbn; constructor; auto.
    destruct HB as (B1 & _). rewrite zrange_cons by lia. discriminate. }
  assert (queue_retrieve s (concat rows) = Ok (concat (map (fun iL => segment (fst iL + 1 - snd iL) (snd iL) (view l)) (combine is (map snd wL))))) as Eseq.
  { apply retrieve_concat. unfold rows. clear -HLB I HR. revert HR. induction HLB as [|i L is Ls HB _ IH]; cbn; intros HR; constructor.
    - inversion_clear HR as [|? ? [R1 R2] _]. destruct HB as (B1 & B2 & B3 & _). apply (retrieve_run zero cap l); auto; [lia|].
      destruct (B3 (i + 1 - L)%nat ltac:(lia)) as [_ R3]. lia.
    - apply IH. now inversion_clear HR. }
  assert (exists firsts, Forall2 (fun iL e => nth_error (view l) (fst iL + 1 - snd iL) = Some e) (combine is (map snd wL)) firsts /\
     queue_retrieve s (map (hd 0) rows) = Ok firsts) as (firsts & HFi & Ef).
  { unfold rows. clear -HLB I HR. revert HR. induction HLB as [|i L is Ls HB _ IH]; cbn; intros HR.
    - exists []. split; constructor.
    - inversion_clear HR as [|? ? [R1 R2] HR']. destruct (IH HR') as (fs & F1 & F2).
      destruct HB as (B1 & B2 & B3 & _).
      destruct (nth_error (view l) (i + 1 - L)) as [e|] eqn:Ee.
      2:{ apply nth_error_None in Ee. rewrite view_length in Ee. lia. }
      exists (e :: fs). split; [constructor; auto|].
      rewrite zrange_cons by lia. cbn [map hd].
      apply (retrieve_app s [_] _ [e] fs); auto. eapply retrieve_at; eauto. apply B3. lia. }
  exists firsts. split; [exact HFi|].
  unfold queue_predecessors. rewrite Erows. cbn [bind]. rewrite Epidx, Elen, Eseq. cbn [bind].
  rewrite <- Erl. unfold cumsum_excl.
  pose proof (gathers_firsts rows 0 Hne []) as HG. cbn [app length Z.of_nat] in HG. rewrite HG. cbn [bind].
  rewrite Ef. reflexivity.
Qed.

Lemma successors_ok zero cap l s is h :
  Inv zero cap l s -> Forall (retained cap l) is ->
  exists Ls, Forall2 (longest_forward l h) is Ls /\
    exists lasts, Forall2 (fun iL e => nth_error (view l) (fst iL + snd iL - 1) = Some e) (combine is Ls) lasts /\
    queue_successors s (map (fun i => Z.of_nat i mod cap) is) (Z.of_nat h) =
    Ok (cumsum_excl (map Z.of_nat Ls), map Z.of_nat Ls,
        concat (map (fun iL => segment (fst iL) (snd iL) (view l)) (combine is Ls)), lasts).
Proof.
  intros I HR. pose proof (inv_cap1 _ _ _ _ I) as Hc1.
  assert (exists wL, Forall2 (fun i wl =>
     iterate_res h (succ_body (q_cap s) (q_term s)) (walk_init (q_cap s) (Z.of_nat i mod cap)) = Ok (fst wl) /\
     longest_forward l h i (snd wl) /\ w_len (fst wl) = Z.of_nat (snd wl) /\
     w_idx (fst wl) = map (fun p => p mod cap) (zrange (Z.of_nat i) (Z.of_nat i + Z.of_nat h + 1)) /\
     w_mask (fst wl) = repeat true (snd wl) ++ repeat false (S h - snd wl)) is wL) as (wL & HF).
  { apply Forall2_exists. intros i Hi. rewrite Forall_forall in HR.
    destruct (succ_walk _ _ _ _ i h I (HR i Hi)) as (w & L & H). exists (w, L). exact H. }
  exists (map snd wL).
  assert (Forall2 (longest_forward l h) is (map snd wL)) as HLB.
  { clear -HF. induction HF as [|i wl is wL H _ IH]; cbn; constructor; auto. apply H. }
  split; [exact HLB|].
  assert (map_res (fun i => iterate_res (Z.to_nat (Z.of_nat h)) (succ_body (q_cap s) (q_term s)) (walk_init (q_cap s) i))
            (map (fun i => Z.of_nat i mod cap) is) = Ok (map fst wL)) as Erows.
  { rewrite Nat2Z.id. apply map_res_Forall2. clear -HF. induction HF as [|i wl is wL H _ IH]; cbn; constructor; auto. apply H. }
  assert (map w_len (map fst wL) = map Z.of_nat (map snd wL)) as Elen.
  { clear -HF. induction HF as [|i wl is wL H _ IH]; cbn; auto. f_equal; auto. apply H. }
  set (rows := map (fun iL => map (fun p => p mod cap) (zrange (Z.of_nat (fst iL)) (Z.of_nat (fst iL) + Z.of_nat (snd iL)))) (combine is (map snd wL))).
  assert (boolean_mask (concat (map w_idx (map fst wL))) (concat (map w_mask (map fst wL))) = concat rows) as Epidx.
  { rewrite mask_concat.
    - f_equal. unfold rows. clear -HF Hc1. induction HF as [|i wl is wL (H1 & HB & H2 & H3 & H4) _ IH]; cbn; auto.
      f_equal; auto. rewrite H3, H4. destruct HB as (B1 & B2 & _). set (L := snd wl) in *.
      rewrite (zrange_app _ (Z.of_nat i + Z.of_nat L) _) by lia. rewrite map_app, mask_app.
      2:{ rewrite map_length, zrange_length, repeat_length. lia. }
      rewrite mask_false, app_nil_r.
      set (r := map (fun p => p mod cap) (zrange (Z.of_nat i) (Z.of_nat i + Z.of_nat L))).
      replace L with (length r). 2:{ unfold r. rewrite map_length, zrange_length. lia. }
      apply mask_true.
    - clear -HF. induction HF as [|i wl is wL (H1 & HB & H2 & H3 & H4) _ IH]; cbn; constructor; auto.
      rewrite H3, H4, map_length, zrange_length, app_length, !repeat_length. destruct HB as (B1 & _). lia. }
  assert (map (fun r : list Z => len r) rows = map Z.of_nat (map snd wL)) as Erl.
  { unfold rows. clear -HLB. induction HLB as [|i L is Ls HB _ IH]; cbn; auto. f_equal; auto.
    rewrite map_length, zrange_length. lia. }
  assert (Forall (fun r : list Z => r <> []) rows) as Hne.
  { unfold rows. clear -HLB. induction HLB as [|i L is Ls HB _ IH]; cbn; constructor; auto.
    destruct HB as (B1 & _). rewrite zrange_cons by lia. discriminate. }
  assert (queue_retrieve s (concat rows) = Ok (concat (map (fun iL => segment (fst iL) (snd iL) (view l)) (combine is (map snd wL))))) as Eseq.
  { apply retrieve_concat. unfold rows. clear -HLB I HR. revert HR. induction HLB as [|i L is Ls HB _ IH]; cbn; intros HR; constructor.
    - inversion_clear HR as [|? ? [R1 R2] _]. destruct HB as (B1 & B2 & _). apply (retrieve_run zero cap l); auto.
    - apply IH. now inversion_clear HR. }
  assert (exists lasts, Forall2 (fun iL e => nth_error (view l) (fst iL + snd iL - 1) = Some e) (combine is (map snd wL)) lasts /\
     queue_retrieve s (map (fun r => last r 0) rows) = Ok lasts) as (lasts & HFi & Ef).
  { unfold rows. clear -HLB I HR. revert HR. induction HLB as [|i L is Ls HB _ IH]; cbn; intros HR.
    - exists []. split; constructor.
    - inversion_clear HR as [|? ? [R1 R2] HR']. destruct (IH HR') as (fs & F1 & F2).
      destruct HB as (B1 & B2 & _).
      destruct (nth_error (view l) (i + L - 1)) as [e|] eqn:Ee.
      2:{ apply nth_error_None in Ee. rewrite view_length in Ee. lia. }
      exists (e :: fs). split; [constructor; auto|].
      replace (Z.of_nat i + Z.of_nat L) with (Z.of_nat (i + L - 1) + 1) by lia.
      rewrite zrange_snoc by lia. rewrite map_app. cbn [map]. rewrite last_last.
      apply (retrieve_app s [_] _ [e] fs); auto. eapply retrieve_at; eauto. split; lia. }
  exists lasts. split; [exact HFi|].
  unfold queue_successors. rewrite Erows. cbn [bind]. rewrite Epidx, Elen, Eseq. cbn [bind].
  rewrite <- Erl. unfold cumsum.
  pose proof (gathers_lasts rows 0 Hne []) as HG. cbn [app length Z.of_nat] in HG. rewrite HG. cbn [bind].
  rewrite Ef. reflexivity.
Qed.

End Q.
