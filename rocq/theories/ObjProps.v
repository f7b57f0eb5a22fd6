(** What the objectives reward (C86 - C89). *)

From Coq Require Import String List Arith Lia Reals Lra Bool.
From Verif Require Import Base OptVec ParModel SolveModel OptModel DistModel DistProofs ObjModel.
Import ListNotations.
Open Scope R_scope.

(** ** Small facts *)
Lemma clip_id lo hi x : lo <= x <= hi -> clip_by_value lo hi x = x.
Proof. intros [A B]. unfold clip_by_value. rewrite Rmax_left by lra. apply Rmin_left. lra. Qed.
Lemma clip_over lo hi x : lo <= hi -> hi <= x -> clip_by_value lo hi x = hi.
Proof. intros A B. unfold clip_by_value. rewrite Rmax_left by lra. apply Rmin_right. lra. Qed.
Lemma clip_under lo hi x : lo <= hi -> x <= lo -> clip_by_value lo hi x = lo.
Proof. intros A B. unfold clip_by_value. rewrite Rmax_right by lra. apply Rmin_left. lra. Qed.

(** largest log-ratio distinguished (util.epsilon = 1e-6) *)
Definition largest : R := ln 1000000.
Lemma ln_eps : ln epsilon6 = - largest.
Proof. unfold epsilon6, largest. apply ln_Rinv. lra. Qed.
Lemma largest_pos : 0 < largest.
Proof. unfold largest. rewrite <- ln_1. apply ln_increasing; lra. Qed.
Lemma clip_log_id x : - largest <= x <= largest -> clip_log x = x.
Proof. intros H. unfold clip_log. rewrite ln_eps, Ropp_involutive. now apply clip_id. Qed.
Lemma exp_clip_log_pos x : 0 < exp (clip_log x).
Proof. apply exp_pos. Qed.

(** ** Specification *)
(** what is maximized, times the reward: likelihood ratio or log-likelihood *)
Definition target (importance : bool) (l ref : R) : R := if importance then exp (l - ref) else l.
(** ends of the interval in which it may move *)
Definition upper (importance : bool) (c ref : R) : R := if importance then 1 + c else ref + ln (1 + c).
Definition lower (importance : bool) (c ref : R) : R := if importance then / (1 + c) else ref - ln (1 + c).
(** reach of the clipping for numerical stability *)
Definition stable (importance : bool) (l ref : R) : Prop := importance = true -> - largest <= l - ref <= largest.

Lemma interval importance c ref : 0 <= c -> lower importance c ref <= upper importance c ref.
Proof.
  intros C. destruct importance; cbn.
  - apply Rle_trans with 1; [|lra]. rewrite <- Rinv_1. apply Rinv_le_contravar; lra.
  - assert (0 <= ln (1 + c)); [|lra]. destruct (Req_dec c 0) as [->|N].
    + rewrite Rplus_0_r, ln_1. lra.
    + left. rewrite <- ln_1. apply ln_increasing; lra.
Qed.

Lemma pg_none importance l ref r : stable importance l ref ->
  pg_entry importance None l ref r = - (target importance l ref * r).
Proof.
  intros S. unfold pg_entry, target. destruct importance; [|reflexivity].
  now rewrite clip_log_id by (apply S; reflexivity).
Qed.

Lemma pg_some importance c l ref r : stable importance l ref ->
  pg_entry importance (Some c) l ref r =
  - Rmin (target importance l ref * r) (clip_by_value (lower importance c ref) (upper importance c ref) (target importance l ref) * r).
Proof.
  intros S. unfold pg_entry, target, lower, upper. destruct importance; [|reflexivity].
  now rewrite clip_log_id by (apply S; reflexivity).
Qed.

(** ** C86: clipping of the policy gradient objective *)
(** Clipping never makes the loss smaller. *)
Theorem C86_pessimistic importance c l ref r :
  pg_entry importance None l ref r <= pg_entry importance (Some c) l ref r.
Proof.
  unfold pg_entry. cbv zeta.
  match goal with |- _ <= - Rmin ?a ?b => pose proof (Rmin_l a b) end. lra.
Qed.

(** Inside the interval, and outside of it on the side from which the reward pulls back, it
    changes nothing. *)
Theorem C86_unclipped importance c l ref r : 0 <= c -> stable importance l ref ->
  (lower importance c ref <= target importance l ref <= upper importance c ref
   \/ (0 <= r /\ target importance l ref <= lower importance c ref)
   \/ (r <= 0 /\ upper importance c ref <= target importance l ref)) ->
  pg_entry importance (Some c) l ref r = - (target importance l ref * r).
Proof.
  intros C S H. rewrite pg_some by exact S. pose proof (interval importance c ref C) as I.
  f_equal. destruct H as [H|[[A B]|[A B]]].
  - rewrite clip_id by exact H. apply Rmin_left. lra.
  - rewrite clip_under by (exact I || exact B). apply Rmin_left. apply Rmult_le_compat_r; lra.
  - rewrite clip_over by (exact I || exact B). apply Rmin_left.
    apply Rmult_le_compat_neg_l with (r := r) in B; lra.
Qed.

(** On the other side the loss is flat: there is nothing to gain from moving further away. *)
Theorem C86_flat importance c l ref r : 0 <= c -> stable importance l ref ->
  (0 <= r -> upper importance c ref <= target importance l ref ->
   pg_entry importance (Some c) l ref r = - (upper importance c ref * r))
  /\ (r <= 0 -> target importance l ref <= lower importance c ref ->
      pg_entry importance (Some c) l ref r = - (lower importance c ref * r)).
Proof.
  intros C S. rewrite pg_some by exact S. pose proof (interval importance c ref C) as I.
  split; intros A B; f_equal.
  - rewrite clip_over by (exact I || exact B). apply Rmin_right. apply Rmult_le_compat_r; lra.
  - rewrite clip_under by (exact I || exact B). apply Rmin_right.
    apply Rmult_le_compat_neg_l with (r := r) in B; lra.
Qed.

(** Hence no change of the likelihood can push the loss below the one at the end of the interval. *)
Theorem C86_gain importance c l ref r : 0 <= c -> stable importance l ref ->
  (0 <= r -> - (upper importance c ref * r) <= pg_entry importance (Some c) l ref r)
  /\ (r <= 0 -> - (lower importance c ref * r) <= pg_entry importance (Some c) l ref r).
Proof.
  intros C S. pose proof (interval importance c ref C) as I.
  destruct (C86_flat importance c l ref r C S) as [F1 F2].
  split; intros A.
  - destruct (Rle_dec (upper importance c ref) (target importance l ref)) as [B|B].
    + rewrite F1 by assumption. lra.
    + assert (target importance l ref * r <= upper importance c ref * r) by (apply Rmult_le_compat_r; lra).
      pose proof (C86_pessimistic importance c l ref r) as P. rewrite pg_none in P by exact S. lra.
  - destruct (Rle_dec (target importance l ref) (lower importance c ref)) as [B|B].
    + rewrite F2 by assumption. lra.
    + assert (target importance l ref * r <= lower importance c ref * r).
      { apply Rnot_le_lt in B. apply Rlt_le in B. apply Rmult_le_compat_neg_l with (r := r) in B; lra. }
      pose proof (C86_pessimistic importance c l ref r) as P. rewrite pg_none in P by exact S. lra.
Qed.

Lemma derivable_local f g x d delta : 0 < delta -> (forall y, Rabs (y - x) < delta -> f y = g y) ->
  derivable_pt_lim g x d -> derivable_pt_lim f x d.
Proof.
  intros P E D eps He. destruct (D eps He) as [del Hd].
  assert (Q : 0 < Rmin delta del) by (apply Rmin_glb_lt; [exact P|apply cond_pos]).
  exists (mkposreal _ Q). cbn. intros h N L.
  assert (Rabs h < delta /\ Rabs h < del) as [L1 L2].
  { split; eapply Rlt_le_trans; try exact L; [apply Rmin_l|apply Rmin_r]. }
  rewrite (E (x + h)), (E x).
  - now apply Hd.
  - unfold Rminus. rewrite Rplus_opp_r, Rabs_R0. exact P.
  - replace (x + h - x) with h by ring. exact L1.
Qed.

(** Where the policy is still the one the references were taken from, the slope of the loss is the
    one of the plain policy gradient, - reward, in all variants. *)
Theorem C86_slope importance clipping ref r :
  match clipping with Some c => 0 < c | None => True end ->
  derivable_pt_lim (fun l => pg_entry importance clipping l ref r) ref (- r).
Proof.
  intros C.
  assert (B : exists delta, 0 < delta /\ delta <= largest /\ forall l, Rabs (l - ref) < delta ->
    pg_entry importance clipping l ref r = - (target importance l ref * r)).
  { pose proof largest_pos as LP. destruct clipping as [c|].
    - assert (0 < ln (1 + c)) as LC by (rewrite <- ln_1; apply ln_increasing; lra).
      exists (Rmin largest (ln (1 + c))). repeat split; [now apply Rmin_glb_lt|apply Rmin_l|].
      intros l H.
      assert (Rabs (l - ref) < largest) as H1 by (eapply Rlt_le_trans; [exact H|apply Rmin_l]).
      assert (Rabs (l - ref) < ln (1 + c)) as H2 by (eapply Rlt_le_trans; [exact H|apply Rmin_r]).
      apply Rabs_def2 in H1. apply Rabs_def2 in H2.
      apply C86_unclipped; [lra|intros _; lra|]. left. destruct importance; cbn; [|lra].
      split.
      + rewrite <- (exp_ln (/ (1 + c))) by (apply Rinv_0_lt_compat; lra).
        rewrite ln_Rinv by lra. left. apply exp_increasing. lra.
      + rewrite <- (exp_ln (1 + c)) by lra. left. apply exp_increasing. lra.
    - exists largest. repeat split; [exact LP|lra|]. intros l H. apply Rabs_def2 in H.
      apply pg_none. intros _. lra. }
  destruct B as (delta & P & _ & E).
  apply derivable_local with (1 := P) (2 := E).
  destruct importance; cbn.
  - replace (- r) with (- (exp (ref - ref) * (1 - 0) * r + exp (ref - ref) * 0)).
    2:{ replace (ref - ref) with 0 by ring. rewrite exp_0. ring. }
    apply (derivable_pt_lim_opp (fun l => exp (l - ref) * r)).
    apply (derivable_pt_lim_mult (fun l => exp (l - ref)) (fct_cte r)).
    + apply (derivable_pt_lim_comp (fun l => l - ref) exp).
      * apply (derivable_pt_lim_minus id (fct_cte ref)); [apply derivable_pt_lim_id|apply derivable_pt_lim_const].
      * apply derivable_pt_lim_exp.
    + apply derivable_pt_lim_const.
  - replace (- r) with (- (1 * r + ref * 0)) by ring.
    apply (derivable_pt_lim_opp (fun l => l * r)).
    apply (derivable_pt_lim_mult id (fct_cte r)); [apply derivable_pt_lim_id|apply derivable_pt_lim_const].
Qed.

(** A clipping value of 0.0 is accepted (policy_gradient.py 63: min_value=0.0), although documented
    as > 0.0; then the objective is not differentiable at the reference, and for a positive reward
    increasing the likelihood gains nothing. *)
Theorem C86_zero_refuted : ~ (forall importance clipping ref r, match clipping with Some c => 0 <= c | None => True end ->
  exists l, ref < l /\ forall l', ref < l' <= l -> 0 < r -> pg_entry importance clipping l' ref r < pg_entry importance clipping ref ref r).
Proof.
  intros H. destruct (H false (Some 0) 0 1) as (l & L & G); [lra|].
  specialize (G l (conj L (Rle_refl _)) Rlt_0_1).
  destruct (C86_flat false 0 l 0 1) as [F _]; [lra|discriminate|].
  destruct (C86_flat false 0 0 0 1) as [F' _]; [lra|discriminate|].
  cbn in *. replace (1 + 0) with 1 in * by ring. rewrite ln_1 in *.
  rewrite F, F' in G by lra. lra.
Qed.

(** ** C87: components of an action *)
(** Without clipping and importance sampling, early_reduce makes no difference. *)
Theorem C87_plain w r ref : length ref = length (w_logps w) ->
  pg_loss false None true w r [rsum ref] = pg_loss false None false w r ref.
Proof.
  unfold pg_loss, pg_entry. generalize (w_logps w) as l. intros l. cbn.
  revert ref. induction l as [|x l IH]; intros [|y ref] E; cbn in *; try discriminate; [lra|].
  injection E as E. fold (rsum l). fold (rsum (map2 (fun l0 _ : R => - (l0 * r)) l ref)).
  rewrite <- (IH ref E). lra.
Qed.

(** With importance sampling the loss at the reference is - reward with, and - reward for every
    component without early_reduce. *)
Theorem C87_reference w r clipping : match clipping with Some c => 0 <= c | None => True end ->
  pg_loss true clipping true w r (reference (PolicyGradient true clipping true) w) = - r
  /\ pg_loss true clipping false w r (reference (PolicyGradient true clipping false) w) = - (INR (length (w_logps w)) * r).
Proof.
  intros C.
  assert (E : forall l, pg_entry true clipping l l r = - r).
  { intros l. assert (S : stable true l l) by (intros _; pose proof largest_pos; lra).
    assert (T : target true l l = 1) by (cbn; replace (l - l) with 0 by ring; apply exp_0).
    destruct clipping as [c|].
    - rewrite C86_unclipped; [rewrite T; ring|exact C|exact S|]. left. rewrite T. cbn. split; [|lra].
      rewrite <- Rinv_1. apply Rinv_le_contravar; lra.
    - rewrite pg_none by exact S. rewrite T. ring. }
  split.
  - unfold pg_loss, reference, hd. apply E.
  - unfold pg_loss, reference. induction (w_logps w) as [|x l IH]; [cbn; lra|].
    change (map2 _ (x :: l) (x :: l)) with (pg_entry true clipping x x r :: map2 (fun l r0 => pg_entry true clipping l r0 r) l l).
    change (rsum (?a :: ?m)) with (a + rsum m). rewrite IH, E.
    change (length (x :: l)) with (S (length l)). rewrite S_INR. ring.
Qed.

(** ** C88: the value objective *)
Lemma value_entry_quadratic huber d : match huber with Some h => Rabs d <= h | None => True end ->
  value_entry huber d = 1 / 2 * d ^ 2.
Proof.
  destruct huber as [h|]; intros H; [|reflexivity]. unfold value_entry, Rleb. cbv zeta.
  destruct (Rle_dec (Rabs d) h); [reflexivity|contradiction].
Qed.
Lemma value_entry_linear h d : h < Rabs d -> value_entry (Some h) d = h * (Rabs d - 1 / 2 * h).
Proof.
  intros H. unfold value_entry, Rleb. cbv zeta. destruct (Rle_dec (Rabs d) h); [lra|reflexivity].
Qed.
Lemma abs_sq d : d ^ 2 = Rabs d ^ 2.
Proof. symmetry. rewrite <- !Rsqr_pow2. symmetry. apply Rsqr_abs. Qed.

(** The loss is zero exactly where the value is the target, and positive everywhere else. *)
Theorem C88_zero huber d : match huber with Some h => 0 < h | None => True end ->
  value_entry huber 0 = 0 /\ (d <> 0 -> 0 < value_entry huber d).
Proof.
  intros H. split.
  - rewrite value_entry_quadratic; [lra|]. destruct huber; [|exact I]. rewrite Rabs_R0. lra.
  - intros N. assert (P : 0 < Rabs d) by now apply Rabs_pos_lt.
    assert (Q : 0 < Rabs d ^ 2) by (apply pow_lt; exact P).
    destruct huber as [h|]; [|cbn [value_entry]; rewrite abs_sq; lra].
    destruct (Rle_dec (Rabs d) h) as [L|L].
    + rewrite value_entry_quadratic by exact L. rewrite abs_sq. lra.
    + rewrite value_entry_linear by lra. apply Rmult_lt_0_compat; lra.
Qed.

(** A threshold of 0.0 is accepted (value.py 60: min_value=0.0): then nothing is learned. *)
Theorem C88_zero_refuted : ~ (forall huber d, match huber with Some h => 0 <= h | None => True end ->
  d <> 0 -> 0 < value_entry huber d).
Proof.
  intros H. specialize (H (Some 0) 1 (Rle_refl 0) ltac:(lra)).
  rewrite value_entry_linear in H by (rewrite Rabs_R1; lra). lra.
Qed.

(** The Huber loss is below the quadratic one, and changes by at most [h] times the change of the
    value: no outlier has a larger influence on a gradient. *)
Lemma huber_mid h a b : 0 <= h -> 0 <= a <= b ->
  0 <= value_entry (Some h) b - value_entry (Some h) a <= h * (b - a).
Proof.
  intros H [A B].
  assert (Rabs a = a) as Ea by (apply Rabs_pos_eq; lra).
  assert (Rabs b = b) as Eb by (apply Rabs_pos_eq; lra).
  destruct (Rle_dec b h) as [Lb|Lb].
  - rewrite !value_entry_quadratic by lra.
    replace (1 / 2 * b ^ 2 - 1 / 2 * a ^ 2) with ((b + a) / 2 * (b - a)) by field.
    split; [apply Rmult_le_pos; lra|apply Rmult_le_compat_r; lra].
  - destruct (Rle_dec a h) as [La|La].
    + rewrite (value_entry_quadratic (Some h) a) by lra. rewrite value_entry_linear by lra. rewrite Eb.
      assert (0 <= (h - a) ^ 2) by (apply pow2_ge_0).
      assert (0 <= a * (b - a)) by (apply Rmult_le_pos; lra).
      assert (0 <= (h - a) * (b - h)) by (apply Rmult_le_pos; lra). nra.
    + rewrite !value_entry_linear by lra. rewrite Ea, Eb.
      assert (0 <= h * (b - a)) by (apply Rmult_le_pos; lra). lra.
Qed.
Lemma value_entry_even huber d : value_entry huber (Rabs d) = value_entry huber d.
Proof.
  unfold value_entry. rewrite Rabs_Rabsolu. rewrite <- abs_sq. reflexivity.
Qed.
Theorem C88_huber h d e : 0 <= h ->
  value_entry (Some h) d <= 1 / 2 * d ^ 2
  /\ Rabs (value_entry (Some h) d - value_entry (Some h) e) <= h * Rabs (d - e)
  /\ (Rabs d <= h -> value_entry (Some h) d = 1 / 2 * d ^ 2)
  /\ (Rabs d <= Rabs e -> value_entry (Some h) d <= value_entry (Some h) e).
Proof.
  intros H. repeat split.
  - destruct (Rle_dec (Rabs d) h) as [L|L].
    + rewrite value_entry_quadratic by exact L. lra.
    + rewrite value_entry_linear by lra. rewrite abs_sq.
      assert (0 <= (Rabs d - h) ^ 2) by apply pow2_ge_0. nra.
  - rewrite <- (value_entry_even _ d), <- (value_entry_even _ e).
    pose proof (Rabs_pos d) as Pd. pose proof (Rabs_pos e) as Pe.
    apply Rle_trans with (h * Rabs (Rabs d - Rabs e)).
    + revert Pd Pe. generalize (Rabs d) as a, (Rabs e) as b. intros a b Pd Pe.
      destruct (Rle_dec a b) as [L|L].
      * pose proof (huber_mid h a b H ltac:(lra)).
        rewrite Rabs_minus_sym, (Rabs_minus_sym a). rewrite !Rabs_pos_eq; lra.
      * pose proof (huber_mid h b a H ltac:(lra)). rewrite !Rabs_pos_eq; lra.
    + apply Rmult_le_compat_l; [exact H|apply Rabs_triang_inv2].
  - intros L. now apply value_entry_quadratic.
  - intros L. rewrite <- (value_entry_even _ d), <- (value_entry_even _ e).
    pose proof (huber_mid h (Rabs d) (Rabs e) H (conj (Rabs_pos d) L)). lra.
Qed.

(** Without a threshold, the value with the smallest total loss for a set of targets is their mean:
    minimizing the objective estimates the expected return. *)
Definition total (huber : option R) (v : R) (targets : list R) : R := rsum (map (fun r => value_entry huber (v - r)) targets).
Theorem C88_mean targets v : targets <> [] ->
  total None v targets = total None (rmean targets) targets + INR (length targets) / 2 * (v - rmean targets) ^ 2.
Proof.
  intros N.
  assert (G : forall u, total None u targets = INR (length targets) / 2 * u ^ 2 - u * rsum targets + rsum (map (fun r => r ^ 2 / 2) targets)).
  { intros u. unfold total. clear N. induction targets as [|x l IH]; [cbn; lra|].
    change (rsum (map ?f (x :: l))) with (f x + rsum (map f l)).
    change (rsum (map (fun r => value_entry None (u - r)) (x :: l))) with (value_entry None (u - x) + rsum (map (fun r => value_entry None (u - r)) l)).
    rewrite IH. change (length (x :: l)) with (S (length l)). rewrite S_INR.
    change (rsum (x :: l)) with (x + rsum l). unfold value_entry. field. }
  rewrite !G. unfold rmean.
  assert (INR (length targets) <> 0) by (apply not_0_INR; destruct targets; [congruence|discriminate]).
  field. assumption.
Qed.

(** The loss of an instance of a batch depends on its own values and target only, when values are
    averaged first, or all actions have rank 1. *)
Definition own_loss (huber : option R) (early : bool) (values : list R) (reward : R) : R :=
  if early then value_entry huber (rmean values - reward)
  else rsum (map (fun v => value_entry huber (v - reward)) values).
Theorem C88_own_partial s state huber early batch rewards refs :
  early = true \/ Forall (fun sh => length sh = 1%nat) s ->
  loss s (ValueObjective state huber early) batch rewards refs
  = Ok (map2 (fun w r => own_loss huber early (if state then w_states w else w_actions w) r) batch rewards).
Proof.
  intros H. cbn [loss]. unfold value_losses.
  assert (M : forall f : list R -> R -> R, map2 f (map (if state then w_states else w_actions) batch) rewards
    = map2 (fun w r => f (if state then w_states w else w_actions w) r) batch rewards).
  { intros f. revert rewards. induction batch as [|w b IH]; intros [|r rs]; cbn; [reflexivity..|].
    rewrite IH. now destruct state. }
  destruct early.
  - rewrite M. reflexivity.
  - destruct H as [H|H]; [discriminate|].
    assert (A : forallb (fun sh => Nat.eqb (length sh) 1) s = true).
    { apply forallb_forall. intros sh I. rewrite Forall_forall in H. rewrite (H sh I). reflexivity. }
    rewrite A, M. destruct s as [|[|n sh] [|sh' s']]; try reflexivity.
    inversion H as [|? ? E]. discriminate E.
Qed.

(** It does not for a single action of shape (): every instance is compared with the targets of all
    others.  Perfect predictions have a positive loss. *)
Theorem C88_own_refuted : ~ (forall s state huber batch rewards refs ls,
  loss s (ValueObjective state huber false) batch rewards refs = Ok ls ->
  ls = map2 (fun w r => own_loss huber false (if state then w_states w else w_actions w) r) batch rewards).
Proof.
  intros H.
  pose (w v := {| w_logps := [0]; w_states := [v]; w_actions := [v]; w_critic := None |}).
  specialize (H [[]] false None [w 0; w 1] [0; 1] [[0]; [0]] _ eq_refl). cbn in H. injection H as H1 H2. lra.
Qed.

(** Nor is there a loss if a scalar action is one of several. *)
Theorem C88_defined_refuted : ~ (forall s state huber batch rewards refs,
  exists ls, loss s (ValueObjective state huber false) batch rewards refs = Ok ls).
Proof.
  intros H. destruct (H [[]; [2%nat]] true None [] [] []) as [ls E]. discriminate E.
Qed.

(** ** C89: combination of objectives *)
Lemma reference_length s o w : length (w_logps w) = size s -> length (reference o w) = reference_size s o.
Proof.
  intros E. induction o as [imp clip early|st hub early| |o1 IH1 o2 IH2]; cbn; [now destruct early|reflexivity..|].
  rewrite app_length. now rewrite IH1, IH2.
Qed.

(** The loss of a combination is the sum of the losses, each with the references it would have had
    on its own. *)
Theorem C89_plus s o1 o2 before batch rewards :
  (forall w, In w before -> length (w_logps w) = size s) ->
  loss s (Plus o1 o2) batch rewards (map (reference (Plus o1 o2)) before)
  = do l1 <- loss s o1 batch rewards (map (reference o1) before);
    do l2 <- loss s o2 batch rewards (map (reference o2) before);
    Ok (map2 Rplus l1 l2).
Proof.
  intros H. cbn [loss]. rewrite !map_map.
  rewrite (map_ext_in _ (reference o1)), (map_ext_in (fun x => skipn (reference_size s o1) (reference (Plus o1 o2) x)) (reference o2)); [reflexivity| |].
  - intros w I. cbn. rewrite <- (reference_length s o1 w) by now apply H.
    rewrite skipn_app, skipn_all, Nat.sub_diag. reflexivity.
  - intros w I. cbn. rewrite <- (reference_length s o1 w) by now apply H.
    rewrite firstn_app, firstn_all, Nat.sub_diag. apply app_nil_r.
Qed.

(** The deterministic policy gradient prefers the policy whose actions the separate baseline values
    more; without a separate baseline there is no loss. *)
Theorem C89_deterministic s batch batch' qs qs' rewards refs :
  map w_critic batch = map Some qs -> map w_critic batch' = map Some qs' ->
  exists ls ls', loss s DetPolicyGradient batch rewards refs = Ok ls /\ loss s DetPolicyGradient batch' rewards refs = Ok ls'
  /\ (length qs = length qs' -> qs <> [] -> (rmean ls < rmean ls' <-> rmean qs' < rmean qs)).
Proof.
  assert (E : forall batch qs, map w_critic batch = map Some qs -> dpg_losses batch = Ok (map Ropp qs)).
  { induction batch0 as [|w b IH]; intros [|q l] M; cbn in M; try discriminate; [reflexivity|].
    injection M as M1 M2. cbn [dpg_losses]. rewrite M1, (IH _ M2). reflexivity. }
  intros M M'. exists (map Ropp qs), (map Ropp qs'). cbn [loss]. repeat split; [now apply E..| |];
    unfold rmean; rewrite !map_length; assert (S : forall l, rsum (map Ropp l) = - rsum l) by (induction l as [|x l IH]; cbn; [lra|unfold rsum in IH; rewrite IH; lra]);
    rewrite !S; rewrite <- H; unfold Rdiv; rewrite ?Ropp_mult_distr_l_reverse; lra.
Qed.
Theorem C89_no_baseline_refuted : ~ (forall s o batch rewards refs, length rewards = length batch ->
  (forall sh, In sh s -> length sh = 1%nat) -> exists ls, loss s o batch rewards refs = Ok ls).
Proof.
  intros H.
  destruct (H [] DetPolicyGradient [{| w_logps := []; w_states := []; w_actions := []; w_critic := None |}] [0] [[0]] eq_refl) as [ls E].
  - intros sh [].
  - discriminate E.
Qed.

(** ** Examples *)
(* likelihood doubled, reward 2, clipping 0.2: the loss stops at -2.4 *)
Example C86_example : pg_entry true (Some (/ 5)) (ln 2) 0 2 = - (6 / 5 * 2) /\ 0 < 1 /\ stable true (ln 2) 0.
Proof.
  assert (S : stable true (ln 2) 0).
  { intros _. unfold largest. assert (0 < ln 2) by (rewrite <- ln_1; apply ln_increasing; lra).
    assert (ln 2 < ln 1000000) by (apply ln_increasing; lra). assert (0 < ln 1000000) by lra. lra. }
  split; [|split; [lra|exact S]].
  destruct (C86_flat true (/ 5) (ln 2) 0 2) as [F _]; [lra|exact S|].
  rewrite F; cbn; [lra|lra|]. replace (ln 2 - 0) with (ln 2) by ring. rewrite exp_ln by lra. lra.
Qed.
Example C87_example : pg_loss true (Some (/ 5)) false {| w_logps := [-1; -2]; w_states := []; w_actions := []; w_critic := None |} 3 [-1; -2] = -6.
Proof.
  destruct (C87_reference {| w_logps := [-1; -2]; w_states := []; w_actions := []; w_critic := None |} 3 (Some (/ 5))) as [_ E]; [cbn; lra|].
  cbn [reference w_logps length INR] in E. rewrite E. lra.
Qed.
Example C88_example : value_entry (Some 1) 3 = 5 / 2 /\ value_entry None 3 = 9 / 2.
Proof. split; [rewrite value_entry_linear; rewrite Rabs_pos_eq; lra|cbn; lra]. Qed.
Example C88_mean_example : total None 2 [1; 3] < total None 1 [1; 3].
Proof. unfold total, value_entry. cbn. lra. Qed.
Example C89_example :
  loss [[2%nat]] (Plus (PolicyGradient false None false) (ValueObjective true None true))
    [{| w_logps := [-1; -2]; w_states := [4; 6]; w_actions := []; w_critic := None |}] [3] [[-1; -2; 0]] = Ok [9 + 2].
Proof. cbn. do 2 f_equal. unfold rmean, pg_entry; cbn. lra. Qed.

Print Assumptions C86_pessimistic.
Print Assumptions C86_unclipped.
Print Assumptions C86_flat.
Print Assumptions C86_gain.
Print Assumptions C86_slope.
Print Assumptions C86_zero_refuted.
Print Assumptions C87_plain.
Print Assumptions C87_reference.
Print Assumptions C88_zero.
Print Assumptions C88_zero_refuted.
Print Assumptions C88_huber.
Print Assumptions C88_mean.
Print Assumptions C88_own_partial.
Print Assumptions C88_own_refuted.
Print Assumptions C88_defined_refuted.
Print Assumptions C89_plus.
Print Assumptions C89_deterministic.
Print Assumptions C89_no_baseline_refuted.
