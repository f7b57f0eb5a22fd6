(** Proofs about the model of the categorical distribution (DistModel.v). *)

From Coq Require Import String List ZArith Reals Bool Lia Lra Psatz.
From Verif Require Import OptVec ParModel SolveModel OptModel OptProofs DistModel.
Import ListNotations.
Open Scope R_scope.

(** what is known of tf.math.argmax *)
Definition is_argmax (argmax : list R -> nat) : Prop :=
  forall l, l <> [] -> (argmax l < length l)%nat /\ (forall i, (i < length l)%nat -> nth i l 0 <= nth (argmax l) l 0).

(** ** Lists *)
Lemma nth_map_lt {A B} (f : A -> B) d e l : forall i, (i < length l)%nat -> nth i (map f l) d = f (nth i l e).
Proof. induction l as [|x l IH]; intros [|i] H; cbn in *; try lia; auto. apply IH. lia. Qed.
Lemma nth_map2_lt {A B C} (f : A -> B -> C) d da db l : forall m i, length l = length m -> (i < length l)%nat ->
  nth i (map2 f l m) d = f (nth i l da) (nth i m db).
Proof. induction l as [|x l IH]; intros [|y m] [|i] E H; cbn in *; try lia; auto. apply IH; lia. Qed.

Lemma rsum_le_bound M l : (forall x, In x l -> x <= M) -> rsum l <= INR (length l) * M.
Proof.
  unfold rsum. induction l as [|x l IH]; intros H; [cbn; lra|].
  change (length (x :: l)) with (S (length l)). rewrite S_INR. cbn [fold_right].
  assert (x <= M) by (apply H; now left).
  assert (fold_right Rplus 0 l <= INR (length l) * M) by (apply IH; intros; apply H; now right). lra.
Qed.
Lemma rsum_nonneg l : (forall x, In x l -> 0 <= x) -> 0 <= rsum l.
Proof.
  unfold rsum. induction l as [|x l IH]; intros H; cbn; [lra|].
  assert (0 <= x) by (apply H; now left). assert (0 <= fold_right Rplus 0 l) by (apply IH; intros; apply H; now right). lra.
Qed.
Lemma rsum_ge_elem x l : (forall y, In y l -> 0 <= y) -> In x l -> x <= rsum l.
Proof.
  unfold rsum. induction l as [|y l IH]; [intros _ []|]. intros H [<-|I]; cbn.
  - assert (0 <= rsum l) by (apply rsum_nonneg; intros; apply H; now right). unfold rsum in *. lra.
  - assert (0 <= y) by (apply H; now left). assert (x <= fold_right Rplus 0 l) by (apply IH; auto; intros; apply H; now right). lra.
Qed.
Lemma rsum_exp_pos l : l <> [] -> 0 < rsum (map exp l).
Proof.
  destruct l as [|x l]; [congruence|]. intros _. apply Rlt_le_trans with (exp x); [apply exp_pos|].
  apply rsum_ge_elem; [|now left]. intros y I. apply in_map_iff in I as [z [<- _]]. left. apply exp_pos.
Qed.
Lemma rsum_div l c : rsum (map (fun x => x / c) l) = rsum l / c.
Proof. unfold rsum. induction l as [|x l IH]; cbn; [unfold Rdiv; lra|]. rewrite IH. unfold Rdiv. lra. Qed.

(** ** Numbers *)
Lemma eps_pos : 0 < epsilon6.
Proof. unfold epsilon6. lra. Qed.
Lemma eps_small : epsilon6 < / 2.
Proof. unfold epsilon6. lra. Qed.
Lemma ln_upper x : 0 < x -> ln x <= x - 1.
Proof. intros H. pose proof (exp_ineq1_le (ln x)) as E. rewrite exp_ln in E by exact H. lra. Qed.
Lemma ln_lower x : 0 < x -> 1 - / x <= ln x.
Proof. intros H. pose proof (ln_upper (/ x) (Rinv_0_lt_compat _ H)) as E. rewrite ln_Rinv in E by exact H. lra. Qed.
Lemma two120 : 2 ^ 120 = IZR (2 ^ 120).
Proof. exact (pow_IZR 2 120). Qed.
Lemma min_float_IZR : min_float = IZR (- (2 ^ 128 - 2 ^ 104)).
Proof. unfold min_float. rewrite opp_IZR, minus_IZR. now rewrite (pow_IZR 2 128), (pow_IZR 2 104). Qed.
Lemma min_float_low : min_float < - (2 ^ 120) * 10.
Proof. rewrite min_float_IZR, two120. rewrite <- opp_IZR, <- mult_IZR. apply IZR_lt. reflexivity. Qed.
Lemma two120_big : 10 ^ 30 < 2 ^ 120.
Proof. rewrite two120. rewrite (pow_IZR 10 30). apply IZR_lt. reflexivity. Qed.
Lemma ten30 : 10 ^ 30 = 1000000000000000000000000000000.
Proof. rewrite (pow_IZR 10 30). apply f_equal. reflexivity. Qed.

Lemma positive_lower t : 1 / 6 <= positive t.
Proof.
  unfold positive. assert (0 < softplus (clip_log t)).
  { unfold softplus. rewrite <- ln_1. apply ln_increasing; [lra|]. pose proof (exp_pos (clip_log t)). lra. }
  assert (ln 2 <= 1) by (pose proof (ln_upper 2); lra).
  assert (0 < ln 2) by (rewrite <- ln_1; apply ln_increasing; lra).
  apply Rmult_le_reg_r with (ln 2 + 1 / 5); [lra|].
  unfold Rdiv at 3. rewrite Rmult_assoc, Rinv_l by lra. lra.
Qed.

Lemma gumbel_bounds u : epsilon6 <= u <= 1 - epsilon6 -> - 1000000 <= gumbel u <= 1000000.
Proof.
  intros H. pose proof eps_pos. unfold gumbel.
  assert (E1 : epsilon6 <= - ln u) by (pose proof (ln_upper u); lra).
  assert (E2 : - ln u <= 1000000).
  { pose proof (ln_lower u ltac:(lra)). assert (/ u <= / epsilon6) by (apply Rinv_le_contravar; lra).
    unfold epsilon6 in *. rewrite Rinv_inv in *. lra. }
  split.
  - pose proof (ln_upper (- ln u) ltac:(lra)). lra.
  - pose proof (ln_lower (- ln u) ltac:(lra)). assert (/ - ln u <= / epsilon6) by (apply Rinv_le_contravar; lra).
    unfold epsilon6 in *. rewrite Rinv_inv in *. lra.
Qed.

(** ** Masks *)
Lemma nth_masked mask l i : length mask = length l -> (i < length l)%nat ->
  nth i (masked (Some mask) l) 0 = if nth i mask false then nth i l 0 else min_float.
Proof. intros E H. cbn [masked]. rewrite (nth_map2_lt _ _ false 0) by lia. reflexivity. Qed.
Lemma masked_length mask l : length mask = length l -> length (masked (Some mask) l) = length l.
Proof. intros E. cbn. rewrite map2_length by lia. lia. Qed.

(** the argmax of masked values is allowed, if some allowed value is above the mask value *)
Lemma masked_argmax argmax mask l i : is_argmax argmax -> length mask = length l -> (i < length l)%nat ->
  nth i mask false = true -> min_float < nth i l 0 ->
  let k := argmax (masked (Some mask) l) in
  (k < length l)%nat /\ nth k mask false = true /\
  (forall j, (j < length l)%nat -> nth j mask false = true -> nth j l 0 <= nth k l 0).
Proof.
  intros A E Hi Mi Vi k. pose proof (masked_length mask l E) as L.
  destruct (A (masked (Some mask) l)) as [K1 K2].
  { intros N. rewrite N in L. cbn in L. lia. }
  rewrite L in K1, K2. fold k in K1, K2.
  assert (M : nth k mask false = true).
  { specialize (K2 i Hi). rewrite !nth_masked in K2 by (auto; lia). rewrite Mi in K2.
    destruct (nth k mask false); [reflexivity|]. lra. }
  split; [exact K1|]. split; [exact M|]. intros j Hj Mj.
  specialize (K2 j Hj). rewrite !nth_masked in K2 by (auto; lia). rewrite Mj, M in K2. exact K2.
Qed.

(** ** Softmax *)
Lemma softmax_length l : length (softmax l) = length l.
Proof. apply map_length. Qed.
Lemma nth_softmax l i : (i < length l)%nat -> nth i (softmax l) 0 = exp (nth i l 0) / rsum (map exp l).
Proof. intros H. unfold softmax. now rewrite (nth_map_lt _ _ 0). Qed.
Lemma softmax_pos l i : (i < length l)%nat -> 0 < nth i (softmax l) 0.
Proof.
  intros H. rewrite nth_softmax by exact H. apply Rdiv_lt_0_compat; [apply exp_pos|]. apply rsum_exp_pos. destruct l; cbn in H; [lia|congruence].
Qed.
Lemma softmax_sum l : l <> [] -> rsum (softmax l) = 1.
Proof.
  intros N. unfold softmax. rewrite <- (map_map exp (fun y => y / rsum (map exp l))), rsum_div.
  field. pose proof (rsum_exp_pos l N). lra.
Qed.
Lemma softmax_le_1 l i : (i < length l)%nat -> nth i (softmax l) 0 <= 1.
Proof.
  intros H. assert (N : l <> []) by (destruct l; cbn in H; [lia|congruence]).
  rewrite <- (softmax_sum l N). apply rsum_ge_elem.
  - intros y I. destruct (In_nth _ _ 0 I) as [j [J <-]]. rewrite softmax_length in J. left. now apply softmax_pos.
  - apply nth_In. now rewrite softmax_length.
Qed.

(** the largest entry has at least the share 1/n *)
Lemma softmax_max l k : (k < length l)%nat -> (forall j, (j < length l)%nat -> nth j l 0 <= nth k l 0) ->
  / INR (length l) <= nth k (softmax l) 0.
Proof.
  intros K M. assert (N : l <> []) by (destruct l; cbn in K; [lia|congruence]).
  pose proof (rsum_exp_pos l N) as P. pose proof (exp_pos (nth k l 0)) as X.
  assert (LN : 0 < INR (length l)) by (apply lt_0_INR; lia).
  rewrite nth_softmax by exact K.
  assert (B : rsum (map exp l) <= INR (length l) * exp (nth k l 0)).
  { rewrite <- (map_length exp l). apply rsum_le_bound. intros y I. apply in_map_iff in I as [z [<- I]].
    destruct (In_nth _ _ 0 I) as [j [J <-]]. specialize (M j J). destruct M as [M|M]; [left; now apply exp_increasing|rewrite M; lra]. }
  apply Rmult_le_reg_r with (rsum (map exp l)); [exact P|].
  unfold Rdiv. rewrite Rmult_assoc, Rinv_l by lra. rewrite Rmult_1_r.
  apply Rmult_le_reg_l with (INR (length l)); [exact LN|]. rewrite <- Rmult_assoc, Rinv_r by lra. lra.
Qed.

(** an entry 10^6 below another has a share below epsilon *)
Lemma softmax_small l i j : (i < length l)%nat -> (j < length l)%nat -> nth i l 0 + 1000000 <= nth j l 0 ->
  nth i (softmax l) 0 < epsilon6.
Proof.
  intros I J H. assert (N : l <> []) by (destruct l; cbn in I; [lia|congruence]).
  pose proof (rsum_exp_pos l N) as P. rewrite nth_softmax by exact I.
  assert (S1 : exp (nth j l 0) <= rsum (map exp l)).
  { apply rsum_ge_elem.
    - intros y Y. apply in_map_iff in Y as [z [<- _]]. left. apply exp_pos.
    - apply in_map. now apply nth_In. }
  assert (E : nth i l 0 = nth j l 0 + (- (nth j l 0 - nth i l 0))) by lra.
  set (x := nth j l 0 - nth i l 0) in *. rewrite E, exp_plus, exp_Ropp.
  assert (X : 1000001 <= exp x) by (pose proof (exp_ineq1_le x); unfold x in *; lra).
  assert (IX : / exp x <= / 1000001) by (apply Rinv_le_contravar; lra).
  pose proof (exp_pos (nth j l 0)) as PJ.
  apply Rle_lt_trans with (/ exp x); [|unfold epsilon6; lra].
  apply Rmult_le_reg_r with (rsum (map exp l)); [exact P|].
  unfold Rdiv. rewrite (Rmult_assoc _ (/ rsum _)), Rinv_l by lra. rewrite Rmult_1_r, Rmult_comm.
  apply Rmult_le_compat_l; [|exact S1]. left. apply Rinv_0_lt_compat. lra.
Qed.

Lemma exists_max l : l <> [] -> exists k, (k < length l)%nat /\ (forall j, (j < length l)%nat -> nth j l 0 <= nth k l 0).
Proof.
  induction l as [|x l IH]; [congruence|]. intros _. destruct l as [|y l].
  - exists O. split; [cbn; lia|]. intros [|j] H; cbn in *; [lra|lia].
  - destruct IH as [k [K M]]; [congruence|]. destruct (Rle_lt_dec x (nth k (y :: l) 0)) as [C|C].
    + exists (S k). split; [cbn in *; lia|]. intros [|j] H; [exact C|]. apply M. cbn in *. lia.
    + exists O. split; [cbn; lia|]. intros [|j] H; [cbn; lra|]. cbn [nth].
      apply Rle_trans with (nth k (y :: l) 0); [apply M; cbn in *; lia|]. left. exact C.
Qed.

(** ** Sampling *)
(** with at most 10^6 actions a sample has probability at least epsilon *)
Lemma sample_probable argmax c temperature uniform :
  is_argmax argmax -> c_probabilities c <> [] ->
  (forall i, (i < length (c_probabilities c))%nat -> 0 < nth i (c_probabilities c) 0) ->
  c_logits c = map (fun p => ln (p + epsilon6)) (c_probabilities c) ->
  (exists k, (k < length (c_probabilities c))%nat /\ epsilon6 <= nth k (c_probabilities c) 0) ->
  length uniform = length (c_probabilities c) -> Forall (fun u => epsilon6 <= u <= 1 - epsilon6) uniform ->
  epsilon6 <= temperature ->
  let a := cat_sample argmax c temperature uniform in
  (a < length (c_probabilities c))%nat /\ epsilon6 <= nth a (c_probabilities c) 0.
Proof.
  intros A N P L [k [K Pk]] LU U T. cbv zeta. unfold cat_sample.
  destruct (Rltb_spec temperature epsilon6) as [?|_]; [lra|]. rewrite L. rewrite map_map.
  set (p := c_probabilities c) in *. set (x := map2 _ p _). set (y := map2 _ x uniform). set (a := argmax y).
  assert (Lx : length x = length p) by (unfold x; rewrite map2_length; [reflexivity|now rewrite map_length]).
  assert (Ly : length y = length p) by (unfold y; rewrite map2_length; lia).
  assert (Y : forall i, (i < length p)%nat -> nth i y 0 = (if Rltb (nth i p 0) epsilon6 then min_float else ln (nth i p 0 + epsilon6) / (temperature + epsilon6)) + gumbel (nth i uniform 0)).
  { intros i I. unfold y. rewrite (nth_map2_lt _ _ 0 0) by lia. f_equal. unfold x.
    rewrite (nth_map2_lt _ _ 0 0) by (rewrite ?map_length; lia). destruct (Rltb _ _); [reflexivity|].
    now rewrite (nth_map_lt _ _ 0) by lia. }
  assert (G : forall i, (i < length p)%nat -> - 1000000 <= gumbel (nth i uniform 0) <= 1000000).
  { intros i I. apply gumbel_bounds. rewrite Forall_forall in U. apply U. apply nth_In. lia. }
  destruct (A y) as [A1 A2]; [intros Z; rewrite Z in Ly; destruct p; [congruence|discriminate]|].
  fold a in A1, A2. rewrite Ly in A1, A2. split; [exact A1|].
  specialize (A2 k K). rewrite (Y k K), (Y a A1) in A2. pose proof (G k K) as Gk. pose proof (G a A1) as Ga.
  destruct (Rltb_spec (nth k p 0) epsilon6) as [?|_]; [lra|].
  destruct (Rltb_spec (nth a p 0) epsilon6) as [C|C]; [exfalso|lra].
  pose proof eps_pos. pose proof min_float_low. pose proof two120_big as B. rewrite ten30 in B.
  assert (Q : - 1000000 <= ln (nth k p 0 + epsilon6)).
  { pose proof (ln_lower (nth k p 0 + epsilon6) ltac:(lra)).
    assert (/ (nth k p 0 + epsilon6) <= / epsilon6) by (apply Rinv_le_contravar; lra).
    unfold epsilon6 in *. rewrite Rinv_inv in *. lra. }
  assert (D : 0 < / (temperature + epsilon6) <= 1000000).
  { split; [apply Rinv_0_lt_compat; lra|]. replace 1000000 with (/ epsilon6) by (unfold epsilon6; now rewrite Rinv_inv).
    apply Rinv_le_contravar; lra. }
  assert (- 1000000000000 <= ln (nth k p 0 + epsilon6) / (temperature + epsilon6)).
  { unfold Rdiv. set (q := ln _) in *. set (d := / _) in *. destruct (Rle_lt_dec 0 q); nra. }
  lra.
Qed.

Lemma cat_logits t m v : c_logits (cat_parametrize t m v) = map (fun p => ln (p + epsilon6)) (c_probabilities (cat_parametrize t m v)).
Proof. reflexivity. Qed.
(** the logits before normalization *)
Definition raw (t : option R) (v : list R) : list R := map (fun x => x / match t with Some t => positive t | None => 1 end) v.
Lemma cat_probabilities t m v : c_probabilities (cat_parametrize t m v) = softmax (masked m (raw t v)).
Proof.
  unfold cat_parametrize. cbn [c_probabilities]. destruct t; [reflexivity|]. unfold raw.
  do 2 f_equal. symmetry. rewrite <- (map_id v) at 2. apply map_ext. intros. unfold Rdiv. lra.
Qed.
Lemma raw_length t v : length (raw t v) = length v.
Proof. apply map_length. Qed.
Lemma nth_raw t v i : (i < length v)%nat -> - 2 ^ 120 <= nth i v 0 -> - (2 ^ 120) * 6 <= nth i (raw t v) 0.
Proof.
  intros I H. unfold raw. rewrite (nth_map_lt _ _ 0) by exact I. pose proof two120_big as B. rewrite ten30 in B.
  assert (D : 0 < / match t with Some t => positive t | None => 1 end <= 6).
  { destruct t as [t|]; [|lra]. pose proof (positive_lower t). split; [apply Rinv_0_lt_compat; lra|].
    replace 6 with (/ (1 / 6)) by lra. apply Rinv_le_contravar; lra. }
  unfold Rdiv. set (d := / _) in *. set (x := nth i v 0) in *. destruct (Rle_lt_dec 0 x); nra.
Qed.

Lemma probabilities_length t mask v : length mask = length v -> length (c_probabilities (cat_parametrize t (Some mask) v)) = length v.
Proof. intros E. rewrite cat_probabilities, softmax_length, masked_length; rewrite raw_length; auto. Qed.

(** a forbidden action has probability below epsilon *)
Lemma forbidden_improbable t mask v i j : length mask = length v -> (i < length v)%nat -> (j < length v)%nat ->
  nth i mask false = false -> nth j mask false = true -> - 2 ^ 120 <= nth j v 0 ->
  nth i (c_probabilities (cat_parametrize t (Some mask) v)) 0 < epsilon6.
Proof.
  intros E I J Mi Mj V. rewrite cat_probabilities. apply softmax_small with j; rewrite ?masked_length; rewrite ?raw_length; auto.
  rewrite !nth_masked by (rewrite raw_length; auto). rewrite Mi, Mj.
  pose proof (nth_raw t v j J V). pose proof min_float_low. pose proof two120_big as B. rewrite ten30 in B. lra.
Qed.

Lemma some_probable t m v : v <> [] -> length (masked m v) = length v -> (Z.of_nat (length v) <= 1000000)%Z ->
  (length (c_probabilities (cat_parametrize t m v)) = length v) ->
  exists k, (k < length v)%nat /\ epsilon6 <= nth k (c_probabilities (cat_parametrize t m v)) 0.
Proof.
  intros N _ B L. rewrite cat_probabilities in *. rewrite softmax_length in L. set (l := masked m (raw t v)) in *.
  destruct (exists_max l) as [k [K M]]; [intros Z; rewrite Z in L; destruct v; [congruence|discriminate]|].
  exists k. split; [lia|]. apply Rle_trans with (/ INR (length l)); [|now apply softmax_max].
  unfold epsilon6. apply Rinv_le_contravar; [apply lt_0_INR; lia|]. rewrite L.
  rewrite INR_IZR_INZ. apply IZR_le. exact B.
Qed.
