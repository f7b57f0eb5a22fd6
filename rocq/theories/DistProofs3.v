(** Proofs about likelihoods, entropies and divergences (DistModel.v). *)

From Coq Require Import String List ZArith Reals Bool Lia Lra Psatz.
From Verif Require Import OptVec ParModel SolveModel OptModel OptProofs DistModel DistProofs DistProofs2.
Import ListNotations.
Open Scope R_scope.

Lemma Rdiv_le_iff a b c : 0 < b -> (a / b <= c <-> a <= c * b).
Proof.
  intros B. split; intros H.
  - apply Rmult_le_compat_r with (r := b) in H; [|lra]. unfold Rdiv in H. rewrite Rmult_assoc, Rinv_l in H by lra. lra.
  - apply Rmult_le_reg_r with b; [exact B|]. unfold Rdiv. rewrite Rmult_assoc, Rinv_l by lra. lra.
Qed.
Lemma Rdiv_ge_iff a b c : 0 < b -> (c <= a / b <-> c * b <= a).
Proof.
  intros B. split; intros H.
  - apply Rmult_le_compat_r with (r := b) in H; [|lra]. unfold Rdiv in H. rewrite Rmult_assoc, Rinv_l in H by lra. lra.
  - apply Rmult_le_reg_r with b; [exact B|]. unfold Rdiv. rewrite Rmult_assoc, Rinv_l by lra. lra.
Qed.

Lemma ln_ratio_upper a b : 0 < a -> 0 < b -> ln a - ln b <= a / b - 1.
Proof.
  intros A B. pose proof (ln_upper (a / b) ltac:(now apply Rdiv_lt_0_compat)) as H. unfold Rdiv in *.
  rewrite ln_mult, ln_Rinv in H; [lra|exact B|exact A|now apply Rinv_0_lt_compat].
Qed.

Lemma kl_point p q : 0 <= p -> 0 <= q -> p - q - epsilon6 <= p * (ln (p + epsilon6) - ln (q + epsilon6)).
Proof.
  intros P Q. pose proof eps_pos as E. pose proof (ln_ratio_upper (q + epsilon6) (p + epsilon6) ltac:(lra) ltac:(lra)) as L.
  apply Rle_trans with (p * (1 - (q + epsilon6) / (p + epsilon6))).
  - replace (p * (1 - (q + epsilon6) / (p + epsilon6))) with (p * (p - q) / (p + epsilon6)) by (field; lra).
    apply Rdiv_ge_iff; [lra|]. nra.
  - apply Rmult_le_compat_l; lra.
Qed.

Lemma kl_sum p : forall q, length p = length q -> Forall (fun x => 0 <= x) p -> Forall (fun x => 0 <= x) q ->
  rsum p - rsum q - INR (length p) * epsilon6 <=
  rsum (map2 Rmult p (map2 Rminus (map (fun x => ln (x + epsilon6)) p) (map (fun x => ln (x + epsilon6)) q))).
Proof.
  unfold rsum. induction p as [|x p IH]; intros [|y q] L P Q; cbn in L; try discriminate; [cbn; lra|].
  inversion P; inversion Q; subst. specialize (IH q ltac:(lia) ltac:(assumption) ltac:(assumption)).
  change (length (x :: p)) with (S (length p)). rewrite S_INR. cbn [map map2 fold_right] in *.
  pose proof (kl_point x y ltac:(assumption) ltac:(assumption)). lra.
Qed.

Lemma entropy_point n p : 0 < n -> 0 <= p -> - (p * ln (p + epsilon6)) <= p * ln n + / n - p.
Proof.
  intros N P. pose proof eps_pos as E. pose proof (ln_upper (/ (n * (p + epsilon6))) ltac:(apply Rinv_0_lt_compat; nra)) as L.
  rewrite ln_Rinv, ln_mult in L by nra.
  assert (K : p * / (n * (p + epsilon6)) <= / n).
  { replace (p * / (n * (p + epsilon6))) with (p / (p + epsilon6) * / n) by (field; lra).
    rewrite <- (Rmult_1_l (/ n)) at 2. apply Rmult_le_compat_r; [left; now apply Rinv_0_lt_compat|]. apply Rdiv_le_iff; lra. }
  nra.
Qed.
Lemma entropy_sum n p : 0 < n -> Forall (fun x => 0 <= x) p ->
  - rsum (map2 Rmult p (map (fun x => ln (x + epsilon6)) p)) <= rsum p * ln n + INR (length p) * / n - rsum p.
Proof.
  intros N. unfold rsum. induction p as [|x p IH]; intros P; [cbn; lra|]. inversion P; subst.
  specialize (IH ltac:(assumption)). change (length (x :: p)) with (S (length p)). rewrite S_INR. cbn [map map2 fold_right] in *.
  pose proof (entropy_point n x N ltac:(assumption)). lra.
Qed.
Lemma entropy_low p : Forall (fun x => 0 <= x <= 1) p -> - epsilon6 * rsum p <= - rsum (map2 Rmult p (map (fun x => ln (x + epsilon6)) p)).
Proof.
  unfold rsum. induction p as [|x p IH]; intros P; [cbn; lra|]. inversion P; subst.
  specialize (IH ltac:(assumption)). cbn [map map2 fold_right] in *. pose proof eps_pos.
  assert (ln (x + epsilon6) <= epsilon6) by (pose proof (ln_upper (x + epsilon6)); lra). nra.
Qed.

Lemma softmax_forall l : Forall (fun x => 0 < x <= 1) (softmax l).
Proof.
  apply Forall_forall. intros x I. destruct (In_nth _ _ 0 I) as [j [J <-]]. rewrite softmax_length in J.
  split; [now apply softmax_pos|now apply softmax_le_1].
Qed.

(** ** Sigmoid *)
Lemma sigmoid_in x : 0 < 1 / (1 + exp (- x)) < 1.
Proof.
  pose proof (exp_pos (- x)). split; [apply Rdiv_lt_0_compat; lra|].
  apply Rmult_lt_reg_r with (1 + exp (- x)); [lra|]. unfold Rdiv. rewrite Rmult_assoc, Rinv_l by lra. lra.
Qed.

(** ** Softplus *)
Lemma positive_pos t : 0 < positive t.
Proof. pose proof (positive_lower t). lra. Qed.
Lemma stddev_pos b m s : 0 < g_stddev (gauss_parametrize b m s).
Proof. destruct b as [[|] [|]]; cbn; pose proof (positive_pos s); lra. Qed.
