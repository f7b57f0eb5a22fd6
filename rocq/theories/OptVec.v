(** Tensors and lists of tensors as the optimizers use them: a tensor is the list of its entries, a
    collection of variables a list of tensors (tuple of tf.Variable in
    /repo/tensorforce/core/optimizers/optimizer.py 87-93, TensorDict in
    /repo/tensorforce/core/optimizers/solvers/).  Only element-wise operations and full reductions
    occur there, so the entries of a tensor are kept in one flat list.  Floats are real numbers. *)

From Coq Require Import List Arith Lia Reals Lra.
Import ListNotations.
Open Scope R_scope.

Definition tensor := list R.
Definition vars := list tensor.

(** zip with an operation *)
Fixpoint map2 {A B C} (f : A -> B -> C) (l : list A) (m : list B) : list C :=
  match l, m with a :: l', b :: m' => f a b :: map2 f l' m' | _, _ => [] end.

(** element-wise operations: NestedDict.fmap (nested_dict.py 70-134) with zip_values, and the list
    comprehensions over zip(...) in the optimizers *)
Definition vmap (f : R -> R) (v : vars) : vars := map (map f) v.
Definition vmap2 (f : R -> R -> R) (v w : vars) : vars := map2 (map2 f) v w.
Definition vadd := vmap2 Rplus.
Definition vsub := vmap2 Rminus.
Definition vopp := vmap Ropp.
Definition vscale (c : R) := vmap (fun t => c * t).
(** tf.zeros_like *)
Definition vzeros := vmap (fun _ => 0).
(** tf.math.reduce_sum, tf.math.add_n of the reduced sums of products *)
Definition tsum (t : tensor) : R := fold_right Rplus 0 t.
Definition vsum (v : vars) : R := fold_right Rplus 0 (map tsum v).
Definition vdot (v w : vars) : R := vsum (vmap2 Rmult v w).

(** shapes *)
Definition shape (v : vars) : list nat := map (@length R) v.
(** entry j of tensor i *)
Definition pt (v : vars) (i j : nat) : R := nth j (nth i v []) 0.

(** ** Facts *)
Lemma map2_length {A B C} (f : A -> B -> C) l : forall m, length l = length m -> length (map2 f l m) = length l.
Proof. induction l as [|a l IH]; intros [|b m] E; cbn in *; try lia. rewrite IH; lia. Qed.

Lemma shape_vmap f v : shape (vmap f v) = shape v.
Proof. unfold shape, vmap. rewrite map_map. apply map_ext. intros t. apply map_length. Qed.

Lemma shape_vmap2 f v : forall w, shape v = shape w -> shape (vmap2 f v w) = shape v.
Proof.
  unfold shape, vmap2. induction v as [|t v IH]; intros [|u w] E; cbn in *; try discriminate; [reflexivity|].
  injection E as E1 E2. rewrite IH by exact E2. now rewrite map2_length.
Qed.

Lemma nth_map0 (f : R -> R) t : f 0 = 0 -> forall j, nth j (map f t) 0 = f (nth j t 0).
Proof. intros H. induction t as [|x t IH]; intros [|j]; cbn; auto. Qed.
Lemma nth_map2 (f : R -> R -> R) t : f 0 0 = 0 -> forall u j, length t = length u -> nth j (map2 f t u) 0 = f (nth j t 0) (nth j u 0).
Proof.
  intros H. induction t as [|x t IH]; intros [|y u] j E; cbn in *; try lia; destruct j; auto.
Qed.

Lemma pt_vmap f v i j : f 0 = 0 -> pt (vmap f v) i j = f (pt v i j).
Proof.
  intros H. unfold pt, vmap. revert i. induction v as [|t v IH]; intros i.
  - destruct i, j; cbn; auto.
  - destruct i; [apply nth_map0; exact H|apply IH].
Qed.
Lemma pt_vmap2 f v i j : f 0 0 = 0 -> forall w, shape v = shape w -> pt (vmap2 f v w) i j = f (pt v i j) (pt w i j).
Proof.
  intros H. unfold pt, vmap2, shape. revert i. induction v as [|t v IH]; intros i [|u w] E; cbn in E; try discriminate.
  - destruct i, j; cbn; auto.
  - injection E as E1 E2. destruct i; [exact (nth_map2 f t H u j E1)|exact (IH i w E2)].
Qed.

Lemma pt_vadd v w i j : shape v = shape w -> pt (vadd v w) i j = pt v i j + pt w i j.
Proof. apply pt_vmap2. lra. Qed.
Lemma pt_vsub v w i j : shape v = shape w -> pt (vsub v w) i j = pt v i j - pt w i j.
Proof. apply pt_vmap2. lra. Qed.
Lemma pt_vopp v i j : pt (vopp v) i j = - pt v i j.
Proof. apply (pt_vmap Ropp). lra. Qed.
Lemma pt_vscale c v i j : pt (vscale c v) i j = c * pt v i j.
Proof. apply (pt_vmap (fun t => c * t)). lra. Qed.
Lemma pt_vzeros v i j : pt (vzeros v) i j = 0.
Proof. apply (pt_vmap (fun _ => 0)). lra. Qed.

Lemma shape_vadd v w : shape v = shape w -> shape (vadd v w) = shape v.
Proof. apply shape_vmap2. Qed.
Lemma shape_vsub v w : shape v = shape w -> shape (vsub v w) = shape v.
Proof. apply shape_vmap2. Qed.
Lemma shape_vopp v : shape (vopp v) = shape v.
Proof. apply shape_vmap. Qed.
Lemma shape_vscale c v : shape (vscale c v) = shape v.
Proof. apply shape_vmap. Qed.
Lemma shape_vzeros v : shape (vzeros v) = shape v.
Proof. apply shape_vmap. Qed.

Lemma nth_ext0 (t u : tensor) : length t = length u -> (forall j, nth j t 0 = nth j u 0) -> t = u.
Proof. intros E H. apply (nth_ext t u 0 0 E). auto. Qed.
Lemma vars_ext v : forall w, shape v = shape w -> (forall i j, pt v i j = pt w i j) -> v = w.
Proof.
  unfold shape, pt. induction v as [|t v IH]; intros [|u w] E H; cbn in E; try discriminate; [reflexivity|].
  injection E as E1 E2. f_equal.
  - apply nth_ext0; [exact E1|]. intros j. exact (H O j).
  - apply IH; [exact E2|]. intros i j. exact (H (S i) j).
Qed.

(** settle shape side conditions, and equations between element-wise expressions *)
Ltac shapes := repeat first
  [ rewrite shape_vzeros | rewrite shape_vopp | rewrite shape_vscale | rewrite shape_vmap
  | rewrite shape_vadd by shapes | rewrite shape_vsub by shapes | rewrite shape_vmap2 by shapes ]; congruence.
Ltac entries :=
  apply vars_ext; [shapes|];
  intros; repeat first [ rewrite pt_vzeros | rewrite pt_vopp | rewrite pt_vscale
  | rewrite pt_vadd by shapes | rewrite pt_vsub by shapes ].

(** ** Sums *)
Lemma tsum_map2 (f : R -> R -> R) (g : R -> R) t : forall u, length t = length u ->
  (forall x y, f x y = g x + g y) -> tsum (map2 f t u) = tsum (map g t) + tsum (map g u).
Proof.
  unfold tsum. induction t as [|x t IH]; intros [|y u] E H; cbn in *; try lia; [lra|].
  rewrite IH by (auto; lia). rewrite H. lra.
Qed.

Lemma vsum_scale c v : vsum (vscale c v) = c * vsum v.
Proof.
  unfold vsum, vscale, vmap. induction v as [|t v IH]; cbn; [lra|]. rewrite IH.
  enough (tsum (map (fun x => c * x) t) = c * tsum t) by lra.
  unfold tsum. induction t as [|x t IHt]; cbn; [lra|]. rewrite IHt. lra.
Qed.

Lemma tsum_add t : forall u, length t = length u -> tsum (map2 Rplus t u) = tsum t + tsum u.
Proof. unfold tsum. induction t as [|x t IH]; intros [|y u] E; cbn in *; try lia; [lra|]. rewrite IH by lia. lra. Qed.
Lemma vsum_add v : forall w, shape v = shape w -> vsum (vadd v w) = vsum v + vsum w.
Proof.
  unfold vsum, vadd, vmap2, shape. induction v as [|t v IH]; intros [|u w] E; cbn in *; try discriminate; [lra|].
  injection E as E1 E2. rewrite IH by exact E2. rewrite tsum_add by exact E1. lra.
Qed.

Lemma vdot_scale_l c v w : vdot (vscale c v) w = c * vdot v w.
Proof.
  unfold vdot. rewrite <- vsum_scale. f_equal. unfold vscale, vmap, vmap2. revert w.
  induction v as [|t v IH]; intros [|u w]; cbn; try reflexivity. f_equal; [|apply IH].
  revert u. induction t as [|x t IHt]; intros [|y u]; cbn; try reflexivity. f_equal; [lra|apply IHt].
Qed.
Lemma vdot_comm v w : vdot v w = vdot w v.
Proof.
  unfold vdot. f_equal. unfold vmap2. revert w. induction v as [|t v IH]; intros [|u w]; cbn; try reflexivity.
  f_equal; [|apply IH]. revert u. induction t as [|x t IHt]; intros [|y u]; cbn; try reflexivity. f_equal; [lra|apply IHt].
Qed.
Lemma vdot_scale_r c v w : vdot v (vscale c w) = c * vdot v w.
Proof. rewrite vdot_comm, vdot_scale_l. now rewrite vdot_comm. Qed.

Lemma tsq_nonneg t : 0 <= tsum (map2 Rmult t t).
Proof. unfold tsum. induction t as [|x t IH]; cbn; [lra|]. pose proof (Rle_0_sqr x) as H. unfold Rsqr in H. lra. Qed.
Lemma vdot_nonneg v : 0 <= vdot v v.
Proof.
  unfold vdot, vsum, vmap2. induction v as [|t v IH]; cbn; [lra|]. pose proof (tsq_nonneg t). lra.
Qed.

#[global] Arguments shape : simpl never.
#[global] Arguments vmap : simpl never.
#[global] Arguments vmap2 : simpl never.
#[global] Arguments vadd : simpl never.
#[global] Arguments vsub : simpl never.
#[global] Arguments vopp : simpl never.
#[global] Arguments vscale : simpl never.
#[global] Arguments vzeros : simpl never.
#[global] Arguments vdot : simpl never.
