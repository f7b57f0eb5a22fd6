(** Proofs about OptModel.v and SolveModel.v, continued: line search, conjugate gradient, clipping,
    synchronization, subsampling, natural gradient, evolution, source variables *)

From Coq Require Import String List ZArith Reals Lra Lia Bool Permutation.
From Verif Require Import OptVec ParModel SolveModel OptModel OptProofs.
Import ListNotations.
Open Scope R_scope.

(** ** Line search with a constant factor *)
Section Line.
Context {D Slots : Type}.
Variable loss : nat -> arguments D -> vars -> R.
Notation world := (@world Slots).
Variable L : arguments D -> vars -> R.
Hypothesis deterministic : forall n a v, loss n a v = L a v.
Variable a : arguments D.
Variables (f : param) (b : R).
Hypothesis constant_factor : forall n, p_value f n = b.
Variables (v0 x0 : vars).
Hypothesis shapes0 : shape x0 = shape v0.
Variables base zero : R.

(** the point with fraction b^j of the step *)
Definition ray (j : nat) : vars := vadd v0 (vscale (b ^ j) x0).

Lemma shape_ray j : shape (ray j) = shape v0.
Proof. unfold ray. shapes. Qed.

Definition at_iteration (e : nat) (g : vars) (j : nat) (q : search * world) : Prop :=
  s_x (fst q) = vscale (b ^ j) x0 /\ s_deltas (fst q) = vscale (b ^ S j - b ^ j) x0 /\
  s_improvement (fst q) = base - L a (ray (S j)) /\
  s_last (fst q) = base - (if Nat.eqb j 0 then zero else L a (ray j)) /\ s_base (fst q) = base /\
  w_vars (snd q) = ray (S j) /\ w_evals (snd q) = (e + S j)%nat /\ w_globals (snd q) = g.

Lemma ls_iterations (w : world) n :
  w_vars w = vadd v0 x0 ->
  at_iteration (w_evals w) (w_globals w) n
    (Nat.iter n (ls_step (evaluate_step loss a) (read f))
      (let '(s, w1) := ls_start (evaluate_step loss a) (read f) x0 base zero w in (s, tick w1))).
Proof.
  intros E. induction n as [|n IH].
  - unfold at_iteration. cbn. rewrite !deterministic, constant_factor, E.
    assert (X : vadd (vadd v0 x0) (vmap (fun t => t * (b - 1)) x0) = ray 1).
    { unfold ray. replace (vmap (fun t => t * (b - 1)) x0) with (vscale (b - 1) x0)
        by (unfold vscale, vmap; apply map_ext; intros; apply map_ext; intros; lra). entries. ring. }
    rewrite X. repeat split; try reflexivity; try lia.
    + entries. lra.
    + unfold vscale, vmap. apply map_ext. intros. apply map_ext. intros. lra.
  - match goal with |- at_iteration _ _ _ (Nat.iter (S n) ?F ?x) => change (Nat.iter (S n) F x) with (F (Nat.iter n F x)) end.
    destruct (Nat.iter n _ _) as [s u]. destruct IH as (I1 & I2 & I3 & I4 & I5 & I6 & I7 & I8).
    cbn in I1, I2, I3, I4, I5, I6, I7, I8. unfold at_iteration. cbn -[pow Nat.eqb].
    rewrite !deterministic, constant_factor, I1, I2, I3, I5, I6, I7, I8.
    assert (X : vmap (fun t => t * b) (vscale (b ^ S n - b ^ n) x0) = vscale (b ^ S (S n) - b ^ S n) x0).
    { unfold vscale, vmap. rewrite map_map. apply map_ext. intros. rewrite map_map. apply map_ext. intros. cbn. ring. }
    change (b ^ S n) with (b * b ^ n) in *. rewrite X.
    assert (Y : vadd (ray (S n)) (vscale (b ^ S (S n) - b * b ^ n) x0) = ray (S (S n))).
    { unfold ray. entries. cbn. ring. }
    rewrite Y. repeat split; try reflexivity; try lia.
    entries. ring.
Qed.

Lemma ls_solved m (w : world) :
  w_vars w = vadd v0 x0 -> zero = L a (vadd v0 x0) ->
  let r := ls_solve (evaluate_step loss a) (read f) (read_int m) x0 base zero w in
  let n := Z.to_nat (i_value m (S (w_clock w))) in
  exists k, (k <= S n)%nat /\ fst r = vscale (b ^ k) x0 /\ w_vars (snd r) = ray k /\
    (forall j, (S j < k)%nat -> L a (ray (S j)) < L a (ray j)) /\
    (forall j, S j = k -> L a (ray k) <= L a (ray j)) /\
    (k = S n \/ L a (ray k) < L a (ray (S k)) \/ (exists j, k = S j /\ L a (ray k) = L a (ray j))) /\
    (w_evals (snd r) <= w_evals w + n + 2)%nat.
Proof.
  intros E Z0 r n. unfold r, ls_solve. clear r.
  pose proof (fun j => ls_iterations w j E) as I.
  destruct (ls_start _ _ _ _ _ _) as [s0 w1] eqn:E0. cbn [read_int].
  assert (C : w_clock w1 = S (w_clock w)). { unfold ls_start in E0. cbn in E0. injection E0 as <- <-. reflexivity. }
  rewrite C. fold n. clearbody n.
  assert (LAST : forall j, base - (if Nat.eqb j 0 then zero else L a (ray j)) = base - L a (ray j)).
  { intros [|j]; cbn [Nat.eqb]; [|reflexivity]. rewrite Z0. do 2 f_equal. unfold ray. entries. cbn. lra. }
  destruct (while_iter n ls_next (ls_step (evaluate_step loss a) (read f)) (s0, tick w1)) as (k & K & EW & CT & CF).
  rewrite EW.
  assert (DOWN : forall j, (j < k)%nat -> L a (ray (S j)) < L a (ray j)).
  { intros j J. specialize (CT j J). destruct (I j) as (I1 & I2 & I3 & I4 & _).
    unfold ls_next in CT. rewrite I3, I4, LAST in CT. revert CT. destruct (Rltb_spec (base - L a (ray j)) (base - L a (ray (S j)))); [lra|discriminate]. }
  destruct (I k) as (I1 & I2 & I3 & I4 & I5 & I6 & I7 & I8).
  assert (STOP : (k < n)%nat -> L a (ray k) <= L a (ray (S k))).
  { intros J. specialize (CF J). unfold ls_next in CF. rewrite I3, I4, LAST in CF. revert CF.
    destruct (Rltb_spec (base - L a (ray k)) (base - L a (ray (S k)))); [discriminate|lra]. }
  destruct (Nat.iter k _ _) as [s u] eqn:EI. cbn in I1, I2, I3, I4, I5, I6, I7, I8. unfold ls_end.
  rewrite I3, I4, LAST. destruct (Rleb_spec (base - L a (ray k)) (base - L a (ray (S k)))) as [A|A].
  - exists (S k). cbn [fst snd]. rewrite I1, I2, I6, I7. repeat split; try lia; try reflexivity.
    + entries. cbn. ring.
    + intros j J. apply DOWN. lia.
    + intros j J. injection J as ->. lra.
    + destruct (Nat.eq_dec k n) as [->|NE]; [left; reflexivity|]. right. right. exists k. split; [reflexivity|].
      assert (k < n)%nat by lia. specialize (STOP H). lra.
  - cbn. exists k. rewrite I1, I2, I6, I7. repeat split; try lia; try reflexivity.
    + unfold ray. entries. cbn. ring.
    + intros j J. apply DOWN. lia.
    + intros j <-. specialize (DOWN j ltac:(lia)). lra.
    + right. left. lra.
Qed.
End Line.

(** ** Conjugate gradient *)
Section CG.
Context {W : Type}.
Variable A : vars -> vars.
Variable sh : list nat.
Hypothesis A_shape : forall x, shape x = sh -> shape (A x) = sh.
Hypothesis A_add : forall x y, shape x = sh -> shape y = sh -> A (vadd x y) = vadd (A x) (A y).
Hypothesis A_scale : forall c x, shape x = sh -> A (vscale c x) = vscale c (A x).
Variables (damping : W -> R * W) (dd : R).
Hypothesis constant_damping : forall w, fst (damping w) = dd.
Variables (x0 b : vars).
Hypothesis x0_shape : shape x0 = sh.
Hypothesis b_shape : shape b = sh.

(** b - A x - d (x - x_init) *)
Definition left_over (x : vars) : vars := vsub (vsub b (A x)) (vscale dd (vsub x x0)).

Lemma shape_left_over x : shape x = sh -> shape (left_over x) = sh.
Proof. intros H. unfold left_over. pose proof (A_shape x H). shapes. Qed.

Definition tracked (g : cg) : Prop :=
  shape (g_x g) = sh /\ shape (g_conjugate g) = sh /\ g_residual g = left_over (g_x g) /\
  g_squared g = vdot (left_over (g_x g)) (left_over (g_x g)).

Lemma cg_tracked k w : tracked (fst (Nat.iter k (cg_step A damping) (cg_start A x0 b, w))).
Proof.
  induction k as [|k IH].
  - cbn. pose proof (A_shape x0 x0_shape) as S.
    assert (E : vsub b (A x0) = left_over x0) by (unfold left_over; entries; lra).
    unfold tracked; cbn. rewrite E. repeat split; try assumption. now apply shape_left_over.
  - change (Nat.iter (S k) (cg_step A damping) (cg_start A x0 b, w)) with (cg_step A damping (Nat.iter k (cg_step A damping) (cg_start A x0 b, w))).
    destruct (Nat.iter k _ _) as [g u]. destruct IH as (I1 & I2 & I3 & I4). cbn in I1, I2, I3, I4 |- *.
    pose proof (constant_damping u) as CD. destruct (damping u) as [d' u']. cbn in CD. subst d'. cbn.
    set (M := if Reqb dd 0 then _ else _).
    assert (EM : M = vadd (A (g_conjugate g)) (vscale dd (g_conjugate g))).
    { unfold M. destruct (Reqb_spec dd 0) as [->|]; [|reflexivity]. pose proof (A_shape _ I2). entries. lra. }
    set (alpha := g_squared g / _). pose proof (A_shape _ I1) as S1. pose proof (A_shape _ I2) as S2.
    assert (SM : shape M = sh) by (rewrite EM; shapes).
    assert (SX : shape (vadd (g_x g) (vscale alpha (g_conjugate g))) = sh) by shapes.
    assert (ER : vsub (g_residual g) (vscale alpha M) = left_over (vadd (g_x g) (vscale alpha (g_conjugate g)))).
    { rewrite I3. unfold left_over. rewrite A_add by shapes. rewrite A_scale by exact I2. rewrite EM. entries. ring. }
    unfold tracked; cbn. rewrite ER. pose proof (shape_left_over _ SX). repeat split; try assumption. shapes.
Qed.
End CG.

(** ** Clipping *)
(** the bound which a mode is meant to establish: sum of all squares, sum of the squares of every
    tensor, every entry *)
Definition within (m : mode) (c : R) (v : vars) : Prop :=
  match m with
  | GlobalNorm => vdot v v <= c * c
  | Norm => Forall (fun t => vdot [t] [t] <= c * c) v
  | Value => forall i j, Rabs (pt v i j) <= c
  end.

Lemma scaled_norm c v : 0 < c ->
  vdot (vscale (c / Rmax (global_norm v) c) v) (vscale (c / Rmax (global_norm v) c) v) <= c * c.
Proof.
  intros C. rewrite vdot_scale_l, vdot_scale_r. pose proof (vdot_nonneg v) as N. unfold global_norm.
  pose proof (sqrt_sqrt _ N) as S. pose proof (sqrt_pos (vdot v v)) as P. set (s := sqrt (vdot v v)) in *.
  assert (M : 0 < Rmax s c) by (apply Rlt_le_trans with c; [exact C|apply Rmax_r]).
  pose proof (Rmax_l s c) as ML. rewrite <- S.
  replace (c / Rmax s c * (c / Rmax s c * (s * s))) with (c * c * ((s * s) / (Rmax s c * Rmax s c))) by (field; lra).
  rewrite <- (Rmult_1_r (c * c)) at 2. apply Rmult_le_compat_l; [nra|].
  apply Rmult_le_reg_r with (Rmax s c * Rmax s c); [nra|]. unfold Rdiv. rewrite Rmult_assoc, Rinv_l by nra. nra.
Qed.

Lemma small_scale c v : 0 < c -> vdot v v <= c * c -> c / Rmax (global_norm v) c = 1.
Proof.
  intros C H. unfold global_norm. pose proof (vdot_nonneg v) as N.
  assert (sqrt (vdot v v) <= c).
  { rewrite <- (sqrt_square c) by lra. now apply sqrt_le_1_alt. }
  rewrite Rmax_right by assumption. field. lra.
Qed.

Lemma vscale_1 v : vscale 1 v = v.
Proof. entries. lra. Qed.

Lemma clip_norm_scale c t : [clip_by_norm c t] = vscale (c / Rmax (global_norm [t]) c) [t].
Proof. reflexivity. Qed.

Lemma clip_within m c v : 0 < c -> within m c (clip m c v).
Proof.
  intros C. destruct m; cbn [within clip].
  - now apply scaled_norm.
  - induction v as [|t v IH]; constructor; [|exact IH]. rewrite clip_norm_scale. now apply scaled_norm.
  - intros i j. rewrite pt_vmap.
    + unfold clip_by_value. apply Rabs_le. split.
      * apply Rmin_glb; [|lra]. apply Rmax_r.
      * apply Rmin_r.
    + unfold clip_by_value. rewrite Rmax_left by lra. apply Rmin_left. lra.
Qed.

Lemma clip_small m c v : 0 < c -> within m c v -> clip m c v = v.
Proof.
  intros C H. destruct m; cbn [within clip] in *.
  - unfold clip_by_global_norm. rewrite small_scale by assumption. apply vscale_1.
  - induction H as [|t v H F IH]; [reflexivity|]. cbn. f_equal; [|exact IH].
    unfold clip_by_norm. rewrite small_scale by assumption. rewrite <- (map_id t) at 2. apply map_ext. intros. lra.
  - apply vars_ext; [apply shape_vmap|]. intros i j. rewrite pt_vmap.
    + specialize (H i j). apply Rabs_def2b in H || idtac. unfold clip_by_value.
      assert (- c <= pt v i j <= c) by (unfold Rabs in H; destruct (Rcase_abs (pt v i j)); lra).
      rewrite Rmax_left by lra. apply Rmin_left. lra.
    + unfold clip_by_value. rewrite Rmax_left by lra. apply Rmin_left. lra.
Qed.

(** ** Subsampling *)
(** entries [start, start + length) of a list *)
Definition sequence {A} (x : list A) (h : nat * nat) : list A := firstn (snd h) (skipn (fst h) x).

Lemma gather_seq {A} (d : A) x start n : (start + n <= length x)%nat -> gather d x (seq start n) = sequence x (start, n).
Proof.
  unfold gather, sequence. cbn. revert x. induction start as [|s IH]; intros x H.
  - cbn. revert x H. induction n as [|n IH]; intros x H; [reflexivity|]. destruct x as [|y x]; [cbn in H; lia|].
    cbn. f_equal. rewrite <- IH by (cbn in H; lia). rewrite <- seq_shift, map_map. reflexivity.
  - destruct x as [|y x]; [cbn in H; lia|]. cbn [skipn]. rewrite <- IH by (cbn in H; lia).
    rewrite <- (seq_shift n s), map_map. reflexivity.
Qed.

Lemma cumsum_nth l : forall k i, (i < length l)%nat -> nth i (cumsum k l) O = (k + list_sum (firstn i l))%nat.
Proof.
  induction l as [|n l IH]; intros k i H; cbn in H; [lia|]. destruct i; cbn; [lia|].
  rewrite IH by lia. unfold list_sum. lia.
Qed.
Lemma cumsum_length l : forall k, length (cumsum k l) = length l.
Proof. induction l as [|n l IH]; intros k; cbn; auto. Qed.

Lemma flat_sequences {A} (d : A) x (hs : list (nat * nat)) :
  Forall (fun h => (fst h + snd h <= length x)%nat) hs ->
  forall i, (i < length hs)%nat ->
  sequence (gather d x (flat_map (fun '(start, n) => seq start n) hs)) (list_sum (firstn i (map snd hs)), nth i (map snd hs) O)
  = sequence x (nth i hs (O, O)).
Proof.
  intros F. induction F as [|[s n] hs H F IH]; intros i I; cbn in I; [lia|].
  cbn [flat_map]. unfold gather. rewrite map_app. fold (gather d x (seq s n)). fold (gather d x (flat_map (fun '(start, n) => seq start n) hs)).
  cbn [fst snd] in H.
  assert (LEN : length (gather d x (seq s n)) = n) by (unfold gather; rewrite map_length, seq_length; reflexivity).
  destruct i as [|i].
  - cbn. unfold sequence. cbn [fst snd skipn]. change (firstn n (skipn s x)) with (sequence x (s, n)). rewrite <- (gather_seq d x s n H).
    rewrite firstn_app, LEN, Nat.sub_diag. cbn [firstn]. rewrite app_nil_r. rewrite <- LEN at 1. apply firstn_all.
  - cbn [map nth firstn snd]. rewrite <- (IH i) by lia. unfold sequence. cbn [fst snd].
    f_equal. change (list_sum (n :: firstn i (map snd hs))) with (n + list_sum (firstn i (map snd hs)))%nat.
    rewrite skipn_app, LEN. rewrite skipn_all2 by lia. cbn. f_equal. lia.
Qed.

(** ** Natural gradient *)
Section Natural.
Context {D Slots : Type}.
Variable loss : nat -> arguments D -> vars -> R.
Variable gradient : arguments D -> vars -> list (option tensor).
Variable fisher : arguments D -> vars -> vars -> vars.
Notation world := (@world Slots).
Hypothesis fisher_scale : forall a v c x, fisher a v (vscale c x) = vscale c (fisher a v x).

(** quadratic estimate of the KL divergence of a step *)
Definition kl_estimate (a : arguments D) (v x : vars) : R := 1 / 2 * vdot (fisher a v x) x.

Lemma kl_scale a v c x : kl_estimate a v (vscale c x) = c * c * kl_estimate a v x.
Proof. unfold kl_estimate. rewrite fisher_scale, vdot_scale_l, vdot_scale_r. ring. Qed.

Lemma natural_kl lr r m dp op a (w : world) ds w' :
  (forall n, p_value lr n = r) -> 0 < r -> op = true ->
  natural_step loss gradient fisher lr m dp op a w = (ds, w') ->
  0 <= kl_estimate a (w_vars w) ds <= (r + epsilon6) * (r + epsilon6).
Proof.
  intros LR POS OP E. unfold natural_step in E. cbn [eval_loss w_vars] in E.
  destruct (cg_solve _ _ _ _ _ _) as [x w1]. unfold read in E. rewrite LR in E. subst op. cbn [andb] in E.
  fold (kl_estimate a (w_vars w) x) in E. set (c := kl_estimate a (w_vars w) x) in *.
  assert (EP : 0 < epsilon6) by (unfold epsilon6; lra).
  assert (BIG : 0 <= (r + epsilon6) * (r + epsilon6)) by nra.
  destruct (Rltb_spec c (epsilon6 * r)) as [C|C].
  - injection E as <- _. replace (vzeros x) with (vscale 0 x) by (entries; lra). rewrite kl_scale. lra.
  - assert (CP : 0 < c) by nra. injection E as <- _.
    destruct (Rltb_spec 0 c) as [_|N]; [|lra].
    pose proof (sqrt_lt_R0 c CP) as SP. pose proof (sqrt_sqrt c ltac:(lra)) as SS. set (q := sqrt c) in *.
    assert (QP : 0 < q / (r + epsilon6)) by (apply Rdiv_lt_0_compat; lra).
    destruct (Rltb_spec 0 (q / (r + epsilon6))) as [_|N]; [|lra].
    set (l := q / (r + epsilon6)) in *.
    replace (vmap (fun x0 : R => x0 / (l + epsilon6)) x) with (vscale (/ (l + epsilon6)) x)
      by (unfold vscale, vmap; apply map_ext; intros; apply map_ext; intros; unfold Rdiv; lra).
    rewrite kl_scale. fold c. rewrite <- SS.
    assert (QE : q = l * (r + epsilon6)) by (unfold l; field; lra).
    rewrite QE. set (k := l + epsilon6). assert (KP : 0 < k) by (unfold k; lra).
    assert (LK : 0 <= l * / k <= 1).
    { split; [apply Rmult_le_pos; [lra|left; now apply Rinv_0_lt_compat]|].
      apply Rmult_le_reg_r with k; [exact KP|]. rewrite Rmult_assoc, Rinv_l by lra. unfold k. lra. }
    replace (/ k * / k * (l * (r + epsilon6) * (l * (r + epsilon6)))) with ((l * / k) * (l * / k) * ((r + epsilon6) * (r + epsilon6))) by ring.
    split; [apply Rmult_le_pos; nra|]. rewrite <- (Rmult_1_l ((r + epsilon6) * (r + epsilon6))) at 2.
    apply Rmult_le_compat_r; nra.
Qed.
End Natural.

(** ** Evolution *)
Section Evolution.
Context {D Slots : Type}.
Variable loss : nat -> arguments D -> vars -> R.
Variable L : arguments D -> vars -> R.
Hypothesis deterministic : forall n a v, loss n a v = L a v.
Variable normal : nat -> nat -> nat -> R.
Notation world := (@world Slots).

(** the perturbation drawn at a time *)
Definition drawn (lr : R) (v : vars) (t : nat) (p : vars) : Prop :=
  shape p = shape v /\ forall i j, (j < length (nth i v []))%nat -> pt p i j = lr * normal t i j.
(** +1 if the perturbation lowers the loss, else -1 *)
Definition verdict (a : arguments D) (v p : vars) : R := if Rltb (L a (vadd v p)) (L a v) then 1 else -1.
Definition signed_sum (a : arguments D) (v : vars) (ps : list vars) : vars :=
  fold_left (fun acc p => vadd acc (vscale (verdict a v p) p)) ps (vzeros v).

Lemma perturbation_drawn lr (w : world) : drawn lr (w_vars w) (w_clock w) (fst (perturbation normal lr w)).
Proof.
  split; [apply shape_perturbation|]. intros i j J. cbn. unfold pt.
  assert (X : forall v k i, (j < length (nth i v []))%nat ->
    nth j (nth i (map2 (fun i (t : tensor) => map (fun j => lr * normal (w_clock w) i j) (seq 0 (length t))) (seq k (length v)) v) []) 0
    = lr * normal (w_clock w) (k + i)%nat j).
  { clear. intros v. induction v as [|t v IH]; intros k i J; [destruct i; cbn in J; lia|].
    cbn [length seq map2]. destruct i; cbn [nth] in *.
    - set (g := fun j0 : nat => lr * normal (w_clock w) k j0). rewrite nth_indep with (d' := g O) by (rewrite map_length, seq_length; exact J).
      rewrite map_nth. rewrite seq_nth by exact J. unfold g. do 2 f_equal. lia.
    - rewrite IH by exact J. do 2 f_equal. lia. }
  apply (X (w_vars w) O i J).
Qed.

Lemma drawn_shape lr v v' t p : map (@length R) v = map (@length R) v' -> drawn lr v t p -> drawn lr v' t p.
Proof.
  intros E [H1 H2]. split; [unfold shape in *; congruence|]. intros i j J. apply H2.
  assert (X : length (nth i v []) = length (nth i v' [])); [|refine (Nat.lt_le_trans _ _ _ J _); apply Nat.eq_le_incl; symmetry; exact X].
  change 0%nat with (length (@nil R)). rewrite <- !(map_nth (@length R)). now rewrite E.
Qed.

Lemma evolved lr a v0 n (w : world) :
  w_vars w = v0 ->
  let r := Nat.iter n (evolve loss normal lr (L a v0) a) (vzeros v0, vzeros v0, w) in
  exists ps, length ps = n /\ fst (fst r) = signed_sum a v0 ps /\
    snd (fst r) = last ps (vzeros v0) /\ w_vars (snd r) = vadd v0 (last ps (vzeros v0)) /\ w_clock (snd r) = (w_clock w + n)%nat /\
    (forall i, (i < n)%nat -> drawn lr v0 (w_clock w + i) (nth i ps [])).
Proof.
  intros E r. unfold r. clear r. induction n as [|n IH].
  - exists []. cbn. rewrite E. repeat split; try lia. entries. lra.
  - match goal with |- context [Nat.iter (S n) ?F ?x] => change (Nat.iter (S n) F x) with (F (Nat.iter n F x)) end.
    destruct (Nat.iter n _ _) as [[ds pr] u]. destruct IH as (ps & I1 & I2 & I3 & I4 & I5 & I6). cbn in I1, I2, I3, I4, I5.
    unfold evolve. pose proof (perturbation_drawn lr u) as P. destruct (perturbation normal lr u) as [p u'] eqn:EP.
    cbn in P. assert (U : u' = tick u) by (cbn in EP; injection EP as _ <-; reflexivity). subst u'.
    assert (SL : shape (last ps (vzeros v0)) = shape v0).
    { destruct n as [|n]; [destruct ps; [cbn; apply shape_vzeros|discriminate]|].
      destruct (I6 n ltac:(lia)) as [S _]. destruct ps as [|p0 ps] using rev_ind; [discriminate|].
      rewrite app_length in I1. cbn in I1. rewrite last_last. rewrite app_nth2 in S by lia. replace (n - length ps)%nat with O in S by lia. exact S. }
    assert (P' : drawn lr v0 (w_clock u) p).
    { apply (drawn_shape lr (w_vars u)); [|exact P]. rewrite I4. change (shape (vadd v0 (last ps (vzeros v0))) = shape v0). shapes. }
    assert (SP : shape p = shape v0) by apply P'.
    exists (ps ++ [p])%list. cbn. rewrite deterministic.
    assert (V : vadd (w_vars u) (vsub p pr) = vadd v0 p) by (rewrite I4, I3; entries; lra).
    rewrite V, last_last. repeat split.
    + rewrite app_length, I1. cbn. lia.
    + rewrite I2. unfold signed_sum. rewrite fold_left_app. cbn. reflexivity.
    + rewrite I5. lia.
    + destruct (Nat.eq_dec i n) as [->|NE].
      * rewrite app_nth2, I1, Nat.sub_diag by lia. exact SP.
      * rewrite app_nth1 by lia. apply I6. lia.
    + destruct (Nat.eq_dec i n) as [->|NE].
      * rewrite app_nth2, I1, Nat.sub_diag by lia. rewrite <- I5. apply P'.
      * rewrite app_nth1 by lia. apply I6. lia.
Qed.
End Evolution.

(** ** Source variables *)
Lemma index_of_nth x l k : index_of x l = Some k -> nth_error l k = Some x.
Proof.
  revert k. induction l as [|y l IH]; intros k E; cbn in E; [discriminate|].
  destruct (String.eqb_spec x y) as [->|N]; [injection E as <-; reflexivity|].
  destruct (index_of x l) as [j|]; [|discriminate]. injection E as <-. cbn. now apply IH.
Qed.

Definition sorted_by {A} (l : list (nat * A)) : Prop := forall i j x y, (i < j)%nat -> nth_error l i = Some x -> nth_error l j = Some y -> (fst x <= fst y)%nat.

Lemma sorted_cons {A} (x : nat * A) l : sorted_by (x :: l) <-> sorted_by l /\ Forall (fun y => (fst x <= fst y)%nat) l.
Proof.
  split.
  - intros S. split.
    + intros i j y z IJ. exact (S (Datatypes.S i) (Datatypes.S j) y z ltac:(lia)).
    + apply Forall_forall. intros y I. destruct (In_nth_error _ _ I) as [k K]. exact (S O (Datatypes.S k) x y ltac:(lia) eq_refl K).
  - intros [S F] i j y z IJ EY EZ. destruct j; [lia|]. cbn in EZ. destruct i; cbn in EY.
    + injection EY as <-. rewrite Forall_forall in F. apply F. eapply nth_error_In; eauto.
    + apply (S i j); [lia|assumption|assumption].
Qed.

Lemma insert_sorted {A} (x : nat * A) l : sorted_by l -> sorted_by (insert_by x l) /\ Permutation (insert_by x l) (x :: l).
Proof.
  induction l as [|y l IH]; intros S; cbn [insert_by].
  - split; [|reflexivity]. apply sorted_cons. split; [intros [|i] ? ? ? ? H; discriminate|constructor].
  - apply sorted_cons in S. destruct S as [S F]. destruct (Nat.ltb_spec (fst x) (fst y)).
    + split; [|reflexivity]. apply sorted_cons. split; [apply sorted_cons; auto|]. constructor; [lia|].
      eapply Forall_impl; [|exact F]. cbn. intros; lia.
    + destruct (IH S) as [S' P]. split; [|rewrite P; apply perm_swap].
      apply sorted_cons. split; [exact S'|]. eapply Permutation_Forall; [symmetry; exact P|]. constructor; [lia|exact F].
Qed.

Lemma fold_sorted {A} (l : list (nat * A)) : forall acc, sorted_by acc ->
  sorted_by (fold_left (fun acc x => insert_by x acc) l acc) /\ Permutation (fold_left (fun acc x => insert_by x acc) l acc) (l ++ acc)%list.
Proof.
  induction l as [|x l IH]; intros acc S; cbn; [split; [exact S|reflexivity]|].
  destruct (insert_sorted x acc S) as [S' P]. destruct (IH _ S') as [S2 P2]. split; [exact S2|].
  rewrite P2, P. symmetry. apply Permutation_middle.
Qed.

Lemma keys_spec {A} (f : A -> option nat) l r : keys f l = Some r -> map snd r = l /\ Forall (fun kx => f (snd kx) = Some (fst kx)) r.
Proof.
  revert r. induction l as [|x l IH]; intros r E; cbn in E; [injection E as <-; split; constructor|].
  destruct (f x) as [k|] eqn:F; [|discriminate]. destruct (keys f l) as [r'|]; [|discriminate]. injection E as <-.
  destruct (IH r' eq_refl) as [M G]. cbn. split; [now f_equal|constructor; auto].
Qed.
Lemma keys_total {A} (f : A -> option nat) l : (forall x, In x l -> f x <> None) -> exists r, keys f l = Some r.
Proof.
  induction l as [|x l IH]; intros H; cbn; [eauto|]. destruct (f x) eqn:E; [|exfalso; apply (H x); cbn; auto].
  destruct IH as [r ->]; [intros; apply H; cbn; auto|eauto].
Qed.
Lemma index_of_in x l : In x l -> index_of x l <> None.
Proof.
  induction l as [|y l IH]; cbn; [tauto|]. intros [->|I]; [rewrite String.eqb_refl; discriminate|].
  destruct (String.eqb x y); [discriminate|]. destruct (index_of x l); [discriminate|]. intros _. now apply IH.
Qed.

(** a sorted list of n different numbers below n is 0, ..., n - 1 *)
Lemma sorted_seq (l : list nat) : forall k, NoDup l -> (forall i j x y, (i < j)%nat -> nth_error l i = Some x -> nth_error l j = Some y -> (x <= y)%nat) ->
  Forall (fun x => (k <= x < k + length l)%nat) l -> l = seq k (length l).
Proof.
  induction l as [|x l IH]; intros k N S F; [reflexivity|]. inversion N as [|? ? NI N']; subst. inversion F as [|? ? B F']; subst.
  cbn in B, F'.
  assert (GT : forall y, In y l -> (x < y)%nat).
  { intros y I. destruct (In_nth_error _ _ I) as [j J]. pose proof (S O (Datatypes.S j) x y ltac:(lia) eq_refl J).
    assert (x <> y) by (intros ->; contradiction). lia. }
  assert (XK : x = k).
  { destruct (Nat.eq_dec x k) as [|NE]; [assumption|]. exfalso.
    assert (incl l (seq (Datatypes.S x) (k + length l - x))).
    { intros y I. apply in_seq. rewrite Forall_forall in F'. specialize (F' y I). specialize (GT y I). lia. }
    pose proof (NoDup_incl_length N' H) as LE. rewrite seq_length in LE. lia. }
  subst x. cbn [length seq]. f_equal. apply IH; [exact N'| |].
  - intros i j y z IJ A B'. exact (S (Datatypes.S i) (Datatypes.S j) y z ltac:(lia) A B').
  - apply Forall_forall. intros y I. rewrite Forall_forall in F'. specialize (F' y I). specialize (GT y I). lia.
Qed.
