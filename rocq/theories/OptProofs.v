(** Proofs about OptModel.v and SolveModel.v *)

From Coq Require Import String List ZArith Reals Lra Lia Bool.
From Verif Require Import OptVec ParModel SolveModel OptModel.
Import ListNotations.
Open Scope R_scope.

(** ** Loops *)
Lemma while_inv {A} (P : A -> Prop) n cond (body : A -> A) a :
  P a -> (forall x, P x -> cond x = true -> P (body x)) -> P (while_loop n cond body a).
Proof.
  revert a. induction n as [|n IH]; intros a H0 H; cbn; [exact H0|].
  destruct (cond a) eqn:E; [|exact H0]. apply IH; auto.
Qed.

(** the loop as the number of iterations it runs *)
Lemma while_iter {A} n cond (body : A -> A) a :
  exists k, (k <= n)%nat /\ while_loop n cond body a = Nat.iter k body a /\
  (forall j, (j < k)%nat -> cond (Nat.iter j body a) = true) /\
  ((k < n)%nat -> cond (Nat.iter k body a) = false).
Proof.
  revert a. induction n as [|n IH]; intros a; cbn [while_loop].
  - exists O. repeat split; intros; lia.
  - destruct (cond a) eqn:E.
    + destruct (IH (body a)) as (k & K & E' & C & L). exists (S k).
      assert (X : forall j, Nat.iter j body (body a) = Nat.iter (S j) body a).
      { induction j as [|j IHj]; [reflexivity|]. change (body (Nat.iter j body (body a)) = body (Nat.iter (S j) body a)). now rewrite IHj. }
      rewrite E', X. repeat split; [lia| |].
      * intros [|j] J; [exact E|]. rewrite <- X. apply C. lia.
      * intros J. rewrite <- X. apply L. lia.
    + exists O. repeat split; [lia| |]; intros; [lia|exact E].
Qed.

Lemma while_true {A} n (body : A -> A) a : while_loop n (fun _ => true) body a = Nat.iter n body a.
Proof.
  revert a. induction n as [|n IH]; intros a; cbn [while_loop]; [reflexivity|]. rewrite IH.
  clear IH. induction n as [|n IH]; [reflexivity|]. change (body (Nat.iter n body (body a)) = body (Nat.iter (S n) body a)). now rewrite IH.
Qed.

Lemma Rltb_spec x y : Bool.reflect (x < y) (Rltb x y).
Proof. unfold Rltb. destruct (Rlt_dec x y); constructor; assumption. Qed.
Lemma Rleb_spec x y : Bool.reflect (x <= y) (Rleb x y).
Proof. unfold Rleb. destruct (Rle_dec x y); constructor; assumption. Qed.
Lemma Reqb_spec x y : Bool.reflect (x = y) (Reqb x y).
Proof. unfold Reqb. destruct (Req_EM_T x y); constructor; assumption. Qed.

(** ** Shapes *)
Lemma shape_clip m c v : shape (clip m c v) = shape v.
Proof.
  destruct m; cbn [clip]; [apply shape_vscale| |apply shape_vmap].
  unfold shape. rewrite map_map. apply map_ext. intros t. apply map_length.
Qed.

(** cg_step keeps the shapes *)
Lemma cg_shapes {W} (fn_x : vars -> vars) (damping : W -> R * W) (maxi : W -> Z * W) sh x0 b (w : W) :
  (forall x, shape x = sh -> shape (fn_x x) = sh) -> shape x0 = sh -> shape b = sh ->
  shape (fst (cg_solve fn_x damping maxi x0 b w)) = sh.
Proof.
  intros F X B. unfold cg_solve. destruct (maxi w) as [n w1].
  assert (I : let r := while_loop (Z.to_nat n) (@cg_next W) (cg_step fn_x damping) (cg_start fn_x x0 b, w1) in
              shape (g_x (fst r)) = sh /\ shape (g_conjugate (fst r)) = sh /\ shape (g_residual (fst r)) = sh).
  { apply (while_inv (fun r => shape (g_x (fst r)) = sh /\ shape (g_conjugate (fst r)) = sh /\ shape (g_residual (fst r)) = sh)).
    - cbn. assert (S : shape (vsub b (fn_x x0)) = sh) by (rewrite shape_vsub; [exact B|rewrite F; auto]). auto.
    - intros [g u] (I1 & I2 & I3) _. cbn in I1, I2, I3 |- *. destruct (damping u) as [dd u']. cbn.
      set (A := if Reqb dd 0 then _ else _).
      assert (SA : shape A = sh) by (unfold A; destruct (Reqb dd 0); [|rewrite shape_vadd]; rewrite ?shape_vscale, F; congruence).
      repeat split; shapes. }
  destruct (while_loop _ _ _ _) as [g w2]. apply I.
Qed.

Section Deltas.
Context {D : Type} (d : D) {Slots : Type}.
Variable loss : nat -> arguments D -> vars -> R.
Variable gradient : arguments D -> vars -> list (option tensor).
Variable fisher : arguments D -> vars -> vars -> vars.
Variable apply_gradients : nat -> list (option tensor) -> vars -> Slots -> vars * Slots.
Variable normal : nat -> nat -> nat -> R.
Variable uniform : nat -> nat -> nat.
Variable sources : vars.
Notation world := (@world Slots).
Notation step := (step d loss gradient fisher apply_gradients normal uniform sources).

(** TensorFlow keeps the shapes of variables, gradients and products *)
Definition same_shape (g : option tensor) (t : tensor) : Prop := match g with Some u => length u = length t | None => True end.
Hypothesis gradient_shape : forall a v, Forall2 same_shape (gradient a v) v.
Hypothesis fisher_shape : forall a v x, shape x = shape v -> shape (fisher a v x) = shape v.
Hypothesis apply_shape : forall id g v s, shape (fst (apply_gradients id g v s)) = shape v.

Variable sh : list nat.
Hypothesis sources_shape : shape sources = sh.

(** shapes of the state *)
Definition ok (w : world) : Prop := shape (w_vars w) = sh /\ shape (w_globals w) = sh.
(** what a step reports is what it did *)
Definition reports (w : world) (r : vars * world) : Prop :=
  ok (snd r) /\ shape (fst r) = sh /\ w_vars (snd r) = vadd (w_vars w) (fst r).

Lemma shape_perturbation lr (w : world) : shape (fst (perturbation normal lr w)) = shape (w_vars w).
Proof.
  cbn. unfold shape. generalize (w_vars w). intros v.
  assert (X : forall k, map (@length R) (map2 (fun i (t : tensor) => map (fun j => lr * normal (w_clock w) i j) (seq 0 (length t))) (seq k (length v)) v) = map (@length R) v); [|apply X].
  induction v as [|t v IH]; intros k; [reflexivity|].
  cbn. rewrite map_length, seq_length. f_equal. apply IH.
Qed.

Lemma tf_reports id c a (w : world) : ok w -> reports w (tf_step loss gradient apply_gradients id c a w).
Proof.
  intros [O1 O2]. unfold reports, tf_step. cbn [eval_loss].
  assert (X : forall g (u : world), w_vars u = w_vars w -> w_globals u = w_globals w ->
    reports w (let '(after, slots) := apply_gradients id g (w_vars u) (w_slots u) in
               let w' := set_slots (set_vars u after) slots in (vsub (w_vars w') (w_vars w), w'))).
  { intros g u E1 E2. pose proof (apply_shape id g (w_vars u) (w_slots u)) as S.
    destruct (apply_gradients id g (w_vars u) (w_slots u)) as [after slots]. cbn in S.
    rewrite E1 in S. unfold reports, ok; cbn. repeat split; try congruence; try shapes. entries. lra. }
  destruct c as [p|]; [exact (X _ (tick (snd (eval_loss loss a w))) eq_refl eq_refl)|exact (X _ (snd (eval_loss loss a w)) eq_refl eq_refl)].
Qed.

Lemma cg_read (fn_x : vars -> vars) p q x0 b (w : world) :
  w_vars (snd (cg_solve fn_x (read p) (read_int q) x0 b w)) = w_vars w /\
  w_globals (snd (cg_solve fn_x (read p) (read_int q) x0 b w)) = w_globals w.
Proof.
  unfold cg_solve. cbn.
  assert (I : let r := while_loop (Z.to_nat (i_value q (w_clock w))) (@cg_next world) (cg_step fn_x (read p)) (cg_start fn_x x0 b, tick w) in
              w_vars (snd r) = w_vars w /\ w_globals (snd r) = w_globals w).
  { apply (while_inv (fun r => w_vars (snd r) = w_vars w /\ w_globals (snd r) = w_globals w)); [split; reflexivity|].
    intros [g u] [I1 I2] _. cbn in *. split; assumption. }
  destruct (while_loop _ _ _ _) as [g u]. exact I.
Qed.

Lemma shape_gradients a v : shape v = sh ->
  shape (map2 (fun (var : tensor) g => match g with None => map (fun _ => 0) var | Some t => t end) v (gradient a v)) = sh.
Proof.
  intros E. rewrite <- E. clear E. pose proof (gradient_shape a v) as F. unfold shape. induction F as [|g t gs v H F IH]; [reflexivity|].
  cbn. f_equal; [|exact IH]. destruct g; cbn in H |- *; [exact H|apply map_length].
Qed.

Lemma natural_reports lr m dp op a w : ok w -> reports w (natural_step loss gradient fisher lr m dp op a w).
Proof.
  intros [O1 O2]. unfold natural_step. cbn [eval_loss w_vars].
  set (b := vopp _). set (w1 := {| w_vars := _ |}).
  assert (B : shape b = sh) by (unfold b; rewrite shape_vopp; now apply shape_gradients).
  pose proof (cg_shapes (fun x => fisher a (w_vars w) x) (read (Slots:=Slots) dp) (read_int m) sh (vzeros (w_vars w)) b w1) as CS.
  specialize (CS ltac:(intros x E; rewrite fisher_shape; congruence) ltac:(shapes) B).
  destruct (cg_read (fun x => fisher a (w_vars w) x) dp m (vzeros (w_vars w)) b w1) as [CV CGl].
  destruct (cg_solve _ _ _ _ _ _) as [deltas w2]. cbn in CS, CV, CGl |- *.
  match goal with |- context [if ?c then _ else _] => destruct c end; unfold reports, ok; cbn.
  - repeat split; try congruence; [shapes|]. rewrite CV. entries. lra.
  - rewrite CV, CGl. repeat split; try congruence; shapes.
Qed.

Lemma evolve_inv lr u a v0 n r :
  shape v0 = sh ->
  let good (r : vars * vars * world) := shape (fst (fst r)) = sh /\ shape (snd (fst r)) = sh /\ ok (snd r) /\
     w_vars (snd r) = vadd v0 (snd (fst r)) in
  good r -> good (while_loop n (fun _ => true) (evolve loss normal lr u a) r).
Proof.
  intros S0 good G. apply while_inv; [exact G|]. clear G r. intros [[ds pr] w] (I1 & I2 & [I3 I4] & I5) _.
  cbn in I1, I2, I3, I4, I5 |- *.
  pose proof (shape_perturbation lr w) as SP. cbn in SP. set (p := map2 _ _ _) in *.
  unfold good, ok; cbn. repeat split; try congruence; try shapes.
  rewrite I5. entries. lra.
Qed.

Lemma evolutionary_reports lr n a w : ok w -> reports w (evolutionary_step loss normal lr n a w).
Proof.
  intros [O1 O2]. unfold evolutionary_step. cbn [read eval_loss].
  set (w1 := {| w_vars := _ |}). destruct (i_is n 1).
  - pose proof (shape_perturbation (p_value lr (w_clock w)) w1) as SP.
    destruct (perturbation normal (p_value lr (w_clock w)) w1) as [p w2] eqn:E2. injection E2 as E1 E2.
    cbn in SP. subst w2. cbn. destruct (Rltb _ _); unfold reports, ok; cbn; repeat split; try congruence; try shapes.
    entries. lra.
  - cbn [read_int]. set (m := Z.to_nat _). set (k := IZR _).
    pose proof (evolve_inv (p_value lr (w_clock w)) (loss (w_evals (tick w)) a (w_vars (tick w))) a (w_vars w) m
      (vzeros (w_vars w), vzeros (w_vars w), tick w1) O1) as I. cbv zeta in I.
    specialize (I ltac:(cbn; repeat split; [shapes|shapes|exact O1|exact O2|entries; lra])).
    cbn [w1 tick w_vars w_evals] in I |- *.
    destruct (while_loop _ _ _ _) as [[ds pr] w2]. cbn in I. destruct I as (I1 & I2 & [I3 I4] & I5).
    unfold reports, ok; cbn. rewrite I5. repeat split; try congruence; try shapes.
    entries. lra.
Qed.

Lemma sync_reports id u f w : ok w -> reports w (sync_step sources id u f w).
Proof.
  intros [O1 O2].
  assert (A : reports w (apply_sync sources id u f w)).
  { unfold apply_sync. set (w1 := if i_is f 1 then w else _).
    assert (E : w_vars w1 = w_vars w /\ w_globals w1 = w_globals w) by (unfold w1; destruct (i_is f 1); split; reflexivity).
    destruct E as [E1 E2]. destruct (p_is u 1); cbn; unfold reports, ok; cbn; rewrite ?E1, ?E2; repeat split; try congruence; try shapes.
    entries. lra. }
  unfold sync_step. destruct (i_is f 1); [exact A|]. destruct (1 <? _)%Z; [|exact A].
  unfold reports, ok; cbn. repeat split; try congruence; [shapes|]. entries. lra.
Qed.

(** the line search leaves the variables at the point it returns *)
Lemma ls_reports a f m v0 x0 b z (w : world) :
  shape v0 = sh -> shape x0 = sh -> ok w -> w_vars w = vadd v0 x0 ->
  let r := ls_solve (evaluate_step loss a) (read f) (read_int m) x0 b z w in
  ok (snd r) /\ shape (fst r) = sh /\ w_vars (snd r) = vadd v0 (fst r).
Proof.
  intros S0 S1 [O1 O2] E r. unfold r, ls_solve. cbn.
  set (s0 := {| s_x := _ |}). set (w0 := tick _).
  pose (good := fun q : search * world => shape (s_x (fst q)) = sh /\ shape (s_deltas (fst q)) = sh /\ ok (snd q) /\
     w_vars (snd q) = vadd v0 (vadd (s_x (fst q)) (s_deltas (fst q)))).
  set (n := Z.to_nat _).
  assert (G : good (while_loop n ls_next (ls_step (evaluate_step loss a) (read f)) (s0, w0))).
  { apply while_inv.
    - unfold good, ok; cbn. rewrite E. repeat split; try congruence; try shapes.
      apply vars_ext; [shapes|]. intros. repeat first [rewrite pt_vadd by shapes]. lra.
    - intros [s u] (G1 & G2 & [G3 G4] & G5) _. cbn in G1, G2, G3, G4, G5. unfold good, ok; cbn. rewrite G5.
      repeat split; try congruence; try shapes.
      apply vars_ext; [shapes|]. intros. repeat first [rewrite pt_vadd by shapes]. lra. }
  destruct (while_loop _ _ _ _) as [s u]. destruct G as (G1 & G2 & [G3 G4] & G5). cbn in G1, G2, G3, G4, G5 |- *.
  destruct (Rleb _ _); cbn; unfold ok; cbn; rewrite ?G5; repeat split; try congruence; try shapes.
  entries. lra.
Qed.

Lemma step_reports o : forall a w, ok w -> reports w (step o a w).
Proof.
  induction o as [id c|lr m dp op|lr n|id u f|o1 IH1 o2 IH2|o IH|p m o IH|n o IH|f o IH|m p o IH|o IH]; intros a w O; cbn [OptModel.step].
  - now apply tf_reports.
  - now apply natural_reports.
  - now apply evolutionary_reports.
  - now apply sync_reports.
  - specialize (IH1 a w O). destruct (step o1 a w) as [d1 w1]. destruct IH1 as (A1 & A2 & A3). cbn in A1, A2, A3.
    specialize (IH2 a w1 A1). destruct (step o2 a w1) as [d2 w2]. destruct IH2 as (B1 & B2 & B3). cbn in B1, B2, B3.
    destruct A1, B1, O. unfold reports, ok; cbn. repeat split; try congruence; try shapes.
    rewrite B3, A3. entries. lra.
  - specialize (IH a w O). destruct (step o a w) as [d1 w1]. destruct IH as (A1 & A2 & A3). cbn in A1, A2, A3.
    destruct A1 as [A11 A12], O as [O1 O2]. unfold reports, ok; cbn. repeat split; try congruence; try shapes.
    rewrite A3. entries. lra.
  - specialize (IH a w O). destruct (step o a w) as [d1 w1]. destruct IH as (A1 & A2 & A3). cbn in A1, A2, A3.
    destruct A1 as [A11 A12], O as [O1 O2]. cbn.
    pose proof (shape_clip m (p_value p (w_clock w1)) d1) as SC. set (cl := clip _ _ _) in *.
    unfold reports, ok; cbn. repeat split; try congruence; try shapes.
    rewrite A3. entries. lra.
  - cbn. destruct O as [O1 O2].
    apply (while_inv (fun r => reports w r)).
    + unfold reports, ok; cbn. repeat split; try congruence; [shapes|]. entries. lra.
    + intros [ds u] (A1 & A2 & A3) _. cbn in A1, A2, A3. specialize (IH a u A1).
      destruct (step o a u) as [d2 w2]. destruct IH as (B1 & B2 & B3). cbn in B1, B2, B3.
      destruct A1, B1. unfold reports, ok; cbn. repeat split; try congruence; try shapes.
      rewrite B3, A3. entries. lra.
  - assert (X : forall n (u : world), sample_size f (length (a_reward a)) w = (n, u) -> w_vars u = w_vars w /\ ok u).
    { intros n u E. destruct O as [O1 O2]. unfold sample_size in E. destruct f as [p|p].
      - destruct (i_const p); injection E as <- <-; repeat split; assumption.
      - destruct (p_is p 1); injection E as <- <-; repeat split; assumption. }
    destruct (sample_size f (length (a_reward a)) w) as [n u]. destruct (X n u eq_refl) as [V U].
    assert (Y : forall a' (u' : world), w_vars u' = w_vars w -> ok u' -> reports w (step o a' u')).
    { intros a' u' E1 E2. specialize (IH a' u' E2). unfold reports in *. now rewrite <- E1. }
    destruct n as [n|]; [|now apply Y]. destruct (n <? _)%Z; [|now apply Y]. cbn. now apply Y.
  - cbn [eval_loss]. set (w1 := {| w_vars := _ |}). specialize (IH a w1 O). destruct (step o a w1) as [d1 w2].
    destruct IH as (A1 & A2 & A3). cbn in A1, A2, A3. destruct (all_zero d1).
    + unfold reports; cbn. auto.
    + unfold reports. apply (ls_reports a p m (w_vars w)); [apply O|exact A2|exact A1|exact A3].
  - cbn. set (w1 := {| w_vars := _ |}). specialize (IH a w1 O). destruct (step o a w1) as [d1 w2].
    destruct IH as (A1 & A2 & A3). cbn in A1, A2, A3. destruct A1 as [A11 A12], O as [O1 O2].
    destruct (Rltb _ _); unfold reports, ok; cbn; repeat split; try congruence; try shapes.
    rewrite A3. entries. lra.
Qed.
End Deltas.
