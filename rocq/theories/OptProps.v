(** Properties C47-C53 and C67-C69: optimizers, update modifiers and solvers.

    All statements are for every loss function, gradient, Fisher product, TensorFlow optimizer and
    random draw, over the real numbers. *)

From Coq Require Import String List ZArith Reals Lra Lia Bool Permutation.
From Verif Require Import OptVec ParModel SolveModel OptModel OptProofs OptProofs2.
Import ListNotations.
Open Scope R_scope.

Section Props.
Context {D : Type} (d : D) {Slots : Type}.
Variable loss : nat -> arguments D -> vars -> R.
Variable gradient : arguments D -> vars -> list (option tensor).
Variable fisher : arguments D -> vars -> vars -> vars.
Variable apply_gradients : nat -> list (option tensor) -> vars -> Slots -> vars * Slots.
Variable normal : nat -> nat -> nat -> R.
Variable uniform : nat -> nat -> nat.
Variable sources : vars.
Notation world := (@world Slots).
Notation step := (step d loss gradient fisher apply_gradients normal uniform sources).

(** TensorFlow: gradients, products and new values have the shapes of the variables *)
Definition keeps_shapes : Prop :=
  (forall a v, Forall2 same_shape (gradient a v) v) /\
  (forall a v x, shape x = shape v -> shape (fisher a v x) = shape v) /\
  (forall id g v s, shape (fst (apply_gradients id g v s)) = shape v).
(** source and global variables have the shapes of the trained variables (asserted by
    synchronization.py 67-70, global_optimizer.py 40-43) *)
Definition matching (w : world) : Prop :=
  shape sources = shape (w_vars w) /\ shape (w_globals w) = shape (w_vars w).
(** evaluating the loss again on the same arguments and variables gives the same value *)
Definition deterministic_loss (L : arguments D -> vars -> R) : Prop := forall n a v, loss n a v = L a v.

Lemma step_ok o a w : keeps_shapes -> matching w ->
  reports (shape (w_vars w)) w (step o a w).
Proof. intros (G & F & A) [M1 M2]. apply step_reports; auto. split; auto. Qed.

(** ** C47 *)
(** Every nesting of optimizers and modifiers returns exactly the change it made. *)
Theorem C47_reported_change o a (w : world) ds w' :
  keeps_shapes -> matching w -> step o a w = (ds, w') ->
  w_vars w' = vadd (w_vars w) ds /\ ds = vsub (w_vars w') (w_vars w).
Proof.
  intros K M E. pose proof (step_ok o a w K M) as R. rewrite E in R. destruct R as (_ & S & V). cbn in S, V.
  split; [exact V|]. rewrite V. entries. lra.
Qed.

(** A global optimizer leaves the local variables equal to the global ones, which have moved by the
    change of the inner optimizer. *)
Theorem C47_global o a (w : world) ds w1 ds' w' :
  keeps_shapes -> matching w -> step o a w = (ds, w1) -> step (GlobalOptimizer o) a w = (ds', w') ->
  w_globals w' = vadd (w_globals w1) ds /\ w_vars w' = w_globals w'.
Proof.
  intros K M E E'. pose proof (step_ok o a w K M) as R. rewrite E in R. destruct R as ([S1 S2] & S & V). cbn in S, V, S1, S2.
  cbn [OptModel.step] in E'. rewrite E in E'. injection E' as <- <-. cbn. split; [reflexivity|]. entries. lra.
Qed.

(** ** C48 *)
(** A double-checked step never increases the loss on its arguments; the variables are those of the
    inner step if that lowered the loss, and otherwise the old ones. *)
Theorem C48_doublecheck L o a (w : world) ds w' :
  keeps_shapes -> matching w -> deterministic_loss L -> step (DoublecheckStep o) a w = (ds, w') ->
  L a (w_vars w') <= L a (w_vars w) /\
  (L a (w_vars w') < L a (w_vars w) \/ w_vars w' = w_vars w) /\
  (let inner := w_vars (snd (step o a (snd (eval_loss loss a w)))) in
   (L a inner < L a (w_vars w) -> w_vars w' = inner) /\ (L a (w_vars w) <= L a inner -> w_vars w' = w_vars w)).
Proof.
  intros K M DL E. cbn [OptModel.step eval_loss] in E. rewrite DL in E. cbn [eval_loss snd].
  set (w1 := {| w_vars := _ |}) in *. assert (M1 : matching w1) by exact M.
  pose proof (step_ok o a w1 K M1) as R. destruct (step o a w1) as [x w2]. destruct R as ([S1 S2] & S & V). cbn in S, V, S1, S2.
  rewrite DL in E. cbn [snd]. destruct (Rltb_spec (L a (w_vars w2)) (L a (w_vars w))) as [H|H].
  - injection E as <- <-. cbn. repeat split; [lra|left; exact H|lra].
  - injection E as <- <-. cbn. assert (B : vadd (w_vars w2) (vopp x) = w_vars w) by (rewrite V; entries; lra).
    rewrite B. repeat split; [lra|right; reflexivity|intros; lra].
Qed.

(** ** C49 *)
(** point at fraction t of the way from v0 to v1 *)
Definition along (v0 v1 : vars) (t : R) : vars := vadd v0 (vscale t (vsub v1 v0)).

(** With a constant factor b, the search moves back from the fully updated point v1 towards the old
    point v0 through the fractions 1, b, b^2, ... as long as the loss falls strictly (a last step to
    an equal loss is also taken), at most max_iterations + 1 times, and leaves the variables at
    exactly the point it returns, which is never worse than v1. *)
Theorem C49_search L o m f b a (w : world) ds w' :
  keeps_shapes -> matching w -> deterministic_loss L -> (forall n, p_value f n = b) -> 0 <= b <= 1 ->
  step (LinesearchStep m f o) a w = (ds, w') ->
  let w1 := snd (step o a (snd (eval_loss loss a w))) in
  let point k := along (w_vars w) (w_vars w1) (b ^ k) in
  exists k n, (n = i_value m (S (w_clock w1)) \/ w_vars w1 = w_vars w) /\ (k <= S (Z.to_nat n))%nat /\
    w_vars w' = point k /\ 0 <= b ^ k <= 1 /\ ds = vsub (w_vars w') (w_vars w) /\
    L a (w_vars w') <= L a (w_vars w1) /\
    (forall j, (S j < k)%nat -> L a (point (S j)) < L a (point j)) /\
    (k = S (Z.to_nat n) \/ w_vars w1 = w_vars w \/ L a (point k) < L a (point (S k)) \/ (exists j, k = S j /\ L a (point k) = L a (point j))).
Proof.
  intros K M DL CF B E w1 point.
  destruct (C47_reported_change (LinesearchStep m f o) a w ds w' K M E) as [_ DS].
  subst point. subst w1. cbv beta. cbn [OptModel.step eval_loss] in E. cbn [eval_loss snd].
  set (w0 := {| w_vars := _ |}) in *. assert (M0 : matching w0) by exact M.
  pose proof (step_ok o a w0 K M0) as R. destruct (step o a w0) as [x w1]. destruct R as ([S1 S2] & S & V). cbn in S, V, S1, S2.
  cbn [snd]. assert (PW : forall j, 0 <= b ^ j <= 1).
  { intros j. split; [apply pow_le; lra|]. induction j as [|j IH]; cbn; [lra|]. pose proof (pow_le b j ltac:(lra)). nra. }
  assert (X : vsub (w_vars w1) (w_vars w) = x) by (rewrite V; entries; lra).
  assert (P0 : along (w_vars w) (w_vars w1) (b ^ 0) = w_vars w1) by (unfold along; rewrite X, V; entries; cbn; lra).
  destruct (all_zero x) eqn:AZ.
  - injection E as <- <-.
    assert (Z0 : w_vars w1 = w_vars w).
    { rewrite V. apply vars_ext; [shapes|]. intros i j. rewrite pt_vadd by congruence.
      enough (pt x i j = 0) by lra. unfold all_zero in AZ. rewrite forallb_forall in AZ. unfold pt.
      destruct (nth_in_or_default i x []) as [I|I]; [|rewrite I; destruct j; reflexivity].
      specialize (AZ _ I). rewrite forallb_forall in AZ.
      destruct (nth_in_or_default j (nth i x []) 0) as [J|J]; [|exact J].
      specialize (AZ _ J). revert AZ. destruct (Reqb_spec (nth j (nth i x []) 0) 0); [auto|discriminate]. }
    exists O, 0%Z. rewrite P0. repeat split; try lia; auto; try apply PW; try lra.
  - rewrite DL in E. cbn [eval_loss] in E. rewrite DL in E.
    set (w2 := {| w_vars := w_vars w1 |}) in *.
    pose proof (ls_solved loss L DL a f b CF (w_vars w) x S (L a (w_vars w)) (L a (w_vars w1)) m w2 V ltac:(f_equal; exact V)) as LS.
    cbv zeta in LS. cbn [w2 w_clock w_evals] in LS. fold w2 in LS.
    destruct LS as (k & L1 & L2 & L3 & L4 & L5 & L6 & L7).
    rewrite E in L2, L3, L7. cbn [fst snd] in L2, L3, L7.
    assert (RAY : forall j, ray b (w_vars w) x j = along (w_vars w) (w_vars w1) (b ^ j)) by (intros j; unfold along; rewrite X; reflexivity).
    exists k, (i_value m (Datatypes.S (w_clock w1))). rewrite <- !RAY. repeat split; auto; try apply PW.
    + rewrite L3. clear L6. assert (R0 : L a (w_vars w1) = L a (ray b (w_vars w) x 0)) by (rewrite RAY, P0; reflexivity).
      rewrite R0. destruct k as [|k]; [lra|]. specialize (L5 k eq_refl).
      assert (MON : forall j, (j <= k)%nat -> L a (ray b (w_vars w) x j) <= L a (ray b (w_vars w) x 0)).
      { induction j as [|j IH]; intros J; [lra|]. specialize (L4 j ltac:(lia)). specialize (IH ltac:(lia)). lra. }
      specialize (MON k ltac:(lia)). lra.
    + intros j J. rewrite <- !RAY. now apply L4.
    + destruct L6 as [L6|[L6|(j & J & L6)]]; [auto|right; right; left; exact L6|].
      right. right. right. exists j. rewrite <- RAY. auto.
Qed.

(** The search evaluates the loss at most max_iterations + 3 times beyond the inner step: at the
    fully updated point, at max_iterations + 1 points on the line, and once when it undoes the last
    one. *)
Theorem C49_evaluations L o m f b a (w : world) ds w' :
  keeps_shapes -> matching w -> deterministic_loss L -> (forall n, p_value f n = b) ->
  step (LinesearchStep m f o) a w = (ds, w') ->
  let w1 := snd (step o a (snd (eval_loss loss a w))) in
  (w_evals w' <= w_evals w1 + Z.to_nat (i_value m (S (w_clock w1))) + 3)%nat.
Proof.
  intros K M DL CF E w1. unfold w1. clear w1. cbn [OptModel.step eval_loss] in E. cbn [eval_loss snd].
  set (w0 := {| w_vars := _ |}) in *. assert (M0 : matching w0) by exact M.
  pose proof (step_ok o a w0 K M0) as R. destruct (step o a w0) as [x w1]. destruct R as ([S1 S2] & S & V). cbn in S, V, S1, S2.
  cbn [snd]. destruct (all_zero x); [injection E as <- <-; lia|].
  rewrite DL in E. cbn [eval_loss] in E. rewrite DL in E. set (w2 := {| w_vars := w_vars w1 |}) in *.
  pose proof (ls_solved loss L DL a f b CF (w_vars w) x S (L a (w_vars w)) (L a (w_vars w1)) m w2 V ltac:(f_equal; exact V)) as LS.
  cbv zeta in LS. cbn [w2 w_clock w_evals] in LS. fold w2 in LS. destruct LS as (k & _ & _ & _ & _ & _ & _ & L7).
  rewrite E in L7. cbn in L7. lia.
Qed.

(** ** C50 *)
(** The change applied by a clipped step is within the threshold of its mode (all squares, the
    squares of every variable, every entry); a change that already was is applied unchanged. *)
Theorem C50_clipped p c m o a (w : world) ds w' :
  keeps_shapes -> matching w -> (forall n, p_value p n = c) -> 0 < c ->
  step (ClippingStep p m o) a w = (ds, w') ->
  let inner := w_vars (snd (step o a w)) in
  within m c (vsub (w_vars w') (w_vars w)) /\
  (within m c (vsub inner (w_vars w)) -> w_vars w' = inner).
Proof.
  intros K M CP C E inner. destruct (C47_reported_change _ _ _ _ _ K M E) as [_ DS]. rewrite <- DS.
  unfold inner. clear inner. cbn [OptModel.step] in E.
  pose proof (step_ok o a w K M) as R. destruct (step o a w) as [x w1]. destruct R as ([S1 S2] & S & V). cbn in S, V, S1, S2.
  cbn [read] in E. rewrite CP in E. injection E as E1 E2. subst ds. split; [now apply clip_within|].
  cbn [snd]. intros W. rewrite <- E2. cbn. assert (X : vsub (w_vars w1) (w_vars w) = x) by (rewrite V; entries; lra).
  rewrite X in W. rewrite clip_small by assumption. entries. lra.
Qed.

(** So does every update of the default optimizer configuration with a clipping threshold, whatever its
    other settings. *)
Theorem C50_wrapper k p c a (w : world) ds w' :
  keeps_shapes -> matching w -> k_clipping k = Some p -> (forall n, p_value p n = c) -> 0 < c ->
  step (wrap k) a w = (ds, w') -> vdot (vsub (w_vars w') (w_vars w)) (vsub (w_vars w') (w_vars w)) <= c * c.
Proof.
  intros K M E CP C H. unfold wrap in H. rewrite E in H.
  exact (proj1 (C50_clipped _ _ _ _ _ _ _ _ K M CP C H)).
Qed.

(** Each step of a multi-step around a clipping modifier is bounded, so the whole change is bounded,
    entry by entry, by the number of steps times the threshold. *)
Theorem C50_multi p c q n o a (w : world) ds w' :
  keeps_shapes -> matching w -> (forall t, p_value p t = c) -> 0 < c -> (forall t, i_value q t = Z.of_nat n) ->
  step (MultiStep q (ClippingStep p Value o)) a w = (ds, w') ->
  within Value (INR n * c) (vsub (w_vars w') (w_vars w)).
Proof.
  intros K M CP C CQ E. destruct (C47_reported_change _ _ _ _ _ K M E) as [_ DS]. rewrite <- DS. clear DS.
  change (step (MultiStep q (ClippingStep p Value o)) a w) with
    (let '(k, u) := read_int q w in while_loop (Z.to_nat k) (fun _ => true)
       (fun '(x, u) => let '(y, u) := step (ClippingStep p Value o) a u in (vadd x y, u)) (vzeros (w_vars w), u)) in E.
  cbn [read_int] in E. rewrite CQ, Nat2Z.id, while_true in E.
  enough (G : forall k, let r := Nat.iter k (fun '(x, u) => let '(y, u) := step (ClippingStep p Value o) a u in (vadd x y, u)) (vzeros (w_vars w), tick w) in
    within Value (INR k * c) (fst r) /\ shape (fst r) = shape (w_vars w) /\ shape (w_vars (snd r)) = shape (w_vars w) /\ shape (w_globals (snd r)) = shape (w_vars w)).
  { specialize (G n). cbv zeta in G. rewrite E in G. apply G. }
  clear E. induction k as [|k IH].
  - cbn. destruct M as [M1 M2]. repeat split; [|shapes|exact M2]. intros i j. fold (pt (vzeros (w_vars w)) i j). rewrite pt_vzeros, Rabs_R0. lra.
  - match goal with |- context [Nat.iter (S k) ?F ?x] => change (Nat.iter (S k) F x) with (F (Nat.iter k F x)) end.
    cbv zeta in IH |- *. destruct (Nat.iter k _ _) as [x u]. cbn [fst snd] in IH. destruct IH as (I1 & I2 & I3 & I4).
    assert (MU : matching u) by (destruct M; split; congruence).
    pose proof (step_ok (ClippingStep p Value o) a u K MU) as R.
    destruct (step (ClippingStep p Value o) a u) as [y u2] eqn:EY. destruct R as ([S1 S2] & S & V). cbn in S, V, S1, S2.
    destruct (C50_clipped p c Value o a u y u2 K MU CP C EY) as [B _]. destruct (C47_reported_change _ _ _ _ _ K MU EY) as [_ DY]. rewrite <- DY in B.
    cbn [fst snd]. repeat split; try congruence; [|shapes]. intros i j. rewrite pt_vadd by congruence.
    specialize (I1 i j). specialize (B i j). rewrite S_INR. pose proof (Rabs_triang (pt x i j) (pt y i j)). lra.
Qed.
End Props.

(** ** C51 *)
(** Updates number 0, 1, 2, ...; before the n-th one the targets and sources have any values, only the
    counter is handed on from update to update and starts at 0. *)
Section Sync.
Context {Slots : Type}.
Notation world := (@world Slots).
Variables (id : nat) (weight : param) (frequency : iparam).
Variables (before : nat -> world) (sources : nat -> vars).
Definition after (n : nat) : world := snd (sync_step (sources n) id weight frequency (before n)).
Hypothesis starts : w_next (before O) id = 0%Z.
Hypothesis continues : forall n, w_next (before (S n)) id = w_next (after n) id.

(** The targets move on the updates 0, k, 2k, ... and on no other. *)
Theorem C51_schedule k u :
  (1 <= k)%nat -> i_const frequency = Some (Z.of_nat k) -> (forall t, i_value frequency t = Z.of_nat k) ->
  (p_const weight = Some u \/ p_const weight = None) -> (forall t, p_value weight t = u) ->
  (forall n, shape (sources n) = shape (w_vars (before n))) ->
  forall n,
    ((n mod k = 0)%nat -> w_vars (after n) = vadd (w_vars (before n)) (vscale u (vsub (sources n) (w_vars (before n)))) /\
                          (u = 1 -> w_vars (after n) = sources n)) /\
    ((n mod k <> 0)%nat -> w_vars (after n) = w_vars (before n)).
Proof.
  intros K FC FV WC WV SH.
  assert (AP : forall n, w_vars (snd (apply_sync (sources n) id weight frequency (before n)))
               = vadd (w_vars (before n)) (vscale u (vsub (sources n) (w_vars (before n))))).
  { intros n. unfold apply_sync. set (w1 := if i_is frequency 1 then _ else _).
    assert (E : w_vars w1 = w_vars (before n)) by (unfold w1; destruct (i_is frequency 1); reflexivity).
    destruct (p_is weight 1) eqn:PW.
    - cbn. unfold p_is in PW. destruct WC as [WC|WC]; rewrite WC in PW; [|discriminate]. revert PW.
      destruct (Reqb_spec u 1) as [->|]; [|discriminate]. intros _. entries. lra.
    - cbn. rewrite WV, E. reflexivity. }
  assert (ONE : forall n, u = 1 -> vadd (w_vars (before n)) (vscale u (vsub (sources n) (w_vars (before n)))) = sources n).
  { intros n ->. entries. lra. }
  destruct (Nat.eq_dec k 1) as [->|K1].
  - intros n. rewrite Nat.mod_1_r. unfold after, sync_step, i_is. rewrite FC. cbn [Z.of_nat Pos.of_succ_nat Z.eqb Pos.eqb].
    rewrite AP. split; [intros _; split; [reflexivity|apply ONE]|intros H; now contradiction H].
  - assert (NI : i_is frequency 1 = false) by (unfold i_is; rewrite FC; apply Z.eqb_neq; lia).
    assert (NX : forall n, w_next (before n) id = (if (n =? 0)%nat then 0 else Z.of_nat (k - (n - 1) mod k))%Z /\
                           (w_vars (after n) = if (n mod k =? 0)%nat then vadd (w_vars (before n)) (vscale u (vsub (sources n) (w_vars (before n)))) else w_vars (before n))).
    { assert (STEP : forall n, w_next (before n) id = (if (n =? 0)%nat then 0 else Z.of_nat (k - (n - 1) mod k))%Z ->
         w_next (after n) id = Z.of_nat (k - n mod k) /\
         (w_vars (after n) = if (n mod k =? 0)%nat then vadd (w_vars (before n)) (vscale u (vsub (sources n) (w_vars (before n)))) else w_vars (before n))).
      { intros n N. unfold after, sync_step. rewrite NI.
        assert (MOD : n <> O -> (n mod k = if (n - 1) mod k =? k - 1 then 0 else S ((n - 1) mod k))%nat).
        { intros NZ. pose proof (Nat.mod_upper_bound (n - 1) k ltac:(lia)) as UB.
          assert (EN : n = (k * ((n - 1) / k) + S ((n - 1) mod k))%nat) by (pose proof (Nat.div_mod_eq (n - 1) k); lia).
          destruct (Nat.eqb_spec ((n - 1) mod k) (k - 1)) as [Q|Q].
          - replace n with ((k * S ((n - 1) / k))%nat) at 1 by nia. rewrite Nat.mul_comm. apply Nat.mod_mul. lia.
          - symmetry. apply (Nat.mod_unique n k ((n - 1) / k)); lia. }
        assert (APN : w_next (snd (apply_sync (sources n) id weight frequency (before n))) id = Z.of_nat k).
        { unfold apply_sync. rewrite NI. cbn. destruct (p_is weight 1); cbn; rewrite Nat.eqb_refl; apply FV. }
        destruct (Nat.eqb_spec n 0) as [NZ|NZ].
        - subst n. rewrite N. cbn [Z.ltb Z.compare]. rewrite AP, APN. rewrite Nat.mod_0_l by lia. rewrite Nat.sub_0_r. split; reflexivity.
        - specialize (MOD NZ). pose proof (Nat.mod_upper_bound (n - 1) k ltac:(lia)) as UB. rewrite N.
          destruct (Nat.eqb_spec ((n - 1) mod k) (k - 1)) as [Q|Q].
          + rewrite Q in *. replace (1 <? Z.of_nat (k - (k - 1)))%Z with false by (symmetry; apply Z.ltb_ge; lia).
            rewrite AP, APN, MOD, Nat.sub_0_r. split; reflexivity.
          + replace (1 <? Z.of_nat (k - (n - 1) mod k))%Z with true by (symmetry; apply Z.ltb_lt; lia).
            cbn. rewrite Nat.eqb_refl, N, MOD. split; [lia|reflexivity]. }
      induction n as [|n IH].
      - split; [exact starts|]. apply STEP. exact starts.
      - destruct IH as [IH _]. destruct (STEP n IH) as [S1 _].
        assert (N : w_next (before (S n)) id = (if (S n =? 0)%nat then 0 else Z.of_nat (k - (S n - 1) mod k))%Z).
        { rewrite continues, S1. cbn [Nat.eqb]. do 2 f_equal. f_equal. lia. }
        split; [exact N|]. apply STEP. exact N. }
    intros n. destruct (NX n) as [_ V]. rewrite V. destruct (Nat.eqb_spec (n mod k) 0) as [E|E].
    + split; [intros _; split; [reflexivity|apply ONE]|intros H; contradiction].
    + split; [intros H; contradiction|reflexivity].
Qed.
End Sync.

(** ** C52 *)
(** [b] contains for the timesteps [idx] of [a], in this order, their own values and their own state
    sequences. *)
Definition picks {D} (idx : list nat) (a b : arguments D) : Prop :=
  (forall k i, nth_error idx k = Some i -> nth_error (a_reward b) k = nth_error (a_reward a) i) /\
  length (a_reward b) = length idx /\
  Forall2 (fun x y => fst x = fst y /\ length (snd y) = length idx /\
    forall k i, nth_error idx k = Some i -> nth_error (snd y) k = nth_error (snd x) i) (a_others a) (a_others b) /\
  match a_states a, a_horizons a with
  | Some s, Some h => exists s' h', a_states b = Some s' /\ a_horizons b = Some h' /\ length h' = length idx /\
      Forall2 (fun x y => fst x = fst y /\
        forall k i hi, nth_error idx k = Some i -> nth_error h i = Some hi ->
        exists hk, nth_error h' k = Some hk /\ snd hk = snd hi /\ sequence (snd y) hk = sequence (snd x) hi) s s'
  | _, _ => True
  end.

(** all values have one entry per timestep and the sequences lie inside the states *)
Definition well_formed {D} (a : arguments D) : Prop :=
  Forall (fun x => length (snd x) = length (a_reward a)) (a_others a) /\
  (forall h, a_horizons a = Some h -> length h = length (a_reward a) /\
     forall s, a_states a = Some s -> Forall (fun x => Forall (fun q => (fst q + snd q <= length (snd x))%nat) h) s).

Lemma nth_gather {A} (d : A) x idx k i : nth_error idx k = Some i -> (i < length x)%nat -> nth_error (gather d x idx) k = nth_error x i.
Proof.
  intros E I. unfold gather. rewrite nth_error_map, E. cbn. symmetry. now apply nth_error_nth'.
Qed.

Lemma subsample_picks {D} (d : D) idx a : well_formed a -> Forall (fun i => (i < length (a_reward a))%nat) idx -> picks idx a (subsample d idx a).
Proof.
  intros [WO WH] F. assert (IN : forall k i, nth_error idx k = Some i -> (i < length (a_reward a))%nat).
  { intros k i E. rewrite Forall_forall in F. apply F. eapply nth_error_In; eauto. }
  assert (RW : a_reward (subsample d idx a) = gather d (a_reward a) idx) by (unfold subsample; destruct (a_states a), (a_horizons a); reflexivity).
  assert (OT : a_others (subsample d idx a) = map (fun '(name, x) => (name, gather d x idx)) (a_others a)) by (unfold subsample; destruct (a_states a), (a_horizons a); reflexivity).
  unfold picks. rewrite RW, OT. split; [|split; [|split]].
  - intros k i E. apply nth_gather; eauto.
  - apply map_length.
  - clear OT RW. induction WO as [|[n x] l H WO IH]; [constructor|]. cbn in H |- *. constructor; [|exact IH].
    cbn. repeat split; [apply map_length|]. intros k i E. apply nth_gather; [exact E|]. rewrite H. eauto.
  - destruct (a_states a) as [s|] eqn:ES; [|exact I]. destruct (a_horizons a) as [h|] eqn:EH; [|exact I].
    destruct (WH h eq_refl) as [LH BND]. specialize (BND s eq_refl).
    unfold subsample. rewrite ES, EH. cbn. set (hs := gather (O, O) h idx).
    assert (LHS : length hs = length idx) by apply map_length.
    eexists. eexists. split; [reflexivity|]. split; [reflexivity|]. split.
    { rewrite combine_length, cumsum_length, map_length, LHS. lia. }
    clear ES WH RW OT. induction BND as [|[n x] s' B BND IH]; [constructor|]. cbn. constructor; [|exact IH]. cbn. split; [reflexivity|].
    intros k i hi EK EI. cbn in B.
    assert (KL : (k < length hs)%nat) by (rewrite LHS; apply nth_error_Some; congruence).
    assert (HK : nth k hs (O, O) = hi).
    { unfold hs. pose proof (nth_gather (O, O) h idx k i EK ltac:(apply nth_error_Some; congruence)) as G. rewrite EI in G. now apply nth_error_nth. }
    exists (list_sum (firstn k (map snd hs)), nth k (map snd hs) O). split; [|split].
    + assert (LC : length (cumsum 0 (map snd hs)) = length (map snd hs)) by apply cumsum_length.
      rewrite nth_error_nth' with (d := (O, O)) by (rewrite combine_length, LC, map_length; lia).
      rewrite combine_nth by exact LC. rewrite cumsum_nth by (rewrite map_length; exact KL). reflexivity.
    + cbn. rewrite <- HK. change O with (snd (O, O) : nat). now rewrite map_nth.
    + rewrite <- HK. apply flat_sequences; [|exact KL].
      apply Forall_forall. intros q Q. unfold hs, gather in Q. apply in_map_iff in Q. destruct Q as (j & <- & J).
      rewrite Forall_forall in F. specialize (F j J). rewrite Forall_forall in B. apply B. apply nth_In. lia.
Qed.

Section Subsampling.
Context {D : Type} (d : D) {Slots : Type}.
Variable loss : nat -> arguments D -> vars -> R.
Variable gradient : arguments D -> vars -> list (option tensor).
Variable fisher : arguments D -> vars -> vars -> vars.
Variable apply_gradients : nat -> list (option tensor) -> vars -> Slots -> vars * Slots.
Variable normal : nat -> nat -> nat -> R.
Variable uniform : nat -> nat -> nat.
Variable sources : vars.
Notation world := (@world Slots).
Notation step := (step d loss gradient fisher apply_gradients normal uniform sources).

(** the requested number of timesteps: the absolute number, or the fraction of the batch size, rounded
    down but at least 1 *)
Definition requested (f : fraction) (n : nat) (z : Z) : Prop :=
  match f with
  | Absolute p => i_const p = Some z \/ (i_const p = None /\ exists t, i_value p t = z)
  | Relative p => (p_const p = Some 1 /\ z = Z.of_nat n) \/ (p_const p <> Some 1 /\ exists t, z = Z.max (Int_part (p_value p t * INR n)) 1)
  end.

(** A subsampled step is a step of the inner optimizer on the whole batch if the requested size is
    not smaller than the batch, and otherwise on as many timesteps of the batch, each with its own
    values and state sequence. *)
Theorem C52_subsampled f o a (w : world) : well_formed a ->
  exists z b w1, requested f (length (a_reward a)) z /\ w_vars w1 = w_vars w /\ step (SubsamplingStep f o) a w = step o b w1 /\
    ((Z.of_nat (length (a_reward a)) <= z)%Z -> b = a) /\
    ((z < Z.of_nat (length (a_reward a)))%Z -> exists idx, length idx = Z.to_nat z /\
        Forall (fun i => (i < length (a_reward a))%nat) idx /\ picks idx a b).
Proof.
  intros WF. cbn [OptModel.step]. set (n := length (a_reward a)).
  assert (SS : exists z w1, requested f n z /\ w_vars w1 = w_vars w /\
    (sample_size f n w = (Some z, w1) \/ (sample_size f n w = (None, w1) /\ z = Z.of_nat n))).
  { unfold sample_size. destruct f as [p|p].
    - destruct (i_const p) as [z|] eqn:E.
      + exists z, w. repeat split; auto. left. exact E.
      + exists (i_value p (w_clock w)), (tick w). repeat split; auto. right. eauto.
    - destruct (p_is p 1) eqn:E.
      + exists (Z.of_nat n), w. repeat split; auto. left. split; [|reflexivity]. unfold p_is in E.
        destruct (p_const p) as [x|]; [|discriminate]. revert E. destruct (Reqb_spec x 1) as [->|]; [reflexivity|discriminate].
      + eexists. eexists. split; [|split; [|left; reflexivity]]; [|reflexivity]. right. split; [|eauto].
        intros X. unfold p_is in E. rewrite X in E. revert E. destruct (Reqb_spec 1 1); [discriminate|lra]. }
  destruct SS as (z & w1 & R & V & [E|[E Z0]]); rewrite E.
  - destruct (Z.ltb_spec z (Z.of_nat n)) as [H|H].
    + cbn [draw_indices]. exists z, (subsample d (map (fun i => Nat.modulo (uniform (w_clock w1) i) n) (seq 0 (Z.to_nat z))) a), (tick w1).
      repeat split; auto; [intros; lia|]. intros _. eexists. split; [|split; [|apply subsample_picks; [exact WF|]]].
      * now rewrite map_length, seq_length.
      * apply Forall_forall. intros i I. apply in_map_iff in I. destruct I as (j & <- & J). fold n. apply in_seq in J.
        apply Nat.mod_upper_bound. intros N0. rewrite N0 in H. cbn in H. destruct z; cbn in J; lia.
      * apply Forall_forall. intros i I. apply in_map_iff in I. destruct I as (j & <- & J). fold n. apply in_seq in J.
        apply Nat.mod_upper_bound. intros N0. rewrite N0 in H. cbn in H. destruct z; cbn in J; lia.
    + exists z, a, w1. repeat split; auto. lia.
  - exists z, a, w1. repeat split; auto. lia.
Qed.
End Subsampling.

(** ** C53 *)
Section Residual.
Context {W : Type}.
Variables (A : vars -> vars) (sh : list nat).
(** A is linear *)
Hypothesis A_shape : forall x, shape x = sh -> shape (A x) = sh.
Hypothesis A_add : forall x y, shape x = sh -> shape y = sh -> A (vadd x y) = vadd (A x) (A y).
Hypothesis A_scale : forall c x, shape x = sh -> A (vscale c x) = vscale c (A x).
Variables (damping : W -> R * W) (dd : R) (max_iterations : W -> Z * W).
Hypothesis constant_damping : forall w, fst (damping w) = dd.

(** The tracked residual is b - (A + d I) x after any number of iterations from x = 0. *)
Theorem C53_residual b k w :
  shape b = sh ->
  let g := fst (Nat.iter k (cg_step A damping) (cg_start A (vzeros b) b, w)) in
  g_residual g = vsub b (vadd (A (g_x g)) (vscale dd (g_x g))) /\
  g_squared g = vdot (g_residual g) (g_residual g).
Proof.
  intros B g. assert (S0 : shape (vzeros b) = sh) by shapes.
  destruct (cg_tracked A sh A_shape A_add A_scale damping dd constant_damping (vzeros b) b S0 B k w) as (T1 & T2 & T3 & T4).
  fold g in T1, T2, T3, T4. rewrite T4, <- T3. split; [|reflexivity]. rewrite T3. unfold left_over.
  pose proof (A_shape _ T1). clearbody g. entries. ring.
Qed.

(** What the solver returns leaves a residual of squared norm below epsilon, unless it has run the
    maximum number of iterations; it stops at the first such residual. *)
Theorem C53_solution b w x w' :
  shape b = sh -> cg_solve A damping max_iterations (vzeros b) b w = (x, w') ->
  let rest x := vsub b (vadd (A x) (vscale dd x)) in
  let iterate k := g_x (fst (Nat.iter k (cg_step A damping) (cg_start A (vzeros b) b, snd (max_iterations w)))) in
  exists k, x = iterate k /\ (k <= Z.to_nat (fst (max_iterations w)))%nat /\
    (forall j, (j < k)%nat -> epsilon6 <= vdot (rest (iterate j)) (rest (iterate j))) /\
    (vdot (rest x) (rest x) < epsilon6 \/ k = Z.to_nat (fst (max_iterations w))).
Proof.
  intros B E rest iterate. unfold cg_solve in E. destruct (max_iterations w) as [n w1]. cbn [fst snd] in *.
  destruct (while_iter (Z.to_nat n) cg_next (cg_step A damping) (cg_start A (vzeros b) b, w1)) as (k & K & EW & CT & CF).
  rewrite EW in E.
  assert (SQ : forall j, cg_next (Nat.iter j (cg_step A damping) (cg_start A (vzeros b) b, w1)) = Rleb epsilon6 (vdot (rest (iterate j)) (rest (iterate j)))).
  { intros j. unfold cg_next. destruct (C53_residual b j w1 B) as [R1 R2]. rewrite R2, R1. reflexivity. }
  exists k. split; [|split; [exact K|split]].
  - unfold iterate. destruct (Nat.iter k _ _). injection E as <- _. reflexivity.
  - intros j J. specialize (CT j J). rewrite SQ in CT. revert CT. destruct (Rleb_spec epsilon6 (vdot (rest (iterate j)) (rest (iterate j)))); [auto|discriminate].
  - destruct (Nat.eq_dec k (Z.to_nat n)) as [->|NE]; [right; reflexivity|left]. specialize (CF ltac:(lia)). rewrite SQ in CF.
    assert (X : x = iterate k) by (unfold iterate; destruct (Nat.iter k _ _); injection E as <- _; reflexivity). rewrite X.
    revert CF. destruct (Rleb_spec epsilon6 (vdot (rest (iterate k)) (rest (iterate k)))); [discriminate|lra].
Qed.
End Residual.

(** ** C67 *)
Section NaturalStep.
Context {D : Type} (d : D) {Slots : Type}.
Variable loss : nat -> arguments D -> vars -> R.
Variable gradient : arguments D -> vars -> list (option tensor).
Variable fisher : arguments D -> vars -> vars -> vars.
Variable apply_gradients : nat -> list (option tensor) -> vars -> Slots -> vars * Slots.
Variable normal : nat -> nat -> nat -> R.
Variable uniform : nat -> nat -> nat.
Variable sources : vars.
Notation world := (@world Slots).
Notation step := (step d loss gradient fisher apply_gradients normal uniform sources).

(** The estimated KL divergence 1/2 x F x of a step x is between zero and the SQUARE of the learning
    rate (plus epsilon). *)
Theorem C67_kl_bound_partial lr r m dp a (w : world) ds w' :
  (forall a v c x, fisher a v (vscale c x) = vscale c (fisher a v x)) ->
  (forall n, p_value lr n = r) -> 0 < r -> step (NaturalGradient lr m dp true) a w = (ds, w') ->
  0 <= 1 / 2 * vdot (fisher a (w_vars w) ds) ds <= (r + / 1000000) * (r + / 1000000).
Proof. intros F LR POS E. exact (natural_kl loss gradient fisher F lr r m dp true a w ds w' LR POS eq_refl E). Qed.

(** So it is never the learning rate, as documented, for any learning rate up to 1/2 (but not tiny). *)
Theorem C67_kl_learning_rate_refuted lr r m dp a (w : world) ds w' :
  (forall a v c x, fisher a v (vscale c x) = vscale c (fisher a v x)) ->
  (forall n, p_value lr n = r) -> / 100000 <= r <= 1 / 2 -> step (NaturalGradient lr m dp true) a w = (ds, w') ->
  1 / 2 * vdot (fisher a (w_vars w) ds) ds < 2 / 3 * r.
Proof.
  intros F LR POS E. destruct (C67_kl_bound_partial lr r m dp a w ds w' F LR ltac:(lra) E) as [_ B].
  eapply Rle_lt_trans; [exact B|]. nra.
Qed.

(** ** C68 *)
(** An evolutionary step adds the mean of [n] perturbations, drawn with the learning rate as
    deviation, each with the sign plus if it lowers the loss and minus otherwise. *)
Theorem C68_mean_of_signed_perturbations L lr r q n a (w : world) ds w' :
  (forall n a v, loss n a v = L a v) -> (forall t, p_value lr t = r) ->
  (forall t, i_value q t = Z.of_nat n) -> (1 <= n)%nat -> (i_const q = Some (Z.of_nat n) \/ i_const q = None) ->
  step (Evolutionary lr q) a w = (ds, w') ->
  exists ps t, length ps = n /\ (forall i, (i < n)%nat -> drawn normal r (w_vars w) (t + i) (nth i ps [])) /\
    ds = vscale (/ INR n) (signed_sum L a (w_vars w) ps) /\ w_vars w' = vadd (w_vars w) ds.
Proof.
  intros DL LR Q N QC E. cbn [OptModel.step] in E. unfold evolutionary_step in E. cbn [read eval_loss tick w_vars w_clock w_evals] in E.
  rewrite LR, DL in E. destruct (i_is q 1) eqn:I1.
  - assert (N1 : n = 1%nat).
    { unfold i_is in I1. destruct QC as [QC|QC]; rewrite QC in I1; [|discriminate]. apply Z.eqb_eq in I1. lia. }
    subst n. set (w1 := {| w_vars := _ |}) in *.
    pose proof (perturbation_drawn normal r w1) as DR. destruct (perturbation normal r w1) as [p w2] eqn:EP.
    assert (V2 : w_vars w2 = w_vars w) by (unfold perturbation in EP; injection EP as _ <-; reflexivity).
    cbn [fst w1 w_vars w_clock] in DR. fold w1 in DR. pose proof (proj1 DR) as SP.
    cbn [assign_add set_vars w_vars] in E. rewrite DL, V2 in E.
    exists [p], (S (w_clock w)). split; [reflexivity|]. split.
    { intros i I. destruct i; [|lia]. rewrite Nat.add_0_r. exact DR. }
    unfold signed_sum. cbn [fold_left INR]. unfold verdict. rewrite Rinv_1.
    destruct (Rltb (L a (vadd (w_vars w) p)) (L a (w_vars w))); injection E as <- <-; cbn; (split; entries; lra).
  - cbn [read_int] in E. rewrite Q, Nat2Z.id, while_true in E. set (w1 := tick _) in *.
    pose proof (evolved loss L DL normal r a (w_vars w) n w1 eq_refl) as EV. cbv zeta in EV.
    change (w_vars w1) with (w_vars w) in E. destruct (Nat.iter n _ _) as [[dl pt'] w2]. cbn [fst snd] in EV.
    destruct EV as (ps & P1 & P2 & P3 & P4 & P5 & P6). injection E as <- <-.
    exists ps, (w_clock w1). split; [exact P1|]. split; [exact P6|].
    assert (SL : shape (last ps (vzeros (w_vars w))) = shape (w_vars w)).
    { destruct ps as [|p ps _] using rev_ind; [cbn [last]; shapes|]. rewrite last_last. rewrite app_length in P1. cbn in P1.
      specialize (P6 (length ps) ltac:(lia)). rewrite app_nth2, Nat.sub_diag in P6 by lia. apply P6. }
    assert (SS : shape (signed_sum L a (w_vars w) ps) = shape (w_vars w)).
    { assert (SP : Forall (fun p => shape p = shape (w_vars w)) ps).
      { apply Forall_nth. intros i dflt I. rewrite (nth_indep ps dflt [] I). rewrite P1 in I. apply (P6 i I). }
      unfold signed_sum. assert (S0 : shape (vzeros (w_vars w)) = shape (w_vars w)) by shapes. revert S0.
      generalize (vzeros (w_vars w)). clear -SP. induction SP as [|p ps H SP IH]; intros acc S0; cbn; [exact S0|]. apply IH. shapes. }
    assert (DV : vmap (fun x => x / IZR (Z.of_nat n)) dl = vscale (/ INR n) (signed_sum L a (w_vars w) ps)).
    { rewrite P2, <- INR_IZR_INZ. unfold vscale, vmap. apply map_ext. intros. apply map_ext. intros. unfold Rdiv. ring. }
    rewrite DV. split; [reflexivity|]. cbn. rewrite P4, P3. entries. lra.
Qed.
End NaturalStep.

(** ** C69 *)
Lemma nth_error_all {A} (l : list A) : forall m, (forall i, nth_error l i = nth_error m i) -> l = m.
Proof.
  induction l as [|x l IH]; intros [|y m] H; [reflexivity|specialize (H O); discriminate|specialize (H O); discriminate|].
  pose proof (H O) as H0. injection H0 as ->. f_equal. apply IH. intros i. exact (H (S i)).
Qed.

(** If the two networks have the same number of variables, the names of the other network are all
    found and differ, then the source variables are the other network's, each at the position of the
    target variable with its name. *)
Theorem C69_aligned rename targets others l :
  length others = length targets -> NoDup (map rename others) ->
  source_variables rename targets others = Some l ->
  map rename l = targets /\ Permutation l others.
Proof.
  intros LEN ND E. unfold source_variables in E. destruct (keys _ others) as [r|] eqn:K; [|discriminate]. injection E as <-.
  destruct (keys_spec _ _ _ K) as [M F]. destruct (fold_sorted r [] ltac:(intros [|i] ? ? ? ? H; discriminate)) as [S P].
  rewrite app_nil_r in P. set (s := fold_left (fun acc x => insert_by x acc) r []) in *.
  assert (PO : Permutation (map snd s) others) by (rewrite <- M; now apply Permutation_map).
  split; [|exact PO].
  assert (FS : Forall (fun kx => index_of (rename (snd kx)) targets = Some (fst kx)) s).
  { rewrite Forall_forall in F |- *. intros x I. apply F. eapply Permutation_in; eauto. }
  assert (NS : NoDup (map rename (map snd s))).
  { eapply Permutation_NoDup; [|exact ND]. apply Permutation_map. now symmetry. }
  assert (LS : length s = length targets) by (rewrite <- LEN, <- (Permutation_length PO), map_length; reflexivity).
  assert (KS : map fst s = seq 0 (length targets)).
  { rewrite <- LS. replace (length s) with (length (map fst s)) by apply map_length. apply sorted_seq.
    - assert (INJ : forall x y, In x s -> In y s -> fst x = fst y -> rename (snd x) = rename (snd y)).
      { intros x y X Y EQ. rewrite Forall_forall in FS. pose proof (index_of_nth _ _ _ (FS x X)) as A. pose proof (index_of_nth _ _ _ (FS y Y)) as B. congruence. }
      clear -NS INJ. induction s as [|x s IH]; [constructor|]. cbn in *. inversion NS as [|? ? NI NS']; subst. constructor.
      + intros I. apply in_map_iff in I. destruct I as (y & EQ & Y). apply NI. apply in_map_iff. exists (snd y). split; [|now apply in_map].
        symmetry. apply INJ; auto.
      + apply IH; [exact NS'|]. intros; apply INJ; auto.
    - intros i j x y IJ X Y. rewrite nth_error_map in X, Y. destruct (nth_error s i) eqn:EX; [|discriminate]. destruct (nth_error s j) eqn:EY; [|discriminate].
      injection X as <-. injection Y as <-. eapply S; eauto.
    - apply Forall_forall. intros k I. apply in_map_iff in I. destruct I as (x & <- & X). rewrite map_length, LS.
      rewrite Forall_forall in FS. pose proof (index_of_nth _ _ _ (FS x X)) as A. split; [lia|]. apply nth_error_Some. congruence. }
  apply nth_error_all. intros i. rewrite !nth_error_map. destruct (nth_error s i) as [[k x]|] eqn:EX; cbn.
  - pose proof (nth_error_In _ _ EX) as IX. rewrite Forall_forall in FS. pose proof (index_of_nth _ _ _ (FS _ IX)) as A. cbn in A.
    assert (k = i).
    { assert (Q : nth_error (map fst s) i = Some k) by (rewrite nth_error_map, EX; reflexivity). rewrite KS in Q.
      assert (I : (i < length targets)%nat) by (rewrite <- LS; apply nth_error_Some; congruence).
      rewrite nth_error_nth' with (d := O) in Q by (rewrite seq_length; exact I). rewrite seq_nth in Q by exact I. injection Q as <-. lia. }
    subst k. now rewrite A.
  - symmetry. apply nth_error_None. rewrite <- LS. now apply nth_error_None.
Qed.

(** If the other network has fewer variables, all found, the pairs formed by zip
    (synchronization.py 78-80) are not those of equal names, and only some of the targets are moved. *)
Theorem C69_fewer_variables_refuted : exists targets others l,
  NoDup targets /\ NoDup others /\ source_variables (fun x => x) targets others = Some l /\
  exists i s t, nth_error l i = Some s /\ nth_error targets i = Some t /\ s <> t.
Proof.
  exists ["a"; "b"; "c"]%string, ["a"; "c"]%string, ["a"; "c"]%string.
  repeat split; [repeat constructor; cbn; intuition discriminate..|].
  exists 1%nat, "c"%string, "b"%string. repeat split. discriminate.
Qed.

(** ** A sample instance *)
(** one scalar variable (or several), the gradient is the value itself, the Fisher matrix is the
    identity, gradient descent with rate 1/2, every draw gives 1 *)
Definition s_loss (n : nat) (a : arguments unit) (v : vars) : R := vdot v v.
Definition s_gradient (a : arguments unit) (v : vars) : list (option tensor) := map Some v.
Definition s_fisher (a : arguments unit) (v x : vars) : vars := x.
Definition s_apply (rate : R) (id : nat) (g : list (option tensor)) (v : vars) (s : unit) : vars * unit :=
  (map2 (fun (t : tensor) g => match g with Some u => map2 (fun x y => x - rate * y) t (map (fun i => nth i u 0) (seq 0 (length t))) | None => t end)
        v (map (fun i => nth i g None) (seq 0 (length v))), s).
Definition s_normal (n i j : nat) : R := 1.
Definition s_uniform (n i : nat) : nat := (n + i)%nat.
Definition s_args : arguments unit := {| a_states := None; a_horizons := None; a_reward := [tt; tt]; a_others := [] |}.
Definition s_world (v : vars) : @world unit :=
  {| w_vars := v; w_globals := v; w_slots := tt; w_next := fun _ => 0%Z; w_clock := 0; w_evals := 0 |}.
Notation s_step rate sources := (step tt s_loss s_gradient s_fisher (s_apply rate) s_normal s_uniform sources).

Lemma map2_length {A B C} (f : A -> B -> C) l : forall m, length m = length l -> length (map2 f l m) = length l.
Proof. induction l as [|x l IH]; intros [|y m] E; cbn in *; try discriminate; auto. Qed.

Lemma s_apply_shape rate id g v s : shape (fst (s_apply rate id g v s)) = shape v.
Proof.
  cbn. assert (X : forall m, length m = length v -> shape (map2 (fun (t : tensor) (g : option tensor) => match g with Some u => map2 (fun x y => x - rate * y) t (map (fun i => nth i u 0) (seq 0 (length t))) | None => t end) v m) = shape v).
  { induction v as [|t v IH]; intros [|y m] E; cbn in E; try discriminate; [reflexivity|]. unfold shape in *. cbn. f_equal; [|apply IH; lia].
    destruct y; [|reflexivity]. apply map2_length. now rewrite map_length, seq_length. }
  apply X. now rewrite map_length, seq_length.
Qed.

Lemma s_keeps rate : keeps_shapes s_gradient s_fisher (s_apply rate).
Proof.
  split; [|split].
  - intros a v. unfold s_gradient. induction v; constructor; cbn; auto.
  - intros a v x H. exact H.
  - intros. apply s_apply_shape.
Qed.

(** The hypotheses of C47, C48, C50 and C52 hold together. *)
Example C47_example : keeps_shapes s_gradient s_fisher (s_apply (1 / 2)) /\ matching [[1]] (s_world [[4]]) /\
  deterministic_loss s_loss (fun _ v => vdot v v).
Proof. split; [apply s_keeps|]. split; [split; reflexivity|]. intros n a v. reflexivity. Qed.

Ltac run := cbn; change (Pos.to_nat 1) with 1%nat; change (Pos.to_nat 2) with 2%nat; cbn; unfold vdot, vsub, vadd, vopp, vscale, vzeros, vmap, vmap2, vsum, tsum; cbn.

(** Gradient descent from 4 with rate 1/2 gives 2, followed by half a step towards 1. *)
Example C47_example_value :
  w_vars (snd (s_step (1 / 2) [[1]] (Plus (TFOptimizer 0 None) (Synchronization 0 (constant (1 / 2)) (int_constant 1))) s_args (s_world [[4]]))) = [[3 / 2]].
Proof.
  unfold step, sync_step, apply_sync, p_is, i_is, constant, int_constant. cbn [p_const i_const Z.eqb Pos.eqb].
  destruct (Reqb_spec (1 / 2) 1); [lra|]. run. do 2 f_equal. lra.
Qed.

(** Rate 1/2 improves the loss and is kept; rate 3 jumps to -8 and is undone. *)
Example C48_example_kept : w_vars (snd (s_step (1 / 2) [[1]] (DoublecheckStep (TFOptimizer 0 None)) s_args (s_world [[4]]))) = [[2]].
Proof.
  run. unfold s_loss. run. match goal with |- context [Rltb ?x ?y] => destruct (Rltb_spec x y) as [H|H] end.
  - cbn. do 2 f_equal. lra.
  - exfalso. revert H. run. lra.
Qed.
Example C48_example_undone : w_vars (snd (s_step 3 [[1]] (DoublecheckStep (TFOptimizer 0 None)) s_args (s_world [[4]]))) = [[4]].
Proof.
  run. unfold s_loss. run. match goal with |- context [Rltb ?x ?y] => destruct (Rltb_spec x y) as [H|H] end.
  - exfalso. revert H. run. lra.
  - run. do 2 f_equal. lra.
Qed.

(** With at most one iteration the loss is evaluated three times after the inner step: the limit does
    not bound the evaluations. *)
Ltac plain t := lazymatch t with
  | context [Rltb _ _] => fail | context [Rleb _ _] => fail | context [Reqb _ _] => fail | _ => idtac end.
Ltac decide_all := repeat match goal with
  | |- context [Reqb ?x ?y] => plain x; plain y; let HH := fresh in destruct (Reqb_spec x y) as [HH|HH]; try (exfalso; revert HH; run; intros HH; try apply Rnot_lt_le in HH; try apply Rnot_le_lt in HH; lra)
  | |- context [Rltb ?x ?y] => plain x; plain y; let HH := fresh in destruct (Rltb_spec x y) as [HH|HH]; try (exfalso; revert HH; run; intros HH; try apply Rnot_lt_le in HH; try apply Rnot_le_lt in HH; lra)
  | |- context [Rleb ?x ?y] => plain x; plain y; let HH := fresh in destruct (Rleb_spec x y) as [HH|HH]; try (exfalso; revert HH; run; intros HH; try apply Rnot_lt_le in HH; try apply Rnot_le_lt in HH; lra)
  end.
Ltac execute := run; unfold s_loss, s_normal, evaluate_step, eval_loss, ls_next, ls_end, ls_step, all_zero; run; decide_all; run; decide_all; run; decide_all; run.

Theorem C49_evaluations_refuted : exists a w w1,
  w1 = snd (s_step 3 [[1]] (TFOptimizer 0 None) a (snd (eval_loss s_loss a w))) /\
  let w' := snd (s_step 3 [[1]] (LinesearchStep (int_constant 1) (constant (3 / 4)) (TFOptimizer 0 None)) a w) in
  w_evals w' = (w_evals w1 + 3)%nat /\ w_vars w1 = [[-8]] /\ w_vars w' = [[- 11 / 4]].
Proof.
  exists s_args, (s_world [[4]]). eexists. split; [reflexivity|]. cbv zeta.
  split; [|split].
  - execute. reflexivity.
  - run. do 2 f_equal. lra.
  - execute. do 2 f_equal. lra.
Qed.

(** With a backtracking factor which is not constant (a random or decaying parameter), the accepted
    point may lie outside of the line between the old (0) and the fully updated variables (1). *)
Theorem C49_changing_factor_refuted : exists (f : param) (a : arguments unit) (w : @world unit) ds w',
  (forall n, 0 < p_value f n < 1) /\ w_vars w = [[0]] /\
  step tt (fun _ _ v => vsum v) s_gradient s_fisher (s_apply 1) s_normal s_uniform [[1]]
    (LinesearchStep (int_constant 1) f (Synchronization 0 (constant 1) (int_constant 1))) a w = (ds, w') /\
  w_vars (snd (sync_step [[1]] 0 (constant 1) (int_constant 1) w)) = [[1]] /\
  w_vars w' = [[- 71 / 100]].
Proof.
  exists {| p_const := None; p_value := fun n => if Nat.eqb n 0 then 1 / 10 else 9 / 10 |}, s_args, (s_world [[0]]).
  eexists. eexists. split; [|split; [reflexivity|split; [apply surjective_pairing|split]]].
  - intros n. cbn. destruct (Nat.eqb n 0); lra.
  - unfold sync_step, apply_sync, i_is, p_is, int_constant, constant. cbn. decide_all. reflexivity.
  - unfold step, sync_step, apply_sync, i_is, p_is, int_constant, constant. cbn. decide_all.
    execute. do 2 f_equal. lra.
Qed.

(** The search of [C49_evaluations_refuted] meets the hypotheses of [C49_search]. *)
Example C49_example : keeps_shapes s_gradient s_fisher (s_apply 3) /\ matching [[1]] (s_world [[4]]) /\
  deterministic_loss s_loss (fun _ v => vdot v v) /\ (forall n, p_value (constant (3 / 4)) n = 3 / 4) /\ 0 <= 3 / 4 <= 1.
Proof. split; [apply s_keeps|]. split; [split; reflexivity|]. split; [intros n a v; reflexivity|]. split; [reflexivity|lra]. Qed.

(** A step of -2 is limited to -1. *)
Example C50_example :
  w_vars (snd (s_step (1 / 2) [[1]] (ClippingStep (constant 1) Value (TFOptimizer 0 None)) s_args (s_world [[4]]))) = [[3]] /\
  w_vars (snd (s_step (1 / 2) [[1]] (TFOptimizer 0 None) s_args (s_world [[4]]))) = [[2]].
Proof.
  split.
  - run. unfold clip_by_value. do 2 f_equal. unfold Rmin, Rmax. repeat destruct (Rle_dec _ _); lra.
  - run. do 2 f_equal. lra.
Qed.

(** Sources 0, 1, 2, ... copied every second update. *)
Fixpoint s_before (n : nat) : @world unit :=
  match n with
  | O => s_world [[7]]
  | S m => snd (sync_step [[INR m]] 0 (constant 1) (int_constant 2) (s_before m))
  end.
Example C51_example :
  w_next (s_before 0) 0 = 0%Z /\ (forall n, w_next (s_before (S n)) 0 = w_next (after 0 (constant 1) (int_constant 2) s_before (fun m => [[INR m]]) n) 0) /\
  w_vars (s_before 1) = [[0]] /\ w_vars (s_before 2) = [[0]] /\ w_vars (s_before 3) = [[2]] /\ w_vars (s_before 4) = [[2]].
Proof.
  split; [reflexivity|]. split; [reflexivity|].
  repeat split; unfold s_before, sync_step, apply_sync, i_is, p_is, int_constant, constant; cbn; decide_all; cbn; try reflexivity; do 2 f_equal; lra.
Qed.

(** Timesteps 2, 0, 2 of a batch with state sequences of lengths 2, 1 and 3. *)
Example C52_example :
  let a := {| a_states := Some [("s"%string, [10; 11; 12; 13; 14; 15]%nat)]; a_horizons := Some [(0, 2); (2, 1); (3, 3)]%nat;
              a_reward := [5; 6; 7]%nat; a_others := [("actions"%string, [1; 2; 3]%nat)] |} in
  well_formed a /\
  subsample O [2; 0; 2]%nat a =
    {| a_states := Some [("s"%string, [13; 14; 15; 10; 11; 13; 14; 15]%nat)]; a_horizons := Some [(0, 3); (3, 2); (5, 3)]%nat;
       a_reward := [7; 5; 7]%nat; a_others := [("actions"%string, [3; 1; 3]%nat)] |}.
Proof.
  split; [|reflexivity]. split; [repeat constructor|]. intros h H. injection H as <-. split; [reflexivity|].
  intros s H. injection H as <-. repeat constructor.
Qed.

(** Twice the identity is linear; one iteration solves 2 x = 2 up to epsilon. *)
Example C53_example :
  (forall x, shape x = [1%nat] -> shape (vscale 2 x) = [1%nat]) /\
  (forall x y, shape x = [1%nat] -> shape y = [1%nat] -> vscale 2 (vadd x y) = vadd (vscale 2 x) (vscale 2 y)) /\
  (forall c x, shape x = [1%nat] -> vscale 2 (vscale c x) = vscale c (vscale 2 x)) /\
  g_x (fst (cg_step (W := unit) (vscale 2) (fun w => (0, w)) (cg_start (vscale 2) [[0]] [[2]], tt))) = [[8 / (8 + epsilon6)]].
Proof.
  split; [intros; shapes|]. split; [intros; entries; lra|]. split; [intros; entries; lra|].
  assert (0 < epsilon6) by (unfold epsilon6; lra).
  run. decide_all. run. decide_all. do 2 f_equal. field. lra.
Qed.

(** A natural-gradient step which is taken. *)
Example C67_example :
  fst (s_step 1 [[1]] (NaturalGradient (constant (1 / 100)) (int_constant 1) (constant 0) true) s_args (s_world [[4]])) <> [[0]].
Proof.
  assert (EP : 0 < epsilon6 < 1 / 1000) by (unfold epsilon6; lra).
  assert (CG : forall w : @world unit, cg_solve (fun x => x) (read (constant 0)) (read_int (int_constant 1)) [[0]] [[- (4)]] w
    = ([[- (64 / (16 + epsilon6))]], tick (tick w))).
  { intros w. unfold cg_solve. cbn [read_int int_constant i_value]. change (Z.to_nat 1) with 1%nat. cbn [while_loop].
    unfold cg_next, cg_step, cg_start. run. decide_all. run. decide_all. do 3 f_equal. field. lra. }
  unfold step, natural_step. cbn [eval_loss s_world w_vars s_gradient].
  match goal with |- context [cg_solve ?f ?a ?b ?c ?y ?w] =>
    change (cg_solve f a b c y w) with (cg_solve (fun x => x) (read (constant 0)) (read_int (int_constant 1)) [[0]] [[- (4)]] w) end.
  rewrite CG. set (x := 64 / (16 + epsilon6)).
  assert (X : 3 < x) by (unfold x; apply Rmult_lt_reg_r with (16 + epsilon6); [lra|]; unfold Rdiv; rewrite Rmult_assoc, Rinv_l; lra).
  clearbody x. unfold s_fisher. run.
  set (c := 1 / 2 * _). assert (C : 4 < c) by (unfold c; nra).
  pose proof (sqrt_lt_R0 c ltac:(lra)) as Q.
  assert (LP : 0 < sqrt c / (1 / 100 + epsilon6)) by (apply Rdiv_lt_0_compat; lra).
  clearbody c. decide_all. set (l := sqrt c / (1 / 100 + epsilon6)) in *. run. intros E. injection E as E.
  assert (- x / (l + epsilon6) < 0) by (unfold Rdiv; rewrite Ropp_mult_distr_l_reverse; apply Ropp_lt_gt_0_contravar; apply Rmult_lt_0_compat; [lra|apply Rinv_0_lt_compat; lra]).
  lra.
Qed.

(** Every perturbation of 1/10 raises the loss at 4. *)
Example C68_example :
  w_vars (snd (s_step 1 [[1]] (Evolutionary (constant (1 / 10)) (int_constant 1)) s_args (s_world [[4]]))) = [[39 / 10]] /\
  w_vars (snd (s_step 1 [[1]] (Evolutionary (constant (1 / 10)) (int_constant 2)) s_args (s_world [[4]]))) = [[39 / 10]].
Proof.
  split; unfold step, evolutionary_step, i_is, int_constant; cbn [i_const Z.eqb Pos.eqb].
  - execute; do 2 f_equal; lra.
  - unfold evolve. execute. do 2 f_equal. lra.
Qed.

Example C69_example :
  source_variables (fun x => String.substring 2 1 x) ["a"; "b"; "c"]%string ["x/c"; "x/a"; "x/b"]%string = Some ["x/a"; "x/b"; "x/c"]%string.
Proof. reflexivity. Qed.

Print Assumptions C47_reported_change.
Print Assumptions C47_global.
Print Assumptions C48_doublecheck.
Print Assumptions C49_search.
Print Assumptions C49_evaluations.
Print Assumptions C50_clipped.
Print Assumptions C50_wrapper.
Print Assumptions C50_multi.
Print Assumptions C51_schedule.
Print Assumptions C52_subsampled.
Print Assumptions C53_residual.
Print Assumptions C53_solution.
Print Assumptions C67_kl_bound_partial.
Print Assumptions C67_kl_learning_rate_refuted.
Print Assumptions C68_mean_of_signed_perturbations.
Print Assumptions C69_aligned.
Print Assumptions C69_fewer_variables_refuted.
Print Assumptions C49_evaluations_refuted.
Print Assumptions C49_changing_factor_refuted.
