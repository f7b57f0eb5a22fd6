(** The options of the optimizer wrapper: C48 and C85.  As in OptProps.v, for every loss function,
    gradient, Fisher product, TensorFlow optimizer and random draw. *)

From Coq Require Import String List ZArith Reals Lra Lia Bool.
From Verif Require Import OptVec ParModel SolveModel OptModel OptProofs OptProofs2 OptProps.
Import ListNotations.
Open Scope R_scope.

Section Wrapper.
Context {D : Type} (d : D) {Slots : Type}.
Variable loss : nat -> arguments D -> vars -> R.
Variable gradient : arguments D -> vars -> list (option tensor).
Variable fisher : arguments D -> vars -> vars -> vars.
Variable apply_gradients : nat -> list (option tensor) -> vars -> Slots -> vars * Slots.
Variable normal : nat -> nat -> nat -> R.
Variable uniform : nat -> nat -> nat.
Variable sources : vars.
Notation world := (@world Slots).
Notation step := (step d loss gradient fisher apply_gradients normal uniform sources).
Notation keeps_shapes := (keeps_shapes gradient fisher apply_gradients).
Notation matching := (matching sources).
Notation deterministic_loss := (deterministic_loss loss).

(** Without options the wrapper is the inner optimizer; multi_step = n repeats what the wrapper
    without it does n times, and reports the total change. *)
Definition options (o : optimizer) (n : Z) (doublecheck : bool) : wrapper :=
  {| k_optimizer := o; k_clipping := None; k_multi := int_constant n; k_subsampling := Relative (constant 1);
     k_linesearch := int_constant 0; k_doublecheck := doublecheck |}.
Theorem C85_multi : forall k n a (w : world) ds w', k_clipping k = None -> k_multi k = int_constant (Z.of_nat n) -> (1 <= n)%nat ->
  keeps_shapes -> matching w -> step (wrap k) a w = (ds, w') ->
  let once := wrap {| k_optimizer := k_optimizer k; k_clipping := None; k_multi := int_constant 1; k_subsampling := k_subsampling k;
                      k_linesearch := k_linesearch k; k_doublecheck := k_doublecheck k |} in
  exists w0, w_vars w0 = w_vars w /\ matching w0 /\
    w' = Nat.iter n (fun u => snd (step once a u)) w0 /\ ds = vsub (w_vars w') (w_vars w).
Proof.
  intros k n a w ds w' C M N K MW E once.
  assert (DS : ds = vsub (w_vars w') (w_vars w)) by (eapply C47_reported_change; eauto).
  assert (X : wrap k = if Z.ltb 1 (Z.of_nat n) then MultiStep (k_multi k) once else once).
  { unfold once, wrap. rewrite C, M. cbn [k_optimizer k_clipping k_multi k_subsampling k_linesearch k_doublecheck int_constant i_const].
    destruct (Z.ltb_spec 1 (Z.of_nat n)); [|]; reflexivity. }
  rewrite X in E. clearbody once. destruct (Z.ltb_spec 1 (Z.of_nat n)) as [H|H].
  - exists (tick w). split; [reflexivity|]. split; [exact MW|]. split; [|exact DS].
    change (step (MultiStep (k_multi k) once) a w) with
      (let '(k, u) := read_int (k_multi k) w in while_loop (Z.to_nat k) (fun _ => true)
         (fun '(x, u) => let '(y, u) := step once a u in (vadd x y, u)) (vzeros (w_vars w), u)) in E.
    rewrite M in E. cbn [read_int int_constant i_value] in E. rewrite Nat2Z.id, while_true in E.
    assert (G : forall m x u, snd (Nat.iter m (fun '(x, u) => let '(y, u) := step once a u in (vadd x y, u)) (x, u)) = Nat.iter m (fun u => snd (step once a u)) u).
    { clear. induction m as [|m IH]; intros x u; [reflexivity|]. cbn [Nat.iter nat_rect]. unfold Nat.iter in *. cbn [nat_rect]. rewrite <- (IH x u).
      destruct (nat_rect _ _ _ m) as [x' u']. cbn [snd]. destruct (step once a u') as [y u'']. reflexivity. }
    rewrite <- (G n (vzeros (w_vars w)) (tick w)). now rewrite E.
  - assert (n = 1%nat) by lia. subst n. exists w. cbn. rewrite E. auto.
Qed.
Theorem C85_none : forall o, wrap (options o 1 false) = o.
Proof. intros o. unfold wrap, options. cbn. unfold Reqb. destruct (Req_EM_T 1 1); [reflexivity|lra]. Qed.

(** With doublecheck_update (and any number of steps, but no subsampling, linesearch and clipping) an
    update never increases the loss on its arguments. *)
Theorem C48_wrapper : forall L o n a (w : world) ds w', (1 <= n)%nat ->
  keeps_shapes -> matching w -> deterministic_loss L -> step (wrap (options o (Z.of_nat n) true)) a w = (ds, w') ->
  L a (w_vars w') <= L a (w_vars w) /\ (L a (w_vars w') < L a (w_vars w) \/ w_vars w' = w_vars w).
Proof.
  intros L o n a w ds w' N K M DL E.
  destruct (C85_multi (options o (Z.of_nat n) true) n a w ds w' eq_refl eq_refl N K M E) as (w0 & V0 & M0 & -> & _).
  cbn [k_optimizer k_subsampling k_linesearch k_doublecheck options] in *. rewrite <- V0.
  assert (W : wrap {| k_optimizer := o; k_clipping := None; k_multi := int_constant 1; k_subsampling := Relative (constant 1);
                      k_linesearch := int_constant 0; k_doublecheck := true |} = DoublecheckStep o).
  { unfold wrap. cbn. unfold Reqb. destruct (Req_EM_T 1 1); [reflexivity|lra]. }
  rewrite W in *. clear - K M0 DL.
  enough (G : forall m, let u := Nat.iter m (fun u => snd (step (DoublecheckStep o) a u)) w0 in matching u /\
    L a (w_vars u) <= L a (w_vars w0) /\ (L a (w_vars u) < L a (w_vars w0) \/ w_vars u = w_vars w0)) by (apply (G n)).
  induction m as [|m IH]; cbv zeta in *; [cbn; repeat split; auto; [apply M0|apply M0|lra]|].
  change (Nat.iter (S m) (fun u => snd (step (DoublecheckStep o) a u)) w0) with
    (snd (step (DoublecheckStep o) a (Nat.iter m (fun u => snd (step (DoublecheckStep o) a u)) w0))).
  set (u := Nat.iter m _ w0) in *. clearbody u. destruct IH as (MU & LE & ALT).
  pose proof (step_ok d loss gradient fisher apply_gradients normal uniform sources (DoublecheckStep o) a u K MU) as R.
  destruct (step (DoublecheckStep o) a u) as [x u'] eqn:E. destruct R as ([S1 S2] & S & V). cbn [fst snd] in *.
  destruct (C48_doublecheck d loss gradient fisher apply_gradients normal uniform sources L o a u x u' K MU DL E) as (LE' & ALT' & _).
  assert (SU : shape (w_vars u') = shape (w_vars u)) by congruence.
  split; [destruct MU; split; congruence|]. split; [lra|].
  destruct ALT' as [|EQ]; [left; lra|]. rewrite EQ. exact ALT.
Qed.
End Wrapper.

(** From 4 with loss x^2, two gradient steps of rate 1/2 are kept, also with doublecheck; steps of rate 3
    are undone with it *)
Lemma wrap_doublecheck o : wrap (options o 1 true) = DoublecheckStep o.
Proof. unfold wrap, options. cbn. unfold Reqb. destruct (Req_EM_T 1 1); [reflexivity|lra]. Qed.
Example C48_wrapper_example :
  w_vars (snd (s_step (1 / 2) [[1]] (wrap (options (TFOptimizer 0 None) 1 true)) s_args (s_world [[4]]))) = [[2]] /\
  w_vars (snd (s_step 3 [[1]] (wrap (options (TFOptimizer 0 None) 1 true)) s_args (s_world [[4]]))) = [[4]].
Proof. rewrite wrap_doublecheck. split; [apply C48_example_kept|apply C48_example_undone]. Qed.
Example C85_multi_example :
  w_vars (snd (s_step (1 / 2) [[1]] (wrap (options (TFOptimizer 0 None) 2 false)) s_args (s_world [[4]]))) = [[1]].
Proof.
  assert (W : wrap (options (TFOptimizer 0 None) 2 false) = MultiStep (int_constant 2) (TFOptimizer 0 None)).
  { unfold wrap, options. cbn. unfold Reqb. destruct (Req_EM_T 1 1); [reflexivity|lra]. }
  rewrite W. run. do 2 f_equal. lra.
Qed.

Print Assumptions C48_wrapper.
Print Assumptions C85_multi.
Print Assumptions C85_none.
