(** Theorems on preprocessing (C44, C45, C46, C65, C66, and C25 for preprocessing). *)
From Coq Require Import String List ZArith Reals Bool Lra Lia.
From Verif Require Import Base ParModel ParProofs PreModel PreProofs.
Import ListNotations.
Open Scope string_scope.
Open Scope list_scope.
Open Scope nat_scope.

Section Preprocessing.
Context {T X : Type}.
Variable asserts : bool.
Implicit Types (zero x : T) (ls : layers T X).

(** The acts of one episode, one state at a time *)
Definition acts (p : nat) (ep : list T) : list (event T) := map (fun x => Act [p] [x]) ep.

(** ** C44 *)
(** After a terminal observe, whatever happened before, the next acts present the last k states
    of the new episode: block number i is state number t + 1 + i - k (0 if negative), where t is
    the number of the current state.  The same holds of the first episode. *)
Theorem C44_sequence_partial (l : sequence T X) zero past q s p ep x :
  create_sequence l = Ok tt -> Forall (fun x => length (view l x) = size l) (ep ++ [x]) ->
  steps asserts (Layer (LSequence l)) (initial zero (Layer (LSequence l))) past = Ok s ->
  (past = [] \/ exists earlier, past = earlier ++ [ObserveTerminal q]) ->
  exists s' s'', steps asserts (Layer (LSequence l)) s (acts p ep) = Ok s' /\
    step asserts (Layer (LSequence l)) s' (Act [p] [x]) =
      Ok (s'', [unview l (concat (map (fun i => view l (nth (length ep + 1 + i - length_ l) ep x)) (seq 0 (length_ l))))]).
Proof.
  intros Hc Hv Hs Hp. unfold create_sequence in Hc. destruct (Nat.ltb_spec 1 (length_ l)) as [Hk|]; [|discriminate].
  assert (exists t, s = [SSequence t] /\ s_has t = false) as (t & -> & Ht).
  { destruct Hp as [->|(earlier & ->)].
    - cbn in Hs. injection Hs as <-. eexists. split; reflexivity.
    - rewrite steps_app in Hs. destruct (steps asserts _ _ earlier) as [s0|] eqn:E0; [|discriminate]. pose proof (steps_kind _ _ _ _ _ (initial_kind zero _) E0) as Hk0.
      cbn in Hk0. inversion Hk0 as [|? t ? ts H1 H2]; subst. inversion H2; subst. destruct t as [t|t|]; try contradiction. cbn in Hs. injection Hs as <-. eexists. split; reflexivity. }
  clear Hs Hp past.
  assert (exists t', steps asserts (Layer (LSequence l)) [SSequence t] (acts p ep) = Ok [SSequence t'] /\
    match rev ep with [] => s_has t' = false | y :: r => remembers l t' (rev r) y end) as (t' & Hs & Hr).
  { induction ep as [|y ep IH] using rev_ind; [exists t; now split|]. rewrite <- app_assoc in Hv. destruct IH as (t1 & H1 & H2).
    { apply Forall_app in Hv. destruct Hv as [Hv1 Hv2]. apply Forall_app. split; auto. inversion_clear Hv2. inversion_clear H0. constructor; auto. }
    unfold acts. rewrite map_app, steps_app. fold (acts p ep). rewrite H1. cbn [bind map steps]. rewrite rev_app_distr. cbn [rev app].
    unfold step, apply. cbn [flatten stack_apply layer_apply].
    assert (length (view l y) = size l) as Hy by (rewrite Forall_forall in Hv; apply Hv, in_or_app; right; now left).
    destruct (rev ep) as [|z r] eqn:Er.
    - destruct (sequence_first l asserts t1 y H2 Hk Hy) as (t2 & E2 & Hr2). rewrite E2. cbn [bind]. exists t2. split; auto.
    - assert (ep = rev r ++ [z]) as Hep by (rewrite <- (rev_involutive ep), Er; reflexivity).
      destruct (sequence_next l asserts t1 (rev r) z y H2 Hk) as (t2 & E2 & Hr2).
      { rewrite Forall_forall in *. intros w Hw. apply Hv. rewrite Hep, <- app_assoc. rewrite !in_app_iff in *. cbn in *. tauto. }
      rewrite E2. cbn [bind]. exists t2. split; auto. }
  exists [SSequence t']. unfold step, apply. cbn [flatten stack_apply layer_apply].
  assert (length (view l x) = size l) as Hx by (rewrite Forall_forall in Hv; apply Hv, in_or_app; right; now left).
  destruct (rev ep) as [|z r] eqn:Er.
  - assert (ep = []) as -> by (rewrite <- (rev_involutive ep), Er; reflexivity).
    destruct (sequence_first l asserts t' x Hr Hk Hx) as (t2 & E2 & _). rewrite E2. cbn [bind]. exists [SSequence t2]. split; auto. unfold window. now rewrite map_map.
  - assert (ep = rev r ++ [z]) as Hep by (rewrite <- (rev_involutive ep), Er; reflexivity).
    destruct (sequence_next l asserts t' (rev r) z x Hr Hk) as (t2 & E2 & _).
    { rewrite Forall_forall in *. intros w Hw. apply Hv. rewrite Hep. rewrite !in_app_iff in *. cbn in *. tauto. }
    rewrite E2. cbn [bind]. exists [SSequence t2]. split; auto. unfold window. rewrite map_map, Hep. reflexivity.
Qed.

(** Whatever the layers: what is presented after a terminal observe does not depend on anything
    before it. *)
Theorem C44_episode_only ls zero past past' q s s' now e :
  steps asserts ls (initial zero ls) (past ++ [ObserveTerminal q]) = Ok s ->
  steps asserts ls (initial zero ls) (past' ++ [ObserveTerminal q]) = Ok s' ->
  match steps asserts ls s now, steps asserts ls s' now with
  | Ok t, Ok t' =>
    match step asserts ls t e, step asserts ls t' e with
    | Ok (_, y), Ok (_, y') => y = y'
    | Err m, Err m' => m = m'
    | _, _ => False
    end
  | Err m, Err m' => m = m'
  | _, _ => False
  end.
Proof.
  intros H H'. rewrite steps_app in H, H'.
  destruct (steps asserts ls _ past) as [r|] eqn:E; [|discriminate]. destruct (steps asserts ls _ past') as [r'|] eqn:E'; [|discriminate]. cbn in H, H'.
  apply steps_kind in E; [|apply initial_kind]. apply steps_kind in E'; [|apply initial_kind]. injection H as <-. injection H' as <-.
  destruct (reset_like (flatten ls) r r' E E') as [Hl Hk].
  pose proof (steps_like asserts ls now _ _ Hl Hk) as Hn. destruct (steps asserts ls (reset r) now) as [t|m], (steps asserts ls (reset r') now) as [t'|m']; auto.
  destruct Hn as [Hl' Hk']. pose proof (step_like asserts ls t t' e Hl' Hk') as Hs.
  destruct (step asserts ls t e) as [[u y]|m], (step asserts ls t' e) as [[u' y']|m']; tauto.
Qed.

(** Batches of more than one state are rejected, except that without assertions the first one of an
    episode passes. *)
Theorem C44_batched (l : sequence T X) s a b (x : list T) :
  (asserts = true \/ s_has s = true) -> exists m, sequence_apply asserts l s (a :: b :: x) = Err m.
Proof.
  intros H. unfold sequence_apply. destruct asserts; cbn [negb orb length Nat.leb assert_ bind]; [eauto|]. destruct H as [H|H]; [discriminate|]. rewrite H. cbn [bind]. eauto.
Qed.

(** ** C45 *)
Definition output (l : deltafier T) x d : T := match concatenate l with None => d | Some join => join x d end.
(** The first state of an episode gives zeros, a later one its difference to the previous one. *)
Theorem C45_deltafier_partial (l : deltafier T) zero past q s p ep x :
  steps asserts (Layer (LDelta l : layer T X)) (initial zero (Layer (LDelta l))) past = Ok s ->
  (past = [] \/ exists earlier, past = earlier ++ [ObserveTerminal q]) ->
  exists s' s'', steps asserts (Layer (LDelta l)) s (acts p ep) = Ok s' /\
    step asserts (Layer (LDelta l)) s' (Act [p] [x]) =
      Ok (s'', [output l x (match rev ep with [] => zeros l x | y :: _ => sub l x y end)]).
Proof.
  intros Hs Hp.
  assert (exists t, s = [SDelta t] /\ d_has t = false) as (t & -> & Ht).
  { destruct Hp as [->|(earlier & ->)].
    - cbn in Hs. injection Hs as <-. eexists. split; reflexivity.
    - rewrite steps_app in Hs. destruct (steps asserts _ _ earlier) as [s0|] eqn:E0; [|discriminate]. pose proof (steps_kind _ _ _ _ _ (initial_kind zero _) E0) as Hk0.
      cbn in Hk0. inversion Hk0 as [|? t ? ts H1 H2]; subst. inversion H2; subst. destruct t as [t|t|]; try contradiction. cbn in Hs. injection Hs as <-. eexists. split; reflexivity. }
  clear Hs Hp past.
  assert (forall t x, exists d, delta_apply asserts l t [x] = Ok (DeltaState true x, [output l x d]) /\ d = if d_has t then sub l x (d_previous t) else zeros l x) as Hone.
  { clear. intros t x. unfold delta_apply, output. replace (negb asserts || Nat.leb (length [x]) 1)%bool with true by (now destruct asserts). cbn [assert_ bind]. 
    exists (if d_has t then sub l x (d_previous t) else zeros l x). split; auto. destruct (d_has t); cbn; destruct (concatenate l); reflexivity. }
  assert (exists t', steps asserts (Layer (LDelta l : layer T X)) [SDelta t] (acts p ep) = Ok [SDelta t'] /\
    match rev ep with [] => d_has t' = false | y :: r => d_has t' = true /\ d_previous t' = y end) as (t' & Hs & Hr).
  { induction ep as [|y ep IH] using rev_ind; [exists t; now split|]. destruct IH as (t1 & H1 & _).
    unfold acts. rewrite map_app, steps_app. fold (acts p ep). rewrite H1. cbn [bind map steps]. rewrite rev_app_distr. cbn [rev app].
    unfold step, apply. cbn [flatten stack_apply layer_apply]. destruct (Hone t1 y) as (d & E & _). rewrite E. cbn [bind]. eexists. split; [reflexivity|]. now split. }
  exists [SDelta t']. unfold step, apply. cbn [flatten stack_apply layer_apply]. destruct (Hone t' x) as (d & E & Hd). rewrite E. cbn [bind].
  eexists. split; [exact Hs|]. rewrite Hd. destruct (rev ep) as [|y r]; [rewrite Hr|destruct Hr as [-> ->]]; reflexivity.
Qed.

(** Without the assertion, a batch is treated as that many consecutive states. *)
Fixpoint one_by_one (l : deltafier T) (s : delta_state T) (x : list T) : res (delta_state T * list T) :=
  match x with
  | [] => Ok (s, [])
  | a :: x => do (s, y) <- delta_apply false l s [a]; do (s, z) <- one_by_one l s x; Ok (s, y ++ z)
  end.
Theorem C45_batched (l : deltafier T) s (x : list T) : delta_apply false l s x = one_by_one l s x.
Proof.
  assert (forall (x : list T) p, delta_apply false l (DeltaState true p) x = one_by_one l (DeltaState true p) x) as H.
  { clear. induction x as [|a x IH]; intros p; [unfold delta_apply; cbn; now destruct (concatenate l)|]. cbn [one_by_one].
    assert (delta_apply false l (DeltaState true p) [a] = Ok (DeltaState true a, [output l a (sub l a p)])) as E.
    { unfold delta_apply, output. cbn. now destruct (concatenate l). }
    rewrite E. cbn [bind]. rewrite <- IH. clear E IH. unfold delta_apply. cbn [negb orb assert_ bind d_has d_previous].
    assert (forall b, List.last (b :: a :: x) b = List.last (a :: x) a) as Hl.
    { clear. intros b. change (List.last (b :: a :: x) b) with (List.last (a :: x) b). revert a b. induction x as [|c x IH]; intros a b; [reflexivity|]. exact (eq_trans (IH c b) (eq_sym (IH c a))). }
    rewrite Hl. f_equal. f_equal. unfold output. change (removelast (p :: a :: x)) with (p :: removelast (a :: x)). cbn [subs].
    destruct (concatenate l); reflexivity. }
  destruct s as [h p]. destruct h; [apply H|]. destruct x as [|a x]; [unfold delta_apply; cbn; now destruct (concatenate l)|]. cbn [one_by_one].
  assert (delta_apply false l (DeltaState false p) [a] = Ok (DeltaState true a, [output l a (zeros l a)])) as E.
  { unfold delta_apply, output. cbn. now destruct (concatenate l). }
  rewrite E. cbn [bind]. rewrite <- H. unfold delta_apply. cbn [negb orb assert_ bind d_has d_previous Nat.eqb length].
  assert (forall b, List.last (b :: a :: x) b = List.last (a :: x) a) as Hl.
  { clear. intros b. change (List.last (b :: a :: x) b) with (List.last (a :: x) b). revert a b. induction x as [|c x IH]; intros a b; [reflexivity|]. exact (eq_trans (IH c b) (eq_sym (IH c a))). }
  rewrite Hl. f_equal. f_equal. unfold output. cbn [tl]. destruct (concatenate l); reflexivity.
Qed.
End Preprocessing.
Print Assumptions C44_sequence_partial.
Print Assumptions C44_episode_only.
Print Assumptions C44_batched.
Print Assumptions C45_deltafier_partial.
Print Assumptions C45_batched.

(** *** Refuted *)
(** One-dimensional states of size 1, stacked in pairs; integers as floats *)
Definition pairs : layers (list Z) Z := Layer (LSequence (Sequence (fun x => x) (fun x => x) 1 2)).
Definition deltas : layers (list Z) Z := Layer (LDelta (Deltafier (fun a b => map (fun p => (fst p - snd p)%Z) (combine a b)) (fun a => map (fun _ => 0%Z) a) None)).
Definition last_output (ls : layers (list Z) Z) (es : list (event (list Z))) (e : event (list Z)) : res (list (list Z)) :=
  do s <- steps true ls (initial [0%Z] ls) es; do (_, y) <- step true ls s e; Ok y.

(** The remembered states are not kept apart by stream: stream 1 starts with state 5, but is presented
    with state 1 of stream 0. *)
Theorem C44_streams_refuted : last_output pairs [Act [0] [[1%Z]]] (Act [1] [[5%Z]]) = Ok [[1; 5]%Z].
Proof. reflexivity. Qed.
Theorem C45_streams_refuted : last_output deltas [Act [0] [[1%Z]]] (Act [1] [[5%Z]]) = Ok [[4]%Z].
Proof. reflexivity. Qed.
(** Independent acts enter the remembered states (also C25). *)
Theorem C25_preprocessing_refuted :
  last_output pairs [Act [0] [[1%Z]]; IndependentAct [[9%Z]]] (Act [0] [[2%Z]]) = Ok [[9; 2]%Z] /\
  last_output pairs [Act [0] [[1%Z]]] (Act [0] [[2%Z]]) = Ok [[1; 2]%Z] /\
  last_output deltas [Act [0] [[1%Z]]; IndependentAct [[9%Z]]] (Act [0] [[2%Z]]) = Ok [[-7]%Z] /\
  last_output deltas [Act [0] [[1%Z]]] (Act [0] [[2%Z]]) = Ok [[1]%Z].
Proof. repeat split. Qed.
(** Agent.reset() discards an unfinished episode, but not its states. *)
Theorem C44_agent_reset_refuted : last_output pairs [Act [0] [[1%Z]]; AgentReset] (Act [0] [[5%Z]]) = Ok [[1; 5]%Z].
Proof. reflexivity. Qed.
Theorem C45_agent_reset_refuted : last_output deltas [Act [0] [[1%Z]]; AgentReset] (Act [0] [[5%Z]]) = Ok [[4]%Z].
Proof. reflexivity. Qed.
(** Nor are the states of an episode given to experience(). *)
Theorem C44_experience_refuted : last_output pairs [Experience [[1%Z]]] (Act [0] [[5%Z]]) = Ok [[1; 5]%Z].
Proof. reflexivity. Qed.
Theorem C45_experience_refuted : last_output deltas [Experience [[1%Z]]] (Act [0] [[5%Z]]) = Ok [[4]%Z].
Proof. reflexivity. Qed.
Print Assumptions C44_streams_refuted.
Print Assumptions C45_streams_refuted.
Print Assumptions C25_preprocessing_refuted.
Print Assumptions C44_agent_reset_refuted.
Print Assumptions C45_agent_reset_refuted.
Print Assumptions C44_experience_refuted.
Print Assumptions C45_experience_refuted.

Example C44_example : last_output pairs [Act [0] [[1%Z]]; Act [0] [[2%Z]]; ObserveTerminal 0; Act [0] [[3%Z]]] (Act [0] [[4%Z]]) = Ok [[3; 4]%Z] /\
  last_output pairs [Act [0] [[1%Z]]; ObserveTerminal 0] (Act [0] [[3%Z]]) = Ok [[3; 3]%Z].
Proof. split; reflexivity. Qed.
Example C45_example : last_output deltas [Act [0] [[1%Z]]; ObserveTerminal 0; Act [0] [[3%Z]]] (Act [0] [[7%Z]]) = Ok [[4]%Z] /\
  last_output deltas [Act [0] [[1%Z]]; ObserveTerminal 0] (Act [0] [[7%Z]]) = Ok [[0]%Z].
Proof. split; reflexivity. Qed.

Open Scope R_scope.
(** ** C46 *)
(** An entry with finite bounds lo < hi: lo goes to -2, hi to 2, strictly monotonically, evenly. *)
Theorem C46_linear bounds i lo hi : create_linear bounds = Ok tt -> nth_error bounds i = Some (Fin lo, Fin hi) ->
  linear_entry (Fin lo, Fin hi) lo = -2 /\ linear_entry (Fin lo, Fin hi) hi = 2 /\
  (forall x y, x < y -> linear_entry (Fin lo, Fin hi) x < linear_entry (Fin lo, Fin hi) y) /\
  (forall x y, linear_entry (Fin lo, Fin hi) x - linear_entry (Fin lo, Fin hi) y = 4 / (hi - lo) * (x - y)).
Proof.
  intros Hc Hi. assert (lo < hi) as Hlt.
  { unfold create_linear in Hc. destruct (existsb _ bounds) eqn:E; [discriminate|]. apply nth_error_In in Hi.
    destruct (Rle_dec hi lo); [|lra]. assert (existsb (fun b => bound_ge (fst b) (snd b)) bounds = true) as E'; [|congruence].
    apply existsb_exists. exists (Fin lo, Fin hi). split; auto. cbn. now apply Rleb_true. }
  assert (0 < / (hi - lo)) as Hd by (apply Rinv_0_lt_compat; lra). cbn [linear_entry]. split; [field; lra|]. split; [field; lra|]. split.
  - intros x y Hxy. unfold Rdiv. apply Rplus_lt_compat_r. apply Rmult_lt_compat_r; lra.
  - intros x y. field. lra.
Qed.
Print Assumptions C46_linear.

(** A whole state in its range is mapped into the range of the output's specification; entries with
    an infinite bound are unchanged. *)
Definition in_range (b : bound * bound) (x : R) : Prop :=
  match fst b with NegInf => True | Fin lo => lo <= x | PosInf => False end /\
  match snd b with PosInf => True | Fin hi => x <= hi | NegInf => False end.
Theorem C46_range bounds : create_linear bounds = Ok tt -> forall x, Forall2 in_range bounds x ->
  Forall2 in_range (linear_output_spec bounds) (linear_apply bounds x) /\
  forall i b v, nth_error bounds i = Some b -> nth_error x i = Some v ->
    nth_error (linear_apply bounds x) i = Some (if is_inf (fst b) || is_inf (snd b) then v else linear_entry b v).
Proof.
  intros Hc x Hx. split.
  - assert (forall i lo hi, nth_error bounds i = Some (Fin lo, Fin hi) -> lo < hi) as Hlt.
    { intros i lo hi Hi. pose proof (C46_linear bounds i lo hi Hc Hi) as (H1 & H2 & H3 & _). destruct (Rlt_dec lo hi); auto. exfalso.
      destruct (Req_EM_T lo hi) as [->|Hn]; [lra|]. assert (hi < lo) as Hg by lra. apply H3 in Hg. lra. }
    assert (forall i lo hi v, nth_error bounds i = Some (Fin lo, Fin hi) -> lo <= v <= hi -> -2 <= linear_entry (Fin lo, Fin hi) v <= 2) as Hr.
    { intros i lo hi v Hi Hv. pose proof (C46_linear bounds i lo hi Hc Hi) as (H1 & H2 & H3 & _). split.
      - destruct (Req_EM_T lo v) as [->|]; [lra|]. assert (lo < v) as Hg by lra. apply H3 in Hg. lra.
      - destruct (Req_EM_T v hi) as [->|]; [lra|]. assert (v < hi) as Hg by lra. apply H3 in Hg. lra. }
    clear Hc Hlt. induction Hx as [|[lo hi] v bounds x H1 H2 IH]; [constructor|]. cbn [linear_output_spec linear_apply map combine fst snd]. constructor.
    + destruct lo as [|lo|], hi as [|hi|]; cbn [is_inf orb fst snd linear_entry]; auto. destruct H1 as [Ha Hb]. cbn [fst snd] in Ha, Hb.
      specialize (Hr 0%nat lo hi v eq_refl (conj Ha Hb)). exact Hr.
    + apply IH. intros i lo' hi' v' Hi. apply (Hr (S i) lo' hi' v'). exact Hi.
  - intros i b v Hb Hv. unfold linear_apply. clear Hc Hx. revert x i Hb Hv. induction bounds as [|c bounds IH]; intros [|w x] i Hb Hv; try (destruct i; discriminate).
    destruct i as [|i]; cbn in *; [|now apply IH]. injection Hb as ->. injection Hv as ->. destruct b as [[] []]; reflexivity.
Qed.
Print Assumptions C46_range.

(** Bounds which are not less than one another are rejected. *)
Theorem C46_rejects bounds : create_linear bounds = Ok tt <-> forall i b, nth_error bounds i = Some b ->
  match b with (NegInf, NegInf) => False | (Fin lo, Fin hi) => lo < hi | (Fin _, NegInf) => False | (PosInf, _) => False | _ => True end.
Proof.
  unfold create_linear. split.
  - intros H i [a c] Hi. destruct (existsb _ bounds) eqn:E; [discriminate|]. apply nth_error_In in Hi.
    assert (bound_ge a c = false) as Eb.
    { destruct (bound_ge a c) eqn:Eb; auto. rewrite <- E. symmetry. apply existsb_exists. exists (a, c). auto. }
    destruct a, c; cbn in *; auto; try discriminate. unfold Rleb in Eb. destruct (Rle_dec x0 x); [discriminate|lra].
  - intros H. destruct (existsb _ bounds) eqn:E; auto. apply existsb_exists in E. destruct E as ([a c] & Hin & Eb). apply In_nth_error in Hin. destruct Hin as (i & Hi).
    specialize (H i _ Hi). destruct a, c; cbn in *; try contradiction; try discriminate. apply Rleb_true in Eb. lra.
Qed.
Print Assumptions C46_rejects.
Example C46_example : create_linear [(Fin 0, Fin 10); (NegInf, Fin 3)] = Ok tt /\
  linear_apply [(Fin 0, Fin 10); (NegInf, Fin 3)] [5; 1] = [0; 1] /\ Forall2 in_range [(Fin 0, Fin 10); (NegInf, Fin 3)] [5; 1].
Proof.
  split; [apply C46_rejects; intros [|[|[|i]]] b H; cbn in H; try discriminate; injection H as <-; auto; lra|]. split.
  - cbn. f_equal. field.
  - repeat constructor; cbn; lra.
Qed.
