(** Proofs for C166, C167, C169: entropy, memory and all arguments. *)

From Coq Require Import String List ZArith QArith Bool Lia Lqa.
From Verif Require Import Base CfgModel CfgSpec CfgProofs CfgProofs2.
Import ListNotations.
Open Scope string_scope.
Open Scope list_scope.
Open Scope Z_scope.

Local Opaque Z.mul Z.add Z.max.

(** ** Memory *)
Lemma int_range_fun v lo hi lo' hi' : int_range v lo hi -> int_range v lo' hi' -> lo = lo' /\ hi = hi'.
Proof. intros A B; inversion A; subst; inversion B; subst; auto. Qed.

Lemma largest_iff a u b : NoDup (map fst (a_update a)) -> update_effect (a_update a) u -> largest_batch a b <-> snd (u_batch u) = Some b.
Proof.
  intros ND (_ & _ & _ & batch & G & R & _). unfold largest_batch. split.
  - intros (v & lo & G' & R'). assert (v = batch) as -> by (eapply given_fun; eauto). destruct (int_range_fun _ _ _ _ _ R R'); auto.
  - intros E. rewrite E in R. eauto.
Qed.

Lemma unit_iff a u n : NoDup (map fst (a_update a)) -> update_effect (a_update a) u -> given "unit" (a_update a) (VStr n) <-> u_unit u = n.
Proof.
  intros ND (_ & _ & G & _). split; [|intros <-; auto].
  intros G'. assert (H : VStr n = VStr (u_unit u)) by (eapply given_fun; eauto). congruence.
Qed.

Lemma longest_iff a h n : NoDup (map fst (a_reward_estimation a)) -> horizon_effect a h ->
  longest_horizon a n <-> match h with Episode => a_max a | Steps s => snd s end = Some n.
Proof.
  intros ND H. unfold longest_horizon. destruct H as [(G & ->)|(v & lo & hi & G & R & _ & _ & ->)].
  - split; auto. intros [(_ & E)|(v & lo & G' & R)]; auto.
    assert (v = VStr "episode") as -> by (eapply given_fun; eauto). inversion R.
  - cbn. split.
    + intros [(G' & _)|(v' & lo' & G' & R')].
      * assert (v = VStr "episode") as -> by (eapply given_fun; eauto). inversion R.
      * assert (v' = v) as -> by (eapply given_fun; eauto). destruct (int_range_fun _ _ _ _ _ R R'); auto.
    + intros ->. right; eauto.
Qed.

Lemma past_iff a p : longest_past a p <-> p = Z.max (a_policy_past a) (match a_baseline a with Some _ => a_baseline_past a | None => a_policy_past a end).
Proof.
  unfold longest_past. destruct (a_baseline a); split.
  - intros ([H|(_ & H)] & A & B); [assert (a_baseline_past a <= p) by (apply B; discriminate); lia|lia].
  - intros ->. split; [|split; lia]. destruct (Z.max_spec (a_policy_past a) (a_baseline_past a)) as [(_ & E)|(_ & E)]; rewrite E; auto.
    right; split; [discriminate|auto].
  - intros ([H|(N & H)] & A & B); [lia|congruence].
  - intros ->. rewrite Z.max_id. split; auto. split; [lia|congruence].
Qed.

Section Capacity.
Variables (a : args) (u : updates) (h : horizon).
Hypothesis ND : distinct a.
Hypothesis UE : update_effect (a_update a) u.
Hypothesis HE : horizon_effect a h.

Let ND1 : NoDup (map fst (a_update a)) := proj1 ND.
Let ND2 : NoDup (map fst (a_reward_estimation a)) := proj1 (proj2 ND).

Lemma unit_cases : (u_unit u = "timesteps" /\ ~ given "unit" (a_update a) (VStr "episodes")) \/
  (u_unit u = "episodes" /\ ~ given "unit" (a_update a) (VStr "timesteps")).
Proof.
  assert (U := UE). destruct U as (_ & [H|[H|[]]] & _); [left|right]; split; auto;
    rewrite (unit_iff a u) by auto; rewrite <- H; discriminate.
Qed.

Lemma min_ok o : min_capacity a u h = Ok o ->
  match o with
  | Some n => space a n /\ forall k, space a k -> k <= n
  | None => (forall n, ~ space a n) /\ given "unit" (a_update a) (VStr "episodes") /\ a_max a = None /\ a_buffer_observe a = None
  end.
Proof.
  unfold min_capacity. intros E. apply bind_inv in E. destruct E as (c & E & F).
  assert (B := fun b => largest_iff a u b ND1 UE). assert (L := fun n => longest_iff a h n ND2 HE). assert (P := past_iff a).
  assert (T := fun n => unit_iff a u n ND1 UE).
  injection F as <-. destruct unit_cases as [(U & NU)|(U & NU)].
  - rewrite U in E. cbn in E.
    destruct (snd (u_batch u)) as [b|] eqn:Eb; [|discriminate]. set (hh := match h with Episode => _ | Steps _ => _ end) in *.
    destruct hh as [n|] eqn:Eh; [|discriminate]. set (p := Z.max _ _) in *. injection E as <-.
    assert (S : space a (b + 1 + p + n)).
    { apply space_batch; [apply T; auto|apply B; auto|apply L; auto|apply P; auto]. }
    assert (S' : forall k, space a k -> k = b + 1 + p + n \/ a_max a = Some k \/ (a_buffer_observe a = None /\ exists m, a_max a = Some m /\ k = 2 * m) \/
              (exists m, a_buffer_observe a = Some m /\ k = 2 * m)).
    { intros k K. inversion K as [b' h' p' K1 K2 K3 K4 K5|m K1 K2|b' m K1|m K1 K2|m K1].
      - apply B in K2. apply L in K3. apply P in K4. left. injection K2 as ->. injection K3 as ->. subst; auto.
      - right; left; auto.
      - tauto.
      - right; right; left. eauto.
      - right; right; right. eauto. }
    assert (S1 : forall m, a_max a = Some m -> space a m).
    { intros m M. apply space_episode; [apply T; auto|auto]. }
    destruct (a_buffer_observe a) as [m|] eqn:Em.
    + assert (S2 : space a (2 * m)) by (apply space_buffer; auto).
      destruct (a_max a) as [x|] eqn:Ex.
      * specialize (S1 x eq_refl). split.
        -- destruct (Z.max_spec (Z.max (b + 1 + p + n) x) (2 * m)) as [(_ & ->)|(_ & ->)]; auto.
           destruct (Z.max_spec (b + 1 + p + n) x) as [(_ & ->)|(_ & ->)]; auto.
        -- intros k K. destruct (S' k K) as [H|[H|[(H & _)|(y & H & H2)]]]; [lia|injection H; lia|discriminate|injection H; lia].
      * split.
        -- destruct (Z.max_spec (b + 1 + p + n) (2 * m)) as [(_ & ->)|(_ & ->)]; auto.
        -- intros k K. destruct (S' k K) as [H|[H|[(H & _)|(y & H & H2)]]]; [lia|discriminate|discriminate|injection H; lia].
    + destruct (a_max a) as [x|] eqn:Ex.
      * specialize (S1 x eq_refl). assert (S2 : space a (2 * x)) by (apply space_two; auto). split.
        -- destruct (Z.max_spec (Z.max (b + 1 + p + n) x) (2 * x)) as [(_ & ->)|(_ & ->)]; auto.
           destruct (Z.max_spec (b + 1 + p + n) x) as [(_ & ->)|(_ & ->)]; auto.
        -- intros k K. destruct (S' k K) as [H|[H|[(_ & y & H & H2)|(y & H & H2)]]]; [lia|injection H; lia|injection H; lia|discriminate].
      * split; auto. intros k K. destruct (S' k K) as [H|[H|[(_ & y & H & H2)|(y & H & H2)]]]; [lia|discriminate|discriminate|discriminate].
  - rewrite U in E. cbn in E.
    assert (S' : forall k, space a k -> (exists b m, snd (u_batch u) = Some b /\ a_max a = Some m /\ k = (b + 1) * m) \/
              (a_buffer_observe a = None /\ exists m, a_max a = Some m /\ k = 2 * m) \/ (exists m, a_buffer_observe a = Some m /\ k = 2 * m)).
    { intros k K. inversion K as [b' h' p' K1 K2 K3 K4 K5|m K1 K2|b' m K1 K2|m K1 K2|m K1]; try tauto.
      - left. apply B in K2. eauto.
      - right; left; eauto.
      - right; right; eauto. }
    destruct (a_max a) as [x|] eqn:Ex.
    + destruct (snd (u_batch u)) as [b|] eqn:Eb; [|discriminate]. injection E as <-.
      assert (S : space a ((b + 1) * x)) by (apply space_episodes; [apply T; auto|apply B; auto|auto]).
      destruct (a_buffer_observe a) as [m|] eqn:Em.
      * assert (S2 : space a (2 * m)) by (apply space_buffer; auto). split.
        -- destruct (Z.max_spec ((b + 1) * x) (2 * m)) as [(_ & ->)|(_ & ->)]; auto.
        -- intros k K. destruct (S' k K) as [(b' & y & H & H2 & ->)|[(H & _)|(y & H & H2)]]; [|discriminate|injection H; lia].
           injection H as <-. injection H2 as <-. lia.
      * assert (S2 : space a (2 * x)) by (apply space_two; auto). split.
        -- destruct (Z.max_spec ((b + 1) * x) (2 * x)) as [(_ & ->)|(_ & ->)]; auto.
        -- intros k K. destruct (S' k K) as [(b' & y & H & H2 & ->)|[(_ & y & H & H2)|(y & H & H2)]]; [|injection H; lia|discriminate].
           injection H as <-. injection H2 as <-. lia.
    + injection E as <-. destruct (a_buffer_observe a) as [m|] eqn:Em.
      * assert (S2 : space a (2 * m)) by (apply space_buffer; auto). split; auto.
        intros k K. destruct (S' k K) as [(b' & y & H & H2 & ->)|[(H & _)|(y & H & H2)]]; [discriminate|discriminate|injection H; lia].
      * split; [|split; [apply T; auto|auto]]. intros k K.
        destruct (S' k K) as [(b' & y & H & H2 & ->)|[(_ & y & H & _)|(y & H & H2)]]; discriminate.
Qed.

Lemma min_total : good_memory a -> exists o, min_capacity a u h = Ok o.
Proof.
  intros (G1 & G2 & _ & _). unfold min_capacity.
  assert (B := fun b => largest_iff a u b ND1 UE). assert (L := fun n => longest_iff a h n ND2 HE).
  assert (T := fun n => unit_iff a u n ND1 UE).
  destruct unit_cases as [(U & NU)|(U & NU)]; rewrite U; cbn.
  - destruct G1 as (b & n & H1 & H2); [apply T; auto|]. apply B in H1. apply L in H2. rewrite H1, H2. cbn. eauto.
  - destruct (a_max a) as [x|]; [|cbn; eauto].
    destruct G2 as (b & H1); [apply T; auto|discriminate|]. apply B in H1. rewrite H1. cbn. eauto.
Qed.

Lemma min_needs o : min_capacity a u h = Ok o ->
  (given "unit" (a_update a) (VStr "timesteps") -> exists b h, largest_batch a b /\ longest_horizon a h) /\
  (given "unit" (a_update a) (VStr "episodes") -> a_max a <> None -> exists b, largest_batch a b).
Proof.
  unfold min_capacity. intros E. apply bind_inv in E. destruct E as (c & E & _).
  assert (B := fun b => largest_iff a u b ND1 UE). assert (L := fun n => longest_iff a h n ND2 HE).
  destruct unit_cases as [(U & NU)|(U & NU)]; rewrite U in E; cbn in E; split; intros X; try tauto.
  - destruct (snd (u_batch u)) as [b|] eqn:Eb; [|discriminate]. destruct (match h with Episode => _ | Steps _ => _ end) as [n|] eqn:Eh; [|discriminate].
    exists b, n. split; [apply B; auto|apply L; auto].
  - intros M. destruct (a_max a); [|congruence]. destruct (snd (u_batch u)) as [b|] eqn:Eb; [|discriminate]. exists b. apply B; auto.
Qed.

Lemma capacity_ok o c : min_capacity a u h = Ok o -> memory_capacity (a_capacity a) o = Ok c ->
  good_memory a /\ (forall n, space a n -> n <= c) /\ (a_capacity a = None -> space a c) /\ (forall x, a_capacity a = Some x -> c = x).
Proof.
  intros E M. destruct (min_needs o E) as (N1 & N2). apply min_ok in E. unfold memory_capacity in M.
  destruct (a_capacity a) as [x|] eqn:Ex, o as [n|]; try discriminate.
  - destruct (x <? n) eqn:C; [discriminate|]. injection M as ->. apply Z.ltb_ge in C. destruct E as (S & A).
    assert (A' : forall k, space a k -> k <= c) by (intros k K; specialize (A k K); lia).
    split; [|split; auto; split; [discriminate|intros y [= <-]; auto]].
    split; auto. split; auto. split; [|rewrite Ex; intros y [= <-]; auto].
    intros G Mx Bx. inversion S as [b' h' p' K1|m K1|b' m K1 K2 K3|m K1 K2|m K1]; subst; try congruence.
    destruct unit_cases as [(U & NU)|(U & NU)]; tauto.
  - injection M as ->. destruct E as (S & A). split; [|split; auto; split; [auto|discriminate]].
    split; auto. split; auto. split; [|rewrite Ex; discriminate].
    intros G Mx Bx. inversion S as [b' h' p' K1|m K1|b' m K1 K2 K3|m K1 K2|m K1]; subst; try congruence.
    destruct unit_cases as [(U & NU)|(U & NU)]; tauto.
Qed.

Lemma capacity_total : good_memory a -> exists o c, min_capacity a u h = Ok o /\ memory_capacity (a_capacity a) o = Ok c.
Proof.
  intros G. destruct (min_total G) as (o & E). exists o. assert (M := min_ok o E). destruct G as (_ & _ & G3 & G4).
  destruct o as [n|].
  - destruct M as (S & A). unfold memory_capacity. destruct (a_capacity a) as [x|] eqn:Ex; [|eauto].
    specialize (G4 x eq_refl n S). exists x. split; auto. destruct (x <? n) eqn:C; auto. apply Z.ltb_lt in C; lia.
  - destruct M as (_ & U & M1 & M2). destruct (G3 U M1 M2).
Qed.
End Capacity.

(** ** Discount and entropy *)
Lemma discount_ok r d : NoDup (map fst r) -> discount r = Ok d ->
  (unset "discount" r /\ d = (Some 1%Q, Some 1%Q)) \/
  (exists v, given "discount" r v /\ v <> VNone /\ float_range v (fst d) (snd d) /\ nonnegative (fst d) /\ at_most_one (snd d)).
Proof.
  intros ND. unfold discount. intros E. apply fraction_ok in E. destruct (val_none_dec (get_or "discount" VNone r)) as [N|N].
  - rewrite N in E. left. split; [apply get_or_none; auto|]. destruct E as (A & _). destruct d; cbn in A. inversion A; subst; auto.
  - right. exists (get_or "discount" VNone r). split; [apply get_or_some; auto|]. split; auto.
    destruct (get_or "discount" VNone r); [congruence|auto..].
Qed.

Lemma discount_total r : NoDup (map fst r) -> (unset "discount" r \/ exists v, given "discount" r v /\ fraction v) -> exists d, discount r = Ok d.
Proof.
  intros ND H. unfold discount. apply fraction_iff. destruct H as [U|(v & G & F)].
  - apply get_or_none in U; auto. rewrite U. exists (Some 1%Q), (Some 1%Q). split; [constructor|]. split; [exists 1%Q|exists 1%Q]; split; auto; lra.
  - assert (N : v <> VNone) by (intros ->; destruct F as (? & ? & F & _); inversion F).
    apply get_given in G; auto. unfold get_or; rewrite G. destruct v; [congruence|auto..].
Qed.

Lemma constant_zero v w : float_parameter (Some 0%Q) None (or_zero v) = Ok w -> is_constant 0 w = true <-> v = VNone \/ zero v.
Proof.
  intros E. apply or_zero_ok in E. unfold zero. destruct w as (lo, hi); cbn [fst snd] in E. split.
  - destruct E as [(-> & _)|(A & B)]; auto. intros C. right. unfold is_constant in C. destruct lo as [x|], hi as [y|]; try discriminate.
    apply andb_true_iff in C. destruct C as (C1 & C2). apply Qeq_bool_iff in C1, C2. eauto.
  - destruct E as [(-> & E)|(A & B)].
    + injection E as -> ->. intros _. reflexivity.
    + intros [->|(x & y & R & C1 & C2)]; [inversion A|].
      assert (lo = Some x /\ hi = Some y) as (-> & ->) by (inversion A; subst; inversion R; subst; auto).
      cbn. rewrite (proj2 (Qeq_bool_iff x 0) C1), (proj2 (Qeq_bool_iff y 0) C2). auto.
Qed.

(** ** Policies *)
Lemma policy_ok_iff a c : policy_ok (a_actions a) c = true <-> (c = ValuePolicy -> none_float a).
Proof.
  unfold policy_ok. destruct c; split; auto; try (intros _ H; discriminate).
  - intros H _. apply discrete_iff; auto.
  - intros H. apply discrete_iff; auto.
Qed.

Lemma module_ok a s fns (use : string -> Prop) p : (forall f, In f fns <-> use f) -> (forall f, use f -> In f functions) ->
  policy_module (a_actions a) s fns = Ok p ->
  (s = Typed ValuePolicy -> none_float a) /\
  match s with Network => simplest a use (fst p) | Typed c => fst p = c end /\
  (snd p = true <-> simplest a use Distributions /\ (use "state_value" \/ use "action_value")).
Proof.
  intros F A. unfold policy_module. cbn zeta.
  destruct (default_ok a fns use F A) as (S & W).
  assert (W' : snd (default_module (a_actions a) fns) = true <-> simplest a use Distributions /\ (use "state_value" \/ use "action_value")).
  { rewrite W. split; intros (H1 & H2); split; auto; [rewrite <- H1; auto|eapply simplest_fun; eauto]. }
  destruct s as [|c].
  - destruct (policy_ok _ _) eqn:P; [|discriminate]. intros [= <-]. cbn. split; [discriminate|]. split; auto.
  - destruct (policy_ok _ _) eqn:P; [|discriminate]. intros [= <-]. cbn. split; [intros [= ->]; apply policy_ok_iff in P; auto|]. split; auto.
Qed.

Lemma module_total a s fns (use : string -> Prop) : (forall f, In f fns <-> use f) -> (forall f, use f -> In f functions) ->
  (s = Typed ValuePolicy -> none_float a) -> exists p, policy_module (a_actions a) s fns = Ok p.
Proof.
  intros F A N. unfold policy_module. cbn zeta. destruct (default_ok a fns use F A) as (S & _).
  destruct s as [|c].
  - assert (P : policy_ok (a_actions a) (fst (default_module (a_actions a) fns)) = true).
    { apply policy_ok_iff. intros E. rewrite E in S. cbn in S. tauto. }
    rewrite P. eauto.
  - assert (P : policy_ok (a_actions a) c = true) by (apply policy_ok_iff; intros ->; auto). rewrite P. eauto.
Qed.

Lemma simplest_stochastic a fns (use : string -> Prop) c : (forall f, In f fns <-> use f) -> use "policy" -> simplest a use c ->
  stochastic c = true <-> use "stochastic" \/ ~ none_float a.
Proof.
  intros F P S.
  assert (D : {none_float a} + {~ none_float a}).
  { destruct (discrete (a_actions a)) eqn:E; [left; apply discrete_iff; auto|right; rewrite <- discrete_iff, E; discriminate]. }
  assert (D' : {use "stochastic"} + {~ use "stochastic"}).
  { destruct (in_dec string_dec "stochastic" fns) as [H|H]; [left; apply F; auto|right; rewrite <- F; auto]. }
  destruct c; cbn in S |- *.
  - specialize (S _ P). discriminate.
  - destruct S as (_ & S & _). specialize (S _ P). discriminate.
  - destruct S as (_ & _ & S1 & S2). split; [discriminate|tauto].
  - destruct S as (_ & _ & S). split; auto. intros _. destruct D, D'; tauto.
Qed.

Lemma trace_effect a p t : NoDup (map fst (a_reward_estimation a)) -> trace_decay a p = Ok t -> decay_effect a "trace_decay" 1 t.
Proof.
  intros ND. unfold trace_decay. destruct (negb _ && negb _); [discriminate|]. intros E. apply fraction_ok in E.
  destruct E as (A & B & C). split; [|auto]. intros v V. apply get_or_value in V; auto. rewrite <- V. auto.
Qed.

Lemma gae_effect a t : NoDup (map fst (a_reward_estimation a)) -> gae_decay a = Ok t -> decay_effect a "gae_decay" 0 t.
Proof.
  intros ND E. assert (X : float_parameter (Some 0%Q) (Some 1%Q) (get_or "gae_decay" (VNum (NFloat 0)) (a_reward_estimation a)) = Ok t).
  { unfold gae_decay in E. destruct (negb _); auto. destruct (a_memory a); [|discriminate].
    destruct (is_false _); [discriminate|]. destruct (in_loss a); [discriminate|auto]. }
  apply fraction_ok in X. destruct X as (A & B & C). split; [|auto]. intros v V. apply get_or_value in V; auto. rewrite <- V. auto.
Qed.

(** ** The constructor *)
Lemma weight_ok a : (forall q, a_baseline_optimizer a = Weight q -> (0 <= q)%Q) <->
  exists w, match optimizer a with Weight q => do w <- float_parameter (Some 0%Q) None (VNum (NFloat q)); Ok (Some w) | _ => Ok None end = Ok w.
Proof.
  assert (X : forall q, (0 <= q)%Q <-> exists w, (do w <- float_parameter (Some 0%Q) None (VNum (NFloat q)); Ok (Some w)) = Ok w).
  { intros q. split.
    - intros H. assert (P : positive_float (VNum (NFloat q))) by (exists (Some q), (Some q); split; [constructor|exists q; auto]).
      apply positive_iff in P. destruct P as (w & ->). cbn; eauto.
    - intros (w & E). apply bind_inv in E. destruct E as (b & E & _). apply positive_ok in E. destruct E as (A & x & B & C).
      inversion A; subst. congruence. }
  unfold optimizer. destruct (a_baseline_optimizer a) eqn:Eo.
  all: try (destruct (a_baseline_objective a)).
  all: split; intros H; eauto; try discriminate.
  all: try (apply X; apply H; auto; fail).
  all: try (apply X; lra).
  all: intros q' [= <-]; apply X; auto.
Qed.

Lemma weight_made a w : match optimizer a with Weight q => do w <- float_parameter (Some 0%Q) None (VNum (NFloat q)); Ok (Some w) | _ => Ok None end = Ok w ->
  weight_effect a w.
Proof.
  assert (X : forall q w, (do w <- float_parameter (Some 0%Q) None (VNum (NFloat q)); Ok (Some w)) = Ok w -> w = Some (Some q, Some q)).
  { intros q x E. apply bind_inv in E. destruct E as ((l, r) & E & [= <-]). apply positive_ok in E. destruct E as (A & _).
    cbn in A. inversion A; subst; auto. }
  unfold optimizer, weight_effect. destruct (a_baseline_optimizer a) eqn:Eo; try destruct (a_baseline_objective a); try (intros [= <-]; auto; fail); apply X.
Qed.

Definition outcome (a : args) (m : made) : Prop :=
  exploration_effect a (m_exploration m) /\ scale_effect (a_variable_noise a) (m_noise m) /\
  horizon_effect a (m_horizon m) /\ predicts_horizon a (m_predict m) /\ estimates a (m_advantage m) /\
  (m_in_loss m = true <-> joint a) /\ discount_effect a (m_discount m) /\ scale_effect (a_entropy_regularization a) (m_entropy m) /\
  update_effect (a_update a) (m_update m) /\
  class_effect a (a_policy a) (policy_use a) (m_policy m) /\ warning_effect a (policy_use a) (fst (m_warned m)) /\
  match a_baseline a with
  | None => m_baseline m = None /\ snd (m_warned m) = false
  | Some s => exists c, m_baseline m = Some c /\ class_effect a s (baseline_considered a) c /\ warning_effect a (baseline_considered a) (snd (m_warned m))
  end /\
  weight_effect a (m_weight m) /\
  (forall n, space a n -> n <= m_capacity m) /\ (a_capacity a = None -> space a (m_capacity m)) /\ (forall x, a_capacity a = Some x -> m_capacity m = x) /\
  decay_effect a "trace_decay" 1 (m_trace m) /\ decay_effect a "gae_decay" 0 (m_gae m).

Lemma reward_same k : In k reward_entries <-> In k reward_keys.
Proof.
  unfold reward_entries, reward_keys. cbn [In]. split; intros H; repeat destruct H as [H|H]; subst; try contradiction; repeat first [left; reflexivity|right].
Qed.

Lemma construct_ok a m : distinct a -> construct a = Ok m -> accepted a /\ outcome a m.
Proof.
  intros D. assert (D' := D). destruct D' as (ND1 & ND2 & ND3 & ND4). unfold construct. cbn zeta. intros H.
  apply bind_inv in H. destruct H as (e & He & H). apply explore_ok in He; auto. destruct He as (He1 & He2).
  apply bind_inv in H. destruct H as (noise & Hn & H). assert (Hn' := proj1 (or_zero_iff _) (ex_intro _ _ Hn)). apply or_zero_ok in Hn.
  apply bind_inv in H. destruct H as (x0 & Hk & H). apply assert_ok, from_iff in Hk.
  apply bind_inv in H. destruct H as ((h, pr) & Hh & H). apply horizon_ok in Hh; auto. destruct Hh as (Hh1 & Hh2 & Hh3). cbn [fst snd] in H.
  apply bind_inv in H. destruct H as (d & Hd & H). apply discount_ok in Hd; auto.
  apply bind_inv in H. destruct H as (ent & Hen & H). assert (Hc := constant_zero _ _ Hen).
  assert (Hen' := proj1 (or_zero_iff _) (ex_intro _ _ Hen)). apply or_zero_ok in Hen.
  apply bind_inv in H. destruct H as (u & Hu & H). assert (Hu' := proj2 (good_update_iff _ ND1) (ex_intro _ _ Hu)). apply update_ok in Hu; auto.
  set (p := predict_horizon a pr) in *. 
  apply bind_inv in H. destruct H as (x1 & Hp1 & H). assert (Hp1' := proj1 (processing_ok _ _ ND2) (ex_intro _ _ Hp1)).
  apply bind_inv in H. destruct H as (x2 & Hp2 & H). assert (Hp2' := proj1 (processing_ok _ _ ND2) (ex_intro _ _ Hp2)).
  apply bind_inv in H. destruct H as (x3 & Hp3 & H). assert (Hp3' := proj1 (advantage_processing_ok _ ND2) (ex_intro _ _ Hp3)).
  apply bind_inv in H. destruct H as (x4 & Ho & H). apply assert_ok in Ho. rewrite objective_ok_iff in Ho.
  apply bind_inv in H. destruct H as (x5 & Hbo & H).
  assert (Hbo' : forall o, a_baseline_objective a = Some o -> ~ deterministic o).
  { intros o E. rewrite E in Hbo. apply bind_inv in Hbo. destruct Hbo as (x6 & _ & Hbo). apply assert_ok, no_baseline_fns in Hbo. auto. }
  apply bind_inv in H. destruct H as (pc & Hpc & H).
  apply (module_ok a _ _ (policy_use a)) in Hpc; [|intros f; apply policy_required_iff; auto|apply policy_use_functions].
  destruct Hpc as (Hpc1 & Hpc2 & Hpc3).
  apply bind_inv in H. destruct H as (x6 & Hst & H). apply assert_ok in Hst.
  apply bind_inv in H. destruct H as (bc & Hbc & H).
  assert (Hbc' : (a_baseline a = Some (Typed ValuePolicy) -> none_float a) /\
     match a_baseline a with
     | None => bc = None
     | Some s => exists b, bc = Some b /\ class_effect a s (baseline_considered a) (fst b) /\ warning_effect a (baseline_considered a) (snd b)
     end).
  { destruct (a_baseline a) as [s|]; [|injection Hbc as <-; split; [discriminate|auto]].
    apply bind_inv in Hbc. destruct Hbc as (b & Hb & [= <-]).
    apply (module_ok a _ _ (baseline_considered a)) in Hb; [|intros f; apply baseline_required_iff; auto|apply considered_functions].
    destruct Hb as (Hb1 & Hb2 & Hb3). split; [intros [= ->]; auto|]. exists b. split; auto. }
  destruct Hbc' as (Hbc1 & Hbc2). clear Hbc.
  apply bind_inv in H. destruct H as (w & Hw & H). assert (Hw' := proj2 (weight_ok a) (ex_intro _ _ Hw)). apply weight_made in Hw.
  apply bind_inv in H. destruct H as (least & Hl & H). apply bind_inv in H. destruct H as (c & Hca & H).
  destruct (capacity_ok a u h D Hu Hh2 least c Hl Hca) as (Hm1 & Hm2 & Hm3 & Hm4).
  apply bind_inv in H. destruct H as (t & Ht & H). assert (Ht' := proj1 (trace_ok _ _ ND2 Hh3) (ex_intro _ _ Ht)). apply trace_effect in Ht; auto.
  apply bind_inv in H. destruct H as (g & Hg & H). assert (Hg' := proj1 (gae_ok _ ND2) (ex_intro _ _ Hg)). apply gae_effect in Hg; auto.
  injection H as <-. split.
  - split; [exact He1|]. split; [exact Hn'|]. split; [|split; [exact Hu'|split; [|exact Hm1]]].
    + split; [|split; [exact Hh1|split; [|split; [exact Hp1'|split; [exact Hp2'|split; [exact (proj1 Hp3')|split; [exact (proj2 Hp3')|split; [exact Ht'|exact Hg']]]]]]]].
      * eapply only_same; [|exact Hk]. first [exact reward_same|intros k; symmetry; apply reward_same].
      * destruct Hd as [(U & _)|(v & G & _ & R & N & O)]; [left; auto|right]. exists v. split; auto. exists (fst d), (snd d); auto.
    + split; [exact Ho|]. split; [exact Hbo'|]. split; [exact Hpc1|]. split; [exact Hbc1|]. split; [|exact Hw'].
      destruct Hen' as [E|E]; auto. right. split; auto.
      apply orb_true_iff in Hst. destruct Hst as [Z|S]; [apply Hc in Z; destruct Z as [Z|Z]; [|auto]|].
      { rewrite Z in E. destruct E as (? & ? & E & _). inversion E. }
      right. destruct (a_policy a) as [|cc].
      * right. split; auto. revert S. apply (simplest_stochastic a (policy_required a p) (policy_use a));
          [intros f; apply policy_required_iff; auto|left; auto|exact Hpc2].
      * left. rewrite Hpc2 in S. destruct cc; try discriminate. auto.
  - unfold outcome. cbn. split; [exact He2|]. split; [exact Hn|]. split; [exact Hh2|]. split; [exact Hh3|].
    split; [apply estimates_ok; auto|]. split; [apply in_loss_iff|]. split; [exact Hd|]. split; [exact Hen|]. split; [exact Hu|].
    split; [exact Hpc2|]. split; [exact Hpc3|]. split.
    { destruct (a_baseline a); [|rewrite Hbc2; auto]. destruct Hbc2 as (b & -> & B1 & B2). exists (fst b). auto. }
    split; [exact Hw|]. auto.
Qed.

Lemma construct_total a : distinct a -> accepted a -> exists m, construct a = Ok m.
Proof.
  intros D (A1 & A2 & (B1 & B2 & B3 & B4 & B5 & B6 & B7 & B8 & B9) & A4 & (C1 & C2 & C3 & C4 & C5 & C6) & A6).
  assert (D' := D). destruct D' as (ND1 & ND2 & ND3 & ND4). unfold construct. cbn zeta.
  destruct (explore_total a D A1) as (e & ->). cbn [bind].
  apply or_zero_iff in A2. destruct A2 as (noise & ->). cbn [bind].
  assert (K : from reward_keys (a_reward_estimation a) = true).
  { apply from_iff. eapply only_same; [|exact B1]. first [exact reward_same|intros k; symmetry; apply reward_same]. }
  rewrite K. cbn [assert_ bind].
  destruct (horizon_total a ND2 B2) as (h & pr & Hh). rewrite Hh. cbn [bind fst snd]. apply horizon_ok in Hh; auto.
  destruct Hh as (Hh1 & Hh2 & Hh3). set (p := predict_horizon a pr) in *.
  destruct (discount_total _ ND2 B3) as (d & ->). cbn [bind].
  assert (C5' : exists ent, float_parameter (Some 0%Q) None (or_zero (a_entropy_regularization a)) = Ok ent) by (apply or_zero_iff; tauto).
  destruct C5' as (ent & He). rewrite He. cbn [bind].
  apply good_update_iff in A4; auto. destruct A4 as (u & Hu). rewrite Hu. cbn [bind]. apply update_ok in Hu; auto.
  apply processing_ok in B4; auto. destruct B4 as (b4 & ->). cbn [bind].
  apply processing_ok in B5; auto. destruct B5 as (b5 & ->). cbn [bind].
  destruct (proj2 (advantage_processing_ok a ND2) (conj B6 B7)) as (b6 & ->). cbn [bind].
  rewrite (proj2 (objective_ok_iff a _) C1). cbn [assert_ bind].
  assert (O : match a_baseline_objective a with
    | Some o => do _ <- assert_ (objective_ok (a_actions a) o) "objective"; assert_ (match baseline_fns o with [] => true | _ => false end) "AssertionError"
    | None => Ok tt end = Ok tt).
  { destruct (a_baseline_objective a) as [o|]; auto. specialize (C2 o eq_refl).
    assert (X : objective_ok (a_actions a) o = true) by (apply objective_ok_iff; tauto). rewrite X. cbn [assert_ bind].
    rewrite (proj2 (no_baseline_fns o) C2). auto. }
  rewrite O. cbn [bind]. clear O.
  assert (PR : forall f, In f (policy_required a p) <-> policy_use a f) by (intros f; apply policy_required_iff; auto).
  destruct (module_total a (a_policy a) (policy_required a p) (policy_use a) PR (policy_use_functions a) C3) as (pc & Hpc).
  rewrite Hpc. cbn [bind]. apply (module_ok a _ _ (policy_use a) _ PR (policy_use_functions a)) in Hpc. destruct Hpc as (_ & Hpc & _).
  assert (S : is_constant 0 ent || stochastic (fst pc) = true).
  { apply orb_true_iff. assert (Z := constant_zero _ _ He). destruct C5 as [E|(E & [F|[F|(F & G)]])].
    - left; apply Z; auto.
    - left; apply Z; auto.
    - right. rewrite F in Hpc. rewrite Hpc. auto.
    - right. rewrite F in Hpc. apply (simplest_stochastic a (policy_required a p) (policy_use a)); auto. left; auto. }
  rewrite S. cbn [assert_ bind].
  assert (BM : exists b, match a_baseline a with
     | None => Ok None
     | Some s => do b <- policy_module (a_actions a) s (baseline_required a p); Ok (Some b) end = Ok b).
  { destruct (a_baseline a) as [s|]; [|eauto].
    destruct (module_total a s (baseline_required a p) (baseline_considered a)) as (b & ->);
      [intros f; apply baseline_required_iff; auto|apply considered_functions|intros ->; auto|cbn; eauto]. }
  destruct BM as (bc & ->). cbn [bind].
  apply weight_ok in C6. destruct C6 as (w & ->). cbn [bind].
  destruct (capacity_total a u h D Hu Hh2 A6) as (o & c & -> & E). cbn [bind]. rewrite E. cbn [bind].
  destruct (proj2 (trace_ok a p ND2 Hh3) B8) as (t & ->). cbn [bind].
  destruct (proj2 (gae_ok a ND2) B9) as (g & ->). cbn [bind]. eauto.
Qed.
