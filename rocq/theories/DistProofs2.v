(** Proofs about the model of the continuous distributions, value policies and exploration
    (DistModel.v). *)

From Coq Require Import String List ZArith Reals Bool Lia Lra Psatz.
From Verif Require Import OptVec ParModel SolveModel OptModel OptProofs DistModel DistProofs.
Import ListNotations.
Open Scope R_scope.

(** ** Hyperbolic tangent *)
Lemma tanh_exp x : tanh x = (exp x - exp (- x)) / (exp x + exp (- x)).
Proof. unfold tanh, sinh, cosh. field. pose proof (exp_pos x). pose proof (exp_pos (- x)). lra. Qed.
Lemma one_minus_tanh x : 1 - tanh x = 2 * exp (- x) / (exp x + exp (- x)).
Proof. rewrite tanh_exp. field. pose proof (exp_pos x). pose proof (exp_pos (- x)). lra. Qed.
Lemma one_plus_tanh x : 1 + tanh x = 2 * exp x / (exp x + exp (- x)).
Proof. rewrite tanh_exp. field. pose proof (exp_pos x). pose proof (exp_pos (- x)). lra. Qed.
Lemma tanh_bounds x : - 1 < tanh x < 1.
Proof.
  pose proof (exp_pos x). pose proof (exp_pos (- x)).
  assert (0 < 1 - tanh x) by (rewrite one_minus_tanh; apply Rdiv_lt_0_compat; lra).
  assert (0 < 1 + tanh x) by (rewrite one_plus_tanh; apply Rdiv_lt_0_compat; lra). lra.
Qed.
Lemma atanh_tanh x : atanh (tanh x) = x.
Proof.
  unfold atanh. rewrite one_plus_tanh, one_minus_tanh. pose proof (exp_pos x). pose proof (exp_pos (- x)).
  replace (2 * exp x / (exp x + exp (- x)) / (2 * exp (- x) / (exp x + exp (- x)))) with (exp x * exp x).
  - rewrite <- exp_plus, ln_exp. lra.
  - rewrite exp_Ropp. field. rewrite exp_Ropp in *. repeat split; lra || nra.
Qed.
Lemma tanh_atanh y : - 1 < y < 1 -> tanh (atanh y) = y.
Proof.
  intros H. set (q := (1 + y) / (1 - y)). assert (Q : 0 < q) by (apply Rdiv_lt_0_compat; lra).
  assert (E : exp (atanh y) * exp (atanh y) = q).
  { rewrite <- exp_plus. unfold atanh. fold q. replace (1 / 2 * ln q + 1 / 2 * ln q) with (ln q) by lra. now apply exp_ln. }
  rewrite tanh_exp, exp_Ropp. set (e := exp (atanh y)) in *. assert (P : 0 < e) by apply exp_pos.
  replace ((e - / e) / (e + / e)) with ((e * e - 1) / (e * e + 1)) by (field; split; nra).
  rewrite E. unfold q. field. split; lra.
Qed.

Lemma clip_in lo hi x : lo <= hi -> lo <= clip_by_value lo hi x <= hi.
Proof. intros H. unfold clip_by_value. pose proof (Rmax_r x lo). split; [apply Rmin_glb; lra|apply Rmin_r]. Qed.
Lemma clip_id lo hi x : lo <= x <= hi -> clip_by_value lo hi x = x.
Proof. intros H. unfold clip_by_value. rewrite Rmax_left by lra. apply Rmin_left. lra. Qed.

(** ** Bounds *)
Definition within (b : bounds) (x : R) : Prop :=
  match fst b with Some lo => lo <= x | None => True end /\ match snd b with Some hi => x <= hi | None => True end.
Definition proper (b : bounds) : Prop := match b with (Some lo, Some hi) => lo < hi | _ => True end.

Lemma bounded_within t b t' x : gauss_init t b = inl t' -> proper b -> within b (bounded t' b x).
Proof.
  intros I P. destruct b as [[lo|] [hi|]], t; cbn in I; inversion I; subst; unfold within; cbn in *; split; auto.
  - pose proof (clip_in (-1) 1 x ltac:(lra)). nra.
  - pose proof (clip_in (-1) 1 x ltac:(lra)). nra.
  - pose proof (tanh_bounds x). nra.
  - pose proof (tanh_bounds x). nra.
  - apply Rmax_l.
  - apply Rmin_l.
Qed.

Lemma unbounded_clipping lo hi x : lo < hi ->
  unbounded (Some Clipping) (Some lo, Some hi) (bounded (Some Clipping) (Some lo, Some hi) x) = clip_by_value (-1) 1 x.
Proof. intros H. cbn. field. lra. Qed.
Lemma unbounded_tanh lo hi x : lo < hi -> Rabs (tanh x) <= 1 - epsilon6 ->
  unbounded (Some Tanh) (Some lo, Some hi) (bounded (Some Tanh) (Some lo, Some hi) x) = x.
Proof.
  intros H A. cbn. replace (2 * (lo + (hi - lo) * (1 / 2) * (tanh x + 1) - lo) / (hi - lo) - 1) with (tanh x) by (field; lra).
  rewrite clip_id; [apply atanh_tanh|]. unfold Rabs in A. destruct (Rcase_abs (tanh x)); pose proof eps_small; lra.
Qed.

(** ** Beta *)
Lemma beta_params lg a b : 1 < b_alpha (beta_parametrize lg a b) /\ 1 < b_beta (beta_parametrize lg a b).
Proof. cbn. pose proof (exp_pos (clip_log a)). pose proof (exp_pos (clip_log b)). lra. Qed.
Lemma share_in a b : 0 <= a -> 0 <= b -> 0 < a + b -> 0 <= b / (a + b) <= 1.
Proof.
  intros A B P. assert (I : 0 < / (a + b)) by (apply Rinv_0_lt_compat; exact P). unfold Rdiv. split; [nra|].
  apply Rmult_le_reg_r with (a + b); [exact P|]. rewrite Rmult_assoc, Rinv_l by lra. lra.
Qed.
Lemma affine_in lo hi x : lo <= hi -> 0 <= x <= 1 -> lo <= lo + (hi - lo) * x <= hi.
Proof. intros. nra. Qed.

(** ** Exploration *)
Lemma explore_float_within b e n a : proper b -> within b (explore_float b e n a).
Proof.
  intros P. destruct b as [[lo|] [hi|]]; unfold within, explore_float; cbn in *; split; auto.
  - apply Rmin_glb; [apply Rmax_r|lra].
  - apply Rmin_r.
  - apply Rmax_r.
  - apply Rmin_r.
Qed.

Lemma valid_filter mask : forall k, valid_from k mask = filter (fun i => nth (i - k) mask false) (seq k (length mask)).
Proof.
  induction mask as [|b m IH]; intros k; [reflexivity|]. cbn [valid_from length seq filter]. rewrite Nat.sub_diag. cbn [nth].
  assert (E : valid_from (S k) m = filter (fun i => nth (i - k) (b :: m) false) (seq (S k) (length m))).
  { rewrite IH. apply filter_ext_in. intros i I. apply in_seq in I. replace (i - k)%nat with (S (i - S k)) by lia. reflexivity. }
  rewrite E. destruct b; reflexivity.
Qed.
Lemma valid_length mask : forall k, length (valid_from k mask) = count_occ Bool.bool_dec mask true.
Proof. induction mask as [|[] m IH]; intros k; cbn; auto. Qed.

Lemma floor_lt u n : 0 <= u < 1 -> (0 < n)%nat ->
  (Z.to_nat (Int_part (u * INR n)) < n)%nat /\
  INR (Z.to_nat (Int_part (u * INR n))) <= u * INR n < INR (Z.to_nat (Int_part (u * INR n))) + 1.
Proof.
  intros U N. assert (P : 0 < INR n) by now apply lt_0_INR. destruct (base_Int_part (u * INR n)) as [B1 B2].
  set (z := Int_part (u * INR n)) in *.
  assert (Z0 : (-1 < z)%Z) by (apply lt_IZR; nra). assert (Zn : (z < Z.of_nat n)%Z) by (apply lt_IZR; rewrite <- INR_IZR_INZ; nra).
  split; [lia|]. rewrite INR_IZR_INZ, Z2Nat.id by lia. lra.
Qed.

Definition pick (mask : list bool) (u : R) : nat :=
  nth (Z.to_nat (Int_part (u * INR (length (valid_from 0 mask))))) (valid_from 0 mask) 0%nat.

Lemma gather_masked masks : forall uniform pre, length uniform = length masks ->
  Forall (fun m => In true m) masks -> Forall (fun u => 0 <= u < 1) uniform ->
  let num_valid := map (fun m => count_occ Bool.bool_dec m true) masks in
  gather_all (pre ++ flat_map (valid_from 0) masks)
    (map2 Nat.add (cumsum (length pre) num_valid)
       (map2 (fun u n => Z.to_nat (Int_part (u * INR n))) uniform num_valid))
  = Some (map2 pick masks uniform).
Proof.
  induction masks as [|m masks IH]; intros [|u uniform] pre L M U; cbn in L; try discriminate; [reflexivity|].
  inversion M as [|? ? M1 M2]; inversion U as [|? ? U1 U2]; subst. cbn [map cumsum map2 flat_map gather_all].
  set (n := count_occ Bool.bool_dec m true).
  assert (N : (0 < n)%nat) by (apply count_occ_In; exact M1).
  assert (V : length (valid_from 0 m) = n) by apply valid_length.
  destruct (floor_lt u n U1 N) as [F _]. set (j := Z.to_nat (Int_part (u * INR n))) in *.
  rewrite nth_error_app2 by lia. replace (length pre + j - length pre)%nat with j by lia.
  rewrite nth_error_app1 by lia. rewrite (nth_error_nth' _ 0%nat) by lia.
  specialize (IH uniform (pre ++ valid_from 0 m)%list ltac:(lia) M2 U2). cbv zeta in IH.
  rewrite <- app_assoc, app_length, V in IH. rewrite IH. unfold pick at 2. rewrite V. reflexivity.
Qed.

Lemma random_masked_picks masks uniform : length uniform = length masks ->
  Forall (fun m => In true m) masks -> Forall (fun u => 0 <= u < 1) uniform ->
  random_masked masks uniform = Some (map2 pick masks uniform).
Proof. intros L M U. exact (gather_masked masks uniform [] L M U). Qed.

Lemma valid_nonempty m : In true m -> (0 < length (valid_from 0 m))%nat.
Proof. intros H. rewrite valid_length. now apply count_occ_In. Qed.
Lemma pick_in m u : In true m -> 0 <= u < 1 -> In (pick m u) (valid_from 0 m).
Proof. intros M U. apply nth_In. now apply floor_lt; [|apply valid_nonempty]. Qed.
Lemma valid_allowed m a : In a (valid_from 0 m) <-> (a < length m)%nat /\ nth a m false = true.
Proof.
  rewrite valid_filter, filter_In, in_seq, Nat.sub_0_r. split; intros [A B]; (split; [lia|exact B]).
Qed.

(** ** Value policies *)
Lemma rmax_spec l : l <> [] -> In (rmax l) l /\ (forall x, In x l -> x <= rmax l).
Proof.
  induction l as [|x l IH]; [congruence|]. intros _. destruct l as [|y l].
  - cbn. split; [now left|]. intros z [<-|[]]. lra.
  - destruct IH as [I M]; [congruence|]. change (rmax (x :: y :: l)) with (Rmax x (rmax (y :: l))). split.
    + unfold Rmax. destruct (Rle_dec x (rmax (y :: l))); [now right|now left].
    + intros z [<-|Z]; [apply Rmax_l|]. apply Rle_trans with (rmax (y :: l)); [now apply M|apply Rmax_r].
Qed.
Lemma rmax_argmax argmax l : is_argmax argmax -> l <> [] -> rmax l = nth (argmax l) l 0.
Proof.
  intros A N. destruct (A l N) as [A1 A2]. destruct (rmax_spec l N) as [I M]. apply Rle_antisym.
  - destruct (In_nth _ _ 0 I) as [j [J <-]]. now apply A2.
  - apply M. now apply nth_In.
Qed.
Lemma rsum_shift l c : rsum (map (fun x => c + x) l) = INR (length l) * c + rsum l.
Proof.
  unfold rsum. induction l as [|x l IH]; [cbn; lra|]. change (length (x :: l)) with (S (length l)). rewrite S_INR. cbn [map fold_right]. rewrite IH. lra.
Qed.
Lemma q_mean s l : l <> [] -> rmean (q_values (Some s) l) = s.
Proof.
  intros N. unfold q_values. rewrite (map_ext _ (fun a => (s - rmean l) + a)) by (intros; lra).
  unfold rmean at 1. rewrite rsum_shift, map_length. unfold rmean. field.
  apply not_0_INR. destruct l; [congruence|discriminate].
Qed.
Lemma q_length s l : length (q_values s l) = length l.
Proof. destruct s; [apply map_length|reflexivity]. Qed.
(** the state value does not influence the order of actions *)
Lemma q_order s l i j : (i < length l)%nat -> (j < length l)%nat ->
  nth i (q_values s l) 0 - nth j (q_values s l) 0 = nth i l 0 - nth j l 0.
Proof. intros I J. destruct s; [|reflexivity]. cbn [q_values]. rewrite !(nth_map_lt _ _ 0) by assumption. lra. Qed.
