(** Theorems on the hyperparameters (C42, C43, C64). *)
From Coq Require Import String List ZArith Reals Bool Lra Lia.
From Verif Require Import Base ParModel ParProofs.
Import ListNotations.
Open Scope string_scope.
Open Scope list_scope.
Open Scope R_scope.

(** ** C42 *)
(** An accepted decaying parameter without inverse, at every step: the value lies between
    min_value() and max_value(), and the check against the specification never fails.
    [sound] (ParProofs.v) excludes the decays for which this is refuted below. *)
Theorem C42_decaying_partial p s noise step : create_decaying p s = Ok tt -> sound (d_decay p) -> d_inverse p = false -> 0 <= step ->
  exists lo hi v, min_value p = Ok lo /\ max_value p = Ok hi /\ parameter_value p noise step = Ok v /\
    lo <= v <= hi /\ value s (parameter_value p noise step) = Ok v.
Proof.
  intros Hc Hs Hi Hst. unfold create_decaying in Hc. destruct (assert_ (Nat.ltb 0 (d_num_steps p)) "assert") as [[]|]; [|discriminate]. cbn [bind] in Hc.
  destruct (min_value p) as [lo|] eqn:E1; [|discriminate]. destruct (max_value p) as [hi|] eqn:E2; [|discriminate]. cbn [bind] in Hc.
  destruct (parameter_range p noise step lo hi Hs Hi E1 E2 Hst) as (v & Ev & Hv). exists lo, hi, v. rewrite Ev. repeat split; auto; try lra.
  apply value_within. eapply check_within; [exact Hc| |]; cbn; lra.
Qed.
Print Assumptions C42_decaying_partial.

(** A parameter which is_constant reports as constant never changes. *)
Theorem C42_constant_partial p s noise step f : create_decaying p s = Ok tt -> sound (d_decay p) -> d_inverse p = false -> 0 <= step ->
  is_constant (min_value p) (max_value p) (final_value p) = Ok (Some f) -> parameter_value p noise step = Ok f.
Proof.
  intros Hc Hs Hi Hst Hf. destruct (C42_decaying_partial p s noise step Hc Hs Hi Hst) as (lo & hi & v & E1 & E2 & E3 & Hv & _).
  rewrite E1, E2 in Hf. unfold is_constant in Hf. cbn [bind] in Hf. destruct (Req_EM_T lo hi); [|discriminate].
  destruct (final_value p) as [x|]; [|discriminate]. cbn [bind] in Hf. destruct (Reqb x lo) eqn:Ex; [|discriminate]. cbn [assert_ bind] in Hf.
  injection Hf as <-. apply Reqb_true in Ex. rewrite E3. f_equal. lra.
Qed.
Print Assumptions C42_constant_partial.

(** With inverse (scale 1, float) the upper bound holds, the lower one up to epsilon. *)
Theorem C42_inverse_partial p s noise step : create_decaying p s = Ok tt -> sound (d_decay p) -> d_inverse p = true -> 0 <= step ->
  d_scale p = 1 -> d_dtype p = Float ->
  exists lo hi v, min_value p = Ok lo /\ max_value p = Ok hi /\ parameter_value p noise step = Ok v /\
    0 < lo /\ lo / (1 + epsilon * lo) <= v <= hi.
Proof.
  intros Hc Hs Hi Hst Hsc Hd. unfold create_decaying in Hc. destruct (assert_ (Nat.ltb 0 (d_num_steps p)) "assert") as [[]|]; [|discriminate]. cbn [bind] in Hc.
  destruct (min_value p) as [lo|] eqn:E1; [|discriminate]. destruct (max_value p) as [hi|] eqn:E2; [|discriminate]. clear Hc.
  unfold min_value, max_value, all_bounds in *. rewrite Hi, Hsc, Hd in *.
  destruct (decay_bounds (d_decay p) (d_initial p)) as [[a b]|] eqn:Eb; [|discriminate]. cbn [bind] in *.
  destruct (decayed_range p noise step a b Hs Eb Hst) as (v & Ev & Hv). unfold parameter_value. rewrite Ev, Hi, Hsc, Hd. cbn [bind cast].
  destruct (assert_ (Rleb a b) "assert") as [[]|]; [|discriminate]. cbn [bind] in *.
  destruct (Req_EM_T 1 1) as [_|]; [|lra].
  assert (forall x y w, x <= w <= y -> Rleb epsilon x && Rleb x y = true ->
    0 < 1 / y /\ 1 / y / (1 + epsilon * (1 / y)) <= 1 / (if Rlt_dec 0 w then w + epsilon else w - epsilon) * 1 <= 1 / x) as K.
  { clear. intros x y w Hw Ea.
    apply andb_prop in Ea. rewrite !Rleb_true in Ea. assert (0 < epsilon) as He by (unfold epsilon; lra). set (e := epsilon) in *. clearbody e.
    destruct (Rlt_dec 0 w) as [_|]; [|lra]. unfold Rdiv in *. rewrite !Rmult_1_l, Rmult_1_r in *. split; [apply Rinv_0_lt_compat; lra|]. split.
    - replace (/ y * / (1 + e * / y)) with (/ (y + e)) by (field; lra). apply Rinv_le_contravar; lra.
    - apply Rinv_le_contravar; lra. }
  destruct (d_increasing p).
  - destruct (Rleb 0 a && Rleb a b && Rleb b 1) eqn:Ea; [|discriminate]. cbn [assert_ bind] in *. apply andb_prop in Ea. destruct Ea as [Ea E3]. apply andb_prop in Ea. destruct Ea as [E4 E5]. rewrite !Rleb_true in E3, E4, E5.
    rewrite (proj2 (Rleb_true 0 v)), (proj2 (Rleb_true v 1)) by lra. cbn [andb assert_ bind].
    destruct (Rleb epsilon (1 - b) && Rleb (1 - b) (1 - a)) eqn:Ex; [|discriminate].
    destruct (Rltb 0 (1 - b) && Rleb (1 - b) (1 - a)) eqn:Ey; [|discriminate]. cbn [assert_ bind cast] in *.
    injection E1 as E1. injection E2 as E2. exists lo, hi, (1 / (if Rlt_dec 0 (1 - v) then 1 - v + epsilon else 1 - v - epsilon) * 1).
    split; [reflexivity|]. split; [reflexivity|]. split; [reflexivity|]. rewrite <- E1, <- E2.
    apply (K (1 - b) (1 - a) (1 - v)); [lra|auto].
  - cbn [bind] in *. destruct (Rleb epsilon a && Rleb a b) eqn:Ex; [|discriminate].
    destruct (Rltb 0 a && Rleb a b) eqn:Ey; [|discriminate]. cbn [assert_ bind cast] in *.
    injection E1 as E1. injection E2 as E2. exists lo, hi, (1 / (if Rlt_dec 0 v then v + epsilon else v - epsilon) * 1).
    split; [reflexivity|]. split; [reflexivity|]. split; [reflexivity|]. rewrite <- E1, <- E2.
    apply (K a b v); auto.
Qed.
Print Assumptions C42_inverse_partial.

(** The other parameters: constant, random, Ornstein-Uhlenbeck process, piecewise constant. *)
Theorem C42_others s v :
  (check s (fst (constant_bounds v)) (snd (constant_bounds v)) = Ok tt -> value s (Ok v) = Ok v) /\
  (forall r u, check s (fst (random_bounds r)) (snd (random_bounds r)) = Ok tt ->
     match r with Uniform _ _ => 0 <= u < 1 | Normal _ _ => True end -> value s (Ok (random_value r u)) = Ok (random_value r u)) /\
  (forall o n draws, check s (fst (ornstein_bounds o)) (snd (ornstein_bounds o)) = Ok tt ->
     value s (Ok (ornstein_process o (n :: draws))) = Ok (ornstein_process o (n :: draws))) /\
  (forall boundaries values step x, create_piecewise boundaries values = Ok tt ->
     check s (fst (piecewise_bounds values)) (snd (piecewise_bounds values)) = Ok tt ->
     piecewise_value boundaries values step = Ok x -> value s (Ok x) = Ok x).
Proof.
  split; [|split; [|split]].
  - intros H. apply value_within. eapply check_within; [exact H| |]; cbn; lra.
  - intros r u H Hu. apply value_within. destruct r as [m d|lo hi]; [eapply check_within; [exact H| |]; exact Logic.I|].
    assert (lo <= hi) as Hle.
    { unfold check in H. cbn in H. destruct (Rleb lo hi) eqn:E; [now apply Rleb_true|discriminate]. }
    assert (0 <= u * (hi - lo) <= 1 * (hi - lo)) as Hm by (split; [apply Rmult_le_pos; lra|apply Rmult_le_compat_r; lra]).
    eapply check_within; [exact H| |]; cbn; lra.
  - intros o n draws H. apply value_within. eapply check_within; [exact H| |exact Logic.I]. cbn. unfold ornstein_step. destruct (o_absolute o); auto. apply Rabs_pos.
  - intros bs vs step x Hc H Hx. apply value_within. destruct bs as [|b bs]; [discriminate|]. destruct vs as [|v0 vs]; [discriminate|].
    assert (In x (v0 :: vs)) as Hin.
    { unfold piecewise_value in Hx. destruct (step <=? b)%Z; [injection Hx as <-; now left|].
      destruct (_ <? step)%Z.
      - injection Hx as <-. clear. generalize v0 at 1 3. induction vs as [|a l IH]; intros d; [now left|]. right. exact (IH a).
      - assert (forall bs (vs : list R) y, between bs vs step = Some y -> In y vs) as Hb.
        { clear. induction bs as [|low bs IH]; [discriminate|]. destruct bs as [|high bs]; [discriminate|]. intros [|v vs] y E; [discriminate|].
          cbn [between] in E. destruct (_ && _); [injection E as <-; now left|]. right. apply IH. exact E. }
        destruct (between (b :: bs) vs step) as [y|] eqn:Ey; injection Hx as <-; [right; eapply Hb; eauto|now left]. }
    eapply check_within; [exact H| |]; cbn; [now apply fold_min|now apply fold_max].
Qed.
Print Assumptions C42_others.

(** Refuted: configurations which are accepted, but whose value is out of range at some step. *)
Lemma dec_true (x y : R) : x <= y -> Rleb x y = true.
Proof. apply Rleb_true. Qed.
Lemma dec_false (x y : R) : y < x -> Rleb x y = false.
Proof. intros H. unfold Rleb. destruct (Rle_dec x y); [lra|auto]. Qed.
Ltac decide_r := repeat match goal with
  | |- context [Rleb ?x ?y] => first [rewrite (dec_true x y) by lra | rewrite (dec_false x y) by lra]
  | |- context [Rltb ?x ?y] => first [rewrite (proj2 (Rltb_true x y)) by lra | replace (Rltb x y) with false by (unfold Rltb; destruct (Rlt_dec x y); [lra|reflexivity])]
  | |- context [Rle_dec ?x ?y] => first [destruct (Rle_dec x y); [|exfalso; lra] | destruct (Rle_dec x y); [exfalso; lra|]]
  | |- context [Rlt_dec ?x ?y] => first [destruct (Rlt_dec x y); [|exfalso; lra] | destruct (Rlt_dec x y); [exfalso; lra|]]
  | |- context [Req_EM_T ?x ?y] => first [destruct (Req_EM_T x y); [|exfalso; lra] | destruct (Req_EM_T x y); [exfalso; lra|]]
  end.
Ltac settle := repeat (progress (cbn; decide_r)).

(** inverse_time with decay_rate 1 is taken to be constant (decaying.py 178-179), but is not. *)
Definition halving := Decaying (InverseTime 1 false) 1 1 false false 1 Float.
Theorem C42_inverse_time_refuted : create_decaying halving (Spec (Some 1) (Some 1)) = Ok tt /\
  min_value halving = Ok 1 /\ max_value halving = Ok 1 /\ parameter_value halving 0 2 = Ok (1 / 2) /\
  value (Spec (Some 1) (Some 1)) (parameter_value halving 0 2) = Err "InvalidArgumentError".
Proof.
  assert (min_value halving = Ok 1) as E1.
  { unfold min_value, all_bounds, halving. settle. reflexivity. }
  assert (max_value halving = Ok 1) as E2.
  { unfold max_value, all_bounds, halving. settle. reflexivity. }
  assert (parameter_value halving 0 2 = Ok (1 / 2)) as E3.
  { unfold parameter_value, decayed, halving. cbn [d_decay d_num_steps d_initial d_increasing d_inverse d_scale d_dtype cast]. decide_r. cbn [assert_ bind].
    unfold inverse_time_decay. cbn [INR]. f_equal. field. }
  repeat split; auto.
  - unfold create_decaying. rewrite E1, E2. cbn. unfold check. cbn. decide_r. reflexivity.
  - rewrite E3. unfold value. cbn. decide_r. reflexivity.
Qed.
Print Assumptions C42_inverse_time_refuted.

(** cosine_restarts with m_mul above 1 exceeds the initial value after a restart. *)
Definition growing := Decaying (CosineRestarts 1 2 0) 1 1 false false 1 Float.
Theorem C42_restarts_refuted : create_decaying growing (Spec None (Some 1)) = Ok tt /\ max_value growing = Ok 1 /\
  parameter_value growing 0 2 = Ok 2 /\ value (Spec None (Some 1)) (parameter_value growing 0 2) = Err "InvalidArgumentError".
Proof.
  assert (min_value growing = Ok 0) as E1.
  { unfold min_value, all_bounds, growing. settle. f_equal. ring. }
  assert (max_value growing = Ok 1) as E2.
  { unfold max_value, all_bounds, growing. settle. reflexivity. }
  assert (parameter_value growing 0 2 = Ok 2) as E3.
  { unfold parameter_value, decayed, growing. cbn [d_decay d_num_steps d_initial d_increasing d_inverse d_scale d_dtype cast]. decide_r. cbn [assert_ bind andb].
    unfold cosine_restarts. cbn [INR]. destruct (Req_EM_T 1 1); [|lra]. replace (2 / (1 + 1)) with 1 by field.
    assert (floor 1 = 1) as ->.
    { unfold floor. destruct (base_Int_part 1) as [A B]. apply (le_IZR _ 1) in A. assert (0 < IZR (Int_part 1)) as C by lra. apply (lt_IZR 0) in C. now replace (Int_part 1) with 1%Z by lia. }
    replace (PI * (1 - 1)) with 0 by ring. rewrite cos_0. unfold tf_pow. decide_r. rewrite Rpower_1 by lra. f_equal. field. }
  repeat split; auto.
  - unfold create_decaying. rewrite E1, E2. cbn. unfold check. cbn. decide_r. reflexivity.
  - rewrite E3. unfold value. cbn. decide_r. reflexivity.
Qed.
Print Assumptions C42_restarts_refuted.

(** The noise of linear_cosine_noisy is not bounded. *)
Definition noisy := Decaying (LinearCosineNoisy 0 0 0) 1 1 false false 1 Float.
Theorem C42_noisy_refuted : create_decaying noisy (Spec (Some 0) (Some 1)) = Ok tt /\
  min_value noisy = Ok 0 /\ max_value noisy = Ok 1 /\ forall noise, parameter_value noisy noise 0 = Ok (1 + noise).
Proof.
  assert (min_value noisy = Ok 0) as E1.
  { unfold min_value, all_bounds, noisy. settle. f_equal. ring. }
  assert (max_value noisy = Ok 1) as E2.
  { unfold max_value, all_bounds, noisy. settle. f_equal. ring. }
  repeat split; auto.
  - unfold create_decaying. rewrite E1, E2. cbn. unfold check. cbn. decide_r. reflexivity.
  - intros noise. unfold parameter_value, decayed, noisy. cbn [d_decay d_num_steps d_initial d_increasing d_inverse d_scale d_dtype cast]. decide_r. cbn [assert_ bind].
    unfold linear_cosine_decay. cbn [INR]. rewrite Rmin_left by lra. replace (PI * (2 * 0 * (0 / (1 + 1)))) with 0 by field. rewrite cos_0. f_equal. field.
Qed.
Print Assumptions C42_noisy_refuted.

(** With inverse, epsilon is added to the value but not to the bounds. *)
Definition inverted := Decaying (Polynomial 1 1 false) 1 1 false true 1 Float.
Theorem C42_inverse_refuted : create_decaying inverted (Spec (Some 1) None) = Ok tt /\ min_value inverted = Ok 1 /\
  forall step, 0 <= step -> parameter_value inverted 0 step = Ok (1 / (1 + epsilon)) /\
    value (Spec (Some 1) None) (parameter_value inverted 0 step) = Err "InvalidArgumentError".
Proof.
  assert (min_value inverted = Ok 1) as E1.
  { unfold min_value, all_bounds, inverted. unfold epsilon. settle. f_equal. field. }
  assert (max_value inverted = Ok 1) as E2.
  { unfold max_value, all_bounds, inverted. settle. f_equal. field. }
  split; [|split; auto].
  - unfold create_decaying. rewrite E1, E2. cbn. unfold check. cbn. decide_r. reflexivity.
  - intros step Hst. assert (parameter_value inverted 0 step = Ok (1 / (1 + epsilon))) as E3.
    { unfold parameter_value, decayed, inverted. cbn [d_decay d_num_steps d_initial d_increasing d_inverse d_scale d_dtype cast]. decide_r. cbn [assert_ bind].
      assert (forall st, polynomial_decay 1 (INR 1 + 1) 1 1 false st = 1) as -> by (intros st; unfold polynomial_decay; ring).
      decide_r. f_equal. ring. }
    split; auto. rewrite E3. unfold value. cbn [bind s_min].
    rewrite dec_false; [reflexivity|]. apply Rlt_le_trans with (/ 1); [|rewrite Rinv_1; lra]. unfold Rdiv. rewrite Rmult_1_l. apply Rinv_lt_contravar; unfold epsilon; lra.
Qed.
Print Assumptions C42_inverse_refuted.

(** ** C43 *)
Section C43.
Context {X : Type}.
Implicit Types values : list X.

Lemma ascending_cons a l : ascending (a :: l) = true -> ascending l = true /\ forall b, In b l -> (a <= b)%Z.
Proof.
  revert a. induction l as [|b l IH]; intros a H; [split; [reflexivity|intros ? []]|]. cbn [ascending] in H. apply andb_prop in H. destruct H as [H1 H2].
  apply Z.leb_le in H1. split; auto. destruct (IH b H2) as [_ Hb]. intros x [<-|Hx]; auto. specialize (Hb x Hx). lia.
Qed.
Lemma between_nth i : forall boundaries values step low high v, ascending boundaries = true ->
  nth_error boundaries i = Some low -> nth_error boundaries (Datatypes.S i) = Some high -> nth_error values i = Some v ->
  (low < step <= high)%Z -> between boundaries values step = Some v.
Proof.
  induction i as [|i IH]; intros [|a [|b bs]] [|x vs] step low high v Ha Hl Hh Hv Hs; try discriminate.
  - cbn in *. injection Hl as <-. injection Hh as <-. injection Hv as <-. rewrite (proj2 (Z.ltb_lt _ _)), (proj2 (Z.leb_le _ _)) by lia. reflexivity.
  - cbn [between]. destruct (ascending_cons _ _ Ha) as [Ha' _]. destruct (ascending_cons _ _ Ha') as [_ Hb].
    assert (step <=? b = false)%Z as ->.
    { apply Z.leb_gt. cbn in Hl. destruct i as [|i]; cbn in Hl; [injection Hl as ->; lia|]. apply nth_error_In in Hl. specialize (Hb low Hl). lia. }
    rewrite andb_false_r. apply (IH (b :: bs) vs step low high); auto.
Qed.
Lemma last_le boundaries d : ascending boundaries = true -> forall b, In b boundaries -> (b <= List.last boundaries d)%Z.
Proof.
  induction boundaries as [|a l IH]; intros Ha b Hb; [destruct Hb|]. destruct (ascending_cons _ _ Ha) as [Ha' Hle]. destruct l as [|c l].
  - destruct Hb as [->|[]]. cbn. lia.
  - change (List.last (a :: c :: l) d) with (List.last (c :: l) d). destruct Hb as [->|Hb]; [|now apply IH].
    specialize (IH Ha' c (or_introl eq_refl)). specialize (Hle c (or_introl eq_refl)). lia.
Qed.

Theorem C43_switches boundaries values step : create_piecewise boundaries values = Ok tt ->
  (forall b v, nth_error boundaries 0 = Some b -> nth_error values 0 = Some v -> (step <= b)%Z -> piecewise_value boundaries values step = Ok v) /\
  (forall i low high v, nth_error boundaries i = Some low -> nth_error boundaries (Datatypes.S i) = Some high ->
     nth_error values (Datatypes.S i) = Some v -> (low < step <= high)%Z -> piecewise_value boundaries values step = Ok v) /\
  (forall b v, nth_error boundaries (length boundaries - 1) = Some b -> nth_error values (length boundaries) = Some v ->
     (b < step)%Z -> piecewise_value boundaries values step = Ok v).
Proof.
  intros Hc. unfold create_piecewise in Hc. destruct (Nat.eqb_spec (length values) (length boundaries + 1)) as [Hl|]; [|discriminate]. cbn [assert_ bind] in Hc.
  destruct (ascending boundaries) eqn:Ha; [|discriminate]. cbn [assert_ bind] in Hc. destruct boundaries as [|b0 bs]; [discriminate|].
  destruct values as [|v0 vs]; [discriminate|]. cbn [piecewise_value]. split; [|split].
  - intros b v Hb Hv Hs. cbn in Hb, Hv. injection Hb as <-. injection Hv as <-. now rewrite (proj2 (Z.leb_le _ _)).
  - intros i low high v Hlo Hhi Hv Hs. assert (step <=? b0 = false)%Z as ->.
    { apply Z.leb_gt. destruct i as [|i]; cbn in Hlo; [injection Hlo as <-; lia|]. apply nth_error_In in Hlo. pose proof (proj2 (ascending_cons _ _ Ha) low Hlo). lia. }
    assert (List.last (b0 :: bs) 0 <? step = false)%Z as ->.
    { apply Z.ltb_ge. apply nth_error_In in Hhi. pose proof (last_le _ 0%Z Ha high Hhi). lia. }
    rewrite (between_nth i (b0 :: bs) vs step low high v); auto.
  - intros b v Hb Hv Hs. assert (forall (Y : Type) (l : list Y) y d, nth_error (y :: l) (length l) = Some (List.last (y :: l) d)) as Hlast.
    { clear. intros Y l. induction l as [|a l IH]; intros y d; [reflexivity|]. cbn [length nth_error]. exact (IH a d). }
    cbn [length] in Hb, Hv, Hl. replace (Datatypes.S (length bs) - 1)%nat with (length bs) in Hb by lia. rewrite (Hlast _ bs b0 0%Z) in Hb. assert (b = List.last (b0 :: bs) 0%Z) as -> by congruence. clear Hb.
    assert (step <=? b0 = false)%Z as ->.
    { apply Z.leb_gt. pose proof (last_le _ 0%Z Ha b0 (or_introl eq_refl)). lia. }
    rewrite (proj2 (Z.ltb_lt _ _)) by lia. f_equal. assert (Datatypes.S (length bs) = length vs) as E by lia. rewrite E in Hv. rewrite (Hlast _ vs v0 v0) in Hv. congruence.
Qed.

(** Every step falls into one of the three cases, so that these determine the schedule. *)
Theorem C43_total boundaries values step : create_piecewise boundaries values = Ok tt ->
  exists i v, nth_error values i = Some v /\ piecewise_value boundaries values step = Ok v /\
    (forall j b, nth_error boundaries j = Some b -> ((j < i)%nat <-> (b < step)%Z)).
Proof.
  intros Hc. pose proof (C43_switches boundaries values step Hc) as (C1 & C2 & C3).
  assert (ascending boundaries = true /\ length values = (length boundaries + 1)%nat /\ boundaries <> []) as (Ha & Hl & Hn).
  { unfold create_piecewise in Hc. destruct (Nat.eqb_spec (length values) (length boundaries + 1)) as [Hl|]; [|discriminate]. cbn [assert_ bind] in Hc.
    destruct (ascending boundaries) eqn:Ha; [|discriminate]. cbn [assert_ bind] in Hc. destruct boundaries; [discriminate|]. split; auto. split; auto. discriminate. }
  clear Hc. set (i := length (filter (fun b => (b <? step)%Z) boundaries)).
  assert (forall j b, nth_error boundaries j = Some b -> ((j < i)%nat <-> (b < step)%Z)) as Hi.
  { unfold i. clear - Ha. induction boundaries as [|a l IH]; intros j b Hj; [destruct j; discriminate|]. destruct (ascending_cons _ _ Ha) as [Ha' Hle]. cbn [filter].
    destruct (Z.ltb_spec a step) as [H1|H1].
    - destruct j as [|j]; cbn in Hj; [injection Hj as <-; cbn; lia|]. cbn [length]. rewrite <- (IH Ha' j b Hj). lia.
    - assert (filter (fun b => (b <? step)%Z) l = []) as ->.
      { clear - Hle H1. induction l as [|x l IH]; auto. cbn. pose proof (Hle x (or_introl eq_refl)). destruct (Z.ltb_spec x step); [lia|]. apply IH. intros y Hy. apply Hle. now right. }
      cbn. split; [lia|]. destruct j as [|j]; cbn in Hj; [injection Hj as <-; lia|]. apply nth_error_In in Hj. specialize (Hle b Hj). lia. }
  assert (i <= length boundaries)%nat as Hle.
  { unfold i. clear. induction boundaries as [|a l IH]; cbn; auto. destruct (_ <? _)%Z; cbn; lia. }
  destruct (nth_error values i) as [v|] eqn:Ev; [|apply nth_error_None in Ev; lia]. exists i, v. split; auto. split; auto.
  destruct i as [|j] eqn:Ei.
  - destruct boundaries as [|b bs]; [congruence|]. apply (C1 b v); auto. specialize (Hi 0%nat b eq_refl). lia.
  - destruct (nth_error boundaries j) as [low|] eqn:El; [|apply nth_error_None in El; lia]. pose proof (Hi j low El) as H1.
    destruct (nth_error boundaries (Datatypes.S j)) as [high|] eqn:Eh.
    + apply (C2 j low high v); auto. pose proof (Hi _ _ Eh). lia.
    + apply nth_error_None in Eh. assert (j = length boundaries - 1)%nat as Ej by lia. subst j. apply (C3 low v); auto; [|lia].
      now replace (length boundaries) with (Datatypes.S (length boundaries - 1)) by lia.
Qed.

(** Misconfigured boundaries are rejected. *)
Theorem C43_rejects boundaries values :
  create_piecewise boundaries values = Ok tt <->
  length values = (length boundaries + 1)%nat /\ boundaries <> [] /\
  (forall i a b, nth_error boundaries i = Some a -> nth_error boundaries (Datatypes.S i) = Some b -> (a <= b)%Z) /\
  (forall b, nth_error boundaries 0 = Some b -> (0 < b)%Z).
Proof.
  assert (ascending boundaries = true <-> (forall i a b, nth_error boundaries i = Some a -> nth_error boundaries (Datatypes.S i) = Some b -> (a <= b)%Z)) as Hasc.
  { split.
    - intros Ha. induction boundaries as [|x l IH]; intros i a b H1 H2; [destruct i; discriminate|]. destruct (ascending_cons _ _ Ha) as [Ha' Hle].
      destruct i as [|i]; [injection H1 as <-; apply (nth_error_In l 0) in H2; auto|]. eapply IH; eauto.
    - induction boundaries as [|x l IH]; intros H; auto. destruct l as [|y l]; auto. cbn [ascending]. apply andb_true_intro. split.
      + apply Z.leb_le. apply (H 0%nat); reflexivity.
      + apply IH. intros i a b H1 H2. apply (H (Datatypes.S i) a b); auto. }
  unfold create_piecewise. destruct (Nat.eqb_spec (length values) (length boundaries + 1)) as [Hl|Hl]; cbn [assert_ bind].
  2:{ split; [discriminate|tauto]. }
  destruct (ascending boundaries) eqn:Ha; cbn [assert_ bind].
  2:{ split; [discriminate|]. intros (_ & _ & H & _). rewrite <- Hasc in H. discriminate. }
  destruct boundaries as [|b bs]; [split; [discriminate|tauto]|]. destruct (Z.ltb_spec 0 b) as [Hb|Hb]; cbn [assert_].
  - split; auto. intros _. split; auto. split; [discriminate|]. split; [now apply Hasc|]. intros b' E. cbn in E. injection E as <-. auto.
  - split; [discriminate|]. intros (_ & _ & _ & H). specialize (H b eq_refl). lia.
Qed.
End C43.
Print Assumptions C43_switches.
Print Assumptions C43_total.
Print Assumptions C43_rejects.

(** ** C64 *)
(** A linear schedule is a straight line from the initial value at step 0 to the final value at
    step num_steps + 1, and stays there. *)
Theorem C64_linear_partial n initial final step : 0 <= step ->
  parameter_value (Decaying (Polynomial final 1 false) n initial false false 1 Float) 0 step =
  Ok (if Rle_dec step (INR n + 1) then initial + (final - initial) * (step / (INR n + 1)) else final).
Proof.
  intros Hst. unfold parameter_value, decayed. cbn [d_decay d_num_steps d_initial d_increasing d_inverse d_scale d_dtype cast]. decide_r. cbn [assert_ bind].
  pose proof (pos_INR n) as Hn. f_equal. unfold polynomial_decay. 
  assert (0 <= Rmin step (INR n + 1) / (INR n + 1) <= 1) as Hf by (apply part_1; [|lra]; split; [apply Rmin_glb; lra|apply Rmin_r]).
  assert (forall x, 0 <= x -> tf_pow x 1 = x) as Hp.
  { intros x Hx. unfold tf_pow. destruct (Req_EM_T 1 0); [lra|]. destruct (Req_EM_T x 0); [lra|]. apply Rpower_1. lra. }
  rewrite Hp by lra. destruct (Rle_dec step (INR n + 1)).
  - rewrite Rmin_left by lra. ring.
  - rewrite Rmin_right by lra. field. lra.
Qed.
Print Assumptions C64_linear_partial.

(** So the final value is not reached after num_steps steps (decay_steps=(self.num_steps + 1), 381-385). *)
Theorem C64_linear_refuted n initial final : initial <> final ->
  parameter_value (Decaying (Polynomial final 1 false) n initial false false 1 Float) 0 (INR n) <> Ok final.
Proof.
  intros Hd. pose proof (pos_INR n) as Hn. rewrite C64_linear_partial by auto. destruct (Rle_dec (INR n) (INR n + 1)); [|lra]. intros E. injection E as E.
  apply Hd. assert ((final - initial) * (1 - INR n / (INR n + 1)) = 0) as E2 by lra.
  replace (1 - INR n / (INR n + 1)) with (/ (INR n + 1)) in E2 by (field; lra). apply Rmult_integral in E2. destruct E2 as [E2|E2]; [lra|].
  exfalso. assert (/ (INR n + 1) <> 0) as Hne; [|contradiction]. apply Rinv_neq_0_compat. lra.
Qed.
Print Assumptions C64_linear_refuted.

(** The other schedules start from the initial value as well, except linear_cosine. *)
Theorem C64_initial_partial p noise : create_decaying p (Spec None None) = Ok tt -> sound (d_decay p) ->
  d_increasing p = false -> d_inverse p = false -> d_scale p = 1 -> d_dtype p = Float ->
  parameter_value p noise 0 = Ok (match d_decay p with LinearCosine _ alpha beta => d_initial p * (1 + alpha + beta) | _ => d_initial p end).
Proof.
  intros Hc Hs Hin Hi Hsc Hd. destruct (C42_decaying_partial p _ noise 0 Hc Hs Hi (Rle_refl 0)) as (lo & hi & v & _ & _ & Ev & _). rewrite Ev. unfold parameter_value in Ev.
  rewrite Hin, Hi, Hsc, Hd in Ev. destruct (decayed p noise 0) as [x|] eqn:Ex; [|discriminate]. cbn [bind cast] in Ev. injection Ev as <-. f_equal. rewrite Rmult_1_r.
  unfold decayed in Ex. pose proof (pos_INR (d_num_steps p)) as Hn. set (n := INR (d_num_steps p) + 1) in *. assert (0 < n) as Hp by (unfold n; lra). clearbody n.
  assert (0 / n = 0) as Hz by (unfold Rdiv; ring). assert (Rmin 0 n = 0) as Hm by (apply Rmin_left; lra). set (i := d_initial p) in *. clearbody i.
  assert (forall y, tf_pow y 0 = 1) as Hpow by (intros y; unfold tf_pow; destruct (Req_EM_T 0 0); lra).
  assert (forall y, tf_pow 1 y = 1) as Hpow1.
  { intros y. unfold tf_pow. destruct (Req_EM_T y 0); auto. destruct (Req_EM_T 1 0); [lra|]. unfold Rpower. now rewrite ln_1, Rmult_0_r, exp_0. }
  destruct (d_decay p) as [alpha|t m alpha|rate st|rate st|per alpha beta|per alpha beta|f pw c];
    match type of Ex with bind ?c _ = _ => destruct c as [[]|]; [|discriminate] end; cbn [bind] in Ex; injection Ex as <-.
  - unfold cosine_decay. rewrite Hm, Hz, Rmult_0_r, cos_0. field.
  - unfold cosine_restarts. rewrite Hz. destruct (Req_EM_T t 1).
    + rewrite floor_0, Hpow. replace (PI * (0 - 0)) with 0 by ring. rewrite cos_0. field.
    + replace (1 - 0 * (1 - t)) with 1 by ring. rewrite ln_1. replace (0 / ln t) with 0 by (unfold Rdiv; ring). rewrite floor_0, !Hpow.
      replace (PI * ((0 - (1 - 1) / (1 - t)) / 1)) with 0 by (field; lra). rewrite cos_0. field.
  - unfold exponential_decay. rewrite Hz, floor_0. replace (if st then 0 else 0) with 0 by (now destruct st). rewrite Hpow. ring.
  - unfold inverse_time_decay. rewrite Hz, floor_0. replace (if st then 0 else 0) with 0 by (now destruct st). field.
  - unfold linear_cosine_decay. rewrite Hm, Hz. replace (PI * (2 * per * 0)) with 0 by ring. rewrite cos_0. field. lra.
  - destruct Hs.
  - unfold polynomial_decay. rewrite Hm, Hz. destruct (Req_EM_T 0 0); [|lra].
    replace (0 / (n * 1)) with 0 by (field; lra). replace (if c then 0 else 0) with 0 by (now destruct c). rewrite Rminus_0_r, Hpow1. ring.
Qed.
Print Assumptions C64_initial_partial.

(** Hence linear_cosine with its default beta does not start from the initial value. *)
Definition cosined := Decaying (LinearCosine (1 / 2) 0 (1 / 1000)) 10 1 false false 1 Float.
Theorem C64_initial_refuted : create_decaying cosined (Spec None None) = Ok tt /\ parameter_value cosined 0 0 = Ok (1 + 1 / 1000).
Proof.
  assert (create_decaying cosined (Spec None None) = Ok tt) as Hc.
  { unfold create_decaying, min_value, max_value, all_bounds, check, cosined. settle. reflexivity. }
  split; auto. rewrite (C64_initial_partial cosined 0 Hc Logic.I eq_refl eq_refl eq_refl eq_refl). cbn. f_equal. field.
Qed.
Print Assumptions C64_initial_refuted.

(** ** Examples *)
Definition exploration := Decaying (Exponential (1 / 2) true) 100 1 true false 2 Float.
Example C42_exploration : create_decaying exploration (Spec (Some 0) (Some 2)) = Ok tt /\ sound (d_decay exploration) /\ d_inverse exploration = false.
Proof.
  split; [|split; [exact Logic.I|reflexivity]]. unfold create_decaying, min_value, max_value, all_bounds, exploration. settle.
  cbn. unfold check. settle. reflexivity.
Qed.
Example C42_power_0 : is_constant (min_value (Decaying (Polynomial 3 0 false) 10 7 false false 1 Float)) (max_value (Decaying (Polynomial 3 0 false) 10 7 false false 1 Float))
  (final_value (Decaying (Polynomial 3 0 false) 10 7 false false 1 Float)) = Ok (Some 7).
Proof.
  unfold min_value, max_value, final_value, all_bounds. settle. replace (7 * 1) with 7 by ring.
  unfold is_constant. cbn. decide_r. unfold Reqb. decide_r. reflexivity.
Qed.
Example C43_example : create_piecewise [10; 20; 20]%Z ["a"; "b"; "c"; "d"] = Ok tt /\
  map (piecewise_value [10; 20; 20]%Z ["a"; "b"; "c"; "d"]) [0; 10; 11; 20; 21]%Z = [Ok "a"; Ok "a"; Ok "b"; Ok "b"; Ok "d"].
Proof. split; reflexivity. Qed.
Example C43_unsorted : create_piecewise [20; 10]%Z ["a"; "b"; "c"] = Err "assert" /\ create_piecewise [10; 20]%Z ["a"; "b"] = Err "assert".
Proof. split; reflexivity. Qed.
Definition temperature := Decaying (Polynomial (1 / 2) 1 false) 9 1 false true 1 Float.
Example C42_temperature : create_decaying temperature (Spec (Some (1 / 2)) (Some 2)) = Ok tt /\ sound (d_decay temperature) /\
  d_inverse temperature = true /\ d_scale temperature = 1 /\ d_dtype temperature = Float.
Proof.
  split; [|split; [cbn; lra|repeat split; reflexivity]]. unfold create_decaying, min_value, max_value, all_bounds, check, epsilon, temperature. settle. 
  replace (1 / (1 / 2)) with 2 by field. settle. reflexivity.
Qed.
Example C64_half : parameter_value (Decaying (Polynomial 0 1 false) 9 1 false false 1 Float) 0 5 = Ok (1 / 2).
Proof. rewrite C64_linear_partial by lra. cbn [INR]. decide_r. f_equal. field. Qed.
Example C64_start : create_decaying (Decaying (CosineRestarts 2 1 0) 10 3 false false 1 Float) (Spec None None) = Ok tt /\ sound (CosineRestarts 2 1 0).
Proof. split; [|cbn; lra]. unfold create_decaying, min_value, max_value, all_bounds, check. settle. reflexivity. Qed.
