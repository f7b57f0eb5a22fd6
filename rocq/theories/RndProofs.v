(** Lemmas about random and constant actions. *)
From Coq Require Import String List ZArith QArith Qround Bool Lia Lqa.
From Verif Require Import Base SpecSpec SpecModel SpecProofs RndSpec RndModel.
Import ListNotations.
Open Scope list_scope.
Open Scope nat_scope.

(** ** Row-major order *)
Lemma indices_app sh n : indices (sh ++ [n]) = flat_map (fun i => map (fun a => i ++ [a]) (seq 0 n)) (indices sh).
Proof.
  induction sh as [|k r IH]; cbn [app indices].
  - cbn [flat_map]. rewrite app_nil_r. rewrite flat_map_concat_map, map_ext with (g := fun a => [[a]]) by reflexivity.
    induction (seq 0 n) as [|a l IHl]; [reflexivity|]. cbn [map concat app]. f_equal. exact IHl.
  - rewrite IH. induction (seq 0 k) as [|a l IHl]; [reflexivity|]. cbn [flat_map].
    rewrite flat_map_app, IHl. f_equal.
    clear. induction (indices r) as [|i l IH]; [reflexivity|]. cbn [flat_map map]. rewrite map_app, IH, map_map. reflexivity.
Qed.

Lemma filter_flat_map {A B} (p : B -> bool) (f : A -> list B) l : filter p (flat_map f l) = flat_map (fun x => filter p (f x)) l.
Proof. induction l as [|x l IH]; [reflexivity|]. cbn [flat_map]. rewrite filter_app, IH. reflexivity. Qed.
Lemma map_flat_map {A B C} (g : B -> C) (f : A -> list B) l : map g (flat_map f l) = flat_map (fun x => map g (f x)) l.
Proof. induction l as [|x l IH]; [reflexivity|]. cbn [flat_map]. rewrite map_app, IH. reflexivity. Qed.
Lemma filter_map_comm {A B} (p : B -> bool) (f : A -> B) l : filter p (map f l) = map f (filter (fun x => p (f x)) l).
Proof. induction l as [|x l IH]; [reflexivity|]. cbn. destruct (p (f x)); cbn; rewrite IH; reflexivity. Qed.

Lemma mask_choices_rows dims n mask : mask_choices dims n mask = flat_map (allowed mask n) (indices dims).
Proof.
  unfold mask_choices, allowed. rewrite indices_app, filter_flat_map, map_flat_map. apply flat_map_ext. intro i.
  rewrite filter_map_comm, map_map. rewrite <- map_id. apply map_ext. intro a. unfold choice_at. apply last_last.
Qed.

Lemma num_valid_rows dims n mask : num_valid dims n mask = map (fun i => length (allowed mask n i)) (indices dims).
Proof. reflexivity. Qed.

Lemma indices_length sh : length (indices sh) = nd_size sh.
Proof.
  induction sh as [|n r IH]; [reflexivity|]. cbn [indices nd_size fold_right]. fold (nd_size r). rewrite <- IH.
  generalize 0. induction n as [|n IHn]; intro s; [reflexivity|]. cbn [seq flat_map]. rewrite app_length, map_length, IHn. reflexivity.
Qed.

Lemma ravel_nth sh : forall i, in_range i sh -> nth_error (indices sh) (ravel sh i) = Some i.
Proof.
  induction sh as [|n r IH]; intros i H; inversion H as [|k x i' l Hk Hr]; subst; [reflexivity|].
  cbn [indices ravel].
  assert (G : forall s, nth_error (flat_map (fun k => map (cons k) (indices r)) (seq s n)) (k * nd_size r + ravel r i') = Some ((s + k) :: i')).
  { clear H. revert k Hk. induction n as [|n IHn]; intros k Hk s; [lia|]. cbn [seq flat_map].
    destruct k as [|k].
    - cbn [Nat.mul Nat.add]. rewrite nth_error_app1.
      + rewrite Nat.add_0_r. apply map_nth_error, IH, Hr.
      + rewrite map_length. apply nth_error_Some. rewrite IH by exact Hr. discriminate.
    - rewrite nth_error_app2; rewrite map_length, indices_length; [|lia].
      replace (S k * nd_size r + ravel r i' - nd_size r) with (k * nd_size r + ravel r i') by lia.
      rewrite IHn by lia. f_equal. f_equal. lia. }
  apply (G 0).
Qed.

(** ** Gathering within rows *)
Lemma gather_rows {A} (g : A -> list nat) (o : A -> nat -> nat) : forall L P,
  (forall i, In i L -> o i (length (g i)) < length (g i)) ->
  gather (P ++ flat_map g L)
    (map (fun p => fst p + snd p) (combine (cumsum_from (length P) (map (fun i => length (g i)) L))
                                           (map (fun i => o i (length (g i))) L))) =
  Ok (map (fun i => nth (o i (length (g i))) (g i) 0) L).
Proof.
  unfold gather. induction L as [|i L IH]; intros P H; [reflexivity|].
  cbn [map cumsum_from combine map_res fst snd flat_map].
  assert (Hi := H i (or_introl eq_refl)).
  rewrite nth_error_app2 by lia. replace (length P + o i (length (g i)) - length P) with (o i (length (g i))) by lia.
  rewrite nth_error_app1 by exact Hi. rewrite (nth_error_nth' (g i) 0 Hi). cbn [bind].
  specialize (IH (P ++ g i)). rewrite app_length, <- app_assoc in IH.
  rewrite IH; [reflexivity|]. intros j Hj. apply H. right. exact Hj.
Qed.

Lemma map_combine_map {A B C} (f : A -> B -> C) (h : A -> B) l :
  map (fun p => f (fst p) (snd p)) (combine l (map h l)) = map (fun i => f i (h i)) l.
Proof. induction l as [|x l IH]; [reflexivity|]. cbn. rewrite IH. reflexivity. Qed.

Lemma nats_eqb_iff a b : (Nat.eqb (length a) (length b) && forallb (fun p => Nat.eqb (fst p) (snd p)) (combine a b)) = true <-> a = b.
Proof.
  rewrite andb_true_iff, Nat.eqb_eq. revert b. induction a as [|x a IH]; intros [|y b]; cbn [length combine forallb fst snd].
  - tauto.
  - split; [intros [H _]; discriminate|discriminate].
  - split; [intros [H _]; discriminate|discriminate].
  - rewrite andb_true_iff, Nat.eqb_eq. split.
    + intros (Hl & -> & Hr). f_equal. apply IH. split; [lia|exact Hr].
    + intro E. injection E as -> E. apply IH in E. destruct E as [E1 E2]. repeat split; [lia|exact E2].
Qed.

Lemma masked_actions_spec dims n mask o :
  nd_shape mask = dims ++ [n] ->
  (forall i, in_range i dims -> o i (length (allowed mask n i)) < length (allowed mask n i)) ->
  exists f, masked_actions dims n mask o = Ok (AInt (Nd dims f)) /\
    forall i, in_range i dims -> exists a, nth_error (allowed mask n i) (o i (length (allowed mask n i))) = Some a /\ f i = Z.of_nat a.
Proof.
  intros Hs H. unfold masked_actions, mask_shape_ok.
  rewrite (proj2 (nats_eqb_iff _ _) Hs). cbn [assert_ bind].
  rewrite mask_choices_rows, num_valid_rows, map_combine_map.
  assert (G := gather_rows (allowed mask n) o (indices dims) []). cbn [length app] in G.
  rewrite G; [|intros i Hi; apply H, in_indices, Hi]. cbn [bind]. eexists. split; [reflexivity|].
  intros i Hi. exists (nth (o i (length (allowed mask n i))) (allowed mask n i) 0). split.
  - apply nth_error_nth', H, Hi.
  - cbn. f_equal. erewrite nth_error_nth; [reflexivity|]. rewrite nth_error_map, ravel_nth by exact Hi. reflexivity.
Qed.

Lemma allowed_in mask n i a : In a (allowed mask n i) <-> a < n /\ nd_at mask (i ++ [a]) = true.
Proof. unfold allowed. rewrite filter_In, in_seq. split; intros [H1 H2]; split; auto; lia. Qed.

(** ** Uniform draws *)
Lemma random_offset_iff u n j : (0 <= u)%Q ->
  random_offset u n = j <-> (inject_Z (Z.of_nat j) <= u * inject_Z (Z.of_nat n) < inject_Z (Z.of_nat (S j)))%Q.
Proof.
  intro Hu. unfold random_offset. set (x := (u * inject_Z (Z.of_nat n))%Q).
  assert (Hx : (0 <= x)%Q). { unfold x. apply Qmult_le_0_compat; [exact Hu|]. change 0%Q with (inject_Z 0). rewrite <- Zle_Qle. lia. }
  assert (F0 : (0 <= Qfloor x)%Z). { change 0%Z with (Qfloor (inject_Z 0)). apply Qfloor_resp_le, Hx. }
  assert (F1 := Qfloor_le x). assert (F2 := Qlt_floor x).
  split.
  - intros <-. rewrite Nat2Z.inj_succ, Z2Nat.id by exact F0. split; [exact F1|]. exact F2.
  - intros [H1 H2].
    assert (A : (Z.of_nat j < Qfloor x + 1)%Z). { rewrite Zlt_Qlt. eapply Qle_lt_trans; [exact H1|exact F2]. }
    assert (B : (Qfloor x < Z.of_nat (S j))%Z). { rewrite Zlt_Qlt. eapply Qle_lt_trans; [exact F1|exact H2]. }
    lia.
Qed.
Lemma random_offset_lt u n : (0 <= u < 1)%Q -> 0 < n -> random_offset u n < n.
Proof.
  intros [H0 H1] Hn. destruct (proj1 (random_offset_iff u n (random_offset u n) H0) eq_refl) as [H _].
  assert (P : (0 < inject_Z (Z.of_nat n))%Q). { change 0%Q with (inject_Z 0). rewrite <- Zlt_Qlt. lia. }
  assert (L : (inject_Z (Z.of_nat (random_offset u n)) < inject_Z (Z.of_nat n))%Q).
  { eapply Qle_lt_trans; [exact H|]. rewrite <- (Qmult_1_l (inject_Z (Z.of_nat n))) at 2. apply Qmult_lt_compat_r; assumption. }
  rewrite <- Zlt_Qlt in L. lia.
Qed.

(** ** Shapes *)
Lemma dims_of_fixed s t sh : action_spec s t sh -> dims_of s = sh.
Proof.
  intros (_ & H & _). unfold dims_of, fixed_shape. rewrite H, map_map. rewrite <- (map_id sh) at 2. apply map_ext. intro n. apply Nat2Z.id.
Qed.
Lemma action_fixed s t sh : action_spec s t sh -> fixed s t sh.
Proof.
  intros (H1 & H2 & H3 & H4 & _). unfold fixed. split; [exact H1|]. split; [exact H2|]. split; [exact H3|].
  intro E. destruct (H4 _ E). lia.
Qed.
Lemma ordered_plain s sh : ordered s sh -> plain_bounds s sh.
Proof. intros [H _] b Hb. exact (H b Hb). Qed.

Lemma describes_batch s t sh b a : action_spec s t sh -> arr_type a = t -> arr_shape a = b :: sh ->
  (forall i x, in_range i (b :: sh) -> arr_entry a i = Some x -> entry_fits s (skipn 1 i) x) -> describes s true a.
Proof.
  intros (H1 & H2 & H3 & _) Ht Hs H. split; [rewrite H1; exact Ht|]. exists [b], sh. split; [exact Hs|]. split; [reflexivity|].
  split; [rewrite H2; apply shape_fits_fixed; auto|]. rewrite Hs. exact H.
Qed.

(** ** Bounded floats *)
(** any two bounds of the shapes allowed are combined entry by entry *)
Lemma bcast_bounds (f : num -> num -> num) p q sh : bound_shape sh p -> bound_shape sh q ->
  exists w, bcast f (bound_nd p) (bound_nd q) = Ok w /\ (nd_shape w = [] \/ nd_shape w = sh) /\
    (nd_shape w = [] -> nd_at w [] = f (bound_at p []) (bound_at q []) /\ (forall i, in_range i sh -> bound_at p i = bound_at p [] /\ bound_at q i = bound_at q [])) /\
    (forall i, in_range i sh -> nd_shape w = sh -> nd_at w i = f (bound_at p i) (bound_at q i)).
Proof.
  intros Hp Hq. destruct p as [x|a], q as [y|e]; cbn [bound_shape] in *.
  - destruct (bcast_scalar f (bound_nd (Scalar x)) y) as (c & H1 & H2 & H3). exists c. split; [exact H1|]. cbn in H2. split; [auto|].
    split.
    + intros _. split; [apply H3; constructor|]. intros i _. split; reflexivity.
    + intros i Hi E. rewrite E in H2. subst sh. inversion Hi; subst. rewrite H3 by constructor. reflexivity.
  - subst sh. unfold bcast. cbn [bound_nd nd_shape rev bcast_rev]. eexists. split; [reflexivity|]. cbn [nd_shape nd_at]. rewrite rev_involutive.
    split; [auto|]. split.
    + intro E. cbn. rewrite E. cbn. split; [reflexivity|]. intros i Hi. inversion Hi. split; reflexivity.
    + intros i Hi _. rewrite align_full by exact Hi. cbn. rewrite firstn_all2 by (rewrite (in_range_length _ _ Hi); lia). reflexivity.
  - subst sh. destruct (bcast_scalar f a y) as (c & H1 & H2 & H3). exists c. split; [exact H1|]. split; [auto|]. split.
    + intro E. rewrite H2 in E. assert (R : in_range [] (nd_shape a)) by (rewrite E; constructor). rewrite H3 by exact R. cbn. rewrite E. cbn.
      split; [reflexivity|]. intros i Hi. inversion Hi. split; reflexivity.
    + intros i Hi _. rewrite H3 by exact Hi. cbn. rewrite firstn_all2 by (rewrite (in_range_length _ _ Hi); lia). reflexivity.
  - destruct (bcast_suffix f a e []) as (c & H1 & H2 & H3). { cbn. congruence. }
    exists c. split; [exact H1|]. subst sh. rewrite H2. split; [auto|]. split.
    + intro E. assert (R : in_range [] (nd_shape a)) by (rewrite E; constructor). rewrite H3 by exact R. cbn. rewrite Hq, E. cbn.
      split; [reflexivity|]. intros i Hi. inversion Hi. split; reflexivity.
    + intros i Hi _. rewrite H3 by exact Hi. cbn. rewrite Hq. rewrite firstn_all2 by (rewrite (in_range_length _ _ Hi); lia). reflexivity.
Qed.

Lemma bcast_outer {A C} (f : A -> num -> C) (x : nd A) (w : nd num) b sh : nd_shape x = b :: sh -> nd_shape w = [] \/ nd_shape w = sh ->
  exists c, bcast f x w = Ok c /\ nd_shape c = b :: sh /\
    forall i, in_range i (b :: sh) -> nd_at c i = f (nd_at x i) (nd_at w (match nd_shape w with [] => [] | _ => skipn 1 i end)).
Proof.
  intros Hx [Hw|Hw].
  - destruct (bcast_suffix f x w (b :: sh)) as (c & H1 & H2 & H3). { rewrite Hw, app_nil_r. exact Hx. }
    exists c. split; [exact H1|]. rewrite Hx in *. split; [exact H2|]. intros i Hi. rewrite H3 by exact Hi. rewrite Hw.
    rewrite skipn_all2; [reflexivity|]. rewrite (in_range_length _ _ Hi). lia.
  - destruct (bcast_suffix f x w [b]) as (c & H1 & H2 & H3). { rewrite Hw. exact Hx. }
    exists c. split; [exact H1|]. rewrite Hx in *. split; [exact H2|]. intros i Hi. rewrite H3 by exact Hi. rewrite Hw.
    destruct sh as [|d sh]; [|reflexivity]. cbn [length]. inversion Hi as [|? ? ? ? ? Hr]; subst. inversion Hr; subst. reflexivity.
Qed.

Lemma in_range_skip i b sh : in_range i (b :: sh) -> in_range (skipn 1 i) sh.
Proof. intro H. inversion H; subst. cbn. assumption. Qed.

Lemma uniform_float_spec b sh u lo hi : bound_shape sh lo -> bound_shape sh hi ->
  exists r, uniform_float (b :: sh) u lo hi = Ok (AFloat r) /\ nd_shape r = b :: sh /\
    forall i, in_range i (b :: sh) -> nd_at r i =
      num2 Qplus (num2 Qmult (Fin (u i)) (num2 Qminus (bound_at hi (skipn 1 i)) (bound_at lo (skipn 1 i)))) (bound_at lo (skipn 1 i)).
Proof.
  intros Hl Hh. unfold uniform_float.
  destruct (bcast_bounds (num2 Qminus) hi lo sh Hh Hl) as (w & E & Hw & W0 & W1). rewrite E. cbn [bind].
  destruct (bcast_outer (fun (r : Q) w => num2 Qmult (Fin r) w) (Nd (b :: sh) u) w b sh eq_refl Hw) as (c & Ec & Hc & C). rewrite Ec. cbn [bind].
  assert (Hb : nd_shape (bound_nd lo) = [] \/ nd_shape (bound_nd lo) = sh). { destruct lo as [x|a]; cbn in *; auto. }
  destruct (bcast_outer (num2 Qplus) c (bound_nd lo) b sh Hc Hb) as (r & Er & Hr & R). rewrite Er. cbn [bind].
  exists r. split; [reflexivity|]. split; [exact Hr|]. intros i Hi. rewrite R, C by exact Hi.
  assert (Hi' := in_range_skip _ _ _ Hi).
  assert (EL : nd_at (bound_nd lo) (match nd_shape (bound_nd lo) with [] => [] | _ => skipn 1 i end) = bound_at lo (skipn 1 i)).
  { destruct lo as [x|a]; [reflexivity|]. cbn in *. subst sh. destruct (nd_shape a) eqn:Ea; [reflexivity|].
    rewrite firstn_all2 by (rewrite (in_range_length _ _ Hi'); lia). reflexivity. }
  rewrite EL. f_equal. f_equal. destruct (nd_shape w) as [|d l] eqn:Ew.
  - destruct (W0 eq_refl) as [W2 W3]. rewrite W2. destruct (W3 _ Hi') as [-> ->]. reflexivity.
  - apply W1; [exact Hi'|]. destruct Hw as [Hw|Hw]; [discriminate|exact Hw].
Qed.

Lemma between_draw u p q : (0 <= u < 1)%Q -> (p < q)%Q -> (p <= u * (q - p) + p)%Q /\ (u * (q - p) + p < q)%Q.
Proof.
  intros [U0 U1] H. assert (D : (0 < q - p)%Q) by lra.
  assert (A : (0 <= u * (q - p))%Q) by (apply Qmult_le_0_compat; lra).
  assert (B : (u * (q - p) < 1 * (q - p))%Q) by (apply Qmult_lt_compat_r; assumption). lra.
Qed.

(** ** The whole call *)
Lemma bind_inv {A B} (x : res A) (f : A -> res B) b : bind x f = Ok b -> exists a, x = Ok a /\ f a = Ok b.
Proof. destruct x; [|discriminate]. intro H. eauto. Qed.

Lemma core_act_iff f actions : forall l, core_act f actions = Ok l <->
  Forall2 (fun p q => fst q = fst p /\ f (fst p) (snd p) = Ok (snd q)) actions l.
Proof.
  induction actions as [|[n s] r IH]; intro l; cbn [core_act].
  - split; [intro H; injection H as <-; constructor|]. intro H. inversion H. reflexivity.
  - split.
    + intro H. apply bind_inv in H. destruct H as (a & Ha & H). apply bind_inv in H. destruct H as (l' & Hl & H). injection H as <-.
      constructor; [cbn; auto|]. apply IH. exact Hl.
    + intro H. inversion H as [|p q r' l' [H1 H2] H3]; subst. destruct q as [n' a]. cbn in *. subst n'. rewrite H2. cbn [bind].
      apply IH in H3. rewrite H3. reflexivity.
Qed.

Lemma for_actions_iff {A} (g : aname -> spec -> arr -> res A) actions : forall l, length l = length actions -> forall r,
  for_actions g actions l = Ok r <-> Forall2 (fun p x => g (fst (fst p)) (snd (fst p)) (snd (snd p)) = Ok x) (combine actions l) r.
Proof.
  induction actions as [|[n s] acts IH]; intros [|[n' a] l] Hl r; cbn in Hl; try discriminate; cbn [for_actions combine].
  - split; [intro H; injection H as <-; constructor|]. intro H. inversion H. reflexivity.
  - injection Hl as Hl. split.
    + intro H. apply bind_inv in H. destruct H as (x & Hx & H). apply bind_inv in H. destruct H as (y & Hy & H). injection H as <-.
      constructor; [exact Hx|]. apply IH; assumption.
    + intro H. inversion H as [|? x ? y H1 H2]; subst. cbn in H1. rewrite H1. cbn [bind]. apply IH in H2; [|exact Hl]. rewrite H2. reflexivity.
Qed.

(** specifications of actions with bounds which apply to all or to every entry *)
Definition usable (junk : num -> res Z) (s : spec) : Prop :=
  constructible junk s /\ exists t sh, action_spec s t sh /\ forall b, sp_min s = Some b \/ sp_max s = Some b -> bound_shape sh b.

Lemma tf_assert_described junk s t sh b a : constructible junk s -> action_spec s t sh ->
  (forall b, sp_min s = Some b \/ sp_max s = Some b -> bound_shape sh b) -> describes s true a ->
  tf_assert s b a = Ok tt <-> arr_shape a = b :: sh.
Proof.
  intros Hc Ha Hp (D1 & lead & sh' & Hs & Hl & Hf & He). pose proof Ha as (H1 & H2 & H3 & H4 & H5). rewrite H1 in D1. cbn in D1.
  unfold tf_assert. rewrite H1, D1. assert (E : dtype_eqb t t = true) by (destruct t; reflexivity). rewrite E. cbn [assert_ bind].
  unfold batch_dims. rewrite (dims_of_fixed _ _ _ Ha).
  rewrite H2 in Hf. apply shape_fits_fixed in Hf; [|exact H3]. subst sh'.
  destruct (Nat.eqb (length (arr_shape a)) (length (b :: sh)) && forallb (fun p => Nat.eqb (fst p) (snd p)) (combine (arr_shape a) (b :: sh))) eqn:ES.
  - apply nats_eqb_iff in ES. split; [auto|intros _]. cbn [assert_ bind].
    assert (EF : (match t with TFloat => assert_ (negb (nd_any (nd_map (fun e => negb (num_finite e)) (nums a)))) "inf/nan value" | _ => Ok tt end) = Ok tt).
    { destruct t; try reflexivity. unfold assert_. rewrite (proj2 (any_map_false _ _)); [reflexivity|].
      intros i Hi. rewrite nums_shape in Hi. destruct (He i (nd_at (nums a) i) Hi) as [Hfin _]; [apply nums_entry; congruence|].
      apply finite_iff in Hfin. rewrite Hfin. reflexivity. }
    rewrite EF. cbn [bind]. destruct t; [reflexivity| |].
    all: assert (En : forall i, arr_entry a i = Some (nd_at (nums a) i)) by (intro i; apply nums_entry; congruence).
    all: destruct (sp_min s) as [lo|] eqn:El; [rewrite (proj2 (bound_check num_ltb (nums a) lo lead sh _ (eq_trans (nums_shape a) Hs) (Hp lo (or_introl eq_refl))))|];
      [cbn [bind]| intros i Hi; rewrite nums_shape in Hi; destruct (He i _ Hi (En i)) as (_ & Hm & _); apply num_ltb_nlt, Hm; exact El | cbn [bind]].
    all: destruct (sp_max s) as [hi|] eqn:Eh; [apply (proj2 (bound_check (fun e m => num_ltb m e) (nums a) hi lead sh _ (eq_trans (nums_shape a) Hs) (Hp hi (or_intror eq_refl))))|reflexivity];
      intros i Hi; rewrite nums_shape in Hi; destruct (He i _ Hi (En i)) as (_ & _ & Hm & _); apply num_ltb_nlt, Hm; exact Eh.
  - split; [discriminate|]. intro Ex. apply nats_eqb_iff in Ex. congruence.
Qed.

Lemma mask_assertions_iff actions b m : mask_assertions actions b m = Ok tt <->
  Forall (fun p => sp_type (snd p) = TyOne TInt -> exists mask, lookup (fst p) m = Some mask /\ any_valid (snd p) b mask = true) actions.
Proof.
  induction actions as [|[n s] r IH]; cbn [mask_assertions].
  - split; [constructor|reflexivity].
  - split.
    + intro H. apply bind_inv in H. destruct H as ([] & H1 & H2). constructor; [|apply IH; exact H2]. cbn. intro Et. rewrite Et in H1.
      unfold mask_of in H1. destruct (lookup n m) as [mask|]; [|discriminate]. cbn [bind] in H1. exists mask. split; [reflexivity|].
      unfold assert_ in H1. destruct (any_valid s b mask); [reflexivity|discriminate].
    + intro H. inversion H as [|p l H1 H2]; subst. apply IH in H2. cbn in H1.
      assert (E : match sp_type s with TyOne TInt => do mask <- mask_of m n; assert_ (any_valid s b mask) "at least one action has to be valid." | _ => Ok tt end = Ok tt).
      { destruct (sp_type s) as [|[]|]; try reflexivity. destruct (H1 eq_refl) as (mask & Em & Ev). unfold mask_of. rewrite Em. cbn [bind]. rewrite Ev. reflexivity. }
      rewrite E. cbn [bind]. exact H2.
Qed.

Lemma any_valid_iff s b mask n : nd_shape mask = batch_dims b s ++ [n] ->
  any_valid s b mask = true <-> some_allowed mask n (batch_dims b s).
Proof.
  intro Hs. unfold any_valid. rewrite Hs, rev_unit. rewrite forallb_forall. unfold some_allowed. split.
  - intros H i Hi E. specialize (H i (proj2 (in_indices _ _) Hi)). apply existsb_exists in H. destruct H as (a & Ha & Hm).
    assert (In a (allowed mask n i)) as X by (apply filter_In; auto). rewrite E in X. contradiction.
  - intros H i Hi. apply in_indices in Hi. specialize (H i Hi). destruct (allowed mask n i) as [|a l] eqn:E; [contradiction|].
    apply existsb_exists. exists a. apply (filter_In (fun a => nd_at mask (i ++ [a]))). fold (allowed mask n i). rewrite E. left. reflexivity.
Qed.

(** pairs of actions and results, for lists related by name *)
Definition named (r : list arr) (actions : list (aname * spec)) : list (aname * arr) := combine (map fst actions) r.

Lemma core_act_named f actions l : core_act f actions = Ok l <->
  exists r, l = named r actions /\ Forall2 (fun p a => f (fst p) (snd p) = Ok a) actions r.
Proof.
  rewrite core_act_iff. split.
  - intro H. exists (map snd l). induction H as [|p q r l' [H1 H2] H3 [E IH]]; [split; [reflexivity|constructor]|].
    cbn. split; [unfold named in *; cbn; rewrite <- E; destruct q; cbn in *; congruence|]. constructor; assumption.
  - intros (r & -> & H). unfold named. induction H; cbn; constructor; auto.
Qed.

Lemma for_actions_named {A} (g : aname -> spec -> arr -> res A) actions r : length r = length actions -> forall y,
  for_actions g actions (named r actions) = Ok y <->
  length y = length actions /\ Forall2 (fun p ax => g (fst p) (snd p) (fst ax) = Ok (snd ax)) actions (combine r y).
Proof.
  revert r. induction actions as [|[n s] acts IH]; intros [|a r] Hl y; cbn in Hl; try discriminate; cbn [named map combine for_actions fst].
  - split; [intro H; injection H as <-; split; [reflexivity|constructor]|]. intros [H _]. destruct y; [reflexivity|discriminate].
  - injection Hl as Hl. fold (named r acts). split.
    + intro H. apply bind_inv in H. destruct H as (x & Hx & H). apply bind_inv in H. destruct H as (y' & Hy & H). injection H as <-.
      apply IH in Hy; [|exact Hl]. destruct Hy as [Hy1 Hy2]. split; [cbn; congruence|]. cbn. constructor; [exact Hx|exact Hy2].
    + intros [Hy H]. destruct y as [|x y]; [discriminate|]. cbn in H. inversion H as [|? ? ? ? H1 H2]; subst. cbn in H1. rewrite H1. cbn [bind].
      rewrite (proj2 (IH r Hl y)); [reflexivity|]. split; [cbn in Hy; congruence|exact H2].
Qed.

Lemma for_actions_ok {A} (g : aname -> spec -> arr -> res A) actions r : length r = length actions ->
  (exists y, for_actions g actions (named r actions) = Ok y) <-> Forall2 (fun p a => exists x, g (fst p) (snd p) a = Ok x) actions r.
Proof.
  revert r. induction actions as [|[n s] acts IH]; intros [|a r] Hl; cbn in Hl; try discriminate.
  - cbn. split; [constructor|eauto].
  - injection Hl as Hl. cbn [named map combine for_actions fst]. fold (named r acts). split.
    + intros (y & H). apply bind_inv in H. destruct H as (x & Hx & H). apply bind_inv in H. destruct H as (y' & Hy & H).
      constructor; [exists x; exact Hx|]. apply IH; eauto.
    + intro H. inversion H as [|? ? ? ? (x & Hx) H2]; subst. cbn in Hx. rewrite Hx. apply IH in H2; [|exact Hl]. destruct H2 as (y & Hy). rewrite Hy. cbn. eauto.
Qed.

Lemma Forall2_length' {A B} (P : A -> B -> Prop) l r : Forall2 P l r -> length r = length l.
Proof. induction 1; cbn; congruence. Qed.

(** what is returned, entry by entry *)
Lemma agent_act_iff junk c independent f actions b m r : Forall (fun p => usable junk (snd p)) actions ->
  (forall p a, In p actions -> f (fst p) (snd p) = Ok a -> arr_shape a <> []) ->
  (agent_act c independent f actions b m = Ok r <->
   (cf_assertions c && cf_masking c = true -> mask_assertions actions b m = Ok tt) /\
   Forall2 (fun p a => f (fst p) (snd p) = Ok a /\ describes (snd p) true a /\
      (negb independent && cf_assertions c = true -> arr_shape a = batch_dims b (snd p) /\ mask_check c m (fst p) (snd p) a = Ok tt)) actions r).
Proof.
  intros Hu Hf. unfold agent_act.
  assert (FT : forall p a x, In p actions -> f (fst p) (snd p) = Ok a -> from_tensor (snd p) true a = Ok x <-> x = a /\ describes (snd p) true a).
  { intros p a x Hin Ha. rewrite Forall_forall in Hu. destruct (Hu p Hin) as (Hc & t & sh & Hact & Hp).
    apply from_tensor_iff with (t := t) (sh := sh); [eapply constructible_valid; exact Hc|intros _; eapply Hf; [exact Hin|exact Ha]|apply action_fixed, Hact|intros bd Hbd; apply Hp, Hbd]. }
  assert (TA : forall p a, In p actions -> describes (snd p) true a -> (exists x, tf_assert (snd p) b a = Ok x) <-> arr_shape a = batch_dims b (snd p)).
  { intros p a Hin Hd. rewrite Forall_forall in Hu. destruct (Hu p Hin) as (Hc & t & sh & Hact & Hp). unfold batch_dims. rewrite (dims_of_fixed _ _ _ Hact).
    rewrite <- (tf_assert_described junk (snd p) t sh b a Hc Hact Hp Hd). split; [intros ([] & E); exact E|eauto]. }
  assert (MC : forall p a, (exists x, mask_check c m (fst p) (snd p) a = Ok x) <-> mask_check c m (fst p) (snd p) a = Ok tt).
  { intros p a. split; [intros ([] & E); exact E|eauto]. }
  clear Hu Hf. split.
  - intro H. apply bind_inv in H. destruct H as ([] & HM & H). apply bind_inv in H. destruct H as (l & HC & H).
    apply bind_inv in H. destruct H as ([] & HA & H). split.
    { intro E. rewrite E in HM. exact HM. }
    apply core_act_named in HC. destruct HC as (r0 & -> & HC). assert (Hl := Forall2_length' _ _ _ HC).
    apply (for_actions_named (fun _ s a => from_tensor s true a)) in H; [|exact Hl]. destruct H as [Hy H].
    assert (E : r = r0 /\ Forall2 (fun p a => describes (snd p) true a) actions r0).
    { clear HM HA TA MC. revert r Hy H. induction HC as [|p a acts r0' Ha HC' IH]; intros [|x r] Hy H; cbn in *; try discriminate; [split; constructor|].
      inversion H as [|? ? ? ? H1 H2]; subst. cbn in H1. apply FT in H1; [|auto|exact Ha]. destruct H1 as [-> Hd].
      destruct (IH (fun p a x Hin => FT p a x (or_intror Hin)) ltac:(congruence) r ltac:(congruence) H2) as [-> HD]. split; [reflexivity|]. constructor; assumption. }
    destruct E as [-> HD]. clear H Hy.
    assert (HCH : negb independent && cf_assertions c = true -> Forall2 (fun p a => arr_shape a = batch_dims b (snd p)) actions r0 /\
      Forall2 (fun p a => mask_check c m (fst p) (snd p) a = Ok tt) actions r0).
    { intro E. rewrite E in HA. apply bind_inv in HA. destruct HA as (y1 & HA1 & HA). apply bind_inv in HA. destruct HA as (y2 & HA2 & _).
      assert (T1 := proj1 (for_actions_ok (fun _ s a => tf_assert s b a) actions r0 Hl) (ex_intro _ y1 HA1)).
      assert (T2 := proj1 (for_actions_ok (mask_check c m) actions r0 Hl) (ex_intro _ y2 HA2)). split.
      - clear - T1 HD TA. induction T1 as [|p a acts r0 H1 T1 IH]; [constructor|]. inversion HD; subst. constructor.
        + apply TA; [left; reflexivity|assumption|exact H1].
        + apply IH; [intros p' a' Hin; apply TA; right; exact Hin|assumption].
      - clear - T2 MC. induction T2 as [|p a acts r0 H1 T2 IH]; constructor; auto. apply MC. exact H1. }
    clear - HC HD HCH. revert HD HCH. induction HC as [|p a acts r0 Ha HC IH]; intros HD HCH; constructor.
    + inversion HD; subst. split; [exact Ha|]. split; [assumption|]. intro E. destruct (HCH E) as [X Y]. inversion X; inversion Y; subst. auto.
    + inversion HD; subst. apply IH; [assumption|]. intro E. destruct (HCH E) as [X Y]. inversion X; inversion Y; subst. auto.
  - intros [HM H]. assert (Hl := Forall2_length' _ _ _ H).
    assert (E1 : (if cf_assertions c && cf_masking c then mask_assertions actions b m else Ok tt) = Ok tt).
    { destruct (cf_assertions c && cf_masking c); auto. }
    rewrite E1. cbn [bind].
    assert (E2 : core_act f actions = Ok (named r actions)).
    { apply core_act_named. exists r. split; [reflexivity|]. clear - H. induction H as [|? ? ? ? (Ha & _) ? IH]; constructor; auto. }
    rewrite E2. cbn [bind].
    assert (E3 : (if negb independent && cf_assertions c then do _ <- for_actions (fun _ s a => tf_assert s b a) actions (named r actions);
                do _ <- for_actions (mask_check c m) actions (named r actions); Ok tt else Ok tt) = Ok tt).
    { destruct (negb independent && cf_assertions c) eqn:E; [|reflexivity].
      destruct (proj2 (for_actions_ok (fun _ s a => tf_assert s b a) actions r Hl)) as (y1 & Y1).
      { clear - H TA. revert TA. induction H as [|p a acts r (H1 & H2 & H3) H IH]; intro TA; constructor.
        - apply TA; [left; reflexivity|exact H2|]. destruct (H3 eq_refl). assumption.
        - apply IH. intros p' a' Hin. apply TA. right. exact Hin. }
      destruct (proj2 (for_actions_ok (mask_check c m) actions r Hl)) as (y2 & Y2).
      { clear - H. induction H as [|p a acts r (H1 & H2 & H3) H IH]; constructor; auto. destruct (H3 eq_refl). eauto. }
      rewrite Y1. cbn [bind]. rewrite Y2. reflexivity. }
    rewrite E3. cbn [bind]. apply (for_actions_named (fun _ s a => from_tensor s true a)); [exact Hl|]. split; [exact Hl|].
    clear - H FT. revert FT. induction H as [|p a acts r (H1 & H2 & H3) H IH]; intro FT; cbn; constructor.
    + cbn. apply FT; [left; reflexivity|exact H1|auto].
    + apply IH. intros p' a' x Hin. apply FT. right. exact Hin.
Qed.

Lemma mask_check_ok c m n s sh b x mask k : action_spec s TInt sh -> lookup n m = Some mask -> sp_num s = Some k -> nd_shape x = b :: sh ->
  (forall i, in_range i (b :: sh) -> exists a, In a (allowed mask (Z.to_nat k) i) /\ nd_at x i = Z.of_nat a) ->
  mask_check c m n s (AInt x) = Ok tt.
Proof.
  intros (H1 & _) Hl Hk Hs H. unfold mask_check. destruct (cf_masking c); [|reflexivity]. rewrite H1. unfold mask_of. rewrite Hl. cbn [bind].
  unfold assert_. rewrite (proj2 (forallb_forall _ _)); [reflexivity|]. intros i Hi. apply in_indices in Hi. rewrite Hs in Hi.
  destruct (H i Hi) as (a & Ha & ->). apply allowed_in in Ha. destruct Ha as [_ Ha]. rewrite Nat2Z.id, Ha, andb_true_r. apply Z.leb_le. lia.
Qed.

(** the mask of the action for a batch is given, with an allowed option for every entry *)
Definition mask_given (b : nat) (m : masks) (name : aname) (s : spec) (sh : list nat) : Prop :=
  forall n, sp_num s = Some n -> exists mask, lookup name m = Some mask /\
    nd_shape mask = (b :: sh) ++ [Z.to_nat n] /\ some_allowed mask (Z.to_nat n) (b :: sh).

Lemma agent_act_ok junk c independent f actions b m (P : aname * spec -> arr -> Prop) :
  Forall (fun p => exists t sh a, constructible junk (snd p) /\ action_spec (snd p) t sh /\
    (forall bd, sp_min (snd p) = Some bd \/ sp_max (snd p) = Some bd -> bound_shape sh bd) /\
    (t = TInt -> cf_masking c = true -> cf_assertions c = true -> sp_num (snd p) <> None /\ mask_given b m (fst p) (snd p) sh) /\
    f (fst p) (snd p) = Ok a /\ arr_shape a = b :: sh /\ describes (snd p) true a /\ P p a /\
    (t = TInt -> cf_masking c = true -> cf_assertions c = true -> independent = false ->
      exists mask n, lookup (fst p) m = Some mask /\ sp_num (snd p) = Some n /\
      forall i, in_range i (b :: sh) -> exists k, In k (allowed mask (Z.to_nat n) i) /\ entry a i (option_no k))) actions ->
  exists r, agent_act c independent f actions b m = Ok r /\
    Forall2 (fun p a => describes (snd p) true a /\ arr_shape a = b :: dims_of (snd p) /\ P p a) actions r.
Proof.
  intro H.
  assert (HM : cf_assertions c && cf_masking c = true -> mask_assertions actions b m = Ok tt).
  { intro E. apply andb_true_iff in E. destruct E as [E1 E2]. apply mask_assertions_iff. eapply Forall_impl; [|exact H].
    intros p (t & sh & a & Hc & Ha & Hb & Hm & _) Ht. destruct (Ha) as (T & _). assert (t = TInt) by congruence. subst t.
    destruct (Hm eq_refl E2 E1) as [N G]. destruct (sp_num (snd p)) as [n|] eqn:En; [|congruence]. destruct (G n En) as (mask & M1 & M2 & M3).
    exists mask. split; [exact M1|]. apply (any_valid_iff _ _ _ (Z.to_nat n)); unfold batch_dims; rewrite (dims_of_fixed _ _ _ Ha); assumption. }
  assert (HR : exists r, Forall2 (fun p a => f (fst p) (snd p) = Ok a /\ describes (snd p) true a /\ arr_shape a = b :: dims_of (snd p) /\ P p a /\
      (negb independent && cf_assertions c = true -> arr_shape a = batch_dims b (snd p) /\ mask_check c m (fst p) (snd p) a = Ok tt)) actions r).
  { clear HM. induction H as [|p acts (t & sh & a & Hc & Ha & Hb & Hm & Hf & Hs & Hd & HP & Hmc) H (r & IH)]; [exists []; constructor|].
    exists (a :: r). constructor; [|exact IH]. split; [exact Hf|]. split; [exact Hd|]. unfold batch_dims. rewrite (dims_of_fixed _ _ _ Ha).
    split; [exact Hs|]. split; [exact HP|]. intro E. apply andb_true_iff in E. destruct E as [E1 E2]. split; [exact Hs|].
    destruct (cf_masking c) eqn:EM; [|unfold mask_check; rewrite EM; reflexivity].
    pose proof Ha as (T & _). destruct t; [unfold mask_check; rewrite EM, T; reflexivity| |unfold mask_check; rewrite EM, T; reflexivity].
    destruct a as [x|x|x]; [unfold mask_check; rewrite EM, T; reflexivity| |unfold mask_check; rewrite EM, T; reflexivity].
    destruct (Hmc eq_refl eq_refl E2) as (mask & n & L & N & K). { destruct independent; [discriminate|reflexivity]. }
    eapply mask_check_ok; eauto. intros i Hi. destruct (K i Hi) as (k & K1 & K2). exists k. split; [exact K1|].
    unfold entry, option_no in K2. cbn in K2. injection K2 as K2. exact K2. }
  destruct HR as (r & HR). exists r. split.
  - apply (agent_act_iff junk).
    + eapply Forall_impl; [|exact H]. intros p (t & sh & a & Hc & Ha & Hb & _). split; [exact Hc|]. exists t, sh. auto.
    + intros p a Hin Hf. rewrite Forall_forall in H. destruct (H p Hin) as (t & sh & a' & _ & _ & _ & _ & Hf' & Hs & _).
      assert (a' = a) by congruence. subst a'. rewrite Hs. discriminate.
    + split; [exact HM|]. clear - HR. induction HR as [|p a acts r (H1 & H2 & H3 & H4 & H5) HR IH]; constructor; auto.
  - clear - HR. induction HR as [|p a acts r (H1 & H2 & H3 & H4 & H5) HR IH]; constructor; auto.
Qed.
