(** Lemmas on the hyperparameters: ParModel.v. *)
From Coq Require Import String List ZArith Reals Bool Lra Lia.
From Verif Require Import Base ParModel.
Import ListNotations.
Open Scope R_scope.

Lemma Rleb_true x y : Rleb x y = true <-> x <= y.
Proof. unfold Rleb. destruct (Rle_dec x y); split; auto; try discriminate; tauto. Qed.
Lemma Rltb_true x y : Rltb x y = true <-> x < y.
Proof. unfold Rltb. destruct (Rlt_dec x y); split; auto; try discriminate; tauto. Qed.
Lemma Reqb_true x y : Reqb x y = true <-> x = y.
Proof. unfold Reqb. destruct (Req_EM_T x y); split; auto; try discriminate; tauto. Qed.

Lemma tf_pow_range x y : 0 <= x <= 1 -> 0 <= y -> 0 <= tf_pow x y <= 1.
Proof.
  intros Hx Hy. unfold tf_pow. destruct (Req_EM_T y 0); [lra|]. destruct (Req_EM_T x 0); [lra|].
  split; [left; apply exp_pos|]. unfold Rpower. rewrite <- exp_0.
  assert (ln x <= 0) as Hl.
  { destruct (Req_EM_T x 1) as [->|Hn]; [rewrite ln_1; lra|]. rewrite <- ln_1. left. apply ln_increasing; lra. }
  assert (y * ln x <= 0) as Hm by (rewrite <- (Rmult_0_r y); apply Rmult_le_compat_l; auto).
  destruct Hm as [Hm|Hm]; [left; now apply exp_increasing|right; now f_equal].
Qed.
Lemma floor_le x : floor x <= x < floor x + 1.
Proof. unfold floor. destruct (base_Int_part x). lra. Qed.
Lemma floor_mono x y : x <= y -> floor x <= floor y.
Proof.
  intros H. unfold floor. apply IZR_le. destruct (base_Int_part x) as [A B], (base_Int_part y) as [C D].
  assert (IZR (Int_part x) < IZR (Int_part y) + 1) as E by lra. rewrite <- plus_IZR in E. apply lt_IZR in E. lia.
Qed.
Lemma floor_0 : floor 0 = 0.
Proof.
  unfold floor. destruct (base_Int_part 0) as [A B]. apply (le_IZR _ 0) in A.
  assert (-1 < IZR (Int_part 0)) as C by lra. apply (lt_IZR (-1)) in C. replace (Int_part 0) with 0%Z by lia. reflexivity.
Qed.
Lemma floor_nonneg x : 0 <= x -> 0 <= floor x.
Proof. intros H. rewrite <- floor_0. now apply floor_mono. Qed.
Lemma ceil_mono x y : x <= y -> ceil x <= ceil y.
Proof. intros H. unfold ceil. apply Ropp_le_contravar. apply floor_mono. lra. Qed.
Lemma ceil_nonpos x : x <= 0 -> ceil x <= 0.
Proof. intros H. unfold ceil. pose proof (floor_nonneg (- x)). lra. Qed.
Lemma ceil_ge x : x <= ceil x < x + 1.
Proof. unfold ceil. pose proof (floor_le (- x)). lra. Qed.
Lemma trunc_mono x y : x <= y -> trunc x <= trunc y.
Proof.
  intros H. unfold trunc. destruct (Rle_dec 0 x), (Rle_dec 0 y); try lra; [now apply floor_mono| |now apply ceil_mono].
  pose proof (ceil_nonpos x). pose proof (floor_nonneg y). lra.
Qed.
Lemma cast_mono d x y : x <= y -> cast d x <= cast d y.
Proof. destruct d; auto. apply trunc_mono. Qed.

(** A convex combination *)
Lemma scaled_range i lo hi x : lo <= x <= hi ->
  (if Rle_dec 0 i then i * lo else i * hi) <= i * x <= (if Rle_dec 0 i then i * hi else i * lo).
Proof.
  intros H. destruct (Rle_dec 0 i) as [Hi|Hi].
  - split; apply Rmult_le_compat_l; tauto.
  - assert (i <= 0) as Hn by lra. split; apply Rmult_le_compat_neg_l; tauto.
Qed.
Lemma cos_half x : 0 <= 1 / 2 * (1 + cos x) <= 1.
Proof. pose proof (COS_bound x). lra. Qed.
Lemma part x n : 0 <= x -> 0 < n -> 0 <= x / n.
Proof. intros Hx Hn. unfold Rdiv. apply Rmult_le_pos; auto. left. now apply Rinv_0_lt_compat. Qed.
Lemma part_1 x n : 0 <= x <= n -> 0 < n -> 0 <= x / n <= 1.
Proof.
  intros Hx Hn. split; [apply part; tauto|]. apply (Rmult_le_reg_r n); auto. unfold Rdiv. rewrite Rmult_assoc, Rinv_l by lra. lra.
Qed.
Lemma mul_range x y : 0 <= x <= 1 -> 0 <= y <= 1 -> 0 <= x * y <= 1.
Proof.
  intros Hx Hy. split; [apply Rmult_le_pos; tauto|]. apply Rle_trans with (1 * 1); [|lra]. apply Rmult_le_compat; tauto.
Qed.

(** ** The decays *)
(** What the bounds presuppose: a rate below 1 for inverse_time, restarts which do not grow,
    no noise, a non-negative power *)
Definition sound (x : decay) : Prop :=
  match x with
  | InverseTime rate _ => rate <> 1
  | CosineRestarts t_mul m_mul _ => 1 <= t_mul /\ 0 <= m_mul <= 1
  | LinearCosineNoisy _ _ _ => False
  | Polynomial _ power _ => 0 <= power
  | _ => True
  end.

Ltac ok H := apply andb_prop in H; destruct H as [? H].
Lemma assert_ok b m x : assert_ b m = Ok x -> b = true.
Proof. destruct b; [auto|discriminate]. Qed.

Lemma decayed_range p noise step lo hi : sound (d_decay p) -> decay_bounds (d_decay p) (d_initial p) = Ok (lo, hi) -> 0 <= step ->
  exists v, decayed p noise step = Ok v /\ lo <= v <= hi.
Proof.
  intros Hs Hb Hst. unfold decayed. set (i := d_initial p) in *. set (n := INR (d_num_steps p) + 1).
  assert (0 < n) as Hn by (unfold n; pose proof (pos_INR (d_num_steps p)); lra).
  assert (0 <= Rmin step n <= n) as Hmin by (split; [apply Rmin_glb; lra|apply Rmin_r]).
  pose proof (part_1 _ _ Hmin Hn) as Hf. pose proof (part step n Hst Hn) as Hp.
  destruct (d_decay p) as [al|t m al|r st|r st|pe al be|pe al be|fi po cy]; cbn [decay_bounds sound] in *.
  - destruct (Rleb 0 al && Rleb al 1) eqn:Ea; [|discriminate]. cbn [assert_ bind] in *. apply andb_prop in Ea. rewrite !Rleb_true in Ea.
    eexists. split; [reflexivity|]. unfold cosine_decay. pose proof (cos_half (PI * (Rmin step n / n))) as Hc.
    set (x := 1 / 2 * (1 + cos (PI * (Rmin step n / n)))) in *.
    assert (al <= (1 - al) * x + al <= 1) as Hr.
    { pose proof (mul_range (1 - al) x). assert ((1 - al) * x <= (1 - al) * 1) by (apply Rmult_le_compat_l; lra). lra. }
    pose proof (scaled_range i _ _ _ Hr) as S. destruct (Rle_dec 0 i); injection Hb as <- <-; lra.
  - destruct (Rleb 0 al && Rleb al 1) eqn:Ea; [|discriminate]. cbn [assert_ bind] in *. apply andb_prop in Ea. rewrite !Rleb_true in Ea.
    eexists. split; [reflexivity|]. unfold cosine_restarts.
    set (ir := if Req_EM_T t 1 then _ else _). set (cf := if Req_EM_T t 1 then _ else (_ - _) / _).
    assert (0 <= ir) as Hir.
    { unfold ir. destruct (Req_EM_T t 1) as [|Ht]; [now apply floor_nonneg|]. apply floor_nonneg. apply part.
      - assert (1 <= 1 - step / n * (1 - t)) as H1.
        { assert (0 <= step / n * (t - 1)) by (apply Rmult_le_pos; lra). lra. }
        destruct (Req_EM_T (1 - step / n * (1 - t)) 1) as [->|Hd]; [rewrite ln_1; lra|]. rewrite <- ln_1. left. apply ln_increasing; lra.
      - rewrite <- ln_1. apply ln_increasing; lra. }
    pose proof (tf_pow_range m ir (proj2 Hs) Hir) as Hm. pose proof (cos_half (PI * cf)) as Hc.
    replace (1 / 2 * tf_pow m ir * (1 + cos (PI * cf))) with (tf_pow m ir * (1 / 2 * (1 + cos (PI * cf)))) by ring.
    pose proof (mul_range _ _ Hm Hc) as Hx. set (x := tf_pow m ir * _) in *.
    assert (al <= (1 - al) * x + al <= 1) as Hr.
    { pose proof (mul_range (1 - al) x). assert ((1 - al) * x <= (1 - al) * 1) by (apply Rmult_le_compat_l; lra). lra. }
    pose proof (scaled_range i _ _ _ Hr) as S. destruct (Rle_dec 0 i); injection Hb as <- <-; lra.
  - destruct (Rleb 0 r && Rleb r 1) eqn:Ea; [|discriminate]. cbn [assert_ bind] in *. apply andb_prop in Ea. rewrite !Rleb_true in Ea.
    destruct Ea as [Ea1 Ea2]. rewrite (proj2 (Rleb_true 0 r) Ea1). cbn [assert_ bind]. eexists. split; [reflexivity|]. unfold exponential_decay.
    set (e := if st then _ else _). assert (0 <= e) as He by (unfold e; destruct st; auto; now apply floor_nonneg).
    destruct (Req_EM_T r 1) as [->|Hr1].
    + injection Hb as <- <-. assert (tf_pow 1 e = 1) as ->; [|lra].
      unfold tf_pow. destruct (Req_EM_T e 0); auto. destruct (Req_EM_T 1 0); [lra|]. unfold Rpower. rewrite ln_1, Rmult_0_r. apply exp_0.
    + pose proof (scaled_range i 0 1 (tf_pow r e) (tf_pow_range r e (conj Ea1 Ea2) He)) as S. destruct (Rle_dec 0 i); injection Hb as <- <-; lra.
  - destruct (Rleb 0 r && Rleb r 1) eqn:Ea; [|discriminate]. cbn [assert_ bind] in *. apply andb_prop in Ea. rewrite !Rleb_true in Ea.
    destruct Ea as [Ea1 Ea2]. rewrite (proj2 (Rleb_true 0 r) Ea1). cbn [assert_ bind]. eexists. split; [reflexivity|]. unfold inverse_time_decay.
    set (e := if st then _ else _). assert (0 <= e) as He by (unfold e; destruct st; auto; now apply floor_nonneg).
    destruct (Req_EM_T r 1) as [|Hr1]; [contradiction|]. assert (0 <= r * e) as Hre by (now apply Rmult_le_pos).
    assert (0 <= / (1 + r * e) <= 1) as Hi.
    { split; [left; apply Rinv_0_lt_compat; lra|]. rewrite <- Rinv_1. apply Rinv_le_contravar; lra. }
    pose proof (scaled_range i 0 1 _ Hi) as S. unfold Rdiv. destruct (Rle_dec 0 i); injection Hb as <- <-; lra.
  - destruct (Rleb 0 al && Rleb al 1) eqn:Ea; [|discriminate]. cbn [assert_ bind] in *. apply andb_prop in Ea. rewrite !Rleb_true in Ea.
    destruct (Rleb 0 be && Rleb be 1) eqn:Eb; [|discriminate]. cbn [assert_ bind] in *. apply andb_prop in Eb. destruct Eb as [Eb1 Eb2]. rewrite Eb1. rewrite !Rleb_true in *.
    cbn [assert_ bind]. eexists. split; [reflexivity|]. unfold linear_cosine_decay.
    set (x := 1 / 2 * _). pose proof (cos_half (PI * (2 * pe * (Rmin step n / n)))) as Hc. fold x in Hc.
    assert (0 <= (n - Rmin step n) / n <= 1) as Hl by (apply part_1; lra).
    assert (0 <= (al + ((n - Rmin step n) / n + 0)) * x <= 1 + al) as Hx.
    { split; [apply Rmult_le_pos; lra|]. apply Rle_trans with ((1 + al) * 1); [|lra]. apply Rmult_le_compat; lra. }
    assert (be <= (al + ((n - Rmin step n) / n + 0)) * x + be <= 1 + al + be) as Hr by lra.
    pose proof (scaled_range i _ _ _ Hr) as S. destruct (Rle_dec 0 i); injection Hb as <- <-; lra.
  - destruct Hs.
  - rewrite (proj2 (Rleb_true 0 po) Hs). cbn [assert_ bind] in *. eexists. split; [reflexivity|]. unfold polynomial_decay.
    set (f := if cy then _ else _). assert (0 <= f <= 1) as Hfr.
    { unfold f. destruct cy; auto. destruct (Req_EM_T step 0) as [->|H0]; [unfold Rdiv; rewrite Rmult_0_l; lra|].
      assert (0 < step / n) as Hpp by (unfold Rdiv; apply Rmult_lt_0_compat; [lra|now apply Rinv_0_lt_compat]).
      pose proof (ceil_ge (step / n)) as Hce. assert (0 < n * ceil (step / n)) as Hpos by (apply Rmult_lt_0_compat; lra).
      apply part_1; auto. split; auto. apply Rle_trans with (n * (step / n)); [right; field; lra|]. apply Rmult_le_compat_l; lra. }
    destruct (Req_EM_T po 0) as [->|Hpo].
    + injection Hb as <- <-. unfold tf_pow. destruct (Req_EM_T 0 0); lra.
    + pose proof (tf_pow_range (1 - f) po ltac:(lra) Hs) as Hx.
      pose proof (scaled_range (i - fi) 0 1 _ Hx) as S. destruct (Rle_dec fi i); injection Hb as <- <-; destruct (Rle_dec 0 (i - fi)); lra.
Qed.

Lemma parameter_range p noise step lo hi : sound (d_decay p) -> d_inverse p = false -> min_value p = Ok lo -> max_value p = Ok hi -> 0 <= step ->
  exists v, parameter_value p noise step = Ok v /\ lo <= v <= hi.
Proof.
  intros Hs Hi Hlo Hhi Hst. unfold min_value, max_value, all_bounds in *. rewrite Hi in *.
  destruct (decay_bounds (d_decay p) (d_initial p)) as [[a b]|] eqn:Eb; [|discriminate]. cbn [bind] in *.
  destruct (decayed_range p noise step a b Hs Eb Hst) as (v & Ev & Hv). unfold parameter_value. rewrite Ev, Hi. cbn [bind].
  destruct (assert_ (Rleb a b) "assert") as [?|]; [|discriminate]. cbn [bind] in *.
  assert (forall a b v, a <= v <= b -> 
    bind (Ok (if Req_EM_T (d_scale p) 1 then (a, b) else if Rle_dec 0 (d_scale p) then (d_scale p * a, d_scale p * b) else (d_scale p * b, d_scale p * a)))
      (fun x => let (l, _) := x in Ok (cast (d_dtype p) l)) = Ok lo ->
    bind (Ok (if Req_EM_T (d_scale p) 1 then (a, b) else if Rle_dec 0 (d_scale p) then (d_scale p * a, d_scale p * b) else (d_scale p * b, d_scale p * a)))
      (fun x => let (_, h) := x in Ok (cast (d_dtype p) h)) = Ok hi -> lo <= cast (d_dtype p) (v * d_scale p) <= hi) as Hsc.
  { clear. intros a b v Hv E1 E2. cbn [bind] in *. pose proof (scaled_range (d_scale p) a b v Hv) as S.
    replace (v * d_scale p) with (d_scale p * v) by ring.
    destruct (Req_EM_T (d_scale p) 1) as [E|_].
    - rewrite E, Rmult_1_l. injection E1 as <-. injection E2 as <-. split; apply cast_mono; lra.
    - destruct (Rle_dec 0 (d_scale p)); injection E1 as <-; injection E2 as <-; split; apply cast_mono; lra. }
  destruct (d_increasing p).
  - destruct (Rleb 0 a && Rleb a b && Rleb b 1) eqn:Ea; [|discriminate]. cbn [assert_ bind] in *. apply andb_prop in Ea. destruct Ea as [Ea E3]. apply andb_prop in Ea. destruct Ea as [E1 E2]. rewrite !Rleb_true in E1, E2, E3.
    rewrite (proj2 (Rleb_true 0 v)), (proj2 (Rleb_true v 1)) by lra. cbn [andb assert_ bind]. eexists. split; [reflexivity|].
    apply (Hsc (1 - b) (1 - a)); auto; lra.
  - cbn [bind] in *. eexists. split; [reflexivity|]. apply (Hsc a b); auto.
Qed.

(** ** Specifications *)
Definition within (s : spec) (v : R) : Prop :=
  match s_min s with Some m => m <= v | None => True end /\ match s_max s with Some m => v <= m | None => True end.
Lemma value_within s v : within s v -> value s (Ok v) = Ok v.
Proof.
  intros [H1 H2]. unfold value. cbn [bind]. destruct (s_min s) as [a|].
  - rewrite (proj2 (Rleb_true a v)) by auto. cbn [assert_ bind]. destruct (s_max s) as [b|]; [rewrite (proj2 (Rleb_true v b)) by auto|]; reflexivity.
  - cbn [assert_ bind]. destruct (s_max s) as [b|]; [rewrite (proj2 (Rleb_true v b)) by auto|]; reflexivity.
Qed.
Lemma check_within s lo hi v : check s lo hi = Ok tt ->
  match lo with Some l => l <= v | None => True end -> match hi with Some h => v <= h | None => True end -> within s v.
Proof.
  unfold check, within. intros H Hl Hh. destruct (assert_ (match lo with Some _ => _ | None => _ end) "assert") as [?|]; [|discriminate]. cbn [bind] in H.
  destruct (s_min s) as [m|].
  - destruct lo as [l|]; [|discriminate]. destruct (Rltb l m) eqn:El; [discriminate|]. cbn [negb assert_ bind] in H.
    assert (m <= l) as Hm by (unfold Rltb in El; destruct (Rlt_dec l m); [discriminate|lra]). split; [lra|].
    destruct (s_max s) as [M|]; auto. destruct hi as [h|]; [|discriminate]. destruct (Rltb M h) eqn:Eh; [discriminate|].
    unfold Rltb in Eh. destruct (Rlt_dec M h); [discriminate|lra].
  - split; auto. cbn [bind] in H. destruct (s_max s) as [M|]; auto. destruct hi as [h|]; [|discriminate]. destruct (Rltb M h) eqn:Eh; [discriminate|].
    unfold Rltb in Eh. destruct (Rlt_dec M h); [discriminate|lra].
Qed.
Lemma fold_min l : forall v x, In x (v :: l) -> fold_left Rmin l v <= x.
Proof.
  induction l as [|a l IH]; cbn [fold_left]; intros v x [->|Hx]; try lra; try easy.
  - eapply Rle_trans; [apply (IH _ (Rmin x a)); now left|apply Rmin_l].
  - destruct Hx as [->|Hx]; [eapply Rle_trans; [apply (IH _ (Rmin v x)); now left|apply Rmin_r]|]. apply IH. now right.
Qed.
Lemma fold_max l : forall v x, In x (v :: l) -> x <= fold_left Rmax l v.
Proof.
  induction l as [|a l IH]; cbn [fold_left]; intros v x [->|Hx]; try lra; try easy.
  - eapply Rle_trans; [|apply (IH _ (Rmax x a)); now left]. apply Rmax_l.
  - destruct Hx as [->|Hx]; [eapply Rle_trans; [|apply (IH _ (Rmax v x)); now left]; apply Rmax_r|]. apply IH. now right.
Qed.
