(** Proofs about CartPole. *)

From Coq Require Import String List ZArith Reals Bool Lia Lra Psatz.
From Verif Require Import Base ParModel CartModel CartSpec.
Import ListNotations.
Open Scope R_scope.

Lemma Rltb_lt : forall x y, Rltb x y = true <-> x < y.
Proof. intros x y. unfold Rltb. destruct (Rlt_dec x y); split; intro; auto; discriminate. Qed.
Lemma Rltb_ge : forall x y, Rltb x y = false <-> y <= x.
Proof. intros x y. unfold Rltb. destruct (Rlt_dec x y); split; intro; try discriminate; auto; lra. Qed.

(** * Masks *)

Lemma masked_map : forall A (B : Type) (f : A -> B) (g : A -> bool) (l : list A), masked (map f l) (map g l) = map f (filter g l).
Proof. induction l as [| a l IH]; [reflexivity |]. cbn. destruct (g a); cbn; rewrite IH; reflexivity. Qed.

Lemma masked_same : forall A (g : A -> bool) (l : list A), masked l (map g l) = filter g l.
Proof. induction l as [| a l IH]; [reflexivity |]. cbn. destruct (g a); cbn; rewrite IH; reflexivity. Qed.

Lemma filter_filter : forall A (f g : A -> bool) l, filter f (filter g l) = filter (fun x => g x && f x) l.
Proof.
  induction l as [| a l IH]; [reflexivity |]. cbn.
  destruct (g a); cbn; [destruct (f a) |]; rewrite ?IH; reflexivity.
Qed.

Lemma combine_maps : forall A B C (f : A -> B) (g : A -> C) l, combine (map f l) (map g l) = map (fun x => (f x, g x)) l.
Proof. induction l as [| a l IH]; [reflexivity |]. cbn. rewrite IH. reflexivity. Qed.

(** * Runs *)

Section Runs.
  Variables (e : env) (p : phys).

  (** The states of one row *)
  Fixpoint traj (s : st) (act : nat -> action) (t : nat) : st :=
    match t with O => s | S t => step e p (act t) (traj s act t) end.

  Definition row_result (s : st) (act : nat -> action) (t : nat) : result :=
    mkRes [0%nat] [observe e (traj s act (S t))] [out e (traj s act (S t))] [1].

  Lemma single_runs : forall s act n t,
    runs e (mkEp false [0%nat] p [traj s act t]) (fun t _ => [act t]) t n =
    Ok (map (row_result s act) (seq t n)).
  Proof.
    intros s act. induction n as [| n IH]; intro t; [reflexivity |].
    cbn - [traj step observe]. unfold execute. cbn - [traj step observe].
    specialize (IH (S t)). cbn - [step observe] in IH |- *. rewrite IH. reflexivity.
  Qed.

  Lemma single_run_eq : forall s act n, single_run e p s act n = Ok (map (row_result s act) (seq 0 n)).
  Proof. intros. apply (single_runs s act n 0). Qed.

  (** Rows left after [t] steps *)
  Definition left_at (rows : nat -> st) (act : nat -> nat -> action) (t i : nat) : bool :=
    forallb (fun u => negb (out e (traj (rows i) (fun t => act t i) (S u)))) (seq 0 t).

  Lemma left_S : forall rows act t i,
    left_at rows act (S t) i = left_at rows act t i && negb (out e (traj (rows i) (fun t => act t i) (S t))).
  Proof.
    intros. unfold left_at. rewrite seq_S, forallb_app.
    change (0 + t)%nat with t. cbn [forallb]. rewrite andb_true_r. reflexivity.
  Qed.

  Definition par_result (rows : nat -> st) (act : nat -> nat -> action) (N t : nat) : result :=
    let before := filter (left_at rows act t) (seq 0 N) in
    let after := filter (left_at rows act (S t)) (seq 0 N) in
    mkRes after (map (fun i => observe e (traj (rows i) (fun t => act t i) (S t))) after)
          (map (fun i => out e (traj (rows i) (fun t => act t i) (S t))) before)
          (map (fun _ => 1) before).

  Lemma parallel_runs : forall rows act N n t,
    let idx := filter (left_at rows act t) (seq 0 N) in
    runs e (mkEp true idx p (map (fun i => traj (rows i) (fun t => act t i) t) idx)) (fun t idx => map (act t) idx) t n =
    Ok (map (par_result rows act N) (seq t n)).
  Proof.
    intros rows act N. induction n as [| n IH]; intros t idx; [reflexivity |].
    cbn [runs seq map]. unfold execute. cbn [ep_indices ep_states ep_phys ep_parallel].
    rewrite !map_length, Nat.eqb_refl. cbn [assert_ bind].
    rewrite combine_maps, !map_map. cbn [fst snd].
    rewrite masked_same, masked_map.
    assert (Hf : filter (fun x => negb (out e (step e p (act t x) (traj (rows x) (fun t => act t x) t)))) idx
                 = filter (left_at rows act (S t)) (seq 0 N)).
    { unfold idx. rewrite filter_filter. apply filter_ext. intro i. rewrite left_S. reflexivity. }
    rewrite Hf. cbn [fst snd].
    specialize (IH (S t)). cbv zeta in IH.
    change (fun i => traj (rows i) (fun t0 => act t0 i) (S t)) with (fun x => step e p (act t x) (traj (rows x) (fun t0 => act t0 x) t)) in IH.
    rewrite IH. cbn [bind]. f_equal. f_equal.
    unfold par_result. rewrite map_map. reflexivity.
  Qed.

  Lemma filter_true : forall A (l : list A), filter (fun _ => true) l = l.
  Proof. induction l as [| a l IH]; [reflexivity |]. cbn. rewrite IH. reflexivity. Qed.

  Lemma parallel_run_eq : forall rows act n d,
    parallel_run e p rows act n = Ok (map (par_result (fun i => nth i rows d) act (length rows)) (seq 0 n)).
  Proof.
    intros rows act n d. rewrite <- (parallel_runs (fun i => nth i rows d) act (length rows) n 0). cbv zeta.
    unfold parallel_run, reset. cbn [fst ep_indices].
    unfold left_at. cbn [seq forallb]. rewrite filter_true. cbn [traj].
    do 2 f_equal.
    apply (nth_ext _ _ d d); [now rewrite map_length, seq_length |].
    intros i Hi. rewrite (nth_indep (map (fun j => nth j rows d) (seq 0 (length rows))) d (nth 0 rows d)) by (rewrite map_length, seq_length; exact Hi).
    rewrite (map_nth (fun j => nth j rows d) (seq 0 (length rows)) 0%nat i), seq_nth by exact Hi. reflexivity.
  Qed.
End Runs.

(** * Bounds *)

Lemma out_false : forall e s, out e s = false ->
  (forall b, e_loc_bound e = Some b -> Rabs (s_loc s) <= b) /\ Rabs (s_loc_vel s) <= e_loc_vel_bound e /\
  Rabs (s_angle s) <= e_angle_bound e /\ Rabs (s_angle_vel s) <= e_angle_vel_bound e.
Proof.
  intros e s H. unfold out in H. rewrite !orb_false_iff in H. destruct H as [[[H1 H2] H3] H4].
  rewrite Rltb_ge in H2, H3, H4. repeat split; auto.
  intros b Hb. rewrite Hb in H1. apply Rltb_ge in H1. exact H1.
Qed.

Lemma abs_within : forall x b, Rabs x <= b -> - b <= x <= b.
Proof. intros x b H. unfold Rabs in H. destruct (Rcase_abs x); lra. Qed.

Lemma observe_within : forall e s, out e s = false -> Forall2 within (observe e s) (bounds e).
Proof.
  intros e s H. apply out_false in H. destruct H as (H1 & H2 & H3 & H4).
  unfold observe, bounds. constructor; [apply abs_within; exact H3 |].
  assert (Hl : Forall2 within (if e_location e then [s_loc s] else []) (if e_location e then [e_loc_bound e] else [])).
  { destruct (e_location e); constructor; [| constructor].
    destruct (e_loc_bound e) as [b |]; cbn; auto. apply abs_within. auto. }
  destruct (e_velocities e); cbn [app]; [| exact Hl].
  constructor; [apply abs_within; exact H4 |]. constructor; [apply abs_within; exact H2 | exact Hl].
Qed.

(** * Mirror images *)

Lemma force_mirror : forall a, force_of (mirror_act a) = - force_of a.
Proof.
  intros [n | x]; [| cbn; ring].
  destruct n as [| [p | [p | p |] |] | p]; cbn; try lra.
Qed.

Lemma force_push : forall a, force_of a = push a.
Proof.
  intros [n | x]; [| reflexivity].
  destruct n as [| [p | [p | p |] |] | p]; cbn; reflexivity.
Qed.

Lemma step_mirror : forall e p a s, step e p (mirror_act a) (mirror s) = mirror (step e p a s).
Proof.
  intros e p a s. unfold step, mirror, deriv.
  cbn [s_loc s_loc_vel s_angle s_angle_vel]. rewrite force_mirror, sin_neg, cos_neg.
  f_equal; unfold Rdiv; ring.
Qed.

Lemma out_mirror : forall e s, out e (mirror s) = out e s.
Proof. intros. unfold out, mirror. cbn [s_loc s_loc_vel s_angle s_angle_vel]. rewrite !Rabs_Ropp. reflexivity. Qed.

Lemma observe_mirror : forall e s, observe e (mirror s) = map Ropp (observe e s).
Proof.
  intros. unfold observe, mirror. cbn [s_loc s_loc_vel s_angle s_angle_vel].
  destruct (e_velocities e), (e_location e); reflexivity.
Qed.

Lemma traj_mirror : forall e p s act t, traj e p (mirror s) (fun t => mirror_act (act t)) t = mirror (traj e p s act t).
Proof. intros. induction t as [| t IH]; [reflexivity |]. cbn [traj]. rewrite IH. apply step_mirror. Qed.

Lemma filter_ext_all : forall A (f g : A -> bool) l, (forall x, f x = g x) -> filter f l = filter g l.
Proof. intros. apply filter_ext. auto. Qed.

Lemma left_mirror : forall e p rows act t i,
  left_at e p (fun i => mirror (rows i)) (fun t i => mirror_act (act t i)) t i = left_at e p rows act t i.
Proof.
  intros. unfold left_at. induction (seq 0 t) as [| u l IH]; [reflexivity |].
  cbn [forallb]. rewrite IH. f_equal. f_equal.
  rewrite (traj_mirror e p (rows i) (fun t => act t i) (S u)). apply out_mirror.
Qed.

Lemma par_mirror : forall e p rows act N t,
  par_result e p (fun i => mirror (rows i)) (fun t i => mirror_act (act t i)) N t = mirror_res (par_result e p rows act N t).
Proof.
  intros. unfold par_result, mirror_res. cbn [r_indices r_states r_terminal r_reward].
  rewrite (filter_ext_all _ _ _ (seq 0 N) (left_mirror e p rows act t)).
  rewrite (filter_ext_all _ _ _ (seq 0 N) (left_mirror e p rows act (S t))).
  f_equal.
  - rewrite map_map. apply map_ext. intro i.
    rewrite (traj_mirror e p (rows i) (fun t => act t i) (S t)). apply observe_mirror.
  - apply map_ext. intro i. rewrite (traj_mirror e p (rows i) (fun t => act t i) (S t)). apply out_mirror.
Qed.

(** * Physics *)

Lemma cos_sq_le : forall x, 0 <= cos x * cos x <= 1.
Proof. intro x. pose proof (sin2_cos2 x) as H. unfold Rsqr in H. nra. Qed.

Lemma ratio_lt : forall m M c, 0 < m -> 0 < M -> 0 <= c <= 1 -> 0 <= m * c / (M + m) <= 1.
Proof.
  intros m M c Hm HM Hc. split.
  - apply Rmult_le_pos; [nra | left; apply Rinv_0_lt_compat; lra].
  - apply Rmult_le_reg_r with (M + m); [lra |]. unfold Rdiv. rewrite Rmult_assoc, Rinv_l by lra. nra.
Qed.

Lemma denom_pos : forall l m M angle, 0 < l -> 0 < m -> 0 < M -> 0 < l * (4 / 3 - (m * cos angle * cos angle) / (M + m)).
Proof.
  intros l m M angle Hl Hm HM. apply Rmult_lt_0_compat; [exact Hl |].
  pose proof (ratio_lt m M _ Hm HM (cos_sq_le angle)) as H. rewrite <- Rmult_assoc in H. lra.
Qed.

Lemma motion_unique : forall g M m l F angle w x2 w2 x2' w2', 0 < l -> 0 < m -> 0 < M ->
  motion g M m l F angle w x2 w2 -> motion g M m l F angle w x2' w2' -> x2 = x2' /\ w2 = w2'.
Proof.
  intros g M m l F angle w x2 w2 x2' w2' Hl Hm HM [H1 H2] [H3 H4].
  pose proof (cos_sq_le angle) as Hc.
  set (c := cos angle) in *. clearbody c.
  assert (Hx : (M + m) * (x2 - x2') + m * l * c * (w2 - w2') = 0) by lra.
  assert (Hw : 4 / 3 * l * (w2 - w2') + (x2 - x2') * c = 0) by lra.
  set (dx := x2 - x2') in *. set (dw := w2 - w2') in *.
  assert (Hd : ((M + m) * (4 / 3) - m * (c * c)) * dx = 0).
  { replace (((M + m) * (4 / 3) - m * (c * c)) * dx)
      with (4 / 3 * ((M + m) * dx + m * l * c * dw) - m * c * (4 / 3 * l * dw + dx * c)) by ring.
    rewrite Hx, Hw. ring. }
  assert (Hk : 0 < (M + m) * (4 / 3) - m * (c * c)) by nra.
  assert (Hdx : dx = 0) by (apply Rmult_integral in Hd; destruct Hd; lra).
  assert (Hdw : dw = 0).
  { rewrite Hdx, Rmult_0_l, Rplus_0_r in Hw. apply Rmult_integral in Hw. destruct Hw; [lra | assumption]. }
  unfold dx, dw in *. split; lra.
Qed.

Lemma deriv_motion : forall e p a s, 0 < p_pole_mass p -> 0 < p_pole_length p -> 0 < p_cart_mass p ->
  motion (e_gravity e) (p_cart_mass p) (p_pole_mass p) (p_pole_length p) (push a * (p_relative_force p * e_gravity e))
         (s_angle s) (s_angle_vel s) (s_loc_vel (deriv e p a s)) (s_angle_vel (deriv e p a s)).
Proof.
  intros e p a s Hm Hl HM. rewrite <- force_push.
  pose proof (denom_pos (p_pole_length p) (p_pole_mass p) (p_cart_mass p) (s_angle s) Hl Hm HM) as Hd.
  unfold deriv. cbn [s_loc_vel s_angle_vel]. unfold motion.
  set (denom := p_pole_length p * _) in *.
  set (F := force_of a * _). set (c := cos (s_angle s)) in *. set (sn := sin (s_angle s)).
  set (w := s_angle_vel s). set (T := p_cart_mass p + p_pole_mass p) in *.
  set (br := (F + _) / T).
  set (w2 := (e_gravity e * sn - c * br) / denom).
  assert (HT : T <> 0) by (unfold T; lra).
  assert (Hw2 : w2 * denom = e_gravity e * sn - c * br) by (unfold w2; field; lra).
  assert (Hbr : T * br = F + p_pole_mass p * p_pole_length p * w * w * sn) by (unfold br; field; lra).
  split.
  - replace (T * (br - p_pole_mass p * p_pole_length p * w2 * c / T)) with (T * br - p_pole_mass p * p_pole_length p * w2 * c) by (field; exact HT).
    rewrite Hbr. ring.
  - replace (4 / 3 * p_pole_length p * w2 + (br - p_pole_mass p * p_pole_length p * w2 * c / T) * c)
      with (w2 * denom + c * br) by (unfold denom; field; exact HT).
    rewrite Hw2. ring.
Qed.

(** * Creation *)

Lemma bind_ok : forall A B (x : res A) (f : A -> res B) b, bind x f = Ok b -> exists a, x = Ok a /\ f a = Ok b.
Proof. intros A B [a | m] f b H; [eauto | discriminate]. Qed.

Lemma assert_ok : forall c m u, assert_ c m = Ok u -> c = true.
Proof. intros [|] m u H; [reflexivity | discriminate]. Qed.

Lemma range_ok : forall a r, range_of a = Ok r -> valid_arg a /\ r = (arg_min a, arg_max a).
Proof.
  intros [x | lo hi] r H; cbn in H; apply bind_ok in H; destruct H as (u & H1 & H2); apply assert_ok in H1;
    injection H2 as <-; cbn.
  - apply Rltb_lt in H1. auto.
  - apply andb_prop in H1. destruct H1 as [H1 H3]. apply Rltb_lt in H1, H3. auto.
Qed.

Lemma range_valid : forall a, valid_arg a -> range_of a = Ok (arg_min a, arg_max a).
Proof.
  intros [x | lo hi] H; cbn in *.
  - rewrite (proj2 (Rltb_lt 0 x) H). reflexivity.
  - destruct H as [H1 H2]. rewrite (proj2 (Rltb_lt _ _) H1), (proj2 (Rltb_lt _ _) H2). reflexivity.
Qed.

Lemma valid_pos : forall a, valid_arg a -> 0 < arg_min a <= arg_max a.
Proof. intros [x | lo hi] H; cbn in *; lra. Qed.

Lemma Reqb_neq : forall x y, negb (Reqb x y) = true <-> x <> y.
Proof. intros. unfold Reqb. destruct (Req_EM_T x y); cbn; split; intro; auto; try discriminate; contradiction. Qed.

(** The bounds in closed form *)
Section Closed.
  Variable a : args.
  Definition pmin := arg_min (a_pole_mass a).
  Definition pmax := arg_max (a_pole_mass a).
  Definition lmin := arg_min (a_pole_length a).
  Definition lmax := arg_max (a_pole_length a).
  Definition cmin := arg_min (a_cart_mass a).
  Definition cmax := arg_max (a_cart_mass a).
  Definition fmin := arg_min (a_relative_force a).
  Definition fmax := arg_max (a_relative_force a).
  Definition angle_acc0 : R := fmax * a_gravity a / (cmin + pmin) / lmin / (4 / 3 - pmax / (cmin + pmin)).
  Definition loc_acc0 : R :=
    (fmax * a_gravity a - pmin * lmin * (fmin * a_gravity a / (cmax + pmax) / lmax / (4 / 3 - pmin / (cmax + pmax)))) / (cmin + pmin).

  Definition made : env :=
    {| e_pole_mass := (pmin, pmax); e_pole_length := (lmin, lmax); e_cart_mass := (cmin, cmax);
       e_relative_force := (fmin, fmax); e_gravity := a_gravity a;
       e_velocities := a_velocities a; e_location := a_location a;
       e_initials := mkSt 0 (a_max_velocity a) (a_max_angle a) (a_max_angle_velocity a);
       e_timedelta := a_timedelta a; e_continuous := a_continuous a; e_noop := a_noop a;
       e_loc_bound := if a_location a then Some (loc_acc0 * a_timedelta a * 10) else None;
       e_loc_vel_bound := loc_acc0 * a_timedelta a * 10; e_angle_bound := PI / 4;
       e_angle_vel_bound := angle_acc0 * a_timedelta a * 10 |}.

  Definition ok_args : Prop :=
    valid_arg (a_pole_mass a) /\ valid_arg (a_pole_length a) /\ valid_arg (a_cart_mass a) /\ valid_arg (a_relative_force a) /\
    0 < a_gravity a /\ (a_continuous a = true -> a_noop a = true).

  Lemma init_ok : forall e, init a = Ok e ->
    ok_args /\ e = made /\ 4 / 3 - pmax / (cmin + pmin) <> 0 /\
    0 < loc_acc0 * a_timedelta a * 10 /\ 0 < angle_acc0 * a_timedelta a * 10.
  Proof.
    intros e H. unfold init in H.
    apply bind_ok in H; destruct H as (r1 & H1 & H). apply range_ok in H1. destruct H1 as [V1 ->].
    apply bind_ok in H; destruct H as (r2 & H1 & H). apply range_ok in H1. destruct H1 as [V2 ->].
    apply bind_ok in H; destruct H as (r3 & H1 & H). apply range_ok in H1. destruct H1 as [V3 ->].
    apply bind_ok in H; destruct H as (r4 & H1 & H). apply range_ok in H1. destruct H1 as [V4 ->].
    cbn [fst snd] in H.
    apply bind_ok in H; destruct H as (u1 & H1 & H). apply assert_ok in H1. apply Rltb_lt in H1.
    apply bind_ok in H; destruct H as (u2 & H2 & H). apply assert_ok in H2.
    apply bind_ok in H; destruct H as (m1 & H3 & H). unfold max_angle_acc in H3.
    apply bind_ok in H3; destruct H3 as (u3 & H3 & H4). apply assert_ok in H3. apply Reqb_neq in H3. injection H4 as <-.
    apply bind_ok in H; destruct H as (m2 & H4 & H). unfold max_angle_acc in H4.
    apply bind_ok in H4; destruct H4 as (u4 & H4 & H5). injection H5 as <-.
    apply bind_ok in H; destruct H as (u5 & H5 & H). apply assert_ok in H5.
    rewrite !andb_true_iff, !Rltb_lt in H5. destruct H5 as [[H5 _] H6].
    injection H as <-.
    split; [| split; [reflexivity | split; [exact H3 | split; [exact H5 | exact H6]]]].
    unfold ok_args. repeat split; auto.
    intro Hc. rewrite Hc in H2. exact H2.
  Qed.

  Lemma min_divisor : ok_args -> 0 < 4 / 3 - pmin / (cmax + pmax).
  Proof.
    intros (V1 & V2 & V3 & V4 & _). apply valid_pos in V1, V3.
    fold pmin pmax in V1. fold cmin cmax in V3.
    assert (pmin / (cmax + pmax) <= 1); [| lra].
    apply Rmult_le_reg_r with (cmax + pmax); [lra |]. unfold Rdiv. rewrite Rmult_assoc, Rinv_l by lra. lra.
  Qed.

  Lemma init_ok_rev : ok_args -> 4 / 3 - pmax / (cmin + pmin) <> 0 ->
    0 < loc_acc0 * a_timedelta a * 10 -> 0 < angle_acc0 * a_timedelta a * 10 -> init a = Ok made.
  Proof.
    intros Hok Hn Hl Ha. pose proof (min_divisor Hok) as Hm.
    destruct Hok as (V1 & V2 & V3 & V4 & Hg & Hc).
    unfold init. rewrite (range_valid _ V1), (range_valid _ V2), (range_valid _ V3), (range_valid _ V4). cbn [bind fst snd].
    rewrite (proj2 (Rltb_lt _ _) Hg). cbn [assert_ bind].
    assert (Hb : negb (a_continuous a) || a_noop a = true).
    { destruct (a_continuous a); cbn; auto. }
    rewrite Hb. cbn [assert_ bind].
    unfold max_angle_acc.
    fold pmin pmax cmin cmax fmin fmax lmin lmax.
    rewrite (proj2 (Reqb_neq _ _) Hn). cbn [assert_ bind].
    assert (Hm' : 4 / 3 - pmin / (cmax + pmax) <> 0) by lra.
    rewrite (proj2 (Reqb_neq _ _) Hm'). cbn [assert_ bind].
    unfold max_loc_acc. fold angle_acc0 loc_acc0.
    rewrite (proj2 (Rltb_lt _ _) Hl), (proj2 (Rltb_lt _ _) Ha).
    rewrite (proj2 (Rltb_lt 0 (PI / 4))) by (pose proof PI_RGT_0; lra).
    reflexivity.
  Qed.

  (** Signs *)
  Lemma pos_args : ok_args -> 0 < pmin <= pmax /\ 0 < lmin <= lmax /\ 0 < cmin <= cmax /\ 0 < fmin <= fmax /\ 0 < a_gravity a.
  Proof.
    intros (V1 & V2 & V3 & V4 & Hg & _).
    exact (conj (valid_pos _ V1) (conj (valid_pos _ V2) (conj (valid_pos _ V3) (conj (valid_pos _ V4) Hg)))).
  Qed.

  Lemma divisor_zero : ok_args -> (4 / 3 - pmax / (cmin + pmin) = 0 <-> 4 * (cmin + pmin) = 3 * pmax).
  Proof.
    intro Hok. destruct (pos_args Hok) as (H1 & H2 & H3 & H4 & H5). split; intro H.
    - assert (Hr : pmax / (cmin + pmin) = 4 / 3) by lra.
      assert (Hp : pmax = 4 / 3 * (cmin + pmin)) by (rewrite <- Hr; field; lra). lra.
    - replace pmax with (4 / 3 * (cmin + pmin)) by lra. field. lra.
  Qed.

  Lemma angle_eq : ok_args -> 4 * (cmin + pmin) <> 3 * pmax ->
    angle_acc0 * (lmin * (4 * (cmin + pmin) - 3 * pmax)) = 3 * fmax * a_gravity a.
  Proof.
    intros Hok Hn. destruct (pos_args Hok) as (H1 & H2 & H3 & H4 & H5).
    unfold angle_acc0. field. repeat split; lra.
  Qed.

  Lemma loc_eq : ok_args ->
    loc_acc0 * ((cmin + pmin) * lmax * (4 * (cmax + pmax) - 3 * pmin)) =
    a_gravity a * (fmax * lmax * (4 * (cmax + pmax) - 3 * pmin) - 3 * pmin * lmin * fmin).
  Proof.
    intros Hok. destruct (pos_args Hok) as (H1 & H2 & H3 & H4 & H5).
    unfold loc_acc0. field. repeat split; lra.
  Qed.

  Lemma sign_pos : forall x k y, 0 < k -> x * k = y -> (0 < x <-> 0 < y) /\ (x < 0 <-> y < 0).
  Proof. intros x k y Hk H. subst y. repeat split; intro; nra. Qed.

  Lemma angle_sign : ok_args -> 4 * (cmin + pmin) <> 3 * pmax ->
    (0 < angle_acc0 <-> 3 * pmax < 4 * (cmin + pmin)) /\ (angle_acc0 < 0 <-> 4 * (cmin + pmin) < 3 * pmax).
  Proof.
    intros Hok Hn. destruct (pos_args Hok) as (H1 & H2 & H3 & H4 & H5).
    pose proof (angle_eq Hok Hn) as H.
    assert (0 < 3 * fmax * a_gravity a) by nra.
    set (k := 4 * (cmin + pmin) - 3 * pmax) in *.
    assert (Hx : 0 < angle_acc0 * k) by nra.
    repeat split; intro; unfold k in *; clear k; nra.
  Qed.

  Lemma loc_sign : ok_args ->
    (0 < loc_acc0 <-> 3 * pmin * lmin * fmin < fmax * lmax * (4 * (cmax + pmax) - 3 * pmin)) /\
    (loc_acc0 < 0 <-> fmax * lmax * (4 * (cmax + pmax) - 3 * pmin) < 3 * pmin * lmin * fmin).
  Proof.
    intros Hok. destruct (pos_args Hok) as (H1 & H2 & H3 & H4 & H5).
    assert (Hk : 0 < (cmin + pmin) * lmax * (4 * (cmax + pmax) - 3 * pmin)).
    { apply Rmult_lt_0_compat; [apply Rmult_lt_0_compat |]; lra. }
    destruct (sign_pos _ _ _ Hk (loc_eq Hok)) as [S1 S2]. rewrite S1, S2.
    set (A := fmax * lmax * _). set (B := 3 * pmin * lmin * fmin). clearbody A B.
    repeat split; intro; nra.
  Qed.
End Closed.

Lemma init_iff : forall a,
  (exists e, init a = Ok e) <->
  ok_args a /\
  ((0 < a_timedelta a /\ 3 * pmax a < 4 * (cmin a + pmin a) /\
    3 * pmin a * lmin a * fmin a < fmax a * lmax a * (4 * (cmax a + pmax a) - 3 * pmin a)) \/
   (a_timedelta a < 0 /\ 4 * (cmin a + pmin a) < 3 * pmax a /\
    fmax a * lmax a * (4 * (cmax a + pmax a) - 3 * pmin a) < 3 * pmin a * lmin a * fmin a)).
Proof.
  intro a. split.
  - intros [e H]. apply init_ok in H. destruct H as (Hok & _ & Hn & Hl & Ha). split; [exact Hok |].
    assert (Hn' : 4 * (cmin a + pmin a) <> 3 * pmax a) by (intro C; apply Hn; apply divisor_zero; assumption).
    destruct (angle_sign a Hok Hn') as [A1 A2]. destruct (loc_sign a Hok) as [L1 L2].
    destruct (Rtotal_order (a_timedelta a) 0) as [Ht | [Ht | Ht]].
    + right. split; [exact Ht |]. split; [apply A2 | apply L2]; nra.
    + exfalso. rewrite Ht in Hl. lra.
    + left. split; [exact Ht |]. split; [apply A1 | apply L1]; nra.
  - intros [Hok H]. exists (made a).
    assert (Hn' : 4 * (cmin a + pmin a) <> 3 * pmax a) by (destruct H as [(_ & H & _) | (_ & H & _)]; lra).
    destruct (angle_sign a Hok Hn') as [A1 A2]. destruct (loc_sign a Hok) as [L1 L2].
    apply init_ok_rev; auto.
    + intro C. apply Hn'. apply divisor_zero; assumption.
    + destruct H as [(Ht & _ & H) | (Ht & _ & H)]; [apply L1 in H | apply L2 in H]; nra.
    + destruct H as [(Ht & H & _) | (Ht & H & _)]; [apply A1 in H | apply A2 in H]; nra.
Qed.

(** * The upright position *)

Lemma upright_acc : forall e p a s, 0 < p_pole_mass p -> 0 < p_pole_length p -> 0 < p_cart_mass p -> s_angle s = 0 ->
  s_angle_vel (deriv e p a s) * (p_pole_length p * (4 * (p_cart_mass p + p_pole_mass p) - 3 * p_pole_mass p)) =
  - (3 * (force_of a * (p_relative_force p * e_gravity e))).
Proof.
  intros e p a s Hm Hl HM Ha. unfold deriv. cbn [s_angle_vel]. rewrite Ha, sin_0, cos_0. field. repeat split; lra.
Qed.

Lemma force_disc : forall n, Rabs (force_of (Disc n)) <= 1.
Proof. intro n. cbn. destruct (Z.eqb n 2), (Z.eqb n 1); unfold Rabs; destruct (Rcase_abs _); lra. Qed.
