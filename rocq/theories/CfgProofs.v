(** Proofs for C164-C169: dictionaries, parameters and the update specification. *)

From Coq Require Import String List ZArith QArith Qround Bool Lia Lqa.
From Verif Require Import Base CfgModel CfgSpec.
Import ListNotations.
Open Scope string_scope.
Open Scope list_scope.
Open Scope Z_scope.

Lemma bind_inv {X Y} (x : res X) (f : X -> res Y) y : bind x f = Ok y -> exists z, x = Ok z /\ f z = Ok y.
Proof. destruct x; cbn; intros; [eauto|discriminate]. Qed.

Lemma bind_ok {X Y} (x : res X) (f : X -> res Y) y : bind x f = Ok y <-> exists z, x = Ok z /\ f z = Ok y.
Proof. split; [apply bind_inv|intros (z & -> & H); exact H]. Qed.

Lemma assert_ok c m u : assert_ c m = Ok u <-> c = true.
Proof. unfold assert_; destruct c; destruct u; split; congruence. Qed.

(** ** Dictionaries *)
Lemma get_in k d v : get k d = Some v -> In (k, v) d.
Proof.
  induction d as [|(k', x) q IH]; cbn; [discriminate|]. destruct (String.eqb_spec k k').
  - intros [= ->]. subst; auto.
  - intros H; right; auto.
Qed.

Lemma get_none k d : get k d = None <-> omitted k d.
Proof.
  unfold omitted. induction d as [|(k', x) q IH]; cbn; [split; auto|]. destruct (String.eqb_spec k k').
  - split; [discriminate|]. intros H; exfalso; apply (H x); subst; auto.
  - rewrite IH. split; [intros H v [E|E]; [congruence|apply (H v E)]|intros H v E; apply (H v); auto].
Qed.

Lemma get_given k d v : NoDup (map fst d) -> (get k d = Some v <-> given k d v).
Proof.
  intros ND; split; [apply get_in|]. unfold given. revert ND. induction d as [|(k', x) q IH]; cbn; [tauto|].
  intros ND; inversion ND; subst. intros [[= -> ->]|H].
  - rewrite String.eqb_refl; auto.
  - destruct (String.eqb_spec k k') as [->|]; [|auto]. exfalso; apply H1, (in_map fst _ _ H).
Qed.

Lemma given_fun k d v w : NoDup (map fst d) -> given k d v -> given k d w -> v = w.
Proof. intros ND A B. apply get_given in A; auto. apply get_given in B; auto. congruence. Qed.

Lemma given_omitted k d v : given k d v -> omitted k d -> False.
Proof. intros A B; exact (B v A). Qed.

Lemma get_cases k d : NoDup (map fst d) -> {v | get k d = Some v /\ given k d v} + {get k d = None /\ omitted k d}.
Proof.
  intros ND. destruct (get k d) as [v|] eqn:E.
  - left; exists v. split; auto. apply get_given; auto.
  - right. split; auto. apply get_none; auto.
Qed.

Lemma get_or_value k d v w : NoDup (map fst d) -> (get_or k v d = w <-> value_or k d v w).
Proof.
  intros ND. unfold get_or, value_or. destruct (get_cases k d ND) as [(x & E & G)|(E & G)]; rewrite E; split.
  - intros <-; auto.
  - intros [H|[H ->]]; [eapply given_fun; eauto|destruct (given_omitted _ _ _ G H)].
  - intros <-; auto.
  - intros [H|[H ->]]; [destruct (given_omitted _ _ _ H G)|auto].
Qed.

Lemma get_or_none k d : NoDup (map fst d) -> (get_or k VNone d = VNone <-> unset k d).
Proof. intros ND. rewrite get_or_value by auto. unfold value_or, unset. tauto. Qed.

Lemma get_or_some k d v : NoDup (map fst d) -> v <> VNone -> (get_or k VNone d = v <-> given k d v).
Proof. intros ND N. rewrite get_or_value by auto. unfold value_or. tauto. Qed.

Lemma has_iff k d : has k d = false <-> omitted k d.
Proof. unfold has. rewrite <- get_none. destruct (get k d); split; congruence. Qed.

Lemma existsb_str s l : existsb (String.eqb s) l = true <-> In s l.
Proof.
  rewrite existsb_exists. split.
  - intros (x & H & E). apply String.eqb_eq in E; subst; auto.
  - intros H; exists s; split; auto. apply String.eqb_refl.
Qed.

Lemma from_iff keys d : from keys d = true <-> only keys d.
Proof.
  unfold from, only. rewrite forallb_forall. split.
  - intros H k v I. apply existsb_str, (H (k, v) I).
  - intros H (k, v) I. apply existsb_str, (H k v I).
Qed.

Lemma only_same keys keys' d : (forall k, In k keys <-> In k keys') -> (only keys d <-> only keys' d).
Proof. unfold only; intros E; split; intros H k v I; apply E, (H k v I). Qed.

Lemma is_str_iff s v : is_str s v = true <-> v = VStr s.
Proof.
  destruct v; cbn; split; try discriminate; try congruence.
  - intros H; apply String.eqb_eq in H; subst; auto.
  - intros [= ->]; apply String.eqb_refl.
Qed.

Lemma is_false_iff v : is_false v = true <-> v = False_.
Proof. unfold False_. destruct v as [| |[[]| |]| | |]; cbn; split; congruence. Qed.

Lemma Qeq_bool_comm' x y : Qeq_bool x y = true <-> (x == y)%Q.
Proof. apply Qeq_bool_iff. Qed.

Lemma equals_iff v q : equals v q = true <-> number_is v q.
Proof.
  unfold number_is. split.
  - destruct v as [| |[b|n|x]| | |]; cbn [equals]; try discriminate; intros H; apply Qeq_bool_iff in H.
    + destruct b; auto.
    + right; right; left; eauto.
    + right; right; right; eauto.
  - intros [[-> H]|[[-> H]|[(n & -> & H)|(x & -> & H)]]]; cbn [equals]; apply Qeq_bool_iff; auto.
Qed.

Lemma truthy_iff v : truthy v = true -> true_value v.
Proof.
  unfold true_value, number_is. destruct v as [|s|[b|n|x]|i f|l|]; cbn [truthy]; intros H; try discriminate.
  - split; [discriminate|]. split; [intros [= ->]; discriminate|]. intros [[E _]|[[E _]|[(n & E & _)|(x & E & _)]]]; discriminate.
  - destruct b; [|discriminate]. split; [discriminate|]. split; [discriminate|].
    intros [[_ E]|[[E _]|[(n & E & _)|(x & E & _)]]]; try discriminate.
  - apply negb_true_iff, Z.eqb_neq in H. split; [discriminate|]. split; [discriminate|].
    intros [[E _]|[[E _]|[(n' & [= <-] & E)|(x & E & _)]]]; try discriminate.
    apply H. unfold Qeq in E; cbn in E; lia.
  - apply negb_true_iff in H. split; [discriminate|]. split; [discriminate|].
    intros [[E _]|[[E _]|[(n' & E & _)|(x' & [= <-] & E)]]]; try discriminate.
    apply Qeq_bool_iff in E; congruence.
  - split; [discriminate|]. split; [discriminate|]. intros [[E _]|[[E _]|[(n & E & _)|(x & E & _)]]]; discriminate.
  - split; [discriminate|]. split; [discriminate|]. intros [[E _]|[[E _]|[(n & E & _)|(x & E & _)]]]; discriminate.
  - split; [discriminate|]. split; [discriminate|]. intros [[E _]|[[E _]|[(n & E & _)|(x & E & _)]]]; discriminate.
Qed.

Lemma falsy_iff v : truthy v = false -> ~ true_value v.
Proof.
  unfold true_value, number_is. destruct v as [|s|[b|n|x]|i f|l|]; cbn [truthy]; intros H (A & B & C); try discriminate; try congruence.
  - apply negb_false_iff, String.eqb_eq in H; congruence.
  - destruct b; [discriminate|]. apply C; right; left; split; auto. reflexivity.
  - apply negb_false_iff, Z.eqb_eq in H. subst. apply C. right; right; left; exists 0; split; auto. reflexivity.
  - apply negb_false_iff, Qeq_bool_iff in H. apply C. right; right; right; eauto.
Qed.

(** ** Parameters *)
Definition ge_bound {T} (le : T -> T -> Prop) (bound x : option T) : Prop := forall b, bound = Some b -> exists y, x = Some y /\ le b y.
Definition le_bound {T} (le : T -> T -> Prop) (bound x : option T) : Prop := forall b, bound = Some b -> exists y, x = Some y /\ le y b.

Section bounds.
  Context {T : Type} (le : T -> T -> Prop) (leb : T -> T -> bool).
  Hypothesis leb_iff : forall x y, leb x y = true <-> le x y.

  Lemma lower_iff b x : lower leb b x = true <-> ge_bound le b x.
  Proof.
    unfold lower, ge_bound. destruct b as [b|]; [|split; [discriminate|auto]]. destruct x as [x|].
    - rewrite leb_iff. split; [intros H b' [= <-]; eauto|]. intros H; destruct (H b eq_refl) as (y & [= <-] & L); auto.
    - split; [discriminate|]. intros H; destruct (H b eq_refl) as (y & E & L); discriminate.
  Qed.

  Lemma upper_iff b x : upper leb b x = true <-> le_bound le b x.
  Proof.
    unfold upper, le_bound. destruct b as [b|]; [|split; [discriminate|auto]]. destruct x as [x|].
    - rewrite leb_iff. split; [intros H b' [= <-]; eauto|]. intros H; destruct (H b eq_refl) as (y & [= <-] & L); auto.
    - split; [discriminate|]. intros H; destruct (H b eq_refl) as (y & E & L); discriminate.
  Qed.

  Lemma bounded_iff lo hi v w : bounded leb lo hi v = Ok w <->
    w = v /\ (forall x y, fst v = Some x -> snd v = Some y -> le x y) /\ ge_bound le lo (fst v) /\ le_bound le hi (snd v).
  Proof.
    rewrite <- lower_iff, <- upper_iff. unfold bounded. destruct v as [x y]; cbn [fst snd].
    assert (O : (match x, y with Some x, Some y => leb x y | _, _ => true end = true) <-> (forall x' y', x = Some x' -> y = Some y' -> le x' y')).
    { destruct x as [x|], y as [y|]; try (split; [discriminate|auto]; fail).
      rewrite leb_iff. split; [intros H ? ? [= <-] [= <-]; auto|intros H; auto]. }
    rewrite <- O. destruct (match x, y with Some x, Some y => leb x y | _, _ => true end); cbn [negb]; [|split; [discriminate|intros (_ & E & _); discriminate]].
    destruct (lower leb lo x); cbn [negb]; [|split; [discriminate|intros (_ & _ & E & _); discriminate]].
    destruct (upper leb hi y); cbn [negb]; [|split; [discriminate|intros (_ & _ & _ & E); discriminate]].
    split; [intros [= <-]; auto|intros (-> & _); auto].
  Qed.
End bounds.

Lemma int_parameter_ok lo hi v w : int_parameter lo hi v = Ok w <->
  int_range v (fst w) (snd w) /\ ge_bound Z.le lo (fst w) /\ le_bound Z.le hi (snd w).
Proof.
  destruct v as [| |[b|n|q]|[x y] f| |]; cbn [int_parameter];
    try (split; [discriminate|intros (H & _); inversion H]; fail).
  - rewrite (bounded_iff Z.le) by apply Z.leb_le. cbn [fst snd]. split.
    + intros (-> & A & B & C); cbn [fst snd]. split; [constructor|auto].
    + intros (A & B & C). destruct w as [w1 w2]; cbn [fst snd] in *. inversion A; subst. split; auto. split; auto. intros ? ? [= <-] [= <-]; lia.
  - rewrite (bounded_iff Z.le) by apply Z.leb_le. cbn [fst snd]. split.
    + intros (-> & A & B & C); cbn [fst snd]. split; [constructor; auto|auto].
    + intros (A & B & C). destruct w as [w1 w2]; cbn [fst snd] in *. inversion A; subst. auto.
Qed.

Lemma float_parameter_ok lo hi v w : float_parameter lo hi v = Ok w <->
  float_range v (fst w) (snd w) /\ ge_bound Qle lo (fst w) /\ le_bound Qle hi (snd w).
Proof.
  destruct v as [| |[b|n|q]|i [x y]| |]; cbn [float_parameter];
    try (split; [discriminate|intros (H & _); inversion H]; fail).
  - rewrite (bounded_iff Qle) by apply Qle_bool_iff. cbn [fst snd]. split.
    + intros (-> & A & B & C); cbn [fst snd]. split; [constructor|auto].
    + intros (A & B & C). destruct w as [w1 w2]; cbn [fst snd] in *. inversion A; subst. split; auto. split; auto. intros ? ? [= <-] [= <-]; lra.
  - rewrite (bounded_iff Qle) by apply Qle_bool_iff. cbn [fst snd]. split.
    + intros (-> & A & B & C); cbn [fst snd]. split; [constructor; auto|auto].
    + intros (A & B & C). destruct w as [w1 w2]; cbn [fst snd] in *. inversion A; subst. auto.
Qed.

Lemma ge_int n x : ge_bound Z.le (Some n) x <-> at_least n x.
Proof. unfold ge_bound, at_least. split; [intros H; apply (H n eq_refl)|intros H b [= <-]; auto]. Qed.
Lemma le_int n x : le_bound Z.le (Some n) x <-> at_most n x.
Proof. unfold le_bound, at_most. split; [intros H; apply (H n eq_refl)|intros H b [= <-]; auto]. Qed.
Lemma ge_zero x : ge_bound Qle (Some 0%Q) x <-> nonnegative x.
Proof. unfold ge_bound, nonnegative. split; [intros H; apply (H _ eq_refl)|intros H b [= <-]; auto]. Qed.
Lemma le_one x : le_bound Qle (Some 1%Q) x <-> at_most_one x.
Proof. unfold le_bound, at_most_one. split; [intros H; apply (H _ eq_refl)|intros H b [= <-]; auto]. Qed.
Lemma le_none {T} (le : T -> T -> Prop) x : le_bound le None x.
Proof. intros b; discriminate. Qed.

Lemma fraction_ok v w : float_parameter (Some 0%Q) (Some 1%Q) v = Ok w <->
  float_range v (fst w) (snd w) /\ nonnegative (fst w) /\ at_most_one (snd w).
Proof. rewrite float_parameter_ok, ge_zero, le_one. tauto. Qed.
Lemma positive_ok v w : float_parameter (Some 0%Q) None v = Ok w <-> float_range v (fst w) (snd w) /\ nonnegative (fst w).
Proof. rewrite float_parameter_ok, ge_zero. pose proof (le_none Qle (snd w)). tauto. Qed.

Lemma fraction_iff v : fraction v <-> exists w, float_parameter (Some 0%Q) (Some 1%Q) v = Ok w.
Proof.
  unfold fraction. split.
  - intros (lo & hi & A & B & C). exists (lo, hi). apply fraction_ok; auto.
  - intros ((lo & hi) & H). apply fraction_ok in H. cbn in H; eauto.
Qed.
Lemma positive_iff v : positive_float v <-> exists w, float_parameter (Some 0%Q) None v = Ok w.
Proof.
  unfold positive_float. split.
  - intros (lo & hi & A & B). exists (lo, hi). apply positive_ok; auto.
  - intros ((lo & hi) & H). apply positive_ok in H. cbn in H; destruct H; eauto.
Qed.

Lemma int_range_fun v x y x' y' : int_range v x y -> int_range v x' y' -> x = x' /\ y = y'.
Proof. intros A B; inversion A; subst; inversion B; subst; auto. Qed.

(** ** Update *)
Lemma relative_floor r n : 1 <= n -> (0 < r)%Q -> relative r n (Z.max 1 (Qfloor (r * inject_Z n))).
Proof.
  intros N R. unfold relative. split; [lia|]. split.
  - eapply Qlt_le_trans; [apply Qlt_floor|]. rewrite <- Zle_Qle. lia.
  - destruct (Z_le_gt_dec (Qfloor (r * inject_Z n)) 1); [left; lia|right]. rewrite Z.max_r by lia. apply Qfloor_le.
Qed.

Lemma relative_most r n k : 1 <= n -> (r <= 1)%Q -> relative r n k -> k <= n.
Proof.
  intros N R (A & B & C). destruct C as [->|C]; [lia|]. rewrite Zle_Qle.
  eapply Qle_trans; [exact C|]. rewrite <- (Qmult_1_l (inject_Z n)) at 2. apply Qmult_le_compat_r; auto.
  change 0%Q with (inject_Z 0). rewrite <- Zle_Qle. lia.
Qed.

Lemma relative_fun r n k k' : relative r n k -> relative r n k' -> k = k'.
Proof.
  assert (G : forall k k', relative r n k -> relative r n k' -> k <= k').
  { clear. intros k k' (A & B & C) (A' & B' & C'). destruct C as [->|C]; [lia|].
    assert (L : (inject_Z k < inject_Z (k' + 1))%Q) by (eapply Qle_lt_trans; eauto).
    rewrite <- Zlt_Qlt in L. lia. }
  intros A B; apply Z.le_antisymm; auto.
Qed.

Lemma frequency_range u batch most f lo : NoDup (map fst u) -> int_range batch lo (Some most) -> at_least 1 lo ->
  get_or "frequency" VNone u <> VStr "never" ->
  (exists v, frequency_value (get_or "frequency" VNone u) batch = Ok v /\ int_parameter (Some 1) (Some (Z.max 2 most)) v = Ok f) <->
  frequency_effect u batch most f.
Proof.
  intros ND R L N. unfold frequency_effect.
  assert (B : forall n, batch = VNum (NInt n) -> 1 <= n /\ most = n).
  { intros n ->. inversion R; subst. destruct L as (x & [= ->] & L); auto. }
  split.
  - intros (v & E & P). rewrite int_parameter_ok, ge_int, le_int in P. destruct P as (P1 & P2 & P3).
    destruct (get_or "frequency" VNone u) as [|s|[b|n|q]|i fl|l|] eqn:G; cbn [frequency_value] in E;
      try (injection E as <-; right; right; eexists; split; [apply get_or_some; [auto| |exact G]; discriminate|auto]).
    + injection E as <-. left. split; [apply get_or_none; auto|auto].
    + destruct (Qle_bool q 0) eqn:Q0; cbn [orb] in E; [discriminate|].
      destruct (Qle_bool q 1) eqn:Q1; cbn [negb] in E; [|discriminate].
      destruct batch as [| |[|n|]| | |]; try discriminate. injection E as <-.
      destruct (B n eq_refl) as [N1 ->].
      assert (0 < q)%Q. { apply Qnot_le_lt. intros H. apply Qle_bool_iff in H. congruence. }
      right; left. exists q, n, (Z.max 1 (Qfloor (q * inject_Z n))). split; [apply get_or_some; auto; discriminate|].
      split; [split; auto; apply Qle_bool_iff; auto|]. split; auto. split; [apply relative_floor; auto|].
      destruct f as [f1 f2]; cbn [fst snd] in *. inversion P1; subst; auto.
  - intros [(U & P)|[(r & n & k & G & (R0 & R1) & -> & K & ->)|(v & G & P & P2 & P3)]].
    + apply get_or_none in U; auto. rewrite U. cbn. exists batch. split; auto. rewrite int_parameter_ok, ge_int, le_int.
      destruct (int_range_fun _ _ _ _ _ R P) as [<- <-]. split; auto. split; auto. exists most; split; auto; lia.
    + apply (get_or_some _ _ (VNum (NFloat r))) in G; auto; [|discriminate]. rewrite G. cbn [frequency_value].
      destruct (B n eq_refl) as [N1 ->].
      assert (Q0 : Qle_bool r 0 = false). { apply not_true_is_false. rewrite Qle_bool_iff. lra. }
      assert (Q1 : Qle_bool r 1 = true) by (apply Qle_bool_iff; auto). rewrite Q0, Q1; cbn [orb negb].
      eexists; split; [reflexivity|]. rewrite (relative_fun _ _ _ _ (relative_floor r n N1 R0) K).
      rewrite int_parameter_ok, ge_int, le_int; cbn [fst snd]. split; [constructor|].
      assert (k <= n) by (apply (relative_most r n k); auto).
      destruct K as (K & _). split; [exists k; auto|]. exists k; split; auto. lia.
    + exists v. assert (V : v <> VNone) by (intros ->; inversion P).
      apply (get_or_some _ _ v) in G; auto. rewrite G. split.
      * inversion P; subst; reflexivity.
      * rewrite int_parameter_ok, ge_int, le_int; auto.
Qed.

Lemma start_range u s : NoDup (map fst u) ->
  int_parameter (Some 0) None (match get_or "start" VNone u with VNone => VNum (NInt 0) | x => x end) = Ok s <-> start_effect u s.
Proof.
  intros ND. rewrite int_parameter_ok, ge_int. unfold start_effect. split.
  - intros (A & B & _). destruct (get_or "start" VNone u) eqn:G;
      try (right; eexists; split; [apply get_or_some; [auto| |exact G]; discriminate|split; auto]; fail).
    left. split; [apply get_or_none; auto|]. destruct s; cbn in *; inversion A; subst; auto.
  - intros [(U & ->)|(v & G & R & L)].
    + apply get_or_none in U; auto. rewrite U. cbn. split; [constructor|]. split; [exists 0; split; auto; lia|apply le_none].
    + assert (V : v <> VNone) by (intros ->; inversion R). apply (get_or_some _ _ v) in G; auto. rewrite G.
      split; [destruct v; auto; congruence|]. split; [auto|apply le_none].
Qed.

Lemma update_ok u r : NoDup (map fst u) -> update_spec u = Ok r <-> update_effect u r.
Proof.
  intros ND. unfold update_spec, update_effect.
  assert (K : from ["batch_size"; "frequency"; "start"; "unit"] u = true <-> only ["unit"; "batch_size"; "frequency"; "start"] u).
  { rewrite from_iff. apply only_same. intros k; cbn; intuition. }
  destruct (from _ u); cbn [negb]; [|split; [discriminate|intros (H & _); apply K in H; discriminate]].
  assert (K' := proj1 K eq_refl). clear K.
  destruct (get_cases "unit" u ND) as [(unit & -> & Gu)|(-> & Gu)].
  2:{ split; [discriminate|]. intros (_ & _ & G & _). destruct (given_omitted _ _ _ G Gu). }
  destruct (is_str "timesteps" unit || is_str "episodes" unit) eqn:U; cbn [negb].
  2:{ split; [discriminate|]. intros (_ & I & G & _). rewrite (given_fun _ _ _ _ ND Gu G) in U.
      destruct I as [E|[E|[]]]; rewrite <- E in U; discriminate. }
  assert (UU : exists name, name = (if is_str "timesteps" unit then "timesteps" else "episodes") /\ unit = VStr name /\ In name ["timesteps"; "episodes"]).
  { apply orb_true_iff in U. rewrite !is_str_iff in U. destruct U as [-> | ->]; cbn; eexists; cbn; split; eauto. }
  destruct UU as (name & <- & -> & I). clear U.
  destruct (get_cases "batch_size" u ND) as [(batch & -> & Gb)|(-> & Gb)].
  2:{ split; [discriminate|]. intros (_ & _ & _ & b & G & _). destruct (given_omitted _ _ _ G Gb). }
  rewrite bind_ok. split.
  - intros (b & B & E). rewrite int_parameter_ok, ge_int in B. destruct B as (B1 & B2 & _).
    destruct (is_str "never" (get_or "frequency" VNone u)) eqn:Nv.
    + injection E as <-. cbn [u_unit u_batch u_frequency u_start]. split; auto. split; auto. split; auto.
      exists batch. split; auto. split; auto. split; auto. left. apply is_str_iff in Nv. apply get_or_some in Nv; auto. discriminate.
    + assert (Nv' : get_or "frequency" VNone u <> VStr "never") by (rewrite <- is_str_iff; congruence).
      apply bind_inv in E. destruct E as (v & V & E). destruct b as [b1 b2]; cbn [fst snd] in *.
      destruct b2 as [most|]; [|discriminate].
      apply bind_inv in E. destruct E as (f & F & E). apply bind_inv in E. destruct E as (s & S & E). injection E as <-.
      cbn [u_unit u_batch u_frequency u_start fst snd]. split; auto. split; auto. split; auto.
      exists batch. split; auto. split; auto. split; auto. right. exists most, f, s.
      split; [intros G; apply Nv', get_or_some; auto; discriminate|]. split; auto. split; auto. split; auto. split.
      * apply (frequency_range u batch most f b1); eauto.
      * apply start_range; auto.
  - intros (_ & I' & Gu' & batch' & Gb' & B1 & B2 & C).
    rewrite <- (given_fun _ _ _ _ ND Gb Gb') in *. clear batch' Gb'.
    assert (En : u_unit r = name) by (assert (X := given_fun _ _ _ _ ND Gu Gu'); congruence).
    exists (u_batch r). split; [rewrite int_parameter_ok, ge_int; split; auto; split; auto; apply le_none|].
    destruct r as [r1 r2 r3 r4]; cbn [u_unit u_batch u_frequency u_start] in *. subst r1.
    destruct C as [(G & -> & ->)|(most & f & s & G & E & -> & -> & F & S)].
    + apply (get_or_some _ _ (VStr "never")) in G; auto; [|discriminate]. rewrite G. cbn. auto.
    + assert (Nv : get_or "frequency" VNone u <> VStr "never").
      { intros X. apply G. apply get_or_some in X; auto. discriminate. }
      destruct (is_str "never" (get_or "frequency" VNone u)) eqn:Nb; [apply is_str_iff in Nb; congruence|].
      rewrite E in *.
      apply (frequency_range u batch most f (fst r2)) in F; auto. destruct F as (v & -> & F). cbn [bind]. rewrite F; cbn [bind].
      apply start_range in S; auto. rewrite S. cbn [bind]. reflexivity.
Qed.

Lemma good_update_iff u : NoDup (map fst u) -> good_update u <-> exists r, update_spec u = Ok r.
Proof.
  intros ND. unfold good_update. split.
  - intros (O & U & batch & lo & hi & Gb & R & L & C).
    assert (X : exists name, given "unit" u (VStr name) /\ In name ["timesteps"; "episodes"]) by (cbn; destruct U; eauto).
    destruct X as (name & Gu & I).
    destruct C as [N|(most & -> & F & S)].
    + exists {| u_unit := name; u_batch := (lo, hi); u_frequency := None; u_start := None |}. apply update_ok; auto.
      unfold update_effect; cbn. split; auto. split; auto. split; auto. exists batch; auto 7.
    + destruct (get_or "frequency" VNone u) eqn:G.
      2:{ destruct F as [F|[(r & n & F & _)|(f & a & b & F & R' & _)]].
          - apply get_or_none in F; auto. congruence.
          - apply (get_or_some _ _ (VNum (NFloat r))) in F; auto; [congruence|discriminate].
          - apply (get_or_some _ _ f) in F; auto; [|intros ->; inversion R']. rewrite G in F; subst f. inversion R'. }
      all: assert (Nv : ~ given "frequency" u (VStr "never")) by
        (intros X; apply (get_or_some _ _ (VStr "never")) in X; auto; [congruence|discriminate]).
      all: assert (Fe : exists f, frequency_effect u batch most f) by
        (destruct F as [F|[(r' & n' & F & -> & R0)|(f' & a' & b' & F & R1 & R2 & R3)]];
         [exists (lo, Some most); left; auto
         |inversion R; subst; destruct L as (x & [= <-] & L); destruct R0 as [R0 R1];
          eexists; right; left; do 3 eexists; split; [exact F|]; split; [split; auto|]; split; [reflexivity|]; split; [apply relative_floor; auto|reflexivity]
         |exists (a', b'); right; right; eauto]).
      all: assert (Se : exists s, start_effect u s) by
        (destruct S as [S|(v' & a' & b' & S & R1 & R2)]; [exists (Some 0, Some 0); left; auto|exists (a', b'); right; eauto]).
      all: destruct Fe as (f' & Fe); destruct Se as (s' & Se);
        exists {| u_unit := name; u_batch := (lo, Some most); u_frequency := Some f'; u_start := Some s' |}; apply update_ok; auto;
        unfold update_effect; cbn [u_unit u_batch u_frequency u_start fst snd]; split; auto; split; auto; split; auto;
        exists batch; split; auto; split; auto; split; auto; right; exists most, f', s'; auto 8.
  - intros (r & H). apply update_ok in H; auto. destruct H as (O & I & Gu & batch & Gb & R & L & C).
    split; auto. split; [destruct I as [E|[E|[]]]; rewrite <- E in Gu; auto|].
    exists batch, (fst (u_batch r)), (snd (u_batch r)). split; auto. split; auto. split; auto.
    destruct C as [(G & _)|(most & f & s & _ & E & _ & _ & F & S)]; [auto|right].
    exists most. split; auto. unfold good_frequency, good_start. split.
    + destruct F as [(F & _)|[(q & n & k & F & Q & -> & _)|(v & F & A & B & C)]]; [auto|right; left; eauto|right; right; eauto 7].
    + destruct S as [(S & _)|(v & S & A & B)]; [auto|right; eauto 7].
Qed.
