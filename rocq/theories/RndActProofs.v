(** Lemmas about single random and constant actions. *)
From Coq Require Import String List ZArith QArith Qround Bool Lia Lqa.
From Verif Require Import Base SpecSpec SpecModel SpecProofs RndSpec RndModel RndProofs.
Import ListNotations.
Open Scope list_scope.
Open Scope nat_scope.

Section Act.
Variable junk : num -> res Z.

(** TensorFlow draws are in the ranges asked for *)
Definition draws_ok (d : draws) : Prop :=
  (forall i, (0 <= d_uniform d i < 1)%Q) /\ forall lo hi i, (lo < hi)%Z -> (lo <= d_int d lo hi i < hi)%Z.

(** the action is chosen from masked options *)
Definition masked (c : config) (s : spec) : bool :=
  cf_masking c && match sp_type s, sp_num s with TyOne TInt, Some _ => true | _, _ => false end.

Lemma some_allowed_length mask n dims i : some_allowed mask n dims -> in_range i dims -> 0 < length (allowed mask n i).
Proof. intros H Hi. specialize (H i Hi). destruct (allowed mask n i); [contradiction|cbn; lia]. Qed.

Lemma fits_option s sh n b mask i a : constructible junk s -> action_spec s TInt sh -> sp_num s = Some n ->
  In a (allowed mask (Z.to_nat n) i) -> in_range i (b :: sh) -> entry_fits s (skipn 1 i) (option_no a).
Proof.
  intros Hc Ha Hn Hin Hi. apply allowed_in in Hin. destruct Hin as [Hlt _].
  pose proof (constructible_valid junk s Hc) as V. destruct Ha as (_ & _ & _ & H4 & _). destruct (H4 n Hn) as [_ Hpos].
  unfold option_no. split; [exact I|]. split; [|split].
  - intros bd Hb. destruct (v_min s V n bd Hn Hb) as (q & -> & Hq). cbn. intro X. rewrite Hq in X. change 0%Q with (inject_Z 0) in X. rewrite <- Zlt_Qlt in X. lia.
  - intros bd Hb. destruct (v_max s V n bd Hn Hb) as (q & -> & Hq). cbn. intro X. rewrite Hq in X. rewrite <- Zlt_Qlt in X. lia.
  - intros n' Hn' _. assert (n' = n) by congruence. subst n'. cbn. split.
    + intro X. change 0%Q with (inject_Z 0) in X. rewrite <- Zlt_Qlt in X. lia.
    + rewrite <- Zlt_Qlt. lia.
Qed.

(** masked actions, with any offsets within the allowed options *)
Lemma masked_described b m name s sh n o : constructible junk s -> action_spec s TInt sh -> sp_num s = Some n ->
  mask_given b m name s sh -> (forall i v, in_range i (b :: sh) -> 0 < v -> o i v < v) ->
  exists mask f, lookup name m = Some mask /\ nd_shape mask = (b :: sh) ++ [Z.to_nat n] /\
    masked_actions (b :: sh) (Z.to_nat n) mask o = Ok (AInt (Nd (b :: sh) f)) /\ describes s true (AInt (Nd (b :: sh) f)) /\
    forall i, in_range i (b :: sh) -> exists a,
      nth_error (allowed mask (Z.to_nat n) i) (o i (length (allowed mask (Z.to_nat n) i))) = Some a /\ f i = Z.of_nat a.
Proof.
  intros Hc Ha Hn Hm Ho. destruct (Hm n Hn) as (mask & E1 & E2 & E3).
  destruct (masked_actions_spec (b :: sh) (Z.to_nat n) mask o E2) as (f & F1 & F2).
  { intros i Hi. apply Ho; [exact Hi|]. eapply some_allowed_length; eauto. }
  exists mask, f. split; [exact E1|]. split; [exact E2|]. split; [exact F1|]. split; [|exact F2].
  apply (describes_batch s TInt sh b); auto. intros i x Hi Hx. cbn in Hx. injection Hx as <-.
  destruct (F2 i Hi) as (a & G1 & ->). eapply fits_option; eauto. eapply nth_error_In. exact G1.
Qed.

(** what can be drawn *)
Definition drawable (c : config) (s : spec) : Prop :=
  match sp_type s with
  | TyOne TBool => True
  | TyOne TInt => masked c s = true \/ exists p q, sp_min s = Some (Scalar (Fin (inject_Z p))) /\ sp_max s = Some (Scalar (Fin (inject_Z q))) /\ (p < q)%Z
  | TyOne TFloat => sp_min s = None <-> sp_max s = None
  | _ => False
  end.

(** the entries of a random action *)
Definition random_entry (c : config) (m : masks) (name : aname) (s : spec) (d : draws) (a : arr) (i : list nat) : Prop :=
  match sp_type s with
  | TyOne TBool => exists x, a = ABool x /\ (nd_at x i = true <-> (d_uniform d i < 1 # 2)%Q)
  | TyOne TInt =>
      if masked c s
      then exists mask n k, lookup name m = Some mask /\ sp_num s = Some n /\
        nth_error (allowed mask (Z.to_nat n) i) (random_offset (d_uniform d i) (length (allowed mask (Z.to_nat n) i))) = Some k /\
        entry a i (option_no k)
      else exists p q, sp_min s = Some (Scalar (Fin (inject_Z p))) /\ sp_max s = Some (Scalar (Fin (inject_Z q))) /\
        entry a i (Fin (inject_Z (d_int d p q i)))
  | TyOne TFloat =>
      match lower s (skipn 1 i), upper s (skipn 1 i) with
      | Some (Fin p), Some (Fin q) => exists x, entry a i (Fin x) /\ (x == p + d_uniform d i * (q - p))%Q
      | _, _ => entry a i (Fin (d_normal d i))
      end
  | _ => False
  end.

Lemma random_action_spec c b m name s t sh d : constructible junk s -> action_spec s t sh -> ordered s sh -> draws_ok d ->
  drawable c s -> (masked c s = true -> mask_given b m name s sh) ->
  exists a, random_action c b m name s d = Ok a /\ arr_shape a = b :: sh /\ describes s true a /\
    forall i, in_range i (b :: sh) -> random_entry c m name s d a i.
Proof.
  intros Hc Ha Ho [Du Dk] Hd Hm. pose proof Ha as (H1 & H2 & H3 & H4 & H5).
  unfold random_action, drawable, random_entry, batch_dims in *. rewrite (dims_of_fixed _ _ _ Ha), H1 in *.
  destruct t.
  - eexists. split; [reflexivity|]. split; [reflexivity|]. split.
    + apply (describes_batch s TBool sh b); auto. intros i x _ Hx. discriminate.
    + intros i _. eexists. split; [reflexivity|]. cbn. rewrite negb_true_iff. split.
      * intro E. apply Qnot_le_lt. intro X. apply Qle_bool_iff in X. congruence.
      * intro E. destruct (Qle_bool (1 # 2) (d_uniform d i)) eqn:X; [|reflexivity]. apply Qle_bool_iff in X. lra.
  - unfold masked in Hd, Hm |- *. rewrite H1 in Hd, Hm |- *.
    destruct (cf_masking c && match sp_num s with Some _ => true | None => false end) eqn:EM.
    + apply andb_true_iff in EM. destruct EM as [EM EN]. rewrite EM. destruct (sp_num s) as [n|] eqn:En; [|discriminate].
      destruct (masked_described b m name s sh n (fun i v => random_offset (d_uniform d i) v) Hc Ha En (Hm eq_refl)) as (mask & f & M1 & M2 & M3 & M4 & M5).
      { intros i v _ Hv. apply random_offset_lt; [apply Du|exact Hv]. }
      unfold mask_of. rewrite M1. cbn [bind]. exists (AInt (Nd (b :: sh) f)). split; [exact M3|]. split; [reflexivity|]. split; [exact M4|].
      intros i Hi. destruct (M5 i Hi) as (k & K1 & K2). exists mask, n, k. split; [reflexivity|]. split; [reflexivity|]. split; [exact K1|].
      unfold entry. cbn. rewrite K2. reflexivity.
    + destruct Hd as [Hd|(p & q & P & Q & Hpq)]; [discriminate|].
      assert (E : (match cf_masking c, TInt, sp_num s with true, TInt, Some n => do mask <- mask_of m name; masked_actions (b :: sh) (Z.to_nat n) mask (fun i v => random_offset (d_uniform d i) v)
        | _, _, _ => match sp_min s, sp_max s with Some lo, Some hi => uniform_int (b :: sh) (d_int d) lo hi | Some _, None => Err "NotImplementedError" | None, Some _ => Err "NotImplementedError"
          | None, None => Err "TypeError: random normal of integers" end end) = Ok (AInt (Nd (b :: sh) (d_int d p q)))).
      { assert (U : uniform_int (b :: sh) (d_int d) (Scalar (Fin (inject_Z p))) (Scalar (Fin (inject_Z q))) = Ok (AInt (Nd (b :: sh) (d_int d p q)))).
        { unfold uniform_int. rewrite !trunc_int. rewrite (proj2 (Z.ltb_lt p q) Hpq). reflexivity. }
        rewrite P, Q. destruct (cf_masking c); [|exact U]. destruct (sp_num s); [discriminate|exact U]. }
      rewrite E. eexists. split; [reflexivity|]. split; [reflexivity|]. split.
      * apply (describes_batch s TInt sh b); auto. intros i x Hi Hx. cbn in Hx. injection Hx as <-.
        destruct (Dk p q i Hpq) as [K1 K2]. split; [exact I|]. split; [|split].
        -- intros bd Hb. rewrite P in Hb. injection Hb as <-. cbn. rewrite <- Zlt_Qlt. lia.
        -- intros bd Hb. rewrite Q in Hb. injection Hb as <-. cbn. rewrite <- Zlt_Qlt. lia.
        -- intros n Hn Hpos. pose proof (constructible_valid junk s Hc) as V.
           destruct (v_min s V n _ Hn P) as (q1 & E1 & Q1). destruct (v_max s V n _ Hn Q) as (q2 & E2 & Q2).
           injection E1 as <-. injection E2 as <-. change 0%Q with (inject_Z 0) in Q1. rewrite inject_Z_injective in Q1, Q2. subst p q.
           cbn. split; [intro X; change 0%Q with (inject_Z 0) in X; rewrite <- Zlt_Qlt in X; lia|rewrite <- Zlt_Qlt; lia].
      * intros i Hi. exists p, q. split; [exact P|]. split; [exact Q|]. reflexivity.
  - assert (N : forall X, (match cf_masking c, TFloat, sp_num s with true, TInt, Some n => X n | _, _, _ =>
        match sp_min s, sp_max s with Some lo, Some hi => uniform_float (b :: sh) (d_uniform d) lo hi | Some _, None => Err "NotImplementedError"
          | None, Some _ => Err "NotImplementedError" | None, None => Ok (AFloat (Nd (b :: sh) (fun i => Fin (d_normal d i)))) end end) =
        match sp_min s, sp_max s with Some lo, Some hi => uniform_float (b :: sh) (d_uniform d) lo hi | Some _, None => Err "NotImplementedError"
          | None, Some _ => Err "NotImplementedError" | None, None => Ok (AFloat (Nd (b :: sh) (fun i => Fin (d_normal d i)))) end).
    { intro X. destruct (cf_masking c); reflexivity. }
    rewrite (N (fun _ => Err "")). clear N.
    assert (NN : sp_num s = None). { destruct (sp_num s) as [n|] eqn:En; [|reflexivity]. destruct (H4 n eq_refl). discriminate. }
    destruct (sp_min s) as [lo|] eqn:El, (sp_max s) as [hi|] eqn:Eh.
    + destruct Ho as [Hp Ho]. destruct (uniform_float_spec b sh (d_uniform d) lo hi) as (r & R1 & R2 & R3); [apply Hp; auto..|].
      assert (RR : forall i, in_range i (b :: sh) -> exists p q, bound_at lo (skipn 1 i) = Fin p /\ bound_at hi (skipn 1 i) = Fin q /\ (p < q)%Q).
      { intros i Hi. pose proof (in_range_skip _ _ _ Hi) as Hi'.
        destruct (Ho (skipn 1 i) (bound_at lo (skipn 1 i)) Hi') as [O1 O2].
        destruct (Ho (skipn 1 i) (bound_at hi (skipn 1 i)) Hi') as [O3 _].
        unfold lower, upper in *. rewrite El, Eh in *. cbn [option_map] in O1, O2, O3.
        specialize (O1 (or_introl eq_refl)). specialize (O3 (or_intror eq_refl)). specialize (O2 _ eq_refl eq_refl).
        destruct (bound_at lo (skipn 1 i)) as [p| | |], (bound_at hi (skipn 1 i)) as [q| | |]; cbn [finite] in O1, O3; try contradiction. exists p, q. auto. }
      exists (AFloat r). split; [exact R1|]. split; [exact R2|]. split.
      * apply (describes_batch s TFloat sh b); auto. intros i x Hi Hx. cbn in Hx. injection Hx as <-. rewrite R3 by exact Hi.
        destruct (RR i Hi) as (p & q & E1 & E2 & Hlt). rewrite E1, E2. cbn [num2].
        destruct (between_draw (d_uniform d i) p q (Du i) Hlt) as [B1 B2]. split; [exact I|]. split; [|split].
        -- intros bd Hb. rewrite El in Hb. injection Hb as <-. rewrite E1. cbn. lra.
        -- intros bd Hb. rewrite Eh in Hb. injection Hb as <-. rewrite E2. cbn. lra.
        -- intros n Hn. congruence.
      * intros i Hi. unfold lower, upper. rewrite El, Eh. cbn [option_map]. destruct (RR i Hi) as (p & q & E1 & E2 & _). rewrite E1, E2.
        eexists. split; [unfold entry; cbn [arr_entry]; rewrite R3 by exact Hi; rewrite E1, E2; reflexivity|]. lra.
    + destruct Hd as [_ Hd]. discriminate (Hd eq_refl).
    + destruct Hd as [Hd _]. discriminate (Hd eq_refl).
    + eexists. split; [reflexivity|]. split; [reflexivity|]. split.
      * apply (describes_batch s TFloat sh b); auto. intros i x Hi Hx. cbn in Hx. injection Hx as <-. split; [exact I|].
        repeat split; intros; congruence.
      * intros i Hi. unfold lower. rewrite El. reflexivity.
Qed.

(** ** Constant actions *)
Definition value_at (a : arr) (i : list nat) (v : cval) : Prop :=
  match a, v with
  | ABool x, CBool y => nd_at x i = y
  | AInt x, CInt y => nd_at x i = y
  | AFloat x, CFloat y => nd_at x i = y
  | _, _ => False
  end.

(** bounds are numbers *)
Definition number_bounds (s : spec) : Prop := forall b, sp_min s = Some b \/ sp_max s = Some b -> exists q, b = Scalar (Fin q).

(** a constant can be chosen without being given *)
Definition has_default (c : config) (s : spec) : Prop :=
  match sp_type s with
  | TyOne TInt => masked c s = true \/ (number_bounds s /\ (sp_min s = None \/ sp_max s = None))
  | _ => number_bounds s
  end.

(** the default of an action which is not chosen from masked options *)
Definition default_value (s : spec) (v : cval) : Prop :=
  match sp_type s, sp_min s, sp_max s with
  | TyOne TBool, _, _ => v = CBool false
  | TyOne TInt, None, None => v = CInt 0
  | TyOne TInt, Some (Scalar (Fin q)), None | TyOne TInt, None, Some (Scalar (Fin q)) => exists z, v = CInt z /\ (q == inject_Z z)%Q
  | TyOne TFloat, None, None => v = CFloat (Fin 0)
  | TyOne TFloat, Some (Scalar (Fin p)), Some (Scalar (Fin q)) => exists x, v = CFloat (Fin x) /\ (x == (p + q) / 2)%Q
  | TyOne TFloat, Some (Scalar (Fin q)), None | TyOne TFloat, None, Some (Scalar (Fin q)) => v = CFloat (Fin q)
  | _, _, _ => False
  end.

Lemma fill_value dims v i : value_at (fill dims v) i v.
Proof. destruct v; reflexivity. Qed.
Lemma fill_shape dims v : arr_shape (fill dims v) = dims.
Proof. destruct v; reflexivity. Qed.

Lemma int_bound s b : constructible junk s -> sp_type s = TyOne TInt -> sp_min s = Some b \/ sp_max s = Some b ->
  (exists q, b = Scalar (Fin q)) -> exists z, b = Scalar (Fin (inject_Z z)).
Proof.
  intros Hc Ht Hb (q & ->). pose proof (v_int s (constructible_valid junk s Hc)) as V. rewrite Ht in V.
  destruct (V eq_refl _ Hb) as (z & E). exists z. congruence.
Qed.

Lemma constant_default_spec c values b m name s t sh : constructible junk s -> action_spec s t sh -> ordered s sh ->
  lookup name values = None -> has_default c s -> (masked c s = true -> mask_given b m name s sh) ->
  (sp_num s <> None -> sp_min s <> None /\ sp_max s <> None) ->
  exists a, constant_action c values b m name s = Ok a /\ arr_shape a = b :: sh /\ describes s true a /\
    forall i, in_range i (b :: sh) ->
      if masked c s
      then exists mask n k l, lookup name m = Some mask /\ sp_num s = Some n /\ allowed mask (Z.to_nat n) i = k :: l /\ entry a i (option_no k)
      else exists v, default_value s v /\ value_at a i v.
Proof.
  intros Hc Ha Ho Hv Hd Hm Hnum. pose proof Ha as (H1 & H2 & H3 & H4 & H5).
  unfold constant_action, batch_dims. rewrite (dims_of_fixed _ _ _ Ha), Hv, H1.
  destruct (masked c s) eqn:EM.
  - unfold masked in EM. rewrite H1 in EM. apply andb_true_iff in EM. destruct EM as [EM EN]. rewrite EM.
    destruct t; try discriminate. destruct (sp_num s) as [n|] eqn:En; [|discriminate].
    destruct (masked_described b m name s sh n (fun _ _ => 0) Hc Ha En (Hm eq_refl)) as (mask & f & M1 & M2 & M3 & M4 & M5); [auto|].
    unfold mask_of. rewrite M1. cbn [bind]. exists (AInt (Nd (b :: sh) f)). split; [exact M3|]. split; [reflexivity|]. split; [exact M4|].
    intros i Hi. destruct (M5 i Hi) as (k & K1 & K2). destruct (allowed mask (Z.to_nat n) i) as [|k' l] eqn:E; [discriminate|]. cbn in K1. injection K1 as ->.
    exists mask, n, k, l. split; [reflexivity|]. split; [reflexivity|]. split; [exact E|]. unfold entry. cbn. rewrite K2. reflexivity.
  - assert (MM : forall X Y : res arr, (match cf_masking c, t, sp_num s with true, TInt, Some n => do mask <- mask_of m name; masked_actions (b :: sh) (Z.to_nat n) mask (fun _ _ => 0) | _, _, _ => Y end) = Y).
    { intros _ Y. unfold masked in EM. rewrite H1 in EM. destruct (cf_masking c); [|reflexivity]. destruct t; try reflexivity. destruct (sp_num s); [discriminate|reflexivity]. }
    rewrite (MM (Err "")). clear MM.
    assert (NB : number_bounds s).
    { unfold has_default in Hd. rewrite H1 in Hd. destruct t; [exact Hd| |exact Hd]. destruct Hd as [Hd|[Hd _]]; [congruence|exact Hd]. }
    destruct t.
    + eexists. split; [reflexivity|]. split; [reflexivity|]. split.
      * apply (describes_batch s TBool sh b); auto. intros i x _ Hx. discriminate.
      * intros i _. exists (CBool false). unfold default_value. rewrite H1. split; reflexivity.
    + unfold has_default in Hd. rewrite H1 in Hd. destruct Hd as [Hd|[_ Hd]]; [congruence|].
      assert (NN : sp_num s = None). { destruct (sp_num s) as [n|] eqn:En; [|reflexivity]. destruct (Hnum ltac:(discriminate)) as [N1 N2]. destruct Hd; contradiction. }
      assert (FF : forall z, (forall bd, sp_min s = Some bd -> bd = Scalar (Fin (inject_Z z))) -> (forall bd, sp_max s = Some bd -> bd = Scalar (Fin (inject_Z z))) ->
        describes s true (fill (b :: sh) (CInt z))).
      { intros z F1 F2. apply (describes_batch s TInt sh b); auto. intros i x Hi Hx. cbn in Hx. injection Hx as <-. split; [exact I|]. split; [|split].
        - intros bd Hb. rewrite (F1 bd Hb). cbn. apply Qlt_irrefl.
        - intros bd Hb. rewrite (F2 bd Hb). cbn. apply Qlt_irrefl.
        - intros; congruence. }
      unfold default_value. rewrite H1.
      destruct (sp_min s) as [lo|] eqn:El, (sp_max s) as [hi|] eqn:Eh; [destruct Hd; discriminate| | |].
      * destruct (int_bound s lo Hc H1 (or_introl El) (NB lo (or_introl El))) as (z & ->). cbn [fill_bound]. rewrite trunc_int.
        eexists. split; [reflexivity|]. split; [apply fill_shape|]. split; [apply FF; intros; congruence|].
        intros i _. exists (CInt z). split; [exists z; split; reflexivity|]. apply fill_value.
      * destruct (int_bound s hi Hc H1 (or_intror Eh) (NB hi (or_intror Eh))) as (z & ->). cbn [fill_bound]. rewrite trunc_int.
        eexists. split; [reflexivity|]. split; [apply fill_shape|]. split; [apply FF; intros; congruence|].
        intros i _. exists (CInt z). split; [exists z; split; reflexivity|]. apply fill_value.
      * eexists. split; [reflexivity|]. split; [apply fill_shape|]. split; [apply FF; intros; congruence|].
        intros i _. exists (CInt 0). split; [reflexivity|]. apply fill_value.
    + assert (NN : sp_num s = None). { destruct (sp_num s) as [n|] eqn:En; [|reflexivity]. destruct (H4 n eq_refl). discriminate. }
      assert (FF : forall x, (forall q, sp_min s = Some (Scalar (Fin q)) -> (q <= x)%Q) -> (forall q, sp_max s = Some (Scalar (Fin q)) -> (x <= q)%Q) ->
        describes s true (fill (b :: sh) (CFloat (Fin x)))).
      { intros z F1 F2. apply (describes_batch s TFloat sh b); auto. intros i x Hi Hx. cbn in Hx. injection Hx as <-. split; [exact I|]. split; [|split].
        - intros bd Hb. destruct (NB bd (or_introl Hb)) as (q & ->). cbn. specialize (F1 q Hb). lra.
        - intros bd Hb. destruct (NB bd (or_intror Hb)) as (q & ->). cbn. specialize (F2 q Hb). lra.
        - intros; congruence. }
      unfold default_value. rewrite H1. unfold has_default in Hd. rewrite H1 in Hd.
      destruct (sp_min s) as [lo|] eqn:El, (sp_max s) as [hi|] eqn:Eh.
      * destruct (NB lo (or_introl El)) as (p & ->). destruct (NB hi (or_intror Eh)) as (q & ->). cbn [fill_mean num2].
        assert (Hpq : sh = sh -> (exists i, in_range i sh) -> (p < q)%Q).
        { intros _ (i & Hi). destruct Ho as [_ Ho]. destruct (Ho i (Fin p) Hi) as [_ O]. unfold lower, upper in O. rewrite El, Eh in O. exact (O (Fin q) eq_refl eq_refl). }
        assert (EX : exists i, in_range i sh). { exists (map (fun _ => 0) sh). clear - H3. induction H3; constructor; auto. }
        specialize (Hpq eq_refl EX).
        eexists. split; [reflexivity|]. split; [apply fill_shape|]. split.
        -- apply FF; intros q' E; injection E as <-; lra.
        -- intros i _. exists (CFloat (Fin (p + (1 # 2) * (q - p)))). split; [eexists; split; [reflexivity|]; unfold Qdiv; change (/ 2)%Q with (1 # 2); ring|]. apply fill_value.
      * destruct (NB lo (or_introl El)) as (p & ->). eexists. split; [reflexivity|]. split; [apply fill_shape|]. split.
        -- apply FF; intros q' E; [injection E as <-; lra|discriminate].
        -- intros i _. eexists. split; [reflexivity|]. apply fill_value.
      * destruct (NB hi (or_intror Eh)) as (p & ->). eexists. split; [reflexivity|]. split; [apply fill_shape|]. split.
        -- apply FF; intros q' E; [discriminate|injection E as <-; lra].
        -- intros i _. eexists. split; [reflexivity|]. apply fill_value.
      * eexists. split; [reflexivity|]. split; [apply fill_shape|]. split.
        -- apply FF; intros q' E; discriminate.
        -- intros i _. eexists. split; [reflexivity|]. apply fill_value.
Qed.

(** ** Given values *)
Lemma check_value_iff s t sh v x : action_spec s t sh -> number_bounds s ->
  check_value s v = Ok x <-> py_convert t v = Ok x /\
    (forall q, sp_min s = Some (Scalar (Fin q)) -> ~ num_lt (cval_num x) (Fin q)) /\
    (forall q, sp_max s = Some (Scalar (Fin q)) -> ~ num_lt (Fin q) (cval_num x)).
Proof.
  intros Ha NB. pose proof Ha as (H1 & _ & _ & _ & H5). unfold check_value. rewrite H1.
  destruct (py_convert t v) as [y|e]; cbn [bind]; [|split; [discriminate|intros (E & _); discriminate]].
  destruct t.
  - destruct (H5 eq_refl) as [-> ->]. split; [intro E; split; [exact E|split; discriminate]|intros (E & _); exact E].
  - split.
    + intro H. apply bind_inv in H. destruct H as (? & A & H). apply bind_inv in H. destruct H as (? & B & H). injection H as <-. split; [reflexivity|]. split.
      * intros q E. rewrite E in A. cbn [compare_bound bind] in A. apply num_ltb_nlt. destruct (num_ltb (cval_num y) (Fin q)); [discriminate|reflexivity].
      * intros q E. rewrite E in B. cbn [compare_bound bind] in B. apply num_ltb_nlt. destruct (num_ltb (Fin q) (cval_num y)); [discriminate|reflexivity].
    + intros (E & A & B). injection E as ->.
      assert (A' : match sp_min s with None => Ok tt | Some b => do l <- compare_bound (fun x0 => num_ltb (cval_num x) x0) b; assert_ (negb l) "action_values" end = Ok tt).
      { destruct (sp_min s) as [b|] eqn:E; [|reflexivity]. destruct (NB b (or_introl E)) as (q & ->). cbn [compare_bound bind]. specialize (A q eq_refl). apply num_ltb_nlt in A. rewrite A. reflexivity. }
      assert (B' : match sp_max s with None => Ok tt | Some b => do l <- compare_bound (fun x0 => num_ltb x0 (cval_num x)) b; assert_ (negb l) "action_values" end = Ok tt).
      { destruct (sp_max s) as [b|] eqn:E; [|reflexivity]. destruct (NB b (or_intror E)) as (q & ->). cbn [compare_bound bind]. specialize (B q eq_refl). apply num_ltb_nlt in B. rewrite B. reflexivity. }
      rewrite A'. cbn [bind]. rewrite B'. reflexivity.
  - split.
    + intro H. apply bind_inv in H. destruct H as (? & A & H). apply bind_inv in H. destruct H as (? & B & H). injection H as <-. split; [reflexivity|]. split.
      * intros q E. rewrite E in A. cbn [compare_bound bind] in A. apply num_ltb_nlt. destruct (num_ltb (cval_num y) (Fin q)); [discriminate|reflexivity].
      * intros q E. rewrite E in B. cbn [compare_bound bind] in B. apply num_ltb_nlt. destruct (num_ltb (Fin q) (cval_num y)); [discriminate|reflexivity].
    + intros (E & A & B). injection E as ->.
      assert (A' : match sp_min s with None => Ok tt | Some b => do l <- compare_bound (fun x0 => num_ltb (cval_num x) x0) b; assert_ (negb l) "action_values" end = Ok tt).
      { destruct (sp_min s) as [b|] eqn:E; [|reflexivity]. destruct (NB b (or_introl E)) as (q & ->). cbn [compare_bound bind]. specialize (A q eq_refl). apply num_ltb_nlt in A. rewrite A. reflexivity. }
      assert (B' : match sp_max s with None => Ok tt | Some b => do l <- compare_bound (fun x0 => num_ltb x0 (cval_num x)) b; assert_ (negb l) "action_values" end = Ok tt).
      { destruct (sp_max s) as [b|] eqn:E; [|reflexivity]. destruct (NB b (or_intror E)) as (q & ->). cbn [compare_bound bind]. specialize (B q eq_refl). apply num_ltb_nlt in B. rewrite B. reflexivity. }
      rewrite A'. cbn [bind]. rewrite B'. reflexivity.
Qed.

Lemma aname_eqb_eq a b : aname_eqb a b = true <-> a = b.
Proof. destruct a, b; cbn; try (split; [discriminate|discriminate]); [rewrite String.eqb_eq; split; congruence|tauto]. Qed.
Lemma lookup_not_in {V} n (l : list (aname * V)) : ~ In n (map fst l) -> lookup n l = None.
Proof.
  induction l as [|[k v] l IH]; intro H; [reflexivity|]. cbn in *. destruct (aname_eqb n k) eqn:E; [|apply IH; tauto].
  apply aname_eqb_eq in E. subst. tauto.
Qed.

Lemma constants_names actions vals : forall values, constants actions vals = Ok values -> incl (map fst values) (map fst actions).
Proof.
  induction actions as [|[n s] r IH]; cbn [constants]; intros values H; [injection H as <-; apply incl_refl|].
  destruct (lookup n vals).
  - apply bind_inv in H. destruct H as (x & _ & H). apply bind_inv in H. destruct H as (l & Hl & H). injection H as <-. cbn.
    apply incl_cons; [left; reflexivity|]. apply incl_tl. apply IH. exact Hl.
  - cbn. apply incl_tl. apply IH. exact H.
Qed.

Lemma constants_spec actions vals : NoDup (map fst actions) -> forall values, constants actions vals = Ok values ->
  forall n s, In (n, s) actions ->
  match lookup n vals with
  | Some v => exists x, check_value s v = Ok x /\ lookup n values = Some x
  | None => lookup n values = None
  end.
Proof.
  induction actions as [|[k s0] r IH]; intros ND values H n s Hin; [contradiction|]. cbn [constants] in H. cbn in ND. inversion ND as [|? ? N1 N2]; subst.
  destruct Hin as [E|Hin].
  - injection E as -> ->. destruct (lookup n vals) as [v|].
    + apply bind_inv in H. destruct H as (x & Hx & H). apply bind_inv in H. destruct H as (l & Hl & H). injection H as <-.
      exists x. split; [exact Hx|]. cbn. rewrite (proj2 (aname_eqb_eq n n) eq_refl). reflexivity.
    + apply lookup_not_in. intro X. apply N1. eapply constants_names; eassumption.
  - assert (NE : aname_eqb n k = false). { destruct (aname_eqb n k) eqn:E; [|reflexivity]. apply aname_eqb_eq in E. subst k. exfalso. apply N1. apply in_map_iff. exists (n, s). auto. }
    destruct (lookup k vals) as [v|].
    + apply bind_inv in H. destruct H as (x & Hx & H). apply bind_inv in H. destruct H as (l & Hl & H). injection H as <-.
      cbn [lookup]. rewrite NE. eapply IH; eassumption.
    + eapply IH; eassumption.
Qed.

Lemma constants_ok actions vals : (forall n s v, In (n, s) actions -> lookup n vals = Some v -> exists x, check_value s v = Ok x) ->
  exists values, constants actions vals = Ok values.
Proof.
  induction actions as [|[n s] r IH]; intro H; cbn [constants]; [eauto|].
  destruct (IH (fun n s v Hin => H n s v (or_intror Hin))) as (l & Hl). rewrite Hl.
  destruct (lookup n vals) as [v|] eqn:E; [|eauto]. destruct (H n s v (or_introl eq_refl) E) as (x & ->). cbn. eauto.
Qed.

(** a given value, if finite and within the bounds *)
Lemma given_described s t sh b v x : constructible junk s -> action_spec s t sh -> number_bounds s ->
  (sp_num s <> None -> sp_min s <> None /\ sp_max s <> None) ->
  check_value s v = Ok x -> finite (cval_num x) -> describes s true (fill (b :: sh) x).
Proof.
  intros Hc Ha NB Hnum Hx Hfin. apply (check_value_iff s t sh) in Hx; auto. destruct Hx as (E & L & U). pose proof Ha as (H1 & _ & _ & H4 & _).
  assert (ET : arr_type (fill (b :: sh) x) = t).
  { destruct t, v as [y|[]|y]; cbn in E; try discriminate; injection E as <-; reflexivity. }
  apply (describes_batch s t sh b); auto; [apply fill_shape|]. intros i y Hi Hy.
  assert (EY : y = cval_num x). { destruct x; cbn in Hy |- *; [discriminate|injection Hy as <-; reflexivity..]. } subst y. split; [exact Hfin|]. split; [|split].
  - intros bd Hb. destruct (NB bd (or_introl Hb)) as (q & ->). cbn [bound_at]. apply L, Hb.
  - intros bd Hb. destruct (NB bd (or_intror Hb)) as (q & ->). cbn [bound_at]. apply U, Hb.
  - intros n Hn Hpos. destruct (H4 n Hn) as [-> _]. destruct (Hnum ltac:(congruence)) as [N1 N2].
    destruct (sp_min s) as [lo|] eqn:El; [|contradiction]. destruct (sp_max s) as [hi|] eqn:Eh; [|contradiction].
    pose proof (constructible_valid junk s Hc) as V. destruct (v_min s V n lo Hn El) as (p & -> & P). destruct (v_max s V n hi Hn Eh) as (q & -> & Q).
    specialize (L p eq_refl). specialize (U q eq_refl).
    assert (EZ : exists z, x = CInt z). { destruct v as [y|[]|y]; cbn in E; try discriminate; injection E as <-; eauto. } destruct EZ as (z & ->).
    cbn in L, U |- *. rewrite P in L. rewrite Q in U. change 0%Q with (inject_Z 0) in *. rewrite <- !Zlt_Qlt. rewrite <- Zlt_Qlt in L, U. lia.
Qed.
End Act.
