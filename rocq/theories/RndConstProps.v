(** Claims about agents which act without learning, continued: C143 (constant actions), C144 (the
    checks of returned actions). *)
From Coq Require Import String List ZArith QArith Bool Lia Lqa.
From Verif Require Import Base SpecSpec SpecModel SpecProofs RndSpec RndModel RndProofs RndActProofs RndProps.
Import ListNotations.
Open Scope string_scope.
Open Scope list_scope.
Open Scope nat_scope.

Local Lemma forall2_impl : forall {A B} (P Q : A -> B -> Prop) l r, (forall a b, P a b -> Q a b) -> Forall2 P l r -> Forall2 Q l r.
Proof. intros A B P Q l r H F. induction F; constructor; auto. Qed.

(** ** C143: constant actions *)
(** What bool, int and float make of a value: undefined and infinite numbers are true and no integers;
    integers are rounded towards zero; numbers in a bool are 0 and 1. *)
Definition toward_zero (q : Q) (z : Z) : Prop :=
  ((0 <= q)%Q -> (inject_Z z <= q)%Q /\ (q < inject_Z (z + 1))%Q) /\
  ((q < 0)%Q -> (q <= inject_Z z)%Q /\ (inject_Z (z - 1) < q)%Q).
Definition converts (t : dtype) (v : pyarg) (x : cval) : Prop :=
  match t, v, x with
  | TBool, PyBool b, CBool b' | TBool, PyOther b, CBool b' => b' = b
  | TBool, PyNumber (Fin q), CBool b => b = true <-> ~ (q == 0)%Q
  | TBool, PyNumber _, CBool b => b = true
  | TInt, PyBool b, CInt z => z = if b then 1%Z else 0%Z
  | TInt, PyNumber (Fin q), CInt z => toward_zero q z
  | TFloat, PyBool b, CFloat y => y = Fin (if b then 1 else 0)
  | TFloat, PyNumber y, CFloat y' => y' = y
  | _, _, _ => False
  end.
Lemma trunc_toward q : toward_zero q (trunc q).
Proof.
  destruct q as [n d]. unfold toward_zero, trunc, Qle, Qlt, inject_Z. cbn [Qnum Qden]. rewrite !Z.mul_0_l, !Z.mul_1_r.
  pose proof (Z.quot_rem' n (Zpos d)). split; intro H0.
  - pose proof (Z.rem_bound_pos n (Zpos d) H0 ltac:(lia)). split; nia.
  - pose proof (Z.rem_bound_pos (- n) (Zpos d) ltac:(lia) ltac:(lia)) as B. rewrite Z.rem_opp_l in B by lia. split; nia.
Qed.
Lemma toward_zero_unique q z z' : toward_zero q z -> toward_zero q z' -> z = z'.
Proof.
  intros [A B] [A' B']. destruct (Qlt_le_dec q 0) as [H|H].
  - destruct (B H) as [B1 B2]. destruct (B' H) as [B1' B2']. assert (X : (inject_Z (z - 1) < inject_Z z')%Q) by lra. assert (Y : (inject_Z (z' - 1) < inject_Z z)%Q) by lra.
    rewrite <- Zlt_Qlt in X, Y. lia.
  - destruct (A H) as [B1 B2]. destruct (A' H) as [B1' B2']. assert (X : (inject_Z z < inject_Z (z' + 1))%Q) by lra. assert (Y : (inject_Z z' < inject_Z (z + 1))%Q) by lra.
    rewrite <- Zlt_Qlt in X, Y. lia.
Qed.
Lemma converts_iff t v x : py_convert t v = Ok x <-> converts t v x.
Proof.
  assert (O : forall A (a b : A), Ok a = Ok b <-> a = b) by (split; congruence).
  destruct t, v as [b|n|b]; cbn [py_convert]; try (destruct n as [q| | |]); cbn [converts]; rewrite ?O;
    destruct x as [b'|z|y]; cbn [converts]; try (split; [discriminate|intros []]); try (split; congruence).
  - unfold to_bool. rewrite <- Qeq_bool_iff. destruct (Qeq_bool q 0); cbn [negb]; split.
    + intro X. injection X as <-. split; [discriminate|intro N; contradiction N; reflexivity].
    + intro X. destruct b'; [|reflexivity]. exfalso. apply (proj1 X eq_refl). reflexivity.
    + intro X. injection X as <-. split; [discriminate|reflexivity].
    + intro X. rewrite (proj2 X); [reflexivity|discriminate].
  - cbn. split; congruence.
  - cbn. split; congruence.
  - cbn. split; congruence.
  - destruct b; cbn; split; congruence.
  - split; [intro X; injection X as <-; apply trunc_toward|intro X; f_equal; eapply toward_zero_unique; [apply trunc_toward|exact X]].
  - assert (E : inject_Z (b2z b) = if b then 1%Q else 0%Q) by (destruct b; reflexivity). rewrite E. split; congruence.
Qed.
(** The entries of a constant action: the given value, the first allowed option, or the
    default of the type and bounds (RndActProofs.default_value). *)
Definition constant_entry (c : config) (m : masks) (given : list (aname * pyarg)) (name : aname) (s : spec) (a : arr) (i : list nat) : Prop :=
  match lookup name given with
  | Some v => exists t x, sp_type s = TyOne t /\ converts t v x /\ value_at a i x
  | None =>
      if masked c s
      then exists mask n k l, lookup name m = Some mask /\ sp_num s = Some n /\ allowed mask (Z.to_nat n) i = k :: l /\ entry a i (option_no k)
      else exists v, default_value s v /\ value_at a i v
  end.

(** A given value is finite, within the bounds, and allowed for every entry if this is checked. *)
Definition good_value (c : config) (independent : bool) (b : nat) (m : masks) (name : aname) (s : spec) (t : dtype) (sh : list nat) (v : pyarg) : Prop :=
  number_bounds s /\
  exists x, converts t v x /\ finite (cval_num x) /\
    (forall q, sp_min s = Some (Scalar (Fin q)) -> ~ num_lt (cval_num x) (Fin q)) /\
    (forall q, sp_max s = Some (Scalar (Fin q)) -> ~ num_lt (Fin q) (cval_num x)) /\
    (t = TInt -> cf_masking c = true -> cf_assertions c = true -> independent = false ->
      exists mask n k, lookup name m = Some mask /\ sp_num s = Some n /\ x = CInt (Z.of_nat k) /\
        forall i, in_range i (b :: sh) -> In k (allowed mask (Z.to_nat n) i)).

Theorem C143_constant_partial : forall junk c independent actions given b m, NoDup (map fst actions) ->
  Forall (fun p => exists t sh, constructible junk (snd p) /\ action_spec (snd p) t sh /\ ordered (snd p) sh /\
    (sp_num (snd p) <> None -> sp_min (snd p) <> None /\ sp_max (snd p) <> None) /\
    match lookup (fst p) given with
    | Some v => good_value c independent b m (fst p) (snd p) t sh v
    | None => has_default c (snd p)
    end /\
    (t = TInt -> cf_masking c = true -> cf_assertions c = true -> masked c (snd p) = true) /\
    (masked c (snd p) = true -> mask_given b m (fst p) (snd p) sh)) actions ->
  exists r, constant_act c independent actions given b m = Ok r /\
    Forall2 (fun p a => describes (snd p) true a /\ arr_shape a = b :: dims_of (snd p) /\
      forall i, in_range i (arr_shape a) -> constant_entry c m given (fst p) (snd p) a i) actions r.
Proof.
  intros junk c independent actions given b m ND H. unfold constant_act.
  destruct (constants_ok actions given) as (values & HV).
  { intros n s v Hin Hv. rewrite Forall_forall in H. destruct (H (n, s) Hin) as (t & sh & Hc & Ha & Ho & Hnum & Hg & _). cbn in Hg. rewrite Hv in Hg.
    destruct Hg as (NB & x & X1 & _ & X2 & X3 & _). apply converts_iff in X1. exists x. apply (check_value_iff s t sh); auto. }
  rewrite HV. cbn [bind]. pose proof (constants_spec actions given ND values HV) as CS.
  apply (agent_act_ok junk c independent _ actions b m (fun p a => forall i, in_range i (arr_shape a) -> constant_entry c m given (fst p) (snd p) a i)).
  apply Forall_forall. intros [n s] Hin. rewrite Forall_forall in H. destruct (H (n, s) Hin) as (t & sh & Hc & Ha & Ho & Hnum & Hg & Hm1 & Hm2). cbn [fst snd] in *.
  specialize (CS n s Hin). pose proof Ha as (T & _).
  assert (MG : t = TInt -> cf_masking c = true -> cf_assertions c = true -> sp_num s <> None /\ mask_given b m n s sh).
  { intros Ht E1 E2. specialize (Hm1 Ht E1 E2). split; [|exact (Hm2 Hm1)]. unfold masked in Hm1. apply andb_true_iff in Hm1. destruct Hm1 as [_ X].
    destruct (sp_type s) as [|[]|]; try discriminate. destruct (sp_num s); [discriminate|discriminate X]. }
  unfold constant_entry. destruct (lookup n given) as [v|] eqn:Ev.
  - destruct CS as (x & X & L). destruct Hg as (NB & x' & X1 & X0 & X2 & X3 & X4). apply converts_iff in X1.
    assert (x' = x). { apply (check_value_iff s t sh) in X; auto. destruct X as [X _]. congruence. } subst x'.
    exists t, sh, (fill (b :: sh) x). split; [exact Hc|]. split; [exact Ha|]. split; [exact (proj1 Ho)|]. split; [exact MG|]. split.
    { unfold constant_action, batch_dims. rewrite L, (dims_of_fixed _ _ _ Ha). reflexivity. }
    split; [apply fill_shape|]. split; [eapply given_described; eauto|]. split.
    { intros i _. exists t, x. split; [exact T|]. split; [apply converts_iff; exact X1|]. apply fill_value. }
    intros Ht E1 E2 E3. destruct (X4 Ht E1 E2 E3) as (mask & k & j & Y1 & Y2 & -> & Y4). exists mask, k. split; [exact Y1|]. split; [exact Y2|].
    intros i Hi. exists j. split; [apply Y4, Hi|]. reflexivity.
  - destruct (constant_default_spec junk c values b m n s t sh Hc Ha Ho CS Hg Hm2 Hnum) as (a & A1 & A2 & A3 & A4).
    exists t, sh, a. split; [exact Hc|]. split; [exact Ha|]. split; [exact (proj1 Ho)|]. split; [exact MG|]. split; [exact A1|]. split; [exact A2|].
    split; [exact A3|]. split; [rewrite A2; exact A4|]. intros Ht E1 E2 _. specialize (Hm1 Ht E1 E2).
    destruct (sp_num s) as [k|] eqn:En; [|destruct (MG Ht E1 E2); congruence]. destruct (Hm2 Hm1 k En) as (mask & M1 & _). exists mask, k. split; [exact M1|]. split; [reflexivity|].
    intros i Hi. specialize (A4 i Hi). rewrite Hm1 in A4. destruct A4 as (mask' & k' & j & l & B1 & B2 & B3 & B4).
    assert (mask' = mask) by congruence. assert (k' = k) by congruence. subst. exists j. split; [rewrite B3; left; reflexivity|exact B4].
Qed.
Print Assumptions C143_constant_partial.
Example C143_constant_example : exists r, constant_act on false [(Some "flag", flag); (Some "pick", pick); (Some "speed", speed); (Some "free", free)] [(Some "flag", PyBool true)] 2 [(Some "pick", mask2)] = Ok r /\
  match r with
  | [ABool x; AInt y; AFloat z; AFloat w] => nd_at x [1; 1] = true /\ nd_at y [0] = 1%Z /\ nd_at y [1] = 0%Z /\ nd_at z [0] = Fin (8 # 2) /\ nd_at w [1] = Fin 0
  | _ => False
  end.
Proof.
  destruct (C143_constant_partial jk on false [(Some "flag", flag); (Some "pick", pick); (Some "speed", speed); (Some "free", free)] [(Some "flag", PyBool true)] 2 [(Some "pick", mask2)]) as (r & E & _).
  - repeat (constructor; [cbn; intuition discriminate|]). constructor.
  - constructor; [|constructor; [|constructor; [|constructor; [|constructor]]]]; cbn [fst snd].
    + exists TBool, [2]. split; [exact flag_c|]. split; [exact flag_a|]. split; [exact flag_o|]. split; [intro X; contradiction X; reflexivity|]. split; [|split; discriminate].
      split; [intros bd [X|X]; discriminate|]. exists (CBool true). split; [reflexivity|]. split; [exact I|]. split; [intros q X; discriminate|]. split; [intros q X; discriminate|]. discriminate.
    + exists TInt, []. split; [exact pick_c|]. split; [exact pick_a|]. split; [exact pick_o|]. split; [intros _; split; discriminate|]. split; [left; reflexivity|]. split; [reflexivity|]. intros _. exact mask2_given.
    + exists TFloat, []. split; [exact speed_c|]. split; [exact speed_a|]. split; [exact speed_o|]. split; [intros _; split; discriminate|]. split; [|split; discriminate].
      intros bd [X|X]; injection X as <-; eauto.
    + exists TFloat, []. split; [exact free_c|]. split; [exact free_a|]. split; [exact free_o|]. split; [intro X; contradiction X; reflexivity|]. split; [|split; discriminate].
      intros bd [X|X]; discriminate.
  - exists r. split; [exact E|]. vm_compute in E. injection E as <-. vm_compute. repeat split; reflexivity.
Qed.

(** The constructor accepts exactly the values which convert to the type of their action and are
    not outside its bounds. *)
Theorem C143_values : forall actions given, NoDup (map fst actions) ->
  Forall (fun p => exists t sh, action_spec (snd p) t sh /\ number_bounds (snd p)) actions ->
  ((exists values, constants actions given = Ok values) <->
   forall n s v t, In (n, s) actions -> lookup n given = Some v -> sp_type s = TyOne t ->
     exists x, converts t v x /\
       (forall q, sp_min s = Some (Scalar (Fin q)) -> ~ num_lt (cval_num x) (Fin q)) /\
       (forall q, sp_max s = Some (Scalar (Fin q)) -> ~ num_lt (Fin q) (cval_num x))).
Proof.
  intros actions given ND H. rewrite Forall_forall in H. split.
  - intros (values & E) n s v t Hin Hv Ht. destruct (H (n, s) Hin) as (t' & sh & Ha & NB). cbn in *. assert (t' = t) by (destruct Ha as (T & _); congruence). subst t'.
    pose proof (constants_spec actions given ND values E n s Hin) as CS. rewrite Hv in CS. destruct CS as (x & X & _).
    apply (check_value_iff s t sh) in X; auto. exists x. rewrite <- converts_iff. exact X.
  - intro G. apply constants_ok. intros n s v Hin Hv. destruct (H (n, s) Hin) as (t & sh & Ha & NB). cbn in *.
    destruct (G n s v t Hin Hv (proj1 Ha)) as (x & X). exists x. rewrite <- converts_iff in X. apply (check_value_iff s t sh); auto.
Qed.
Print Assumptions C143_values.
Example C143_values_example : exists e, constants [(Some "speed", speed)] [(Some "speed", PyNumber (Fin (inject_Z 7)))] = Err e.
Proof.
  destruct (constants [(Some "speed", speed)] [(Some "speed", PyNumber (Fin (inject_Z 7)))]) as [l|e] eqn:E; [|eauto]. exfalso.
  destruct (proj1 (C143_values [(Some "speed", speed)] [(Some "speed", PyNumber (Fin (inject_Z 7)))] ltac:(repeat constructor; cbn; tauto)
    ltac:(constructor; [exists TFloat, []; split; [exact speed_a|intros bd [X|X]; injection X as <-; eauto]|constructor])) (ex_intro _ l E)
    (Some "speed") speed _ TFloat (or_introl eq_refl) eq_refl eq_refl) as (x & X & _ & U).
  apply converts_iff in X. injection X as <-. apply (U (inject_Z 6) eq_refl). reflexivity.
Qed.

(** Values for names which are not actions are ignored, so is a value for "action" if there is a
    single unnamed action. *)
Theorem C143_ignored_refuted : forall junk c independent b m v, exists r,
  constant_act c independent [(None, free)] [(Some "action", v)] b m = Ok [r] /\
  constant_act c independent [(None, free)] [] b m = Ok [r] /\ (forall i, entry r i (Fin 0)) /\ constructible junk free.
Proof.
  intros junk c independent b m v. exists (AFloat (Nd [b] (fun _ => Fin 0))).
  assert (E : agent_act c independent (fun n s => constant_action c [] b m n s) [(None, free)] b m = Ok [AFloat (Nd [b] (fun _ => Fin 0))]).
  { destruct (agent_act_ok junk c independent (fun n s => constant_action c [] b m n s) [(None, free)] b m (fun p a => a = AFloat (Nd [b] (fun _ => Fin 0)))) as (r & R1 & R2).
    - constructor; [|constructor]. cbn [fst snd]. exists TFloat, [], (AFloat (Nd [b] (fun _ => Fin 0))).
      split; [eapply (make_constructible junk (TyOne TFloat) (Some []) None None None); reflexivity|]. split; [exact free_a|]. split; [intros bd [X|X]; discriminate|].
      split; [discriminate|]. split; [unfold constant_action; cbn; destruct (cf_masking c); reflexivity|]. split; [reflexivity|]. split.
      { apply (describes_batch free TFloat [] b); [exact free_a|reflexivity|reflexivity|]. intros i x _ X. injection X as <-. split; [exact I|]. repeat split; intros; discriminate. }
      split; [reflexivity|discriminate].
    - rewrite R1. inversion R2 as [|? ? ? ? (_ & _ & ->) R3]; subst. inversion R3; subst. reflexivity. }
  split; [exact E|]. split; [exact E|]. split; [reflexivity|]. eapply (make_constructible junk (TyOne TFloat) (Some []) None None None); reflexivity.
Qed.
Print Assumptions C143_ignored_refuted.

(** Given values ignore the mask: act fails, an independent act returns a forbidden option. *)
Theorem C143_forbidden_refuted :
  (exists e, constant_act on false [(None, pick)] [(None, PyNumber (Fin 0))] 2 [(None, mask2)] = Err e) /\
  exists r, constant_act on true [(None, pick)] [(None, PyNumber (Fin 0))] 2 [(None, mask2)] = Ok [r] /\
    entry r [0] (option_no 0) /\ allowed mask2 3 [0] = [1; 2].
Proof. split; [eexists; reflexivity|]. eexists. split; [reflexivity|]. split; reflexivity. Qed.
Print Assumptions C143_forbidden_refuted.

(** Integers between two bounds have no constant, unless given (the mean is a float); nor have
    floats with arrays of bounds. *)
Theorem C143_integers_refuted : forall junk c s sh values given independent name b m p q,
  constructible junk s -> action_spec s TInt sh -> sp_min s = Some p -> sp_max s = Some q -> masked c s = false ->
  lookup name given = None -> constants [(name, s)] given = Ok values ->
  exists e, constant_act c independent [(name, s)] given b m = Err e.
Proof.
  intros junk c s sh values given independent name b m p q Hc Ha Hp Hq Hm Hg Hv. unfold constant_act. rewrite Hv. cbn [bind].
  pose proof (constants_spec [(name, s)] given ltac:(repeat constructor; cbn; tauto) values Hv name s (or_introl eq_refl)) as CS. rewrite Hg in CS.
  destruct (agent_act c independent _ _ b m) as [r|e] eqn:E; [|eauto]. exfalso. unfold agent_act in E.
  apply bind_inv in E. destruct E as ([] & _ & E). apply bind_inv in E. destruct E as (r' & E & _). cbn [core_act] in E.
  apply bind_inv in E. destruct E as (a & E & _). unfold constant_action in E. rewrite CS in E. unfold masked in Hm.
  destruct Ha as (T & _). rewrite T in E, Hm. rewrite Hp, Hq in E. destruct (cf_masking c), (sp_num s); try discriminate Hm; cbn in E; discriminate E.
Qed.
Print Assumptions C143_integers_refuted.
Example C143_integers_example : exists e, constant_act off false [(None, level)] [] 1 [] = Err e.
Proof. eapply (C143_integers_refuted jk off level [] []); [exact level_c|exact level_a|reflexivity..]. Qed.
Theorem C143_arrays_refuted :
  (forall c s sh values given independent name b m a, action_spec s TFloat sh -> sp_min s = Some (Array a) \/ sp_max s = Some (Array a) ->
    lookup name given = None -> constants [(name, s)] given = Ok values -> exists e, constant_act c independent [(name, s)] given b m = Err e) /\
  constructible jk force /\ (exists a, random_action on 1 [] None force half = Ok a) /\
  exists e, constant_act on false [(None, force)] [(None, PyNumber (Fin 0))] 1 [] = Err e.
Proof.
  split.
  - intros c s sh values given independent name b m a Ha Hp Hg Hv. unfold constant_act. rewrite Hv. cbn [bind].
    pose proof (constants_spec [(name, s)] given ltac:(repeat constructor; cbn; tauto) values Hv name s (or_introl eq_refl)) as CS. rewrite Hg in CS.
    destruct (agent_act c independent _ _ b m) as [r|e] eqn:E; [|eauto]. exfalso. unfold agent_act in E.
    apply bind_inv in E. destruct E as ([] & _ & E). apply bind_inv in E. destruct E as (r' & E & _). cbn [core_act] in E.
    apply bind_inv in E. destruct E as (x & E & _). unfold constant_action in E. rewrite CS in E. destruct Ha as (T & _). rewrite T in E.
    destruct (cf_masking c), Hp as [Hp|Hp]; rewrite Hp in E; destruct (sp_min s) as [[]|], (sp_max s) as [[]|]; cbn in E; try discriminate.
  - split; [exact force_c|]. split; [eexists; reflexivity|]. eexists; reflexivity.
Qed.
Print Assumptions C143_arrays_refuted.
Example C143_arrays_example : exists e, constant_act on true [(None, force)] [] 3 [] = Err e.
Proof. eapply C143_arrays_refuted; [exact force_a|right; reflexivity|reflexivity|reflexivity]. Qed.

(** Undefined and infinite values are accepted by the constructor; the agent cannot act. *)
Theorem C143_infinite_refuted : forall x, ~ finite x ->
  (exists values, constants [(None, free)] [(None, PyNumber x)] = Ok values) /\
  exists e, constant_act on false [(None, free)] [(None, PyNumber x)] 1 [] = Err e.
Proof. intros [] H; [destruct (H I)|..]; split; eexists; reflexivity. Qed.
Print Assumptions C143_infinite_refuted.
Example C143_infinite_example : exists values, constants [(None, free)] [(None, PyNumber NaN)] = Ok values.
Proof. apply C143_infinite_refuted. intros []. Qed.

(** ** C144: whatever the agent computes, the actions returned are checked *)
(** An action returned by act is described by its specification, has an entry for each state, and
    every chosen option is allowed; this holds for every way to compute actions. *)
Theorem C144_checked_partial : forall junk c f actions b m r,
  Forall (fun p => exists t sh, constructible junk (snd p) /\ action_spec (snd p) t sh /\
    forall bd, sp_min (snd p) = Some bd \/ sp_max (snd p) = Some bd -> bound_shape sh bd) actions ->
  (forall p a, In p actions -> f (fst p) (snd p) = Ok a -> arr_shape a <> []) ->
  cf_masking c = true -> cf_assertions c = true ->
  agent_act c false f actions b m = Ok r ->
  Forall2 (fun p a => f (fst p) (snd p) = Ok a /\ describes (snd p) true a /\ arr_shape a = b :: dims_of (snd p) /\
    forall i z, sp_type (snd p) = TyOne TInt -> in_range i (arr_shape a) -> entry a i (Fin (inject_Z z)) ->
      exists mask, lookup (fst p) m = Some mask /\ (0 <= z)%Z /\ nd_at mask (i ++ [Z.to_nat z]) = true) actions r.
Proof.
  intros junk c f actions b m r H Hf Em Ea E.
  apply (agent_act_iff junk) in E; [|eapply Forall_impl; [|exact H]; intros p (t & sh & Hc & Ha & Hb); split; eauto|exact Hf].
  destruct E as [_ E]. eapply forall2_impl; [|exact E]. intros p a (A1 & A2 & A3). split; [exact A1|]. split; [exact A2|].
  rewrite Ea in A3. destruct (A3 eq_refl) as [A4 A5]. split; [exact A4|]. intros i z Ht Hi Hz.
  unfold mask_check in A5. rewrite Em, Ht in A5. destruct A2 as (A2 & _). rewrite Ht in A2. cbn in A2. destruct a as [x|x|x]; try discriminate.
  apply bind_inv in A5. destruct A5 as (mask & M & A5). unfold mask_of in M. destruct (lookup (fst p) m) as [mk|]; [|discriminate]. injection M as ->.
  exists mask. split; [reflexivity|]. unfold assert_ in A5. destruct (forallb _ _) eqn:F; [|discriminate]. rewrite forallb_forall in F.
  specialize (F i (proj2 (in_indices _ _) Hi)). apply andb_true_iff in F. destruct F as [F1 F2]. unfold entry in Hz. cbn in Hz. injection Hz as <-.
  split; [apply Z.leb_le, F1|exact F2].
Qed.
Print Assumptions C144_checked_partial.
Example C144_checked_example : forall f r, (forall n s a, f n s = Ok a -> arr_shape a <> []) -> agent_act on false f [(None, pick)] 2 [(None, mask2)] = Ok r ->
  exists a, r = [a] /\ ~ entry a [0] (option_no 0).
Proof.
  intros f r Hf E. apply (C144_checked_partial jk) in E; try reflexivity.
  - inversion E as [|? a ? ? (_ & _ & Hs & H) Hn]; subst. inversion Hn; subst. exists a. split; [reflexivity|]. intro X.
    destruct (H [0] 0%Z eq_refl) as (mask & M & _ & K); [rewrite Hs; repeat constructor|exact X|]. injection M as <-. discriminate.
  - constructor; [|constructor]. exists TInt, []. split; [exact pick_c|]. split; [exact pick_a|]. apply pick_o.
  - intros p a _. apply Hf.
Qed.

(** States for which some entry of an action has no allowed option are rejected, whatever the agent
    computes, by act and independent act. *)
Theorem C144_no_option : forall c independent f actions b m n s sh k mask i,
  cf_masking c = true -> cf_assertions c = true -> In (n, s) actions -> action_spec s TInt sh -> sp_num s = Some k ->
  lookup n m = Some mask -> nd_shape mask = (b :: sh) ++ [Z.to_nat k] -> in_range i (b :: sh) -> allowed mask (Z.to_nat k) i = [] ->
  exists e, agent_act c independent f actions b m = Err e.
Proof.
  intros c independent f actions b m n s sh k mask i Em Ea Hin Ha Hk Hl Hs Hi He.
  destruct (agent_act c independent f actions b m) as [r|e] eqn:E; [|eauto]. exfalso. unfold agent_act in E. rewrite Em, Ea in E. cbn [andb] in E.
  apply bind_inv in E. destruct E as ([] & E & _). apply mask_assertions_iff in E. rewrite Forall_forall in E.
  destruct (E (n, s) Hin (proj1 Ha)) as (mask' & M & V). cbn in M, V. assert (mask' = mask) by congruence. subst mask'.
  apply (any_valid_iff s b mask (Z.to_nat k)) in V; unfold batch_dims in *; rewrite (dims_of_fixed _ _ _ Ha) in *; [|exact Hs]. exact (V i Hi He).
Qed.
Print Assumptions C144_no_option.
Definition mask3 : nd bool := Nd [2; 3] (fun i => match i with [0; _] => false | [_; 1] => true | _ => false end).
Example C144_no_option_example : forall f, exists e, agent_act on false f [(None, pick)] 2 [(None, mask3)] = Err e.
Proof.
  intro f. eapply (C144_no_option on false f [(None, pick)] 2 [(None, mask3)] None pick [] 3 mask3 [0]); try reflexivity.
  - left. reflexivity. - exact pick_a. - repeat constructor.
Qed.
(** Without assertions, the entry without options gets the option of the next entry. *)
Theorem C144_no_option_refuted : exists r,
  random_act (Config true false) false [(None, pick)] 2 [(None, mask3)] (fun _ => half) = Ok [r] /\
  entry r [0] (option_no 1) /\ allowed mask3 3 [0] = [] /\ allowed mask3 3 [1] = [1].
Proof. eexists. split; [reflexivity|]. repeat split; reflexivity. Qed.
Print Assumptions C144_no_option_refuted.

(** Integer actions with bounds instead of a number of options cannot be used with the default
    configuration: their mask is checked, but there is none; whatever the agent computes. *)
Theorem C144_bounded_int_refuted : forall c independent f actions b m n s sh,
  cf_masking c = true -> cf_assertions c = true -> In (n, s) actions -> action_spec s TInt sh ->
  (forall k, lookup k m <> None -> exists s', In (k, s') actions /\ sp_num s' <> None) -> NoDup (map fst actions) ->
  sp_num s = None -> exists e, agent_act c independent f actions b m = Err e.
Proof.
  intros c independent f actions b m n s sh Em Ea Hin Ha Hm ND Hn.
  destruct (agent_act c independent f actions b m) as [r|e] eqn:E; [|eauto]. exfalso. unfold agent_act in E. rewrite Em, Ea in E. cbn [andb] in E.
  apply bind_inv in E. destruct E as ([] & E & _). apply mask_assertions_iff in E. rewrite Forall_forall in E.
  destruct (E (n, s) Hin (proj1 Ha)) as (mask & M & _). cbn in M. destruct (Hm n ltac:(congruence)) as (s' & Hin' & Hs').
  assert (X : s' = s); [|congruence]. clear - ND Hin Hin'. induction actions as [|[k x] acts IH]; [contradiction|]. cbn in ND. inversion ND as [|? ? N1 N2]; subst.
  destruct Hin as [A|A], Hin' as [B|B]; [congruence| | |auto].
  - injection A as -> ->. exfalso. apply N1. apply in_map_iff. exists (n, s'). auto.
  - injection B as -> ->. exfalso. apply N1. apply in_map_iff. exists (n, s). auto.
Qed.
Print Assumptions C144_bounded_int_refuted.
Example C144_bounded_int_example : forall f, exists e, agent_act on false f [(None, level)] 1 [] = Err e.
Proof.
  intro f. eapply (C144_bounded_int_refuted on false f [(None, level)] 1 [] None level []); try reflexivity.
  - left. reflexivity. - exact level_a. - intros k X. contradiction X. reflexivity. - repeat constructor. cbn. tauto.
Qed.
