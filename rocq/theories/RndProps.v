(** Claims about agents which act without learning: C142 (random actions), C143 (constant
    actions), C144 (the checks of returned actions).

    Floats are exact, TensorFlow draws arbitrary in their range. *)
From Coq Require Import String List ZArith QArith Bool Lia Lqa.
From Verif Require Import Base SpecSpec SpecModel SpecProofs RndSpec RndModel RndProofs RndActProofs.
Import ListNotations.
Open Scope string_scope.
Open Scope list_scope.
Open Scope nat_scope.

(** ** Examples of specifications *)
Definition jk : num -> res Z := fun _ => Err "OverflowError".
Definition flag : spec := Spec (TyOne TBool) (Some [Some 2%Z]) None None None.
Definition pick : spec := Spec (TyOne TInt) (Some []) (Some (Scalar (Fin 0))) (Some (Scalar (Fin (inject_Z 2)))) (Some 3%Z).
Definition level : spec := Spec (TyOne TInt) (Some []) (Some (Scalar (Fin (inject_Z 1)))) (Some (Scalar (Fin (inject_Z 4)))) None.
Definition force : spec := Spec (TyOne TFloat) (Some [Some 2%Z]) (Some (Scalar (Fin (inject_Z (-1))))) (Some (Array (Nd [2] (fun i => match i with [0] => Fin 1 | _ => Fin (inject_Z 3) end)))) None.
Definition speed : spec := Spec (TyOne TFloat) (Some []) (Some (Scalar (Fin (inject_Z 2)))) (Some (Scalar (Fin (inject_Z 6)))) None.
Definition free : spec := Spec (TyOne TFloat) (Some []) None None None.

Lemma flag_c : constructible jk flag.
Proof. eapply (make_constructible jk (TyOne TBool) (Some [Some 2%Z]) None None None). reflexivity. Qed.
Lemma pick_c : constructible jk pick.
Proof. eapply (make_constructible jk (TyOne TInt) (Some []) None None (Some 3%Z)). reflexivity. Qed.
Lemma level_c : constructible jk level.
Proof. eapply (make_constructible jk (TyOne TInt) (Some []) (Some (Scalar (Fin (inject_Z 1)))) (Some (Scalar (Fin (inject_Z 4)))) None). reflexivity. Qed.
Lemma force_c : constructible jk force.
Proof.
  eapply (make_constructible jk (TyOne TFloat) (Some [Some 2%Z]) (Some (Scalar (Fin (inject_Z (-1)))))
    (Some (Array (Nd [2] (fun i => match i with [0] => Fin 1 | _ => Fin (inject_Z 3) end)))) None). reflexivity.
Qed.
Lemma speed_c : constructible jk speed.
Proof. eapply (make_constructible jk (TyOne TFloat) (Some []) (Some (Scalar (Fin (inject_Z 2)))) (Some (Scalar (Fin (inject_Z 6)))) None). reflexivity. Qed.
Lemma free_c : constructible jk free.
Proof. eapply (make_constructible jk (TyOne TFloat) (Some []) None None None). reflexivity. Qed.

Ltac action := repeat split; try (cbn; lia); try discriminate; try (intros; discriminate);
  try (match goal with |- Forall _ _ => repeat constructor end); intros; match goal with E : sp_num _ = Some _ |- _ => cbn in E; injection E as <-; reflexivity || lia | _ => idtac end.
Lemma flag_a : action_spec flag TBool [2]. Proof. action. Qed.
Lemma pick_a : action_spec pick TInt []. Proof. action. Qed.
Lemma level_a : action_spec level TInt []. Proof. action. Qed.
Lemma force_a : action_spec force TFloat [2]. Proof. action. Qed.
Lemma speed_a : action_spec speed TFloat []. Proof. action. Qed.
Lemma free_a : action_spec free TFloat []. Proof. action. Qed.

(** ** C142: random actions *)
(** For every batch size, every draw, and masks which leave an option for every entry, the random
    agent acts; actions have the shape, type and bounds of their specifications and pass all
    checks, and every entry is the one drawn (RndActProofs.random_entry): an allowed
    option, a number between the bounds of the entry, a fair boolean. *)
Theorem C142_admissible_partial : forall junk c independent actions b m d,
  Forall (fun p => exists t sh, constructible junk (snd p) /\ action_spec (snd p) t sh /\ ordered (snd p) sh /\ drawable c (snd p) /\
    (t = TInt -> cf_masking c = true -> cf_assertions c = true -> masked c (snd p) = true) /\
    (masked c (snd p) = true -> mask_given b m (fst p) (snd p) sh)) actions ->
  (forall n, draws_ok (d n)) ->
  exists r, random_act c independent actions b m d = Ok r /\
    Forall2 (fun p a => describes (snd p) true a /\ arr_shape a = b :: dims_of (snd p) /\
      forall i, in_range i (arr_shape a) -> random_entry c m (fst p) (snd p) (d (fst p)) a i) actions r.
Proof.
  intros junk c independent actions b m d H Hd. unfold random_act.
  apply (agent_act_ok junk c independent _ actions b m (fun p a => forall i, in_range i (arr_shape a) -> random_entry c m (fst p) (snd p) (d (fst p)) a i)).
  eapply Forall_impl; [|exact H]. intros p (t & sh & Hc & Ha & Ho & Hdr & Hm1 & Hm2).
  destruct (random_action_spec junk c b m (fst p) (snd p) t sh (d (fst p)) Hc Ha Ho (Hd _) Hdr Hm2) as (a & A1 & A2 & A3 & A4).
  exists t, sh, a. split; [exact Hc|]. split; [exact Ha|]. split; [exact (proj1 Ho)|]. split.
  { intros Ht E1 E2. specialize (Hm1 Ht E1 E2). split; [|exact (Hm2 Hm1)]. unfold masked in Hm1. apply andb_true_iff in Hm1. destruct Hm1 as [_ X].
    destruct (sp_type (snd p)) as [|[]|]; try discriminate. destruct (sp_num (snd p)); [discriminate|discriminate X]. }
  split; [exact A1|]. split; [exact A2|]. split; [exact A3|]. split; [rewrite A2; exact A4|].
  intros Ht E1 E2 _. specialize (Hm1 Ht E1 E2). pose proof Ha as (T & _). subst t. destruct (sp_num (snd p)) as [n|] eqn:En.
  - destruct (Hm2 Hm1 n En) as (mask & M1 & _ & _). exists mask, n. split; [exact M1|]. split; [reflexivity|]. intros i Hi.
    specialize (A4 i Hi). unfold random_entry in A4. rewrite T, Hm1 in A4. destruct A4 as (mask' & n' & k & B1 & B2 & B3 & B4).
    assert (mask' = mask) by congruence. assert (n' = n) by congruence. subst. exists k. split; [eapply nth_error_In; exact B3|exact B4].
  - unfold masked in Hm1. rewrite T, En, andb_false_r in Hm1. discriminate.
Qed.
Print Assumptions C142_admissible_partial.

Definition on : config := Config true true.
Definition off : config := Config false true.
(** two entries; the first option is forbidden for the first entry, the others for the second *)
Definition mask2 : nd bool := Nd [2; 3] (fun i => match i with [0; 0] => false | [0; _] => true | [_; 0] => true | _ => false end).
Definition half : draws := Draws (fun _ => 3 # 4) (fun lo _ _ => lo) (fun _ => 5 # 1).
Lemma half_ok : draws_ok half.
Proof. split; intros; cbn; [split; reflexivity || discriminate|lia]. Qed.
Lemma mask2_given : mask_given 2 [(Some "pick", mask2)] (Some "pick") pick [].
Proof.
  intros n E. injection E as <-. exists mask2. split; [reflexivity|]. split; [reflexivity|].
  intros i Hi. inversion Hi as [|k x l r Hk Hr]; subst. inversion Hr; subst. destruct k as [|[|k]]; [discriminate|discriminate|lia].
Qed.
Ltac order := split; [intros b [E|E]; try discriminate; injection E as <-; reflexivity || exact I|];
  intros i x Hi; repeat match goal with H : in_range _ (_ :: _) |- _ => inversion H as [|? ? ? ? ? ?]; clear H; subst | H : in_range _ [] |- _ => inversion H; clear H; subst end;
  split; [intros [E|E]; cbn in E; try discriminate; injection E as <-|intros y E E'; cbn in E, E'; try discriminate; injection E as <-; injection E' as <-].
Lemma flag_o : ordered flag [2]. Proof. order. Qed.
Lemma pick_o : ordered pick []. Proof. order; try exact I; reflexivity. Qed.
Lemma level_o : ordered level []. Proof. order; try exact I; reflexivity. Qed.
Lemma speed_o : ordered speed []. Proof. order; try exact I; reflexivity. Qed.
Lemma free_o : ordered free []. Proof. order. Qed.
Lemma force_o : ordered force [2].
Proof.
  order; try exact I; try (destruct x0 as [|[|]]; exact I || lia).
  all: try (destruct x0 as [|[|]]; [reflexivity|reflexivity|lia]).
Qed.
Example C142_admissible_example : exists r, random_act on false [(Some "flag", flag); (Some "pick", pick); (Some "force", force); (Some "free", free)] 2 [(Some "pick", mask2)] (fun _ => half) = Ok r /\
  match r with
  | [ABool x; AInt y; AFloat z; AFloat w] =>
      nd_at x [1; 1] = false /\ nd_at y [0] = 2%Z /\ nd_at y [1] = 0%Z /\ nd_at z [0; 0] = Fin (2 # 4) /\ nd_at z [1; 1] = Fin (8 # 4) /\ nd_at w [1] = Fin 5
  | _ => False
  end.
Proof.
  destruct (C142_admissible_partial jk on false [(Some "flag", flag); (Some "pick", pick); (Some "force", force); (Some "free", free)] 2 [(Some "pick", mask2)] (fun _ => half)) as (r & E & _).
  - constructor; [|constructor; [|constructor; [|constructor; [|constructor]]]]; cbn [fst snd].
    + exists TBool, [2]. split; [exact flag_c|]. split; [exact flag_a|]. split; [exact flag_o|]. split; [exact I|]. split; discriminate.
    + exists TInt, []. split; [exact pick_c|]. split; [exact pick_a|]. split; [exact pick_o|]. split; [left; reflexivity|]. split; [reflexivity|]. intros _. exact mask2_given.
    + exists TFloat, [2]. split; [exact force_c|]. split; [exact force_a|]. split; [exact force_o|]. split; [split; discriminate|]. split; discriminate.
    + exists TFloat, []. split; [exact free_c|]. split; [exact free_a|]. split; [exact free_o|]. split; [split; reflexivity|]. split; discriminate.
  - intros _. exact half_ok.
  - exists r. split; [exact E|]. vm_compute in E. injection E as <-. vm_compute. repeat split; reflexivity.
Qed.

(** An option is drawn for exactly its share of the unit interval: with k options allowed, the
    (j+1)-th of them for draws in [j / k, (j + 1) / k). *)
Theorem C142_options : forall junk c b m name s sh n d a mask j o i,
  constructible junk s -> action_spec s TInt sh -> ordered s sh -> draws_ok d ->
  masked c s = true -> mask_given b m name s sh -> sp_num s = Some n -> lookup name m = Some mask ->
  random_action c b m name s d = Ok a -> in_range i (b :: sh) ->
  nth_error (allowed mask (Z.to_nat n) i) j = Some o ->
  (entry a i (option_no o) <->
   (inject_Z (Z.of_nat j) <= d_uniform d i * inject_Z (Z.of_nat (length (allowed mask (Z.to_nat n) i))) < inject_Z (Z.of_nat (S j)))%Q).
Proof.
  intros junk c b m name s sh n d a mask j o i Hc Ha Ho Hd Hm Hg Hn Hl E Hi Hj.
  destruct (random_action_spec junk c b m name s TInt sh d Hc Ha Ho Hd) as (a' & A1 & _ & _ & A4).
  { unfold drawable. destruct Ha as (-> & _). left. exact Hm. } { intros _. exact Hg. }
  assert (a' = a) by congruence. subst a'. specialize (A4 i Hi). unfold random_entry in A4. pose proof Ha as (T & _). rewrite T, Hm in A4.
  destruct A4 as (mask' & n' & k & B1 & B2 & B3 & B4). assert (mask' = mask) by congruence. assert (n' = n) by congruence. subst.
  rewrite <- random_offset_iff by apply Hd. set (p := random_offset _ _) in *. split.
  - intro X. unfold entry, option_no in *. rewrite B4 in X. injection X as X. apply Nat2Z.inj in X. subst o.
    assert (ND : NoDup (allowed mask (Z.to_nat n) i)) by (apply NoDup_filter, seq_NoDup).
    eapply NoDup_nth_error; [exact ND| |congruence]. apply nth_error_Some. congruence.
  - intros <-. assert (k = o) by congruence. subst k. exact B4.
Qed.
Print Assumptions C142_options.
Example C142_options_example : exists a, random_action on 2 [(Some "pick", mask2)] (Some "pick") pick half = Ok a /\ entry a [0] (option_no 2).
Proof.
  eexists. split; [reflexivity|].
  apply (C142_options jk on 2 [(Some "pick", mask2)] (Some "pick") pick [] 3 half _ mask2 1 2 [0] pick_c pick_a pick_o half_ok); try reflexivity.
  - exact mask2_given.
  - repeat constructor.
  - split; [discriminate|reflexivity].
Qed.

(** Actions which are not drawn from options: floats need both bounds or none, integers need
    bounds, as numbers. *)
Theorem C142_unsupported : forall junk c b m name s t sh d,
  constructible junk s -> action_spec s t sh -> ordered s sh -> draws_ok d -> masked c s = false ->
  ((exists a, random_action c b m name s d = Ok a) <-> drawable c s).
Proof.
  intros junk c b m name s t sh d Hc Ha Ho Hd Hm. split.
  - intros (a & E). pose proof Ha as (T & _). unfold drawable, random_action, batch_dims, masked in *. rewrite T in *.
    destruct t; [exact I| |].
    + right. assert (U : exists lo hi, sp_min s = Some lo /\ sp_max s = Some hi /\ uniform_int (b :: dims_of s) (d_int d) lo hi = Ok a).
      { destruct (cf_masking c), (sp_num s); try discriminate; destruct (sp_min s), (sp_max s); try discriminate; eauto. }
      destruct U as (lo & hi & L & H & U). unfold uniform_int in U. destruct lo as [[p| | |]|], hi as [[q| | |]|]; try discriminate.
      destruct (int_bound junk s (Scalar (Fin p)) Hc T (or_introl L) (ex_intro _ p eq_refl)) as (z & Ez).
      destruct (int_bound junk s (Scalar (Fin q)) Hc T (or_intror H) (ex_intro _ q eq_refl)) as (z' & Ez'). injection Ez as ->. injection Ez' as ->.
      rewrite !trunc_int in U. destruct (Z.ltb_spec z z'); [|discriminate]. exists z, z'. auto.
    + destruct (cf_masking c), (sp_min s), (sp_max s); try discriminate; split; congruence.
  - intro D. destruct (random_action_spec junk c b m name s t sh d Hc Ha Ho Hd D) as (a & A & _); [congruence|eauto].
Qed.
Print Assumptions C142_unsupported.
Example C142_unsupported_example : exists a, random_action off 1 [] None level half = Ok a.
Proof. apply (C142_unsupported jk off 1 [] None level TInt [] half level_c level_a level_o half_ok eq_refl). right. exists 1%Z, 4%Z. repeat split. Qed.

(** So the random agent cannot act with an action bounded on one side. *)
Definition positive : spec := Spec (TyOne TFloat) (Some []) (Some (Scalar (Fin 0))) None None.
Theorem C142_one_bound_refuted : constructible jk positive /\ action_spec positive TFloat [] /\ ordered positive [] /\
  forall c independent name b m d, random_act c independent [(name, positive)] b m d = Err "NotImplementedError".
Proof.
  split; [eapply (make_constructible jk (TyOne TFloat) (Some []) (Some (Scalar (Fin 0))) None None); reflexivity|].
  split; [action|]. split; [order; exact I|]. intros [mk as_] independent name b m d. unfold random_act, agent_act. cbn.
  destruct mk, as_; reflexivity.
Qed.
Print Assumptions C142_one_bound_refuted.

(** Without masks, the largest number and the last option are never drawn, whatever the draws; an
    action with a single option is an error. *)
Theorem C142_largest_refuted : forall junk c b m name s sh d a q i,
  constructible junk s -> action_spec s TInt sh -> masked c s = false -> draws_ok d ->
  sp_max s = Some (Scalar (Fin (inject_Z q))) -> random_action c b m name s d = Ok a ->
  in_range i (b :: sh) -> exists z, entry a i (Fin (inject_Z z)) /\ (z < q)%Z.
Proof.
  intros junk c b m name s sh d a q i Hc Ha Hm Hd Hq E Hi. pose proof Ha as (T & _).
  unfold random_action, batch_dims, masked in *. rewrite T, (dims_of_fixed _ _ _ Ha) in *.
  assert (U : exists lo, sp_min s = Some lo /\ uniform_int (b :: sh) (d_int d) lo (Scalar (Fin (inject_Z q))) = Ok a).
  { rewrite Hq in E. destruct (cf_masking c), (sp_num s); try discriminate; destruct (sp_min s); try discriminate; eauto. }
  destruct U as (lo & L & U). unfold uniform_int in U. destruct lo as [[p| | |]|]; try discriminate.
  rewrite trunc_int in U. destruct (Z.ltb_spec (trunc p) q) as [Hlt|]; [|discriminate]. cbn in U. injection U as <-.
  eexists. split; [reflexivity|]. apply Hd. exact Hlt.
Qed.
Print Assumptions C142_largest_refuted.
Example C142_largest_example : exists a z, random_action off 1 [] None pick half = Ok a /\ entry a [0] (Fin (inject_Z z)) /\ (z < 2)%Z.
Proof.
  destruct (C142_largest_refuted jk off 1 [] None pick [] half _ 2 [0] pick_c pick_a eq_refl half_ok eq_refl eq_refl) as (z & Z1 & Z2); [repeat constructor|].
  eexists. exists z. split; [reflexivity|]. split; assumption.
Qed.
Definition single : spec := Spec (TyOne TInt) (Some []) (Some (Scalar (Fin 0))) (Some (Scalar (Fin (inject_Z 0)))) (Some 1%Z).
Theorem C142_single_option_refuted : constructible jk single /\ action_spec single TInt [] /\
  forall independent assertions name b m d, exists e, random_act (Config false assertions) independent [(name, single)] b m d = Err e.
Proof.
  split; [eapply (make_constructible jk (TyOne TInt) (Some []) None None (Some 1%Z)); reflexivity|]. split; [action|].
  intros independent assertions name b m d. eexists. unfold random_act, agent_act. cbn. rewrite andb_false_r. cbn. reflexivity.
Qed.
Print Assumptions C142_single_option_refuted.

(** Bounds for the leading axis of an action are applied along the last one: actions of the
    random agent can be outside their bounds, and pass the checks. *)
Definition rows : spec := Spec (TyOne TFloat) (Some [Some 2%Z; Some 2%Z])
  (Some (Array (Nd [2] (fun i => match i with [0] => Fin 0 | _ => Fin (inject_Z 10) end))))
  (Some (Array (Nd [2] (fun i => match i with [0] => Fin 1 | _ => Fin (inject_Z 11) end)))) None.
Theorem C142_leading_bounds_refuted : constructible jk rows /\ action_spec rows TFloat [2; 2] /\
  exists r x, random_act on false [(None, rows)] 1 [] (fun _ => half) = Ok [r] /\ entry r [0; 0; 1] x /\
    upper rows [0; 1] = Some (Fin 1) /\ num_lt (Fin 1) x.
Proof.
  split.
  { eapply (make_constructible jk (TyOne TFloat) (Some [Some 2%Z; Some 2%Z])
      (Some (Array (Nd [2] (fun i => match i with [0] => Fin 0 | _ => Fin (inject_Z 10) end))))
      (Some (Array (Nd [2] (fun i => match i with [0] => Fin 1 | _ => Fin (inject_Z 11) end)))) None). reflexivity. }
  split; [action|]. eexists. eexists. split; [reflexivity|]. split; [reflexivity|]. split; reflexivity.
Qed.
Print Assumptions C142_leading_bounds_refuted.
