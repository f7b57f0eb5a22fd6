(** Further theorems on value specifications: what a constructed specification means, and
    what conversion does to the entries (C39). *)

From Coq Require Import String List ZArith QArith Bool Lia Lqa.
From Verif Require Import Base SpecSpec SpecModel SpecProofs SpecProps.
Import ListNotations.
Open Scope string_scope.
Open Scope list_scope.
Open Scope Q_scope.

Local Arguments Qred : simpl never.
Local Arguments Qplus : simpl never.
Local Arguments Qopp : simpl never.

Section More.
Variable junk : num -> res Z.

(** The specification made from given arguments describes what the arguments say, for
    bounds which are numbers (integers for type int). *)
Theorem C39_make_partial : forall t shape mn mx n s, make junk t shape mn mx n = Ok s ->
  (forall b, mn = Some b \/ mx = Some b -> match t with TyOne TInt => exists z, b = Scalar (Fin (inject_Z z)) | _ => exists x, b = Scalar x end) ->
  (n = None \/ t = TyOne TInt) ->
  forall batched v, describes s batched v <-> describes (Spec t shape mn mx n) batched v.
Proof.
  intros t shape mn mx n s H Hk Hn batched v. destruct n as [n|].
  2: { apply make_bounds in H; [subst; reflexivity|exact Hk]. }
  destruct Hn as [Hn|Hn]; [discriminate|]. subst t.
  assert (mn = None /\ mx = None) as [-> ->].
  { unfold make in H. apply bind_ok' in H. destruct H as (s1 & _ & H). apply bind_ok' in H. destruct H as (u & Hu & _).
    destruct mn, mx; try discriminate Hu. auto. }
  pose proof (make_num _ _ _ _ _ H) as (E1 & E2 & E3). pose proof (constructible_valid _ _ (make_constructible _ _ _ _ _ _ _ H)) as Hv.
  unfold describes. rewrite E1, E2. cbn [sp_type sp_shape].
  assert (He : forall i x, arr_type v = TInt -> arr_entry v i = Some x -> forall j, entry_fits s j x <-> entry_fits (Spec (TyOne TInt) shape None None (Some n)) j x).
  { intros i x Ht Hx j. destruct (int_entry v i x Ht Hx) as [z ->]. unfold entry_fits. cbn [sp_min sp_max sp_num]. rewrite E3. split.
    - intros (F & _ & _ & N). split; [exact F|]. split; [discriminate|]. split; [discriminate|exact N].
    - intros (F & _ & _ & N). split; [exact F|].
      assert (Hp : sp_min s <> None \/ sp_max s <> None -> (0 < n)%Z).
      { intro C. unfold make in H. apply bind_ok' in H. destruct H as (s1 & H1 & H). unfold set_shape in H1. apply bind_ok' in H1. destruct H1 as (_ & _ & H1). injection H1 as <-.
        cbn [is_some andb orb bind] in H. unfold set_num in H. apply bind_ok' in H. destruct H as (_ & _ & H). apply bind_ok' in H. destruct H as (_ & _ & H).
        destruct (0 <? n)%Z eqn:E; [apply Z.ltb_lt; exact E|]. injection H as <-. cbn in C. destruct C; congruence. }
      split; [|split].
      + intros b Hb. destruct (v_min _ Hv n b E3 Hb) as (q & -> & Hq). cbn [bound_at].
        assert (Hn : (0 < n)%Z) by (apply Hp; left; congruence). destruct (N n eq_refl Hn) as [N1 _]. cbn in N1 |- *. rewrite Hq. exact N1.
      + intros b Hb. destruct (v_max _ Hv n b E3 Hb) as (q & -> & Hq). cbn [bound_at].
        assert (Hn : (0 < n)%Z) by (apply Hp; right; congruence). destruct (N n eq_refl Hn) as [_ N2]. cbn in N2 |- *. rewrite Hq. rewrite <- Zlt_Qlt in N2. rewrite <- Zlt_Qlt. lia.
      + intros m Em. apply N. exact Em. }
  split; intros (Ht & lead & sh & H1 & H2 & H3 & H4); (split; [exact Ht|]); exists lead, sh; (split; [exact H1|]); (split; [exact H2|]); (split; [exact H3|]);
    intros i x Hi Hx; specialize (H4 i x Hi Hx); apply (He i x Ht Hx); exact H4.
Qed.

(** An array of bounds has the shape of leading axes of the values. *)
Theorem C39_bound_shape : forall t l mn mx n s a, make junk t (Some l) mn mx n = Ok s -> sp_min s = Some (Array a) \/ sp_max s = Some (Array a) ->
  exists rest, l = (map (fun k => Some (Z.of_nat k)) (nd_shape a) ++ rest)%list.
Proof.
  intros t l mn mx n s a H Ha. unfold make in H. apply bind_ok' in H. destruct H as (s1 & H1 & H). unfold set_shape in H1. apply bind_ok' in H1. destruct H1 as (_ & _ & H1). injection H1 as <-.
  apply bind_ok' in H. destruct H as (_ & _ & H). apply bind_ok' in H. destruct H as (s2 & H2 & H). apply bind_ok' in H. destruct H as (s3 & H3 & H).
  assert (Hpre : forall sh, Nat.leb (length sh) (length l) && dims_eqb sh (firstn (length sh) l) = true -> exists rest, l = (map (fun k => Some (Z.of_nat k)) sh ++ rest)%list).
  { intros sh E. apply andb_true_iff in E. destruct E as [_ E]. apply dims_eqb_iff in E. exists (skipn (length sh) l). rewrite <- E. symmetry. apply firstn_skipn. }
  assert (P2 : sp_shape s2 = Some l /\ sp_max s2 = None /\ forall a, sp_min s2 = Some (Array a) -> exists rest, l = (map (fun k => Some (Z.of_nat k)) (nd_shape a) ++ rest)%list).
  { destruct mn as [b|]; cbn [is_some] in H2; [|injection H2 as <-; cbn; repeat split; discriminate].
    unfold set_min in H2. apply bind_ok' in H2. destruct H2 as (_ & _ & H2). apply bind_ok' in H2. destruct H2 as (b' & _ & H2).
    apply bind_ok' in H2. destruct H2 as (u & Hu & H2). apply bind_ok' in H2. destruct H2 as (_ & _ & H2). injection H2 as <-. cbn.
    split; [reflexivity|]. split; [reflexivity|]. intros a0 E. injection E as ->. apply assert_ok in Hu. apply Hpre. exact Hu. }
  destruct P2 as (P2 & P2m & P2a).
  assert (P3 : sp_shape s3 = Some l /\ forall a, sp_min s3 = Some (Array a) \/ sp_max s3 = Some (Array a) -> exists rest, l = (map (fun k => Some (Z.of_nat k)) (nd_shape a) ++ rest)%list).
  { destruct mx as [b|]; cbn [is_some] in H3; [|injection H3 as <-; split; [exact P2|]; rewrite P2m; intros a0 [E|E]; [auto|discriminate]].
    unfold set_max in H3. apply bind_ok' in H3. destruct H3 as (_ & _ & H3). apply bind_ok' in H3. destruct H3 as (b' & _ & H3).
    apply bind_ok' in H3. destruct H3 as (u & Hu & H3). apply bind_ok' in H3. destruct H3 as (_ & _ & H3). injection H3 as <-. cbn.
    split; [exact P2|]. intros a0 [E|E]; [auto|]. injection E as ->. apply assert_ok in Hu. apply Hpre. unfold prefix_shape in Hu. rewrite P2 in Hu. exact Hu. }
  destruct P3 as (_ & P3). destruct n as [n|]; cbn [is_some] in H; [|injection H as <-; auto].
  unfold set_num in H. apply bind_ok' in H. destruct H as (_ & _ & H). apply bind_ok' in H. destruct H as (_ & _ & H).
  destruct (0 <? n)%Z; injection H as <-; cbn in Ha; destruct Ha as [E|E]; discriminate.
Qed.

(** However the attributes are assigned, numeric bounds stay in order, by at least 10^-6
    (which excludes specifications of a single value). *)
Theorem C39_ordered_bounds : forall s p q, constructible junk s -> sp_num s = None ->
  sp_min s = Some (Scalar (Fin p)) -> sp_max s = Some (Scalar (Fin q)) -> p + (1 # 1000000) <= q.
Proof.
  intros s p q H. revert p q.
  assert (G : forall s, constructible junk s -> match sp_min s, sp_max s with
              | Some (Scalar (Fin p)), Some (Scalar (Fin q)) => sp_num s = None -> p + (1 # 1000000) <= q | _, _ => True end).
  { clear s H. induction 1 as [t|s t _ IH|s v s' _ IH H|s v s' _ IH H|s v s' _ IH H|s v s' _ IH H].
    - exact I.
    - exact I.
    - unfold set_shape in H. apply bind_ok' in H. destruct H as (_ & _ & H). injection H as <-. exact IH.
    - unfold SpecModel.set_min in H. apply bind_ok' in H. destruct H as (_ & _ & H). destruct v as [b|].
      + apply bind_ok' in H. destruct H as (b' & _ & H). apply bind_ok' in H. destruct H as (_ & _ & H). apply bind_ok' in H. destruct H as (u & Hu & H). injection H as <-. cbn [sp_min sp_max sp_num].
        destruct b' as [[p| | |]|]; auto. destruct (sp_max s) as [[[q| | |]|]|]; auto. intros _. cbn in Hu. apply assert_ok in Hu.
        apply negb_true_iff in Hu. cbn in Hu. rewrite orb_false_r in Hu. apply negb_false_iff, Qle_bool_iff in Hu. rewrite Qred_correct in Hu. unfold epsilon in Hu. lra.
      + injection H as <-. exact I.
    - unfold SpecModel.set_max in H. apply bind_ok' in H. destruct H as (_ & _ & H). destruct v as [b|].
      + apply bind_ok' in H. destruct H as (b' & _ & H). apply bind_ok' in H. destruct H as (_ & _ & H). apply bind_ok' in H. destruct H as (u & Hu & H). injection H as <-. cbn [sp_min sp_max sp_num].
        destruct (sp_min s) as [[[q| | |]|]|]; auto. destruct b' as [[p| | |]|]; auto. intros _. cbn in Hu. apply assert_ok in Hu.
        apply negb_true_iff in Hu. cbn in Hu. rewrite orb_false_r in Hu. apply negb_false_iff, Qle_bool_iff in Hu. rewrite Qred_correct in Hu. unfold epsilon in Hu. lra.
      + injection H as <-. cbn. destruct (sp_min s) as [[[]|]|]; exact I.
    - unfold set_num in H. apply bind_ok' in H. destruct H as (_ & _ & H). destruct v as [n|].
      + apply bind_ok' in H. destruct H as (_ & _ & H). destruct (0 <? n)%Z; injection H as <-; cbn; [discriminate|exact I].
      + injection H as <-. exact I. }
  intros p q Hn H1 H2. specialize (G s H). rewrite H1, H2 in G. exact (G Hn).
Qed.

(** What conversion does to an entry: numbers become true unless zero, integers by cutting
    off the fraction, and floats keep their value. *)
Definition as_num (a : arr) (i : list nat) : num :=
  match a with ABool a => Fin (if nd_at a i then 1 else 0) | AInt a => Fin (inject_Z (nd_at a i)) | AFloat a => nd_at a i end.
Definition cut (q : Q) (z : Z) : Prop := (0 <= q -> inject_Z z <= q < inject_Z z + 1) /\ (q <= 0 -> inject_Z z - 1 < q <= inject_Z z).

Lemma trunc_cut q : cut q (trunc q).
Proof.
  destruct q as [n d]. unfold cut, trunc, Qle, Qlt, inject_Z, Qminus, Qplus, Qopp. cbn [Qnum Qden].
  pose proof (Z.quot_rem' n (Zpos d)) as E. split; intro H.
  - assert (0 <= n)%Z by lia. pose proof (Z.rem_bound_pos n (Zpos d) ltac:(lia) ltac:(lia)). nia.
  - assert (n <= 0)%Z by lia. pose proof (Z.rem_opp_l' n (Zpos d)). pose proof (Z.rem_bound_pos (- n) (Zpos d) ltac:(lia) ltac:(lia)). nia.
Qed.

Theorem C39_converted_entries : forall s batched v r i, to_tensor junk s batched v = Ok r -> in_range i (arr_shape v) ->
  match r with
  | ABool a => (nd_at a i = true <-> ~ exists q, as_num v i = Fin q /\ q == 0)
  | AInt a => forall q, as_num v i = Fin q -> cut q (nd_at a i)
  | AFloat a => exists x, nd_at a i = x /\ match x, as_num v i with Fin p, Fin q => p == q | _, y => x = y end
  end.
Proof.
  intros s batched v r i H Hi. unfold to_tensor in H. apply bind_ok' in H. destruct H as (_ & _ & H). destruct (sp_type s) as [|t|]; try discriminate.
  apply bind_ok' in H. destruct H as (w & Hw & H). apply bind_ok' in H. destruct H as (_ & _ & H). apply bind_ok' in H. destruct H as (_ & _ & H). injection H as <-.
  destruct t, v as [v|v|v]; cbn [asarray] in Hw; try (injection Hw as <-; cbn [nd_map nd_at as_num]).
  - destruct (nd_at v i); split; try discriminate.
    + intros _ (q & E & C). injection E as <-. discriminate C.
    + reflexivity.
    + intro C. exfalso. apply C. exists 0. split; reflexivity.
  - rewrite negb_true_iff, Z.eqb_neq. split.
    + intros E (q & E2 & C). injection E2 as <-. apply E. unfold Qeq in C. cbn in C. lia.
    + intros C E. apply C. rewrite E. exists 0. split; reflexivity.
  - unfold to_bool. destruct (nd_at v i) as [q| | |]; try (split; [intros _ (p & E & _); discriminate|reflexivity]).
    rewrite negb_true_iff. split.
    + intros E (p & E2 & C). injection E2 as <-. apply Qeq_bool_iff in C. congruence.
    + intro C. destruct (Qeq_bool q 0) eqn:E; [|reflexivity]. exfalso. apply C. exists q. split; [reflexivity|apply Qeq_bool_iff; exact E].
  - intros q E. injection E as <-. unfold cut, b2z. destruct (nd_at v i); [change (inject_Z 1) with 1|change (inject_Z 0) with 0]; split; intros; lra.
  - intros q E. injection E as <-. rewrite <- (trunc_int (nd_at v i)) at 2. apply trunc_cut.
  - destruct (forallb _ _) eqn:Ef; [|discriminate]. injection Hw as <-. cbn [nd_map nd_at]. intros q E. cbn [as_num] in E. rewrite E. apply trunc_cut.
  - eexists. split; [reflexivity|]. unfold b2z. destruct (nd_at v i); reflexivity.
  - eexists. split; [reflexivity|]. reflexivity.
  - eexists. split; [reflexivity|]. destruct (nd_at v i); reflexivity.
Qed.
End More.

(** A lower and an upper bound which leave exactly one value cannot be unified. *)
Theorem C61_point_refuted : exists a b v, constructible no_junk a /\ constructible no_junk b /\ plain a /\ plain b /\
  to_tensor no_junk a false v = Ok v /\ to_tensor no_junk b false v = Ok v /\ exists e, unify no_junk a b = Err e.
Proof.
  exists (Spec (TyOne TFloat) (Some [Some 1%Z]) (Some (Scalar (fin 1))) None None), (Spec (TyOne TFloat) (Some [Some 1%Z]) None (Some (Scalar (fin 1))) None), (vec [fin 1]).
  split; [eapply (make_constructible no_junk (TyOne TFloat) (Some [Some 1%Z]) (Some (Scalar (fin 1))) None None); reflexivity|].
  split; [eapply (make_constructible no_junk (TyOne TFloat) (Some [Some 1%Z]) None (Some (Scalar (fin 1))) None); reflexivity|].
  split; [split; [intros b [E|E]; [injection E as <-; eauto|discriminate]|intros [r E]; discriminate|intros n E; discriminate]|].
  split; [split; [intros b [E|E]; [discriminate|injection E as <-; eauto]|intros [r E]; discriminate|intros n E; discriminate]|].
  split; [reflexivity|]. split; [reflexivity|]. eexists. reflexivity.
Qed.

(** Examples *)
Example ex_make : exists s, make no_junk (TyOne TInt) (Some [Some 1%Z]) None None (Some 3%Z) = Ok s /\ describes s false (ivec [2%Z]).
Proof.
  eexists. split; [reflexivity|]. apply (C39_accepts_partial no_junk int3 TInt [1%nat] false (ivec [2%Z]) (ivec [2%Z])); try apply int3_fixed; reflexivity || discriminate || reflexivity.
Qed.
Example ex_bound_shape : exists s, make no_junk (TyOne TFloat) (Some [Some 2; Some 3]%Z) (Some (Array low)) None None = Ok s /\ sp_min s = Some (Array low).
Proof. eexists. split; reflexivity. Qed.
Example ex_ordered : constructible no_junk ex_d. Proof. apply ex_constructible. Qed.
Example ex_converted : to_tensor no_junk (Spec (TyOne TBool) (Some [Some 2%Z]) None None None) false (vec [fin 0; Fin (1 # 2)]) =
  Ok (ABool (Nd [2%nat] (fun i => to_bool (nth (hd 0%nat i) [fin 0; Fin (1 # 2)] NaN)))).
Proof. reflexivity. Qed.

Print Assumptions C39_make_partial.
Print Assumptions C39_bound_shape.
Print Assumptions C39_ordered_bounds.
Print Assumptions C39_converted_entries.
Print Assumptions C61_point_refuted.
