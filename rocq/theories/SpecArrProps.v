(** Unification of specifications whose bounds are arrays (C40). *)

From Coq Require Import String List ZArith QArith Bool Lia Lqa.
From Verif Require Import Base SpecSpec SpecModel SpecProofs SpecProps.
Import ListNotations.
Open Scope string_scope.
Open Scope list_scope.
Open Scope Q_scope.

Section Arrays.
Variable junk : num -> res Z.

Lemma bcast_rev_same : forall s, bcast_rev s s = Some s.
Proof. induction s as [|n s IH]; [reflexivity|]. cbn. rewrite IH, Nat.eqb_refl. reflexivity. Qed.
Lemma bcast_same {A B C} (f : A -> B -> C) a b : nd_shape a = nd_shape b ->
  exists c, bcast f a b = Ok c /\ nd_shape c = nd_shape a /\ forall i, in_range i (nd_shape a) -> nd_at c i = f (nd_at a i) (nd_at b i).
Proof.
  intros E. unfold bcast. rewrite <- E, bcast_rev_same, rev_involutive. eexists. split; [reflexivity|]. split; [reflexivity|]. cbn [nd_at nd_shape].
  intros i I. rewrite !align_full by assumption. reflexivity.
Qed.
Lemma convert_array is_min s a b : sp_type s = TyOne TFloat -> nd_size (nd_shape a) <> 1%nat -> convert_bound junk is_min s (Array a) = Ok b -> b = Array a.
Proof.
  intros T N. unfold convert_bound. rewrite T. cbn [py_number]. apply Nat.eqb_neq in N. rewrite N. cbn. intros H. injection H as <-. reflexivity.
Qed.
Lemma convert_float is_min s x b : sp_type s = TyOne TFloat -> convert_bound junk is_min s x = Ok b -> match x with Array a => nd_size (nd_shape a) <> 1%nat -> b = x | _ => True end.
Proof. intros T H. destruct x; [exact I|]. intros N. eapply convert_array; eauto. Qed.

Lemma made_arrays sh mn mx c : make junk (TyOne TFloat) sh mn mx None = Ok c ->
  (forall a, mn = Some (Array a) -> nd_size (nd_shape a) <> 1%nat -> sp_min c = Some (Array a)) /\
  (forall a, mx = Some (Array a) -> nd_size (nd_shape a) <> 1%nat -> sp_max c = Some (Array a)).
Proof.
  intros H. unfold make in H. apply bind_ok' in H. destruct H as (s1 & H1 & H). unfold set_shape in H1. apply bind_ok' in H1. destruct H1 as (_ & _ & H1). injection H1 as <-.
  cbn [is_some andb bind] in H. apply bind_ok' in H. destruct H as (s2 & H2 & H). apply bind_ok' in H. destruct H as (s3 & H3 & H). injection H as <-.
  assert (E2 : sp_type s2 = TyOne TFloat /\ forall a, mn = Some (Array a) -> nd_size (nd_shape a) <> 1%nat -> sp_min s2 = Some (Array a)).
  { destruct mn as [b|]; cbn [is_some] in H2; [|injection H2 as <-; split; [reflexivity|discriminate]].
    unfold set_min in H2. apply bind_ok' in H2. destruct H2 as (_ & _ & H2). apply bind_ok' in H2. destruct H2 as (b' & Hb & H2).
    apply bind_ok' in H2. destruct H2 as (_ & _ & H2). apply bind_ok' in H2. destruct H2 as (_ & _ & H2). injection H2 as <-. split; [reflexivity|].
    intros a Ea N. injection Ea as ->. apply convert_array in Hb; [|reflexivity|exact N]. subst b'. reflexivity. }
  destruct E2 as [T2 E2]. destruct mx as [b|]; cbn [is_some] in H3.
  - unfold set_max in H3. apply bind_ok' in H3. destruct H3 as (_ & _ & H3). apply bind_ok' in H3. destruct H3 as (b' & Hb & H3).
    apply bind_ok' in H3. destruct H3 as (_ & _ & H3). apply bind_ok' in H3. destruct H3 as (_ & _ & H3). injection H3 as <-. split; [exact E2|].
    intros a Ea N. injection Ea as ->. apply convert_array in Hb; [|exact T2|exact N]. subst b'. reflexivity.
  - injection H3 as <-. split; [exact E2|discriminate].
Qed.

Lemma unified_float a b c : sp_type a = TyOne TFloat -> sp_type b = TyOne TFloat -> unify junk a b = Ok c ->
  exists sh mn mx, unify_bound larger num_min (sp_type a) (sp_type b) (sp_min a) (sp_min b) = Ok mn /\
    unify_bound larger num_max (sp_type a) (sp_type b) (sp_max a) (sp_max b) = Ok mx /\ make junk (TyOne TFloat) sh mn mx None = Ok c.
Proof.
  intros Ta Tb H. unfold unify in H. rewrite Ta, Tb in *. apply bind_ok' in H. destruct H as (dt & Ht & H). vm_compute in Ht. injection Ht as <-.
  apply bind_ok' in H. destruct H as (shp & _ & H). apply bind_ok' in H. destruct H as (mn & Hmn & H). apply bind_ok' in H. destruct H as (mx & Hmx & H).
  apply bind_ok' in H. destruct H as (_ & _ & H). cbn [unify_num has_int negb bind is_some] in H. exists shp, mn, mx. auto.
Qed.

(** Of two arrays of upper bounds the larger entries are kept *)
Theorem C40_upper_arrays : forall a b c ma mb, sp_type a = TyOne TFloat -> sp_type b = TyOne TFloat -> unify junk a b = Ok c ->
  sp_max a = Some (Array ma) -> sp_max b = Some (Array mb) -> nd_shape ma = nd_shape mb -> nd_size (nd_shape ma) <> 1%nat ->
  exists mc, sp_max c = Some (Array mc) /\ nd_shape mc = nd_shape ma /\
    forall i p q, in_range i (nd_shape ma) -> nd_at ma i = Fin p -> nd_at mb i = Fin q -> exists r, nd_at mc i = Fin r /\ p <= r /\ q <= r /\ (r = p \/ r = q).
Proof.
  intros a b c ma mb Ta Tb U Ma Mb Es N. destruct (unified_float a b c Ta Tb U) as (sh & mn & mx & _ & Hx & Hc). rewrite Ta, Tb, Ma, Mb in Hx. cbn [unify_bound is_bool bound_nd] in Hx.
  destruct (bcast_same num_max ma mb Es) as (mc & B & S & At). rewrite B in Hx. cbn [bind] in Hx. injection Hx as <-. exists mc.
  split; [apply (proj2 (made_arrays _ _ _ _ Hc)); [reflexivity|rewrite S; exact N]|]. split; [exact S|]. intros i p q I Ep Eq. rewrite (At i I), Ep, Eq. cbn.
  destruct (Qle_bool q p) eqn:L; cbn [negb].
  - apply Qle_bool_iff in L. exists p. repeat split; auto. lra.
  - assert (~ q <= p) by (intro X; apply Qle_bool_iff in X; congruence). exists q. repeat split; auto; lra.
Qed.
(** ... and of two arrays of lower bounds the smaller entries, although of two numbers the larger *)
Theorem C40_lower_arrays : forall a b c ma mb, sp_type a = TyOne TFloat -> sp_type b = TyOne TFloat -> unify junk a b = Ok c ->
  sp_min a = Some (Array ma) -> sp_min b = Some (Array mb) -> nd_shape ma = nd_shape mb -> nd_size (nd_shape ma) <> 1%nat ->
  exists mc, sp_min c = Some (Array mc) /\ nd_shape mc = nd_shape ma /\
    forall i p q, in_range i (nd_shape ma) -> nd_at ma i = Fin p -> nd_at mb i = Fin q -> exists r, nd_at mc i = Fin r /\ r <= p /\ r <= q /\ (r = p \/ r = q).
Proof.
  intros a b c ma mb Ta Tb U Ma Mb Es N. destruct (unified_float a b c Ta Tb U) as (sh & mn & mx & Hx & _ & Hc). rewrite Ta, Tb, Ma, Mb in Hx. cbn [unify_bound is_bool bound_nd] in Hx.
  destruct (bcast_same num_min ma mb Es) as (mc & B & S & At). rewrite B in Hx. cbn [bind] in Hx. injection Hx as <-. exists mc.
  split; [apply (proj1 (made_arrays _ _ _ _ Hc)); [reflexivity|rewrite S; exact N]|]. split; [exact S|]. intros i p q I Ep Eq. rewrite (At i I), Ep, Eq. cbn.
  destruct (Qle_bool p q) eqn:L; cbn [negb].
  - apply Qle_bool_iff in L. exists p. repeat split; auto. lra.
  - assert (~ p <= q) by (intro X; apply Qle_bool_iff in X; congruence). exists q. repeat split; auto; lra.
Qed.
End Arrays.
Print Assumptions C40_upper_arrays.
Print Assumptions C40_lower_arrays.

Definition nds (l : list num) : nd num := Nd [length l] (fun i => nth (hd 0%nat i) l NaN).
Definition from (l : list Z) : spec := Spec (TyOne TFloat) (Some [Some 2%Z]) (Some (Array (nds (map fin l)))) (Some (Array (nds (map (fun z => fin (z + 5)) l)))) None.
Example C40_arrays_case : exists c mn mx, unify no_junk (from [0; 3]%Z) (from [1; 2]%Z) = Ok c /\ sp_min c = Some (Array mn) /\ sp_max c = Some (Array mx) /\
  map (nd_at mn) [[0%nat]; [1%nat]] = [fin 0; fin 2] /\ map (nd_at mx) [[0%nat]; [1%nat]] = [fin 6; fin 8].
Proof. do 3 eexists. split; [vm_compute; reflexivity|]. split; [reflexivity|]. split; [reflexivity|]. split; vm_compute; reflexivity. Qed.

(** So a value described by the unified specification need not be described by both *)
Definition lower (l : list Z) : spec := Spec (TyOne TFloat) (Some [Some 2%Z]) (Some (Array (nds (map fin l)))) None None.
Theorem C40_arrays_refuted : exists a b c v, constructible no_junk a /\ constructible no_junk b /\ sp_max a = None /\ sp_max b = None /\
  unify no_junk a b = Ok c /\ describes c false v /\ ~ describes b false v.
Proof.
  exists (lower [0; 0]%Z), (lower [1; 1]%Z). eexists. exists (vec [fin 0; fin 3]).
  split; [eapply (make_constructible no_junk (TyOne TFloat) (Some [Some 2%Z]) (Some (Array (nds (map fin [0; 0]%Z)))) None None); reflexivity|].
  split; [eapply (make_constructible no_junk (TyOne TFloat) (Some [Some 2%Z]) (Some (Array (nds (map fin [1; 1]%Z)))) None None); reflexivity|].
  split; [reflexivity|]. split; [reflexivity|]. split; [reflexivity|]. split.
  - split; [reflexivity|]. exists [], [2%nat]. split; [reflexivity|]. split; [reflexivity|]. split; [repeat constructor; right; reflexivity|].
    intros i x Hi Hx. inversion Hi as [|k n i' r Hk Hi']; subst. inversion Hi'; subst.
    destruct k as [|[|k]]; [| |lia]; injection Hx as <-; (split; [exact I|]; split; [intros b E; injection E as <-; intro C; discriminate|]; split; intros b E; discriminate).
  - intros (_ & lead & sh & Hs & Hl & _ & He). destruct lead; [|discriminate].
    assert (Hr : in_range [0%nat] [2%nat]) by (repeat constructor).
    destruct (He [0%nat] (fin 0) Hr eq_refl) as (_ & H & _). apply (H _ eq_refl). reflexivity.
Qed.
Print Assumptions C40_arrays_refuted.
