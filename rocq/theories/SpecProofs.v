(** Lemmas on specifications: arrays and broadcasting, what the checks accept, what can
    be constructed, unification. *)

From Coq Require Import String List ZArith QArith Bool Lia Arith ZifyBool.
From Verif Require Import Base SpecSpec SpecModel.
Import ListNotations.
Open Scope nat_scope.
Open Scope string_scope.
Open Scope list_scope.

Lemma bind_ok' {A B} (x : res A) (f : A -> res B) b : bind x f = Ok b -> exists a, x = Ok a /\ f a = Ok b.
Proof. destruct x; [|discriminate]. intro H. exists a. auto. Qed.
Lemma assert_ok b m u : assert_ b m = Ok u -> b = true.
Proof. unfold assert_. destruct b; [reflexivity|discriminate]. Qed.

(** ** Arrays *)
Lemma in_indices sh : forall i, In i (indices sh) <-> in_range i sh.
Proof.
  unfold in_range. induction sh as [|n r IH]; intro i; cbn [indices].
  - split; [intros [<-|[]]; constructor|]. intro H; inversion H; left; reflexivity.
  - rewrite in_flat_map. split.
    + intros (k & Hk & Hi). apply in_map_iff in Hi. destruct Hi as (i' & <- & Hi). apply in_seq in Hk.
      constructor; [lia|]. apply IH, Hi.
    + intro H. inversion H as [|k m i' r' Hk Hr]; subst. exists k. split; [apply in_seq; lia|].
      apply in_map. apply IH, Hr.
Qed.

Lemma nd_any_true a : nd_any a = true <-> exists i, in_range i (nd_shape a) /\ nd_at a i = true.
Proof.
  unfold nd_any. rewrite existsb_exists. split; intros (i & H1 & H2); exists i; split; auto; apply in_indices, H1.
Qed.
Lemma nd_any_false a : nd_any a = false <-> forall i, in_range i (nd_shape a) -> nd_at a i = false.
Proof.
  split.
  - intros H i Hi. destruct (nd_at a i) eqn:E; [|reflexivity]. exfalso.
    assert (nd_any a = true) by (apply nd_any_true; eauto). congruence.
  - intro H. destruct (nd_any a) eqn:E; [|reflexivity]. apply nd_any_true in E. destruct E as (i & Hi & E). rewrite (H i Hi) in E. discriminate.
Qed.

Lemma in_range_length i sh : in_range i sh -> length i = length sh.
Proof. intro H. unfold in_range in H. induction H; cbn [length]; congruence. Qed.

Lemma in_range_app i a b : in_range i (a ++ b) <-> in_range (firstn (length a) i) a /\ in_range (skipn (length a) i) b.
Proof.
  unfold in_range. revert i. induction a as [|n a IH]; intro i; cbn [app length firstn skipn].
  - split; [intro H; split; [constructor|exact H]|tauto].
  - destruct i as [|k i]; cbn [firstn skipn].
    + split; [intro H; inversion H|intros [H _]; inversion H].
    + split.
      * intro H. inversion H; subst. apply IH in H5. destruct H5. split; [constructor|]; assumption.
      * intros [H1 H2]. inversion H1; subst. constructor; [assumption|]. apply IH. split; assumption.
Qed.

Lemma align_full sh : forall i, in_range i sh -> align sh i = i.
Proof.
  intros i H. unfold align. rewrite (in_range_length _ _ H), Nat.sub_diag. cbn [skipn].
  unfold in_range in H. induction H as [|k n i sh Hk Hr IH]; [reflexivity|].
  cbn [combine map fst snd]. rewrite IH. destruct (Nat.eqb_spec n 1); [f_equal; lia|reflexivity].
Qed.
Lemma align_suffix lead sh i : in_range i (lead ++ sh) -> align sh i = skipn (length lead) i.
Proof.
  intro H. pose proof (in_range_length _ _ H) as Hl. rewrite app_length in Hl.
  apply in_range_app in H. destruct H as [_ H]. unfold align.
  replace (length i - length sh) with (length lead) by lia.
  unfold in_range in H. set (j := skipn (length lead) i) in *. clearbody j. clear -H. induction H as [|k n i sh Hk Hr IH]; [reflexivity|].
  cbn [combine map fst snd]. rewrite IH. destruct (Nat.eqb_spec n 1); [f_equal; lia|reflexivity].
Qed.

Lemma bcast_rev_app x y : bcast_rev (x ++ y) x = Some (x ++ y).
Proof.
  induction x as [|n x IH]; cbn [app bcast_rev].
  - destruct y; reflexivity.
  - rewrite IH, Nat.eqb_refl. reflexivity.
Qed.

Lemma bcast_suffix {A B C} (f : A -> B -> C) a b lead :
  nd_shape a = lead ++ nd_shape b -> exists c, bcast f a b = Ok c /\ nd_shape c = nd_shape a /\
    forall i, in_range i (nd_shape a) -> nd_at c i = f (nd_at a i) (nd_at b (skipn (length lead) i)).
Proof.
  intro H. unfold bcast.
  assert (E : bcast_rev (rev (nd_shape a)) (rev (nd_shape b)) = Some (rev (nd_shape a))).
  { rewrite H, rev_app_distr. apply bcast_rev_app. }
  rewrite E, rev_involutive.
  eexists; split; [reflexivity|]. cbn [nd_shape nd_at]. split; [reflexivity|]. intros i Hi.
  rewrite (align_full _ _ Hi). rewrite (align_suffix lead) by (rewrite <- H; exact Hi). reflexivity.
Qed.

Lemma bcast_scalar {A B C} (f : A -> B -> C) a x :
  exists c, bcast f a (Nd [] (fun _ => x)) = Ok c /\ nd_shape c = nd_shape a /\
    forall i, in_range i (nd_shape a) -> nd_at c i = f (nd_at a i) x.
Proof.
  destruct (bcast_suffix f a (Nd [] (fun _ => x)) (nd_shape a)) as (c & H1 & H2 & H3).
  { cbn. rewrite app_nil_r. reflexivity. }
  exists c. split; [exact H1|]. split; [exact H2|]. intros i Hi. rewrite (H3 i Hi). reflexivity.
Qed.

Lemma num_ltb_lt x y : num_ltb x y = true <-> num_lt x y.
Proof.
  destruct x, y; cbn; try (split; [discriminate|contradiction]); try tauto.
  rewrite negb_true_iff. split; intro H.
  - apply Qnot_le_lt. intro Hle. apply Qle_bool_iff in Hle. congruence.
  - destruct (Qle_bool q0 q) eqn:E; [|reflexivity]. apply Qle_bool_iff in E. exfalso. exact (Qlt_not_le _ _ H E).
Qed.
Lemma num_ltb_nlt x y : num_ltb x y = false <-> ~ num_lt x y.
Proof. rewrite <- num_ltb_lt. destruct (num_ltb x y); split; congruence. Qed.

Lemma finite_iff x : num_finite x = true <-> finite x.
Proof. destruct x; cbn; split; try tauto; discriminate. Qed.

Lemma dims_eqb_iff sh l : dims_eqb sh l = true <-> l = map (fun n => Some (Z.of_nat n)) sh.
Proof.
  unfold dims_eqb. rewrite andb_true_iff, Nat.eqb_eq. revert l.
  induction sh as [|n sh IH]; intros [|d l]; cbn [length combine forallb map fst snd].
  - tauto.
  - split; [intros [H _]; discriminate|discriminate].
  - split; [intros [H _]; discriminate|discriminate].
  - rewrite andb_true_iff. split.
    + intros (Hl & Hd & Hr). destruct d as [z|]; [|discriminate]. apply Z.eqb_eq in Hd. subst z. f_equal.
      apply IH. split; [lia|exact Hr].
    + intro H. injection H as -> H. apply IH in H. destruct H as [H1 H2]. rewrite Z.eqb_refl. repeat split; [lia|exact H2].
Qed.

(** ** Specifications which can be constructed *)
Section Valid.
Variable junk : num -> res Z.
Notation set_min := (set_min junk). Notation set_max := (set_max junk). Notation convert_bound := (convert_bound junk).

(** By the constructor and any sequence of attribute assignments. *)
Inductive constructible : spec -> Prop :=
| c_new t : constructible (Spec t None None None None)
| c_type s t : constructible s -> constructible (set_type t s)
| c_shape s v s' : constructible s -> set_shape v s = Ok s' -> constructible s'
| c_min s v s' : constructible s -> set_min v s = Ok s' -> constructible s'
| c_max s v s' : constructible s -> set_max v s = Ok s' -> constructible s'
| c_num s v s' : constructible s -> set_num v s = Ok s' -> constructible s'.

Definition shape_valid (v : option (list (option Z))) : Prop :=
  match v with
  | None => True
  | Some (None :: r) => Forall (fun d => exists z, d = Some z /\ (-1 <= z)%Z) r
  | Some l => Forall (fun d => exists z, d = Some z /\ (-1 <= z)%Z) l
  end.
Definition integral (b : bound) : Prop :=
  match b with
  | Scalar x => exists z, x = Fin (inject_Z z)
  | Array a => forall i, in_range i (nd_shape a) -> exists z, nd_at a i = Fin (inject_Z z)
  end.

Record valid (s : spec) : Prop := {
  v_shape : shape_valid (sp_shape s);
  v_none : match sp_type s with TyOne TBool | TyNone => sp_min s = None /\ sp_max s = None
           | TyMany _ => (sp_num s = None -> sp_min s = None /\ sp_max s = None) | _ => True end;
  v_num : sp_num s <> None -> has_int (sp_type s) = true;
  v_pos : forall n, sp_num s = Some n -> (0 <= n)%Z;
  v_min : forall n b, sp_num s = Some n -> sp_min s = Some b -> exists q, b = Scalar (Fin q) /\ (q == 0)%Q;
  v_max : forall n b, sp_num s = Some n -> sp_max s = Some b -> exists q, b = Scalar (Fin q) /\ (q == inject_Z (n - 1))%Q;
  v_int : has_int (sp_type s) = true -> forall b, sp_min s = Some b \/ sp_max s = Some b -> integral b
}.

Lemma trunc_int z : trunc (inject_Z z) = z.
Proof. unfold trunc, inject_Z. cbn. apply Z.quot_1_r. Qed.

Lemma convert_bound_spec is_min s b b' : convert_bound is_min s b = Ok b' ->
  (exists t, sp_type s = TyOne t) /\
  (has_int (sp_type s) = true -> integral b') /\
  (forall n, sp_type s = TyOne TInt -> sp_num s = Some n ->
     exists q, b' = Scalar (Fin q) /\ (q == if is_min then 0 else inject_Z (n - 1))%Q).
Proof.
  unfold SpecModel.convert_bound. destruct (sp_type s) as [|t|l] eqn:Ht; try discriminate. intro H. split; [eauto|].
  assert (Hpy : forall x, t = TInt -> py_number t b = Some x -> exists z, x = Fin (inject_Z z)).
  { intros x -> E. unfold py_number in E. destruct b as [y|a].
    - destruct y; try discriminate. injection E as <-. eauto.
    - destruct (Nat.eqb _ 1); [|discriminate]. destruct (nd_at a _); try discriminate. injection E as <-. eauto. }
  destruct (py_number t b) as [x|].
  - destruct t.
    + injection H as <-. split; [discriminate|intros; discriminate].
    + destruct (Hpy x eq_refl eq_refl) as [z ->]. destruct (sp_num s) as [n|].
      * destruct (Qeq_bool (inject_Z z) (if is_min then 0%Q else inject_Z (n - 1))) eqn:E; [|discriminate]. injection H as <-.
        split; [intros _; cbn; eauto|]. intros m _ Hm. injection Hm as <-. exists (inject_Z z). split; [reflexivity|].
        apply Qeq_bool_iff in E. destruct is_min; exact E.
      * injection H as <-. split; [intros _; cbn; eauto|intros; discriminate].
    + injection H as <-. split; [discriminate|intros; discriminate].
  - destruct b as [x|a]; [discriminate|]. apply bind_ok' in H. destruct H as (v & Hv & H).
    apply bind_ok' in H. destruct H as (u & Hu & H). injection H as <-. apply assert_ok in Hu.
    destruct t.
    + split; [discriminate|intros; discriminate].
    + cbn in Hv. destruct (forallb _ _) eqn:Ef in Hv; [|discriminate]. injection Hv as <-. split.
      * intros _ i _. cbn. eauto.
      * intros n _ Hn. rewrite Hn in Hu. discriminate.
    + split; [discriminate|intros; discriminate].
Qed.

Lemma constructible_valid s : constructible s -> valid s.
Proof.
  induction 1 as [t|s t _ IH|s v s' _ IH H|s v s' _ IH H|s v s' _ IH H|s v s' _ IH H].
  - split; cbn; try discriminate; try tauto; try congruence.
    + destruct t as [|[]|]; auto.
    + intros _ b [E|E]; discriminate.
  - destruct IH. split; cbn; try discriminate; try tauto; try congruence.
    + destruct t as [|[]|]; auto.
    + intros _ b [E|E]; discriminate.
  - unfold set_shape in H. apply bind_ok' in H. destruct H as (u & Hu & H). apply assert_ok in Hu. injection H as <-. destruct IH.
    split; cbn; auto. unfold shape_valid. rewrite forallb_forall in Hu.
    assert (Hf : forall l : list (option Z), (forall x, In x l -> match x with Some z => Z.leb (-1) z | None => false end = true) ->
      Forall (fun d => exists z, d = Some z /\ (-1 <= z)%Z) l).
    { intros l Hl. apply Forall_forall. intros d Hd. specialize (Hl d Hd). destruct d as [z|]; [|discriminate].
      exists z. split; [reflexivity|]. apply Z.leb_le, Hl. }
    destruct v as [[|[z|] r]|]; auto.
  - unfold SpecModel.set_min in H. apply bind_ok' in H. destruct H as (u & Hu & H). apply assert_ok in Hu. destruct IH.
    destruct v as [b|].
    + apply bind_ok' in H. destruct H as (b' & Hb & H). apply convert_bound_spec in Hb. destruct Hb as ((t & Ht) & Hi & Hn).
      apply bind_ok' in H. destruct H as (_ & _ & H). apply bind_ok' in H. destruct H as (_ & _ & H). injection H as <-.
      split; cbn; auto.
      * rewrite Ht in *. destruct t; try discriminate; auto.
      * intros n b0 En E. injection E as <-. apply (Hn n); [|exact En]. specialize (v_num0). rewrite En, Ht in v_num0.
        destruct t; try (discriminate v_num0; discriminate). rewrite Ht. all: auto; discriminate v_num0; congruence.
      * intros Hh b0 [E|E]; [injection E as <-; auto|eauto].
    + injection H as <-. split; cbn; auto.
      * destruct (sp_type s) as [|[]|]; intuition.
      * intros n b _ E. discriminate.
      * intros Hh b0 [E|E]; [discriminate|eauto].
  - unfold SpecModel.set_max in H. apply bind_ok' in H. destruct H as (u & Hu & H). apply assert_ok in Hu. destruct IH.
    destruct v as [b|].
    + apply bind_ok' in H. destruct H as (b' & Hb & H). apply convert_bound_spec in Hb. destruct Hb as ((t & Ht) & Hi & Hn).
      apply bind_ok' in H. destruct H as (_ & _ & H). apply bind_ok' in H. destruct H as (_ & _ & H). injection H as <-.
      split; cbn; auto.
      * rewrite Ht in *. destruct t; try discriminate; auto.
      * intros n b0 En E. injection E as <-. apply (Hn n); [|exact En]. specialize (v_num0). rewrite En, Ht in v_num0.
        destruct t; try (discriminate v_num0; discriminate). rewrite Ht. all: auto; discriminate v_num0; congruence.
      * intros Hh b0 [E|E]; [eauto|injection E as <-; auto].
    + injection H as <-. split; cbn; auto.
      * destruct (sp_type s) as [|[]|]; intuition.
      * intros n b _ E. discriminate.
      * intros Hh b0 [E|E]; [eauto|discriminate].
  - unfold set_num in H. apply bind_ok' in H. destruct H as (u & Hu & H). apply assert_ok in Hu. destruct IH.
    assert (Hn : match sp_type s with TyOne TBool | TyNone => False | _ => True end).
    { destruct (sp_type s) as [|[]|]; auto; discriminate. }
    destruct v as [n|].
    + apply bind_ok' in H. destruct H as (u' & Hu' & H). apply assert_ok in Hu'. destruct (0 <? n)%Z eqn:E.
      * injection H as <-. split; cbn; auto.
        -- destruct (sp_type s) as [|[]|]; try contradiction; auto. intro; discriminate.
        -- intros m Em. injection Em as <-. lia.
        -- intros m b _ Eb. injection Eb as <-. exists 0%Q. split; reflexivity.
        -- intros m b Em Eb. injection Eb as <-. injection Em as <-. eexists. split; reflexivity.
        -- intros _ b [Eb|Eb]; injection Eb as <-; cbn; [exists 0%Z|]; eauto.
      * injection H as <-. split; cbn; auto; try discriminate.
        -- destruct (sp_type s) as [|[]|]; try contradiction; auto.
        -- intros m Em. injection Em as <-. lia.
        -- intros _ b [Eb|Eb]; discriminate.
    + injection H as <-. split; cbn; auto; try discriminate.
      * destruct (sp_type s) as [|[]|]; try contradiction; auto.
      * intros _ b [Eb|Eb]; discriminate.
Qed.

Lemma make_constructible t shape mn mx n s : make junk t shape mn mx n = Ok s -> constructible s.
Proof.
  unfold make. intro H. apply bind_ok' in H. destruct H as (s1 & H1 & H). apply bind_ok' in H. destruct H as (? & _ & H).
  apply bind_ok' in H. destruct H as (s2 & H2 & H). apply bind_ok' in H. destruct H as (s3 & H3 & H).
  assert (C1 : constructible s1) by (eapply c_shape; [apply c_new|exact H1]).
  assert (C2 : constructible s2).
  { destruct (is_some mn); [eapply c_min; eassumption|]. injection H2 as <-. exact C1. }
  assert (C3 : constructible s3).
  { destruct (is_some mx); [eapply c_max; eassumption|]. injection H3 as <-. exact C2. }
  destruct (is_some n); [eapply c_num; eassumption|]. injection H as <-. exact C3.
Qed.
End Valid.

(** ** What the checks accept *)
(** Bounds are numbers, or arrays of the full shape. *)
Definition plain_bound (sh : list nat) (b : bound) : Prop :=
  match b with Scalar _ => True | Array a => nd_shape a = sh end.
Definition plain_bounds (s : spec) (sh : list nat) : Prop :=
  forall b, sp_min s = Some b \/ sp_max s = Some b -> plain_bound sh b.

Lemma bound_check (f : num -> num -> bool) (x : nd num) b lead sh m : nd_shape x = lead ++ sh -> plain_bound sh b ->
  (do c <- bcast f x (bound_nd b); assert_ (negb (nd_any c)) m) = Ok tt <->
  forall i, in_range i (nd_shape x) -> f (nd_at x i) (bound_at b (skipn (length lead) i)) = false.
Proof.
  intros Hx Hb.
  assert (exists c, bcast f x (bound_nd b) = Ok c /\ nd_shape c = nd_shape x /\
    forall i, in_range i (nd_shape x) -> nd_at c i = f (nd_at x i) (bound_at b (skipn (length lead) i))) as (c & Hc & Hs & Ha).
  { destruct b as [y|a]; cbn in *.
    - apply bcast_scalar.
    - subst sh. destruct (bcast_suffix f x a lead Hx) as (c & H1 & H2 & H3). exists c. split; [exact H1|]. split; [exact H2|].
      intros i Hi. rewrite H3 by exact Hi. do 2 f_equal. symmetry. apply firstn_all2.
      rewrite Hx in Hi. pose proof (in_range_length _ _ Hi) as Hl. rewrite skipn_length. rewrite app_length in Hl. lia. }
  rewrite Hc. cbn [bind]. unfold assert_. destruct (nd_any c) eqn:E; cbn [negb].
  - split; [discriminate|]. intro H. apply nd_any_true in E. destruct E as (i & Hi & E). rewrite Hs in Hi.
    rewrite Ha, H in E by exact Hi. discriminate.
  - split; [|reflexivity]. intros _ i Hi. rewrite <- Ha by exact Hi. rewrite nd_any_false in E. apply E. rewrite Hs. exact Hi.
Qed.

Lemma nums_entry a i : arr_type a <> TBool -> arr_entry a i = Some (nd_at (nums a) i).
Proof. destruct a; cbn; congruence. Qed.
Lemma nums_shape a : nd_shape (nums a) = arr_shape a.
Proof. destruct a; reflexivity. Qed.
Lemma bool_entry a i : arr_type a = TBool -> arr_entry a i = None.
Proof. destruct a; cbn; congruence. Qed.

Lemma any_map_false {A} (f : A -> bool) (x : nd A) :
  negb (nd_any (nd_map f x)) = true <-> forall i, in_range i (nd_shape x) -> f (nd_at x i) = false.
Proof. rewrite negb_true_iff, nd_any_false. reflexivity. Qed.

Lemma num_range_int x q n : (exists z, x = Fin (inject_Z z)) -> (q == inject_Z (n - 1))%Q ->
  num_lt x (Fin (inject_Z n)) -> ~ num_lt (Fin q) x.
Proof.
  intros [z ->] Hq H Hc. cbn in *. rewrite Hq in Hc. rewrite <- Zlt_Qlt in *. lia.
Qed.

Lemma check_entries_iff s t v lead sh : valid s -> sp_type s = TyOne t -> arr_type v = t ->
  arr_shape v = lead ++ sh -> plain_bounds s sh -> sp_num s <> Some 0%Z ->
  check_entries s t v = Ok tt <->
  forall i x, in_range i (arr_shape v) -> arr_entry v i = Some x -> entry_fits s (skipn (length lead) i) x.
Proof.
  intros Hv Ht Htv Hs Hp Hz. unfold check_entries.
  assert (Hns : nd_shape (nums v) = lead ++ sh) by (rewrite nums_shape; exact Hs).
  destruct t.
  { (* bool *)
    split; [intros _ i x _ Hx; rewrite bool_entry in Hx by exact Htv; discriminate|]. intros _.
    destruct v as [a|a|a]; try discriminate. cbn [nums].
    assert (E : negb (nd_any (nd_map (fun e => negb (num_finite e)) (nd_map (fun x => Fin (inject_Z (b2z x))) a))) = true).
    { apply any_map_false. intros i _. reflexivity. }
    rewrite E. reflexivity. }
  - (* int *)
    assert (He : forall i, arr_entry v i = Some (nd_at (nums v) i)) by (intro i; apply nums_entry; congruence).
    assert (Hz' : forall i, exists z, nd_at (nums v) i = Fin (inject_Z z)) by (intro i; destruct v; try discriminate; cbn; eauto).
    assert (E : negb (nd_any (nd_map (fun e => negb (num_finite e)) (nums v))) = true).
    { apply any_map_false. intros i _. destruct (Hz' i) as [z ->]. reflexivity. }
    rewrite E. cbn [assert_ bind]. destruct (sp_num s) as [n|] eqn:En.
    + pose proof (v_pos _ Hv n En) as Hpos. assert (0 < n)%Z by (assert (n <> 0%Z) by congruence; lia).
      unfold assert_.
      destruct (negb (nd_any (nd_map (fun e => num_ltb e (Fin 0)) (nums v))) &&
                negb (nd_any (nd_map (fun e => negb (num_ltb e (Fin (inject_Z n)))) (nums v)))) eqn:E2; cbn [bind].
      * split; [intros _|reflexivity]. apply andb_prop in E2. destruct E2 as [E2 E3].
        rewrite any_map_false in E2, E3. intros i x Hi Hx. rewrite He in Hx. injection Hx as <-.
        rewrite nums_shape in E2, E3. specialize (E2 i Hi). specialize (E3 i Hi). rewrite negb_false_iff in E3.
        rewrite num_ltb_nlt in E2. rewrite num_ltb_lt in E3. destruct (Hz' i) as [z Ez].
        split; [rewrite Ez; exact I|]. split; [|split].
        -- intros b Eb. destruct (v_min _ Hv n b En Eb) as (q & -> & Hq). cbn. intro Hc. apply E2.
           rewrite Ez in *. cbn in *. rewrite Hq in Hc. exact Hc.
        -- intros b Eb. destruct (v_max _ Hv n b En Eb) as (q & -> & Hq). cbn. eapply num_range_int; eauto.
        -- intros n' En' _. assert (n' = n) as -> by congruence. split; assumption.
      * split; [discriminate|]. intro H'. exfalso.
        assert (G : negb (nd_any (nd_map (fun e => num_ltb e (Fin 0)) (nums v))) &&
                negb (nd_any (nd_map (fun e => negb (num_ltb e (Fin (inject_Z n)))) (nums v))) = true).
        { apply andb_true_intro; split; apply any_map_false; intros i Hi; rewrite nums_shape in Hi;
          destruct (H' i _ Hi (He i)) as (_ & _ & _ & Hn); destruct (Hn n En H) as [H1 H2].
          - apply num_ltb_nlt, H1.
          - apply negb_false_iff, num_ltb_lt, H2. }
        congruence.
    + split.
      * intros H i x Hi Hx. rewrite He in Hx. injection Hx as <-. apply bind_ok' in H. destruct H as ([] & H1 & H2).
        split; [destruct (Hz' i) as [z ->]; exact I|]. split; [|split].
        -- intros b Eb. rewrite Eb in H1. rewrite (bound_check num_ltb _ _ lead sh) in H1; [|exact Hns|apply Hp; auto].
           apply num_ltb_nlt, H1. rewrite nums_shape. exact Hi.
        -- intros b Eb. rewrite Eb in H2. rewrite (bound_check (fun e m => num_ltb m e) _ _ lead sh) in H2; [|exact Hns|apply Hp; auto].
           apply num_ltb_nlt, H2. rewrite nums_shape. exact Hi.
        -- intros n Hn. congruence.
      * intro H.
        assert (H1 : match sp_min s with None => Ok tt | Some b => do c <- bcast num_ltb (nums v) (bound_nd b); assert_ (negb (nd_any c)) "min_value" end = Ok tt).
        { destruct (sp_min s) as [b|] eqn:Eb; [|reflexivity]. rewrite (bound_check num_ltb _ _ lead sh); [|exact Hns|apply Hp; auto].
          intros i Hi. rewrite nums_shape in Hi. destruct (H i _ Hi (He i)) as (_ & Hm & _). apply num_ltb_nlt, Hm. exact Eb. }
        rewrite H1. cbn [bind]. destruct (sp_max s) as [b|] eqn:Eb; [|reflexivity].
        rewrite (bound_check (fun e m => num_ltb m e) _ _ lead sh); [|exact Hns|apply Hp; auto].
        intros i Hi. rewrite nums_shape in Hi. destruct (H i _ Hi (He i)) as (_ & _ & Hm & _). apply num_ltb_nlt, Hm. exact Eb.
  - (* float *)
    assert (He : forall i, arr_entry v i = Some (nd_at (nums v) i)) by (intro i; apply nums_entry; congruence).
    assert (Hn0 : sp_num s = None).
    { destruct (sp_num s) eqn:En; [|reflexivity]. assert (Hh : has_int (sp_type s) = true) by (apply (v_num _ Hv); congruence).
      rewrite Ht in Hh. discriminate. }
    split.
    + intros H i x Hi Hx. rewrite He in Hx. injection Hx as <-. apply bind_ok' in H. destruct H as (u & H0 & H). apply assert_ok in H0.
      apply bind_ok' in H. destruct H as ([] & H1 & H2). rewrite any_map_false in H0.
      split; [apply finite_iff; specialize (H0 i); rewrite nums_shape in H0; specialize (H0 Hi); destruct (num_finite _); [reflexivity|discriminate]|].
      split; [|split].
      * intros b Eb. rewrite Eb in H1. rewrite (bound_check num_ltb _ _ lead sh) in H1; [|exact Hns|apply Hp; auto].
        apply num_ltb_nlt, H1. rewrite nums_shape. exact Hi.
      * intros b Eb. rewrite Eb in H2. rewrite (bound_check (fun e m => num_ltb m e) _ _ lead sh) in H2; [|exact Hns|apply Hp; auto].
        apply num_ltb_nlt, H2. rewrite nums_shape. exact Hi.
      * intros n Hn. congruence.
    + intro H.
      assert (E : negb (nd_any (nd_map (fun e => negb (num_finite e)) (nums v))) = true).
      { apply any_map_false. intros i Hi. rewrite nums_shape in Hi. destruct (H i _ Hi (He i)) as (Hf & _). apply finite_iff in Hf. rewrite Hf. reflexivity. }
      rewrite E. cbn [assert_ bind].
      assert (H1 : match sp_min s with None => Ok tt | Some b => do c <- bcast num_ltb (nums v) (bound_nd b); assert_ (negb (nd_any c)) "min_value" end = Ok tt).
      { destruct (sp_min s) as [b|] eqn:Eb; [|reflexivity]. rewrite (bound_check num_ltb _ _ lead sh); [|exact Hns|apply Hp; auto].
        intros i Hi. rewrite nums_shape in Hi. destruct (H i _ Hi (He i)) as (_ & Hm & _). apply num_ltb_nlt, Hm. exact Eb. }
      rewrite H1. cbn [bind]. destruct (sp_max s) as [b|] eqn:Eb; [|reflexivity].
      rewrite (bound_check (fun e m => num_ltb m e) _ _ lead sh); [|exact Hns|apply Hp; auto].
      intros i Hi. rewrite nums_shape in Hi. destruct (H i _ Hi (He i)) as (_ & _ & Hm & _). apply num_ltb_nlt, Hm. exact Eb.
Qed.

(** ** Conversion *)
Definition fixed (s : spec) (t : dtype) (sh : list nat) : Prop :=
  sp_type s = TyOne t /\ sp_shape s = Some (map (fun n => Some (Z.of_nat n)) sh) /\
  Forall (fun n => 0 < n) sh /\ sp_num s <> Some 0%Z.

Lemma specified_iff s : valid s -> is_underspecified s = false <-> exists t sh, fixed s t sh.
Proof.
  intro Hv. unfold is_underspecified, fixed. pose proof (v_shape _ Hv) as Hs. split.
  - destruct (sp_type s) as [|t|] eqn:Ht; try discriminate. destruct (sp_shape s) as [l|] eqn:El; [|discriminate].
    intro H. apply orb_false_iff in H. destruct H as [H H3]. apply orb_false_iff in H. destruct H as [H1 H2].
    assert (Hl : Forall (fun d => exists z, d = Some z /\ (-1 <= z)%Z) l).
    { destruct l as [|[z|] r]; [constructor|exact Hs|discriminate]. }
    exists t. clear H1 Hs.
    assert (G : exists sh, l = map (fun n => Some (Z.of_nat n)) sh /\ Forall (fun n => 0 < n) sh).
    { clear -Hl H2. induction Hl as [|d l (z & -> & Hz) Hl IH]; [exists []; repeat constructor|].
      cbn in H2. apply orb_false_iff in H2. destruct H2 as [H2 H2']. destruct (IH H2') as (sh & -> & Hsh).
      exists (Z.to_nat z :: sh). cbn. rewrite Z2Nat.id by lia. split; [reflexivity|]. constructor; [lia|exact Hsh]. }
    destruct G as (sh & -> & Hsh). exists sh. repeat split; auto. intro E. rewrite E in H3.
    destruct t; try discriminate.
    all: assert (Hh : has_int (sp_type s) = true) by (apply (v_num _ Hv); congruence); rewrite Ht in Hh; discriminate.
  - intros (t & sh & Ht & Hsh & Hp & Hn). rewrite Ht, Hsh. apply orb_false_iff; split; [apply orb_false_iff; split|].
    + destruct sh; reflexivity.
    + clear Hsh. induction Hp; [reflexivity|]. cbn. apply orb_false_iff. split; [lia|exact IHHp].
    + destruct t, (sp_num s) as [n|] eqn:En; auto. pose proof (v_pos _ Hv n En). assert (n <> 0%Z) by congruence. lia.
Qed.

Lemma shape_fits_fixed sh sh' : Forall (fun n => 0 < n) sh ->
  shape_fits (Some (map (fun n => Some (Z.of_nat n)) sh)) sh' <-> sh' = sh.
Proof.
  intro Hp. assert (E : shape_fits (Some (map (fun n => Some (Z.of_nat n)) sh)) sh' <->
    Forall2 dim_fits (map (fun n => Some (Z.of_nat n)) sh) sh') by (destruct sh; reflexivity).
  rewrite E. clear E. revert sh'. induction Hp as [|n sh Hn Hp IH]; intro sh'; cbn [map].
  - split; [intro H; inversion H; reflexivity|intros ->; constructor].
  - split.
    + intro H. inversion H as [|? m ? r Hd Hr]; subst. apply IH in Hr. subst r. cbn in Hd. f_equal. lia.
    + intros ->. constructor; [cbn; auto|]. apply IH. reflexivity.
Qed.

Section Convert.
Variable junk : num -> res Z.
Notation to_tensor := (to_tensor junk).

Lemma asarray_same a : asarray junk (arr_type a) a = Ok a.
Proof. destruct a; reflexivity. Qed.
Lemma asarray_shape t a r : asarray junk t a = Ok r -> arr_type r = t /\ arr_shape r = arr_shape a.
Proof.
  destruct t, a; cbn; intro H; try (injection H as <-; split; reflexivity).
  destruct (forallb _ _); [|discriminate]. injection H as <-. split; reflexivity.
Qed.

Lemma batch_shape (b : bool) v : (b = true -> arr_shape v <> []) ->
  exists lead, length lead = (if b then 1 else 0) /\ arr_shape v = lead ++ (if b then tl (arr_shape v) else arr_shape v).
Proof.
  intro H. destruct b; [|exists []; auto]. destruct (arr_shape v) as [|n r]; [exfalso; exact (H eq_refl eq_refl)|]. exists [n]. auto.
Qed.

Lemma describes_checks s t sh b v : valid s -> fixed s t sh -> plain_bounds s sh -> arr_type v = t ->
  (b = true -> arr_shape v <> []) ->
  (dims_eqb (if b then tl (arr_shape v) else arr_shape v) (fixed_shape s) = true /\ check_entries s t v = Ok tt) <-> describes s b v.
Proof.
  intros Hv (Ht & Hsh & Hpos & Hn) Hp Hvt Hb. destruct (batch_shape b v Hb) as (lead & Hlead & Hls).
  unfold describes. rewrite Ht. unfold fixed_shape. rewrite Hsh. rewrite dims_eqb_iff. split.
  - intros [E H]. split; [exact Hvt|]. exists lead, sh.
    assert (Esh : (if b then tl (arr_shape v) else arr_shape v) = sh).
    { revert E. generalize (if b then tl (arr_shape v) else arr_shape v). clear. induction sh as [|n sh IH]; intros [|m l] E; try discriminate; [reflexivity|].
      injection E as E1 E2. f_equal; [lia|apply IH, E2]. }
    rewrite Esh in Hls. split; [exact Hls|]. split; [exact Hlead|]. split; [apply shape_fits_fixed; auto|].
    rewrite check_entries_iff in H by eassumption. exact H.
  - intros (_ & lead' & sh' & Hs' & Hl' & Hf & He). apply shape_fits_fixed in Hf; [|exact Hpos]. subst sh'.
    split.
    + f_equal. destruct b.
      * destruct lead' as [|n [|]]; try discriminate. rewrite Hs'. reflexivity.
      * destruct lead'; [|discriminate]. rewrite Hs'. reflexivity.
    + apply (check_entries_iff s t v lead' sh); assumption.
Qed.

Lemma to_tensor_typed s t sh b v : valid s -> fixed s t sh -> plain_bounds s sh -> arr_type v = t ->
  (b = true -> arr_shape v <> []) -> forall r, to_tensor s b v = Ok r <-> r = v /\ describes s b v.
Proof.
  intros Hv Hf Hp Hvt Hb r. rewrite <- (describes_checks s t sh b v) by assumption. unfold SpecModel.to_tensor.
  assert (Hu : is_underspecified s = false) by (apply specified_iff; eauto). destruct Hf as (Ht & _). rewrite Hu, Ht.
  cbn [negb assert_ bind]. rewrite <- Hvt at 1. rewrite asarray_same. cbn [bind].
  destruct (dims_eqb _ _); cbn [assert_ bind]; [|split; [discriminate|intros (_ & H & _); discriminate]].
  destruct (check_entries s t v) as [[]|e]; cbn [bind].
  - split; [intro H; injection H as <-; auto|intros [-> _]; reflexivity].
  - split; [discriminate|intros (_ & _ & H); discriminate].
Qed.

Lemma to_tensor_sound s b v r : valid s -> to_tensor s b v = Ok r -> (b = true -> arr_shape v <> []) ->
  exists t sh, fixed s t sh /\ arr_type r = t /\ arr_shape r = arr_shape v /\ (plain_bounds s sh -> describes s b r).
Proof.
  intros Hv H Hb. unfold SpecModel.to_tensor in H. apply bind_ok' in H. destruct H as (u & Hu & H). apply assert_ok in Hu.
  apply negb_true_iff in Hu. apply specified_iff in Hu; [|exact Hv]. destruct Hu as (t & sh & Hf). exists t, sh.
  pose proof Hf as (Ht & _). rewrite Ht in H. apply bind_ok' in H. destruct H as (v' & Ha & H).
  apply asarray_shape in Ha. destruct Ha as [Ha1 Ha2]. apply bind_ok' in H. destruct H as (u' & Hu' & H). apply assert_ok in Hu'.
  apply bind_ok' in H. destruct H as ([] & Hc & H). injection H as <-. split; [exact Hf|]. split; [exact Ha1|]. split; [exact Ha2|].
  intro Hp. apply (describes_checks s t sh b v'); auto. intros E. rewrite Ha2. auto.
Qed.

Lemma from_tensor_iff s b v : valid s -> (b = true -> arr_shape v <> []) ->
  forall t sh, fixed s t sh -> plain_bounds s sh -> forall r, from_tensor s b v = Ok r <-> r = v /\ describes s b v.
Proof.
  intros Hv Hb t sh Hf Hp r. unfold from_tensor.
  assert (Hu : is_underspecified s = false) by (apply specified_iff; eauto). pose proof Hf as (Ht & _). rewrite Hu, Ht.
  cbn [negb assert_ bind]. destruct (dtype_eqb (arr_type v) t) eqn:E; cbn [assert_ bind].
  - assert (Hvt : arr_type v = t) by (destruct (arr_type v), t; try discriminate; reflexivity).
    rewrite <- (describes_checks s t sh b v) by assumption.
    destruct (dims_eqb _ _); cbn [assert_ bind]; [|split; [discriminate|intros (_ & H & _); discriminate]].
    destruct (check_entries s t v) as [[]|e]; cbn [bind].
    + split; [intro H; injection H as <-; auto|intros [-> _]; reflexivity].
    + split; [discriminate|intros (_ & _ & H); discriminate].
  - split; [discriminate|]. intros (_ & Hd & _). rewrite Ht in Hd. cbn in Hd. rewrite Hd in E. destruct t; discriminate.
Qed.

Lemma under_err s b v : valid s -> (forall t sh, ~ fixed s t sh) -> (exists e, to_tensor s b v = Err e) /\ exists e, from_tensor s b v = Err e.
Proof.
  intros Hv H. assert (E : is_underspecified s = true).
  { destruct (is_underspecified s) eqn:E; [reflexivity|]. apply specified_iff in E; [|exact Hv]. destruct E as (t & sh & E). exfalso. eapply H, E. }
  unfold SpecModel.to_tensor, from_tensor. rewrite E. cbn. split; eexists; reflexivity.
Qed.
End Convert.

(** ** Unification *)
Definition scalar_bounds (s : spec) : Prop :=
  forall b, sp_min s = Some b \/ sp_max s = Some b -> exists x, b = Scalar x.
Definition open_rank (s : spec) : Prop := exists r, sp_shape s = Some (None :: r).

Lemma dtype_eqb_eq a b : dtype_eqb a b = true <-> a = b.
Proof. destruct a, b; cbn; split; congruence. Qed.
Lemma in_dtypes t l : existsb (dtype_eqb t) l = true <-> In t l.
Proof.
  rewrite existsb_exists. split; [intros (x & Hx & E); apply dtype_eqb_eq in E; subst; exact Hx|].
  intro H. exists t. split; [exact H|apply dtype_eqb_eq; reflexivity].
Qed.

Lemma unify_type_fits a b c d : unify_type a b = Ok c -> (type_fits c d <-> type_fits a d /\ type_fits b d).
Proof.
  assert (Hsub : forall l l', subset l l' = true -> forall x, In x l -> In x l').
  { intros l l' H x Hx. unfold subset in H. rewrite forallb_forall in H. apply in_dtypes, H, Hx. }
  destruct a as [|t|l], b as [|t'|l']; cbn; intro H; try (injection H as <-; cbn; tauto).
  - destruct (dtype_eqb t t') eqn:E; [|discriminate]. injection H as <-. apply dtype_eqb_eq in E. subst. cbn. tauto.
  - destruct (existsb _ _) eqn:E; [|discriminate]. injection H as <-. apply in_dtypes in E. cbn. split; [intros ->; auto|tauto].
  - destruct (existsb _ _) eqn:E; [|discriminate]. injection H as <-. apply in_dtypes in E. cbn. split; [intros ->; auto|tauto].
  - destruct (subset l l') eqn:E.
    + injection H as <-. cbn. split; [|tauto]. intro Hd. split; [exact Hd|eapply Hsub; eassumption].
    + destruct (subset l' l) eqn:E'; [|discriminate]. injection H as <-. cbn. split; [|tauto]. intro Hd. split; [eapply Hsub; eassumption|exact Hd].
Qed.

Lemma Forall2_nth {A B} (R : A -> B -> Prop) l l' :
  Forall2 R l l' <-> length l = length l' /\ forall k x y, nth_error l k = Some x -> nth_error l' k = Some y -> R x y.
Proof.
  split.
  - induction 1 as [|x y l l' Hr Hl [IH1 IH2]]; [split; [reflexivity|intros [|k] x y H; discriminate]|].
    split; [cbn; congruence|]. intros [|k] a b Ha Hb; cbn in *; [congruence|eauto].
  - revert l'. induction l as [|x l IH]; intros [|y l'] [Hl H]; try discriminate; [constructor|].
    constructor; [apply (H 0); reflexivity|]. apply IH. split; [cbn in Hl; congruence|]. intros k a b Ha Hb. apply (H (S k)); assumption.
Qed.

Lemma unify_dims_spec a b : forall n acc r, unify_dims n a b acc = Ok r ->
  exists l, r = acc ++ rev l /\ length l = n /\
    forall k, k < n -> exists x y z, nth_error a k = Some x /\ nth_error b k = Some y /\ nth_error l k = Some z /\ unify_dim x y = Ok z.
Proof.
  induction n as [|n IH]; intros acc r H; cbn [unify_dims] in H.
  - injection H as <-. exists []. rewrite app_nil_r. repeat split; intros; lia.
  - destruct (nth_error a n) as [x|] eqn:Ea; [|discriminate]. destruct (nth_error b n) as [y|] eqn:Eb; [|discriminate].
    apply bind_ok' in H. destruct H as (z & Hz & H). apply IH in H. destruct H as (l & -> & Hl & Hk).
    exists (l ++ [z]). rewrite rev_app_distr. cbn [rev app]. rewrite <- app_assoc. split; [reflexivity|].
    split; [rewrite app_length; cbn; lia|]. intros k Hlt. destruct (Nat.eq_dec k n) as [->|Hne].
    + exists x, y, z. repeat split; auto. rewrite nth_error_app2 by lia. rewrite Hl, Nat.sub_diag. reflexivity.
    + destruct (Hk k ltac:(lia)) as (x' & y' & z' & H1 & H2 & H3 & H4). exists x', y', z'. repeat split; auto.
      rewrite nth_error_app1 by lia. exact H3.
Qed.

Lemma unify_dim_fits x y z n : (-1 <= x)%Z -> (-1 <= y)%Z -> unify_dim (Some x) (Some y) = Ok z ->
  (dim_fits z n <-> dim_fits (Some x) n /\ dim_fits (Some y) n).
Proof.
  intros Hx Hy. unfold unify_dim.
  destruct (x =? 0)%Z eqn:E1; [intro H; injection H as <-; cbn; lia|].
  destruct (y =? 0)%Z eqn:E2; [intro H; injection H as <-; cbn; lia|].
  destruct (x =? -1)%Z eqn:E3, (y =? -1)%Z eqn:E4; cbn [bind].
  all: repeat match goal with |- context [if ?b then _ else _] => destruct b eqn:?; cbn [bind] end.
  all: intro H; try discriminate; injection H as <-; cbn; lia.
Qed.

Lemma closed_dims l : shape_valid (Some l) -> ~ (exists r, l = None :: r) -> Forall (fun d => exists z, d = Some z /\ (-1 <= z)%Z) l.
Proof. intros Hv Ho. destruct l as [|[z|] r]; [constructor|exact Hv|exfalso; eauto]. Qed.

Lemma shape_fits_closed l sh : ~ (exists r, l = None :: r) -> (shape_fits (Some l) sh <-> Forall2 dim_fits l sh).
Proof. intro Ho. destruct l as [|[z|] r]; [reflexivity|reflexivity|exfalso; eauto]. Qed.

Lemma last_dim_some l x : Forall (fun d => exists z, d = Some z /\ (-1 <= z)%Z) l -> last_dim l = Ok x -> exists z, x = Some z.
Proof.
  unfold last_dim. intros Hl H. destruct (rev l) as [|y r] eqn:E; [discriminate|]. injection H as <-.
  assert (In y l) by (apply in_rev; rewrite E; left; reflexivity). rewrite Forall_forall in Hl. destruct (Hl y H) as (z & -> & _). eauto.
Qed.

Lemma unify_shape_fits a b c : shape_valid a -> shape_valid b ->
  ~ (exists r, a = Some (None :: r)) -> ~ (exists r, b = Some (None :: r)) -> unify_shape a b = Ok c ->
  forall sh, shape_fits c sh <-> shape_fits a sh /\ shape_fits b sh.
Proof.
  intros Ha Hb Hoa Hob H sh. destruct a as [a|], b as [b|]; cbn [unify_shape] in H.
  2: injection H as <-; cbn; tauto. 2: injection H as <-; cbn; tauto. 2: injection H as <-; cbn; tauto.
  assert (Hna : ~ (exists r, a = None :: r)) by (intros [r ->]; eauto).
  assert (Hnb : ~ (exists r, b = None :: r)) by (intros [r ->]; eauto).
  pose proof (closed_dims a Ha Hna) as Fa. pose proof (closed_dims b Hb Hnb) as Fb.
  apply bind_ok' in H. destruct H as (la & Hla & H). apply (last_dim_some _ _ Fa) in Hla. destruct Hla as [za ->].
  apply bind_ok' in H. destruct H as (r & Hr & H). injection H as <-.
  apply bind_ok' in Hr. destruct Hr as (lb & Hlb & Hr). apply (last_dim_some _ _ Fb) in Hlb. destruct Hlb as [zb ->].
  destruct (Nat.eqb (length a) (length b)) eqn:E; [|discriminate]. apply Nat.eqb_eq in E.
  apply unify_dims_spec in Hr. destruct Hr as (l & -> & Hl & Hk). cbn [app]. rewrite rev_involutive.
  rewrite Forall_forall in Fa, Fb.
  assert (Hz : forall k x y z, nth_error a k = Some x -> nth_error b k = Some y -> nth_error l k = Some z ->
    unify_dim x y = Ok z /\ exists x' y', x = Some x' /\ y = Some y' /\ (-1 <= x')%Z /\ (-1 <= y')%Z).
  { intros k x y z E1 E2 E3. assert (k < length a) by (apply nth_error_Some; congruence).
    destruct (Hk k H) as (x1 & y1 & z1 & F1 & F2 & F3 & F4). assert (x1 = x) by congruence. assert (y1 = y) by congruence. assert (z1 = z) by congruence. subst.
    split; [exact F4|]. apply nth_error_In in E1. apply nth_error_In in E2. destruct (Fa _ E1) as (x' & -> & ?). destruct (Fb _ E2) as (y' & -> & ?). eauto 10. }
  assert (Hnl : ~ (exists r, l = None :: r)).
  { intros [r ->]. cbn in Hl. destruct (Hk 0 ltac:(lia)) as (x & y & z & F1 & F2 & F3 & F4). injection F3 as <-.
    destruct (Hz 0 x y None F1 F2 eq_refl) as (_ & x' & y' & -> & -> & Hx & Hy).
    assert (G : dim_fits (Some x') (Z.to_nat x') /\ dim_fits (Some y') (Z.to_nat y')) by (cbn; lia).
    pose proof (unify_dim_fits x' y' None (Z.to_nat x') Hx Hy F4) as G1. pose proof (unify_dim_fits x' y' None (Z.to_nat y') Hx Hy F4) as G2.
    cbn in G1, G2, G. clear -G1 G2 Hx Hy F4. unfold unify_dim in F4.
    repeat match goal with H : context [if ?b then _ else _] |- _ => destruct b eqn:?; cbn [bind] in H; try discriminate end. }
  rewrite !shape_fits_closed by assumption. rewrite !Forall2_nth. split.
  - intros [H1 H2]. split; (split; [lia|]).
    + intros k x n Ex En. assert (Hlt : k < length a) by (apply nth_error_Some; congruence).
      destruct (Hk k Hlt) as (x1 & y1 & z1 & F1 & F2 & F3 & F4). assert (x1 = x) by congruence. subst x1.
      destruct (Hz k _ _ _ F1 F2 F3) as (_ & x' & y' & -> & -> & Hx & Hy).
      apply (unify_dim_fits x' y' z1 n Hx Hy F4). eapply H2; eassumption.
    + intros k y n Ey En. assert (Hlt : k < length a) by (rewrite E; apply nth_error_Some; congruence).
      destruct (Hk k Hlt) as (x1 & y1 & z1 & F1 & F2 & F3 & F4). assert (y1 = y) by congruence. subst y1.
      destruct (Hz k _ _ _ F1 F2 F3) as (_ & x' & y' & -> & -> & Hx & Hy).
      apply (unify_dim_fits x' y' z1 n Hx Hy F4). eapply H2; eassumption.
  - intros [[A1 A2] [B1 B2]]. split; [lia|]. intros k z n Ez En.
    assert (Hlt : k < length a) by (rewrite <- Hl; apply nth_error_Some; congruence).
    destruct (Hk k Hlt) as (x1 & y1 & z1 & F1 & F2 & F3 & F4). assert (z1 = z) by congruence. subst z1.
    destruct (Hz k _ _ _ F1 F2 F3) as (_ & x' & y' & -> & -> & Hx & Hy).
    apply (unify_dim_fits x' y' z n Hx Hy F4). split; [eapply A2|eapply B2]; eassumption.
Qed.

(** The result of the constructor as used by unify. *)
Section Unify.
Variable junk : num -> res Z.

Definition kept (t : ty) (b : bound) : Prop :=
  match t with
  | TyOne TInt => exists z, b = Scalar (Fin (inject_Z z))
  | _ => exists x, b = Scalar x
  end.

Lemma convert_kept is_min s b b' : kept (sp_type s) b -> sp_num s = None ->
  convert_bound junk is_min s b = Ok b' -> b' = b.
Proof.
  intros Hk Hn. unfold convert_bound. destruct (sp_type s) as [|t|]; try discriminate. rewrite Hn. destruct t.
  - destruct Hk as [x ->]. cbn. discriminate.
  - destruct Hk as [z ->]. cbn [py_number]. rewrite trunc_int. intro H. injection H as <-. reflexivity.
  - destruct Hk as [x ->]. cbn. intro H. injection H as <-. reflexivity.
Qed.

Lemma set_min_kept s b s' : kept (sp_type s) b -> sp_num s = None -> set_min junk (Some b) s = Ok s' ->
  s' = Spec (sp_type s) (sp_shape s) (Some b) (sp_max s) (sp_num s).
Proof.
  intros Hk Hn H. unfold set_min in H. apply bind_ok' in H. destruct H as (_ & _ & H). apply bind_ok' in H. destruct H as (b' & Hb & H).
  apply convert_kept in Hb; auto. subst b'. apply bind_ok' in H. destruct H as (_ & _ & H). apply bind_ok' in H. destruct H as (_ & _ & H).
  injection H as <-. reflexivity.
Qed.
Lemma set_max_kept s b s' : kept (sp_type s) b -> sp_num s = None -> set_max junk (Some b) s = Ok s' ->
  s' = Spec (sp_type s) (sp_shape s) (sp_min s) (Some b) (sp_num s).
Proof.
  intros Hk Hn H. unfold set_max in H. apply bind_ok' in H. destruct H as (_ & _ & H). apply bind_ok' in H. destruct H as (b' & Hb & H).
  apply convert_kept in Hb; auto. subst b'. apply bind_ok' in H. destruct H as (_ & _ & H). apply bind_ok' in H. destruct H as (_ & _ & H).
  injection H as <-. reflexivity.
Qed.

Lemma make_bounds t shape mn mx c : (forall b, mn = Some b \/ mx = Some b -> kept t b) ->
  make junk t shape mn mx None = Ok c -> c = Spec t shape mn mx None.
Proof.
  intros Hk H. unfold make in H. apply bind_ok' in H. destruct H as (s1 & H1 & H).
  unfold set_shape in H1. apply bind_ok' in H1. destruct H1 as (_ & _ & H1). injection H1 as <-.
  cbn [is_some andb bind] in H. apply bind_ok' in H. destruct H as (s2 & H2 & H).
  assert (E2 : s2 = Spec t shape mn None None).
  { destruct mn as [b|]; cbn [is_some] in H2; [|injection H2 as <-; reflexivity].
    apply set_min_kept in H2; [exact H2|apply Hk; auto|reflexivity]. }
  subst s2. apply bind_ok' in H. destruct H as (s3 & H3 & H).
  assert (E3 : s3 = Spec t shape mn mx None).
  { destruct mx as [b|]; cbn [is_some] in H3; [|injection H3 as <-; reflexivity].
    apply set_max_kept in H3; [exact H3|apply Hk; auto|reflexivity]. }
  subst s3. injection H as <-. reflexivity.
Qed.

Lemma make_num t shape n c : make junk t shape None None (Some n) = Ok c ->
  sp_type c = t /\ sp_shape c = shape /\ sp_num c = Some n.
Proof.
  intro H. unfold make in H. apply bind_ok' in H. destruct H as (s1 & H1 & H).
  unfold set_shape in H1. apply bind_ok' in H1. destruct H1 as (_ & _ & H1). injection H1 as <-.
  cbn [is_some andb orb bind] in H. unfold set_num in H. apply bind_ok' in H. destruct H as (_ & _ & H).
  apply bind_ok' in H. destruct H as (_ & _ & H). cbn in H. destruct (0 <? n)%Z; injection H as <-; auto.
Qed.

Lemma larger_lub x y b : num_lt b (larger x y) -> num_lt b x \/ num_lt b y.
Proof. unfold larger. destruct (num_ltb x y); auto. Qed.
Lemma larger_or x y : larger x y = x \/ larger x y = y.
Proof. unfold larger. destruct (num_ltb x y); auto. Qed.

(** below x or below y is below the larger *)
Lemma larger_lower q x y : num_lt (Fin q) x \/ num_lt (Fin q) y -> x <> NaN -> y <> NaN -> num_lt (Fin q) (larger x y).
Proof.
  intros H Hx Hy. unfold larger. destruct (num_ltb x y) eqn:E.
  - apply num_ltb_lt in E. destruct H as [H|H]; [|exact H]. destruct x, y; cbn in *; try contradiction; auto.
    eapply Qlt_trans; eassumption.
  - apply num_ltb_nlt in E. destruct H as [H|H]; [exact H|]. destruct x, y; cbn in *; try contradiction; auto; try (exfalso; apply E; exact I).
    apply Qnot_lt_le in E. eapply Qlt_le_trans; eassumption.
Qed.
Lemma unify_num_spec dt ta tb a b n : unify_num dt ta tb a b = Ok (Some n) ->
  (ta = TyOne TInt /\ a = Some n) \/ (tb = TyOne TInt /\ b = Some n).
Proof.
  unfold unify_num. destruct (negb (has_int dt)); [discriminate|].
  assert (Ha : forall x, match ta with TyOne TInt => a | _ => None end = Some x -> ta = TyOne TInt /\ a = Some x).
  { intros x E. destruct ta as [|[]|]; try discriminate. auto. }
  assert (Hb : forall x, match tb with TyOne TInt => b | _ => None end = Some x -> tb = TyOne TInt /\ b = Some x).
  { intros x E. destruct tb as [|[]|]; try discriminate. auto. }
  destruct (match ta with TyOne TInt => a | _ => None end) as [x|] eqn:Ea;
  destruct (match tb with TyOne TInt => b | _ => None end) as [y|] eqn:Eb.
  - destruct (x =? 0)%Z; [intro H; injection H as <-; auto|]. destruct (y =? 0)%Z; [intro H; injection H as <-; auto|].
    destruct (x =? y)%Z; [intro H; injection H as <-; auto|discriminate].
  - intro H; injection H as <-; auto.
  - intro H; injection H as <-; auto.
  - discriminate.
Qed.
(** A positive number of values of either side is that of the result. *)
Lemma unify_num_pos dt ta tb a b r n : unify_num dt ta tb a b = Ok r -> has_int dt = true -> (0 < n)%Z ->
  (ta = TyOne TInt /\ a = Some n) \/ (tb = TyOne TInt /\ b = Some n) -> r = Some n.
Proof.
  unfold unify_num. intros H Hd Hn Hc. rewrite Hd in H. cbn [negb] in H. destruct Hc as [[-> ->]|[-> ->]].
  - destruct (match tb with TyOne TInt => b | _ => None end) as [y|]; [|congruence].
    destruct (n =? 0)%Z eqn:E; [lia|]. destruct (y =? 0)%Z; [congruence|]. destruct (n =? y)%Z; congruence.
  - destruct (match ta with TyOne TInt => a | _ => None end) as [y|]; [|congruence].
    destruct (y =? 0)%Z; [congruence|]. destruct (n =? 0)%Z eqn:E; [lia|]. destruct (y =? n)%Z eqn:E'; [|congruence]. apply Z.eqb_eq in E'. congruence.
Qed.

(** What is left open about a specification before it takes part in a unification. *)
Record plain (s : spec) : Prop := {
  p_scalar : forall b, sp_min s = Some b \/ sp_max s = Some b -> exists x, b = Scalar x;
  p_rank : ~ exists r, sp_shape s = Some (None :: r);
  p_num : forall n, sp_num s = Some n -> (0 < n)%Z -> sp_type s = TyOne TInt
}.

Lemma unify_bound_scalar ar ta tb a b r : (forall x, a = Some x -> exists q, x = Scalar q) -> (forall x, b = Some x -> exists q, x = Scalar q) ->
  (is_bool ta = true -> a = None) -> (is_bool tb = true -> b = None) ->
  unify_bound larger ar ta tb a b = Ok r ->
  match a, b with
  | Some (Scalar x), Some (Scalar y) => r = Some (Scalar (larger x y))
  | Some x, None => r = Some x
  | None, Some y => r = Some y
  | _, _ => r = None
  end.
Proof.
  intros Ha Hb Hta Htb. unfold unify_bound.
  replace (if is_bool ta then None else a) with a by (destruct (is_bool ta); [apply Hta; reflexivity|reflexivity]).
  replace (if is_bool tb then None else b) with b by (destruct (is_bool tb); [apply Htb; reflexivity|reflexivity]).
  destruct a as [x|], b as [y|].
  - destruct (Ha x eq_refl) as [p ->], (Hb y eq_refl) as [q ->]. intro H. injection H as <-. reflexivity.
  - destruct (Ha x eq_refl) as [p ->]. intro H. injection H as <-. reflexivity.
  - intro H. injection H as <-. reflexivity.
  - intro H. injection H as <-. reflexivity.
Qed.

(** The attributes of the result. *)
Lemma unify_parts a b c : valid a -> valid b -> plain a -> plain b -> unify junk a b = Ok c ->
  unify_type (sp_type a) (sp_type b) = Ok (sp_type c) /\
  unify_shape (sp_shape a) (sp_shape b) = Ok (sp_shape c) /\
  unify_num (sp_type c) (sp_type a) (sp_type b) (sp_num a) (sp_num b) = Ok (sp_num c) /\
  valid c /\
  (sp_num c = None -> sp_type c <> TyOne TBool ->
   unify_bound larger num_min (sp_type a) (sp_type b) (sp_min a) (sp_min b) = Ok (sp_min c) /\
   unify_bound larger num_max (sp_type a) (sp_type b) (sp_max a) (sp_max b) = Ok (sp_max c)).
Proof.
  intros Va Vb Pa Pb H. unfold unify in H. apply bind_ok' in H. destruct H as (dt & Ht & H). apply bind_ok' in H. destruct H as (shp & Hs & H).
  apply bind_ok' in H. destruct H as (mn & Hmn & H). apply bind_ok' in H. destruct H as (mx & Hmx & H).
  apply bind_ok' in H. destruct H as (_ & _ & H). apply bind_ok' in H. destruct H as (n & Hn & H).
  assert (Hc : valid c).
  { destruct (is_some n); apply make_constructible in H; apply (constructible_valid junk) in H; exact H. }
  destruct n as [n|]; cbn [is_some] in H.
  - apply make_num in H. destruct H as (E1 & E2 & E3). rewrite E1, E2, E3.
    split; [exact Ht|]. split; [exact Hs|]. split; [exact Hn|]. split; [exact Hc|]. intro; discriminate.
  - assert (Hk : forall b0, mn = Some b0 \/ mx = Some b0 -> kept dt b0).
    { destruct (is_bool dt) eqn:Eb; [injection Hmn as <-; injection Hmx as <-; intros b0 [E|E]; discriminate|].
      assert (Hbool : forall s, valid s -> is_bool (sp_type s) = true -> sp_min s = None /\ sp_max s = None).
      { intros s Hv Hb. pose proof (v_none _ Hv) as Hx. destruct (sp_type s) as [|[]|]; try discriminate. exact Hx. }
      assert (Hscalar : forall s, plain s -> forall x, sp_min s = Some x \/ sp_max s = Some x -> exists q, x = Scalar q) by (intros s Hp; apply p_scalar, Hp).
      assert (Hint : dt = TyOne TInt -> forall s, s = a \/ s = b -> forall x, sp_min s = Some x \/ sp_max s = Some x -> exists z, x = Scalar (Fin (inject_Z z))).
      { intros Hdt s Hsab x Hx.
        assert (Hfit : type_fits (sp_type s) TInt).
        { assert (type_fits dt TInt) by (rewrite Hdt; reflexivity). apply (unify_type_fits _ _ _ TInt Ht) in H0. destruct Hsab as [-> | ->]; tauto. }
        assert (Hv : valid s) by (destruct Hsab as [-> | ->]; assumption).
        assert (Hp : plain s) by (destruct Hsab as [-> | ->]; assumption).
        destruct (Hscalar s Hp x Hx) as [q ->].
        assert (Hh : has_int (sp_type s) = true).
        { destruct (sp_type s) as [|t|l] eqn:E; cbn in Hfit.
          - pose proof (v_none _ Hv) as Hnn. rewrite E in Hnn. destruct Hnn as [N1 N2]. rewrite N1, N2 in Hx. destruct Hx; discriminate.
          - subst t. reflexivity.
          - cbn. apply in_dtypes, Hfit. }
        destruct (v_int _ Hv Hh _ Hx) as [z Hz]. exists z. rewrite Hz. reflexivity. }
      assert (Hr : forall ar (f : spec -> option bound) r, (f = sp_min \/ f = sp_max) -> unify_bound larger ar (sp_type a) (sp_type b) (f a) (f b) = Ok r ->
        forall b0, r = Some b0 -> kept dt b0).
      { intros ar f r Hf Hu b0 E. subst r.
        assert (Hfs : forall s x, f s = Some x -> sp_min s = Some x \/ sp_max s = Some x) by (intros s x; destruct Hf as [-> | ->]; auto).
        assert (Hfb : forall s, valid s -> is_bool (sp_type s) = true -> f s = None) by (intros s Hv Hb; destruct (Hbool s Hv Hb); destruct Hf as [-> | ->]; assumption).
        apply unify_bound_scalar in Hu; eauto.
        assert (Hin : f a = Some b0 \/ f b = Some b0).
        { destruct (f a) as [x|] eqn:Ea, (f b) as [y|] eqn:Eb'.
          - destruct (Hscalar a Pa x (Hfs _ _ Ea)) as [p ->], (Hscalar b Pb y (Hfs _ _ Eb')) as [q ->]. injection Hu as ->.
            destruct (larger_or p q) as [-> | ->]; auto.
          - left. destruct x; congruence.
          - right. congruence.
          - discriminate. }
        assert (Hk' : exists s, (s = a \/ s = b) /\ f s = Some b0) by (destruct Hin; eauto).
        destruct Hk' as (s & Hs' & E').
        assert (Ps : plain s) by (destruct Hs' as [-> | ->]; assumption). destruct dt as [|[]|]; cbn [kept].
        all: try exact (Hscalar s Ps b0 (Hfs _ _ E')).
        eapply Hint; [reflexivity|exact Hs'|apply Hfs, E']. }
      intros b0 [E|E]; [eapply (Hr num_min sp_min); eauto|eapply (Hr num_max sp_max); eauto]. }
    apply make_bounds in H; [|exact Hk]. subst c. cbn.
    split; [exact Ht|]. split; [exact Hs|]. split; [exact Hn|]. split; [exact Hc|]. intros _ Hnb. split.
    all: destruct (is_bool dt) eqn:Eb; [destruct dt as [|[]|]; try discriminate; congruence|assumption].
Qed.

Lemma int_entry v i x : arr_type v = TInt -> arr_entry v i = Some x -> exists z, x = Fin (inject_Z z).
Proof. destruct v; try discriminate. cbn. intros _ H. injection H as <-. eauto. Qed.

Lemma num_of_type s n : valid s -> sp_num s = Some n -> has_int (sp_type s) = true.
Proof. intros Hv H. apply (v_num _ Hv). congruence. Qed.

(** A value described by both is described by the result. *)
Lemma unify_complete a b c bt v : valid a -> valid b -> plain a -> plain b -> unify junk a b = Ok c ->
  describes a bt v -> describes b bt v -> describes c bt v.
Proof.
  intros Va Vb Pa Pb H (Ta & la & sa & Sa & La & Fa & Ea) (Tb & lb & sb & Sb & Lb & Fb & Eb).
  destruct (unify_parts a b c Va Vb Pa Pb H) as (Ht & Hs & Hn & Vc & Hb).
  split; [apply (unify_type_fits _ _ _ _ Ht); auto|].
  assert (Hll : la = lb /\ sa = sb).
  { rewrite Sa in Sb. destruct bt.
    - destruct la as [|x [|]], lb as [|y [|]]; try discriminate. injection Sb as -> ->. auto.
    - destruct la, lb; try discriminate. auto. }
  destruct Hll as [<- <-]. exists la, sa. split; [exact Sa|]. split; [exact La|].
  split; [apply (unify_shape_fits _ _ _ (v_shape _ Va) (v_shape _ Vb) (p_rank _ Pa) (p_rank _ Pb) Hs); auto|].
  intros i x Hi Hx. specialize (Ea i x Hi Hx). specialize (Eb i x Hi Hx).
  destruct Ea as (Ff & Emin & Emax & Enum), Eb as (_ & Emin' & Emax' & Enum'). split; [exact Ff|].
  destruct (sp_num c) as [n|] eqn:En.
  - pose proof (unify_num_spec _ _ _ _ _ _ Hn) as Hor. pose proof (v_pos _ Vc n En) as Hpos.
    assert (Hdt : arr_type v = TInt).
    { destruct Hor as [[E _]|[E _]]; [rewrite E in Ta; exact Ta|rewrite E in Tb; exact Tb]. }
    destruct (int_entry v i x Hdt Hx) as [z ->].
    assert (Hrange : (0 < n)%Z -> ~ num_lt (Fin (inject_Z z)) (Fin 0) /\ num_lt (Fin (inject_Z z)) (Fin (inject_Z n))).
    { intro Hp. destruct Hor as [[_ E]|[_ E]]; [apply (Enum n E Hp)|apply (Enum' n E Hp)]. }
    assert (Hz0 : n = 0%Z -> sp_min c = None /\ sp_max c = None).
    { intros ->. clear -H En. unfold unify in H.
      do 2 (apply bind_ok' in H; destruct H as (? & _ & H)). do 2 (apply bind_ok' in H; destruct H as (? & _ & H)).
      apply bind_ok' in H; destruct H as (? & _ & H). apply bind_ok' in H. destruct H as (n & _ & H).
      destruct n as [n|]; cbn [is_some] in H.
      - unfold make in H. apply bind_ok' in H. destruct H as (s1 & _ & H). cbn [is_some andb orb bind] in H. unfold set_num in H.
        apply bind_ok' in H. destruct H as (_ & _ & H). apply bind_ok' in H. destruct H as (_ & _ & H).
        destruct (0 <? n)%Z eqn:E; injection H as <-; cbn in En; [injection En as ->; discriminate|auto].
      - exfalso. unfold make in H. apply bind_ok' in H. destruct H as (s1 & H1 & H). cbn [is_some andb orb bind] in H.
        unfold set_shape in H1. apply bind_ok' in H1. destruct H1 as (_ & _ & H1). injection H1 as <-.
        assert (Hmin : forall o s s', set_min junk o s = Ok s' -> sp_num s' = sp_num s).
        { intros o s s' E. unfold set_min in E. apply bind_ok' in E. destruct E as (_ & _ & E). destruct o; [|injection E as <-; reflexivity].
          apply bind_ok' in E. destruct E as (? & _ & E). apply bind_ok' in E. destruct E as (? & _ & E). apply bind_ok' in E. destruct E as (? & _ & E). injection E as <-. reflexivity. }
        assert (Hmax : forall o s s', set_max junk o s = Ok s' -> sp_num s' = sp_num s).
        { intros o s s' E. unfold set_max in E. apply bind_ok' in E. destruct E as (_ & _ & E). destruct o; [|injection E as <-; reflexivity].
          apply bind_ok' in E. destruct E as (? & _ & E). apply bind_ok' in E. destruct E as (? & _ & E). apply bind_ok' in E. destruct E as (? & _ & E). injection E as <-. reflexivity. }
        apply bind_ok' in H. destruct H as (s2 & H2 & H). apply bind_ok' in H. destruct H as (s3 & H3 & H). injection H as <-.
        assert (sp_num s2 = None) by (destruct (is_some _) in H2; [rewrite (Hmin _ _ _ H2)|injection H2 as <-]; reflexivity).
        assert (sp_num s3 = None) by (destruct (is_some _) in H3; [rewrite (Hmax _ _ _ H3)|injection H3 as <-]; assumption). congruence. }
    split; [|split].
    + intros b0 E. destruct (Z.eq_dec n 0) as [Hz|Hz]; [destruct (Hz0 Hz) as [N _]; congruence|]. destruct (Hrange ltac:(lia)) as [R1 _].
      destruct (v_min _ Vc n b0 En E) as (q & -> & Hq). cbn in *. rewrite Hq. exact R1.
    + intros b0 E. destruct (Z.eq_dec n 0) as [Hz|Hz]; [destruct (Hz0 Hz) as [_ N]; congruence|]. destruct (Hrange ltac:(lia)) as [_ R2].
      destruct (v_max _ Vc n b0 En E) as (q & -> & Hq). eapply num_range_int; eauto.
    + intros n' E Hp. injection E as <-. auto.
  - destruct (is_bool (sp_type c)) eqn:Ebool.
    { pose proof (v_none _ Vc) as Hv. destruct (sp_type c) as [|[]|]; try discriminate. destruct Hv as [-> ->].
      repeat split; intros; discriminate. }
    destruct Hb as [Hmin Hmax]; [reflexivity|intro E; rewrite E in Ebool; discriminate|].
    assert (Hbool : forall s, valid s -> is_bool (sp_type s) = true -> sp_min s = None /\ sp_max s = None).
    { intros s Hv Hb. pose proof (v_none _ Hv) as Hx'. destruct (sp_type s) as [|[]|]; try discriminate. exact Hx'. }
    apply unify_bound_scalar in Hmin; [|intros x0 E0; apply (p_scalar _ Pa); auto|intros x0 E0; apply (p_scalar _ Pb); auto|apply Hbool, Va|apply Hbool, Vb].
    apply unify_bound_scalar in Hmax; [|intros x0 E0; apply (p_scalar _ Pa); auto|intros x0 E0; apply (p_scalar _ Pb); auto|apply Hbool, Va|apply Hbool, Vb].
    split; [|split; [|intros; discriminate]].
    + intros b0 E. destruct (sp_min a) as [xa|] eqn:Exa, (sp_min b) as [xb|] eqn:Exb.
      * destruct (p_scalar _ Pa xa (or_introl Exa)) as [p ->], (p_scalar _ Pb xb (or_introl Exb)) as [q ->].
        rewrite Hmin in E. injection E as <-. intro Hc. apply larger_lub in Hc. destruct Hc as [Hc|Hc]; [eapply Emin|eapply Emin']; eauto.
      * destruct (p_scalar _ Pa xa (or_introl Exa)) as [p ->]. rewrite Hmin in E. injection E as <-. apply Emin; reflexivity.
      * rewrite Hmin in E. injection E as <-. apply Emin'; reflexivity.
      * congruence.
    + intros b0 E. destruct (sp_max a) as [xa|] eqn:Exa, (sp_max b) as [xb|] eqn:Exb.
      * destruct (p_scalar _ Pa xa (or_intror Exa)) as [p ->], (p_scalar _ Pb xb (or_intror Exb)) as [q ->].
        rewrite Hmax in E. injection E as <-. cbn. destruct (larger_or p q) as [-> | ->]; [apply (Emax (Scalar p))|apply (Emax' (Scalar q))]; reflexivity.
      * destruct (p_scalar _ Pa xa (or_intror Exa)) as [p ->]. rewrite Hmax in E. injection E as <-. apply Emax; reflexivity.
      * rewrite Hmax in E. injection E as <-. apply Emax'; reflexivity.
      * congruence.
Qed.

(** And conversely, if no bound is lost: upper bounds are not both given and different,
    lower bounds are numbers, and bounds do not meet num_values. *)
Definition no_loss (a b c : spec) : Prop :=
  (sp_max a = None \/ sp_max b = None \/ sp_max a = sp_max b) /\
  (forall s, s = a \/ s = b -> sp_min s <> Some (Scalar NaN)) /\
  (sp_num c <> None -> forall s, s = a \/ s = b ->
     (exists n, sp_num s = Some n /\ (0 < n)%Z) \/ (sp_min s = None /\ sp_max s = None)).

Lemma unify_sound a b c bt v : valid a -> valid b -> plain a -> plain b -> unify junk a b = Ok c -> no_loss a b c ->
  describes c bt v -> describes a bt v /\ describes b bt v.
Proof.
  intros Va Vb Pa Pb H (Nmax & Nnan & Nnum) (Tc & lc & sc & Sc & Lc & Fc & Ec).
  destruct (unify_parts a b c Va Vb Pa Pb H) as (Ht & Hs & Hn & Vc & Hb).
  apply (unify_type_fits _ _ _ _ Ht) in Tc. apply (unify_shape_fits _ _ _ (v_shape _ Va) (v_shape _ Vb) (p_rank _ Pa) (p_rank _ Pb) Hs) in Fc.
  assert (Hbool : forall s, valid s -> is_bool (sp_type s) = true -> sp_min s = None /\ sp_max s = None).
  { intros s Hv Hb'. pose proof (v_none _ Hv) as Hx'. destruct (sp_type s) as [|[]|]; try discriminate. exact Hx'. }
  enough (G : forall i x, in_range i (arr_shape v) -> arr_entry v i = Some x -> forall s, s = a \/ s = b -> entry_fits s (skipn (length lc) i) x).
  { split; (split; [tauto|]); exists lc, sc; (split; [exact Sc|]); (split; [exact Lc|]); (split; [tauto|]); intros i x Hi Hx; eapply G; eauto. }
  intros i x Hi Hx s Hsab. destruct (Ec i x Hi Hx) as (Ff & Emin & Emax & Enum). split; [exact Ff|].
  assert (Vs : valid s) by (destruct Hsab as [-> | ->]; assumption).
  assert (Ps : plain s) by (destruct Hsab as [-> | ->]; assumption).
  assert (Ts : type_fits (sp_type s) (arr_type v)) by (destruct Hsab as [-> | ->]; tauto).
  assert (Hnum : forall n, sp_num s = Some n -> (0 < n)%Z -> sp_num c = Some n /\ arr_type v = TInt).
  { intros n En Hp. pose proof (p_num _ Ps n En Hp) as Et. rewrite Et in Ts. cbn in Ts. split; [|exact Ts].
    apply (unify_num_pos _ _ _ _ _ _ n Hn); [|exact Hp|destruct Hsab as [-> | ->]; auto].
    assert (type_fits (sp_type c) TInt) by (apply (unify_type_fits _ _ _ _ Ht); rewrite <- Ts; exact Tc).
    destruct Hsab as [-> | ->]; rewrite Et in Ht; cbn in Ht.
    - destruct (sp_type b) as [|t|l]; [injection Ht as <-; reflexivity| |].
      + destruct t; try discriminate. injection Ht as <-; reflexivity.
      + destruct (existsb _ l); [injection Ht as <-; reflexivity|discriminate].
    - destruct (sp_type a) as [|t|l]; [injection Ht as <-; reflexivity| |].
      + destruct t; try discriminate. injection Ht as <-; reflexivity.
      + cbn [unify_type] in Ht. destruct (existsb (dtype_eqb TInt) l); [injection Ht as <-; reflexivity|discriminate]. }
  destruct (sp_num c) as [n|] eqn:En.
  - destruct (Nnum ltac:(discriminate) s Hsab) as [(m & Em & Hm)|[N1 N2]].
    + destruct (Hnum m Em Hm) as [E Hv]. injection E as ->. destruct (Enum m eq_refl Hm) as [R1 R2]. destruct (int_entry v i x Hv Hx) as [z ->].
      split; [|split].
      * intros b0 E. destruct (v_min _ Vs m b0 Em E) as (q & -> & Hq). cbn in *. rewrite Hq. exact R1.
      * intros b0 E. destruct (v_max _ Vs m b0 Em E) as (q & -> & Hq). eapply num_range_int; eauto.
      * intros n' E _. assert (n' = m) as -> by congruence. auto.
    + rewrite N1, N2. split; [intros; discriminate|]. split; [intros; discriminate|]. intros m Em Hm. destruct (Hnum m Em Hm) as [E _]. injection E as ->. apply Enum; auto.
  - assert (Hn0 : forall m, sp_num s = Some m -> (0 < m)%Z -> False) by (intros m Em Hm; destruct (Hnum m Em Hm); discriminate).
    destruct (is_bool (sp_type c)) eqn:Ebool.
    { exfalso. destruct (sp_type c) as [|[]|] eqn:Etc; try discriminate.
      assert (Hvb : arr_type v = TBool) by (apply (unify_type_fits _ _ _ _ Ht) in Tc; exact Tc). rewrite bool_entry in Hx by exact Hvb. discriminate. }
    destruct Hb as [Hmin Hmax]; [reflexivity|intro E; rewrite E in Ebool; discriminate|].
    apply unify_bound_scalar in Hmin; [|intros x0 E0; apply (p_scalar _ Pa); auto|intros x0 E0; apply (p_scalar _ Pb); auto|apply Hbool, Va|apply Hbool, Vb].
    apply unify_bound_scalar in Hmax; [|intros x0 E0; apply (p_scalar _ Pa); auto|intros x0 E0; apply (p_scalar _ Pb); auto|apply Hbool, Va|apply Hbool, Vb].
    split; [|split; [|intros m Em Hm; exfalso; eauto]].
    + intros b0 E Hc. destruct x as [q| | |]; try contradiction.
      destruct (p_scalar _ Ps b0 (or_introl E)) as [p ->]. cbn [bound_at] in Hc.
      assert (Hna : p <> NaN) by (intros ->; exact (Nnan s Hsab E)).
      destruct (sp_min a) as [xa|] eqn:Exa, (sp_min b) as [xb|] eqn:Exb.
      * destruct (p_scalar _ Pa xa (or_introl Exa)) as [pa ->], (p_scalar _ Pb xb (or_introl Exb)) as [pb ->].
        apply (Emin _ Hmin). cbn [bound_at]. apply larger_lower.
        -- destruct Hsab as [-> | ->]; [left|right]; congruence.
        -- intros ->. exact (Nnan a (or_introl eq_refl) Exa).
        -- intros ->. exact (Nnan b (or_intror eq_refl) Exb).
      * destruct (p_scalar _ Pa xa (or_introl Exa)) as [pa ->]. destruct Hsab as [-> | ->]; [|congruence].
        apply (Emin _ Hmin). cbn [bound_at]. congruence.
      * destruct Hsab as [-> | ->]; [congruence|]. apply (Emin _ Hmin). assert (xb = Scalar p) by congruence. subst xb. exact Hc.
      * destruct Hsab as [-> | ->]; congruence.
    + intros b0 E Hc. destruct (p_scalar _ Ps b0 (or_intror E)) as [p ->]. cbn [bound_at] in Hc.
      assert (Em : sp_max c = Some (Scalar p)).
      { destruct (sp_max a) as [xa|] eqn:Exa, (sp_max b) as [xb|] eqn:Exb.
        - destruct Nmax as [N|[N|N]]; try discriminate. injection N as ->.
          destruct (p_scalar _ Pb xb (or_intror Exb)) as [pb ->]. rewrite Hmax. assert (pb = p) by (destruct Hsab as [-> | ->]; congruence). subst pb.
          unfold larger. destruct (num_ltb p p); reflexivity.
        - destruct (p_scalar _ Pa xa (or_intror Exa)) as [pa ->]. destruct Hsab as [-> | ->]; congruence.
        - destruct Hsab as [-> | ->]; congruence.
        - destruct Hsab as [-> | ->]; congruence. }
      exact (Emax _ Em Hc).
Qed.
End Unify.
