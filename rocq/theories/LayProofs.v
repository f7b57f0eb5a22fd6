(** Layers act on every instance of a batch separately. *)
From Coq Require Import String List ZArith Lia Bool PeanoNat.
From Verif Require Import Base SpecSpec SpecModel LayModel LaySpec.
Import ListNotations.
Open Scope list_scope.
Open Scope nat_scope.

(** ** Row-major numbering *)
Lemma size_cons : forall n sh, nd_size (n :: sh) = n * nd_size sh.
Proof. reflexivity. Qed.

Lemma ravel_lt : forall sh i, in_range i sh -> ravel sh i < nd_size sh.
Proof.
  induction sh as [|n sh IH]; intros i H; inversion H; subst; cbn [ravel]; [cbn; lia|].
  rewrite size_cons. specialize (IH _ H4). nia.
Qed.

Lemma unravel_ravel : forall sh i, in_range i sh -> unravel sh (ravel sh i) = i.
Proof.
  induction sh as [|n sh IH]; intros i H; inversion H; subst; cbn [ravel unravel]; [reflexivity|].
  pose proof (ravel_lt _ _ H4) as L.
  f_equal.
  - rewrite (Nat.add_comm _ (ravel _ _)), Nat.div_add, Nat.div_small by lia. reflexivity.
  - rewrite (Nat.add_comm _ (ravel _ _)), Nat.mod_add, Nat.mod_small by lia. apply IH. exact H4.
Qed.

Lemma unravel_in : forall sh k, k < nd_size sh -> in_range (unravel sh k) sh.
Proof.
  induction sh as [|n sh IH]; intros k H; cbn [unravel]; [constructor|].
  rewrite size_cons in H.
  assert (P : nd_size sh <> 0) by (intro P; rewrite P in H; lia).
  constructor.
  - apply Nat.div_lt_upper_bound; [exact P|lia].
  - apply IH. apply Nat.mod_upper_bound. exact P.
Qed.

Lemma ravel_unravel : forall sh k, k < nd_size sh -> ravel sh (unravel sh k) = k.
Proof.
  induction sh as [|n sh IH]; intros k H; cbn [unravel ravel]; [cbn in H; lia|].
  rewrite size_cons in H.
  assert (P : nd_size sh <> 0) by (intro P; rewrite P in H; lia).
  rewrite IH by (apply Nat.mod_upper_bound; exact P).
  pose proof (Nat.div_mod k (nd_size sh) P). lia.
Qed.

Lemma size_pos : forall sh, Forall (fun n => 0 < n) sh -> 0 < nd_size sh.
Proof. induction 1 as [|n sh H _ IH]; [cbn; lia|]. rewrite size_cons. nia. Qed.

Lemma in_range_length : forall i sh, in_range i sh -> length i = length sh.
Proof. induction 1; cbn [length]; [reflexivity|f_equal; assumption]. Qed.

Lemma in_range_app : forall i sh k n, in_range i sh -> k < n -> in_range (i ++ [k]) (sh ++ [n]).
Proof. intros. apply Forall2_app; [assumption|]. constructor; [assumption|constructor]. Qed.

Lemma in_range_snoc : forall i sh n, in_range i (sh ++ [n]) ->
  exists i' k, i = i' ++ [k] /\ in_range i' sh /\ k < n.
Proof.
  intros i sh n H. apply Forall2_app_inv_r in H as (a & b & Ha & Hb & ->).
  inversion Hb; subst. inversion H3; subst. exists a, x. auto.
Qed.

Lemma in_indices : forall sh i, In i (indices sh) -> in_range i sh.
Proof.
  induction sh as [|n sh IH]; cbn [indices]; intros i H.
  - destruct H as [<-|[]]. constructor.
  - apply in_flat_map in H as (k & Hk & H). apply in_map_iff in H as (j & <- & Hj).
    apply in_seq in Hk. constructor; [lia|apply IH; exact Hj].
Qed.

Section Proofs.
Variable E : Type.
Variables (zero : E) (add mul : E -> E -> E).
Variable elementwise : string -> E -> E.
Variables (relu neg : E -> E).
Variable softmax : list E -> nat -> E.
Variable reduce : reduction -> list E -> E.
Variable pooled : pool -> list E -> E.
Variable combine_ : agg -> list E -> E.
Variable as_int : E -> Z.

(** ** Functions of one instance *)

(** [f] computes every instance of its result, of shape [sho], from the same instance of
    its argument, of shape [shi] and with entries satisfying [P]. *)
Definition rowwise (P : E -> Prop) (f : nd E -> res (nd E)) (shi sho : list nat) : Prop :=
  exists g : (list nat -> E) -> list nat -> E,
    (forall u v, (forall i, in_range i shi -> u i = v i) -> forall i, in_range i sho -> g u i = g v i) /\
    (forall x B, nd_shape x = B :: shi ->
       (forall i, in_range i (B :: shi) -> P (nd_at x i)) ->
       exists y, f x = Ok y /\ nd_shape y = B :: sho /\
         forall b i, b < B -> in_range i sho -> nd_at y (b :: i) = g (fun j => nd_at x (b :: j)) i).

Definition any (_ : E) : Prop := True.

Lemma rowwise_compose : forall P f g a b c,
  rowwise P f a b -> rowwise any g b c -> rowwise P (fun x => do y <- f x; g y) a c.
Proof.
  intros P f g a b c (u & Hu & Hf) (v & Hv & Hg).
  exists (fun r => v (u r)). split.
  - intros r r' H i Hi. apply Hv; [|exact Hi]. intros j Hj. apply Hu; assumption.
  - intros x B Sx Px. destruct (Hf x B Sx Px) as (y & Ey & Sy & Ry).
    destruct (Hg y B Sy (fun _ _ => I)) as (z & Ez & Sz & Rz).
    exists z. rewrite Ey. cbn [bind]. split; [exact Ez|]. split; [exact Sz|].
    intros k i Hk Hi. rewrite Rz by assumption. apply Hv; [|exact Hi].
    intros j Hj. apply Ry; assumption.
Qed.

Lemma rowwise_ext : forall P f g a b,
  (forall x B, nd_shape x = B :: a -> f x = g x) -> rowwise P f a b -> rowwise P g a b.
Proof.
  intros P f g a b X (u & Hu & Hf). exists u. split; [exact Hu|].
  intros x B Sx Px. rewrite <- (X x B Sx). apply Hf; assumption.
Qed.

Lemma rowwise_any : forall P f a b, rowwise any f a b -> rowwise P f a b.
Proof.
  intros P f a b (u & Hu & Hf). exists u. split; [exact Hu|].
  intros x B Sx _. apply Hf; [exact Sx|]. intros. exact I.
Qed.

Lemma rowwise_id : forall a, rowwise any (fun x => Ok x) a a.
Proof.
  intro a. exists (fun r => r). split; [auto|].
  intros x B S _. exists x. split; [reflexivity|]. split; [exact S|]. reflexivity.
Qed.

Lemma rowwise_map : forall h a, rowwise any (fun x => Ok (nd_map h x)) a a.
Proof.
  intros h a. exists (fun r i => h (r i)). split.
  - intros u v H i Hi. f_equal. apply H. exact Hi.
  - intros x B S _. exists (nd_map h x). split; [reflexivity|]. split; [exact S|]. reflexivity.
Qed.

Lemma removelast_cons : forall (b : nat) i, i <> [] -> removelast (b :: i) = b :: removelast i.
Proof. intros b [|k i] H; [congruence|reflexivity]. Qed.

Lemma last_cons : forall (b : nat) i, i <> [] -> last (b :: i) 0 = last i 0.
Proof. intros b [|k i] H; [congruence|reflexivity]. Qed.

Lemma in_range_nonempty : forall i sh, in_range i sh -> sh <> [] -> i <> [].
Proof. intros i sh H N ->. inversion H. subst. congruence. Qed.

Lemma in_range_replace_last : forall i sh n, in_range i (sh ++ [n]) -> forall k, k < n -> in_range (removelast i ++ [k]) (sh ++ [n]).
Proof.
  intros i sh n H k Hk. destruct (in_range_snoc _ _ _ H) as (i' & q & -> & Hi & Hq).
  rewrite removelast_last. apply in_range_app; assumption.
Qed.

Lemma rowwise_softmax : forall a, a <> [] -> rowwise any (softmax_last E softmax) a a.
Proof.
  intros a N. destruct (exists_last N) as (sh & n & ->).
  exists (fun r i => softmax (map (fun k => r (removelast i ++ [k])) (seq 0 n)) (last i 0)). split.
  - intros u v H i Hi. f_equal. apply map_ext_in. intros k Hk. apply in_seq in Hk.
    apply H. apply in_range_replace_last; [exact Hi|lia].
  - intros x B S _. unfold softmax_last. rewrite S.
    rewrite app_comm_cons, rev_app_distr. cbn [rev app].
    eexists. split; [reflexivity|]. split; [cbn [nd_shape]; reflexivity|].
    intros b i Hb Hi. cbn [nd_at].
    assert (Ni : i <> []) by (eapply in_range_nonempty; eassumption).
    rewrite removelast_cons, last_cons by exact Ni. reflexivity.
Qed.

Lemma rowwise_activation : forall nl a, good_act nl a ->
  rowwise any (activation E elementwise relu neg softmax nl) a a.
Proof.
  intros [| |f] a G; cbn in G.
  - contradiction.
  - apply rowwise_softmax. exact G.
  - apply rowwise_map.
Qed.

Lemma rowwise_reshape : forall a b, 0 < nd_size a -> nd_size b = nd_size a ->
  rowwise any (reshape E b) a b.
Proof.
  intros a b Pa Eab. exists (fun r i => r (unravel a (ravel b i))). split.
  - intros u v H i Hi. apply H. apply unravel_in. rewrite <- Eab. apply ravel_lt. exact Hi.
  - intros x B S _. unfold reshape. rewrite S, size_cons, Eab.
    rewrite Nat.mod_mul, Nat.div_mul by lia. cbn [Nat.eqb].
    eexists. split; [reflexivity|]. split; [reflexivity|].
    intros k i Hk Hi. cbn [nd_at ravel unravel].
    pose proof (ravel_lt _ _ Hi) as L. rewrite Eab in L |- *.
    rewrite (Nat.add_comm _ (ravel _ _)), Nat.div_add, Nat.div_small, Nat.mod_add, Nat.mod_small by lia.
    reflexivity.
Qed.

Lemma rowwise_expand : forall a, rowwise any (fun x => Ok (expand_dims E 1 x)) a (1 :: a).
Proof.
  intro a. exists (fun r i => r (tl i)). split.
  - intros u v H i Hi. inversion Hi; subst. apply H. assumption.
  - intros x B S _. eexists. split; [reflexivity|]. unfold expand_dims. rewrite S. split; [reflexivity|].
    intros b i Hb Hi. inversion Hi; subst. reflexivity.
Qed.

Lemma rowwise_squeeze1 : forall a, rowwise any (squeeze E 1) (1 :: a) a.
Proof.
  intro a. exists (fun r i => r (0 :: i)). split.
  - intros u v H i Hi. apply H. constructor; [lia|exact Hi].
  - intros x B S _. unfold squeeze. rewrite S. cbn [nth_error].
    eexists. split; [reflexivity|]. split; [reflexivity|]. reflexivity.
Qed.

Lemma nth_error_snoc : forall (l : list nat) n, nth_error (l ++ [n]) (length l) = Some n.
Proof. intros. rewrite nth_error_app2, Nat.sub_diag by lia. reflexivity. Qed.

Lemma rowwise_squeeze_last : forall a,
  rowwise any (fun x => squeeze E (length (nd_shape x) - 1) x) (a ++ [1]) a.
Proof.
  intro a. exists (fun r i => r (i ++ [0])). split.
  - intros u v H i Hi. apply H. apply in_range_app; [exact Hi|lia].
  - intros x B S _. unfold squeeze. rewrite S.
    rewrite app_comm_cons, app_length. cbn [length]. rewrite Nat.add_sub.
    change (Datatypes.S (length a)) with (length (B :: a)).
    rewrite nth_error_snoc.
    eexists. split; [reflexivity|]. cbn [nd_shape nd_at].
    rewrite firstn_app, firstn_all, Nat.sub_diag. cbn [firstn]. rewrite app_nil_r.
    rewrite skipn_all2 by (rewrite app_length; cbn; lia). rewrite app_nil_r.
    split; [reflexivity|]. intros b i Hb Hi.
    assert (L : length (b :: i) = length (B :: a)) by (cbn; f_equal; eapply in_range_length; exact Hi).
    rewrite <- L, firstn_all, skipn_all. reflexivity.
Qed.

Lemma rowwise_reduce : forall h n a, rowwise any (reduce_axis E h 1) (n :: a) a.
Proof.
  intros h n a. exists (fun r i => h (map (fun k => r (k :: i)) (seq 0 n))). split.
  - intros u v H i Hi. f_equal. apply map_ext_in. intros k Hk. apply in_seq in Hk.
    apply H. constructor; [lia|exact Hi].
  - intros x B S _. unfold reduce_axis. rewrite S. cbn [nth_error].
    eexists. split; [reflexivity|]. split; [reflexivity|]. reflexivity.
Qed.

Lemma rowwise_reduce_all : forall h a n, rowwise any (reduce_all E h (length a)) (a ++ [n]) [n].
Proof.
  intros h a n. induction a as [|m a IH]; cbn [length reduce_all app].
  - apply rowwise_id.
  - eapply rowwise_compose; [apply rowwise_reduce|exact IH].
Qed.

Lemma rowwise_matmul : forall W n m, rowwise any (matmul E zero add mul W n m) [n] [m].
Proof.
  intros W n m.
  exists (fun r i => match i with [j] => dot E zero add mul (map (fun k => (r [k], W [k; j])) (seq 0 n)) | _ => zero end).
  split.
  - intros u v H i Hi. inversion Hi; subst. inversion H4; subst. f_equal. apply map_ext_in.
    intros k Hk. apply in_seq in Hk. rewrite (H [k]) by (constructor; [lia|constructor]). reflexivity.
  - intros x B S _. unfold matmul. rewrite S, Nat.eqb_refl.
    eexists. split; [reflexivity|]. split; [reflexivity|].
    intros b i Hb Hi. inversion Hi; subst. inversion H3; subst. reflexivity.
Qed.

Lemma window_in : forall p len w s d t kq, In kq (window p len w s d t) -> fst kq < w /\ snd kq < len.
Proof.
  intros p len w s d t kq H. unfold window in H. apply in_flat_map in H as (k & Hk & H).
  apply in_seq in Hk. cbv zeta in H.
  destruct (Nat.leb (pad_before p len w s d) (t * s + k * d)) eqn:E1; [|contradiction].
  destruct (Nat.ltb (t * s + k * d - pad_before p len w s d) len) eqn:E2; [|contradiction].
  destruct H as [<-|[]]. cbn [fst snd]. apply Nat.ltb_lt in E2. lia.
Qed.

Lemma flat_map_ext_in : forall A C (f g : A -> list C) l,
  (forall a, In a l -> f a = g a) -> flat_map f l = flat_map g l.
Proof.
  induction l as [|a l IH]; intro H; [reflexivity|]. cbn [flat_map].
  rewrite (H a) by (left; reflexivity). f_equal. apply IH. intros b Hb. apply H. right. exact Hb.
Qed.

(** The condition under which a window fits into the input *)
Definition room (p : padding) (len w d : nat) : Prop :=
  match p with PValid => (w - 1) * d + 1 <= len | PSame => True end.

Lemma rowwise_conv1d : forall W w s p d c m len, 0 < s -> room p len w d ->
  rowwise any (conv1d E zero add mul W w s p d c m) [len; c] [out_length p len w s d; m].
Proof.
  intros W w s p d c m len Hs Hr.
  exists (fun r i => match i with
    | [t; j] => dot E zero add mul (flat_map (fun kq => map (fun a => (r [snd kq; a], W [fst kq; a; j])) (seq 0 c))
                      (window p len w s d t))
    | _ => zero end).
  split.
  - intros u v H i Hi. inversion Hi as [|t ? i' ? Ht Hi']; subst. inversion Hi' as [|j ? i'' ? Hj Hi'']; subst.
    inversion Hi''; subst. f_equal. apply flat_map_ext_in. intros kq Hkq. apply map_ext_in. intros a Ha.
    apply in_seq in Ha. apply window_in in Hkq as [_ Hq].
    rewrite (H [snd kq; a]) by (constructor; [exact Hq|constructor; [lia|constructor]]). reflexivity.
  - intros x B S _. unfold conv1d. rewrite S, Nat.eqb_refl. cbn [andb].
    assert (Es : Nat.ltb 0 s = true) by (apply Nat.ltb_lt; exact Hs). rewrite Es. cbn [andb].
    assert (Er : match p with PValid => Nat.leb ((w - 1) * d + 1) len | PSame => true end = true)
      by (destruct p; [reflexivity|apply Nat.leb_le; exact Hr]).
    rewrite Er. eexists. split; [reflexivity|]. split; [reflexivity|].
    intros b i Hb Hi. inversion Hi as [|t ? i' ? Ht Hi']; subst. inversion Hi' as [|j ? i'' ? Hj Hi'']; subst.
    inversion Hi''; subst. reflexivity.
Qed.

Lemma rowwise_conv2d : forall W w1 w2 s1 s2 p d1 d2 c m l1 l2,
  0 < s1 -> 0 < s2 -> room p l1 w1 d1 -> room p l2 w2 d2 ->
  rowwise any (conv2d E zero add mul W w1 w2 s1 s2 p d1 d2 c m) [l1; l2; c]
    [out_length p l1 w1 s1 d1; out_length p l2 w2 s2 d2; m].
Proof.
  intros W w1 w2 s1 s2 p d1 d2 c m l1 l2 Hs1 Hs2 Hr1 Hr2.
  exists (fun r i => match i with
    | [t1; t2; j] => dot E zero add mul (flat_map (fun k1 => flat_map (fun k2 =>
         map (fun a => (r [snd k1; snd k2; a], W [fst k1; fst k2; a; j])) (seq 0 c))
           (window p l2 w2 s2 d2 t2)) (window p l1 w1 s1 d1 t1))
    | _ => zero end).
  split.
  - intros u v H i Hi. inversion Hi as [|t1 ? i1 ? Ht1 Hi1]; subst. inversion Hi1 as [|t2 ? i2 ? Ht2 Hi2]; subst.
    inversion Hi2 as [|j ? i3 ? Hj Hi3]; subst. inversion Hi3; subst.
    f_equal. apply flat_map_ext_in. intros k1 Hk1. apply flat_map_ext_in. intros k2 Hk2.
    apply map_ext_in. intros a Ha. apply in_seq in Ha. apply window_in in Hk1 as [_ Hq1]. apply window_in in Hk2 as [_ Hq2].
    rewrite (H [snd k1; snd k2; a]); [reflexivity|].
    constructor; [exact Hq1|]. constructor; [exact Hq2|]. constructor; [lia|constructor].
  - intros x B S _. unfold conv2d. rewrite S, Nat.eqb_refl. cbn [andb].
    assert (Es1 : Nat.ltb 0 s1 = true) by (apply Nat.ltb_lt; exact Hs1). rewrite Es1.
    assert (Es2 : Nat.ltb 0 s2 = true) by (apply Nat.ltb_lt; exact Hs2). rewrite Es2. cbn [andb].
    assert (Er : match p with PValid => Nat.leb ((w1 - 1) * d1 + 1) l1 && Nat.leb ((w2 - 1) * d2 + 1) l2 | PSame => true end = true)
      by (destruct p; [reflexivity|apply andb_true_intro; split; apply Nat.leb_le; assumption]).
    rewrite Er. eexists. split; [reflexivity|]. split; [reflexivity|].
    intros b i Hb Hi. inversion Hi as [|t1 ? i1 ? Ht1 Hi1]; subst. inversion Hi1 as [|t2 ? i2 ? Ht2 Hi2]; subst.
    inversion Hi2 as [|j ? i3 ? Hj Hi3]; subst. inversion Hi3; subst. reflexivity.
Qed.

Lemma rowwise_pool2d : forall r w1 w2 s1 s2 p c l1 l2,
  0 < s1 -> 0 < s2 -> match p with PValid => w1 <= l1 /\ w2 <= l2 | PSame => True end ->
  rowwise any (pool2d E zero pooled r w1 w2 s1 s2 p) [l1; l2; c]
    [out_length p l1 w1 s1 1; out_length p l2 w2 s2 1; c].
Proof.
  intros r w1 w2 s1 s2 p c l1 l2 Hs1 Hs2 Hr.
  exists (fun u i => match i with
    | [t1; t2; j] => pooled r (flat_map (fun k1 => map (fun k2 => u [snd k1; snd k2; j])
                      (window p l2 w2 s2 1 t2)) (window p l1 w1 s1 1 t1))
    | _ => zero end).
  split.
  - intros u v H i Hi. inversion Hi as [|t1 ? i1 ? Ht1 Hi1]; subst. inversion Hi1 as [|t2 ? i2 ? Ht2 Hi2]; subst.
    inversion Hi2 as [|j ? i3 ? Hj Hi3]; subst. inversion Hi3; subst.
    f_equal. apply flat_map_ext_in. intros k1 Hk1. apply map_ext_in. intros k2 Hk2.
    apply window_in in Hk1 as [_ Hq1]. apply window_in in Hk2 as [_ Hq2].
    apply H. constructor; [exact Hq1|]. constructor; [exact Hq2|]. constructor; [exact Hj|constructor].
  - intros x B S _. unfold pool2d. rewrite S.
    assert (Es1 : Nat.ltb 0 s1 = true) by (apply Nat.ltb_lt; exact Hs1). rewrite Es1.
    assert (Es2 : Nat.ltb 0 s2 = true) by (apply Nat.ltb_lt; exact Hs2). rewrite Es2. cbn [andb].
    assert (Er : match p with PValid => Nat.leb w1 l1 && Nat.leb w2 l2 | PSame => true end = true)
      by (destruct p; [reflexivity|destruct Hr; apply andb_true_intro; split; apply Nat.leb_le; assumption]).
    rewrite Er. eexists. split; [reflexivity|]. split; [reflexivity|].
    intros b i Hb Hi. inversion Hi as [|t1 ? i1 ? Ht1 Hi1]; subst. inversion Hi1 as [|t2 ? i2 ? Ht2 Hi2]; subst.
    inversion Hi2 as [|j ? i3 ? Hj Hi3]; subst. inversion Hi3; subst. reflexivity.
Qed.

Definition in_table (n : nat) (e : E) : Prop := (0 <= as_int e < Z.of_nat n)%Z.

Lemma rowwise_lookup : forall W n m a,
  rowwise (in_table n) (lookup E as_int W n m) a (a ++ [m]).
Proof.
  intros W n m a.
  exists (fun r i => W [Z.to_nat (as_int (r (removelast i))); last i 0]). split.
  - intros u v H i Hi. destruct (in_range_snoc _ _ _ Hi) as (i' & k & -> & Hi' & Hk).
    rewrite removelast_last, (H i' Hi'). reflexivity.
  - intros x B S Px. unfold lookup.
    replace (forallb _ _) with true.
    + eexists. split; [reflexivity|]. split; [cbn [nd_shape]; rewrite S; reflexivity|].
      intros b i Hb Hi. cbn [nd_at]. destruct (in_range_snoc _ _ _ Hi) as (i' & k & -> & Hi' & Hk).
      rewrite removelast_cons, last_cons by (destruct i'; discriminate). reflexivity.
    + symmetry. apply forallb_forall. intros i Hi. apply in_indices in Hi. rewrite S in Hi.
      specialize (Px i Hi). unfold in_table in Px. apply andb_true_intro.
      split; [apply Z.leb_le|apply Z.ltb_lt]; lia.
Qed.

Lemma rowwise_bias : forall bb a n, rowwise any (fun x => Ok (bias_add E add bb x)) (a ++ [n]) (a ++ [n]).
Proof.
  intros bb a n. exists (fun r i => add (r i) (bb (last i 0))). split.
  - intros u v H i Hi. rewrite (H i Hi). reflexivity.
  - intros x B S _. eexists. split; [reflexivity|]. split; [exact S|].
    intros b i Hb Hi. cbn [bias_add nd_at].
    rewrite last_cons; [reflexivity|]. destruct (in_range_snoc _ _ _ Hi) as (i' & k & -> & _). destruct i'; discriminate.
Qed.

(** ** Layers *)
Notation spec_ := (lspec E).
Notation ten_ := (ten E).

Lemma assert_true : forall b m u, assert_ b m = Ok u -> b = true.
Proof. intros [|] m u H; [reflexivity|discriminate]. Qed.

Lemma sig_positive : forall s : spec_, sig_ok E s = Ok tt <-> positive E s.
Proof.
  intro s. unfold sig_ok, positive. split.
  - intro H. apply assert_true in H. apply andb_prop in H as [H1 H2]. split.
    + apply Forall_forall. intros n Hn. rewrite forallb_forall in H1. apply Nat.ltb_lt. apply H1. exact Hn.
    + intros Ht n Hn. rewrite Ht, Hn in H2. apply Nat.ltb_lt. exact H2.
  - intros [H1 H2].
    assert (A : forallb (Nat.ltb 0) (l_shape E s) = true).
    { apply forallb_forall. intros n Hn. apply Nat.ltb_lt. rewrite Forall_forall in H1. apply H1. exact Hn. }
    rewrite A. cbn [andb]. destruct (l_type E s); try reflexivity.
    destruct (l_num E s) as [n|]; [|reflexivity].
    assert (L : Nat.ltb 0 n = true) by (apply Nat.ltb_lt; apply H2; reflexivity).
    rewrite L. reflexivity.
Qed.

Lemma dtype_eqb_refl : forall t, dtype_eqb t t = true.
Proof. intros []; reflexivity. Qed.

Lemma dtype_eqb_eq : forall t u, dtype_eqb t u = true -> t = u.
Proof. intros [] []; cbn; congruence. Qed.

Lemma fits_fits_sig : forall (s : spec_) x, fits_sig E s x = Ok tt <-> exists B, fits E s B x.
Proof.
  intros s x. unfold fits_sig, fits, t_shape. split.
  - intro H. apply assert_true in H. apply andb_prop in H as [H1 H2].
    apply dtype_eqb_eq in H1. destruct (nd_shape (t_nd E x)) as [|B sh]; [discriminate|].
    destruct (list_eq_dec Nat.eq_dec sh (l_shape E s)); [|discriminate].
    exists B. subst. auto.
  - intros (B & Ht & Hs). rewrite Hs, <- Ht, dtype_eqb_refl.
    destruct (list_eq_dec Nat.eq_dec (l_shape E s) (l_shape E s)); [reflexivity|congruence].
Qed.

Lemma checked_rowwise : forall P (f : nd E -> res (nd E)) (s so : spec_) x B,
  rowwise P f (l_shape E s) (l_shape E so) -> positive E s -> positive E so ->
  fits E s B x -> (forall i, in_range i (B :: l_shape E s) -> P (nd_at (t_nd E x) i)) ->
  exists y, checked E s (Ok so) f x = Ok y /\ fits E so B y /\ f (t_nd E x) = Ok (t_nd E y).
Proof.
  intros P f s so x B (g & Hg & Hf) Ps Pso Fx Px.
  destruct (Hf (t_nd E x) B (proj2 Fx) Px) as (y & Ey & Sy & Ry).
  exists (mkT E (l_type E so) y). unfold checked.
  rewrite (proj2 (sig_positive s) Ps). cbn [bind]. rewrite (proj2 (sig_positive so) Pso). cbn [bind].
  rewrite (proj2 (fits_fits_sig s x) (ex_intro _ B Fx)). cbn [bind]. rewrite Ey. cbn [bind].
  assert (Fy : fits E so B (mkT E (l_type E so) y)) by (split; [reflexivity|exact Sy]).
  rewrite (proj2 (fits_fits_sig so _) (ex_intro _ B Fy)). cbn [bind].
  split; [reflexivity|]. split; [exact Fy|]. reflexivity.
Qed.

Lemma rowwise_sub : forall nl (so : spec_), positive E so -> good_act nl (l_shape E so) ->
  rowwise any (sub_activation E elementwise relu neg softmax nl so) (l_shape E so) (l_shape E so).
Proof.
  intros nl so Ps G. pose proof (rowwise_activation nl (l_shape E so) G) as R.
  eapply rowwise_ext; [|exact R]. intros x B S. unfold sub_activation.
  destruct (checked_rowwise any _ so so (mkT E (l_type E so) x) B R Ps Ps) as (y & Ey & Fy & Ay).
  - split; [reflexivity|exact S].
  - intros. exact I.
  - rewrite Ey. cbn [bind]. exact Ay.
Qed.

Lemma rowwise_transform : forall t pb (so : spec_) a,
  positive E so -> good_tb t (l_shape E so) -> l_shape E so = with_units t a ->
  rowwise any (transform E add elementwise relu neg softmax t pb so) (a ++ [b_units t]) (l_shape E so).
Proof.
  intros t pb so a Ps [Gd Ga] Es.
  set (A := fun x : nd E => match b_act t with None => Ok x | Some nl => sub_activation E elementwise relu neg softmax nl so x end).
  set (Q := fun x : nd E => if b_squeeze t then squeeze E (length (nd_shape x) - 1) x else Ok x).
  set (B := fun x : nd E => Ok (if b_bias t then bias_add E add pb x else x)).
  assert (RA : rowwise any A (l_shape E so) (l_shape E so)).
  { unfold A. destruct (b_act t) as [nl|]; [apply rowwise_sub; assumption|apply rowwise_id]. }
  assert (RQ : rowwise any Q (a ++ [b_units t]) (l_shape E so)).
  { unfold Q. rewrite Es. unfold with_units, b_units. unfold b_squeeze. destruct (Nat.eqb (b_size t) 0) eqn:Z.
    - apply Nat.eqb_eq in Z. rewrite Z. cbn [Nat.max]. apply rowwise_squeeze_last.
    - apply rowwise_id. }
  assert (RB : rowwise any B (a ++ [b_units t]) (a ++ [b_units t])).
  { unfold B. destruct (b_bias t); [apply rowwise_bias|apply rowwise_id]. }
  eapply rowwise_ext; [|eapply rowwise_compose; [exact RB|eapply rowwise_compose; [exact RQ|exact RA]]].
  intros x n S. unfold B, Q, A, transform. cbn [bind]. rewrite Gd.
  match goal with |- (do y <- ?e; _) = _ => destruct e as [y|m]; cbn [bind]; [|reflexivity] end.
  match goal with |- ?e = _ => destruct e; reflexivity end.
Qed.

Lemma rowwise_transform_eq : forall a t pb (so : spec_) a' sh,
  a' = a ++ [b_units t] -> sh = l_shape E so ->
  positive E so -> good_tb t (l_shape E so) -> l_shape E so = with_units t a ->
  rowwise any (transform E add elementwise relu neg softmax t pb so) a' sh.
Proof. intros; subst. apply rowwise_transform; assumption. Qed.

Lemma cdiv_pos : forall a s, 0 < s -> 0 < cdiv a s -> 0 < a.
Proof.
  intros a s Hs H. destruct a; [|lia]. unfold cdiv in H. cbn [Nat.add] in H.
  rewrite Nat.div_small in H by lia. lia.
Qed.

Lemma room_of : forall p len w s d, 0 < s -> 0 < out_length p len w s d -> room p len w d.
Proof.
  intros [|] len w s d Hs H; [exact I|]. cbn [out_length room] in *.
  apply cdiv_pos in H; [|exact Hs]. lia.
Qed.

Lemma with_units_fst : forall t a, Forall (fun n => 0 < n) (with_units t a) -> Forall (fun n => 0 < n) a.
Proof.
  intros t a H. unfold with_units in H. destruct (b_squeeze t); [exact H|].
  apply Forall_app in H as [H _]. exact H.
Qed.

Lemma accepts_inv : forall ts r (s : spec_), accepts E ts r s = Ok tt ->
  existsb (dtype_eqb (l_type E s)) ts = true /\ match r with None => True | Some n => length (l_shape E s) = n end.
Proof.
  intros ts r s H. unfold accepts in H.
  destruct (existsb (dtype_eqb (l_type E s)) ts) eqn:X; [|discriminate]. cbn [bind assert_] in H.
  split; [reflexivity|]. destruct r as [n|]; [|exact I]. apply assert_true in H. apply Nat.eqb_eq. exact H.
Qed.

Ltac by_rank H L :=
  let H1 := fresh in
  apply accepts_inv in H as [_ H1]; cbn in H1;
  match type of H1 with length ?l = _ =>
    destruct l as [|?a [|?b [|?c [|?d ?q]]]] eqn:L; cbn in H1; try lia end.

Ltac dims H :=
  repeat match goal with
  | [ X : Forall _ (_ :: _) |- _ ] => inversion X; clear X; subst
  end.

Lemma cdiv_pos_r : forall a s, 0 < s -> 0 < a -> 0 < cdiv a s.
Proof. intros a s Hs Ha. unfold cdiv. apply Nat.div_str_pos. lia. Qed.

Lemma out_length_pos : forall p len w s d, 0 < s -> 0 < len -> window_fits p len w d -> 0 < out_length p len w s d.
Proof. intros [|] len w s d Hs Hl W; cbn in *; apply cdiv_pos_r; lia. Qed.

Lemma with_units_pos : forall t a, Forall (fun n => 0 < n) a -> Forall (fun n => 0 < n) (with_units t a).
Proof.
  intros t a H. unfold with_units. destruct (b_squeeze t); [exact H|].
  apply Forall_app. split; [exact H|]. constructor; [unfold b_units; lia|constructor].
Qed.

Lemma size_pos_inv : forall sh, 0 < nd_size sh -> Forall (fun n => 0 < n) sh.
Proof.
  induction sh as [|n sh IH]; intro H; [constructor|]. rewrite size_cons in H.
  constructor; [nia|]. apply IH. nia.
Qed.

Lemma float_only : forall ts r (s : spec_), accepts E ts r s = Ok tt -> ts = [TFloat] -> l_type E s = TFloat.
Proof.
  intros ts r s H ->. apply accepts_inv in H as [H _]. destruct (l_type E s); cbn in H; congruence.
Qed.

Lemma positive_out : forall c (s so : spec_),
  layer_init E c s = Ok tt -> out_spec E c s = Ok so -> positive E s -> good E c s so -> positive E so.
Proof.
  intros c s so Hi Ho [P1 P2] G.
  destruct c as [nl|r| | |r w st pd|r w1 w2 s1 s2 pd|t|t w st pd d|t w1 w2 s1 s2 pd d1 d2|t num|size bias|sh|tn|ts a ax];
    cbn [layer_init out_spec good] in *.
  - injection Ho as <-. split; assumption.
  - destruct (rev (l_shape E s)) as [|n l] eqn:R; [discriminate|]. injection Ho as <-. split; [|exact P2]. cbn [l_shape].
    apply Forall_rev in P1. rewrite R in P1. inversion P1; subst. constructor; [assumption|constructor].
  - injection Ho as <-. split; [|exact P2]. cbn [l_shape]. constructor; [apply size_pos; exact P1|constructor].
  - injection Ho as <-. split; [|exact P2]. cbn [l_shape]. constructor; [apply size_pos; exact P1|constructor].
  - by_rank Hi L. injection Ho as <-. split; [|exact P2]. cbn [l_shape nth] in *. destruct G as (G1 & G2 & G3).
    inversion P1 as [|? ? Q1 Q2]; subst. inversion Q2; subst.
    constructor; [apply out_length_pos; assumption|]. assumption.
  - by_rank Hi L. injection Ho as <-. split; [|exact P2]. cbn [l_shape nth] in *. destruct G as (G1 & G2 & G3 & G4 & G5 & G6).
    inversion P1 as [|? ? Q1 Q2]; subst. inversion Q2 as [|? ? Q3 Q4]; subst. 
    constructor; [apply out_length_pos; assumption|]. constructor; [apply out_length_pos; assumption|assumption].
  - by_rank Hi L. injection Ho as <-. split; [|exact P2]. cbn [l_shape removelast]. apply with_units_pos. constructor.
  - by_rank Hi L. injection Ho as <-. split; [|exact P2]. cbn [l_shape nth] in *. destruct G as (G0 & G1 & G2 & G3 & G4).
    inversion P1 as [|? ? Q1 Q2]; subst. 
    apply with_units_pos. constructor; [apply out_length_pos; assumption|constructor].
  - by_rank Hi L. injection Ho as <-. split; [|exact P2]. cbn [l_shape nth] in *. destruct G as (G0 & G1 & G2 & G3 & G4 & G5 & G6 & G7 & G8).
    inversion P1 as [|? ? Q1 Q2]; subst. inversion Q2 as [|? ? Q3 Q4]; subst. 
    apply with_units_pos. constructor; [apply out_length_pos; assumption|]. constructor; [apply out_length_pos; assumption|constructor].
  - injection Ho as <-. split; [|discriminate]. cbn [l_shape]. apply with_units_pos. exact P1.
  - destruct (l_shape E s) as [|a [|b [|c [|? ?]]]] eqn:L; try discriminate; injection Ho as <-; split; try exact P2;
      cbn [l_shape]; apply with_units_pos.
    + constructor.
    + inversion P1 as [|? ? Q1 Q2]; subst. constructor; [exact (out_length_pos PSame a 1 1 1 Nat.lt_0_1 Q1 I)|constructor].
    + inversion P1 as [|? ? Q1 Q2]; subst. inversion Q2 as [|? ? Q3 Q4]; subst.
      constructor; [exact (out_length_pos PSame a 1 1 1 Nat.lt_0_1 Q1 I)|].
      constructor; [exact (out_length_pos PSame b 1 1 1 Nat.lt_0_1 Q3 I)|constructor].
  - destruct (Nat.eqb (nd_size (l_shape E s)) (nd_size sh)) eqn:Q; [|discriminate]. cbn [bind assert_] in Ho.
    injection Ho as <-. split; [|exact P2]. cbn [l_shape]. apply size_pos_inv. apply Nat.eqb_eq in Q. rewrite <- Q.
    apply size_pos. exact P1.
  - injection Ho as <-. split; assumption.
  - contradiction.
Qed.

Lemma body_rowwise : forall c p (s so : spec_),
  layer_init E c s = Ok tt -> out_spec E c s = Ok so -> positive E s -> positive E so -> good E c s so ->
  rowwise (value_ok E as_int (l_type E s) (l_num E s))
    (body E zero add mul elementwise relu neg softmax reduce pooled as_int c p s so) (l_shape E s) (l_shape E so).
Proof.
  intros c p s so Hi Ho Ps Pso G.
  destruct c as [nl|r| | |r w st pd|r w1 w2 s1 s2 pd|t|t w st pd d|t w1 w2 s1 s2 pd d1 d2|t num|size bias|sh|tn|ts a ax];
    cbn [layer_init out_spec good] in *; unfold body; cbn beta iota.
  - (* Activation *) injection Ho as <-. apply rowwise_any. apply rowwise_activation. exact G.
  - (* Pooling *)
    destruct (rev (l_shape E s)) as [|n l] eqn:R; [discriminate|]. injection Ho as <-. cbn [l_shape].
    assert (S : l_shape E s = rev l ++ [n]) by (rewrite <- (rev_involutive (l_shape E s)), R; reflexivity).
    rewrite S. apply rowwise_any.
    eapply rowwise_ext; [|apply rowwise_reduce_all].
    intros x B Sx. rewrite Sx. cbn [length]. rewrite app_length. cbn [length].
    replace (Datatypes.S (length (rev l) + 1) - 2) with (length (rev l)) by lia. reflexivity.
  - (* concat *) injection Ho as <-. cbn [l_shape]. apply rowwise_any. apply rowwise_reshape.
    + apply size_pos. apply Ps.
    + cbn. apply Nat.mul_1_r.
  - (* Flatten *) injection Ho as <-. cbn [l_shape]. apply rowwise_any.
    destruct (l_shape E s) as [|n l] eqn:S.
    + apply rowwise_expand.
    + apply rowwise_reshape.
      * apply size_pos. rewrite <- S. apply Ps.
      * rewrite size_cons. cbn. apply Nat.mul_1_r.
  - (* Pool1d *)
    by_rank Hi L. injection Ho as <-. cbn [l_shape] in *. destruct G as (Gw & Gs & _).
    apply rowwise_any. destruct Pso as [Pso _]. cbn [l_shape] in Pso. inversion Pso as [|? ? Q1 Q2]; subst.
    change (rowwise any (fun x => do y <- pool2d E zero pooled r 1 w 1 st pd (expand_dims E 1 x); squeeze E 1 y) [a; b]
              [out_length pd a w st 1; b]).
    eapply (rowwise_ext _ (fun x => do y <- Ok (expand_dims E 1 x); do z <- pool2d E zero pooled r 1 w 1 st pd y; squeeze E 1 z));
      [reflexivity|].
    eapply rowwise_compose; [apply rowwise_expand|].
    eapply rowwise_compose; [|apply rowwise_squeeze1].
    assert (O : out_length pd 1 1 1 1 = 1) by (destruct pd; reflexivity).
    pose proof (room_of pd a w st 1 Gs Q1) as Rm.
    assert (R2 : rowwise any (pool2d E zero pooled r 1 w 1 st pd) [1; a; b] [out_length pd 1 1 1 1; out_length pd a w st 1; b]).
    { apply rowwise_pool2d; [lia|exact Gs|]. destruct pd; [exact I|]. cbn in Rm. lia. }
    rewrite O in R2. exact R2.
  - (* Pool2d *)
    by_rank Hi L. injection Ho as <-. cbn [l_shape] in *. destruct G as (G1 & G2 & G3 & G4 & _).
    apply rowwise_any. destruct Pso as [Pso _]. cbn [l_shape] in Pso. inversion Pso as [|? ? Q1 Q2]; subst. inversion Q2 as [|? ? Q3 Q4]; subst.
    apply rowwise_pool2d; [assumption|assumption|].
    pose proof (room_of pd a w1 s1 1 G3 Q1) as Rm. pose proof (room_of pd b w2 s2 1 G4 Q3) as Rm2.
    destruct pd; [exact I|]. cbn in Rm, Rm2. lia.
  - (* Dense *)
    by_rank Hi L. injection Ho as <-. cbn [l_shape nth removelast] in *.
    apply rowwise_any. eapply rowwise_compose; [apply rowwise_matmul|].
    apply (rowwise_transform_eq []); [reflexivity|reflexivity|assumption|assumption|reflexivity].
  - (* Conv1d *)
    by_rank Hi L. injection Ho as <-. cbn [l_shape nth] in *. destruct G as (G & Gw & Gs & Gd & _).
    pose proof (with_units_fst _ _ (proj1 Pso)) as Q. inversion Q as [|? ? Q1 Q2]; subst.
    apply rowwise_any. eapply rowwise_compose; [apply rowwise_conv1d; [exact Gs|]|].
    + exact (room_of _ _ _ _ _ Gs Q1).
    + apply (rowwise_transform_eq [out_length pd a w st d]); [reflexivity|reflexivity|assumption|assumption|reflexivity].
  - (* Conv2d *)
    by_rank Hi L. injection Ho as <-. cbn [l_shape nth] in *. destruct G as (G & Gw1 & Gw2 & Gs1 & Gs2 & Gd1 & Gd2 & _).
    pose proof (with_units_fst _ _ (proj1 Pso)) as Q. inversion Q as [|? ? Q1 Q2]; subst. inversion Q2 as [|? ? Q3 Q4]; subst.
    apply rowwise_any. eapply rowwise_compose; [apply rowwise_conv2d; [exact Gs1|exact Gs2| |]|].
    + exact (room_of _ _ _ _ _ Gs1 Q1).
    + exact (room_of _ _ _ _ _ Gs2 Q3).
    + apply (rowwise_transform_eq [out_length pd a w1 s1 d1; out_length pd b w2 s2 d2]); [reflexivity|reflexivity|assumption|assumption|reflexivity].
  - (* Embedding *)
    destruct (accepts E [TInt; TBool] None s) as [[]|] eqn:A; [|discriminate]. cbn [bind] in Hi.
    destruct (num_embeddings E num s) as [n|] eqn:N; [|discriminate]. injection Ho as <-. cbn [l_shape] in *.
    destruct G as [G Gn].
    eapply rowwise_compose.
    + destruct (rowwise_lookup (p_w E p) n (b_units t) (l_shape E s)) as (g & Hg & Hf).
      exists g. split; [exact Hg|]. intros x B Sx Px.
      destruct (Hf x B Sx) as (y & Ey & Sy & Ry).
      * intros i Hi'. specialize (Px i Hi'). unfold in_table. unfold value_ok in Px. unfold num_embeddings in N.
        apply accepts_inv in A as [A _].
        destruct (l_type E s); cbn in A; try discriminate.
        -- destruct num as [n'|].
           ++ injection N as ->. lia.
           ++ injection N as <-. lia.
        -- destruct num as [n'|].
           ++ injection N as ->. destruct (l_num E s); [lia|contradiction].
           ++ destruct (l_num E s) as [k|]; [|discriminate]. rewrite Nat.ltb_irrefl in N. injection N as <-. lia.
      * exists y. split; [exact Ey|]. split; assumption.
    + apply (rowwise_transform_eq (l_shape E s)); [reflexivity|reflexivity|assumption|assumption|reflexivity].
  - (* Linear *)
    destruct (accepts E [TFloat] None s) as [[]|] eqn:A; [|discriminate]. cbn [bind] in Hi.
    set (t := mkTb size bias None false).
    assert (Wu : forall l, with_units (mkTb size false None false) l = with_units t l) by reflexivity.
    destruct (l_shape E s) as [|a [|b [|c [|? ?]]]] eqn:L; cbn [length] in *; try discriminate;
      cbn [nth Nat.eqb]; injection Ho as <-; cbn [l_shape] in *; rewrite Wu in *; apply rowwise_any.
    + eapply rowwise_compose; [apply rowwise_matmul|].
      apply (rowwise_transform_eq []); [reflexivity|reflexivity|assumption|split; [reflexivity|exact I]|reflexivity].
    + eapply rowwise_compose; [apply rowwise_conv1d; [lia|exact I]|].
      apply (rowwise_transform_eq [out_length PSame a 1 1 1]); [reflexivity|reflexivity|assumption|split; [reflexivity|exact I]|reflexivity].
    + eapply rowwise_compose; [apply rowwise_conv2d; [lia|lia|exact I|exact I]|].
      apply (rowwise_transform_eq [out_length PSame a 1 1 1; out_length PSame b 1 1 1]); [reflexivity|reflexivity|assumption|split; [reflexivity|exact I]|reflexivity].
  - (* Reshape *)
    destruct (Nat.eqb (nd_size (l_shape E s)) (nd_size sh)) eqn:Q; [|discriminate]. cbn [bind assert_] in Ho.
    injection Ho as <-. cbn [l_shape]. apply rowwise_any. apply rowwise_reshape.
    + apply size_pos. apply Ps.
    + symmetry. apply Nat.eqb_eq. exact Q.
  - (* Register *) injection Ho as <-. apply rowwise_any. apply rowwise_id.
  - contradiction.
Qed.
End Proofs.
