(** Layers and networks keep to their specifications and to instances. *)
From Coq Require Import String List ZArith Lia Bool PeanoNat.
From Verif Require Import Base SpecSpec SpecModel LayModel LaySpec LayProofs.
Import ListNotations.
Open Scope list_scope.
Open Scope nat_scope.

Section Net.
Variable E : Type.
Variables (zero : E) (add mul : E -> E -> E).
Variable elementwise : string -> E -> E.
Variables (relu neg : E -> E).
Variable softmax : list E -> nat -> E.
Variable reduce : reduction -> list E -> E.
Variable pooled : pool -> list E -> E.
Variable combine_ : agg -> list E -> E.
Variable as_int : E -> Z.

Notation spec_ := (lspec E).
Notation ten_ := (ten E).
Notation body_ := (body E zero add mul elementwise relu neg softmax reduce pooled as_int).
Notation apply_ := (layer_apply E zero add mul elementwise relu neg softmax reduce pooled as_int).
Notation retrieve_ := (retrieve_apply E combine_).
Notation run_ := (run E zero add mul elementwise relu neg softmax reduce pooled combine_ as_int).
Notation batch := (batch_of E as_int).

(** ** One layer *)
Lemma apply_body : forall c p (s so : spec_) x B,
  layer_init E c s = Ok tt -> out_spec E c s = Ok so -> positive E s -> good E c s so -> batch s B x ->
  exists y, apply_ c p s x = Ok y /\ fits E so B y /\ body_ c p s so (t_nd E x) = Ok (t_nd E y).
Proof.
  intros c p s so x B Hi Ho Ps G [Fx Vx].
  pose proof (positive_out _ _ _ _ Hi Ho Ps G) as Pso.
  pose proof (body_rowwise E zero add mul elementwise relu neg softmax reduce pooled as_int c p s so Hi Ho Ps Pso G) as R.
  unfold layer_apply. rewrite Ho.
  destruct (checked_rowwise E _ (fun x => do so0 <- Ok so; body_ c p s so0 x) s so x B R Ps Pso Fx) as (y & Ey & Fy & By).
  - intros i Hi'. rewrite <- (proj2 Fx) in Hi'. exact (Vx i Hi').
  - exists y. auto.
Qed.

Lemma apply_ok : forall c p (s so : spec_) x B,
  layer_init E c s = Ok tt -> out_spec E c s = Ok so -> positive E s -> good E c s so -> batch s B x ->
  exists y, apply_ c p s x = Ok y /\ batch so B y.
Proof.
  intros c p s so x B Hi Ho Ps G Bx.
  destruct (apply_body c p s so x B Hi Ho Ps G Bx) as (y & Ey & Fy & By).
  exists y. split; [exact Ey|]. split; [exact Fy|]. intros i Hr. destruct Bx as [Fx Vx].
  assert (FT : l_type E s = TFloat -> l_type E so = l_type E s -> value_ok E as_int (l_type E so) (l_num E so) (nd_at (t_nd E y) i)).
  { intros H1 H2. rewrite H2, H1. exact I. }
  destruct c as [nl|r| | |r w st pd|r w1 w2 s1 s2 pd|t|t w st pd d|t w1 w2 s1 s2 pd d1 d2|t num|size bias|sh|tn|ts a ax];
    cbn [layer_init out_spec good] in *.
  - apply FT; [eapply float_only; [exact Hi|reflexivity]|injection Ho as <-; reflexivity].
  - destruct (rev (l_shape E s)); [discriminate|].
    apply FT; [eapply float_only; [exact Hi|reflexivity]|injection Ho as <-; reflexivity].
  - apply FT; [eapply float_only; [exact Hi|reflexivity]|injection Ho as <-; reflexivity].
  - apply FT; [eapply float_only; [exact Hi|reflexivity]|injection Ho as <-; reflexivity].
  - destruct (l_shape E s) as [|a [|b [|? ?]]]; try discriminate.
    apply FT; [eapply float_only; [exact Hi|reflexivity]|injection Ho as <-; reflexivity].
  - destruct (l_shape E s) as [|a [|b [|? [|? ?]]]]; try discriminate.
    apply FT; [eapply float_only; [exact Hi|reflexivity]|injection Ho as <-; reflexivity].
  - apply FT; [eapply float_only; [exact Hi|reflexivity]|injection Ho as <-; reflexivity].
  - destruct (l_shape E s) as [|a [|b [|? ?]]]; try discriminate.
    apply FT; [eapply float_only; [exact Hi|reflexivity]|injection Ho as <-; reflexivity].
  - destruct (l_shape E s) as [|a [|b [|? [|? ?]]]]; try discriminate.
    apply FT; [eapply float_only; [exact Hi|reflexivity]|injection Ho as <-; reflexivity].
  - injection Ho as <-. exact I.
  - destruct (accepts E [TFloat] None s) as [[]|] eqn:A; [|discriminate].
    destruct (l_shape E s) as [|a [|b [|? [|? ?]]]]; try discriminate;
      (apply FT; [eapply float_only; [exact A|reflexivity]|injection Ho as <-; reflexivity]).
  - destruct (Nat.eqb (nd_size (l_shape E s)) (nd_size sh)) eqn:Q; [|discriminate]. cbn [bind assert_] in Ho.
    injection Ho as <-. cbn [l_type l_num]. cbn [body] in By. unfold reshape in By.
    destruct (Nat.eqb _ 0); [|discriminate]. injection By as By.
    rewrite <- By in *. cbn [nd_shape nd_at] in *. apply Vx. apply unravel_in.
    destruct Fy as [_ Fy]. cbn [l_shape] in Fy. rewrite <- By in Fy. cbn [nd_shape] in Fy. injection Fy as Fy.
    apply ravel_lt in Hr. rewrite size_cons, Fy in Hr.
    rewrite (proj2 Fx), size_cons in *. apply Nat.eqb_eq in Q. rewrite Q. exact Hr.
  - injection Ho as <-. cbn [body] in By. injection By as By. rewrite <- By in *. apply Vx. exact Hr.
  - contradiction.
Qed.

Lemma apply_rows : forall c p (s so : spec_) x B x' B' y y' b b',
  layer_init E c s = Ok tt -> out_spec E c s = Ok so -> positive E s -> good E c s so ->
  batch s B x -> batch s B' x' -> b < B -> b' < B' ->
  same_row E (l_shape E s) (t_nd E x) b (t_nd E x') b' ->
  apply_ c p s x = Ok y -> apply_ c p s x' = Ok y' ->
  same_row E (l_shape E so) (t_nd E y) b (t_nd E y') b'.
Proof.
  intros c p s so x B x' B' y y' b b' Hi Ho Ps G Bx Bx' Hb Hb' Sr Ey Ey'.
  destruct (apply_body c p s so x B Hi Ho Ps G Bx) as (z & Ez & _ & Bz).
  destruct (apply_body c p s so x' B' Hi Ho Ps G Bx') as (z' & Ez' & _ & Bz').
  rewrite Ey in Ez. injection Ez as <-. rewrite Ey' in Ez'. injection Ez' as <-.
  pose proof (positive_out _ _ _ _ Hi Ho Ps G) as Pso.
  destruct (body_rowwise E zero add mul elementwise relu neg softmax reduce pooled as_int c p s so Hi Ho Ps Pso G) as (g & Hg & Hf).
  destruct Bx as [[_ Sx] Vx]. destruct Bx' as [[_ Sx'] Vx'].
  destruct (Hf (t_nd E x) B Sx) as (w & Ew & _ & Rw); [intros i Hr; apply Vx; rewrite Sx; exact Hr|].
  destruct (Hf (t_nd E x') B' Sx') as (w' & Ew' & _ & Rw'); [intros i Hr; apply Vx'; rewrite Sx'; exact Hr|].
  rewrite Bz in Ew. injection Ew as <-. rewrite Bz' in Ew'. injection Ew' as <-.
  intros i Hr. rewrite Rw, Rw' by assumption. apply Hg; [|exact Hr]. exact Sr.
Qed.

(** ** Lists *)
Lemma map_nth_seq : forall (l : list nat), map (fun n => nth n l 0) (seq 0 (length l)) = l.
Proof.
  induction l as [|a l IH]; [reflexivity|]. cbn [length seq map nth]. f_equal.
  rewrite <- seq_shift, map_map. cbn [nth]. exact IH.
Qed.

Lemma replace_nth : forall l a v, a < length l ->
  firstn a l ++ v :: skipn (S a) l = map (fun n => if Nat.eqb n a then v else nth n l 0) (seq 0 (length l)).
Proof.
  induction l as [|h l IH]; intros a v H; [cbn in H; lia|].
  cbn [length seq map]. destruct a as [|a].
  - cbn [firstn app skipn Nat.eqb]. f_equal. rewrite <- seq_shift, map_map. cbn [nth Nat.eqb]. symmetry. apply map_nth_seq.
  - cbn [firstn app Nat.eqb nth]. change (skipn (S (S a)) (h :: l)) with (skipn (S a) l).
    f_equal. rewrite IH by (cbn in H; lia). rewrite <- seq_shift, map_map. reflexivity.
Qed.

Lemma insert_nth : forall l a v, a <= length l ->
  firstn a l ++ v :: skipn a l =
  map (fun n => if Nat.eqb n a then v else nth (if Nat.ltb a n then n - 1 else n) l 0) (seq 0 (length l + 1)).
Proof.
  induction l as [|h l IH]; intros a v H.
  - cbn in H. assert (a = 0) by lia. subst. reflexivity.
  - destruct a as [|a].
    + cbn [firstn app skipn length Nat.add seq map Nat.eqb]. f_equal.
      rewrite <- seq_shift, map_map. cbn [Nat.eqb Nat.ltb Nat.leb].
      replace (length l + 1) with (length (h :: l)) by (cbn; lia).
      rewrite <- (map_nth_seq (h :: l)) at 1. apply map_ext. intro n. rewrite Nat.sub_succ, Nat.sub_0_r. reflexivity.
    + cbn [firstn app length Nat.add seq map Nat.eqb]. change (skipn (S a) (h :: l)) with (skipn a l).
      f_equal. rewrite IH by (cbn in H; lia). rewrite <- seq_shift, map_map. apply map_ext. intro n.
      cbn [Nat.eqb]. destruct (Nat.eqb n a) eqn:Q; [reflexivity|]. apply Nat.eqb_neq in Q.
      change (Nat.ltb (S a) (S n)) with (Nat.ltb a n).
      destruct (Nat.ltb a n) eqn:L; [|reflexivity]. apply Nat.ltb_lt in L.
      destruct n as [|n]; [lia|]. cbn [Nat.sub]. rewrite !Nat.sub_0_r. reflexivity.
Qed.

Lemma agree_except : forall (s t : list nat) a, length s = length t ->
  (forall n, n < length s -> n <> a -> nth n s 0 = nth n t 0) ->
  firstn a s = firstn a t /\ skipn (S a) s = skipn (S a) t.
Proof.
  induction s as [|h s IH]; intros [|k t] a L H; try discriminate; [split; destruct a; reflexivity|].
  cbn in L. injection L as L. destruct a as [|a].
  - split; [reflexivity|]. cbn [skipn].
    assert (Q : s = t); [|exact Q].
    apply (nth_ext _ _ 0 0 L). intros n Hn. apply (H (S n)); cbn; lia.
  - destruct (IH t a L) as [I1 I2].
    + intros n Hn Hne. apply (H (S n)); cbn; lia.
    + pose proof (H 0 ltac:(cbn; lia) ltac:(lia)) as Q0. cbn in Q0. subst. split.
      * cbn [firstn]. f_equal. exact I1.
      * change (skipn (S a) s = skipn (S a) t). exact I2.
Qed.

Lemma agree_all : forall (s t : list nat), length s = length t ->
  (forall n, n < length s -> nth n s 0 = nth n t 0) -> s = t.
Proof. intros s t L H. apply (nth_ext _ _ 0 0 L). exact H. Qed.

Lemma locate_in : forall sizes p k q, p < fold_right Nat.add 0 sizes -> locate sizes p = (k, q) ->
  k < length sizes /\ q < nth k sizes 0.
Proof.
  induction sizes as [|n r IH]; intros p k q H L; [cbn in H; lia|].
  cbn [locate] in L. destruct (Nat.ltb p n) eqn:Q.
  - injection L as <- <-. apply Nat.ltb_lt in Q. cbn. lia.
  - apply Nat.ltb_ge in Q. destruct (locate r (p - n)) as [k' q'] eqn:L'. injection L as <- <-.
    cbn in H. destruct (IH (p - n) k' q' ltac:(lia) L') as [I1 I2]. cbn. split; [lia|exact I2].
Qed.

Lemma in_range_split : forall i u v n, in_range i (u ++ n :: v) ->
  in_range (firstn (length u) i) u /\ nth (length u) i 0 < n /\ in_range (skipn (S (length u)) i) v.
Proof.
  intros i u v n H. apply Forall2_app_inv_r in H as (a & c & Ha & Hc & ->).
  inversion Hc as [|k ? c' ? Hk Hc']; subst. 
  assert (L : length a = length u) by (apply in_range_length; exact Ha). rewrite <- L.
  rewrite firstn_app, firstn_all, Nat.sub_diag. cbn [firstn]. rewrite app_nil_r.
  rewrite app_nth2, Nat.sub_diag by lia. cbn [nth].
  replace (skipn (S (length a)) (a ++ k :: c')) with c'; [auto|].
  change (a ++ k :: c') with (a ++ [k] ++ c'). rewrite app_assoc.
  rewrite skipn_app, skipn_all2 by (rewrite app_length; cbn; lia).
  rewrite app_length. cbn [length]. replace (S (length a) - (length a + 1)) with 0 by lia. reflexivity.
Qed.

(** ** Several inputs *)
Definition dflt : list nat -> E := fun _ => zero.

(** Every instance of the result comes from the same instance of the arguments; if [sel],
    its entries are entries of the arguments. *)
Definition rowwise_n (sel : bool) (f : list (nd E) -> res (nd E)) (shs : list (list nat)) (sho : list nat) : Prop :=
  exists g : list (list nat -> E) -> list nat -> E,
    (forall us vs, length us = length shs -> length vs = length shs ->
       (forall k i, k < length shs -> in_range i (nth k shs []) -> nth k us dflt i = nth k vs dflt i) ->
       forall i, in_range i sho -> g us i = g vs i) /\
    (sel = true -> forall us, length us = length shs -> forall i, in_range i sho ->
       exists k j, k < length shs /\ in_range j (nth k shs []) /\ g us i = nth k us dflt j) /\
    (forall xs B, map nd_shape xs = map (cons B) shs ->
       exists y, f xs = Ok y /\ nd_shape y = B :: sho /\
         forall b i, b < B -> in_range i sho -> nd_at y (b :: i) = g (map (fun x j => nd_at x (b :: j)) xs) i).

Lemma nth_map_rows : forall (xs : list (nd E)) b k x0, k < length xs ->
  nth k (map (fun x j => nd_at x (b :: j)) xs) dflt = (fun j => nd_at (nth k xs x0) (b :: j)).
Proof.
  intros xs b k x0 H. rewrite (nth_indep _ dflt (fun j => nd_at x0 (b :: j))) by (rewrite map_length; exact H).
  rewrite (map_nth (fun x j => nd_at x (b :: j))). reflexivity.
Qed.

Lemma shapes_nth : forall (xs : list (nd E)) B shs k x0, map nd_shape xs = map (cons B) shs -> k < length xs ->
  nd_shape (nth k xs x0) = B :: nth k shs [].
Proof.
  intros xs B shs k x0 H L. rewrite <- (map_nth nd_shape).
  rewrite (nth_indep _ _ (B :: [])) by (rewrite map_length; exact L). rewrite H. rewrite (map_nth (cons B)). reflexivity.
Qed.

Lemma rowwise_concat : forall shs sh0 a,
  shs <> [] -> nth 0 shs [] = sh0 -> a < length sh0 ->
  (forall s, In s shs -> length s = length sh0 /\ forall n, n < length s -> n <> a -> nth n s 0 = nth n sh0 0) ->
  rowwise_n true (concat_axis E (a + 1)) shs
    (firstn a sh0 ++ fold_right Nat.add 0 (map (fun s => nth a s 0) shs) :: skipn (S a) sh0).
Proof.
  intros shs sh0 a N E0 La Ha.
  set (sizes := map (fun s => nth a s 0) shs).
  exists (fun us i => let '(k, q) := locate sizes (nth a i 0) in nth k us dflt (firstn a i ++ q :: skipn (S a) i)).
  assert (Key : forall i k q, in_range i (firstn a sh0 ++ fold_right Nat.add 0 sizes :: skipn (S a) sh0) ->
            locate sizes (nth a i 0) = (k, q) -> k < length shs /\ in_range (firstn a i ++ q :: skipn (S a) i) (nth k shs [])).
  { intros i k q Hr L. apply in_range_split in Hr as (R1 & R2 & R3).
    assert (Lf : length (firstn a sh0) = a) by (rewrite firstn_length; lia). rewrite Lf in *.
    destruct (locate_in _ _ _ _ R2 L) as [K1 K2]. unfold sizes in K1. rewrite map_length in K1.
    split; [exact K1|].
    destruct (Ha (nth k shs []) (nth_In _ _ K1)) as [H1 H2].
    destruct (agree_except _ _ a H1 H2) as [A1 A2].
    assert (S : nth k shs [] = firstn a sh0 ++ nth a (nth k shs []) 0 :: skipn (S a) sh0).
    { rewrite <- A1, <- A2. rewrite replace_nth by lia. symmetry.
      transitivity (map (fun n => nth n (nth k shs []) 0) (seq 0 (length (nth k shs [])))); [|apply map_nth_seq].
      apply map_ext. intro n. destruct (Nat.eqb n a) eqn:Q; [|reflexivity]. apply Nat.eqb_eq in Q. subst. reflexivity. }
    rewrite S. apply Forall2_app; [exact R1|]. constructor; [|exact R3].
    unfold sizes in K2. rewrite (nth_indep _ 0 (nth a [] 0)) in K2 by (rewrite map_length; exact K1).
    rewrite (map_nth (fun s => nth a s 0)) in K2. exact K2. }
  split; [|split].
  - intros us vs L1 L2 H i Hr. destruct (locate sizes (nth a i 0)) as [k q] eqn:L.
    destruct (Key i k q Hr L) as [K1 K2]. apply H; assumption.
  - intros _ us L1 i Hr. destruct (locate sizes (nth a i 0)) as [k q] eqn:L.
    destruct (Key i k q Hr L) as [K1 K2]. eauto.
  - intros xs B H.
    assert (Lx : length xs = length shs) by (rewrite <- (map_length nd_shape), H, map_length; reflexivity).
    unfold concat_axis. rewrite Nat.add_1_r. destruct xs as [|x xs]; [destruct shs; [congruence|discriminate]|].
    assert (Sx : nd_shape x = B :: sh0).
    { rewrite <- E0. apply (shapes_nth (x :: xs) B shs 0 x H). cbn. lia. }
    rewrite Sx. cbv zeta.
    assert (C1 : Nat.ltb (S a) (length (B :: sh0)) = true) by (apply Nat.ltb_lt; cbn; lia). rewrite C1. cbn [andb].
    match goal with |- context [forallb ?f ?l] => assert (C2 : forallb f l = true) end.
    { apply forallb_forall. intros y Hy.
      assert (Hs : In (nd_shape y) (map (cons B) shs)) by (rewrite <- H; apply in_map; exact Hy).
      apply in_map_iff in Hs as (s & Hs & Is). rewrite <- Hs. destruct (Ha s Is) as [H1 H2].
      destruct (agree_except _ _ a H1 H2) as [A1 A2].
      apply andb_true_intro. split; [apply Nat.eqb_eq; cbn; f_equal; exact H1|].
      change (firstn (S a) (B :: s)) with (B :: firstn a s). change (firstn (S a) (B :: sh0)) with (B :: firstn a sh0).
      change (skipn (S (S a)) (B :: s)) with (skipn (S a) s). change (skipn (S (S a)) (B :: sh0)) with (skipn (S a) sh0).
      rewrite A1, A2. destruct (list_eq_dec Nat.eq_dec _ _); [reflexivity|congruence]. }
    rewrite C2.
    assert (Z : map (fun y => nth (S a) (nd_shape y) 0) (x :: xs) = sizes).
    { rewrite <- (map_map nd_shape (fun s => nth (S a) s 0)), H, map_map. reflexivity. }
    rewrite Z. eexists. split; [reflexivity|]. split; [reflexivity|].
    intros b i Hb Hr. cbn [nd_at nth]. destruct (locate sizes (nth a i 0)) as [k q] eqn:L.
    destruct (Key i k q Hr L) as [K1 K2]. rewrite (nth_map_rows (x :: xs) b k x) by (rewrite Lx; exact K1). reflexivity.
Qed.

Lemma rowwise_stack : forall shs sh0 a,
  shs <> [] -> a <= length sh0 -> (forall s, In s shs -> s = sh0) ->
  rowwise_n true (stack_axis E (a + 1)) shs (firstn a sh0 ++ length shs :: skipn a sh0).
Proof.
  intros shs sh0 a N La Ha.
  exists (fun us i => nth (nth a i 0) us dflt (firstn a i ++ skipn (S a) i)).
  assert (Key : forall i, in_range i (firstn a sh0 ++ length shs :: skipn a sh0) ->
            nth a i 0 < length shs /\ in_range (firstn a i ++ skipn (S a) i) (nth (nth a i 0) shs [])).
  { intros i Hr. apply in_range_split in Hr as (R1 & R2 & R3).
    assert (Lf : length (firstn a sh0) = a) by (rewrite firstn_length; lia). rewrite Lf in *.
    split; [exact R2|]. rewrite (Ha _ (nth_In _ _ R2)). rewrite <- (firstn_skipn a sh0). apply Forall2_app; assumption. }
  split; [|split].
  - intros us vs L1 L2 H i Hr. destruct (Key i Hr) as [K1 K2]. apply H; assumption.
  - intros _ us L1 i Hr. destruct (Key i Hr) as [K1 K2]. eauto.
  - intros xs B H.
    assert (Lx : length xs = length shs) by (rewrite <- (map_length nd_shape), H, map_length; reflexivity).
    unfold stack_axis. rewrite Nat.add_1_r. destruct xs as [|x xs]; [destruct shs; [congruence|discriminate]|].
    assert (All : forall y, In y (x :: xs) -> nd_shape y = B :: sh0).
    { intros y Hy. assert (Hs : In (nd_shape y) (map (cons B) shs)) by (rewrite <- H; apply in_map; exact Hy).
      apply in_map_iff in Hs as (s & Hs & Is). rewrite <- Hs, (Ha s Is). reflexivity. }
    rewrite (All x) by (left; reflexivity). cbv zeta.
    assert (C1 : Nat.leb (S a) (length (B :: sh0)) = true) by (apply Nat.leb_le; cbn; lia). rewrite C1. cbn [andb].
    match goal with |- context [forallb ?f ?l] => assert (C2 : forallb f l = true) end.
    { apply forallb_forall. intros y Hy. rewrite (All y Hy). destruct (list_eq_dec Nat.eq_dec _ _); [reflexivity|congruence]. }
    rewrite C2. eexists. split; [reflexivity|]. split; [cbn [nd_shape firstn skipn app]; rewrite Lx; reflexivity|].
    intros b i Hb Hr. cbn [nd_at nth]. destruct (Key i Hr) as [K1 K2].
    rewrite (nth_map_rows (x :: xs) b (nth a i 0) x) by (rewrite Lx; exact K1). reflexivity.
Qed.

Lemma firstn_len_app : forall (u v : list nat), firstn (length u) (u ++ v) = u.
Proof. intros. rewrite firstn_app, firstn_all, Nat.sub_diag. cbn [firstn]. apply app_nil_r. Qed.

Lemma skipn_len_app : forall (u v : list nat), skipn (length u) (u ++ v) = v.
Proof. intros. rewrite skipn_app, skipn_all, Nat.sub_diag. reflexivity. Qed.

Lemma skipn_len_app_S : forall (u v : list nat) n, skipn (S (length u)) (u ++ n :: v) = v.
Proof. induction u as [|h u IH]; intros v n; [reflexivity|]. cbn [length app skipn]. apply IH. Qed.

Lemma rowwise_reduced : forall sel f shs u n v h,
  rowwise_n sel f shs (u ++ n :: v) ->
  rowwise_n false (fun xs => do y <- f xs; reduce_axis E h (length u + 1) y) shs (u ++ v).
Proof.
  intros sel f shs u n v h (g & Hg & _ & Hf).
  exists (fun us i => h (map (fun k => g us (firstn (length u) i ++ k :: skipn (length u) i)) (seq 0 n))).
  assert (Key : forall i k, in_range i (u ++ v) -> k < n -> in_range (firstn (length u) i ++ k :: skipn (length u) i) (u ++ n :: v)).
  { intros i k Hr Hk. apply Forall2_app_inv_r in Hr as (a & c & Ha & Hc & ->).
    rewrite <- (in_range_length _ _ Ha), firstn_len_app, skipn_len_app.
    apply Forall2_app; [exact Ha|]. constructor; assumption. }
  split; [|split].
  - intros us vs L1 L2 H i Hr. f_equal. apply map_ext_in. intros k Hk. apply in_seq in Hk.
    apply Hg; try assumption. apply Key; [exact Hr|lia].
  - discriminate.
  - intros xs B H. destruct (Hf xs B H) as (y & Ey & Sy & Ry). rewrite Ey. cbn [bind].
    unfold reduce_axis. rewrite Sy, Nat.add_1_r. cbn [nth_error].
    assert (Nn : nth_error (u ++ n :: v) (length u) = Some n).
    { rewrite nth_error_app2, Nat.sub_diag by lia. reflexivity. }
    rewrite Nn. eexists. split; [reflexivity|]. cbn [nd_shape nd_at]. split.
    + change (firstn (S (length u)) (B :: u ++ n :: v)) with (B :: firstn (length u) (u ++ n :: v)).
      change (skipn (S (S (length u))) (B :: u ++ n :: v)) with (skipn (S (length u)) (u ++ n :: v)).
      rewrite firstn_len_app, skipn_len_app_S. reflexivity.
    + intros b i Hb Hr. f_equal. apply map_ext_in. intros k Hk. apply in_seq in Hk.
      change (firstn (S (length u)) (b :: i)) with (b :: firstn (length u) i).
      change (skipn (S (length u)) (b :: i)) with (skipn (length u) i). cbn [app].
      apply Ry; [exact Hb|]. apply Key; [exact Hr|lia].
Qed.

Lemma same_rank_in : forall shs s, same_rank shs = true -> In s shs -> length s = length (nth 0 shs []).
Proof.
  intros shs s H Hs. unfold same_rank in H. rewrite forallb_forall in H. apply Nat.eqb_eq.
  destruct shs; [destruct Hs|]. apply H. exact Hs.
Qed.

Lemma max_const : forall (l : list nat) n, l <> [] -> (forall k, In k l -> k = n) -> fold_right Nat.max 0 l = n.
Proof.
  induction l as [|k l IH]; intros n N H; [congruence|]. cbn [fold_right].
  rewrite (H k) by (left; reflexivity). destruct l as [|k2 l]; [cbn; lia|].
  rewrite (IH n); [lia|discriminate|]. intros q Hq. apply H. right. exact Hq.
Qed.

(** Entries are taken over. *)
Definition selects (a : agg) (specs : list spec_) : bool :=
  match specs with [_] => true | _ => match a with AConcat | AStack => true | _ => false end end.

Lemma Forall_firstn_ : forall A (P : A -> Prop) n l, Forall P l -> Forall P (firstn n l).
Proof. induction n; intros [|a l] H; try constructor; inversion H; subst; [assumption|apply IHn; assumption]. Qed.

Lemma Forall_skipn_ : forall A (P : A -> Prop) n l, Forall P l -> Forall P (skipn n l).
Proof. induction n; intros [|a l] H; try assumption. inversion H; subst. cbn [skipn]. apply IHn. assumption. Qed.

Lemma ok_inj : forall A (a b : A), Ok a = Ok b -> a = b.
Proof. intros A a b H. injection H. auto. Qed.

Lemma retrieve_shape : forall a ax (specs : list spec_) so,
  retrieve_spec E a ax specs = Ok so -> good_retrieve E a ax specs ->
  (forall s, In s specs -> l_type E s = l_type E so) /\
  (match specs with [s] => so = s | _ => l_num E so = None end) /\
  (Forall (positive E) specs -> positive E so) /\
  rowwise_n (selects a specs) (retrieve_body E combine_ a ax (l_type E so)) (map (l_shape E) specs) (l_shape E so).
Proof.
  intros a ax specs so Ho G. destruct specs as [|s [|s2 r]]; [discriminate| |].
  - cbn in Ho. injection Ho as <-. split; [intros s' [<-|[]]; reflexivity|]. split; [reflexivity|].
    split; [intro H; inversion H; assumption|].
    cbn [selects map]. exists (fun us i => nth 0 us dflt i). split; [|split].
    + intros us vs L1 L2 H i Hr. apply H; [cbn; lia|exact Hr].
    + intros _ us L1 i Hr. exists 0, i. split; [cbn; lia|]. split; [exact Hr|reflexivity].
    + intros xs B H. destruct xs as [|x [|? ?]]; try discriminate. cbn [map] in H. injection H as H.
      exists x. split; [reflexivity|]. split; [exact H|]. reflexivity.
  - unfold retrieve_spec in Ho. cbv beta iota zeta in Ho.
    set (specs := s :: s2 :: r) in *. set (shs := map (l_shape E) specs) in *.
    assert (Hshs : shs = l_shape E s :: map (l_shape E) (s2 :: r)) by reflexivity.
    assert (Nshs : shs <> []) by (rewrite Hshs; discriminate).
    assert (N0 : nth 0 shs [] = l_shape E s) by reflexivity.
    destruct (forallb (fun s0 => dtype_eqb (l_type E s0) (l_type E s)) specs) eqn:T; [|discriminate].
    cbn [assert_ bind] in Ho. fold shs in Ho.
    destruct (same_rank shs) eqn:SR; [|discriminate]. cbn [assert_ bind] in Ho.
    assert (Ty : forall s', In s' specs -> l_type E s' = l_type E s).
    { intros s' Hs'. rewrite forallb_forall in T. apply dtype_eqb_eq. apply T. exact Hs'. }
    assert (Rk : forall sh, In sh shs -> length sh = length (l_shape E s)).
    { intros sh Hs. rewrite <- N0. apply same_rank_in; assumption. }
    assert (Body : forall (xs : list (nd E)) B, map nd_shape xs = map (cons B) shs -> exists x1 x2 xr, xs = x1 :: x2 :: xr).
    { intros xs B H. destruct xs as [|x1 [|x2 xr]]; try discriminate. eauto. }
    cbn [good_retrieve specs] in G.
    destruct a.
    + destruct (forallb _ shs) eqn:F; [|discriminate]. cbn [assert_ bind] in Ho. apply ok_inj in Ho. subst so. cbn [l_type l_num l_shape].
      split; [exact Ty|]. split; [reflexivity|].
      assert (Ha : forall sh, In sh shs -> length sh = length (l_shape E s) /\ forall n, n < length sh -> n <> ax -> nth n sh 0 = nth n (l_shape E s) 0).
      { intros sh Hs. split; [apply Rk; exact Hs|]. intros n Hn Hne. rewrite forallb_forall in F. specialize (F sh Hs).
        rewrite forallb_forall in F. specialize (F n ltac:(apply in_seq; lia)). apply orb_prop in F as [F|F]; apply Nat.eqb_eq in F; congruence. }
      pose proof (rowwise_concat shs (l_shape E s) ax Nshs N0 G Ha) as R.
      rewrite replace_nth in R by exact G.
      assert (Sh : map (fun n => if Nat.eqb n ax then fold_right Nat.add 0 (map (fun s0 => nth ax s0 0) shs) else nth n (l_shape E s) 0)
                     (seq 0 (length (l_shape E s)))
                 = map (fun n => if Nat.eqb n ax then fold_right Nat.add 0 (map (fun s0 => nth n s0 0) shs) else nth n (l_shape E s) 0)
                     (seq 0 (length (l_shape E s)))).
      { apply map_ext. intro n. destruct (Nat.eqb n ax) eqn:Q; [|reflexivity]. apply Nat.eqb_eq in Q. subst. reflexivity. }
      split.
      { intro Ps. split; [|discriminate]. cbn [l_shape]. rewrite <- Sh, <- replace_nth by exact G.
        assert (P0 : Forall (fun n => 0 < n) (l_shape E s)) by (inversion Ps as [|? ? P0 _]; apply P0).
        apply Forall_app. split; [apply Forall_firstn_; exact P0|]. constructor; [|apply Forall_skipn_; exact P0].
        rewrite Hshs. cbn [map fold_right].
        assert (0 < nth ax (l_shape E s) 0) by (rewrite Forall_forall in P0; apply P0; apply nth_In; exact G). lia. }
      rewrite Sh in R. destruct R as (g & R1 & R2 & R3). exists g. split; [exact R1|]. split; [exact R2|].
      intros xs B H. destruct (Body xs B H) as (x1 & x2 & xr & ->). exact (R3 _ B H).
    + destruct G as (Gb & Gx & Ge).
      assert (Ha : forall sh, In sh shs -> sh = l_shape E s).
      { intros sh Hs. apply in_map_iff in Hs as (s' & <- & Hs'). apply Ge. exact Hs'. }
      destruct (forallb _ shs) eqn:F; [|discriminate]. cbn [assert_ bind] in Ho. apply ok_inj in Ho. subst so. cbn [l_type l_num l_shape].
      split; [exact Ty|]. split; [reflexivity|].
      assert (Sh : map (fun n => fold_right Nat.max 0 (map (fun s0 => nth n s0 0) shs)) (seq 0 (length (l_shape E s))) = l_shape E s).
      { rewrite <- (map_nth_seq (l_shape E s)) at 2. apply map_ext. intro n. apply max_const.
        - rewrite Hshs. discriminate.
        - intros k Hk. apply in_map_iff in Hk as (sh & <- & Hs). rewrite (Ha sh Hs). reflexivity. }
      rewrite Sh. split.
      { intro Ps. split; [|discriminate]. cbn [l_shape]. inversion Ps as [|? ? P0 _]. apply P0. }
      pose proof (rowwise_stack shs (l_shape E s) ax Nshs Gx Ha) as R.
      pose proof (rowwise_reduced _ _ _ _ _ _ (combine_ AProduct) R) as (g & R1 & _ & R3).
      rewrite firstn_length, Nat.min_l in R3 by exact Gx. rewrite firstn_skipn in R1, R3.
      exists g. split; [exact R1|]. split; [discriminate|].
      intros xs B H. destruct (Body xs B H) as (x1 & x2 & xr & ->). destruct (R3 _ B H) as (y & Ey & Y).
      exists y. split; [|exact Y]. cbn [retrieve_body].
      destruct (stack_axis E (ax + 1) (x1 :: x2 :: xr)) as [z|]; [|discriminate]. cbn [bind] in Ey |- *.
      destruct (dtype_eqb (l_type E s) TBool) eqn:Q; [apply dtype_eqb_eq in Q; congruence|]. exact Ey.
    + destruct (forallb _ shs) eqn:F; [|discriminate]. cbn [assert_ bind] in Ho.
      destruct (Nat.leb ax (length (l_shape E s))) eqn:Lx; [|discriminate]. cbn [assert_ bind] in Ho. apply Nat.leb_le in Lx.
      apply ok_inj in Ho. subst so. cbn [l_type l_num l_shape].
      split; [exact Ty|]. split; [reflexivity|].
      assert (Ha : forall sh, In sh shs -> sh = l_shape E s).
      { intros sh Hs. apply agree_all; [apply Rk; exact Hs|]. intros n Hn. rewrite forallb_forall in F. specialize (F sh Hs).
        rewrite forallb_forall in F. specialize (F n ltac:(apply in_seq; lia)). apply Nat.eqb_eq. exact F. }
      pose proof (rowwise_stack shs (l_shape E s) ax Nshs Lx Ha) as R.
      split.
      { intro Ps. split; [|discriminate]. cbn [l_shape]. rewrite <- insert_nth by exact Lx.
        assert (P0 : Forall (fun n => 0 < n) (l_shape E s)) by (inversion Ps as [|? ? P0 _]; apply P0).
        apply Forall_app. split; [apply Forall_firstn_; exact P0|]. constructor; [|apply Forall_skipn_; exact P0].
        rewrite Hshs. cbn. lia. }
      rewrite insert_nth in R by exact Lx.
      destruct R as (g & R1 & R2 & R3). exists g. split; [exact R1|]. split; [exact R2|].
      intros xs B H. destruct (Body xs B H) as (x1 & x2 & xr & ->). exact (R3 _ B H).
    + destruct G as (Gb & Gx & Ge).
      assert (Ha : forall sh, In sh shs -> sh = l_shape E s).
      { intros sh Hs. apply in_map_iff in Hs as (s' & <- & Hs'). apply Ge. exact Hs'. }
      destruct (forallb _ shs) eqn:F; [|discriminate]. cbn [assert_ bind] in Ho. apply ok_inj in Ho. subst so. cbn [l_type l_num l_shape].
      split; [exact Ty|]. split; [reflexivity|].
      assert (Sh : map (fun n => fold_right Nat.max 0 (map (fun s0 => nth n s0 0) shs)) (seq 0 (length (l_shape E s))) = l_shape E s).
      { rewrite <- (map_nth_seq (l_shape E s)) at 2. apply map_ext. intro n. apply max_const.
        - rewrite Hshs. discriminate.
        - intros k Hk. apply in_map_iff in Hk as (sh & <- & Hs). rewrite (Ha sh Hs). reflexivity. }
      rewrite Sh. split.
      { intro Ps. split; [|discriminate]. cbn [l_shape]. inversion Ps as [|? ? P0 _]. apply P0. }
      pose proof (rowwise_stack shs (l_shape E s) ax Nshs Gx Ha) as R.
      pose proof (rowwise_reduced _ _ _ _ _ _ (combine_ ASum) R) as (g & R1 & _ & R3).
      rewrite firstn_length, Nat.min_l in R3 by exact Gx. rewrite firstn_skipn in R1, R3.
      exists g. split; [exact R1|]. split; [discriminate|].
      intros xs B H. destruct (Body xs B H) as (x1 & x2 & xr & ->). destruct (R3 _ B H) as (y & Ey & Y).
      exists y. split; [|exact Y]. cbn [retrieve_body].
      destruct (stack_axis E (ax + 1) (x1 :: x2 :: xr)) as [z|]; [|discriminate]. cbn [bind] in Ey |- *.
      destruct (dtype_eqb (l_type E s) TBool) eqn:Q; [apply dtype_eqb_eq in Q; congruence|]. exact Ey.
Qed.

Lemma map_res_unit : forall A (f : A -> res unit) l, (forall a, In a l -> f a = Ok tt) -> exists r, map_res f l = Ok r.
Proof.
  induction l as [|a l IH]; intro H; cbn [map_res]; [eauto|].
  rewrite (H a) by (left; reflexivity). cbn [bind]. destruct IH as (r & ->); [intros; apply H; right; assumption|].
  cbn [bind]. eauto.
Qed.

Lemma batch_shapes : forall specs (xs : list ten_) B,
  Forall2 (fun s x => batch s B x) specs xs -> map nd_shape (map (t_nd E) xs) = map (cons B) (map (l_shape E) specs).
Proof.
  induction 1 as [|s x specs xs H _ IH]; [reflexivity|]. cbn [map]. f_equal; [apply H|exact IH].
Qed.

Lemma Forall2_nth : forall A C (P : A -> C -> Prop) l m k a c,
  Forall2 P l m -> k < length l -> P (nth k l a) (nth k m c).
Proof.
  intros A C P l m k a c H. revert k. induction H as [|x y l m H _ IH]; intros k L; [cbn in L; lia|].
  destruct k as [|k]; [exact H|]. cbn [nth]. apply IH. cbn in L. lia.
Qed.

Lemma Forall2_len : forall A C (P : A -> C -> Prop) l m, Forall2 P l m -> length l = length m.
Proof. induction 1; cbn; congruence. Qed.

Lemma retrieve_body_apply : forall a ax (specs : list spec_) so xs B,
  retrieve_spec E a ax specs = Ok so -> good_retrieve E a ax specs -> Forall (positive E) specs ->
  Forall2 (fun s x => batch s B x) specs xs ->
  exists y, retrieve_ a ax specs xs = Ok y /\ fits E so B y /\
    retrieve_body E combine_ a ax (l_type E so) (map (t_nd E) xs) = Ok (t_nd E y).
Proof.
  intros a ax specs so xs B Ho G Ps Bx.
  destruct (retrieve_shape a ax specs so Ho G) as (_ & _ & Pso & (g & _ & _ & R)). specialize (Pso Ps).
  destruct (R (map (t_nd E) xs) B (batch_shapes _ _ _ Bx)) as (y & Ey & Sy & _).
  exists (mkT E (l_type E so) y). unfold retrieve_apply.
  destruct (map_res_unit _ (sig_ok E) specs) as (r1 & ->).
  { intros s Hs. apply sig_positive. rewrite Forall_forall in Ps. apply Ps. exact Hs. }
  cbn [bind]. rewrite Ho. cbn [bind]. rewrite (proj2 (sig_positive E so) Pso). cbn [bind].
  destruct (map_res_unit _ (fun sx => fits_sig E (fst sx) (snd sx)) (combine specs xs)) as (r2 & ->).
  { clear -Bx. induction Bx as [|s x specs xs H _ IH]; intros sx Hs; [destruct Hs|].
    destruct Hs as [<-|Hs]; [|apply IH; exact Hs]. apply fits_fits_sig. exists B. apply H. }
  cbn [bind]. rewrite Ey. cbn [bind].
  assert (Fy : fits E so B (mkT E (l_type E so) y)) by (split; [reflexivity|exact Sy]).
  rewrite (proj2 (fits_fits_sig E so _) (ex_intro _ B Fy)). cbn [bind]. auto.
Qed.

Lemma retrieve_ok : forall a ax (specs : list spec_) so xs B,
  retrieve_spec E a ax specs = Ok so -> good_retrieve E a ax specs -> Forall (positive E) specs ->
  Forall2 (fun s x => batch s B x) specs xs ->
  exists y, retrieve_ a ax specs xs = Ok y /\ batch so B y.
Proof.
  intros a ax specs so xs B Ho G Ps Bx.
  destruct (retrieve_body_apply a ax specs so xs B Ho G Ps Bx) as (y & Ey & Fy & By).
  exists y. split; [exact Ey|]. split; [exact Fy|]. intros i Hr.
  destruct (retrieve_shape a ax specs so Ho G) as (Ty & Nu & _ & (g & _ & Sel & R)).
  destruct (R (map (t_nd E) xs) B (batch_shapes _ _ _ Bx)) as (z & Ez & Sz & Rz).
  rewrite By in Ez. injection Ez as <-.
  rewrite Sz in Hr. inversion Hr as [|b ? j ? Hb Hj]; subst. rewrite (Rz b j Hb Hj).
  assert (Lx : length (map (fun x j => nd_at x (b :: j)) (map (t_nd E) xs)) = length (map (l_shape E) specs)).
  { rewrite !map_length. symmetry. eapply Forall2_len. exact Bx. }
  (* entries that are taken over *)
  assert (Taken : selects a specs = true ->
    exists k j', k < length specs /\ in_range j' (l_shape E (nth k specs so)) /\
      g (map (fun x j => nd_at x (b :: j)) (map (t_nd E) xs)) j = nd_at (t_nd E (nth k xs y)) (b :: j') /\
      value_ok E as_int (l_type E (nth k specs so)) (l_num E (nth k specs so)) (nd_at (t_nd E (nth k xs y)) (b :: j'))).
  { intro S. destruct (Sel S _ Lx j Hj) as (k & j' & K1 & K2 & K3). rewrite map_length in K1.
    exists k, j'. split; [exact K1|].
    rewrite (nth_indep _ [] (l_shape E so)) in K2 by (rewrite map_length; exact K1). rewrite map_nth in K2.
    split; [exact K2|].
    assert (Kx : k < length xs) by (rewrite <- (Forall2_len _ _ _ _ _ Bx); exact K1).
    rewrite K3, (nth_map_rows _ b k (t_nd E y)) by (rewrite map_length; exact Kx). rewrite map_nth.
    split; [reflexivity|].
    destruct (Forall2_nth _ _ _ _ _ k so y Bx K1) as [[_ Sx] Vx]. apply Vx. rewrite Sx. constructor; assumption. }
  destruct specs as [|s [|s2 r]]; [discriminate| |].
  - subst so. destruct (Taken eq_refl) as (k & j' & K1 & K2 & K3 & K4). rewrite K3.
    destruct k; [exact K4|cbn in K1; lia].
  - rewrite Nu. destruct (l_type E so) eqn:T; try exact I.
    destruct (selects a (s :: s2 :: r)) eqn:S.
    + destruct (Taken eq_refl) as (k & j' & K1 & K2 & K3 & K4). rewrite K3.
      rewrite (Ty _ (nth_In _ so K1)) in K4. exact K4.
    + exfalso. pose proof (Ty s (or_introl eq_refl)) as Ts.
      destruct a; try discriminate; cbn in G; destruct G as (Gb & _); congruence.
Qed.

Lemma retrieve_rows : forall a ax (specs : list spec_) so xs B xs' B' y y' b b',
  retrieve_spec E a ax specs = Ok so -> good_retrieve E a ax specs -> Forall (positive E) specs ->
  Forall2 (fun s x => batch s B x) specs xs -> Forall2 (fun s x => batch s B' x) specs xs' ->
  b < B -> b' < B' ->
  (forall k s x x', k < length specs -> same_row E (l_shape E (nth k specs s)) (t_nd E (nth k xs x)) b (t_nd E (nth k xs' x')) b') ->
  retrieve_ a ax specs xs = Ok y -> retrieve_ a ax specs xs' = Ok y' ->
  same_row E (l_shape E so) (t_nd E y) b (t_nd E y') b'.
Proof.
  intros a ax specs so xs B xs' B' y y' b b' Ho G Ps Bx Bx' Hb Hb' Sr Ey Ey'.
  destruct (retrieve_body_apply a ax specs so xs B Ho G Ps Bx) as (z & Ez & _ & Bz).
  destruct (retrieve_body_apply a ax specs so xs' B' Ho G Ps Bx') as (z' & Ez' & _ & Bz').
  rewrite Ey in Ez. injection Ez as <-. rewrite Ey' in Ez'. injection Ez' as <-.
  destruct (retrieve_shape a ax specs so Ho G) as (_ & _ & _ & (g & Hg & _ & R)).
  destruct (R (map (t_nd E) xs) B (batch_shapes _ _ _ Bx)) as (w & Ew & _ & Rw).
  destruct (R (map (t_nd E) xs') B' (batch_shapes _ _ _ Bx')) as (w' & Ew' & _ & Rw').
  rewrite Bz in Ew. injection Ew as <-. rewrite Bz' in Ew'. injection Ew' as <-.
  pose proof (Forall2_len _ _ _ _ _ Bx) as L. pose proof (Forall2_len _ _ _ _ _ Bx') as L'.
  intros i Hr. rewrite Rw, Rw' by assumption. apply Hg; [rewrite !map_length; congruence|rewrite !map_length; congruence| |exact Hr].
  intros k j Hk Hj. rewrite map_length in Hk.
  rewrite (nth_indep _ [] (l_shape E so)) in Hj by (rewrite map_length; exact Hk). rewrite map_nth in Hj.
  rewrite (nth_map_rows _ b k (t_nd E y)) by (rewrite map_length; lia). rewrite map_nth.
  rewrite (nth_map_rows _ b' k (t_nd E y)) by (rewrite map_length; lia). rewrite map_nth.
  apply (Sr k so y y Hk). exact Hj.
Qed.

(** ** Networks *)

(** The registered tensors are batches of the registered specifications. *)
Definition inv (B : nat) (reg : list (string * spec_)) (tens : list (string * ten_)) : Prop :=
  Forall2 (fun ks kx => fst ks = fst kx /\ positive E (snd ks) /\ batch (snd ks) B (snd kx)) reg tens.

Lemma inv_find : forall B reg tens k, inv B reg tens ->
  match find k reg with
  | Some s => exists x, find k tens = Some x /\ positive E s /\ batch s B x
  | None => find k tens = None
  end.
Proof.
  intros B reg tens k H. induction H as [|[k1 s] [k2 x] reg tens (H1 & H2 & H3) _ IH]; [reflexivity|].
  cbn [fst snd] in *. subst k2. cbn [find]. destruct (String.eqb k k1); [|exact IH]. exists x. auto.
Qed.

Lemma inv_find_all : forall B reg tens ks specs, inv B reg tens -> find_all ks reg = Ok specs ->
  exists xs, find_all ks tens = Ok xs /\ Forall2 (fun s x => batch s B x) specs xs /\ Forall (positive E) specs.
Proof.
  intros B reg tens ks. induction ks as [|k ks IH]; intros specs H F; cbn [find_all] in *.
  - injection F as <-. exists []. split; [reflexivity|]. split; constructor.
  - pose proof (inv_find B reg tens k H) as Q. destruct (find k reg) as [s|]; [|discriminate].
    destruct Q as (x & -> & P & Bx). destruct (find_all ks reg) as [l|]; [|discriminate]. cbn [bind] in F. injection F as <-.
    destruct (IH l H eq_refl) as (xs & -> & F1 & F2). cbn [bind]. exists (x :: xs).
    split; [reflexivity|]. split; constructor; assumption.
Qed.

Lemma inv_add : forall B reg tens k s x, inv B reg tens -> positive E s -> batch s B x ->
  inv B (reg ++ [(k, s)]) (tens ++ [(k, x)]).
Proof.
  intros. apply Forall2_app; [assumption|]. constructor; [|constructor]. cbn [fst snd]. auto.
Qed.

(** What registered tensors of two runs have in common *)
Definition same_reg (reg : list (string * spec_)) (tens tens' : list (string * ten_)) (b b' : nat) : Prop :=
  forall k s x x', find k reg = Some s -> find k tens = Some x -> find k tens' = Some x' ->
    same_row E (l_shape E s) (t_nd E x) b (t_nd E x') b'.

Lemma same_find_all : forall B B' reg tens tens' b b' ks specs xs xs',
  inv B reg tens -> inv B' reg tens' -> same_reg reg tens tens' b b' ->
  find_all ks reg = Ok specs -> find_all ks tens = Ok xs -> find_all ks tens' = Ok xs' ->
  forall k s x x', k < length specs ->
    same_row E (l_shape E (nth k specs s)) (t_nd E (nth k xs x)) b (t_nd E (nth k xs' x')) b'.
Proof.
  intros B B' reg tens tens' b b' ks. induction ks as [|k0 ks IH]; intros specs xs xs' I1 I2 S F1 F2 F3 k s x x' Hk; cbn [find_all] in *.
  - injection F1 as <-. cbn in Hk. lia.
  - destruct (find k0 reg) as [s0|] eqn:Q1; [|discriminate].
    destruct (find k0 tens) as [x0|] eqn:Q2; [|discriminate].
    destruct (find k0 tens') as [x0'|] eqn:Q3; [|discriminate].
    destruct (find_all ks reg) as [l1|]; [|discriminate]. destruct (find_all ks tens) as [l2|]; [|discriminate].
    destruct (find_all ks tens') as [l3|]; [|discriminate]. cbn [bind] in *.
    injection F1 as <-. injection F2 as <-. injection F3 as <-.
    destruct k as [|k]; cbn [nth].
    + eapply S; eassumption.
    + apply (IH l1 l2 l3 I1 I2 S eq_refl eq_refl eq_refl). cbn in Hk. lia.
Qed.

Lemma find_app : forall A (d : list (string * A)) k k' a,
  find k (d ++ [(k', a)]) = match find k d with Some v => Some v | None => if String.eqb k k' then Some a else None end.
Proof.
  induction d as [|[k0 v] d IH]; intros k k' a; cbn [app find]; [reflexivity|].
  destruct (String.eqb k k0); [reflexivity|apply IH].
Qed.

Definition step_plain (c : cfg) : Prop := match c with CRetrieve _ _ _ | CRegister _ => False | _ => True end.

Lemma run_ok : forall layers n ps (cur : spec_) reg x tens so reg' B,
  create E layers cur reg = Ok (so, reg') -> well_built E layers cur reg -> positive E cur ->
  inv B reg tens -> batch cur B x ->
  exists y, run_ layers n ps cur reg x tens = Ok y /\ batch so B y /\ positive E so.
Proof.
  induction layers as [|c layers IH]; intros n ps cur reg x tens so reg' B Hc W P I Bx.
  - cbn in Hc. injection Hc as <- <-. exists x. auto.
  - assert (Plain : step_plain c -> exists y, run_ (c :: layers) n ps cur reg x tens = Ok y /\ batch so B y /\ positive E so).
    { intro Pl. assert (Hc' : exists s1, layer_init E c cur = Ok tt /\ out_spec E c cur = Ok s1 /\ create E layers s1 reg = Ok (so, reg')).
      { destruct c; try contradiction; cbn [create] in Hc;
          (destruct (layer_init E _ cur) as [[]|]; [|discriminate]; cbn [bind] in Hc;
           destruct (out_spec E _ cur) as [sq|]; [|discriminate]; cbn [bind] in Hc; exists sq; auto). }
      destruct Hc' as (s1 & Hi & Ho & Hc').
      assert (W' : good E c cur s1 /\ well_built E layers s1 reg) by (destruct c; try contradiction; apply W; exact Ho).
      destruct W' as [G W'].
      destruct (apply_ok c (ps n) cur s1 x B Hi Ho P G Bx) as (y & Ey & By).
      destruct (IH (S n) ps s1 reg y tens so reg' B Hc' W' (positive_out _ _ _ _ Hi Ho P G) I By) as (z & Ez & Z).
      exists z. split; [|exact Z].
      destruct c; try contradiction; cbn [run]; rewrite Ho; cbn [bind]; rewrite Ey; exact Ez. }
    destruct c as [nl|r| | |r w st pd|r w1 w2 s1 s2 pd|t|t w st pd d|t w1 w2 s1 s2 pd d1 d2|t num|size bias|sh|tn|ts a ax];
      try (apply Plain; exact Logic.I).
    + clear Plain. cbn [create layer_init out_spec bind] in Hc. cbn [well_built out_spec] in W.
      pose proof (inv_find B reg tens tn I) as Q.
      destruct (find tn reg) as [s1|] eqn:F; [discriminate|].
      cbn [run out_spec bind]. rewrite Q.
      destruct (apply_ok (CRegister tn) (ps n) cur cur x B eq_refl eq_refl P Logic.I Bx) as (y & Ey & By).
      rewrite Ey. cbn [bind].
      exact (IH (S n) ps cur _ y _ so reg' B Hc (W cur eq_refl) P (inv_add _ _ _ _ _ _ I P By) By).
    + clear Plain. cbn [create] in Hc. cbn [well_built] in W.
      destruct (find_all ts reg) as [specs|] eqn:F; [|discriminate]. cbn [bind] in Hc.
      destruct (repeated ts); [discriminate|]. cbn [negb assert_ bind] in Hc.
      destruct (retrieve_spec E a ax specs) as [s1|] eqn:R; [|discriminate]. cbn [bind] in Hc.
      destruct (W specs s1 eq_refl R) as [G W'].
      destruct (inv_find_all B reg tens ts specs I F) as (xs & Fx & Bxs & Ps).
      destruct (retrieve_ok a ax specs s1 xs B R G Ps Bxs) as (y & Ey & By).
      cbn [run]. rewrite F. cbn [bind]. rewrite R. cbn [bind]. rewrite Fx. cbn [bind]. rewrite Ey. cbn [bind].
      destruct (retrieve_shape a ax specs s1 R G) as (_ & _ & Pso & _).
      exact (IH (S n) ps s1 reg y tens so reg' B Hc W' (Pso Ps) I By).
Qed.

Lemma run_rows : forall layers n ps (cur : spec_) reg x tens x' tens' so reg' B B' b b' y y',
  create E layers cur reg = Ok (so, reg') -> well_built E layers cur reg -> positive E cur ->
  inv B reg tens -> inv B' reg tens' -> batch cur B x -> batch cur B' x' -> b < B -> b' < B' ->
  same_reg reg tens tens' b b' -> same_row E (l_shape E cur) (t_nd E x) b (t_nd E x') b' ->
  run_ layers n ps cur reg x tens = Ok y -> run_ layers n ps cur reg x' tens' = Ok y' ->
  same_row E (l_shape E so) (t_nd E y) b (t_nd E y') b'.
Proof.
  induction layers as [|c layers IH]; intros n ps cur reg x tens x' tens' so reg' B B' b b' y y' Hc W P I I' Bx Bx' Hb Hb' Sg Sr Ey Ey'.
  - cbn in Hc. injection Hc as <- <-. cbn in Ey, Ey'. injection Ey as <-. injection Ey' as <-. exact Sr.
  - assert (Plain : step_plain c -> same_row E (l_shape E so) (t_nd E y) b (t_nd E y') b').
    { intro Pl. assert (Hc' : exists s1, layer_init E c cur = Ok tt /\ out_spec E c cur = Ok s1 /\ create E layers s1 reg = Ok (so, reg')).
      { destruct c; try contradiction; cbn [create] in Hc;
          (destruct (layer_init E _ cur) as [[]|]; [|discriminate]; cbn [bind] in Hc;
           destruct (out_spec E _ cur) as [sq|]; [|discriminate]; cbn [bind] in Hc; exists sq; auto). }
      destruct Hc' as (s1 & Hi & Ho & Hc').
      assert (W' : good E c cur s1 /\ well_built E layers s1 reg) by (destruct c; try contradiction; apply W; exact Ho).
      destruct W' as [G W'].
      destruct (apply_ok c (ps n) cur s1 x B Hi Ho P G Bx) as (z & Ez & Bz).
      destruct (apply_ok c (ps n) cur s1 x' B' Hi Ho P G Bx') as (z' & Ez' & Bz').
      pose proof (apply_rows c (ps n) cur s1 x B x' B' z z' b b' Hi Ho P G Bx Bx' Hb Hb' Sr Ez Ez') as Sz.
      assert (R1 : run_ layers (S n) ps s1 reg z tens = Ok y)
        by (destruct c; try contradiction; cbn [run] in Ey; rewrite Ho in Ey; cbn [bind] in Ey; rewrite Ez in Ey; exact Ey).
      assert (R2 : run_ layers (S n) ps s1 reg z' tens' = Ok y')
        by (destruct c; try contradiction; cbn [run] in Ey'; rewrite Ho in Ey'; cbn [bind] in Ey'; rewrite Ez' in Ey'; exact Ey').
      exact (IH (S n) ps s1 reg z tens z' tens' so reg' B B' b b' y y' Hc' W' (positive_out _ _ _ _ Hi Ho P G) I I' Bz Bz' Hb Hb' Sg Sz R1 R2). }
    destruct c as [nl|r| | |r w st pd|r w1 w2 s1 s2 pd|t|t w st pd d|t w1 w2 s1 s2 pd d1 d2|t num|size bias|sh|tn|ts a ax];
      try (apply Plain; exact Logic.I).
    + clear Plain. cbn [create layer_init out_spec bind] in Hc. cbn [well_built out_spec] in W.
      pose proof (inv_find B reg tens tn I) as Q. pose proof (inv_find B' reg tens' tn I') as Q'.
      destruct (find tn reg) as [s1|] eqn:F; [discriminate|].
      cbn [run out_spec bind] in Ey, Ey'. rewrite Q in Ey. rewrite Q' in Ey'.
      destruct (apply_ok (CRegister tn) (ps n) cur cur x B eq_refl eq_refl P Logic.I Bx) as (z & Ez & Bz).
      destruct (apply_ok (CRegister tn) (ps n) cur cur x' B' eq_refl eq_refl P Logic.I Bx') as (z' & Ez' & Bz').
      pose proof (apply_rows (CRegister tn) (ps n) cur cur x B x' B' z z' b b' eq_refl eq_refl P Logic.I Bx Bx' Hb Hb' Sr Ez Ez') as Sz.
      rewrite Ez in Ey. rewrite Ez' in Ey'. cbn [bind] in Ey, Ey'.
      refine (IH (S n) ps cur _ z _ z' _ so reg' B B' b b' y y' Hc (W cur eq_refl) P
               (inv_add _ _ _ _ _ _ I P Bz) (inv_add _ _ _ _ _ _ I' P Bz') Bz Bz' Hb Hb' _ Sz Ey Ey').
      intros k s v v' F1 F2 F3. rewrite find_app in F1, F2, F3.
      pose proof (inv_find B reg tens k I) as K. pose proof (inv_find B' reg tens' k I') as K'.
      destruct (find k reg) as [s0|] eqn:Fk.
      * destruct K as (v0 & K & _). destruct K' as (v0' & K' & _). rewrite K in F2. rewrite K' in F3.
        injection F1 as <-. injection F2 as <-. injection F3 as <-. eapply Sg; eassumption.
      * rewrite K in F2. rewrite K' in F3. destruct (String.eqb k tn); [|discriminate].
        injection F1 as <-. injection F2 as <-. injection F3 as <-. exact Sz.
    + clear Plain. cbn [create] in Hc. cbn [well_built] in W.
      destruct (find_all ts reg) as [specs|] eqn:F; [|discriminate]. cbn [bind] in Hc.
      destruct (repeated ts); [discriminate|]. cbn [negb assert_ bind] in Hc.
      destruct (retrieve_spec E a ax specs) as [s1|] eqn:R; [|discriminate]. cbn [bind] in Hc.
      destruct (W specs s1 eq_refl R) as [G W'].
      destruct (inv_find_all B reg tens ts specs I F) as (xs & Fx & Bxs & Ps).
      destruct (inv_find_all B' reg tens' ts specs I' F) as (xs' & Fx' & Bxs' & _).
      destruct (retrieve_ok a ax specs s1 xs B R G Ps Bxs) as (z & Ez & Bz).
      destruct (retrieve_ok a ax specs s1 xs' B' R G Ps Bxs') as (z' & Ez' & Bz').
      pose proof (retrieve_rows a ax specs s1 xs B xs' B' z z' b b' R G Ps Bxs Bxs' Hb Hb'
                    (same_find_all B B' reg tens tens' b b' ts specs xs xs' I I' Sg F Fx Fx') Ez Ez') as Sz.
      cbn [run] in Ey, Ey'. rewrite F in Ey, Ey'. cbn [bind] in Ey, Ey'. rewrite R in Ey, Ey'. cbn [bind] in Ey, Ey'.
      rewrite Fx in Ey. rewrite Fx' in Ey'. cbn [bind] in Ey, Ey'. rewrite Ez in Ey. rewrite Ez' in Ey'. cbn [bind] in Ey, Ey'.
      destruct (retrieve_shape a ax specs s1 R G) as (_ & _ & Pso & _).
      exact (IH (S n) ps s1 reg z tens z' tens' so reg' B B' b b' y y' Hc W' (Pso Ps) I I' Bz Bz' Hb Hb' Sg Sz Ey Ey').
Qed.
End Net.
