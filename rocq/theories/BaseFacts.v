(** Lemmas about the list primitives of Base.v. *)

From Coq Require Import String List ZArith Lia Bool Permutation.
From Coq Require Import ZifyBool ZifyNat.
From Verif Require Import Base.
Import ListNotations.
Open Scope Z_scope.

Lemma zrange_length a b : length (zrange a b) = Z.to_nat (b - a).
Proof. unfold zrange. now rewrite map_length, seq_length. Qed.

Lemma in_zrange a b x : In x (zrange a b) <-> a <= x < b.
Proof.
  unfold zrange. rewrite in_map_iff. split.
  - intros [k [<- Hk]]. apply in_seq in Hk. lia.
  - intros H. exists (Z.to_nat (x - a)). split; [lia|]. apply in_seq. lia.
Qed.

Lemma zrange_nil a b : b <= a -> zrange a b = [].
Proof. intros H. unfold zrange. replace (Z.to_nat (b - a)) with 0%nat by lia. reflexivity. Qed.

Lemma zrange_cons a b : a < b -> zrange a b = a :: zrange (a + 1) b.
Proof.
  intros H. unfold zrange.
  replace (Z.to_nat (b - a)) with (S (Z.to_nat (b - (a + 1)))) by lia.
  cbn [seq map]. f_equal; [lia|].
  rewrite <- seq_shift, map_map. apply map_ext. intros. lia.
Qed.

Lemma zrange_app a b c : a <= b <= c -> zrange a c = zrange a b ++ zrange b c.
Proof.
  intros [H1 H2]. unfold zrange.
  replace (Z.to_nat (c - a)) with (Z.to_nat (b - a) + Z.to_nat (c - b))%nat by lia.
  rewrite seq_app, map_app. f_equal.
  replace (0 + Z.to_nat (b - a))%nat with (Z.to_nat (b - a) + 0)%nat by lia.
  generalize (Z.to_nat (c - b)). intros m.
  assert (forall k s, map (fun x => a + Z.of_nat x) (seq (k + s) m)
          = map (fun x => a + Z.of_nat k + Z.of_nat x) (seq s m)) as G.
  { intros k. induction m as [|m IH]; intros s; [reflexivity|].
    cbn [seq map]. f_equal; [lia|].
    replace (S (k + s)) with (k + S s)%nat by lia. apply IH. }
  rewrite G. apply map_ext. intros. lia.
Qed.

Lemma zrange_snoc a b : a <= b -> zrange a (b + 1) = zrange a b ++ [b].
Proof.
  intros H. rewrite (zrange_app a b (b + 1)) by lia. f_equal.
  rewrite zrange_cons by lia. now rewrite zrange_nil by lia.
Qed.

Lemma zrange_nth a b k : (k < Z.to_nat (b - a))%nat ->
  nth_error (zrange a b) k = Some (a + Z.of_nat k).
Proof.
  intros H. unfold zrange. erewrite map_nth_error; [reflexivity|].
  replace (Some k) with (Some (0 + k)%nat) by reflexivity.
  rewrite nth_error_nth' with (d := 0%nat) by (rewrite seq_length; lia).
  rewrite seq_nth by lia. reflexivity.
Qed.

Lemma zrange_NoDup a b : NoDup (zrange a b).
Proof.
  unfold zrange. apply FinFun.Injective_map_NoDup; [|apply seq_NoDup].
  intros x y H. lia.
Qed.

Lemma zrange_shift a b d : map (fun x => x + d) (zrange a b) = zrange (a + d) (b + d).
Proof.
  unfold zrange. rewrite map_map. replace (b + d - (a + d)) with (b - a) by lia.
  apply map_ext. intros. lia.
Qed.

(** gather *)
Lemma gather_nth_error {A} (l : list A) i a :
  gather l i = Ok a <-> 0 <= i /\ nth_error l (Z.to_nat i) = Some a.
Proof.
  unfold gather. destruct (Z.ltb_spec i 0) as [H|H].
  - split; [discriminate|]. lia.
  - destruct (nth_error l (Z.to_nat i)).
    + split; [intros [= ->]; auto | intros [_ [= ->]]; auto].
    + split; [discriminate|]. intros [_ [=]].
Qed.

Lemma gather_range {A} (l : list A) i a : gather l i = Ok a -> 0 <= i < Z.of_nat (length l).
Proof.
  intros H. apply gather_nth_error in H as [H1 H2].
  assert (nth_error l (Z.to_nat i) <> None) as H3 by congruence.
  apply nth_error_Some in H3. lia.
Qed.

Lemma gather_total {A} (l : list A) i : 0 <= i < Z.of_nat (length l) -> exists a, gather l i = Ok a.
Proof.
  intros H. destruct (nth_error l (Z.to_nat i)) eqn:E.
  - exists a. apply gather_nth_error. split; [lia|auto].
  - apply nth_error_None in E. lia.
Qed.

Lemma gather_of_nat {A} (l : list A) k a : nth_error l k = Some a <-> gather l (Z.of_nat k) = Ok a.
Proof. rewrite gather_nth_error, Nat2Z.id. split; [intros; split; [lia|auto]|tauto]. Qed.

Lemma gather_map {A B} (f : A -> B) l i a : gather l i = Ok a -> gather (map f l) i = Ok (f a).
Proof.
  rewrite !gather_nth_error. intros [H1 H2]. split; [auto|]. now apply map_nth_error.
Qed.


(** map_res *)
Lemma map_res_ok {A B} (f : A -> res B) (g : A -> B) l :
  (forall x, In x l -> f x = Ok (g x)) -> map_res f l = Ok (map g l).
Proof.
  induction l as [|x l IH]; intros H; [reflexivity|].
  cbn. rewrite (H x (or_introl eq_refl)). cbn. rewrite IH by (intros; apply H; now right). reflexivity.
Qed.

Lemma map_res_inv {A B} (f : A -> res B) l r :
  map_res f l = Ok r -> Forall2 (fun x y => f x = Ok y) l r.
Proof.
  revert r. induction l as [|x l IH]; cbn; intros r H.
  - injection H as <-. constructor.
  - destruct (f x) eqn:E; [cbn in H|discriminate].
    destruct (map_res f l) eqn:E2; [cbn in H|discriminate].
    injection H as <-. constructor; auto.
Qed.

Lemma map_res_Forall2 {A B} (f : A -> res B) l r :
  Forall2 (fun x y => f x = Ok y) l r -> map_res f l = Ok r.
Proof.
  induction 1 as [|x y l r H _ IH]; [reflexivity|]. cbn. rewrite H. cbn. now rewrite IH.
Qed.

Lemma gathers_map {A B} (l : list A) (is : list B) (f : B -> Z) (g : B -> A) :
  (forall x, In x is -> gather l (f x) = Ok (g x)) -> gathers l (map f is) = Ok (map g is).
Proof.
  unfold gathers. induction is as [|x is IH]; intros H; [reflexivity|].
  cbn. rewrite (H x (or_introl eq_refl)). cbn. rewrite IH by (intros; apply H; now right). reflexivity.
Qed.

(** update_nth *)
Lemma update_nth_length {A} (l : list A) n v : length (update_nth l n v) = length l.
Proof. revert n. induction l; destruct n; cbn; auto. Qed.

Lemma update_nth_same {A} (l : list A) n v : (n < length l)%nat -> nth_error (update_nth l n v) n = Some v.
Proof. revert n. induction l; destruct n; cbn; intros; try lia; auto. apply IHl. lia. Qed.

Lemma update_nth_other {A} (l : list A) n m v : n <> m -> nth_error (update_nth l n v) m = nth_error l m.
Proof.
  revert n m. induction l; destruct n, m; cbn; intros; try lia; auto.
Qed.

Lemma gather_update_same {A} (l : list A) i v :
  0 <= i < Z.of_nat (length l) -> gather (update_nth l (Z.to_nat i) v) i = Ok v.
Proof. intros. apply gather_nth_error. split; [lia|]. apply update_nth_same. lia. Qed.

Lemma gather_update_other {A} (l : list A) i j v :
  0 <= i -> i <> j -> gather (update_nth l (Z.to_nat i) v) j = gather l j.
Proof.
  intros. unfold gather. destruct (Z.ltb_spec j 0); [auto|].
  rewrite update_nth_other by lia. reflexivity.
Qed.

(** scatter *)
Lemma scatter_ok {A} (is : list Z) : forall (l us : list A),
  length is = length us ->
  Forall (fun i => 0 <= i < Z.of_nat (length l)) is ->
  exists l', scatter l is us = Ok l' /\ length l' = length l /\
    (forall j, ~ In j is -> gather l' j = gather l j) /\
    (NoDup is -> forall k i u, nth_error is k = Some i -> nth_error us k = Some u -> gather l' i = Ok u).
Proof.
  induction is as [|i is IH]; intros l us HL HF.
  - destruct us; [|discriminate]. exists l. cbn. repeat split; auto.
    intros _ k i u H. destruct k; discriminate.
  - destruct us as [|u us]; [discriminate|].
    injection HL as HL. inversion_clear HF as [|? ? Hi HF'].
    destruct (IH (update_nth l (Z.to_nat i) u) us HL) as (l' & H1 & H2 & H3 & H4).
    { rewrite update_nth_length. auto. }
    exists l'. cbn [scatter].
    destruct (Z.ltb_spec i 0); [lia|]. destruct (Z.leb_spec (Z.of_nat (length l)) i); [lia|].
    cbn [orb]. repeat split; auto.
    + now rewrite H2, update_nth_length.
    + intros j Hj. rewrite H3 by (intros C; apply Hj; now right).
      apply gather_update_other; [lia|]. intros ->. apply Hj. now left.
    + intros ND k i' u' Hk Hu. inversion_clear ND as [|? ? Hni ND'].
      destruct k as [|k]; cbn in Hk, Hu.
      * injection Hk as <-. injection Hu as <-. rewrite H3 by auto. apply gather_update_same. lia.
      * eapply H4; eauto.
Qed.

Lemma scatter_one {A} (l : list A) i u :
  0 <= i < Z.of_nat (length l) -> scatter l [i] [u] = Ok (update_nth l (Z.to_nat i) u).
Proof.
  intros H. cbn. destruct (Z.ltb_spec i 0); [lia|].
  destruct (Z.leb_spec (Z.of_nat (length l)) i); [lia|]. reflexivity.
Qed.

(** slice *)
Lemma slice_nth {A} (l : list A) a b k :
  0 <= a -> a <= b -> b <= Z.of_nat (length l) -> (k < Z.to_nat (b - a))%nat ->
  nth_error (slice l a b) k = nth_error l (Z.to_nat a + k).
Proof.
  intros Ha Hab Hb Hk. unfold slice, slice_bound.
  destruct (Z.ltb_spec a 0); [lia|]. destruct (Z.ltb_spec b 0); [lia|].
  replace (Z.min a (Z.of_nat (length l))) with a by lia.
  replace (Z.min b (Z.of_nat (length l))) with b by lia.
  set (m := Z.to_nat a). set (n := Z.to_nat (b - a)).
  assert (forall (l : list A) m n k, (k < n)%nat -> nth_error (firstn n (skipn m l)) k = nth_error l (m + k)) as G.
  { clear. intros l m n k Hk.
    revert l n k Hk. induction m as [|m IH]; intros l n k Hk.
    - cbn [skipn Nat.add]. revert l k Hk. induction n as [|n IHn]; intros l k Hk; [lia|].
      destruct l as [|x l]; [now destruct k|]. destruct k as [|k]; [reflexivity|].
      cbn. apply IHn. lia.
    - destruct l as [|x l]; [destruct n; cbn; now destruct k|]. cbn. apply IH. auto. }
  apply G. auto.
Qed.

Lemma slice_length {A} (l : list A) a b :
  0 <= a -> a <= b -> b <= Z.of_nat (length l) -> length (slice l a b) = Z.to_nat (b - a).
Proof.
  intros Ha Hab Hb. unfold slice, slice_bound.
  destruct (Z.ltb_spec a 0); [lia|]. destruct (Z.ltb_spec b 0); [lia|].
  rewrite firstn_length, skipn_length. lia.
Qed.

(** counting *)
Lemma count_nonzero_perm l l' : Permutation l l' -> count_nonzero l = count_nonzero l'.
Proof.
  intros H. unfold count_nonzero. f_equal. apply Permutation_length.
  induction H; cbn; repeat match goal with |- context [if ?b then _ else _] => destruct b end; eauto using Permutation.
Qed.

Lemma count_nonzero_app l l' : count_nonzero (l ++ l') = count_nonzero l + count_nonzero l'.
Proof. unfold count_nonzero. rewrite filter_app, app_length. lia. Qed.

Lemma count_nonzero_map {B} (g : B -> Z) l :
  count_nonzero (map g l) = Z.of_nat (length (filter (fun x => negb (g x =? 0)) l)).
Proof.
  unfold count_nonzero. f_equal. induction l as [|x l IH]; [reflexivity|].
  cbn. destruct (g x =? 0); cbn; rewrite IH; reflexivity.
Qed.

Lemma filter_length_le {B} (f : B -> bool) l : (length (filter f l) <= length l)%nat.
Proof. induction l as [|x l IH]; cbn; [lia|]. destruct (f x); cbn; lia. Qed.

(** run_ops *)
Lemma run_ops_app {S O} (step : S -> O -> res S) s a b :
  run_ops step s (a ++ b) = do s' <- run_ops step s a; run_ops step s' b.
Proof.
  revert s. induction a as [|o a IH]; intros s; cbn; [reflexivity|].
  destruct (step s o); cbn; auto.
Qed.

Lemma Zmod_window_inj c p q N : 0 < c -> N <= p < N + c -> N <= q < N + c -> p mod c = q mod c -> p = q.
Proof.
  intros Hc Hp Hq H.
  assert (p - q = c * (p / c - q / c)) as E.
  { pose proof (Z.div_mod p c ltac:(lia)). pose proof (Z.div_mod q c ltac:(lia)). rewrite Z.mul_sub_distr_l. lia. }
  remember (p / c - q / c) as k. assert (k = 0) by nia. nia.
Qed.

Lemma Zmod_sub_cap p c : 0 < c -> (p - c) mod c = p mod c.
Proof. intros. replace (p - c) with (p + (-1) * c) by lia. now rewrite Z.mod_add by lia. Qed.

Lemma Zmod_add_cap p c : 0 < c -> (p + c) mod c = p mod c.
Proof. intros. replace (p + c) with (p + 1 * c) by lia. now rewrite Z.mod_add by lia. Qed.

(** The slots of a window of [c] consecutive positions are all slots. *)
Lemma window_perm c N : 0 < c ->
  Permutation (map (fun p => p mod c) (zrange (N - c) N)) (zrange 0 c).
Proof.
  intros Hc. apply NoDup_Permutation_bis.
  - assert (forall l, NoDup l -> (forall x, In x l -> N - c <= x < N) -> NoDup (map (fun p => p mod c) l)) as G.
    { induction l as [|x l IH]; intros ND HI; cbn; [constructor|].
      inversion_clear ND as [|? ? Hx ND']. constructor.
      - rewrite in_map_iff. intros (y & Hy & Hin). apply Hx.
        assert (y = x) as ->; auto.
        apply (Zmod_window_inj c y x (N - c)); auto.
        + specialize (HI y (or_intror Hin)). lia.
        + specialize (HI x (or_introl eq_refl)). lia.
      - apply IH; auto. intros y Hy. apply HI. now right. }
    apply G; [apply zrange_NoDup|]. intros x Hx. now apply in_zrange in Hx.
  - rewrite map_length, !zrange_length. lia.
  - intros x. rewrite in_map_iff. intros (p & <- & _). apply in_zrange. apply Z.mod_pos_bound. lia.
Qed.

Lemma nth_error_ext {A} (a b : list A) : (forall k, nth_error a k = nth_error b k) -> a = b.
Proof.
  revert b. induction a as [|x a IH]; intros b H.
  - specialize (H 0%nat). destruct b; [reflexivity|discriminate].
  - destruct b as [|y b]; [specialize (H 0%nat); discriminate|].
    pose proof (H 0%nat) as H0. injection H0 as ->. f_equal. apply IH. intros k. apply (H (S k)).
Qed.
