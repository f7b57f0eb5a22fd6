(** Lemmas: the reward estimation of RetModel.v computes what RetSpec.v says. *)

From Coq Require Import String List ZArith Lia Bool Field.
From Coq Require Import ZifyBool ZifyNat.
From Verif Require Import Base BaseFacts Field RetSpec RetModel.
Import ListNotations.
Open Scope Z_scope.

(** ** tabulate *)

Lemma tabulate_length {A} n (f : nat -> A) : length (tabulate n f) = n.
Proof. unfold tabulate. now rewrite map_length, seq_length. Qed.

Lemma tabulate_nth {A} n (f : nat -> A) k : (k < n)%nat -> nth_error (tabulate n f) k = Some (f k).
Proof.
  intros H. unfold tabulate. erewrite (map_nth_error f); [reflexivity|].
  rewrite (nth_error_nth' _ O) by (rewrite seq_length; lia). now rewrite seq_nth by lia.
Qed.

Lemma tabulate_ext {A} n (f g : nat -> A) :
  (forall k, (k < n)%nat -> f k = g k) -> tabulate n f = tabulate n g.
Proof.
  intros H. unfold tabulate. apply map_ext_in. intros k Hk. apply in_seq in Hk. apply H. lia.
Qed.

Lemma tabulate_S {A} n (f : nat -> A) : tabulate (S n) f = f O :: tabulate n (fun k => f (S k)).
Proof. unfold tabulate. cbn [seq map]. now rewrite <- seq_shift, map_map. Qed.

Lemma tabulate_eq {A} n (f : nat -> A) l :
  length l = n -> (forall k, (k < n)%nat -> nth_error l k = Some (f k)) -> l = tabulate n f.
Proof.
  intros Hl H. apply nth_error_ext. intros k.
  destruct (Nat.lt_ge_cases k n) as [Hk|Hk].
  - now rewrite H, tabulate_nth.
  - assert (nth_error l k = None) as -> by (apply nth_error_None; lia).
    symmetry. apply nth_error_None. rewrite tabulate_length. lia.
Qed.

Lemma tabulate_app {A} m n (f : nat -> A) :
  tabulate (m + n) f = tabulate m f ++ tabulate n (fun k => f (m + k)%nat).
Proof.
  unfold tabulate. rewrite seq_app, map_app. f_equal. cbn [Nat.add].
  generalize n. clear n. intros n.
  assert (forall s, map f (seq (m + s) n) = map (fun k => f (m + k)%nat) (seq s n)) as G.
  { induction n as [|n IH]; intros s; [reflexivity|]. cbn [seq map]. f_equal.
    replace (S (m + s)) with (m + S s)%nat by lia. apply IH. }
  specialize (G O). now rewrite Nat.add_0_r in G.
Qed.

Lemma vec2_tab {A B C} (f : A -> B -> C) n p q :
  vec2 f (tabulate n p) (tabulate n q) = Ok (tabulate n (fun k => f (p k) (q k))).
Proof.
  revert p q. induction n as [|n IH]; intros p q; [reflexivity|].
  rewrite !tabulate_S. cbn [vec2]. rewrite IH. reflexivity.
Qed.

Lemma vec2_pair_combine {A B} (a : list A) (b : list B) :
  length a = length b -> vec2 pair a b = Ok (combine a b).
Proof.
  revert b. induction a as [|x a IH]; intros [|y b] H; try discriminate; [reflexivity|].
  cbn [vec2 combine]. rewrite IH by (cbn in H; lia). reflexivity.
Qed.

Lemma scan_rev_tab {A B} (f : B -> A -> B) init (elems : list A) (R : nat -> B) :
  R (length elems) = init ->
  (forall t x, nth_error elems t = Some x -> R t = f (R (S t)) x) ->
  scan_rev f init elems = tabulate (length elems) R.
Proof.
  revert R. induction elems as [|x r IH]; intros R Hi Hs; [reflexivity|].
  cbn [length scan_rev]. rewrite tabulate_S.
  rewrite (IH (fun k => R (S k))).
  - f_equal. rewrite (Hs O x eq_refl). f_equal.
    destruct r as [|y r]; cbn [length]; [cbn; now rewrite <- Hi|].
    rewrite tabulate_S. reflexivity.
  - exact Hi.
  - intros t y Ht. apply (Hs (S t) y Ht).
Qed.

Lemma last_ok {A} (l : list A) x : last_ (l ++ [x]) = Ok x.
Proof.
  unfold last_, gather. rewrite app_length. cbn [length].
  destruct (Z.ltb_spec (Z.of_nat (length l + 1) - 1) 0); [lia|].
  replace (Z.to_nat (Z.of_nat (length l + 1) - 1)) with (length l) by lia.
  rewrite nth_error_app2 by lia. now rewrite Nat.sub_diag.
Qed.

Lemma last_nth {A} (l : list A) x : nth_error l (length l - 1) = Some x -> last_ l = Ok x.
Proof.
  intros H. unfold last_, gather.
  destruct l as [|y l]; [discriminate|].
  destruct (Z.ltb_spec (Z.of_nat (length (y :: l)) - 1) 0); [cbn [length] in *; lia|].
  replace (Z.to_nat (Z.of_nat (length (y :: l)) - 1)) with (length (y :: l) - 1)%nat by lia.
  now rewrite H.
Qed.

Section RetProofs.
Variable K : field.
Add Field K_field : (fth K).

Lemma at_nth (l : list K) k : (k < length l)%nat -> nth_error l k = Some (at_ l k).
Proof. intros H. now apply nth_error_nth'. Qed.

Lemma list_tab (l : list K) : l = tabulate (length l) (at_ l).
Proof. apply tabulate_eq; [reflexivity|]. intros. now apply at_nth. Qed.

Lemma at_over (l : list K) k : (length l <= k)%nat -> at_ l k = 0%F.
Proof. intros. now apply nth_overflow. Qed.

Lemma at_app1 (a b : list K) k : (k < length a)%nat -> at_ (a ++ b) k = at_ a k.
Proof. intros. now apply app_nth1. Qed.

Lemma at_app2 (a b : list K) k : (length a <= k)%nat -> at_ (a ++ b) k = at_ b (k - length a).
Proof. intros. now apply app_nth2. Qed.

Lemma at_repeat n k : at_ (repeat (0%F : K) n) k = 0%F.
Proof. unfold at_. revert k. induction n as [|n IH]; intros [|k]; cbn; auto. Qed.

Lemma at_skipn (l : list K) s k : at_ (skipn s l) k = at_ l (s + k).
Proof.
  unfold at_. revert l. induction s as [|s IH]; intros l; [reflexivity|].
  destruct l as [|x l]; cbn [skipn Nat.add nth]; [now destruct k|]. apply IH.
Qed.

Lemma at_tabulate n (f : nat -> K) k : (k < n)%nat -> at_ (tabulate n f) k = f k.
Proof. intros. unfold at_. erewrite nth_error_nth; [reflexivity|]. now apply tabulate_nth. Qed.

Lemma slice_tab (l : list K) i n : 0 <= i -> (Z.to_nat i + n <= length l)%nat ->
  slice l i (i + Z.of_nat n) = tabulate n (fun t => at_ l (Z.to_nat i + t)).
Proof.
  intros Hi Hn. unfold slice, slice_bound.
  destruct (Z.ltb_spec i 0); [lia|]. destruct (Z.ltb_spec (i + Z.of_nat n) 0); [lia|].
  rewrite !Z.min_l by lia.
  replace (Z.to_nat (i + Z.of_nat n - i)) with n by lia.
  apply tabulate_eq; [rewrite firstn_length, skipn_length; lia|].
  intros k Hk. rewrite (list_tab (firstn _ _)).
  rewrite tabulate_nth by (rewrite firstn_length, skipn_length; lia).
  f_equal. rewrite <- at_skipn. unfold at_.
  rewrite <- (firstn_skipn n (skipn (Z.to_nat i) l)) at 2.
  rewrite app_nth1; [reflexivity|]. rewrite firstn_length, skipn_length. lia.
Qed.

Lemma slice_from {A} (l : list A) i : 0 <= i ->
  slice l i (Z.of_nat (length l)) = skipn (Z.to_nat i) l.
Proof.
  intros Hi. unfold slice, slice_bound.
  destruct (Z.ltb_spec i 0); [lia|]. destruct (Z.ltb_spec (Z.of_nat (length l)) 0); [lia|].
  rewrite (Z.min_id (Z.of_nat (length l))).
  destruct (Z.le_ge_cases i (Z.of_nat (length l))).
  - rewrite Z.min_l by lia. apply firstn_all2. rewrite skipn_length. lia.
  - rewrite Z.min_r by lia. rewrite !skipn_all2 by lia. now rewrite firstn_nil.
Qed.

Lemma slice_upto {A} (l : list A) j : 0 <= j -> slice l 0 j = firstn (Z.to_nat j) l.
Proof.
  intros Hj. unfold slice, slice_bound. cbn [Z.ltb Z.compare].
  destruct (Z.ltb_spec j 0); [lia|]. rewrite (Z.min_l 0) by lia. cbn [Z.to_nat skipn].
  destruct (Z.le_ge_cases j (Z.of_nat (length l))).
  - rewrite Z.min_l by lia. f_equal. lia.
  - rewrite Z.min_r by lia. rewrite !firstn_all2 by lia. reflexivity.
Qed.

Lemma slice_butlast {A} (l : list A) : slice l 0 (-1) = removelast l.
Proof.
  unfold slice, slice_bound. cbn [Z.ltb Z.compare].
  destruct l as [|x l] using rev_ind; [reflexivity|]. clear IHl.
  rewrite removelast_last, app_length. cbn [length].
  rewrite Z.min_l by lia. cbn [Z.to_nat skipn].
  replace (Z.to_nat (Z.max 0 (Z.of_nat (length l + 1) + -1) - 0)) with (length l) by lia.
  rewrite firstn_app, firstn_all, Nat.sub_diag. cbn [firstn]. apply app_nil_r.
Qed.

(** ** The recursions of the specification *)

Local Open Scope F_scope.
Implicit Types (g l : K) (r V : nat -> K) (T n h t : nat).

Definition cut (T : nat) (v : nat -> K) (t : nat) : K := if (t <? T)%nat then v t else 0.

Lemma nstep_0 g r V T t : nstep g r V T 0 t = cut T V t.
Proof.
  unfold nstep, cut. cbn [sumn]. rewrite Nat.add_0_r. cbn [fpow].
  destruct (t <? T)%nat; ring.
Qed.

Lemma nstep_S g r V T n t :
  nstep g r V T (S n) t = cut T r t + g * nstep g r V T n (S t).
Proof.
  unfold nstep, cut. rewrite sumn_S. rewrite Nat.add_0_r. cbn [fpow].
  replace (t + S n)%nat with (S t + n)%nat by lia.
  transitivity ((if (t <? T)%nat then r t else 0) +
     (g * sumn n (fun k => if (S t + k <? T)%nat then fpow g k * r (S t + k)%nat else 0)
      + (if (S t + n <? T)%nat then g * fpow g n * V (S t + n)%nat else 0))).
  - rewrite <- sumn_mul.
    rewrite (sumn_ext _ n _ (fun k => g * (if (S t + k <? T)%nat then fpow g k * r (S t + k)%nat else 0))).
    + destruct (t <? T)%nat; ring.
    + intros k _. replace (t + S k)%nat with (S t + k)%nat by lia.
      destruct (S t + k <? T)%nat; ring.
  - destruct (S t + n <? T)%nat; ring.
Qed.

Lemma weights_sum l n : (1 - l) * sumn n (fpow l) + fpow l n = (1 : K).
Proof. induction n as [|n IH]; cbn [sumn fpow]; [ring|]. rewrite <- IH at 2. ring. Qed.

Lemma lambda_1 g l r V T t : lambda_return g l r V T 1 t = cut T r t + g * cut T V (S t).
Proof.
  unfold lambda_return. cbn [Nat.sub sumn fpow]. rewrite nstep_S, nstep_0. ring.
Qed.

Lemma lambda_S g l r V T h t :
  lambda_return g l r V T (S (S h)) t
  = cut T r t + g * ((1 - l) * cut T V (S t) + l * lambda_return g l r V T (S h) (S t)).
Proof.
  unfold lambda_return.
  replace (S (S h) - 1)%nat with (S h) by lia. replace (S h - 1)%nat with h by lia.
  rewrite (sumn_ext _ (S h) _ (fun n => cut T r t * fpow l n + g * (fpow l n * nstep g r V T n (S t)))).
  2: { intros n _. rewrite nstep_S. ring. }
  rewrite sumn_add, !sumn_mul.
  rewrite (nstep_S g r V T (S h) t).
  assert (sumn (S h) (fun n => fpow l n * nstep g r V T n (S t))
          = cut T V (S t) + l * sumn h (fun n => fpow l n * nstep g r V T (S n) (S t))) as ->.
  { rewrite sumn_S. rewrite nstep_0. cbn [fpow]. rewrite <- sumn_mul. f_equal; [ring|].
    apply sumn_ext. intros. ring. }
  pose proof (weights_sum l (S h)) as W.
  transitivity (cut T r t * ((1 - l) * sumn (S h) (fpow l) + fpow l (S h))
     + (g * ((1 - l) * (cut T V (S t) + l * sumn h (fun n => fpow l n * nstep g r V T (S n) (S t)))
             + fpow l (S h) * nstep g r V T (S h) (S t)))); [ring|].
  rewrite W. cbn [fpow]. ring.
Qed.

(** The return from a point t with the horizon reaching the end does not depend
    on the horizon. *)
Lemma nstep_end g r V T h h' t : (T <= t + h)%nat -> (T <= t + h')%nat ->
  nstep g r V T h t = nstep g r V T h' t.
Proof.
  revert h h' t.
  assert (forall m h h' t, (T - t = m)%nat -> (T <= t + h)%nat -> (T <= t + h')%nat ->
     nstep g r V T h t = nstep g r V T h' t) as G.
  { induction m as [|m IH]; intros h h' t Hm H1 H2.
    - assert (forall n, nstep g r V T n t = 0) as Z.
      { intros n. unfold nstep. rewrite sumn_zero.
        - destruct (Nat.ltb_spec (t + n) T); [lia|]. ring.
        - intros k _. destruct (Nat.ltb_spec (t + k) T); [lia|reflexivity]. }
      now rewrite !Z.
    - destruct h as [|h]; [lia|]. destruct h' as [|h']; [lia|].
      rewrite !nstep_S. do 2 f_equal. apply IH; lia. }
  intros. eapply G; eauto.
Qed.

Lemma lambda_end g l r V T h h' t : (1 <= h)%nat -> (1 <= h')%nat ->
  (T <= t + h)%nat -> (T <= t + h')%nat ->
  lambda_return g l r V T h t = lambda_return g l r V T h' t.
Proof.
  revert h h' t.
  assert (forall m h h' t, (T - t = m)%nat -> (T <= t + S h)%nat -> (T <= t + S h')%nat ->
     lambda_return g l r V T (S h) t = lambda_return g l r V T (S h') t) as G.
  { induction m as [|m IH]; intros h h' t Hm H1 H2.
    - assert (forall n t', (T <= t')%nat -> lambda_return g l r V T (S n) t' = 0) as Z.
      { induction n as [|n IHn]; intros t' Ht.
        - rewrite lambda_1. unfold cut.
          destruct (Nat.ltb_spec t' T); [lia|]. destruct (Nat.ltb_spec (S t') T); [lia|]. ring.
        - rewrite lambda_S, IHn by lia. unfold cut.
          destruct (Nat.ltb_spec t' T); [lia|]. destruct (Nat.ltb_spec (S t') T); [lia|]. ring. }
      now rewrite !Z by lia.
    - assert (forall n, (T <= t + S n)%nat -> lambda_return g l r V T (S n) t
        = cut T r t + g * ((1 - l) * cut T V (S t) + l * lambda_return g l r V T (S (m - 1)) (S t))) as Q.
      { intros n Hn. destruct n as [|n].
        - rewrite lambda_1. rewrite (IH (m-1) 0 (S t))%nat by lia. rewrite lambda_1. unfold cut.
          destruct (Nat.ltb_spec (S t) T); [lia|]. destruct (Nat.ltb_spec (S (S t)) T); [lia|]. ring.
        - rewrite lambda_S. rewrite (IH n (m - 1)%nat (S t)) by lia. reflexivity. }
      now rewrite !Q by lia. }
  intros [|h] [|h'] t; try lia. intros. eapply G; eauto.
Qed.

(** Shifting the origin of time. *)
Lemma nstep_shift g r V T n s t : (s <= T)%nat ->
  nstep g r V T n (s + t) = nstep g (fun k => r (s + k)%nat) (fun k => V (s + k)%nat) (T - s) n t.
Proof.
  intros Hs. unfold nstep. f_equal.
  - apply sumn_ext. intros k _. rewrite Nat.add_assoc.
    destruct (Nat.ltb_spec (s + t + k) T), (Nat.ltb_spec (t + k) (T - s)); try lia; reflexivity.
  - rewrite Nat.add_assoc.
    destruct (Nat.ltb_spec (s + t + n) T), (Nat.ltb_spec (t + n) (T - s)); try lia; reflexivity.
Qed.

Lemma lambda_shift g l r V T h s t : (s <= T)%nat ->
  lambda_return g l r V T h (s + t)
  = lambda_return g l (fun k => r (s + k)%nat) (fun k => V (s + k)%nat) (T - s) h t.
Proof.
  intros Hs. unfold lambda_return. rewrite nstep_shift by lia. do 2 f_equal.
  apply sumn_ext. intros. now rewrite nstep_shift by lia.
Qed.

(** Only the rewards and values within the horizon matter. *)
Lemma nstep_local g r V r' V' T T' n t :
  (forall k, (k < n)%nat -> cut T r (t + k) = cut T' r' (t + k)) ->
  cut T V (t + n) = cut T' V' (t + n) ->
  nstep g r V T n t = nstep g r' V' T' n t.
Proof.
  revert t. induction n as [|n IH]; intros t Hr HV.
  - rewrite !nstep_0. now rewrite Nat.add_0_r in HV.
  - rewrite !nstep_S. f_equal.
    + specialize (Hr O ltac:(lia)). now rewrite Nat.add_0_r in Hr.
    + f_equal. apply IH.
      * intros k Hk. replace (S t + k)%nat with (t + S k)%nat by lia. apply Hr. lia.
      * now replace (S t + n)%nat with (t + S n)%nat by lia.
Qed.

Lemma lambda_local g l r V r' V' T T' h t :
  (forall k, (k < h)%nat -> cut T r (t + k) = cut T' r' (t + k)) ->
  (forall k, (1 <= k <= h)%nat -> cut T V (t + k) = cut T' V' (t + k)) ->
  (1 <= h)%nat ->
  lambda_return g l r V T h t = lambda_return g l r' V' T' h t.
Proof.
  intros Hr HV Hh. unfold lambda_return. f_equal.
  - f_equal. apply sumn_ext. intros k Hk. f_equal. apply nstep_local.
    + intros j Hj. apply Hr. lia.
    + apply HV. lia.
  - f_equal. apply nstep_local; [auto|]. apply HV. lia.
Qed.

(** lambda = 1 is the plain return. *)
Lemma lambda_one g r V T h t : (1 <= h)%nat ->
  lambda_return g 1 r V T h t = nstep g r V T h t.
Proof. intros. unfold lambda_return. rewrite fpow_1. ring. Qed.

End RetProofs.
Arguments cut {K}.

(** ** The model *)

Section RetModelProofs.
Variable K : field.
Add Field K_field2 : (fth K).
Variable X : Type.
Variable bval : X -> K.
Implicit Types (c : rconf K) (xs : list X) (reward values : list K) (terminal : list Z).

(** What the loops compute for a timestep: [m] more iterations from position [s]
    starting from [q]. *)
Fixpoint rec (tr : option K) (g : K) (r v : nat -> K) (m s : nat) (q : K) : K :=
  match m with
  | O => q
  | S m' =>
      let nr := rec tr g r v m' (S s) q in
      (r s + g * match tr with None => nr | Some l => (1 - l) * v s + l * nr end)%F
  end.

Lemma foldr_ok c values reward n h q :
  0 <= h -> (Z.to_nat h + n <= length reward + 1)%nat ->
  (rc_trace K c <> None -> (Z.to_nat h + n <= length values + 1)%nat) ->
  foldr_range K h (recursive_return K c values reward (Z.of_nat n)) (tabulate n q)
  = Ok (tabulate n (fun t => rec (rc_trace K c) (rc_discount K c) (at_ reward) (at_ values)
                               (Z.to_nat h) t (q t))).
Proof.
  intros Hh Hr Hv. unfold foldr_range.
  assert (forall m j, 0 <= j -> Z.to_nat (h - j) = m ->
    fold_right (fun i acc => do a <- acc; recursive_return K c values reward (Z.of_nat n) i a)
      (Ok (tabulate n q)) (zrange j h)
    = Ok (tabulate n (fun t => rec (rc_trace K c) (rc_discount K c) (at_ reward) (at_ values)
                               m (Z.to_nat j + t) (q t)))) as G.
  { induction m as [|m IH]; intros j Hj Hm.
    - rewrite zrange_nil by lia. cbn [fold_right rec]. reflexivity.
    - rewrite zrange_cons by lia. cbn [fold_right].
      rewrite (IH (j + 1)) by lia. cbn [bind]. unfold recursive_return.
      destruct (rc_trace K c) as [l|] eqn:El.
      + specialize (Hv ltac:(discriminate)).
        rewrite !slice_tab by lia. rewrite vec2_tab. cbn [bind]. rewrite vec2_tab.
        f_equal. apply tabulate_ext. intros t Ht. cbn [rec].
        replace (Z.to_nat (j + 1) + t)%nat with (S (Z.to_nat j + t)) by lia. reflexivity.
      + rewrite slice_tab by lia. rewrite vec2_tab.
        f_equal. apply tabulate_ext. intros t Ht. cbn [rec].
        replace (Z.to_nat (j + 1) + t)%nat with (S (Z.to_nat j + t)) by lia. reflexivity. }
  rewrite (G (Z.to_nat h) 0) by lia. f_equal.
Qed.

(** The return the specification assigns to timestep t. *)
Definition ret c (r V : nat -> K) (T h t : nat) : K :=
  match rc_trace K c with
  | None => nstep (rc_discount K c) r V T h t
  | Some l => lambda_return (rc_discount K c) l r V T h t
  end.

Lemma rec_ret c r v V r' T m s :
  (forall k, (k < m)%nat -> r (s + k)%nat = cut T r' (s + k)) ->
  (rc_trace K c <> None -> forall k, (k < m)%nat -> v (s + k)%nat = cut T V (S (s + k))) ->
  (1 <= m)%nat ->
  rec (rc_trace K c) (rc_discount K c) r v m s (cut T V (s + m)) = ret c r' V T m s.
Proof.
  unfold ret. intros Hr Hv Hm. destruct (rc_trace K c) as [l|].
  - specialize (Hv ltac:(discriminate)).
    revert s Hr Hv. destruct m as [|m]; [lia|]. clear Hm.
    induction m as [|m IH]; intros s Hr Hv.
    + cbn [rec]. rewrite lambda_1.
      specialize (Hr O ltac:(lia)). specialize (Hv O ltac:(lia)).
      rewrite Nat.add_0_r in *. rewrite Hr, Hv. rewrite Nat.add_1_r. ring.
    + rewrite lambda_S.
      rewrite <- IH.
      2: { intros k Hk. replace (S s + k)%nat with (s + S k)%nat by lia. apply Hr. lia. }
      2: { intros k Hk. replace (S s + k)%nat with (s + S k)%nat by lia. apply Hv. lia. }
      replace (s + S (S m))%nat with (S s + S m)%nat by lia.
      remember (S m) as m1. cbn [rec]. subst m1.
      specialize (Hr O ltac:(lia)). specialize (Hv O ltac:(lia)).
      rewrite Nat.add_0_r in *. rewrite Hr, Hv. reflexivity.
  - clear Hv Hm. revert s Hr. induction m as [|m IH]; intros s Hr.
    + cbn [rec]. rewrite nstep_0. now rewrite Nat.add_0_r.
    + cbn [rec]. rewrite nstep_S. rewrite <- IH.
      2: { intros k Hk. replace (S s + k)%nat with (s + S k)%nat by lia. apply Hr. lia. }
      replace (s + S m)%nat with (S s + m)%nat by lia.
      specialize (Hr O ltac:(lia)). rewrite Nat.add_0_r in Hr. now rewrite Hr.
Qed.

Lemma rec_ret' c r v V r' T m s z :
  z = cut T V (s + m) ->
  (forall k, (k < m)%nat -> r (s + k)%nat = cut T r' (s + k)) ->
  (rc_trace K c <> None -> forall k, (k < m)%nat -> v (s + k)%nat = cut T V (S (s + k))) ->
  (1 <= m)%nat ->
  rec (rc_trace K c) (rc_discount K c) r v m s z = ret c r' V T m s.
Proof. intros ->. apply rec_ret. Qed.

Lemma ret_end c r V T h h' t : (1 <= h)%nat -> (1 <= h')%nat ->
  (T <= t + h)%nat -> (T <= t + h')%nat -> ret c r V T h t = ret c r V T h' t.
Proof.
  intros. unfold ret. destruct (rc_trace K c); [now apply lambda_end|now apply nstep_end].
Qed.

Lemma ret_S c r V T h t : (1 <= h)%nat -> (t < T)%nat ->
  ret c r V T (S h) t
  = (r t + rc_discount K c *
      match rc_trace K c with
      | None => ret c r V T h (S t)
      | Some l => (1 - l) * cut T V (S t) + l * ret c r V T h (S t)
      end)%F.
Proof.
  intros Hh Ht. unfold ret.
  assert (cut T r t = r t) as E by (unfold cut; destruct (Nat.ltb_spec t T); [reflexivity|lia]).
  destruct (rc_trace K c) as [l|].
  - destruct h as [|h]; [lia|]. now rewrite lambda_S, E.
  - now rewrite nstep_S, E.
Qed.

Lemma ret_last c r V T h : (1 <= h)%nat -> (1 <= T)%nat -> ret c r V T h (T - 1) = r (T - 1)%nat.
Proof.
  intros Hh HT. rewrite (ret_end c r V T h 1) by lia. unfold ret.
  assert (cut T r (T - 1) = r (T - 1)%nat) as E
    by (unfold cut; destruct (Nat.ltb_spec (T - 1) T); [reflexivity|lia]).
  assert (cut T V (S (T - 1)) = 0%F) as E'
    by (unfold cut; destruct (Nat.ltb_spec (S (T - 1)) T); [lia|reflexivity]).
  destruct (rc_trace K c).
  - rewrite lambda_1, E, E'. ring.
  - rewrite nstep_S, nstep_0, E, E'. ring.
Qed.

Lemma ret_local c r V r' V' T T' h t :
  (forall k, (k < h)%nat -> cut T r (t + k) = cut T' r' (t + k)) ->
  (forall k, (1 <= k <= h)%nat -> cut T V (t + k) = cut T' V' (t + k)) ->
  (1 <= h)%nat -> ret c r V T h t = ret c r' V' T' h t.
Proof.
  intros Hr HV Hh. unfold ret. destruct (rc_trace K c); [now apply lambda_local|].
  apply nstep_local; [assumption|]. apply HV. lia.
Qed.

Lemma ret_shift c r V T h s t : (s <= T)%nat ->
  ret c r V T h (s + t) = ret c (fun k => r (s + k)%nat) (fun k => V (s + k)%nat) (T - s) h t.
Proof.
  intros. unfold ret. destruct (rc_trace K c); [now apply lambda_shift|now apply nstep_shift].
Qed.

(** Values used by a configuration: none unless horizon values are predicted early. *)
Definition vals c xs : nat -> K := if rc_early K c then value_at bval xs else (fun _ => 0%F).

(** Is the episode's last reward final, i.e. not replaced by a prediction? *)
Definition final_reward c (f : Z) : bool := negb (rc_predterm K c) && (f =? 1).

(** Rewards the returns are computed from. *)
Definition rews c xs reward (f : Z) : nat -> K :=
  let T := length reward in
  if final_reward c f then at_ reward
  else with_last (at_ reward) T (vals c xs (T - 1)).

Lemma value_at_nth xs k x : nth_error xs k = Some x -> value_at bval xs k = bval x.
Proof. intros H. unfold value_at. now rewrite H. Qed.

Lemma at_map_bval xs k : at_ (map bval xs) k = value_at bval xs k.
Proof.
  unfold value_at, at_. destruct (nth_error xs k) as [x|] eqn:E.
  - apply nth_error_nth. now apply map_nth_error.
  - apply nth_overflow. rewrite map_length. now apply nth_error_None.
Qed.

Lemma value_at_skipn xs s k : value_at bval (skipn s xs) k = value_at bval xs (s + k).
Proof.
  rewrite <- !at_map_bval. rewrite <- skipn_map. apply at_skipn.
Qed.

Definition wf_conf c : Prop :=
  (rc_trace K c <> None -> rc_early K c = true) /\
  match rc_horizon K c with None => True | Some h => 1 <= h end.

Lemma terminal_iterative_ok c xs reward terminal f T h :
  wf_conf c ->
  length xs = T -> length reward = T -> length terminal = T -> (1 <= T)%nat ->
  nth_error terminal (T - 1) = Some f ->
  (rc_trace K c <> None -> (2 <= T)%nat) ->
  (final_reward c f = false -> rc_discount K c <> 0%F) ->
  (T <= h)%nat ->
  terminal_iterative K X bval c xs reward terminal
  = Ok (tabulate T (ret c (rews c xs reward f) (vals c xs) T h)).
Proof.
  intros [Htr _] Hx Hr Ht HT Hf H2 Hg Hh.
  destruct (nth_error xs (T - 1)) as [xl|] eqn:Exl.
  2: { apply nth_error_None in Exl. lia. }
  assert (last_ reward = Ok (at_ reward (T - 1))) as Lr
    by (apply last_nth; rewrite Hr; apply at_nth; lia).
  assert (last_ terminal = Ok f) as Lt by (apply last_nth; now rewrite Ht).
  assert (last_ xs = Ok xl) as Lx by (apply last_nth; now rewrite Hx).
  assert (rews c xs reward f (T - 1) =
          if final_reward c f then at_ reward (T - 1) else vals c xs (T - 1)) as Rl.
  { unfold rews. destruct (final_reward c f); [reflexivity|]. unfold with_last.
    rewrite Hr, Nat.eqb_refl. reflexivity. }
  assert (forall t, (t < T - 1)%nat -> rews c xs reward f t = at_ reward t) as Rt.
  { intros t Ht'. unfold rews. destruct (final_reward c f); [reflexivity|]. unfold with_last.
    rewrite Hr. destruct (Nat.eqb_spec t (T - 1)); [lia|reflexivity]. }
  set (R := fun tv t => if (t <? T)%nat
              then ret c (rews c xs reward f) (vals c xs) T h t else tv : K).
  assert (forall tv, tabulate T (ret c (rews c xs reward f) (vals c xs) T h) = tabulate T (R tv)) as ER.
  { intros tv. apply tabulate_ext. intros k Hk. unfold R.
    destruct (Nat.ltb_spec k T); [reflexivity|lia]. }
  assert (forall tv, R tv T = tv) as RT.
  { intros tv. unfold R. destruct (Nat.ltb_spec T T); [lia|reflexivity]. }
  assert (forall tv, R tv (T - 1)%nat = rews c xs reward f (T - 1)%nat) as RT1.
  { intros tv. unfold R. destruct (Nat.ltb_spec (T - 1) T); [|lia]. apply ret_last; lia. }
  assert (forall tv t, (t < T - 1)%nat -> R tv t
     = (at_ reward t + rc_discount K c *
      match rc_trace K c with
      | None => R tv (S t)
      | Some l => (1 - l) * cut T (vals c xs) (S t) + l * R tv (S t)
      end)%F) as RS.
  { intros tv t Ht'. unfold R at 1.
    destruct (Nat.ltb_spec t T); [|lia].
    rewrite (ret_end c _ _ T h (S h) t) by lia.
    rewrite ret_S by lia. rewrite Rt by lia. unfold R.
    destruct (Nat.ltb_spec (S t) T); [|lia]. reflexivity. }
  unfold terminal_iterative.
  destruct (rc_trace K c) as [l|] eqn:Etr.
  - (* TD-lambda *)
    specialize (H2 ltac:(discriminate)). specialize (Htr ltac:(discriminate)).
    rewrite slice_from by lia.
    change (Z.to_nat 1) with 1%nat.
    assert (length (skipn 1 xs) = (T - 1)%nat) as Ls by (rewrite skipn_length; lia).
    set (values := map bval (skipn 1 xs)).
    assert (length values = (T - 1)%nat) as Lv by (unfold values; now rewrite map_length).
    assert (forall k, at_ values k = value_at bval xs (S k)) as Av.
    { intros k. unfold values. rewrite at_map_bval, value_at_skipn. reflexivity. }
    assert (last_ values = Ok (bval xl)) as Lvl.
    { apply last_nth. rewrite Lv. rewrite (at_nth K) by lia. f_equal.
      rewrite Av. replace (S (T - 1 - 1)) with (T - 1)%nat by lia. now apply value_at_nth. }
    rewrite Lvl, Lr, Lt. cbn [bind].
    set (tv := if rc_predterm K c then _ else _).
    rewrite vec2_pair_combine by (rewrite app_length; cbn [length]; lia). cbn [bind].
    f_equal. rewrite (ER tv).
    assert (length (combine reward (values ++ [tv])) = T) as Lc
      by (rewrite combine_length, app_length; cbn [length]; lia).
    rewrite <- Lc. apply scan_rev_tab; [rewrite Lc; apply RT|].
    intros t [r v] Hrv.
    assert (t < T)%nat as HtT by (rewrite <- Lc; apply nth_error_Some; congruence).
    assert (r = at_ reward t /\ v = at_ (values ++ [tv]) t) as [-> ->].
    { rewrite (nth_error_nth' _ (0%F, 0%F)) in Hrv by lia.
      rewrite combine_nth in Hrv by (rewrite app_length; cbn [length]; lia).
      now inversion Hrv. }
    cbn [fst snd].
    destruct (Nat.eq_dec t (T - 1)) as [->|Hne].
    + rewrite RT1. replace (S (T - 1)) with T by lia. rewrite RT.
      rewrite at_app2 by lia. rewrite Lv, Nat.sub_diag. cbn [at_ nth]. unfold at_. cbn [nth].
      rewrite Rl. subst tv. unfold final_reward, vals in *. rewrite Htr.
      rewrite (value_at_nth xs (T - 1) xl Exl).
      change (nth (T - 1) reward 0%F) with (at_ reward (T - 1)).
      destruct (rc_predterm K c); cbn [negb andb] in *.
      * field. now apply Hg.
      * destruct (f =? 1); [ring|]. field. now apply Hg.
    + rewrite RS by lia. rewrite at_app1 by lia. rewrite Av.
      unfold cut, vals. rewrite Htr. destruct (Nat.ltb_spec (S t) T); [|lia]. reflexivity.
  - (* plain *)
    rewrite Lr, Lt. cbn [bind].
    assert (forall tv, (at_ reward (T - 1) + rc_discount K c * tv)%F = rews c xs reward f (T - 1)%nat ->
      Ok (scan_rev (fun nr r => r + rc_discount K c * nr)%F tv reward)
      = Ok (tabulate T (ret c (rews c xs reward f) (vals c xs) T h))) as G.
    { intros tv Htv. f_equal. rewrite (ER tv). rewrite <- Hr at 1. apply scan_rev_tab.
      - rewrite Hr. apply RT.
      - intros t r Hrt.
        assert (t < T)%nat as HtT by (rewrite <- Hr; apply nth_error_Some; congruence).
        rewrite (at_nth K) in Hrt by lia. inversion Hrt; subst r.
        destruct (Nat.eq_dec t (T - 1)) as [->|Hne].
        + rewrite RT1. replace (S (T - 1)) with T by lia. rewrite RT. now symmetry.
        + now rewrite RS by lia. }
    unfold final_reward, vals in *.
    destruct (rc_early K c), (rc_predterm K c); cbn [negb andb] in *;
      try rewrite (value_at_nth xs (T - 1) xl Exl) in Rl.
    + rewrite Lx. cbn [bind]. apply G. rewrite Rl. field. now apply Hg.
    + destruct (f =? 1).
      * cbn [bind]. apply G. rewrite Rl. ring.
      * rewrite Lx. cbn [bind]. apply G. rewrite Rl. field. now apply Hg.
    + cbn [bind]. apply G. rewrite Rl. field. now apply Hg.
    + destruct (f =? 1); cbn [bind]; apply G; rewrite Rl; [ring|]. field. now apply Hg.
Qed.

Lemma removelast_length {A} (l : list A) : length (removelast l) = (length l - 1)%nat.
Proof.
  destruct l as [|x l] using rev_ind; [reflexivity|].
  rewrite removelast_last, app_length. cbn [length]. lia.
Qed.

Lemma at_removelast (l : list K) k : (k < length l - 1)%nat -> at_ (removelast l) k = at_ l k.
Proof.
  destruct l as [|x l] using rev_ind; [cbn; lia|]. intros H. rewrite app_length in H. cbn [length] in H.
  rewrite removelast_last. now rewrite at_app1 by lia.
Qed.

(** The rewards extended beyond the end, as both parallel versions build them. *)
Lemma padded_rewards c xs reward f T m tv :
  length reward = T -> (1 <= T)%nat ->
  tv = rews c xs reward f (T - 1) ->
  forall k, at_ (removelast reward ++ [tv] ++ repeat 0%F m) k = cut T (rews c xs reward f) k.
Proof.
  intros Hr HT Htv k. unfold cut.
  destruct (Nat.ltb_spec k T).
  - destruct (Nat.eq_dec k (T - 1)) as [->|Hne].
    + rewrite at_app2 by (rewrite removelast_length; lia).
      rewrite removelast_length, Hr, Nat.sub_diag. exact Htv.
    + rewrite at_app1 by (rewrite removelast_length; lia).
      rewrite at_removelast by lia. unfold rews.
      destruct (final_reward c f); [reflexivity|]. unfold with_last. rewrite Hr.
      destruct (Nat.eqb_spec k (T - 1)); [lia|reflexivity].
  - rewrite at_app2 by (rewrite removelast_length; lia).
    rewrite at_app2 by (rewrite removelast_length; cbn [length]; lia). apply at_repeat.
Qed.

Lemma tabulate_const_repeat n : repeat (0%F : K) n = tabulate n (fun _ => 0%F).
Proof.
  induction n as [|n IH]; [reflexivity|]. rewrite tabulate_S. cbn [repeat]. now rewrite IH.
Qed.

Lemma at_map_value_cut xs s k T :
  length xs = T -> (at_ (map bval (skipn s xs)) k : K) = cut T (value_at bval xs) (s + k).
Proof.
  intros Hx. rewrite at_map_bval, value_at_skipn. unfold cut.
  destruct (Nat.ltb_spec (s + k) T); [reflexivity|].
  unfold value_at. destruct (nth_error xs (s + k)) eqn:E; [|reflexivity].
  assert (nth_error xs (s + k) <> None) as Hn by congruence.
  apply nth_error_Some in Hn. lia.
Qed.

Lemma at_app_zero (l : list K) m k : at_ (l ++ repeat 0%F m) k = at_ l k.
Proof.
  destruct (Nat.lt_ge_cases k (length l)).
  - now rewrite at_app1.
  - rewrite at_app2 by lia. rewrite at_repeat. symmetry. now apply at_over.
Qed.

Lemma terminal_parallel_ok c xs reward terminal f T h :
  wf_conf c -> 1 <= h ->
  length xs = T -> length reward = T -> length terminal = T -> h < Z.of_nat T ->
  nth_error terminal (T - 1) = Some f ->
  terminal_parallel K X bval c h xs reward terminal
  = Ok (tabulate T (ret c (rews c xs reward f) (vals c xs) T (Z.to_nat h))).
Proof.
  intros [Htr _] Hh Hx Hr Ht HT Hf.
  destruct (nth_error xs (T - 1)) as [xl|] eqn:Exl.
  2: { apply nth_error_None in Exl. lia. }
  assert (last_ reward = Ok (at_ reward (T - 1))) as Lr
    by (apply last_nth; rewrite Hr; apply at_nth; lia).
  assert (last_ terminal = Ok f) as Lt by (apply last_nth; now rewrite Ht).
  assert (rews c xs reward f (T - 1) =
          if final_reward c f then at_ reward (T - 1) else vals c xs (T - 1)) as Rl.
  { unfold rews. destruct (final_reward c f); [reflexivity|]. unfold with_last.
    rewrite Hr, Nat.eqb_refl. reflexivity. }
  unfold terminal_parallel. rewrite Lr, Lt. cbn [bind]. rewrite slice_butlast, Ht.
  destruct (rc_early K c) eqn:Ee.
  - assert (forall s, (1 <= s)%nat -> (s < T)%nat -> last_ (map bval (skipn s xs)) = Ok (bval xl)) as Lv.
    { intros s Hs HsT. apply last_nth. rewrite map_length, skipn_length, Hx.
      rewrite (at_nth K) by (rewrite map_length, skipn_length; lia).
      rewrite at_map_bval, value_at_skipn. f_equal. apply value_at_nth.
      replace (s + (T - s - 1))%nat with (T - 1)%nat by lia. exact Exl. }
    assert (vals c xs = value_at bval xs) as Ev by (unfold vals; now rewrite Ee).
    destruct (rc_trace K c) as [l|] eqn:Etr.
    + rewrite slice_from by lia. change (Z.to_nat 1) with 1%nat.
      rewrite Lv by lia. cbn [bind].
      set (tv := if rc_predterm K c then _ else _).
      assert (tv = rews c xs reward f (T - 1)) as Htv.
      { rewrite Rl, Ev, (value_at_nth _ _ _ Exl). subst tv. unfold final_reward.
        now destruct (rc_predterm K c), (f =? 1). }
      rewrite slice_from by lia.
      set (values := map bval (skipn 1 xs) ++ repeat 0%F (Z.to_nat h)).
      assert (length values = (T - 1 + Z.to_nat h)%nat) as Lva.
      { unfold values. rewrite app_length, map_length, skipn_length, repeat_length. lia. }
      assert (forall k, at_ values k = cut T (value_at bval xs) (S k)) as Av.
      { intros k. unfold values. rewrite at_app_zero. now rewrite (at_map_value_cut xs 1 k T). }
      assert (skipn (Z.to_nat (h - 1)) values
              = tabulate T (fun t => cut T (value_at bval xs) (t + Z.to_nat h))) as ->.
      { apply tabulate_eq; [rewrite skipn_length; lia|]. intros k Hk.
        rewrite (at_nth K) by (rewrite skipn_length; lia). f_equal.
        rewrite at_skipn, Av. f_equal. lia. }
      rewrite foldr_ok; try lia.
      * f_equal. apply tabulate_ext. intros t Ht'. rewrite Ev. apply rec_ret; [| |lia].
        -- intros k _. apply padded_rewards; [assumption|lia|assumption].
        -- intros _ k _. apply Av.
      * rewrite !app_length, removelast_length, repeat_length. cbn [length]. lia.
    + rewrite slice_from by lia. rewrite Lv by lia. cbn [bind].
      set (tv := if rc_predterm K c then _ else _).
      assert (tv = rews c xs reward f (T - 1)) as Htv.
      { rewrite Rl, Ev, (value_at_nth _ _ _ Exl). subst tv. unfold final_reward.
        now destruct (rc_predterm K c), (f =? 1). }
      assert (map bval (skipn (Z.to_nat h) xs) ++ repeat 0%F (Z.to_nat h)
              = tabulate T (fun t => cut T (value_at bval xs) (t + Z.to_nat h))) as E.
      { apply tabulate_eq; [rewrite app_length, map_length, skipn_length, repeat_length; lia|].
        intros k Hk.
        rewrite (at_nth K) by (rewrite app_length, map_length, skipn_length, repeat_length; lia).
        f_equal. rewrite at_app_zero. rewrite (at_map_value_cut xs _ k T) by assumption.
        f_equal. lia. }
      rewrite E at 2. rewrite foldr_ok; try lia.
      * f_equal. apply tabulate_ext. intros t Ht'. rewrite Ev. apply rec_ret; [| |lia].
        -- intros k _. apply padded_rewards; [assumption|lia|assumption].
        -- intros H. congruence.
      * rewrite !app_length, removelast_length, repeat_length. cbn [length]. lia.
      * intros H. congruence.
  - assert (rc_trace K c = None) as Etr.
    { destruct (rc_trace K c); [|reflexivity]. specialize (Htr ltac:(discriminate)). congruence. }
    assert (vals c xs = fun _ => 0%F) as Ev by (unfold vals; now rewrite Ee).
    rewrite Etr. rewrite slice_upto by lia.
    replace (firstn (Z.to_nat h) (repeat (0%F : K) (Z.to_nat (Z.of_nat T))))
      with (repeat (0%F : K) (Z.to_nat h)).
    2: { rewrite <- (firstn_all (repeat 0%F (Z.to_nat h))).
         rewrite repeat_length.
         replace (Z.to_nat (Z.of_nat T)) with (Z.to_nat h + (T - Z.to_nat h))%nat by lia.
         rewrite repeat_app, firstn_app, repeat_length, Nat.sub_diag. cbn [firstn].
         now rewrite app_nil_r. }
    rewrite Nat2Z.id. rewrite (tabulate_const_repeat T).
    set (tv := if rc_predterm K c then _ else _).
    assert (tv = rews c xs reward f (T - 1)) as Htv.
    { rewrite Rl, Ev. subst tv. unfold final_reward. now destruct (rc_predterm K c), (f =? 1). }
    rewrite foldr_ok; try lia.
    + f_equal. apply tabulate_ext. intros t Ht'. rewrite Ev.
      assert (0%F = cut T (fun _ => 0%F : K) (t + Z.to_nat h)) as E
        by (unfold cut; now destruct (_ <? _)%nat).
      apply rec_ret'; [exact E| | |lia].
      * intros k _. apply padded_rewards; [assumption|lia|assumption].
      * intros H. congruence.
    + rewrite !app_length, removelast_length, repeat_length. cbn [length]. lia.
Qed.

(** Everything core_experience can be asked to do. *)
Definition horizon_of c (T : nat) : nat :=
  match rc_horizon K c with None => T | Some h => Z.to_nat h end.

Lemma episode_returns_ok c xs reward terminal f T :
  wf_conf c ->
  length xs = T -> length reward = T -> length terminal = T -> (1 <= T)%nat ->
  nth_error terminal (T - 1) = Some f ->
  (rc_trace K c <> None -> (2 <= T)%nat) ->
  (final_reward c f = false -> rc_discount K c <> 0%F) ->
  episode_returns K X bval c xs reward terminal
  = Ok (tabulate T (ret c (rews c xs reward f) (vals c xs) T (horizon_of c T))).
Proof.
  intros Hwf Hx Hr Ht HT Hf H2 Hg. unfold episode_returns, horizon_of.
  pose proof Hwf as [_ Hh]. destruct (rc_horizon K c) as [h|].
  - rewrite Ht. destruct (Z.leb_spec (Z.of_nat T) h).
    + apply terminal_iterative_ok; auto. lia.
    + apply terminal_parallel_ok; auto.
  - apply terminal_iterative_ok; auto.
Qed.

Lemma nonterminal_returns_ok c xs reward n h :
  wf_conf c -> 1 <= h ->
  length xs = n -> length reward = n -> h < Z.of_nat n ->
  nonterminal_returns K X bval c h (Z.of_nat n - h) xs reward
  = Ok (tabulate (n - Z.to_nat h) (ret c (at_ reward) (vals c xs) n (Z.to_nat h))).
Proof.
  intros [Htr _] Hh Hx Hr Hn. unfold nonterminal_returns. rewrite Hx.
  replace (Z.of_nat n - h) with (Z.of_nat (n - Z.to_nat h)) by lia.
  set (m := (n - Z.to_nat h)%nat).
  rewrite slice_upto by lia. set (rw := firstn _ reward).
  assert (length rw = (n - 1)%nat) as Lrw by (unfold rw; rewrite firstn_length; lia).
  assert (forall k, (k < n - 1)%nat -> at_ rw k = cut n (at_ reward) k) as Arw.
  { intros k Hk. unfold cut. destruct (Nat.ltb_spec k n); [|lia].
    rewrite <- (firstn_skipn (Z.to_nat (Z.of_nat n - 1)) reward). fold rw.
    now rewrite at_app1 by lia. }
  destruct (rc_early K c) eqn:Ee.
  - assert (vals c xs = value_at bval xs) as Ev by (unfold vals; now rewrite Ee).
    rewrite Ev.
    destruct (rc_trace K c) as [l|] eqn:Etr; cbn [bind].
    + assert (slice xs 1 (Z.of_nat n) = skipn 1 xs) as Sx.
      { rewrite <- Hx. rewrite slice_from by lia. reflexivity. }
      rewrite !Sx. rewrite slice_from by lia.
      set (values := map bval (skipn 1 xs)).
      assert (length values = (n - 1)%nat) as Lv
        by (unfold values; rewrite map_length, skipn_length; lia).
      assert (forall k, at_ values k = cut n (value_at bval xs) (S k)) as Av.
      { intros k. unfold values. now rewrite (at_map_value_cut xs 1 k n). }
      assert (skipn (Z.to_nat (h - 1)) values
              = tabulate m (fun t => cut n (value_at bval xs) (t + Z.to_nat h))) as ->.
      { apply tabulate_eq; [rewrite skipn_length; lia|]. intros k Hk.
        rewrite (at_nth K) by (rewrite skipn_length; lia). f_equal.
        rewrite at_skipn, Av. f_equal. lia. }
      rewrite foldr_ok by lia. f_equal. apply tabulate_ext. intros t Ht'. apply rec_ret; [| |lia].
      * intros k Hk. apply Arw. lia.
      * intros _ k _. apply Av.
    + assert (slice xs h (Z.of_nat n) = skipn (Z.to_nat h) xs) as Sx.
      { rewrite <- Hx. rewrite slice_from by lia. reflexivity. }
      rewrite !Sx.
      assert (map bval (skipn (Z.to_nat h) xs)
              = tabulate m (fun t => cut n (value_at bval xs) (t + Z.to_nat h))) as E.
      { apply tabulate_eq; [rewrite map_length, skipn_length; lia|].
        intros k Hk. rewrite (at_nth K) by (rewrite map_length, skipn_length; lia).
        f_equal. rewrite (at_map_value_cut xs _ k n) by assumption. f_equal. lia. }
      rewrite E at 2. rewrite foldr_ok; try lia; [|intros H; congruence].
      f_equal. apply tabulate_ext. intros t Ht'. apply rec_ret; [| |lia].
      * intros k Hk. apply Arw. lia.
      * intros H. congruence.
  - assert (rc_trace K c = None) as Etr.
    { destruct (rc_trace K c); [|reflexivity]. specialize (Htr ltac:(discriminate)). congruence. }
    assert (vals c xs = fun _ => 0%F) as Ev by (unfold vals; now rewrite Ee).
    rewrite Etr, Ev. cbn [bind]. rewrite Nat2Z.id, tabulate_const_repeat.
    rewrite foldr_ok; try lia.
    f_equal. apply tabulate_ext. intros t Ht'.
    assert (0%F = cut n (fun _ => 0%F : K) (t + Z.to_nat h)) as E
      by (unfold cut; now destruct (_ <? _)%nat).
    apply rec_ret'; [exact E| | |lia].
    + intros k Hk. apply Arw. lia.
    + intros H. congruence.
Qed.

(** A single-timestep episode cannot be processed with trace_decay != 1. *)
Lemma lambda_single c l x r t :
  rc_trace K c = Some l -> wf_conf c ->
  episode_returns K X bval c [x] [r] [t] = Err "gather: index out of range".
Proof.
  intros Etr [_ Hh]. unfold episode_returns.
  assert (terminal_iterative K X bval c [x] [r] [t] = Err "gather: index out of range") as E
    by (unfold terminal_iterative; rewrite Etr; reflexivity).
  destruct (rc_horizon K c) as [h|]; [|exact E].
  cbn [length]. destruct (Z.leb_spec (Z.of_nat 1) h); [exact E|lia].
Qed.

(** ** GAE *)

Lemma gae_scan_snoc_fragment g l adv1 (term1 : list Z) adv2 term2 :
  length adv1 = length term1 -> length adv2 = length term2 ->
  adv1 <> [] -> (forall t, nth_error term1 (length term1 - 1) = Some t -> t <> 0) ->
  gae_scan K g l (adv1 ++ adv2) (term1 ++ term2)
  = do a <- gae_scan K g l adv1 term1; do b <- gae_scan K g l adv2 term2; Ok (a ++ b).
Proof.
  intros H1 H2 Hne Hlast. unfold gae_scan.
  rewrite !vec2_pair_combine by (rewrite ?app_length; lia). cbn [bind]. f_equal.
  set (f := fun (next_gae : K) (at_ : K * Z) => _).
  assert (combine (adv1 ++ adv2) (term1 ++ term2) = combine adv1 term1 ++ combine adv2 term2) as ->.
  { revert term1 H1 Hne Hlast. induction adv1 as [|a adv1 IH]; intros [|t term1] H1 Hne Hlast;
      try discriminate; [easy|]. cbn [app combine]. f_equal.
    destruct adv1 as [|a' adv1].
    - destruct term1; [reflexivity|discriminate].
    - apply IH; [cbn [length] in *; congruence|discriminate|].
      intros t' Ht'. destruct term1 as [|t1 term1]; [discriminate|]. apply Hlast.
      cbn [length] in *. replace (S (S (length term1)) - 1)%nat with (S (S (length term1) - 1)) by lia.
      exact Ht'. }
  revert term1 H1 Hne Hlast. induction adv1 as [|a adv1 IH]; intros [|t term1] H1 Hne Hlast;
    try discriminate; [easy|].
  cbn [combine app scan_rev].
  destruct adv1 as [|a' adv1].
  - destruct term1; [|discriminate]. cbn [combine app scan_rev hd].
    specialize (Hlast t eq_refl). subst f. cbv beta. cbn [fst snd].
    destruct (Z.eqb_spec t 0); [contradiction|]. reflexivity.
  - destruct term1 as [|t' term1]; [discriminate|].
    rewrite (IH (t' :: term1)).
    + reflexivity.
    + cbn [length] in *; congruence.
    + discriminate.
    + intros t2 Ht2. apply Hlast. cbn [length] in *.
      replace (S (S (length term1)) - 1)%nat with (S (S (length term1) - 1)) by lia. exact Ht2.
Qed.

Lemma gae_scan_one g l adv term :
  length adv = length term ->
  (forall k, (k < length term - 1)%nat -> nth_error term k = Some 0) ->
  gae_scan K g l adv term = Ok (gae (g * l)%F adv).
Proof.
  intros H Hz. unfold gae_scan. rewrite vec2_pair_combine by assumption. cbn [bind]. f_equal.
  unfold gae.
  set (S_ := fun t => sumn (length adv - t) (fun k => (fpow (g * l) k * at_ adv (t + k))%F)).
  assert (length (combine adv term) = length adv) as Lc by (rewrite combine_length; lia).
  rewrite <- Lc at 1. apply scan_rev_tab.
  - rewrite Lc. unfold S_. rewrite Nat.sub_diag. reflexivity.
  - intros t [a u] Hau.
    assert (t < length adv)%nat as Ht by (rewrite <- Lc; apply nth_error_Some; congruence).
    assert (a = at_ adv t /\ nth_error term t = Some u) as [-> Hu].
    { pose proof Hau as Hau2. rewrite (nth_error_nth' _ (0%F, 0)) in Hau by lia.
      rewrite combine_nth in Hau by lia. inversion Hau. split; [reflexivity|].
      apply nth_error_nth'. lia. }
    cbn [fst snd].
    assert (S_ t = (at_ adv t + g * l * S_ (S t))%F) as E.
    { unfold S_. replace (length adv - t)%nat with (S (length adv - S t)) by lia.
      rewrite sumn_S. rewrite Nat.add_0_r. cbn [fpow]. rewrite <- sumn_mul.
      rewrite (sumn_ext _ _ _ (fun k => (g * l * (fpow (g * l) k * at_ adv (S t + k)))%F)).
      - ring.
      - intros k _. replace (t + S k)%nat with (S t + k)%nat by lia. ring. }
    rewrite E. destruct (Nat.eq_dec t (length adv - 1)) as [->|Hne].
    + assert (S_ (S (length adv - 1)) = 0%F) as ->.
      { unfold S_. replace (length adv - S (length adv - 1))%nat with 0%nat by lia. reflexivity. }
      destruct (u =? 0); reflexivity.
    + rewrite Hz in Hu by lia. inversion Hu. reflexivity.
Qed.

End RetModelProofs.
