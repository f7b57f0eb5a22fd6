(** Proofs about act in independent mode: one instance and many. *)

From Coq Require Import String List ZArith Bool Lia.
From Verif Require Import Base InpModel InpSpec InpProofs InpActProofs.
Import ListNotations.
Open Scope list_scope.
Open Scope nat_scope.

Lemma alone_tmap {V} i : forall t, alone V i t = tmap (fun xs => expand (nth i xs (Arr [] []))) t.
Proof.
  induction t as [xs|d IH] using tree_rect'; [cbn; rewrite expand_pile; reflexivity|]. cbn. f_equal. apply map_ext_in.
  intros kt Hin. f_equal. rewrite Forall_forall in IH. apply IH; exact Hin.
Qed.
Lemma alone_expand {V} i t : alone V i t = tmap expand (instance V i t).
Proof. rewrite alone_tmap, instance_tmap, tmap_tmap. reflexivity. Qed.

Lemma table_even {V} n t : table V n t -> even V n t.
Proof. intros H. apply Forall_forall. intros xs Hx. eapply table_leaves; eauto. Qed.

Lemma concat_repeat {A} (l : list A) n k : length l = k -> forall x, (forall y, In y l -> y = x) -> concat (repeat l n) = repeat x (n * k).
Proof.
  intros HL x H. assert (E : l = repeat x k).
  { subst k. induction l as [|y l IH]; [reflexivity|]. cbn. rewrite (H y) by (left; reflexivity). f_equal. apply IH. intros z Hz; apply H; right; exact Hz. }
  rewrite E. induction n as [|n IH]; [reflexivity|]. cbn. rewrite IH, <- repeat_app. reflexivity.
Qed.

Lemma map_repeat' {A B} (f : A -> B) x n : map f (repeat x n) = repeat (f x) n.
Proof. induction n; cbn; congruence. Qed.

Lemma to_tensors_like {A B} (g : leaf -> A -> res B) : forall s t u, to_tensors g s t = Ok u -> like s u.
Proof.
  induction s as [l|ds IH] using tree_rect'; intros t u H; destruct t as [a|d]; try discriminate.
  - cbn in H. destruct (g l a); [|discriminate]. cbn in H. apply ok_inj in H. subst u. reflexivity.
  - rewrite to_tensors_dict in H. destruct (same_names _ _); [|discriminate]. apply bind_ok in H. destruct H as [e [He H]]. apply ok_inj in H. subst u. apply map_res_inv in He.
    unfold like. cbn [tmap]. f_equal. induction He as [|ks ky ds e Hk _ IHe]; [reflexivity|]. inversion IH as [|? ? I1 I2]; subst.
    cbn [map]. rewrite (IHe I2). f_equal. apply bind_ok in Hk. destruct Hk as [x [_ Hk]]. apply bind_ok in Hk. destruct Hk as [y [Hy E]]. apply ok_inj in E. subst ky. cbn [fst snd]. f_equal.
    apply (I1 x y Hy).
Qed.

Section Act.
Variable V : Type.
Variable conv : leaf -> V -> option V.
Variable one : V.
Variable masking : bool.
Variables states_spec actions_spec internals_spec : tree leaf.
Variable ia : tree (arr V) -> tree (arr V) -> list (list string * arr V) -> bool -> tree (arr V) * tree (arr V).
Notation model_inputs := (model_inputs V conv one masking states_spec actions_spec).
Notation to_tensor := (to_tensor V conv).
Notation conv_row := (conv_row V conv).
Notation conv_rows := (conv_rows V conv).
Notation A0 := (@Arr V [] []).

Definition ones1 (l : leaf) (k : nat) : arr V := Arr (l_shape l ++ [k]) (repeat one (prod (l_shape l ++ [k]))).
Definition ones_rows (n : nat) (l : leaf) (k : nat) : list (arr V) := repeat (ones1 l k) n.
Lemma ones_pile n l k : n <> 0 -> ones V one n l k = pile V (ones_rows n l k).
Proof.
  intros Hn. unfold ones, pile, ones_rows. rewrite repeat_length. destruct n as [|n]; [congruence|]. cbn [repeat ones1 shape].
  f_equal. change (ones1 l k :: repeat (ones1 l k) n) with (repeat (ones1 l k) (S n)). rewrite map_repeat'.
  cbn [prod fold_right]. fold (prod (l_shape l ++ [k])).
  rewrite (concat_repeat _ (S n) (prod (l_shape l ++ [k]))) with (x := one); [reflexivity|unfold ones1; cbn; apply repeat_length|].
  intros y Hy. unfold ones1 in Hy. cbn in Hy. apply repeat_spec in Hy. exact Hy.
Qed.
Lemma nth_repeat_lt {A} (x d : A) n i : i < n -> nth i (repeat x n) d = x.
Proof. revert i. induction n as [|n IH]; intros i Hi; [lia|]. destruct i; [reflexivity|]. cbn. apply IH. lia. Qed.
Lemma ones_expand n i l k : i < n -> ones V one 1 l k = expand (nth i (ones_rows n l k) A0).
Proof.
  intros Hi. unfold ones_rows. rewrite nth_repeat_lt by exact Hi. unfold ones, expand, ones1. cbn. rewrite Nat.add_0_r. reflexivity.
Qed.
Lemma ones_rows_rows n l k : rows V n (ones_rows n l k).
Proof.
  split; [apply repeat_length|]. exists (l_shape l ++ [k]). intros x Hx. apply repeat_spec in Hx. subst x. split; [reflexivity|].
  unfold wf, ones1. cbn. apply repeat_length.
Qed.

(** The inputs of all instances *)
Definition inputs_rows (n : nat) (t : tree (list (arr V))) : res (tree (list (arr V)) * list (list string * list (arr V))) :=
  do mt <- take_masks masking (ones_rows n) (items actions_spec) t;
  do s <- rename_single states_spec (snd mt);
  do s' <- to_tensors conv_rows states_spec s;
  do ms <- masks_to_tensors conv_rows (items actions_spec) (fst mt);
  Ok (s', ms).

Definition pmap {A B} (f : A -> B) (ms : list (list string * A)) : list (list string * B) := map (fun pm => (fst pm, f (snd pm))) ms.

Lemma is_ok_rmap {A B} (f : A -> B) x : is_ok (rmap f x) <-> is_ok x.
Proof. unfold is_ok. destruct x; cbn; split; intros [y H]; try discriminate; eauto. Qed.
Lemma rmap_ok_inv {A B} (f : A -> B) x y : rmap f x = Ok y -> exists a, x = Ok a /\ y = f a.
Proof. destruct x; cbn; [intros H; apply ok_inj in H; eauto|discriminate]. Qed.

(** inputs for a map [f] of the rows *)
Lemma model_inputs_map (f : list (arr V) -> arr V) n m t :
  (forall l k, ones V one m l k = f (ones_rows n l k)) ->
  model_inputs m (tmap f t) =
  (do mt <- take_masks masking (ones_rows n) (items actions_spec) t;
   do s <- rename_single states_spec (snd mt);
   do s' <- to_tensors (fun l a => to_tensor l (f a)) states_spec s;
   do ms <- masks_to_tensors (fun l a => to_tensor l (f a)) (items actions_spec) (fst mt);
   Ok (s', ms)).
Proof.
  intros Hd. unfold InpModel.model_inputs. rewrite (take_masks_tmap f masking (ones_rows n) (ones V one m) Hd).
  rewrite rmap_bind. destruct (take_masks _ _ _ t) as [[ms s]|]; [|reflexivity]. cbn [bind fst snd].
  rewrite rename_tmap, rmap_bind. destruct (rename_single _ s); [|reflexivity]. cbn [bind].
  rewrite to_tensors_tmap. destruct (to_tensors _ _ a); [|reflexivity]. cbn [bind]. rewrite masks_tmap. reflexivity.
Qed.

Section Fixed.
Variable n : nat.
Hypothesis Hn : n <> 0.
Variable t : tree (list (arr V)).
Hypothesis Ht : even V n t.

Lemma inputs_leaves ms s s' : take_masks masking (ones_rows n) (items actions_spec) t = Ok (ms, s) -> rename_single states_spec s = Ok s' ->
  Forall (rows V n) (leaves s') /\ (forall p m, In (p, Some m) ms -> Forall (rows V n) (leaves m)).
Proof.
  intros H1 H2. destruct (take_masks_leaves (rows V n) masking (ones_rows n) (ones_rows_rows n) _ _ _ _ Ht H1) as [F1 F2].
  split; [|exact F2]. rewrite Forall_forall in *. intros a Ha. apply F1. eapply rename_leaves; eauto.
Qed.

Lemma inputs_ok S M : inputs_rows n t = Ok (S, M) ->
  like states_spec S /\ even V n S /\ Forall (fun pm => rows V n (snd pm)) M /\
  model_inputs n (piled V t) = Ok (piled V S, pmap (pile V) M) /\
  forall i, i < n -> model_inputs 1 (alone V i t) = Ok (alone V i S, pmap (fun xs => pile V [nth i xs A0]) M).
Proof.
  intros H. unfold inputs_rows in H. apply bind_ok in H. destruct H as [[ms s] [Hm H]]. cbn [fst snd] in H.
  apply bind_ok in H. destruct H as [s1 [Hs1 H]]. apply bind_ok in H. destruct H as [s2 [Hs2 H]]. apply bind_ok in H. destruct H as [m2 [Hm2 H]].
  apply ok_inj in H. injection H as <- <-.
  destruct (inputs_leaves ms s s1 Hm Hs1) as [F1 F2]. rewrite Forall_forall in F1.
  assert (F2' : forall p m a, In (p, Some m) ms -> In a (leaves m) -> rows V n a).
  { intros p m a Hp Ha. specialize (F2 p m Hp). rewrite Forall_forall in F2. apply F2; exact Ha. }
  split; [eapply to_tensors_like; exact Hs2|]. split; [|split; [|split]].
  - unfold even. eapply (to_tensors_leaves conv_rows (rows V n)); [|exact Hs2]. intros l a b Ha Hb.
    destruct (conv_rows_pile V conv n l a b Hn (F1 a Ha) Hb) as [_ [H _]]. exact H.
  - eapply (masks_leaves conv_rows (rows V n)); [|exact Hm2]. intros l p m a b Hp Ha Hb.
    destruct (conv_rows_pile V conv n l a b Hn (F2' p m a Hp Ha) Hb) as [_ [H _]]. exact H.
  - rewrite piled_tmap. rewrite (model_inputs_map (pile V) n n t) by (intros l k; apply ones_pile; exact Hn).
    rewrite Hm. cbn [bind fst snd]. rewrite Hs1. cbn [bind].
    rewrite (to_tensors_mono conv_rows (fun l a => to_tensor l (pile V a)) (pile V) states_spec s1 s2); [|intros l a b Ha Hb; apply (conv_rows_pile V conv n l a b Hn (F1 a Ha) Hb)|exact Hs2].
    cbn [bind]. rewrite (masks_mono conv_rows (fun l a => to_tensor l (pile V a)) (pile V) (items actions_spec) ms m2); [|intros l p m a b Hp Ha Hb; apply (conv_rows_pile V conv n l a b Hn (F2' p m a Hp Ha) Hb)|exact Hm2].
    rewrite piled_tmap. reflexivity.
  - intros i Hi. rewrite alone_tmap. rewrite (model_inputs_map (fun xs => expand (nth i xs A0)) n 1 t) by (intros l k; apply ones_expand; exact Hi).
    rewrite Hm. cbn [bind fst snd]. rewrite Hs1. cbn [bind].
    rewrite (to_tensors_mono conv_rows _ (fun xs => expand (nth i xs A0)) states_spec s1 s2); [| |exact Hs2].
    2:{ intros l a b Ha Hb. destruct (conv_rows_pile V conv n l a b Hn (F1 a Ha) Hb) as [_ [_ H]]. rewrite to_tensor_expand, (H i Hi). reflexivity. }
    cbn [bind]. rewrite (masks_mono conv_rows _ (fun xs => expand (nth i xs A0)) (items actions_spec) ms m2); [| |exact Hm2].
    2:{ intros l p m a b Hp Ha Hb. destruct (conv_rows_pile V conv n l a b Hn (F2' p m a Hp Ha) Hb) as [_ [_ H]]. rewrite to_tensor_expand, (H i Hi). reflexivity. }
    cbn [bind]. rewrite alone_tmap. f_equal. f_equal. apply map_ext. intros pm. rewrite expand_pile. reflexivity.
Qed.

Lemma inputs_batch : is_ok (model_inputs n (piled V t)) -> is_ok (inputs_rows n t).
Proof.
  rewrite piled_tmap. rewrite (model_inputs_map (pile V) n n t) by (intros l k; apply ones_pile; exact Hn).
  intros H. unfold inputs_rows. apply is_ok_bind in H. destruct H as [[ms s] [Hm H]]. cbn [fst snd] in H.
  rewrite Hm. cbn [bind fst snd]. apply is_ok_bind in H. destruct H as [s1 [Hs1 H]]. rewrite Hs1. cbn [bind].
  apply is_ok_bind in H. destruct H as [s2 [Hs2 H]]. apply is_ok_bind in H. destruct H as [m2 [Hm2 _]].
  destruct (inputs_leaves ms s s1 Hm Hs1) as [F1 F2]. rewrite Forall_forall in F1.
  assert (F2' : forall p m a, In (p, Some m) ms -> In a (leaves m) -> rows V n a).
  { intros p m a Hp Ha. specialize (F2 p m Hp). rewrite Forall_forall in F2. apply F2; exact Ha. }
  apply is_ok_bind. destruct (to_tensors_all 1 (fun _ l a => to_tensor l (pile V a)) conv_rows ltac:(lia) states_spec s1) as [x Hx].
  - intros l a Ha Hb. apply (conv_rows_ok V conv n l a Hn (F1 a Ha)). apply (Hb 0). lia.
  - intros _ _. exists s2. exact Hs2.
  - exists x. split; [exact Hx|]. apply is_ok_bind.
    destruct (masks_all 1 (fun _ l a => to_tensor l (pile V a)) conv_rows ltac:(lia) (items actions_spec) ms) as [y Hy].
    + intros l p m a Hp Ha Hb. apply (conv_rows_ok V conv n l a Hn (F2' p m a Hp Ha)). apply (Hb 0). lia.
    + intros _ _. exists m2. exact Hm2.
    + exists y. split; [exact Hy|]. eexists; reflexivity.
Qed.

Lemma conv_rows_each l xs : rows V n xs -> (forall i, i < n -> is_ok (to_tensor l (expand (nth i xs A0)))) -> is_ok (conv_rows l xs).
Proof.
  intros [HL _] H. apply map_res_is_ok. intros x Hx. apply (In_nth _ _ A0) in Hx. destruct Hx as [i [Hi <-]].
  rewrite HL in Hi. specialize (H i Hi). rewrite to_tensor_expand in H. apply is_ok_rmap in H. exact H.
Qed.

Lemma inputs_each : (forall i, i < n -> is_ok (model_inputs 1 (alone V i t))) -> is_ok (inputs_rows n t).
Proof.
  intros H0.
  assert (H : forall i, i < n -> is_ok (
   do mt <- take_masks masking (ones_rows n) (items actions_spec) t;
   do s <- rename_single states_spec (snd mt);
   do s' <- to_tensors (fun l a => to_tensor l (expand (nth i a A0))) states_spec s;
   do ms <- masks_to_tensors (fun l a => to_tensor l (expand (nth i a A0))) (items actions_spec) (fst mt);
   Ok (s', ms))).
  { intros i Hi. specialize (H0 i Hi). rewrite alone_tmap in H0. rewrite (model_inputs_map (fun xs => expand (nth i xs A0)) n 1 t) in H0 by (intros l k; apply ones_expand; exact Hi). exact H0. }
  clear H0. unfold inputs_rows. pose proof (H 0 ltac:(lia)) as H1. apply is_ok_bind in H1. destruct H1 as [[ms s] [Hm H1]]. cbn [fst snd] in H1.
  rewrite Hm in *. cbn [bind fst snd] in *. apply is_ok_bind in H1. destruct H1 as [s1 [Hs1 _]].
  destruct (inputs_leaves ms s s1 Hm Hs1) as [F1 F2]. rewrite Forall_forall in F1.
  assert (F2' : forall p m a, In (p, Some m) ms -> In a (leaves m) -> rows V n a).
  { intros p m a Hp Ha. specialize (F2 p m Hp). rewrite Forall_forall in F2. apply F2; exact Ha. }
  rewrite Hs1 in *. cbn [bind] in *. apply is_ok_bind.
  destruct (to_tensors_all n (fun i l a => to_tensor l (expand (nth i a A0))) conv_rows Hn states_spec s1) as [x Hx].
  - intros l a Ha Hb. apply conv_rows_each; [apply F1; exact Ha|exact Hb].
  - intros i Hi. specialize (H i Hi). apply is_ok_bind in H. destruct H as [b [Hb _]]. exists b; exact Hb.
  - exists x. split; [exact Hx|]. apply is_ok_bind.
    destruct (masks_all n (fun i l a => to_tensor l (expand (nth i a A0))) conv_rows Hn (items actions_spec) ms) as [y Hy].
    + intros l p m a Hp Ha Hb. apply conv_rows_each; [eapply F2'; eauto|exact Hb].
    + intros i Hi. specialize (H i Hi). apply is_ok_bind in H. destruct H as [b [_ H]]. apply is_ok_bind in H. destruct H as [c [Hc _]]. exists c; exact Hc.
    + exists y. split; [exact Hy|]. eexists; reflexivity.
Qed.

(** Internals *)
Lemma internals_ok J : to_tensors_rec conv_rows internals_spec t = Ok J ->
  even V n J /\ to_tensors_rec to_tensor internals_spec (piled V t) = Ok (piled V J) /\
  forall i, i < n -> to_tensors_rec to_tensor internals_spec (alone V i t) = Ok (alone V i J).
Proof.
  intros H. unfold even in *. rewrite Forall_forall in Ht. split; [|split].
  - eapply (to_tensors_rec_leaves conv_rows (rows V n)); [|exact H]. intros l a b Ha Hb.
    destruct (conv_rows_pile V conv n l a b Hn (Ht a Ha) Hb) as [_ [H' _]]. exact H'.
  - rewrite !piled_tmap, to_tensors_rec_tmap. apply (to_tensors_rec_mono conv_rows); [|exact H].
    intros l a b Ha Hb. apply (conv_rows_pile V conv n l a b Hn (Ht a Ha) Hb).
  - intros i Hi. rewrite !alone_tmap, to_tensors_rec_tmap. apply (to_tensors_rec_mono conv_rows); [|exact H].
    intros l a b Ha Hb. destruct (conv_rows_pile V conv n l a b Hn (Ht a Ha) Hb) as [_ [_ H']]. rewrite to_tensor_expand, (H' i Hi). reflexivity.
Qed.
Lemma internals_batch : is_ok (to_tensors_rec to_tensor internals_spec (piled V t)) -> is_ok (to_tensors_rec conv_rows internals_spec t).
Proof.
  unfold even in *. rewrite Forall_forall in Ht. rewrite piled_tmap, to_tensors_rec_tmap. intros H.
  apply (to_tensors_rec_all 1 (fun _ l a => to_tensor l (pile V a)) conv_rows ltac:(lia)); [|intros _ _; exact H].
  intros l a Ha Hb. apply (conv_rows_ok V conv n l a Hn (Ht a Ha)). apply (Hb 0). lia.
Qed.
Lemma internals_each : (forall i, i < n -> is_ok (to_tensors_rec to_tensor internals_spec (alone V i t))) -> is_ok (to_tensors_rec conv_rows internals_spec t).
Proof.
  unfold even in *. rewrite Forall_forall in Ht. intros H.
  apply (to_tensors_rec_all n (fun i l a => to_tensor l (expand (nth i a A0))) conv_rows Hn).
  - intros l a Ha Hb. apply conv_rows_each; [apply Ht; exact Ha|exact Hb].
  - intros i Hi. specialize (H i Hi). rewrite alone_tmap, to_tensors_rec_tmap in H. exact H.
Qed.
End Fixed.
End Act.
