(** Lemmas about pretrain. *)

From Coq Require Import String List ZArith Bool Lia Permutation.
From Verif Require Import Base InpModel InpSpec InpProofs InpActProofs InpRowProofs InpOutProofs InpBatchProofs InpMaskProofs ExpModel ExpSpec ExpProofs ExpRunProofs ExpFedProofs ExpCutProofs PtrSpec.
Import ListNotations.
Open Scope string_scope.
Open Scope list_scope.
Open Scope nat_scope.

(** Some parts one after the other *)
Definition gather {A} (ps : list (nat * nat)) (xs : list A) : list A := flat_map (fun ok => part (fst ok) (snd ok) xs) ps.
Definition total (ps : list (nat * nat)) : nat := fold_right (fun ok s => snd ok + s) 0 ps.
Definition within (n : nat) (ps : list (nat * nat)) : Prop := forall ok, In ok ps -> snd ok <> 0 /\ fst ok + snd ok <= n.

Lemma gather_length {A} n ps (xs : list A) : within n ps -> length xs = n -> length (gather ps xs) = total ps.
Proof.
  intros H HL. induction ps as [|ok ps IH]; [reflexivity|]. cbn [gather flat_map total fold_right]. rewrite app_length, part_length.
  - f_equal. apply IH. intros q Hq. apply H. right. exact Hq.
  - rewrite HL. apply H. left. reflexivity.
Qed.
Lemma gather_in {A} ps (xs : list A) x : In x (gather ps xs) -> In x xs.
Proof. unfold gather. intros H. apply in_flat_map in H. destruct H as [ok [_ H]]. eapply part_in. exact H. Qed.
Lemma gather_repeat {A} n ps (x : A) : within n ps -> gather ps (repeat x n) = repeat x (total ps).
Proof.
  intros H. induction ps as [|ok ps IH]; [reflexivity|]. cbn [gather flat_map total fold_right]. rewrite part_repeat by (apply H; left; reflexivity).
  rewrite repeat_app. f_equal. apply IH. intros q Hq. apply H. right. exact Hq.
Qed.
Lemma gather_map {A B} (f : A -> B) ps xs : gather ps (map f xs) = map f (gather ps xs).
Proof.
  induction ps as [|ok ps IH]; [reflexivity|]. cbn [gather flat_map]. rewrite map_app. f_equal; [|exact IH]. unfold part. rewrite skipn_map, firstn_map. reflexivity.
Qed.
Lemma within_cons n ok ps : within n (ok :: ps) -> within n ps.
Proof. intros H q Hq. apply H. right. exact Hq. Qed.

Section Pre.
Variable V : Type.
Notation pile := (pile V).

Lemma rows_gather n ps xs : within n ps -> rows V n xs -> rows V (total ps) (gather ps xs).
Proof.
  intros H [HL [sh Hs]]. split; [apply (gather_length n); assumption|]. exists sh. intros x Hx. apply Hs. eapply gather_in. exact Hx.
Qed.
Lemma table_gather n ps t : within n ps -> table V n t -> table V (total ps) (tmap (gather ps) t).
Proof.
  intros H. revert t. apply (table_ind' n).
  - intros xs Hx. constructor. eapply rows_gather; eauto.
  - intros d Hnd _ IH. cbn [tmap]. constructor; [rewrite map_map; exact Hnd|]. rewrite Forall_map. exact IH.
Qed.

Lemma pile_app xs ys : xs <> [] -> ys <> [] -> (exists sh, forall x, In x (xs ++ ys) -> shape x = sh) -> np_concat (pile xs) (pile ys) = Ok (pile (xs ++ ys)).
Proof.
  intros Hx Hy [sh Hs]. destruct xs as [|x xs]; [congruence|]. destruct ys as [|y ys]; [congruence|]. unfold np_concat, InpSpec.pile. cbn [shape data].
  assert (E : shape x = shape y) by (rewrite (Hs x), (Hs y); [reflexivity| |]; [apply in_or_app; right; left; reflexivity|left; reflexivity]).
  rewrite E, shape_eqb_refl.
  cbn [app]. rewrite E. f_equal. f_equal; [cbn [length]; rewrite app_length; reflexivity|]. 
  change (x :: xs ++ y :: ys) with ((x :: xs) ++ y :: ys). rewrite map_app, concat_app. reflexivity.
Qed.

Lemma concat_trees_dict (d : list (string * tree (arr V))) u :
  concat_trees V (Dict d) u = do e <- map_res (fun kt => do v <- child (fst kt) u; do y <- concat_trees V (snd kt) v; Ok (fst kt, y)) d; Ok (Dict e).
Proof.
  cbn [concat_trees]. f_equal. induction d as [|[k x] d IH]; [reflexivity|]. cbn [map_res fst snd]. rewrite IH. destruct (child k u) as [v|]; [|reflexivity]. cbn [bind].
  destruct (concat_trees V x v) as [y|]; reflexivity.
Qed.
Lemma dget_in {A} : forall (d : list (string * A)) k x, NoDup (map fst d) -> In (k, x) d -> dget k d = Some x.
Proof.
  induction d as [|[k' y] d IH]; intros k x Hnd Hin; [contradiction|]. inversion Hnd as [|? ? H1 H2]; subst. cbn [dget]. destruct Hin as [E|Hin].
  - injection E as -> ->. rewrite String.eqb_refl. reflexivity.
  - destruct (String.eqb_spec k k') as [->|]; [|apply IH; assumption]. destruct H1. apply in_map_iff. exists (k', x). split; [reflexivity|exact Hin].
Qed.
Lemma concat_piled (f g : list (arr V) -> list (arr V)) : forall t, distinct t ->
  (forall xs, In xs (leaves t) -> np_concat (pile (f xs)) (pile (g xs)) = Ok (pile (f xs ++ g xs))) ->
  concat_trees V (piled V (tmap f t)) (piled V (tmap g t)) = Ok (piled V (tmap (fun xs => f xs ++ g xs) t)).
Proof.
  induction t as [xs|d IH] using tree_rect'; intros Hd H.
  - cbn [tmap piled concat_trees value bind]. rewrite H by (left; reflexivity). reflexivity.
  - inversion Hd as [|? Hnd HF]; subst. cbn [tmap piled]. rewrite concat_trees_dict. rewrite !map_map. cbn [fst snd].
    assert (E : map_res (fun kt => do v <- child (fst kt) (Dict (map (fun x => (fst x, piled V (tmap g (snd x)))) d)); do y <- concat_trees V (snd kt) v; Ok (fst kt, y))
                  (map (fun x => (fst x, piled V (tmap f (snd x)))) d) = Ok (map (fun x => (fst x, piled V (tmap (fun xs => f xs ++ g xs) (snd x)))) d)).
    { rewrite <- (map_res_ok (fun x => (fst x, piled V (tmap (fun xs => f xs ++ g xs) (snd x)))) d).
      assert (G : forall l, incl l d -> map_res (fun kt => do v <- child (fst kt) (Dict (map (fun x => (fst x, piled V (tmap g (snd x)))) d)); do y <- concat_trees V (snd kt) v; Ok (fst kt, y))
                  (map (fun x => (fst x, piled V (tmap f (snd x)))) l) = map_res (fun x => Ok (fst x, piled V (tmap (fun xs => f xs ++ g xs) (snd x)))) l).
      { induction l as [|[k x] l IHl]; intros Hi; [reflexivity|]. cbn [map map_res fst snd]. rewrite IHl by (intros z Hz; apply Hi; right; exact Hz).
        assert (Hin : In (k, x) d) by (apply Hi; left; reflexivity). unfold child. rewrite (dget_map (fun x => piled V (tmap g x))), (dget_in d k x Hnd Hin). cbn [option_map bind].
        rewrite Forall_forall in IH, HF. pose proof (IH (k, x) Hin (HF (k, x) Hin)) as IHx. cbn [snd] in IHx. rewrite IHx; [reflexivity|]. intros xs Hxs. apply H. cbn [leaves]. apply in_concat. exists (leaves x).
        split; [|exact Hxs]. apply in_map_iff. exists (k, x). split; [reflexivity|exact Hin]. }
      apply G. apply incl_refl. }
    rewrite E. reflexivity.
Qed.

Lemma distinct_like_tmap {A B} (f : A -> B) t : like t (tmap f t).
Proof. apply like_tmap. reflexivity. Qed.

Lemma load_file d ok f : distinct (Dict d) -> inside no_empty (Dict d) -> holds V d ok f -> load V f = Ok (piled V (tmap (part (fst ok) (snd ok)) (Dict d))).
Proof.
  intros Hd Hi ->. unfold load. rewrite map_map. cbn [fst snd].
  assert (E : PDict (map (fun x => (fst x, PArr (pile (part (fst ok) (snd ok) (snd x))))) (entries (Dict d))) = batchv V (tmap (part (fst ok) (snd ok)) (Dict d))).
  { unfold batchv. rewrite entries_tmap, map_map. reflexivity. }
  rewrite E. apply array_dict_flat.
  - apply batchv_writes.
  - rewrite piled_tmap. apply distinct_tmap, distinct_tmap. exact Hd.
  - rewrite piled_tmap. eapply like_inside; [apply like_tmap, like_tmap; reflexivity|exact Hi].
Qed.

Lemma load_parts n d : table V n (Dict d) -> inside no_empty (Dict d) -> forall ps fs, Forall2 (holds V d) ps fs -> within n ps ->
  forall q, q <> [] -> within n q -> load_all V fs (Some (piled V (tmap (gather q) (Dict d)))) = Ok (Some (piled V (tmap (gather (q ++ ps)) (Dict d)))).
Proof.
  intros Ht Hi ps fs HF. induction HF as [|ok f ps fs Hf _ IH]; intros HW q Hq HWq; [rewrite app_nil_r; reflexivity|].
  assert (Hd : distinct (Dict d)) by (eapply table_distinct; exact Ht).
  cbn [load_all]. rewrite (load_file d ok f Hd Hi Hf). cbn [bind]. rewrite (concat_piled (gather q) (part (fst ok) (snd ok)) (Dict d) Hd).
  - cbn [bind]. assert (E : tmap (fun xs => gather q xs ++ part (fst ok) (snd ok) xs) (Dict d) = tmap (gather (q ++ [ok])) (Dict d)).
    { apply tmap_ext_leaves. intros xs _. unfold gather. rewrite flat_map_app. cbn [flat_map]. rewrite app_nil_r. reflexivity. }
    rewrite E, IH.
    + rewrite <- app_assoc. reflexivity.
    + eapply within_cons. exact HW.
    + destruct q; discriminate.
    + intros z Hz. apply in_app_or in Hz. destruct Hz as [Hz|[Hz|[]]]; [apply HWq; exact Hz|]. subst z. apply HW. left. reflexivity.
  - intros xs Hxs. destruct (table_leaves _ _ _ Ht Hxs) as [HL [sh Hs]]. apply pile_app.
    + destruct q as [|ok0 q]; [congruence|]. intros E. apply (f_equal (@length _)) in E. rewrite (gather_length n) in E by assumption. cbn in E.
      destruct (HWq ok0 (or_introl eq_refl)). lia.
    + intros E. apply (f_equal (@length _)) in E. destruct (HW ok (or_introl eq_refl)). rewrite part_length in E by lia. cbn in E. lia.
    + exists sh. intros x Hx. apply Hs. apply in_app_or in Hx. destruct Hx as [Hx|Hx]; [eapply gather_in|eapply part_in]; exact Hx.
Qed.
Lemma load_first n d ps fs : table V n (Dict d) -> inside no_empty (Dict d) -> Forall2 (holds V d) ps fs -> within n ps -> ps <> [] ->
  load_all V fs None = Ok (Some (piled V (tmap (gather ps) (Dict d)))).
Proof.
  intros Ht Hi HF HW Hn. destruct HF as [|ok f ps fs Hf HF]; [congruence|]. cbn [load_all]. rewrite (load_file d ok f (table_distinct V _ _ Ht) Hi Hf). cbn [bind].
  assert (E : tmap (part (fst ok) (snd ok)) (Dict d) = tmap (gather [ok]) (Dict d)).
  { apply tmap_ext_leaves. intros xs _. unfold gather. cbn [flat_map]. rewrite app_nil_r. reflexivity. }
  rewrite E. rewrite (load_parts n d Ht Hi ps fs HF); [reflexivity|eapply within_cons; exact HW|discriminate|].
  intros z [Hz|[]]. subst z. apply HW. left. reflexivity.
Qed.
End Pre.
