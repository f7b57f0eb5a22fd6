(** Lemmas about pretrain: the arguments of experience and the iterations. *)

From Coq Require Import String List ZArith Bool Lia Permutation.
From Verif Require Import Base InpModel InpSpec InpProofs InpActProofs InpRowProofs InpOutProofs InpBatchProofs InpMaskProofs ExpModel ExpSpec ExpProofs ExpRunProofs ExpFedProofs ExpCutProofs PtrSpec PtrProofs.
Import ListNotations.
Open Scope string_scope.
Open Scope list_scope.
Open Scope nat_scope.

Section Layout.
Variable V : Type.
Variable initial : tree (arr V).
Notation pile := (pile V).
Notation trace_ok := (trace_ok V).

Lemma dget_some {A} : forall (d : list (string * A)) k x, dget k d = Some x -> In (k, x) d.
Proof.
  induction d as [|[k' y] d IH]; intros k x H; [discriminate|]. cbn [dget] in H. destruct (String.eqb_spec k k') as [->|]; [injection H as ->; left; reflexivity|]. right. apply IH. exact H.
Qed.
Lemma scalars_rows (vs : list V) n : length vs = n -> rows V n (scalars V vs).
Proof.
  intros H. split; [unfold scalars; rewrite map_length; exact H|]. exists []. intros x Hx. unfold scalars in Hx. apply in_map_iff in Hx. destruct Hx as [v [<- _]]. split; reflexivity.
Qed.
Lemma pile_scalars (vs : list V) : pile (scalars V vs) = vector V vs.
Proof.
  unfold InpSpec.pile, vector, scalars. rewrite map_length. f_equal; [destruct vs; reflexivity|]. rewrite map_map. cbn [data]. induction vs as [|v vs IH]; [reflexivity|]. cbn. rewrite IH. reflexivity.
Qed.

Lemma NoDup_both {A} : forall a b : list A, NoDup (a ++ b) -> NoDup a /\ NoDup b.
Proof.
  induction a as [|x a IH]; intros b H; [split; [constructor|exact H]|]. inversion H as [|? ? N1 N2]; subst. apply IH in N2. destruct N2 as [Na Nb]. split; [|exact Nb].
  constructor; [|exact Na]. intros X. apply N1. apply in_or_app. left. exact X.
Qed.
Lemma recording_table n x d : trace_ok n x -> recording V initial n x d -> table V n (Dict d).
Proof.
  intros (T1 & T2 & T3 & _ & L1 & L2) R. constructor; [apply (names_differ _ _ _ _ _ R)|]. rewrite Forall_forall. intros [k t] Hin. cbn [snd].
  pose proof (dget_in d k t (names_differ _ _ _ _ _ R) Hin) as E.
  assert (HK : In k ["states"; "actions"; "terminal"; "reward"; "internals"; "auxiliaries"]).
  { apply (names_known _ _ _ _ _ R). apply in_map_iff. exists (k, t). split; [reflexivity|exact Hin]. }
  assert (HS : forall s masks, t_states V x = Dict (s ++ map (fun m => ((fst m ++ "_mask")%string, Leaf (snd m))) masks) ->
    table V n (Dict s) /\ table V n (Dict (map (fun m => (fst m, Dict [("mask", Leaf (snd m))])) masks))).
  { intros s masks ES. rewrite ES in T1. inversion T1 as [|? Hnd HF]; subst. rewrite map_app in Hnd. rewrite Forall_app in HF. destruct HF as [HF1 HF2]. split.
    - constructor; [|exact HF1]. apply NoDup_both in Hnd. apply Hnd.
    - constructor.
      + rewrite map_map. cbn [fst]. apply NoDup_both in Hnd. apply proj2 in Hnd. rewrite map_map in Hnd. cbn [fst] in Hnd. rewrite <- (map_map fst (fun m => (m ++ "_mask")%string)) in Hnd. apply NoDup_map_inv in Hnd. exact Hnd.
      + rewrite Forall_map in *. cbn [snd] in *. eapply Forall_impl; [|exact HF2]. intros m Hm. cbn beta in Hm. constructor; [cbn; constructor; [intros []|constructor]|]. constructor; [exact Hm|constructor]. }
  cbn in HK. destruct HK as [<-|[<-|[<-|[<-|[<-|[<-|[]]]]]]].
  - destruct (has_states _ _ _ _ _ R) as [[_ E']|(s & masks & _ & E' & ES)]; rewrite E' in E; injection E as <-; [exact T1|apply (HS _ _ ES)].
  - rewrite (has_actions _ _ _ _ _ R) in E. injection E as <-. exact T2.
  - rewrite (has_terminal _ _ _ _ _ R) in E. injection E as <-. constructor. apply scalars_rows. exact L1.
  - rewrite (has_reward _ _ _ _ _ R) in E. injection E as <-. constructor. apply scalars_rows. exact L2.
  - destruct (has_internals _ _ _ _ _ R) as [E'|[E' _]]; rewrite E' in E; [|discriminate]. injection E as <-. exact T3.
  - destruct (has_states _ _ _ _ _ R) as [[E' _]|(s & masks & E' & _ & ES)]; rewrite E' in E; [discriminate|]. injection E as <-. apply (HS _ _ ES).
Qed.

(** The parts of a trace *)
Definition select (ps : list (nat * nat)) (x : trace V) : trace V :=
  mkTrace V (tmap (gather ps) (t_states V x)) (tmap (gather ps) (t_actions V x)) (tmap (gather ps) (t_internals V x)) (gather ps (t_terminal V x)) (gather ps (t_reward V x)).
Lemma select_ok n ps x : within n ps -> trace_ok n x -> trace_ok (total ps) (select ps x).
Proof.
  intros H (T1 & T2 & T3 & [e E] & L1 & L2). unfold trace_ok, select. cbn. repeat split; try (apply (table_gather V n); assumption); try (apply (gather_length n); assumption).
  rewrite E. eexists. reflexivity.
Qed.

(** masks *)
Lemma mask_of_two k : mask_of [k; "mask"] = Some [(k ++ "_mask")%string].
Proof. reflexivity. Qed.
Lemma dget_none {A} : forall (d : list (string * A)) k, ~ In k (map fst d) -> dget k d = None.
Proof.
  induction d as [|[k' y] d IH]; intros k H; [reflexivity|]. cbn [dget]. destruct (String.eqb_spec k k') as [->|]; [destruct H; left; reflexivity|]. apply IH. intros X. apply H. right. exact X.
Qed.
Lemma move_all (masks : list (string * arr V)) : forall s, NoDup (map fst (s ++ map (fun m => ((fst m ++ "_mask")%string, Leaf (snd m))) masks)) ->
  move_masks V (map (fun m => ([fst m; "mask"], snd m)) masks) (Dict s) = Ok (Dict (s ++ map (fun m => ((fst m ++ "_mask")%string, Leaf (snd m))) masks)).
Proof.
  induction masks as [|[k a] masks IH]; intros s H; [cbn; rewrite app_nil_r; reflexivity|]. cbn [map fst snd move_masks]. rewrite mask_of_two. cbn [map fst snd] in H. cbn [insert].
  rewrite dget_none.
  - cbn [bind]. rewrite IH; rewrite <- app_assoc; [reflexivity|exact H].
  - rewrite map_app in H. apply NoDup_remove_2 in H. intros X. apply H. apply in_or_app. left. exact X.
Qed.
Lemma aux_items (masks : list (string * arr V)) : items (Dict (map (fun m => (fst m, Dict [("mask", Leaf (snd m))])) masks)) = map (fun m => ([fst m; "mask"], snd m)) masks.
Proof. cbn [items]. rewrite map_map. induction masks as [|m masks IH]; [reflexivity|]. cbn [map concat fst snd items app]. f_equal. exact IH. Qed.
Lemma dget_ddel {A} : forall (d : list (string * A)) k k', k <> k' -> dget k (ddel k' d) = dget k d.
Proof.
  induction d as [|[j y] d IH]; intros k k' H; [reflexivity|]. cbn [ddel]. destruct (String.eqb_spec k' j) as [->|].
  - cbn [dget]. apply String.eqb_neq in H. rewrite H. reflexivity.
  - cbn [dget]. rewrite IH by exact H. reflexivity.
Qed.
Lemma in_ddel {A} : forall (d : list (string * A)) k k', NoDup (map fst d) -> In k (map fst (ddel k' d)) -> In k (map fst d) /\ k <> k'.
Proof.
  induction d as [|[j y] d IH]; intros k k' Hn H; [contradiction|]. inversion Hn as [|? ? N1 N2]; subst. cbn [ddel] in H. destruct (String.eqb_spec k' j) as [->|NE].
  - split; [right; exact H|]. intros ->. contradiction.
  - cbn [map fst] in H. destruct H as [<-|H]; [split; [left; reflexivity|congruence]|]. apply IH in H; [|exact N2]. split; [right|]; apply H.
Qed.
Lemma dget_replace {A} k (y : A) : forall d x, dget k d = Some x -> forall k', dget k' (map (fun kt => if String.eqb k (fst kt) then (fst kt, y) else kt) d) = if String.eqb k k' then Some y else dget k' d.
Proof.
  assert (G : forall d k', String.eqb k k' = false -> dget k' (map (fun kt => if String.eqb k (fst kt) then (fst kt, y) else kt) d) = dget k' d).
  { induction d as [|[j z] d IH]; intros k' H; [reflexivity|]. cbn [map fst]. destruct (String.eqb_spec k j) as [->|]; cbn [dget].
    - rewrite String.eqb_sym, H. apply IH. exact H.
    - rewrite IH by exact H. reflexivity. }
  intros d x Hx k'. destruct (String.eqb k k') eqn:E; [|apply G; exact E]. apply String.eqb_eq in E. subst k'. revert Hx.
  induction d as [|[j z] d IH]; intros Hx; [discriminate|]. cbn [map fst]. destruct (String.eqb_spec k j) as [->|NE]; cbn [dget].
  - rewrite String.eqb_refl. reflexivity.
  - cbn [dget] in Hx. apply String.eqb_neq in NE. rewrite NE in Hx |- *. apply IH. exact Hx.
Qed.

(** What experience is given *)
Definition args_of (D : list (string * tree (arr V))) (y : trace V) (i : option (tree (arr V))) : Prop :=
  (forall k, In k (map fst D) -> In k (parameters)) /\ dget "states" D = Some (piled V (t_states V y)) /\ dget "actions" D = Some (piled V (t_actions V y)) /\
  dget "terminal" D = Some (Leaf (vector V (t_terminal V y))) /\ dget "reward" D = Some (Leaf (vector V (t_reward V y))) /\ dget "internals" D = i.
Lemma with_masks_ok n x d ps : within n ps -> trace_ok n x -> recording V initial n x d ->
  exists D, with_masks V (piled V (tmap (gather ps) (Dict d))) = Ok D /\ args_of D (select ps x) (option_map (fun t => piled V (tmap (gather ps) t)) (dget "internals" d)).
Proof.
  intros HW Hx R. pose proof (select_ok _ _ _ HW Hx) as (T1 & _). cbn [tmap piled]. rewrite map_map. cbn [fst snd]. set (D := map (fun z => (fst z, piled V (tmap (gather ps) (snd z)))) d).
  assert (HG : forall k, dget k D = option_map (fun t => piled V (tmap (gather ps) t)) (dget k d)) by (intros k; apply (dget_map (fun t => piled V (tmap (gather ps) t)))).
  assert (HN : map fst D = map fst d) by (unfold D; rewrite map_map; reflexivity).
  pose proof (names_known _ _ _ _ _ R) as HK. pose proof (names_differ _ _ _ _ _ R) as ND.
  assert (HI : forall k, k <> "auxiliaries" -> In k ["states"; "actions"; "terminal"; "reward"; "internals"; "auxiliaries"] -> In k parameters) by (intros k N X; cbn in *; intuition congruence).
  assert (E2 : dget "actions" D = Some (piled V (t_actions V (select ps x)))) by (rewrite HG, (has_actions _ _ _ _ _ R); reflexivity).
  assert (E3 : dget "terminal" D = Some (Leaf (vector V (t_terminal V (select ps x))))).
  { rewrite HG, (has_terminal _ _ _ _ _ R). cbn. unfold scalars. rewrite gather_map. fold (scalars V (gather ps (t_terminal V x))). rewrite pile_scalars. reflexivity. }
  assert (E4 : dget "reward" D = Some (Leaf (vector V (t_reward V (select ps x))))).
  { rewrite HG, (has_reward _ _ _ _ _ R). cbn. unfold scalars. rewrite gather_map. fold (scalars V (gather ps (t_reward V x))). rewrite pile_scalars. reflexivity. }
  unfold with_masks. rewrite HG. destruct (has_states _ _ _ _ _ R) as [[EA ES]|(s & masks & EA & ES & ET)].
  - rewrite EA. cbn [option_map]. exists D. split; [reflexivity|]. split; [|split; [rewrite HG, ES; reflexivity|repeat split; try assumption; apply HG]].
    intros k Hk. rewrite HN in Hk. apply HI; [|apply HK; exact Hk]. intros ->. apply in_map_iff in Hk. destruct Hk as [[k t] [E Hk]]. cbn in E. subst k.
    rewrite (dget_in d _ _ ND Hk) in EA. discriminate.
  - rewrite EA. cbn [option_map tmap piled]. rewrite !map_map. cbn [fst snd tmap piled map].
    set (ms := map (fun m : string * list (arr V) => (fst m, pile (gather ps (snd m)))) masks).
    assert (EM : map (fun m : string * list (arr V) => (fst m, Dict [("mask", Leaf (pile (gather ps (snd m))))])) masks = map (fun m => (fst m, Dict [("mask", Leaf (snd m))])) ms) by (unfold ms; rewrite map_map; reflexivity).
    rewrite EM, aux_items.
    assert (Hne : ms <> []).
    { pose proof (no_empty_part _ _ _ _ _ R) as HE. rewrite Forall_forall in HE. specialize (HE _ (dget_some _ _ _ EA)). cbn [snd] in HE. inversion HE as [|? N _]; subst.
      unfold ms. destruct masks; [destruct N; reflexivity|discriminate]. }
    destruct (map (fun m => ([fst m; "mask"], snd m)) ms) as [|m0 mr] eqn:EL; [destruct ms; [congruence|discriminate]|]. rewrite <- EL. clear EL m0 mr.
    assert (EC : child "states" (Dict (ddel "auxiliaries" D)) = Ok (Dict (map (fun z => (fst z, piled V (tmap (gather ps) (snd z)))) s))).
    { unfold child. rewrite dget_ddel by discriminate. rewrite HG, ES. cbn. rewrite map_map. reflexivity. }
    rewrite EC. cbn [bind].
    assert (EQ : piled V (t_states V (select ps x)) = Dict (map (fun z => (fst z, piled V (tmap (gather ps) (snd z)))) s ++ map (fun m => ((fst m ++ "_mask")%string, Leaf (snd m))) ms)).
    { cbn [select t_states]. rewrite ET. cbn [tmap piled]. rewrite !map_app, !map_map. unfold ms. rewrite map_map. reflexivity. }
    rewrite move_all.
    + cbn [bind]. eexists. split; [reflexivity|]. assert (E1 : dget "states" (ddel "auxiliaries" D) = Some (piled V (tmap (gather ps) (Dict s)))) by (rewrite dget_ddel by discriminate; rewrite HG, ES; reflexivity).
      split; [|rewrite !(dget_replace "states" _ _ _ E1); cbn [String.eqb Ascii.eqb Bool.eqb]; rewrite !dget_ddel by discriminate; repeat split; try assumption; [rewrite EQ; reflexivity|apply HG]].
      intros k Hk. assert (Hk' : In k (map fst (ddel "auxiliaries" D))).
      { rewrite map_map in Hk. erewrite map_ext in Hk; [exact Hk|]. intros [j z]. cbn [fst]. destruct (String.eqb "states" j); reflexivity. }
      apply in_ddel in Hk'; [|rewrite HN; exact ND]. rewrite HN in Hk'. destruct Hk' as [Hk1 Hk2]. apply HI; [exact Hk2|apply HK; exact Hk1].
    + assert (T1' : table V (total ps) (t_states V (select ps x))) by exact T1.
      assert (DD : distinct (piled V (t_states V (select ps x)))) by (rewrite piled_tmap; apply distinct_tmap; eapply table_distinct; exact T1'). rewrite EQ in DD. inversion DD; subst. assumption.
Qed.
End Layout.
