(** Inputs of act, continued: names of states given twice or not specified (C135), internals of a list
    of states (C137). *)

From Coq Require Import String List ZArith Bool Lia.
From Verif Require Import Base InpModel InpSpec InpProofs InpActProofs InpRowProofs InpOutProofs InpBatchProofs InpProps.
Import ListNotations.
Open Scope list_scope.
Open Scope nat_scope.

(** There is an entry (an array or a dictionary) of this name. *)
Fixpoint has {A} (p : list string) (d : list (string * tree A)) : Prop :=
  match p with
  | [] => False
  | [k] => dget k d <> None
  | k :: r => exists e, dget k d = Some (Dict e) /\ has r e
  end.
Lemma has_cons {A} k k' r (d : list (string * tree A)) : has (k :: k' :: r) d <-> exists e, dget k d = Some (Dict e) /\ has (k' :: r) e.
Proof. reflexivity. Qed.

Lemma dget_app {A} k (d e : list (string * A)) : dget k (d ++ e) = match dget k d with Some x => Some x | None => dget k e end.
Proof. induction d as [|[k' v] r IH]; [reflexivity|]. cbn. destruct (String.eqb k k'); [reflexivity|exact IH]. Qed.
Lemma dget_put {A} k k' (x : tree A) d : dget k' d <> None ->
  dget k (map (fun kt => if String.eqb k' (fst kt) then (k', x) else kt) d) = if String.eqb k k' then Some x else dget k d.
Proof.
  induction d as [|[k0 v] r IH]; [intro H; contradiction H; reflexivity|]. cbn [dget map fst]. destruct (String.eqb_spec k' k0) as [<-|N].
  - intros _. cbn [dget]. destruct (String.eqb_spec k k') as [<-|N]; [reflexivity|]. clear IH.
    induction r as [|[k1 v1] r IH]; [reflexivity|]. cbn [map fst]. destruct (String.eqb_spec k' k1) as [<-|N1]; cbn [dget].
    + destruct (String.eqb_spec k k'); [congruence|exact IH].
    + destruct (String.eqb k k1); [reflexivity|exact IH].
  - intro H. specialize (IH H). cbn [dget]. destruct (String.eqb_spec k k0) as [->|N0].
    + destruct (String.eqb_spec k0 k'); [congruence|reflexivity].
    + exact IH.
Qed.

(** An entry which is there stays there, and cannot be set again. *)
Lemma insert_has {A} : forall p (v : tree A) d d', insert p v d = Ok d' -> has p d' /\ (forall q, has q d -> has q d').
Proof.
  induction p as [|k [|k' r] IH]; intros v d d' H; [discriminate| |].
  - cbn in H. destruct (dget k d) eqn:E; [discriminate|]. injection H as <-. split.
    + cbn. rewrite dget_app, E. cbn. rewrite String.eqb_refl. discriminate.
    + intros [|q [|q' s]] Hq; [destruct Hq| |].
      * cbn in *. rewrite dget_app. destruct (dget q d); [discriminate|congruence].
      * rewrite has_cons in *. destruct Hq as (e & Hq & He). exists e. rewrite dget_app, Hq. auto.
  - rewrite insert_cons in H. destruct (dget k d) as [[a|e]|] eqn:E; [discriminate| |].
    + apply bind_ok in H. destruct H as (e' & H & X). apply ok_inj in X. subst d'. destruct (IH v e e' H) as [I1 I2]. split.
      * apply has_cons. exists e'. rewrite dget_put by congruence. rewrite String.eqb_refl. auto.
      * intros [|q [|q' s]] Hq; [destruct Hq| |].
        -- cbn in *. rewrite dget_put by congruence. destruct (String.eqb q k); [discriminate|exact Hq].
        -- rewrite has_cons in *. destruct Hq as (f & Hq & Hf). rewrite dget_put by congruence. destruct (String.eqb_spec q k) as [->|N].
           ++ assert (f = e) by congruence. subst f. exists e'. auto.
           ++ exists f. auto.
    + apply bind_ok in H. destruct H as (e' & H & X). apply ok_inj in X. subst d'. destruct (IH v [] e' H) as [I1 I2]. split.
      * apply has_cons. exists e'. rewrite dget_app, E. cbn [dget]. rewrite String.eqb_refl. auto.
      * intros [|q [|q' s]] Hq; [destruct Hq| |].
        -- cbn in *. rewrite dget_app. destruct (dget q d); [discriminate|congruence].
        -- rewrite has_cons in *. destruct Hq as (f & Hq & Hf). exists f. rewrite dget_app, Hq. auto.
Qed.
Lemma insert_sub {A} : forall p (e : list (string * tree A)) d d' q, insert p (Dict e) d = Ok d' -> has q e -> has (p ++ q) d'.
Proof.
  induction p as [|k [|k' r] IH]; intros e d d' q H Hq; [discriminate| |].
  - cbn in H. destruct (dget k d) eqn:E; [discriminate|]. injection H as <-. destruct q as [|q s]; [destruct Hq|]. cbn [app]. apply has_cons. exists e.
    rewrite dget_app, E. cbn [dget]. rewrite String.eqb_refl. auto.
  - rewrite insert_cons in H. change ((k :: k' :: r) ++ q) with (k :: (k' :: r ++ q)). apply has_cons. destruct (dget k d) as [[a|f]|] eqn:E; [discriminate| |];
    apply bind_ok in H; destruct H as (e' & H & X); apply ok_inj in X; subst d'; exists e'; split; [|exact (IH e _ e' q H Hq)| |exact (IH e _ e' q H Hq)].
    + rewrite dget_put by congruence. rewrite String.eqb_refl. reflexivity.
    + rewrite dget_app, E. cbn [dget]. rewrite String.eqb_refl. reflexivity.
Qed.
Lemma insert_again {A} : forall p (v : tree A) d, has p d -> exists e, insert p v d = Err e.
Proof.
  induction p as [|k [|k' r] IH]; intros v d H; [destruct H| |].
  - cbn in *. destruct (dget k d); [eexists; reflexivity|congruence].
  - rewrite insert_cons. apply has_cons in H. destruct H as (e & -> & H). destruct (IH v e H) as (x & ->). eexists; reflexivity.
Qed.
Lemma has_prefix {A} : forall p q (d : list (string * tree A)), p <> [] -> has (p ++ q) d -> has p d.
Proof.
  induction p as [|k [|k' r] IH]; intros q d Hp H; [congruence| |].
  - destruct q as [|q s]; [exact H|]. cbn [app] in H. apply has_cons in H. destruct H as (e & H & _). cbn. congruence.
  - change ((k :: k' :: r) ++ q) with (k :: k' :: (r ++ q)) in H. apply has_cons in H. destruct H as (e & H & He). apply has_cons. exists e. split; [exact H|]. apply (IH q); [discriminate|exact He].
Qed.
Lemma insert_all_has {A} : forall xs d d', @insert_all A xs d = Ok d' -> (forall q, has q d -> has q d') /\ (forall p, In p (map fst xs) -> has p d').
Proof.
  induction xs as [|[p v] r IH]; intros d d' H; cbn in H.
  - injection H as <-. split; [auto|intros p []].
  - apply bind_ok in H. destruct H as (d1 & H1 & H2). destruct (insert_has _ _ _ _ H1) as [I1 I2]. destruct (IH _ _ H2) as [J1 J2]. split.
    + auto.
    + intros q [<-|Hq]; [apply J1; exact I1|apply J2; exact Hq].
Qed.
(** Two entries cannot both be set if one is within the other. *)
Lemma insert_all_twice {A} xs d p (e : list (string * tree A)) q v : p <> [] -> has q e -> In (p, Dict e) xs -> In (p ++ q, v) xs -> exists x, insert_all xs d = Err x.
Proof.
  intros Hp Hq H1 H2. destruct (insert_all xs d) as [d'|x] eqn:E; [|eauto]. exfalso.
  revert d E H1 H2. induction xs as [|[r w] xs IH]; intros d E H1 H2; [destruct H1|]. cbn in E. apply bind_ok in E. destruct E as (d1 & E1 & E2).
  assert (Absurd : forall s u d0, has s d0 -> In (s, u) xs -> @insert_all A xs d0 = Ok d' -> False).
  { clear. intros s u. induction xs as [|[r w] xs IH]; intros d0 Hs Hin E; [destruct Hin|]. cbn in E. apply bind_ok in E. destruct E as (d1 & E1 & E2). destruct Hin as [Hin|Hin].
    - injection Hin as -> ->. destruct (insert_again s u d0 Hs) as (x & X). congruence.
    - apply (IH d1); auto. apply (insert_has _ _ _ _ E1). exact Hs. }
  destruct H1 as [H1|H1], H2 as [H2|H2].
  - assert (X : p ++ q = p) by congruence. assert (q = []). { destruct q; [reflexivity|]. apply (f_equal (@length string)) in X. rewrite app_length in X. cbn in X. lia. } subst q. destruct Hq.
  - injection H1 as -> ->. eapply Absurd; [|exact H2|exact E2]. exact (insert_sub _ _ _ _ _ E1 Hq).
  - injection H2 as -> ->. eapply Absurd; [|exact H1|exact E2]. apply (has_prefix p q); [exact Hp|]. exact (proj1 (insert_has _ _ _ _ E1)).
  - exact (IH d1 E2 H1 H2).
Qed.

Section Names.
Variable V : Type.
Variable conv : leaf -> V -> option V.
Variable one : V.
Variable masking : bool.
Variables states_spec actions_spec internals_spec : tree leaf.
Variable policy : tree (arr V) -> tree (arr V) -> list (list string * arr V) -> bool -> tree (arr V) * tree (arr V).
Notation act := (act_independent V conv one masking states_spec actions_spec internals_spec policy).

Lemma array_tree_inv (d : list (list string * pv V)) t : array_tree (PDict d) = Ok t ->
  exists xs e, t = Dict e /\ Forall2 (fun kp kt => fst kp = fst kt /\ array_tree (snd kp) = Ok (snd kt)) d xs /\ insert_all xs [] = Ok e.
Proof.
  cbn [array_tree]. intro H. apply bind_ok in H. destruct H as (xs & H1 & H). apply bind_ok in H. destruct H as (e & H2 & H). apply ok_inj in H. subst t.
  exists xs, e. split; [reflexivity|]. split; [|exact H2]. clear H2. revert xs H1. induction d as [|[k x] r IH]; intros xs H1.
  - apply ok_inj in H1. subst. constructor.
  - apply bind_ok in H1. destruct H1 as (y & Y & H1). apply bind_ok in H1. destruct H1 as (ys & Ys & H1). apply ok_inj in H1. subst xs. constructor; [cbn; auto|apply IH; exact Ys].
Qed.
Lemma array_tree_twice (ps : list (list string * pv V)) p d q x y : p <> [] -> In (p, PDict d) ps -> In (q, x) d -> In (p ++ q, y) ps ->
  exists e, array_tree (PDict ps) = Err e.
Proof.
  intros Hp H1 H2 H3. destruct (array_tree (PDict ps)) as [t|e] eqn:E; [|eauto]. exfalso.
  apply array_tree_inv in E. destruct E as (xs & e & -> & F & I1).
  assert (G : forall k z, In (k, z) ps -> exists t, In (k, t) xs /\ array_tree z = Ok t).
  { clear - F. induction F as [|[k z] [k' t] l l' [F1 F2] F IH]; intros k0 z0 Hin; [destruct Hin|]. cbn in *. subst k'. destruct Hin as [X|Hin].
    - injection X as -> ->. eauto.
    - destruct (IH k0 z0 Hin) as (t' & T1 & T2). eauto. }
  destruct (G _ _ H1) as (t1 & T1 & T2). destruct (G _ _ H3) as (t2 & T3 & _).
  pose proof (array_tree_inv d t1 T2) as (ys & f & -> & F' & I2).
  assert (Hq : has q f).
  { apply (insert_all_has _ _ _ I2). clear - F' H2. induction F' as [|[k z] [k' t] l l' [F1 F2] F IH]; [destruct H2|]. cbn in *. subst k'. destruct H2 as [X|Hin]; [injection X as -> ->; auto|auto]. }
  destruct (insert_all_twice xs [] p f q t2 Hp Hq T1 T3) as (x0 & X). congruence.
Qed.

(** An array given twice, as 'a/b' and in the dictionary of 'a', is an error: no entry is ignored. *)
Theorem C135_twice : forall ps p d q x y internals deterministic, p <> [] -> In (p, PDict d) ps -> In (q, x) d -> In (p ++ q, y) ps ->
  exists e, act (PDict ps) internals deterministic = Err e.
Proof.
  intros ps p d q x y internals det Hp H1 H2 H3. destruct (array_tree_twice ps p d q x y Hp H1 H2 H3) as (e & E). unfold act_independent.
  destruct (match internals with None => _ | Some _ => Ok tt end); [|eexists; reflexivity]. cbn [bind].
  assert (P : process_states V states_spec (PDict ps) = Err e).
  { unfold process_states. destruct states_spec; cbn [is_single bind array_dict]; rewrite E; reflexivity. }
  rewrite P. eexists; reflexivity.
Qed.

(** Within a dictionary, the empty list is an array without entries. *)
Theorem C135_empty : forall a k b internals deterministic,
  act (PDict (a ++ (k, PList []) :: b)) internals deterministic = act (PDict (a ++ (k, PArr (Arr [0] [])) :: b)) internals deterministic.
Proof.
  intros a k b internals det. unfold act_independent.
  assert (P : array_tree (PDict (a ++ (k, @PList V []) :: b)) = array_tree (PDict (a ++ (k, PArr (Arr [0] [])) :: b))).
  { rewrite !array_tree_dict. f_equal. induction a as [|[k0 x] r IH]; [reflexivity|]. cbn [app map_res]. rewrite IH. reflexivity. }
  assert (Q : process_states V states_spec (PDict (a ++ (k, PList []) :: b)) = process_states V states_spec (PDict (a ++ (k, PArr (Arr [0] [])) :: b))).
  { unfold process_states. destruct states_spec; cbn [is_single bind array_dict]; rewrite P; reflexivity. }
  rewrite Q. reflexivity.
Qed.

(** A list of states needs a list of internals. *)
Theorem C137_form : forall n T ps d deterministic, n <> 0 -> table V n T -> fits V states_spec T -> length ps = n ->
  (forall i p, nth_error ps i = Some p -> writes_tree V p (instance V i T)) ->
  exists e, act (PList ps) (Some (PDict d)) deterministic = Err e.
Proof.
  intros n T ps d det Hn HT Hf HL Hw. unfold act_independent. cbn [bind].
  rewrite (process_list V states_spec T n ps Hn HT Hf HL Hw). cbn [bind process_internals]. eexists; reflexivity.
Qed.

(** A name which is neither specified nor that of a mask is an error. *)
Lemma ddel_other k k' (d : list (string * tree (arr V))) : k <> k' -> dget k (ddel k' d) = dget k d.
Proof. intro N. induction d as [|[k0 v] r IH]; [reflexivity|]. cbn. destruct (String.eqb_spec k' k0) as [<-|N0]; cbn; [destruct (String.eqb_spec k k'); congruence|]. rewrite IH. reflexivity. Qed.
Lemma pop_other k a path : forall t o t', hd_error path <> Some k -> pop path (Dict t) = Ok (o, t') -> dget k t = Some (Leaf a) ->
  exists e, t' = Dict e /\ dget k e = Some (@Leaf (arr V) a).
Proof.
  destruct path as [|k0 [|k1 r]]; intros t o t' Hk H Hd.
  - cbn in H. injection H as <- <-. eauto.
  - cbn in H, Hk. destruct (dget k0 t) eqn:E; injection H as <- <-; [|eauto]. exists (ddel k0 t). split; [reflexivity|]. rewrite ddel_other by congruence. exact Hd.
  - cbn [hd_error] in Hk. change (match dget k0 t with Some (Dict e) => do ox <- pop (k1 :: r) (Dict e); Ok (fst ox, Dict (map (fun kt => if String.eqb k0 (fst kt) then (k0, snd ox) else kt) t)) | Some (Leaf _) => Err "AssertionError" | None => Ok (None, Dict t) end = Ok (o, t')) in H.
    destruct (dget k0 t) as [[x|e]|] eqn:E; [discriminate| |injection H as <- <-; eauto].
    apply bind_ok in H. destruct H as (ox & _ & H). apply ok_inj in H. injection H as <- <-. eexists. split; [reflexivity|]. rewrite dget_put by congruence.
    destruct (String.eqb_spec k k0); [congruence|exact Hd].
Qed.
Lemma masks_other k a dflt : forall acts t ms t', (forall p l, In (p, l) acts -> hd_error (mask_path p) <> Some k) ->
  take_masks masking dflt acts (Dict t) = Ok (ms, t') -> dget k t = Some (Leaf a) -> exists e, t' = Dict e /\ dget k e = Some (@Leaf (arr V) a).
Proof.
  induction acts as [|[p l] r IH]; intros t ms t' Hk H Hd; cbn [take_masks] in H.
  - injection H as <- <-. eauto.
  - assert (Hk' : forall p l, In (p, l) r -> hd_error (mask_path p) <> Some k) by (intros; eapply Hk; right; eauto). destruct (maskable masking l) as [n|].
    + apply bind_ok in H. destruct H as ([o t1] & H1 & H). apply bind_ok in H. destruct H as ([ms' t2] & H2 & H). apply ok_inj in H. injection H as _ <-. cbn [fst snd] in *.
      destruct (pop_other k a _ _ _ _ (Hk p l (or_introl eq_refl)) H1 Hd) as (e & -> & He). eapply IH; eauto.
    + apply bind_ok in H. destruct H as ([ms' t2] & H2 & H). apply ok_inj in H. injection H as _ <-. cbn [snd]. eapply IH; eauto.
Qed.
Theorem C135_unknown : forall n d i p k xs s internals deterministic, i < n -> table V n (Dict d) -> fits V states_spec (Dict d) ->
  writes_state V p (instance V i (Dict d)) -> states_spec = Dict s -> In (k, Leaf xs) d -> ~ In k (map fst s) ->
  (forall path l, In (path, l) (entries actions_spec) -> hd_error (mask_path path) <> Some k) ->
  exists e, act p internals deterministic = Err e.
Proof.
  intros n d i p k xs s internals det Hi HT Hf Hp Hs Hin Hk Hm. unfold act_independent.
  destruct (match internals with None => _ | Some _ => Ok tt end); [|eexists; reflexivity]. cbn [bind].
  rewrite (process_one_any V states_spec (Dict d) n i p Hi HT Hf Hp). cbn [bind].
  destruct (match internals with None => Ok None | Some p0 => _ end) as [it|]; [|eexists; reflexivity]. cbn [bind].
  destruct (model_inputs V conv one masking states_spec actions_spec 1 (alone V i (Dict d))) as [sm|e] eqn:E; [|eexists; reflexivity]. exfalso.
  unfold model_inputs in E. apply bind_ok in E. destruct E as ([ms t'] & E1 & E). apply bind_ok in E. destruct E as (u & E2 & E). apply bind_ok in E. destruct E as (w & E3 & _).
  assert (D : dget k (map (fun kt => (fst kt, alone V i (snd kt))) d) = Some (Leaf (pile V [nth i xs (Arr [] [])]))).
  { inversion HT as [|? ND _]; subst. clear - Hin ND. induction d as [|[k0 x] r IH]; [destruct Hin|]. cbn in *. inversion ND as [|? ? N1 N2]; subst. destruct Hin as [X|Hin].
    - injection X as -> ->. rewrite String.eqb_refl. reflexivity.
    - destruct (String.eqb_spec k k0) as [<-|_]; [|apply IH; assumption]. destruct N1. apply in_map_iff. exists (k, Leaf xs). auto. }
  assert (M : forall p0 l, In (p0, l) (items actions_spec) -> hd_error (mask_path p0) <> Some k).
  { intros p0 l H. apply (Hm p0 l). revert H. clear. intro H. replace (entries actions_spec) with (items actions_spec); [exact H|]. symmetry. rewrite items_entries. reflexivity. }
  destruct (masks_other k _ _ _ _ _ _ M E1 D) as (e & -> & He). cbn [snd rename_single] in *. rewrite Hs in E2, E3. cbn [rename_single] in E2. apply ok_inj in E2. subst u.
  rewrite to_tensors_dict in E3. destruct (same_names (Dict s) (Dict e)) eqn:Es; [|discriminate]. unfold same_names in Es. apply andb_true_iff in Es. destruct Es as [_ Es].
  rewrite forallb_forall in Es. assert (J : In ([k], pile V [nth i xs (Arr [] [])]) (items (Dict e))).
  { clear - He. cbn [items]. induction e as [|[k0 x] r IH]; [discriminate|]. cbn in *. apply in_app_iff. destruct (String.eqb_spec k k0) as [<-|N]; [injection He as ->; left; left; reflexivity|right; apply IH; exact He]. }
  specialize (Es _ J). cbn [fst] in Es. apply existsb_exists in Es. destruct Es as ([p0 l] & P1 & P2). cbn [fst] in P2. unfold path_eqb in P2.
  destruct (list_eq_dec string_dec p0 [k]); [|discriminate]. subst p0. apply Hk. clear - P1. cbn [items] in P1. induction s as [|[k0 x] r IH]; [destruct P1|]. cbn in *.
  apply in_app_iff in P1. destruct P1 as [P1|P1]; [|right; apply IH; exact P1]. apply in_map_iff in P1. destruct P1 as ([p1 l1] & P1 & _). injection P1 as -> _ _. left. reflexivity.
Qed.
End Names.
Print Assumptions C135_twice.
Print Assumptions C135_empty.
Print Assumptions C137_form.
Print Assumptions C135_unknown.

(** * Examples *)

(** An agent for states of this specification which sums them up *)
Definition sums (spec : tree leaf) := act_independent Z any 1%Z false spec (Leaf num) (Dict []) (sum_policy (Leaf num) (Dict [])).
Example C135_twice_case : exists e, sums (Dict [("x"%string, Dict [("y"%string, Leaf num)])])
  (PDict [(["x"; "y"]%string, PNum 1%Z); (["x"%string], PDict [(["y"%string], PNum 2%Z)])]) None true = Err e.
Proof. eapply (C135_twice Z any 1%Z false) with (p := ["x"%string]) (q := ["y"%string]); [discriminate|right; left; reflexivity|left; reflexivity|left; reflexivity]. Qed.
Example C135_empty_case : sums (Dict [("a"%string, Leaf num); ("b"%string, Leaf (mkLeaf [0] None))]) (PDict [(["a"%string], PNum 1%Z); (["b"%string], PList [])]) None true = Ok (PNum 1%Z, None).
Proof. unfold sums. rewrite (C135_empty Z any 1%Z false _ _ _ _ [(["a"%string], PNum 1%Z)] ["b"%string] []). reflexivity. Qed.
Example C137_form_case : exists e, sums ex_spec (PList ex_list) (Some (PDict [])) true = Err e.
Proof. apply (C137_form Z any 1%Z false ex_spec _ _ _ 2 ex_table); [discriminate|apply ex_table_ok|apply ex_table_ok|reflexivity|exact ex_list_ok]. Qed.
Example C135_unknown_case : exists e, sums (Dict [("a"%string, Leaf num)]) (PDict [(["a"%string], PNum 1%Z); (["b"%string], PNum 2%Z)]) None true = Err e.
Proof.
  apply (C135_unknown Z any 1%Z false (Dict [("a"%string, Leaf num)]) (Leaf num) (Dict []) _ 1 [("a"%string, Leaf [Arr [] [1%Z]]); ("b"%string, Leaf [Arr [] [2%Z]])] 0 _ "b"%string [Arr [] [2%Z]] [("a"%string, Leaf num)]).
  - lia.
  - constructor; [repeat (constructor; [cbn; intuition discriminate|]); constructor|]. repeat constructor; exists []; intros x [<-|[]]; split; reflexivity.
  - exists ["a"%string], num, [Arr [] [1%Z]]. repeat split. intros x [<-|[]]; reflexivity.
  - left. constructor; [repeat (constructor; [cbn; intuition discriminate|]); constructor|]. repeat (constructor; [split; [reflexivity|repeat constructor]|]). constructor.
  - reflexivity.
  - right. left. reflexivity.
  - cbn. intuition discriminate.
  - intros path l [X|[]]. injection X as <- <-. discriminate.
Qed.
