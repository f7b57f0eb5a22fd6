(** Proofs for experience, continued: what the model is given. *)

From Coq Require Import String List ZArith Bool Lia.
From Verif Require Import Base InpModel InpSpec InpProofs InpActProofs InpRowProofs InpOutProofs InpBatchProofs InpMaskProofs ExpModel ExpSpec ExpProofs ExpRunProofs.
Import ListNotations.
Open Scope string_scope.
Open Scope list_scope.
Open Scope nat_scope.

Lemma like_items_names {A B} (s : tree A) (t : tree B) : like s t -> map fst (items s) = map fst (items t).
Proof.
  intros H. unfold like in H. apply (f_equal items) in H. rewrite !items_tmap in H. apply (f_equal (map fst)) in H. rewrite !map_map in H. exact H.
Qed.
Lemma same_names_like {A B} (s : tree A) (t : tree B) : like s t -> same_names s t = true.
Proof.
  intros H. apply like_items_names in H. unfold same_names. apply andb_true_iff. split; apply forallb_forall; intros [p a] Hp; apply existsb_exists.
  - assert (Hq : In p (map fst (items t))) by (rewrite <- H; apply (in_map fst _ _ Hp)). apply in_map_iff in Hq. destruct Hq as [[q b] [E Hq]]. exists (q, b).
    split; [exact Hq|]. cbn in *. subst q. unfold path_eqb. destruct (list_eq_dec string_dec p p); congruence.
  - assert (Hq : In p (map fst (items s))) by (rewrite H; apply (in_map fst _ _ Hp)). apply in_map_iff in Hq. destruct Hq as [[q b] [E Hq]]. exists (q, b).
    split; [exact Hq|]. cbn in *. subst q. unfold path_eqb. destruct (list_eq_dec string_dec p p); congruence.
Qed.

Section Conforms.
Variable V : Type.
Variable conv : leaf -> V -> option V.
Notation conforms := (conforms V conv).
Notation to_tensor := (to_tensor V conv).
Notation piles := (piles V).

Lemma conforms_like : forall s t, conforms s t -> like s t.
Proof.
  induction s as [l|ds IH] using tree_rect'; intros t H; inversion H as [|? dt Hnd HF]; subst; [reflexivity|]. unfold like. cbn [tmap]. f_equal. clear H Hnd.
  induction HF as [|ks kt ds dt [E Hc] _ IHF]; [reflexivity|]. inversion IH as [|? ? I1 I2]; subst. cbn [map]. rewrite (IHF I2). f_equal. f_equal; [exact E|].
  apply I1. exact Hc.
Qed.
Lemma conv_all_id l vs : (forall v, In v vs -> conv l v = Some v) -> conv_all V conv l vs = Ok vs.
Proof.
  induction vs as [|v vs IH]; intros H; [reflexivity|]. cbn. rewrite (H v (or_introl eq_refl)). rewrite IH by (intros w Hw; apply H; right; exact Hw). reflexivity.
Qed.
Lemma pile_tensor l xs : xs <> [] -> (forall x, In x xs -> shape x = l_shape l /\ forall v, In v (data x) -> conv l v = Some v) ->
  to_tensor l (pile V xs) = Ok (pile V xs).
Proof.
  intros Hx H. unfold InpModel.to_tensor. assert (E : tl (shape (pile V xs)) = l_shape l).
  { destruct xs as [|x xs]; [congruence|]. cbn. apply H. left. reflexivity. }
  rewrite E, shape_eqb_refl. rewrite conv_all_id; [reflexivity|]. intros v Hv. cbn in Hv. apply in_concat in Hv. destruct Hv as [ds [Hd Hv]].
  apply in_map_iff in Hd. destruct Hd as [x [<- Hxx]]. apply (proj2 (H x Hxx)). exact Hv.
Qed.
Lemma conforms_convert n o k : k <> 0 -> o + k <= n -> forall s t, conforms s t -> even V n t ->
  to_tensors to_tensor s (tmap (piles o k) t) = Ok (tmap (piles o k) t).
Proof.
  intros Hk H. induction s as [l|ds IH] using tree_rect'; intros t Hc He.
  - inversion Hc as [? xs Hx|]; subst. cbn [tmap to_tensors]. unfold ExpProofs.piles.
    assert (HP : rows V k (part o k xs)) by (apply (rows_part V n); [exact H|]; unfold even in He; cbn in He; inversion He; assumption).
    rewrite pile_tensor; [reflexivity| |].
    + destruct HP as [HL _]. intros E. rewrite E in HL. cbn in HL. congruence.
    + intros x Hin. apply Hx. eapply part_in; exact Hin.
  - pose proof (conforms_like _ _ Hc) as HL. inversion Hc as [|? dt Hnd HF]; subst. cbn [tmap]. rewrite to_tensors_dict.
    rewrite (same_names_like (Dict ds) (Dict (map (fun kt => (fst kt, tmap (piles o k) (snd kt))) dt))).
    2: { apply (like_tmap (piles o k) (Dict ds) (Dict dt)). exact HL. }
    assert (E : map_res (fun ks => do x <- child (fst ks) (Dict (map (fun kt => (fst kt, tmap (piles o k) (snd kt))) dt)); do y <- to_tensors to_tensor (snd ks) x; Ok (fst ks, y)) ds
            = Ok (map (fun kt => (fst kt, tmap (piles o k) (snd kt))) dt)); [|rewrite E; reflexivity].
    apply map_res_Forall2.
    assert (HN : NoDup (map fst dt)).
    { clear - Hnd HF. replace (map fst dt) with (map fst ds); [exact Hnd|]. induction HF as [|? ? ? ? [E _] _ IH]; [reflexivity|]. cbn. inversion Hnd; subst. rewrite E, IH by assumption. reflexivity. }
    assert (HD : forall kt, In kt dt -> dget (fst kt) dt = Some (snd kt)) by (intros [a b] Hin; apply dget_in; assumption).
    assert (HE : forall kt, In kt dt -> even V n (snd kt)).
    { intros kt Hin. unfold even in *. rewrite Forall_forall in *. intros xs Hx. apply He. cbn [leaves]. apply in_concat. exists (leaves (snd kt)). split; [|exact Hx].
      apply (in_map (fun kt => leaves (snd kt))). exact Hin. }
    clear Hc HL Hnd HN He. cbn [child].
    assert (HD' : forall kt, In kt dt -> dget (fst kt) (map (fun kt => (fst kt, tmap (piles o k) (snd kt))) dt) = Some (tmap (piles o k) (snd kt))).
    { intros kt Hin. rewrite dget_map, (HD kt Hin). reflexivity. }
    enough (G : forall D, (forall kt, In kt dt -> dget (fst kt) D = Some (tmap (piles o k) (snd kt))) ->
      Forall2 (fun (ks : string * tree leaf) (y : string * tree (arr V)) => (do x <- match dget (fst ks) D with Some x => Ok x | None => Err "KeyError" end; do y <- to_tensors to_tensor (snd ks) x; Ok (fst ks, y)) = Ok y) ds
        (map (fun kt => (fst kt, tmap (piles o k) (snd kt))) dt)) by (apply G; exact HD').
    clear HD HD'. intros D HD''. induction HF as [|ks kt ds dt [E Hc] _ IHF]; [constructor|]. inversion IH as [|? ? I1 I2]; subst. cbn [map]. constructor.
    + rewrite E, (HD'' kt (or_introl eq_refl)). cbn [bind]. rewrite (I1 (snd kt) Hc (HE kt (or_introl eq_refl))). reflexivity.
    + apply IHF; [exact I2| |]; intros kt' Hin; [apply HE|apply HD'']; right; exact Hin.
Qed.
Lemma conforms_convert_rec n o k : k <> 0 -> o + k <= n -> forall s t, conforms s t -> even V n t ->
  to_tensors_rec to_tensor s (tmap (piles o k) t) = Ok (tmap (piles o k) t).
Proof.
  intros Hk H. induction s as [l|ds IH] using tree_rect'; intros t Hc He.
  - inversion Hc as [? xs Hx|]; subst. cbn [tmap to_tensors_rec]. unfold ExpProofs.piles.
    assert (HP : rows V k (part o k xs)) by (apply (rows_part V n); [exact H|]; unfold even in He; cbn in He; inversion He; assumption).
    rewrite pile_tensor; [reflexivity| |].
    + destruct HP as [HL _]. intros E. rewrite E in HL. cbn in HL. congruence.
    + intros x Hin. apply Hx. eapply part_in; exact Hin.
  - inversion Hc as [|? dt Hnd HF]; subst. cbn [tmap]. rewrite to_tensors_rec_dict.
    assert (E : map_res (fun ks => do y <- rec_child to_tensor (map (fun kt => (fst kt, tmap (piles o k) (snd kt))) dt) ks; Ok (fst ks, y)) ds
            = Ok (map (fun kt => (fst kt, tmap (piles o k) (snd kt))) dt)); [|rewrite E; reflexivity].
    apply map_res_Forall2.
    assert (HN : NoDup (map fst dt)).
    { clear - Hnd HF. replace (map fst dt) with (map fst ds); [exact Hnd|]. induction HF as [|? ? ? ? [E _] _ IH]; [reflexivity|]. cbn. inversion Hnd; subst. rewrite E, IH by assumption. reflexivity. }
    assert (HE : forall kt, In kt dt -> even V n (snd kt)).
    { intros kt Hin. unfold even in *. rewrite Forall_forall in *. intros xs Hx. apply He. cbn [leaves]. apply in_concat. exists (leaves (snd kt)). split; [|exact Hx].
      apply (in_map (fun kt => leaves (snd kt))). exact Hin. }
    assert (HD : forall kt, In kt dt -> dget (fst kt) (map (fun kt => (fst kt, tmap (piles o k) (snd kt))) dt) = Some (tmap (piles o k) (snd kt))).
    { intros [a b] Hin. rewrite dget_map. cbn [fst snd]. rewrite (dget_in _ _ _ HN Hin). reflexivity. }
    enough (G : forall D, (forall kt, In kt dt -> dget (fst kt) D = Some (tmap (piles o k) (snd kt))) ->
      Forall2 (fun (ks : string * tree leaf) (y : string * tree (arr V)) => (do y <- rec_child to_tensor D ks; Ok (fst ks, y)) = Ok y) ds
        (map (fun kt => (fst kt, tmap (piles o k) (snd kt))) dt)) by (apply G; exact HD).
    clear Hc Hnd HN He HD. intros D HD''. induction HF as [|ks kt ds dt [E Hc] _ IHF]; [constructor|]. inversion IH as [|? ? I1 I2]; subst. cbn [map]. constructor.
    + unfold rec_child. rewrite E, (HD'' kt (or_introl eq_refl)). rewrite (I1 (snd kt) Hc (HE kt (or_introl eq_refl))). reflexivity.
    + apply IHF; [exact I2| |]; intros kt' Hin; [apply HE|apply HD'']; right; exact Hin.
Qed.

(** masks *)
Variable one : V.
Variable masking : bool.
Lemma ddel_none {A} k : forall d : list (string * A), dget k d = None -> ddel k d = d.
Proof.
  induction d as [|[k' x] d IH]; intros H; [reflexivity|]. cbn in *. destruct (String.eqb k k'); [discriminate|]. f_equal. apply IH. exact H.
Qed.
Lemma ddel_app_none {A} k : forall (d e : list (string * A)), dget k d = None -> ddel k (d ++ e) = d ++ ddel k e.
Proof.
  induction d as [|[k' x] d IH]; intros e H; [reflexivity|]. cbn in *. destruct (String.eqb k k'); [discriminate|]. f_equal. apply IH. exact H.
Qed.
Fixpoint rest (acts : list (list string * leaf)) (ms : list (string * tree (list (arr V)))) : list (string * tree (list (arr V))) :=
  match acts with
  | [] => ms
  | (p, l) :: r => match maskable masking l with Some _ => rest r (ddel (name_of p) ms) | None => rest r ms end
  end.
Lemma take_given (dflt : leaf -> nat -> list (arr V)) d : forall acts ms, simple acts -> (forall p l, In (p, l) acts -> mask_path p = [name_of p]) ->
  (forall p l, In (p, l) acts -> maskable masking l <> None -> dget (name_of p) d = None) ->
  take_masks masking dflt acts (Dict (d ++ ms)) =
  Ok (map (fun pl => (fst pl, option_map (fun k => match dget (name_of (fst pl)) ms with Some x => x | None => Leaf (dflt (snd pl) k) end) (maskable masking (snd pl)))) acts,
      Dict (d ++ rest acts ms)).
Proof.
  induction acts as [|[p l] acts IH]; intros ms Hs Hp Hd; [reflexivity|]. cbn [take_masks map fst snd rest].
  destruct (simple_cons _ _ _ Hs) as [Hs' [m' [Em Hne]]].
  assert (Hp' : forall p l, In (p, l) acts -> mask_path p = [name_of p]) by (intros; eapply Hp; right; eauto).
  assert (Hd' : forall p l, In (p, l) acts -> maskable masking l <> None -> dget (name_of p) d = None) by (intros p' l' H1 H2; apply (Hd p' l' (or_intror H1) H2)).
  destruct (maskable masking l) as [k|] eqn:Ek.
  - rewrite (Hp p l (or_introl eq_refl)), pop_single. assert (Hdn : dget (name_of p) d = None) by (apply (Hd p l); [left; reflexivity|congruence]).
    rewrite dget_app, Hdn. rewrite (ddel_app_none _ d ms Hdn).
    assert (EM : name_of p = m') by (rewrite (Hp p l (or_introl eq_refl)) in Em; congruence).
    assert (EQ : forall p' l', In (p', l') acts -> dget (name_of p') (ddel (name_of p) ms) = dget (name_of p') ms).
    { intros p' l' Hin. apply dget_ddel. rewrite EM. intros E. apply (Hne p' l' Hin). rewrite (Hp' p' l' Hin), E. reflexivity. }
    destruct (dget (name_of p) ms) as [x|] eqn:Ex; cbn [bind fst snd].
    + rewrite (IH (ddel (name_of p) ms) Hs' Hp' Hd'). cbn [bind fst snd option_map]. do 3 f_equal. apply map_ext_in. intros [p' l'] Hin. cbn [fst snd]. rewrite (EQ p' l' Hin). reflexivity.
    + rewrite (ddel_none _ ms Ex). rewrite (IH ms Hs' Hp' Hd'). reflexivity.
  - rewrite (IH ms Hs' Hp' Hd'). reflexivity.
Qed.
Lemma rest_nil acts : forall ms, NoDup (map fst ms) -> (forall n, In n (map fst ms) -> exists p l, In (p, l) acts /\ maskable masking l <> None /\ n = name_of p) -> rest acts ms = [].
Proof.
  induction acts as [|[p l] acts IH]; intros ms Hn H; cbn [rest].
  - destruct ms as [|[n x] ms]; [reflexivity|]. destruct (H n (or_introl eq_refl)) as (p & l & [] & _).
  - destruct (maskable masking l) as [k|] eqn:Ek.
    + apply IH.
      * clear H IH. induction ms as [|[n x] ms IHm]; [constructor|]. cbn. inversion Hn as [|? ? H1 H2]; subst. destruct (String.eqb (name_of p) n); [exact H2|].
        cbn. constructor; [|apply IHm; exact H2]. intros Hin. apply H1. clear - Hin. induction ms as [|[a b] ms IH]; [exact Hin|]. cbn in *. destruct (String.eqb (name_of p) a); cbn in *; tauto.
      * intros n Hin. assert (Hx : In n (map fst ms) /\ n <> name_of p).
        { clear - Hin Hn. induction ms as [|[a b] ms IH]; [contradiction|]. cbn in Hin. inversion Hn as [|? ? H1 H2]; subst. destruct (String.eqb_spec (name_of p) a) as [E|E].
          - split; [right; exact Hin|]. intros ->. apply H1. cbn. rewrite <- E. exact Hin.
          - cbn in Hin. destruct Hin as [<-|Hin]; [split; [left; reflexivity|congruence]|]. destruct (IH H2 Hin). split; [right|]; assumption. }
        destruct Hx as [H1 H2]. destruct (H n H1) as (p' & l' & [E|Hp] & Hm & En); [injection E as <- <-; congruence|]. exists p', l'. auto.
    + apply IH; [exact Hn|]. intros n Hin. destruct (H n Hin) as (p' & l' & [E|Hp] & Hm & En); [injection E as <- <-; congruence|]. exists p', l'. auto.
Qed.
Lemma flat_mask_path {A} actions : @flat A actions = true -> forall p l, In (p, l) (items actions) -> mask_path p = [name_of p] /\ mask_name p (name_of p).
Proof.
  intros Hf p l Hin. destruct actions as [l0|d].
  - destruct Hin as [E|[]]. injection E as <- _. split; [reflexivity|left; auto].
  - cbn [items] in Hin. apply in_concat in Hin. destruct Hin as [ys [Hy Hin]]. apply in_map_iff in Hy. destruct Hy as [[k x] [<- Hk]].
    cbn in Hf. rewrite forallb_forall in Hf. specialize (Hf _ Hk). cbn in Hf. destruct x as [l1|]; [|discriminate]. cbn in Hin. destruct Hin as [E|[]]. injection E as <- _.
    split; [reflexivity|right; exists k; auto].
Qed.
Lemma take_leaf (dflt : leaf -> nat -> list (arr V)) xs acts : (forall p l, In (p, l) acts -> mask_path p = [name_of p]) ->
  take_masks masking dflt acts (Leaf xs) =
  Ok (map (fun pl => (fst pl, option_map (fun k => Leaf (dflt (snd pl) k)) (maskable masking (snd pl)))) acts, Leaf xs).
Proof.
  induction acts as [|[p l] acts IH]; intros Hp; [reflexivity|]. cbn [take_masks map fst snd].
  assert (IH' := IH (fun p' l' H => Hp p' l' (or_intror H))). destruct (maskable masking l) as [k|].
  - rewrite (Hp p l (or_introl eq_refl)). cbn [pop bind fst snd]. rewrite IH'. reflexivity.
  - rewrite IH'. reflexivity.
Qed.
Lemma dget_as_states n ms : dget n (as_states V ms) = option_map (fun xs => Leaf xs) (dget n ms).
Proof. unfold as_states. induction ms as [|[k x] ms IH]; [reflexivity|]. cbn. destruct (String.eqb n k); [reflexivity|exact IH]. Qed.
Lemma names_as_states ms : map fst (as_states V ms) = map fst ms.
Proof. unfold as_states. rewrite map_map. reflexivity. Qed.
Lemma name_not_state p : name_of p <> "state".
Proof.
  destruct p as [|k p]; [discriminate|]. cbn [name_of]. intros E. destruct k as [|c k]; [discriminate|]. apply (f_equal String.length) in E.
  assert (HL : forall a b, String.length (a ++ b)%string = String.length a + String.length b) by (induction a as [|x a IH]; intros b; [reflexivity|]; cbn; f_equal; apply IH).
  rewrite HL in E. cbn in E. lia.
Qed.
Lemma no_masks_dget actions d : flat actions = true -> no_masks V actions (Dict d) -> forall p l, In (p, l) (items actions) -> dget (name_of p) d = None.
Proof.
  intros Hf Hm p l Hin. apply dget_none. apply (Hm p l (name_of p) d); [rewrite <- items_entries; exact Hin| |reflexivity]. apply (flat_mask_path _ Hf p l Hin).
Qed.
Lemma masks_given conv' actions n (masks : list (string * list (arr V))) : masking = true \/ masks = [] -> masks_ok V conv' actions n masks ->
  rest (items actions) (as_states V masks) = [].
Proof.
  intros Hk [Hn Hm]. apply rest_nil; [rewrite names_as_states; exact Hn|]. intros nm Hin. rewrite names_as_states in Hin.
  apply in_map_iff in Hin. destruct Hin as [[nm' xs] [E Hin]]. cbn in E. subst nm'. destruct (Hm nm xs Hin) as (p & l & k & H1 & H2 & H3 & _).
  exists p, l. rewrite items_entries. split; [exact H1|]. split; [|exact H3]. destruct Hk as [->| ->]; [|contradiction]. unfold maskable. rewrite H2. discriminate.
Qed.

(** the masks of all actions are those expected *)
Definition expected (n : nat) (masks : list (string * list (arr V))) (pl : list string * leaf) : list string * option (tree (list (arr V))) :=
  (fst pl, option_map (fun k => Leaf (mask_in V one n masks (fst pl) (snd pl) k)) (maskable masking (snd pl))).
Lemma inputs_masked states actions n t masks T : flat actions = true -> distinct actions -> like states t -> no_masks V actions t -> 
  masking = true \/ masks = [] -> masks_ok V conv actions n masks -> masked V t masks T ->
  row_inputs V one masking states actions n T = Ok (t, map (expected n masks) (items actions)).
Proof.
  intros Hf Hd Hl Hm Hk Hok Ht. unfold row_inputs. pose proof (fun p l H => proj1 (flat_mask_path actions Hf p l H)) as HP.
  pose proof (flat_simple actions Hf Hd) as Hs. pose proof (masks_given conv actions n masks Hk Hok) as HR.
  assert (HE : forall p l (k : nat), match dget (name_of p) (as_states V masks) with Some x => x | None => Leaf (ones_rows V one n l k) end = Leaf (mask_in V one n masks p l k)).
  { intros p l k. rewrite dget_as_states. unfold mask_in. destruct (dget (name_of p) masks); reflexivity. }
  inversion Ht as [t0|d masks0|xs masks0]; subst.
  - destruct T as [xs|d].
    + rewrite (take_leaf _ xs _ HP). cbn [bind fst snd]. unfold like in Hl. destruct states as [l|ds]; [|discriminate]. cbn [rename_single bind].
      do 2 f_equal.
    + rewrite <- (app_nil_r d) at 1. rewrite (take_given _ d _ [] Hs HP); [|intros p l Hin _; apply (no_masks_dget actions d Hf Hm p l Hin)].
      change (@nil (string * tree (list (arr V)))) with (as_states V []). rewrite HR, app_nil_r. cbn [bind fst snd]. destruct states as [l|ds]; [discriminate|]. cbn [rename_single bind]. reflexivity.
  - rewrite (take_given _ d _ _ Hs HP); [|intros p l Hin _; apply (no_masks_dget actions d Hf Hm p l Hin)]. rewrite HR, app_nil_r. cbn [bind fst snd].
    destruct states as [l|ds]; [discriminate|]. cbn [rename_single bind]. do 2 f_equal. apply map_ext. intros [p l]. unfold expected. cbn [fst snd].
    destruct (maskable masking l); [|reflexivity]. cbn [option_map]. rewrite HE. reflexivity.
  - change (("state", Leaf xs) :: as_states V masks) with ([("state", Leaf xs)] ++ as_states V masks).
    rewrite (take_given _ [("state", Leaf xs)] _ _ Hs HP).
    2: { intros p l Hin _. cbn. destruct (String.eqb_spec (name_of p) "state") as [E|]; [|reflexivity]. destruct (name_not_state p E). }
    rewrite HR. cbn [bind fst snd app]. destruct states as [l|ds]; [|discriminate]. cbn [rename_single bind]. 
    assert (EX : map (fun pl => (fst pl, option_map (fun k => match dget (name_of (fst pl)) (as_states V masks) with Some x => x | None => Leaf (ones_rows V one n (snd pl) k) end) (maskable masking (snd pl)))) (items actions)
        = map (expected n masks) (items actions)); [|rewrite EX; reflexivity].
    apply map_ext. intros [p l0]. unfold expected. cbn [fst snd]. destruct (maskable masking l0); [|reflexivity]. cbn [option_map]. rewrite HE. reflexivity.
Qed.
Lemma mask_in_ok actions n masks p l k : flat actions = true -> distinct actions -> masks_ok V conv actions n masks -> In (p, l) (entries actions) -> l_num l = Some k ->
  conv (mkLeaf (l_shape l ++ [k]) None) one = Some one ->
  length (mask_in V one n masks p l k) = n /\
  forall x, In x (mask_in V one n masks p l k) -> shape x = l_shape l ++ [k] /\ forall v, In v (data x) -> conv (mkLeaf (l_shape l ++ [k]) None) v = Some v.
Proof.
  intros Hf Hd [Hn Hm] Hin Hk Hc. unfold mask_in. destruct (dget (name_of p) masks) as [xs|] eqn:E.
  - apply dget_some_in in E. destruct (Hm _ _ E) as (p' & l' & k' & H1 & H2 & H3 & [H4 _] & H5).
    assert (EQ : (p', l') = (p, l)).
    { rewrite <- items_entries in H1, Hin. destruct (flat_simple actions Hf Hd) as [ns [En Hnd]].
      apply In_nth_error in H1. destruct H1 as [i Hi]. apply In_nth_error in Hin. destruct Hin as [j Hj].
      assert (Pi : mask_path p' = [name_of p']) by (apply (flat_mask_path actions Hf p' l'); eapply nth_error_In; exact Hi).
      assert (Pj : mask_path p = [name_of p]) by (apply (flat_mask_path actions Hf p l); eapply nth_error_In; exact Hj).
      assert (Ni : nth_error ns i = Some (name_of p)).
      { pose proof (map_nth_error (fun pl : list string * leaf => mask_path (fst pl)) _ _ Hi) as Q. rewrite En in Q. cbn [fst] in Q. rewrite Pi in Q.
        rewrite nth_error_map in Q. destruct (nth_error ns i); [|discriminate]. cbn in Q. congruence. }
      assert (Nj : nth_error ns j = Some (name_of p)).
      { pose proof (map_nth_error (fun pl : list string * leaf => mask_path (fst pl)) _ _ Hj) as Q. rewrite En in Q. cbn [fst] in Q. rewrite Pj in Q.
        rewrite nth_error_map in Q. destruct (nth_error ns j); [|discriminate]. cbn in Q. congruence. }
      assert (i = j). { apply (proj1 (NoDup_nth_error ns) Hnd); [|congruence]. apply nth_error_Some. congruence. }
      congruence. }
    injection EQ as -> ->. assert (k' = k) by congruence. subst k'. auto.
  - split; [apply repeat_length|]. intros x Hx. apply repeat_spec in Hx. subst x. split; [reflexivity|]. intros v Hv. cbn in Hv. apply repeat_spec in Hv. subst v. exact Hc.
Qed.
Lemma masks_converted actions n masks o k : flat actions = true -> distinct actions -> masks_ok V conv actions n masks -> k <> 0 -> o + k <= n ->
  (forall p l j, In (p, l) (entries actions) -> l_num l = Some j -> conv (mkLeaf (l_shape l ++ [j]) None) one = Some one) ->
  masks_to_tensors to_tensor (items actions) (mmap (piles o k) (map (expected n masks) (items actions))) = Ok (masks_in V one masking n o k masks actions).
Proof.
  intros Hf Hd Hok Hk H Hc. unfold masks_in. rewrite <- items_entries. rewrite <- items_entries in Hc.
  assert (HI : forall p l, In (p, l) (items actions) -> In (p, l) (entries actions)) by (intros; rewrite <- items_entries; assumption).
  revert Hc HI. generalize (items actions). intros acts Hc HI. induction acts as [|[p l] acts IH]; [reflexivity|].
  assert (IH' := IH (fun p' l' j' Hin => Hc p' l' j' (or_intror Hin)) (fun p' l' Hin => HI p' l' (or_intror Hin))). clear IH.
  cbn [map flat_map fst snd]. unfold expected at 1. cbn [fst snd]. unfold mmap in *. cbn [map fst snd]. unfold maskable at 1. destruct masking.
  - destruct (l_num l) as [j|] eqn:EJ.
    + cbn [option_map tmap]. cbn [masks_to_tensors]. rewrite EJ. unfold ExpProofs.piles at 1.
      destruct (mask_in_ok actions n masks p l j Hf Hd Hok (HI p l (or_introl eq_refl)) EJ (Hc p l j (or_introl eq_refl) EJ)) as [HL HX].
      rewrite pile_tensor; [|intros E; apply (f_equal (@length _)) in E; rewrite part_length in E by lia; cbn in E; congruence|intros x Hx; apply HX; eapply part_in; exact Hx].
      cbn [bind]. rewrite IH'. reflexivity.
    + cbn [option_map masks_to_tensors]. rewrite IH'. reflexivity.
  - cbn [option_map masks_to_tensors]. rewrite IH'. destruct (l_num l); reflexivity.
Qed.
End Conforms.

Section Run.
Variable V : Type.
Variable conv : leaf -> V -> option V.
Variables conv_terminal conv_reward : V -> option V.
Variable is_zero : V -> bool.
Variable one : V.
Variable masking : bool.
Variables states_spec actions_spec internals_spec : tree leaf.
Variable M : Type.
Variable model_experience : M -> batch V -> M * res unit.
Notation row_inputs := (row_inputs V one masking states_spec actions_spec).
Notation row_episode := (row_episode V conv conv_terminal conv_reward states_spec actions_spec internals_spec).
Notation row_run := (row_run V is_zero M model_experience).
Notation row_experience := (row_experience V conv conv_terminal conv_reward is_zero one masking states_spec actions_spec internals_spec M model_experience).
Notation ends := (finished V is_zero).
Notation whole := (whole V is_zero).

Lemma finished_whole : forall ts, ends ts -> exists ks, whole ks ts.
Proof.
  assert (G : forall ts e, (forall v, In v e -> is_zero v = true) -> ends ts -> exists ks, whole ks (e ++ ts)).
  { induction ts as [|t ts IH]; intros e He Hts; [destruct Hts as (ts' & t & E & _); destruct ts'; discriminate|].
    destruct (is_zero t) eqn:Et.
    - replace (e ++ t :: ts) with ((e ++ [t]) ++ ts) by (rewrite <- app_assoc; reflexivity). apply IH.
      + intros v Hv. apply in_app_or in Hv. destruct Hv as [Hv|[<-|[]]]; [apply He; exact Hv|exact Et].
      + destruct Hts as ([|y ts'] & u & E & Hu); cbn in E; injection E as E1 E2; [congruence|]. exists ts', u. auto.
    - destruct ts as [|u ts].
      + exists [S (length e)]. constructor; auto. constructor.
      + destruct (IH []) as [ks Hk]; [intros v []| |].
        * destruct Hts as ([|y ts'] & w & E & Hw); cbn in E; injection E as E1 E2; [congruence|]. exists ts', w. auto.
        * exists (S (length e) :: ks). constructor; auto. }
  intros ts H. apply (G ts []); [intros v []|exact H].
Qed.
Lemma row_run_whole ep : forall ks ts, whole ks ts -> forall o m,
  row_run ep ts o o m = in_turn (fun ok m => match ep (fst ok) (snd ok) with Ok b => model_experience m b | Err e => (m, Err e) end) (intervals o ks) m.
Proof.
  intros ks ts H. induction H as [|e t ks ts He Ht Hw IH]; intros o m; [reflexivity|]. cbn [intervals in_turn fst snd].
  assert (G : forall e j, (forall v, In v e -> is_zero v = true) -> row_run ep (e ++ t :: ts) o j m = row_run ep (t :: ts) o (j + length e) m).
  { clear e He. induction e as [|v e IHe]; intros j He; [cbn [app length]; rewrite Nat.add_0_r; reflexivity|]. cbn [length]. replace (j + S (length e)) with (S j + length e) by lia. rewrite <- IHe by (intros w Hw'; apply He; right; exact Hw').
    cbn [app]. cbn [ExpRunProofs.row_run]. rewrite (He v (or_introl eq_refl)).
    reflexivity. }
  rewrite (G e o He). cbn [ExpRunProofs.row_run]. rewrite Ht. replace (S (o + length e) - o) with (S (length e)) by lia.
  destruct (ep o (S (length e))) as [b|err]; [|reflexivity]. unfold andthen. destruct (model_experience m b) as [m' [u|err]]; [|reflexivity].
  replace (o + S (length e)) with (S (o + length e)) by lia. apply IH.
Qed.
Lemma whole_length : forall ks ts, whole ks ts -> forall o a b, In (a, b) (intervals o ks) -> b <> 0 /\ o <= a /\ a + b <= o + length ts.
Proof.
  intros ks ts H. induction H as [|e t ks ts He Ht Hw IH]; intros o a b Hin; [contradiction|]. rewrite app_length. cbn [length]. cbn [intervals] in Hin.
  destruct Hin as [E|Hin]; [injection E as <- <-; lia|]. specialize (IH _ _ _ Hin). lia.
Qed.
Lemma in_turn_ext {A} (f g : A -> M -> M * res unit) : forall l m, (forall a m, In a l -> f a m = g a m) -> in_turn f l m = in_turn g l m.
Proof.
  induction l as [|a l IH]; intros m H; [reflexivity|]. cbn. rewrite (H a m (or_introl eq_refl)). unfold andthen. destruct (g a m) as [m' [u|e]]; [|reflexivity].
  apply IH. intros b m0 Hb. apply H. right. exact Hb.
Qed.
Lemma conv_entries_map f g (vs : list V) : (forall v, In v vs -> f v = Some (g v)) -> conv_entries V f vs = Ok (map g vs).
Proof.
  induction vs as [|v vs IH]; intros H; [reflexivity|]. cbn [conv_entries map]. rewrite (H v (or_introl eq_refl)), IH by (intros w Hw; apply H; right; exact Hw). reflexivity.
Qed.
Lemma vector_tensor f g (vs : list V) : (forall v, In v vs -> f v = Some (g v)) -> scalar_tensor V f (vector V vs) = Ok (vector V (map g vs)).
Proof. intros H. unfold scalar_tensor. cbn. rewrite (conv_entries_map f g) by exact H. unfold vector. rewrite map_length. reflexivity. Qed.
Lemma part_map {A B} (g : A -> B) o k (l : list A) : part o k (map g l) = map g (part o k l).
Proof. unfold part. rewrite skipn_map, firstn_map. reflexivity. Qed.
Lemma piled_timesteps o k t : piled V (timesteps V o k t) = tmap (piles V o k) t.
Proof. rewrite timesteps_tmap, piled_tmap, tmap_tmap. reflexivity. Qed.

Lemma row_experience_fed ct cr n x masks T m : n <> 0 -> trace_ok V n x -> flat actions_spec = true -> distinct actions_spec -> no_masks V actions_spec (t_states V x) ->
  masking = true \/ masks = [] -> masks_ok V conv actions_spec n masks -> masked V (t_states V x) masks T ->
  conforms V conv states_spec (t_states V x) -> conforms V conv actions_spec (t_actions V x) -> conforms V conv internals_spec (t_internals V x) ->
  (forall v, In v (t_terminal V x) -> conv_terminal v = Some (ct v)) -> (forall v, In v (t_reward V x) -> conv_reward v = Some (cr v)) ->
  (forall p l j, In (p, l) (entries actions_spec) -> l_num l = Some j -> conv (mkLeaf (l_shape l ++ [j]) None) one = Some one) ->
  forall ks, whole ks (t_terminal V x) ->
  row_experience n (mkTrace V T (t_actions V x) (t_internals V x) (t_terminal V x) (t_reward V x)) m
  = in_turn (fun ok m => model_experience m (fed V one masking actions_spec masks n (converted V ct cr x) (fst ok) (snd ok))) (intervals 0 ks) m.
Proof.
  intros Hn Hx Hf Hds Hm Hkm Hok HT0 C1 C2 C3 C4 C5 C6 ks Hw. unfold ExpRunProofs.row_experience. cbn [t_states].
  rewrite (inputs_masked V conv one masking states_spec actions_spec n (t_states V x) masks T Hf Hds (conforms_like V conv _ _ C1) Hm Hkm Hok HT0).
  destruct Hx as (HT & HA & HI & HD & HLt & HLr). cbn [t_terminal].
  assert (EE : match rev (t_terminal V x) with [] => true | t :: _ => is_zero t end = false).
  { apply ends_rev. clear - Hw Hn HLt. destruct Hw as [|e t ks ts He Ht Hw]; [cbn in HLt; congruence|]. clear HLt Hn He. revert e. revert t Ht.
    induction Hw as [|e' t' ks ts He' Ht' Hw IH]; intros t Ht e; [exists e, t; auto|].
    destruct (IH t' Ht' (e ++ t :: e')) as (ts0 & u & E & Hu). exists ts0, u. split; [|exact Hu]. rewrite <- E. rewrite <- app_assoc. reflexivity. }
  rewrite EE. rewrite (row_run_whole _ ks _ Hw). apply in_turn_ext. intros [o k] m0 Hin. destruct (whole_length _ _ Hw 0 o k Hin) as (Hk & _ & Hle).
  rewrite HLt in Hle. cbn [Nat.add fst snd] in *. unfold ExpRunProofs.row_episode. cbn [fst snd t_internals t_actions t_terminal t_reward].
  rewrite (conforms_convert V conv n o k Hk Hle _ _ C1 (table_even n _ HT)). cbn [bind].
  rewrite (conforms_convert_rec V conv n o k Hk Hle _ _ C3 (table_even n _ HI)). cbn [bind].
  rewrite (masks_converted V conv one masking actions_spec n masks o k Hf Hds Hok Hk Hle C6). cbn [bind].
  rewrite (conforms_convert V conv n o k Hk Hle _ _ C2 (table_even n _ HA)). cbn [bind].
  rewrite (vector_tensor conv_terminal ct) by (intros v Hv; apply C4; eapply part_in; exact Hv). cbn [bind].
  rewrite (vector_tensor conv_reward cr) by (intros v Hv; apply C5; eapply part_in; exact Hv). cbn [bind].
  unfold fed, converted. cbn [t_states t_actions t_internals t_terminal t_reward]. rewrite !piled_timesteps, !part_map. reflexivity.
Qed.
End Run.
