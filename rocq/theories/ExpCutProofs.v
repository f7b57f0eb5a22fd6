(** Proofs for experience, continued: states with masks, parts of timesteps, rejected inputs. *)

From Coq Require Import String List ZArith Bool Lia.
From Verif Require Import Base InpModel InpSpec InpProofs InpActProofs InpRowProofs InpOutProofs InpBatchProofs InpMaskProofs ExpModel ExpSpec ExpProofs ExpRunProofs ExpFedProofs.
Import ListNotations.
Open Scope string_scope.
Open Scope list_scope.
Open Scope nat_scope.

Section Cut.
Variable V : Type.
Variable conv : leaf -> V -> option V.
Notation conforms := (conforms V conv).

Lemma first_entries {A} : forall t : tree A, entries t <> [] -> exists p l, first t = Some (p, l).
Proof.
  induction t as [a|d IH] using tree_rect'; intros H; [exists [], a; reflexivity|]. cbn [first]. cbn [entries] in H. induction IH as [|[k x] d Hx _ IHF]; [exfalso; apply H; reflexivity|].
  cbn [snd fst flat_map] in *. destruct (entries x) as [|e es] eqn:E.
  - cbn in H. destruct (first x) as [[p l]|]; [eexists _, _; reflexivity|]. apply IHF. exact H.
  - destruct (Hx ltac:(congruence)) as (p & l & ->). eexists _, _; reflexivity.
Qed.
Lemma conforms_find : forall s t, conforms s t -> forall p l, first s = Some (p, l) ->
  exists xs, find p t = Some xs /\ forall x, In x xs -> shape x = l_shape l.
Proof.
  induction s as [l0|ds IH] using tree_rect'; intros t H p l Hp.
  - cbn in Hp. injection Hp as <- <-. inversion H as [? xs Hx|]; subst. exists xs. split; [reflexivity|]. intros x Hin. apply Hx. exact Hin.
  - inversion H as [|? dt Hnd HF]; subst. cbn [first] in Hp. clear H. revert Hp Hnd. induction HF as [|[k s] [k' t] ds dt [E Hc] HF IHF]; intros Hp Hnd; [discriminate|].
    cbn [fst snd] in *. subst k'. inversion IH as [|? ? I1 I2]; subst. cbn [fst snd] in *. inversion Hnd as [|? ? N1 N2]; subst. destruct (first s) as [[q a]|] eqn:E.
    + injection Hp as <- <-. destruct (I1 t Hc q a eq_refl) as (xs & Hf & Hx). exists xs. cbn [find]. cbn [dget]. rewrite String.eqb_refl. auto.
    + destruct (IHF I2 Hp N2) as (xs & Hf & Hx). exists xs. split; [|exact Hx]. destruct p as [|k0 p]; [cbn in Hf; discriminate|]. cbn [find dget] in *.
      destruct (String.eqb_spec k0 k) as [->|_]; [|exact Hf]. exfalso. destruct (dget k dt) as [y|] eqn:Ey; [|discriminate]. apply dget_some_in in Ey.
      apply N1. clear - HF Ey. induction HF as [|? ? ? ? [E _] _ IH]; [contradiction|]. destruct Ey as [->|Ey]; [left; exact E|right; apply IH; exact Ey].
Qed.
Lemma fits_masked spec t masks T : entries spec <> [] -> conforms spec t -> masked V t masks T -> fits V spec T.
Proof.
  intros He Hc Hm.
  assert (HD : forall ds d ms, spec = Dict ds -> conforms spec (Dict d) -> fits V spec (Dict (d ++ ms))).
  { intros ds d ms -> Hcd. destruct (first_entries _ He) as (p & l & Hp). destruct (conforms_find _ _ Hcd p l Hp) as (xs & Hf & Hx). cbn [fits]. exists p, l, xs.
    split; [exact Hp|]. split; [|exact Hx]. destruct p as [|k p]; [discriminate|]. cbn [find] in *. rewrite dget_app. destruct (dget k d); [exact Hf|discriminate]. }
  inversion Hm as [t0|d masks0|xs masks0]; subst.
  - inversion Hc as [l xs Hx|ds dt Hnd HF]; subst; [intros x Hin; apply Hx; exact Hin|]. rewrite <- (app_nil_r dt). apply (HD ds); auto.
  - inversion Hc as [|ds dt Hnd HF]; subst. apply (HD ds); auto.
  - inversion Hc as [l xs0 Hx|]; subst. cbn [fits]. exists xs. split; [reflexivity|]. intros x Hin. apply Hx. exact Hin.
Qed.
Lemma table_masked actions n t masks T : table V n t -> flat actions = true -> no_masks V actions t -> masks_ok V conv actions n masks -> masked V t masks T -> table V n T.
Proof.
  intros Ht Hf Hno [Hn Hm] HT.
  assert (HA : Forall (fun kt => table V n (snd kt)) (as_states V masks)).
  { apply Forall_forall. intros [k y] Hin. unfold as_states in Hin. apply in_map_iff in Hin. destruct Hin as [[k' xs] [E Hin]]. injection E as <- <-.
    destruct (Hm _ _ Hin) as (p & l & j & _ & _ & _ & Hr & _). constructor. exact Hr. }
  inversion HT as [t0|d masks0|xs masks0]; subst.
  - exact Ht.
  - inversion Ht as [|? Hnd HF]; subst. constructor; [|apply Forall_app; auto]. rewrite map_app, names_as_states.
    assert (ND : forall a b : list string, NoDup a -> NoDup b -> (forall x, In x a -> ~ In x b) -> NoDup (a ++ b)).
    { clear. induction a as [|x a IH]; intros b Ha Hb H; [exact Hb|]. inversion Ha; subst. cbn. constructor.
      - rewrite in_app_iff. intros [Hi|Hi]; [contradiction|]. apply (H x (or_introl eq_refl) Hi).
      - apply IH; auto. intros y Hy. apply H. right. exact Hy. }
    apply ND; [exact Hnd|exact Hn|]. intros nm Hin Hin2. apply in_map_iff in Hin2. destruct Hin2 as [[nm' xs] [E Hin2]]. cbn in E. subst nm'.
    destruct (Hm _ _ Hin2) as (p & l & j & H1 & _ & -> & _). apply (Hno p l (name_of p) d H1); auto. rewrite <- items_entries in H1. apply (flat_mask_path _ Hf p l H1).
  - constructor; [|constructor; [exact Ht|exact HA]]. cbn [map fst]. rewrite names_as_states. constructor; [|exact Hn].
    intros Hin. apply in_map_iff in Hin. destruct Hin as [[nm' ys] [E Hin]]. cbn in E. subst nm'. destruct (Hm _ _ Hin) as (p & l & j & _ & _ & E & _).
    symmetry in E. destruct (name_not_state p E).
Qed.

(** parts fit too *)
Lemma find_tmap {A B} (f : A -> B) : forall p t, find p (tmap f t) = option_map f (find p t).
Proof.
  induction p as [|k p IH]; intros [a|d]; try reflexivity. cbn [tmap find]. rewrite dget_map. destruct (dget k d) as [x|]; [apply IH|reflexivity].
Qed.
Lemma fits_cut spec t o k : fits V spec t -> fits V spec (timesteps V o k t).
Proof.
  rewrite timesteps_tmap. destruct spec as [l|ds], t as [xs|d]; cbn [fits tmap].
  - intros H x Hin. apply H. eapply part_in. exact Hin.
  - intros (xs & H & Hx). exists (part o k xs). split; [|intros x Hin; apply Hx; eapply part_in; exact Hin].
    pose proof (find_tmap (part o k) ["state"] (Dict d)) as E. cbn [tmap] in E. rewrite E, H. reflexivity.
  - tauto.
  - intros (p & l & xs & H1 & H2 & Hx). exists p, l, (part o k xs). split; [exact H1|]. split; [|intros x Hin; apply Hx; eapply part_in; exact Hin].
    pose proof (find_tmap (part o k) p (Dict d)) as E. cbn [tmap] in E. rewrite E, H2. reflexivity.
Qed.
End Cut.

Lemma map_res_err {A B} (f : A -> res B) : forall l x, In x l -> (exists e, f x = Err e) -> exists e, map_res f l = Err e.
Proof.
  induction l as [|y l IH]; intros x Hin He; [contradiction|]. cbn [map_res]. destruct (f y) as [b|e] eqn:E; [|eexists; reflexivity].
  destruct Hin as [->|Hin]; [destruct He as [e He]; congruence|]. destruct (IH x Hin He) as [e ->]. eexists; reflexivity.
Qed.
Lemma bind_err {A B} (r : res A) (f : A -> res B) : (forall a, r = Ok a -> exists e, f a = Err e) -> exists e, (do x <- r; f x) = Err e.
Proof. intros H. destruct r as [a|e]; [apply H; reflexivity|exists e; reflexivity]. Qed.

Section Rejected.
Variable V : Type.
Variable conv : leaf -> V -> option V.
Variables conv_terminal conv_reward : V -> option V.
Variable is_zero : V -> bool.
Variable one : V.
Variable masking : bool.
Variables states_spec actions_spec internals_spec : tree leaf.
Variable initial : tree (arr V).
Variable M : Type.
Variable model_experience : M -> batch V -> M * res unit.
Notation experience := (experience V conv conv_terminal conv_reward is_zero one masking states_spec actions_spec internals_spec initial M model_experience).
Notation process := (process V one masking states_spec actions_spec initial).
Notation episode := (ExpModel.episode V conv conv_terminal conv_reward states_spec actions_spec internals_spec).
Notation episodes := (episodes V conv conv_terminal conv_reward is_zero states_spec actions_spec internals_spec M model_experience).
Notation to_tensor := (to_tensor V conv).

Lemma rejected m s a t r i : (forall x, process s a t r i = Ok x -> forall o k, exists e, episode x o k = Err e) ->
  exists e, experience false m s a t r i = (m, Err e).
Proof.
  intros H. unfold ExpModel.experience. destruct (process s a t r i) as [x|e] eqn:E; [|exists e; reflexivity]. specialize (H x eq_refl).
  destruct (shape (i_terminal V x)) as [|d [|]]; try (eexists; reflexivity). destruct (rev (data (i_terminal V x))) as [|v vs] eqn:ER; [eexists; reflexivity|].
  destruct (is_zero v) eqn:Ev; [eexists; reflexivity|].
  assert (HIn : In v (data (i_terminal V x))) by (apply in_rev; rewrite ER; left; reflexivity). clear ER.
  revert HIn. generalize (data (i_terminal V x)). generalize 0 at 1. generalize 0. intros o k ts. revert o k. induction ts as [|u ts IH]; intros o k Hin; [contradiction|].
  cbn [ExpModel.episodes]. destruct (is_zero u) eqn:Eu.
  - apply IH. destruct Hin as [->|Hin]; [congruence|exact Hin].
  - destruct (H k (S o)) as [e ->]. eexists; reflexivity.
Qed.

(** conversions that fail *)
Lemma to_tensors_rec_fails {A B C} (g : leaf -> B -> res C) (f : A -> B) (P : leaf -> A -> Prop) : (forall l a, P l a -> exists e, g l (f a) = Err e) ->
  forall (s : tree leaf) (t : tree A) , like s t -> distinct t -> entries t <> [] -> (forall p l a, In (p, l) (entries s) -> In (p, a) (entries t) -> P l a) ->
  exists e, to_tensors_rec g s (tmap f t) = Err e.
Proof.
  intros Hg. induction s as [l|ds IH] using tree_rect'; intros t Hl Hd He HP.
  - destruct t as [a|]; [|discriminate]. cbn. destruct (Hg l a) as [e E]; [apply (HP [] l a); left; reflexivity|]. rewrite E. exists e. reflexivity.
  - destruct t as [|dt]; [discriminate|]. cbn [tmap]. rewrite to_tensors_rec_dict. apply bind_err. intros e E. exfalso.
    assert (HE : exists k s x, In (k, s) ds /\ In (k, x) dt /\ like s x /\ entries x <> []).
    { unfold like in Hl. cbn [tmap] in Hl. injection Hl as Hl. clear - Hl He. revert ds Hl. cbn [entries] in He. induction dt as [|[k x] dt IHd]; intros ds Hl; [exfalso; apply He; reflexivity|].
      destruct ds as [|[k' s] ds]; [discriminate|]. cbn in Hl. injection Hl as E1 E2 E3. subst k'. cbn [flat_map fst snd] in He. destruct (entries x) as [|en es] eqn:Ex.
      - cbn in He. destruct (IHd He ds E3) as (k1 & s1 & x1 & H1 & H2 & H3). exists k1, s1, x1. split; [right; exact H1|]. split; [right; exact H2|exact H3].
      - exists k, s, x. split; [left; reflexivity|]. split; [left; reflexivity|]. split; [exact E2|]. congruence. }
    destruct HE as (k & s & x & H1 & H2 & H3 & H4). inversion Hd as [|? N F]; subst.
    destruct (map_res_err (fun ks => do y <- rec_child g (map (fun kt => (fst kt, tmap f (snd kt))) dt) ks; Ok (fst ks, y)) ds (k, s) H1) as [e0 E0]; [|congruence].
    unfold rec_child. cbn [fst snd]. rewrite dget_map, (dget_in _ _ _ N H2). cbn [option_map]. rewrite Forall_forall in IH, F.
    destruct (IH (k, s) H1 x H3 (F (k, x) H2) H4) as [e1 E1]; [|cbn [snd] in E1; rewrite E1; exists e1; reflexivity].
    intros p l a Hp Ha. apply (HP (k :: p) l a); cbn [entries]; apply in_flat_map.
    + exists (k, s). split; [exact H1|]. cbn [fst snd]. apply (in_map (fun pa => (k :: fst pa, snd pa)) _ (p, l)). exact Hp.
    + exists (k, x). split; [exact H2|]. cbn [fst snd]. apply (in_map (fun pa => (k :: fst pa, snd pa)) _ (p, a)). exact Ha.
Qed.

(** internals omitted for a state alone *)
Lemma tile_shape n (a : arr V) : exists s, shape (np_tile n (expand a)) = match shape a with [] => [n] | _ => 1 :: s end /\ (n = 1 -> shape a <> [] -> s = shape a).
Proof.
  destruct a as [sh ds]. unfold np_tile, expand. cbn [shape data]. destruct sh as [|d sh]; [exists []; split; [cbn; f_equal; lia|intros _ H; exfalso; apply H; reflexivity]|].
  cbn [rev]. destruct (rev sh ++ [d]) as [|z zs] eqn:E; [destruct (rev sh); discriminate|]. cbn [app shape rev]. 
  assert (EZ : rev zs ++ [z] = d :: sh).
  { change (rev (z :: zs) = d :: sh). rewrite <- E, rev_app_distr, rev_involutive. reflexivity. }
  rewrite rev_app_distr. cbn [rev app]. exists (rev zs ++ [z * n]). split; [reflexivity|]. intros -> _. rewrite Nat.mul_1_r. exact EZ.
Qed.
Lemma reject_alone m n x s a t r : n = 1 -> table V n x -> fits V states_spec x -> writes_state V s (instance V 0 x) ->
  like internals_spec initial -> distinct initial -> entries initial <> [] ->
  (forall p l b, In (p, l) (entries internals_spec) -> In (p, b) (entries initial) -> shape b = l_shape l) ->
  exists e, experience false m s a t r None = (m, Err e).
Proof.
  intros Hn Hx Hf Hs Hl Hd He Hsh. apply rejected. intros y Hy o k. unfold ExpModel.process in Hy.
  rewrite (process_one_any V states_spec x n 0 s ltac:(lia) Hx Hf Hs) in Hy. cbn [bind ExpModel.internals_arrays] in Hy.
  assert (EI : i_internals V y = tmap expand (tmap (fun x => np_tile 1 (expand x)) initial)).
  { repeat (apply bind_ok in Hy; destruct Hy as [? [_ Hy]]). apply ok_inj in Hy. subst y. reflexivity. }
  unfold ExpModel.episode. apply bind_err. intros s' _. apply bind_err. intros i' Hi. exfalso. rewrite EI, !tmap_tmap in Hi.
  destruct (to_tensors_rec_fails to_tensor (fun x => np_slice o k (expand (np_tile 1 (expand x)))) (fun l b => shape b = l_shape l)) with (s := internals_spec) (t := initial) as [e E]; auto; [|congruence].
  intros l b Hb. unfold InpModel.to_tensor. destruct (tile_shape 1 b) as [s0 [E1 E2]].
  assert (ES : tl (shape (np_slice o k (expand (np_tile 1 (expand b))))) = 1 :: shape b).
  { unfold np_slice. cbn [shape tl]. change (match shape (expand (np_tile 1 (expand b))) with [] => [] | d :: s => Nat.min k d - o :: s end) with (Nat.min k 1 - o :: shape (np_tile 1 (expand b))). cbn [tl]. rewrite E1. destruct (shape b) as [|d sh] eqn:Eb; [reflexivity|]. rewrite (E2 eq_refl ltac:(discriminate)). reflexivity. }
  rewrite ES. destruct (shape_eqb (1 :: shape b) (l_shape l)) eqn:E; [|eexists; reflexivity]. apply (proj1 (shape_eqb_true _ _)) in E.
  exfalso. rewrite <- Hb in E. apply (f_equal (@length nat)) in E. cbn in E. lia.
Qed.
(** internals omitted for arrays of several states *)
Lemma reject_arrays m n x s a t r : n <> 0 -> n <> 1 -> table V n x -> fits V states_spec x -> states_arrays V x s ->
  (exists p b, In (p, b) (entries initial) /\ shape b <> []) ->
  exists e, experience false m s a t r None = (m, Err e).
Proof.
  intros Hn Hn1 Hx Hf Hs (p & b & Hb & Hsh). apply rejected. intros y Hy o k. exfalso. unfold ExpModel.process in Hy.
  rewrite (states_arrays_ok V _ n _ _ Hn Hx Hf Hs) in Hy. cbn [bind ExpModel.internals_arrays] in Hy.
  apply bind_ok in Hy. destruct Hy as [a' [_ Hy]]. apply bind_ok in Hy. destruct Hy as [ter [_ Hy]]. apply bind_ok in Hy. destruct Hy as [rew [_ Hy]].
  apply bind_ok in Hy. destruct Hy as [c [Hc _]]. destruct (map_res_err (check_length V n) (leaves (tmap (fun x => np_tile n (expand x)) initial)) (np_tile n (expand b))) as [e E]; [| |congruence].
  - rewrite leaves_tmap. apply (in_map (fun x => np_tile n (expand x))). rewrite <- leaves_entries. apply (in_map snd _ (p, b)). exact Hb.
  - destruct (tile_shape n b) as [s0 [E1 _]]. unfold check_length, dim0. rewrite E1. destruct (shape b); [congruence|]. cbn [bind]. destruct (Nat.eqb_spec 1 n); [congruence|]. eexists; reflexivity.
Qed.
(** values of a single state with a dictionary of actions *)
Lemma reject_single m n xs s d t r i : n <> 0 -> rows V n xs -> fits V states_spec (Leaf xs) -> states_steps V n (Leaf xs) s ->
  exists e, experience false m s (PDict d) t r i = (m, Err e).
Proof.
  intros Hn Hx Hf Hs. apply rejected. intros y Hy o k. exfalso. unfold ExpModel.process in Hy.
  rewrite (states_steps_ok V _ n _ _ Hn (table_leaf V n xs Hx) Hf Hs) in Hy. cbn [bind ExpModel.actions_list] in Hy.
  apply bind_ok in Hy. destruct Hy as [i' [_ Hy]]. discriminate.
Qed.
(** the name 'action' *)
Lemma array_tree_leaf (r : pv V) u : is_dict V r = false -> array_tree r = Ok u -> exists a, u = Leaf a.
Proof. intros H E. destruct r as [v|a|ps|d]; try discriminate; cbn [array_tree] in E; apply bind_ok in E; destruct E as [a' [_ E]]; apply ok_inj in E; subst u; eexists; reflexivity. Qed.
Lemma reject_named m d s a t r i : actions_spec = Dict d ->
  (exists b, a = PArr b) \/ (exists q, a = PDict [(["action"], q)] /\ is_dict V q = false) \/
  (exists qs, a = PList qs /\ forall p, In p qs -> exists q, p = PDict [(["action"], q)] /\ is_dict V q = false) ->
  exists e, experience false m s a t r i = (m, Err e).
Proof.
  intros Hd Ha. apply rejected. intros y Hy o k. unfold ExpModel.process in Hy. apply bind_ok in Hy. destruct Hy as [[[[T batched] n] iter] [_ Hy]].
  apply bind_ok in Hy. destruct Hy as [i' [_ Hy]]. apply bind_ok in Hy. destruct Hy as [a' [Ha' Hy]].
  assert (HL : exists b, a' = Leaf b).
  { destruct Ha as [[b ->]|[[q [-> Hq]]|[qs [-> Hq]]]].
    - destruct iter as [[]|]; cbn in Ha'; apply ok_inj in Ha'; subst a'; eexists; reflexivity.
    - destruct iter as [[]|]; cbn [ExpModel.actions_list ExpModel.actions_arrays only_action] in Ha'; [discriminate| |]; cbn in Ha'; apply (array_tree_leaf q a' Hq Ha').
    - assert (EL : ExpModel.actions_list V (PList qs) = Ok a') by (destruct iter as [[]|]; [exact Ha'|discriminate|discriminate]). clear Ha'.
      destruct qs as [|p0 qs]; [discriminate|]. cbn [ExpModel.actions_list] in EL.
      assert (EQ : exists rs, p0 :: qs = map (fun r => PDict [(["action"], r)]) rs /\ forall r, In r rs -> is_dict V r = false).
      { clear EL. induction (p0 :: qs) as [|p ps IH]; [exists []; split; [reflexivity|intros ? []]|]. destruct (IH (fun q' H => Hq q' (or_intror H))) as [rs [-> Hr]].
        destruct (Hq p (or_introl eq_refl)) as [q [-> Hq']]. exists (q :: rs). split; [reflexivity|]. intros r' [<-|H]; auto. }
      destruct EQ as [rs [EQ Hr]]. assert (EP : is_dict V p0 = true) by (destruct (Hq p0 (or_introl eq_refl)) as [q [-> _]]; reflexivity).
      rewrite EP, EQ, only_actions_all in EL. cbn [bind] in EL. apply bind_ok in EL. destruct EL as [ts [Hts EL]]. destruct ts as [|t0 ts]; [discriminate|].
      destruct rs as [|r0 rs]; [discriminate|]. apply map_res_inv in Hts. inversion Hts as [|? ? ? ? H0 _]; subst.
      destruct (array_tree_leaf r0 t0 (Hr r0 (or_introl eq_refl)) H0) as [b ->]. cbn [stack_trees] in EL. apply bind_ok in EL. destruct EL as [? [_ EL]].
      apply bind_ok in EL. destruct EL as [? [_ EL]]. apply ok_inj in EL. subst a'. eexists; reflexivity. }
  destruct HL as [b ->].
  assert (EI : exists b', i_actions V y = Leaf b').
  { repeat (apply bind_ok in Hy; destruct Hy as [? [_ Hy]]). apply ok_inj in Hy. subst y. cbn [i_actions]. destruct batched; eexists; reflexivity. }
  destruct EI as [b' EI]. unfold ExpModel.episode. apply bind_err. intros ? _. apply bind_err. intros ? _. apply bind_err. intros ? _. apply bind_err. intros at1 Ha1.
  rewrite EI, Hd in Ha1. discriminate.
Qed.
End Rejected.
