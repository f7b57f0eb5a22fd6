(** Proofs about act: one instance and many. *)

From Coq Require Import String List ZArith Bool Lia.
From Verif Require Import Base InpModel InpSpec InpProofs.
Import ListNotations.
Open Scope list_scope.
Open Scope nat_scope.

Lemma rmap_bind {A B C} (f : A -> B) (x : res A) (g : B -> res C) : bind (rmap f x) g = bind x (fun a => g (f a)).
Proof. destruct x; reflexivity. Qed.
Lemma is_ok_bind {A B} (x : res A) (f : A -> res B) : is_ok (bind x f) <-> exists a, x = Ok a /\ is_ok (f a).
Proof.
  unfold is_ok. destruct x as [a|e]; cbn; split.
  - intros [b H]. exists a. eauto.
  - intros [a' [H [b Hb]]]. apply ok_inj in H. subst. eauto.
  - intros [b H]. discriminate.
  - intros [a' [H _]]. discriminate.
Qed.
Lemma bind_ok {A B} (x : res A) (f : A -> res B) b : bind x f = Ok b -> exists a, x = Ok a /\ f a = Ok b.
Proof. destruct x; cbn; [eauto|discriminate]. Qed.

Lemma Forall2_in_l {A B} (P : A -> B -> Prop) l l' : Forall2 P l l' -> Forall2 (fun x y => In x l /\ P x y) l l'.
Proof.
  intros H. assert (G : forall D, (forall x, In x l -> In x D) -> Forall2 (fun x y => In x D /\ P x y) l l').
  { induction H as [|x y l l' Hx H IH]; intros D HD; constructor.
    - split; [apply HD; left; reflexivity|exact Hx].
    - apply IH. intros z Hz. apply HD; right; exact Hz. }
  apply G. auto.
Qed.

(** * Conversion of trees *)

Section Convert.
Context {A B : Type}.

Lemma to_tensors_dict (g : leaf -> A -> res B) ds t :
  to_tensors g (Dict ds) (Dict t) =
  if same_names (Dict ds) (Dict t) then
    do e <- map_res (fun ks => do x <- child (fst ks) (Dict t); do y <- to_tensors g (snd ks) x; Ok (fst ks, y)) ds;
    Ok (Dict e)
  else Err "TensorforceError: invalid value".
Proof.
  cbn [to_tensors]. destruct (same_names _ _); [|reflexivity]. f_equal.
  induction ds as [|[k s] ds IH]; [reflexivity|]. cbn [map_res fst snd].
  destruct (child k (Dict t)); [|reflexivity]. cbn [bind]. destruct (to_tensors g s a); [|reflexivity]. cbn [bind].
  rewrite IH. reflexivity.
Qed.

Definition rec_child (g : leaf -> A -> res B) (dt : list (string * tree A)) (ks : string * tree leaf) : res (tree B) :=
  match dget (fst ks) dt with
  | Some x => to_tensors_rec g (snd ks) x
  | None => match snd ks with
            | Dict [] => Ok (Dict [])
            | Dict _ => if match leaves (snd ks) with [] => true | _ => false end
                        then Err "TypeError" else Err "AssertionError"
            | Leaf _ => Err "AssertionError"
            end
  end.
Lemma to_tensors_rec_dict (g : leaf -> A -> res B) ds t :
  to_tensors_rec g (Dict ds) (Dict t) =
    do e <- map_res (fun ks => do y <- rec_child g t ks; Ok (fst ks, y)) ds; Ok (Dict e).
Proof.
  cbn [to_tensors_rec]. f_equal. unfold rec_child.
  induction ds as [|[k s] ds IH]; [reflexivity|]. cbn [map_res fst snd]. rewrite IH.
  destruct (match dget k t with Some x => _ | None => _ end); reflexivity.
Qed.

Lemma child_leaves k (t x : tree A) a : child k t = Ok x -> In a (leaves x) -> In a (leaves t).
Proof.
  destruct t as [b|d]; cbn; [discriminate|]. destruct (dget k d) as [y|] eqn:E; [|discriminate].
  intros H Hin. apply ok_inj in H. subst y. apply in_concat. exists (leaves x). split; [|exact Hin].
  apply dget_some_in in E. apply (in_map (fun kt => leaves (snd kt))) in E. exact E.
Qed.
Lemma dget_leaves k (d : list (string * tree A)) x a : dget k d = Some x -> In a (leaves x) -> In a (leaves (Dict d)).
Proof. intros E. apply (child_leaves k (Dict d) x a). cbn. rewrite E. reflexivity. Qed.
End Convert.

Lemma forallb_ext {A} (f g : A -> bool) l : (forall x, f x = g x) -> forallb f l = forallb g l.
Proof. intros H. induction l as [|x l IH]; [reflexivity|]. cbn. rewrite H, IH. reflexivity. Qed.
Lemma same_names_tmap {A B C} (f : B -> C) (s : tree A) (t : tree B) : same_names s (tmap f t) = same_names s t.
Proof.
  unfold same_names. rewrite items_tmap. f_equal.
  - apply forallb_ext. intros p. induction (items t) as [|q l IH]; [reflexivity|]. cbn. rewrite IH. reflexivity.
  - induction (items t) as [|q l IH]; [reflexivity|]. cbn. rewrite IH. reflexivity.
Qed.

Lemma to_tensors_tmap {A B C} (f : A -> B) (g : leaf -> B -> res C) : forall s t,
  to_tensors g s (tmap f t) = to_tensors (fun l a => g l (f a)) s t.
Proof.
  induction s as [l|ds IH] using tree_rect'; intros t; destruct t as [a|d]; try reflexivity.
  change (tmap f (Dict d)) with (Dict (map (fun kt => (fst kt, tmap f (snd kt))) d)) at 1.
  rewrite !to_tensors_dict. change (Dict (map (fun kt => (fst kt, tmap f (snd kt))) d)) with (tmap f (Dict d)).
  rewrite same_names_tmap. destruct (same_names _ _); [|reflexivity]. f_equal. apply map_res_ext.
  intros ks Hin. rewrite child_tmap, rmap_bind. destruct (child (fst ks) (Dict d)); [|reflexivity]. cbn [bind].
  rewrite Forall_forall in IH. rewrite (IH ks Hin). reflexivity.
Qed.
Lemma to_tensors_rec_tmap {A B C} (f : A -> B) (g : leaf -> B -> res C) : forall s t,
  to_tensors_rec g s (tmap f t) = to_tensors_rec (fun l a => g l (f a)) s t.
Proof.
  induction s as [l|ds IH] using tree_rect'; intros t; destruct t as [a|d]; try reflexivity.
  change (tmap f (Dict d)) with (Dict (map (fun kt => (fst kt, tmap f (snd kt))) d)).
  rewrite !to_tensors_rec_dict. f_equal. apply map_res_ext.
  intros ks Hin. unfold rec_child. rewrite dget_map. destruct (dget (fst ks) d); [|reflexivity]. cbn [option_map].
  rewrite Forall_forall in IH. rewrite (IH ks Hin). reflexivity.
Qed.

(** The result of a conversion determines the result of another one *)
Lemma to_tensors_mono {A B C} (g : leaf -> A -> res B) (h : leaf -> A -> res C) (f : B -> C) : forall s t t',
  (forall l a b, In a (leaves t) -> g l a = Ok b -> h l a = Ok (f b)) ->
  to_tensors g s t = Ok t' -> to_tensors h s t = Ok (tmap f t').
Proof.
  induction s as [l|ds IH] using tree_rect'; intros t t' Hg H; destruct t as [a|d]; try discriminate.
  - cbn in *. destruct (g l a) as [b|] eqn:E; [|discriminate]. cbn in H. apply ok_inj in H. subst t'.
    rewrite (Hg l a b (or_introl eq_refl) E). reflexivity.
  - rewrite to_tensors_dict in H. rewrite to_tensors_dict. destruct (same_names _ _); [|discriminate].
    apply bind_ok in H. destruct H as [e [He H]]. apply ok_inj in H. subst t'.
    apply map_res_inv in He.
    rewrite (map_res_Forall2 _ ds (map (fun kt => (fst kt, tmap f (snd kt))) e)); [reflexivity|].
    rewrite Forall_forall in IH.
    assert (G : Forall2 (fun (ks : string * tree leaf) kt => In ks ds /\ (do x <- child (fst ks) (Dict d); do y <- to_tensors g (snd ks) x; Ok (fst ks, y)) = Ok kt) ds e).
    { apply (Forall2_in_l _ _ _ He). }
    clear He. induction G as [|ks kt ds' e [Hin H] G IHG]; constructor; [|exact IHG].
    apply bind_ok in H. destruct H as [x [Hx H]]. apply bind_ok in H. destruct H as [y [Hy H]]. apply ok_inj in H. subst kt.
    rewrite Hx. cbn [bind fst snd]. rewrite (IH ks Hin x y); [reflexivity| |exact Hy].
    intros l a b Ha. apply Hg. eapply child_leaves; eauto.
Qed.
Lemma to_tensors_rec_mono {A B C} (g : leaf -> A -> res B) (h : leaf -> A -> res C) (f : B -> C) : forall s t t',
  (forall l a b, In a (leaves t) -> g l a = Ok b -> h l a = Ok (f b)) ->
  to_tensors_rec g s t = Ok t' -> to_tensors_rec h s t = Ok (tmap f t').
Proof.
  induction s as [l|ds IH] using tree_rect'; intros t t' Hg H; destruct t as [a|d]; try discriminate.
  - cbn in *. destruct (g l a) as [b|] eqn:E; [|discriminate]. cbn in H. apply ok_inj in H. subst t'.
    rewrite (Hg l a b (or_introl eq_refl) E). reflexivity.
  - rewrite to_tensors_rec_dict in H. rewrite to_tensors_rec_dict.
    apply bind_ok in H. destruct H as [e [He H]]. apply ok_inj in H. subst t'.
    apply map_res_inv in He.
    rewrite (map_res_Forall2 _ ds (map (fun kt => (fst kt, tmap f (snd kt))) e)); [reflexivity|].
    assert (G : Forall2 (fun (ks : string * tree leaf) kt => In ks ds /\ (do y <- rec_child g d ks; Ok (fst ks, y)) = Ok kt) ds e).
    { apply (Forall2_in_l _ _ _ He). }
    rewrite Forall_forall in IH.
    clear He. induction G as [|ks kt ds' e [Hin H] G IHG]; constructor; [|exact IHG].
    apply bind_ok in H. destruct H as [y [Hy H]]. apply ok_inj in H. subst kt. cbn [fst snd].
    unfold rec_child in *. destruct (dget (fst ks) d) as [x|] eqn:E.
    + rewrite (IH ks Hin x y); [reflexivity| |exact Hy]. intros l a b Ha. apply Hg. eapply dget_leaves; eauto.
    + destruct (snd ks) as [l|[|p r]]; [discriminate| |].
      * apply ok_inj in Hy. subst y. reflexivity.
      * destruct (leaves (Dict (p :: r))); discriminate.
Qed.

(** Success of several conversions is success of one that needs them all *)
Lemma map_res_is_ok {A B} (f : A -> res B) l : (forall x, In x l -> is_ok (f x)) -> is_ok (map_res f l).
Proof.
  induction l as [|x l IH]; intros H; [exists []; reflexivity|]. destruct (H x (or_introl eq_refl)) as [y Hy].
  destruct IH as [ys Hys]; [intros z Hz; apply H; right; exact Hz|]. exists (y :: ys). cbn. rewrite Hy. cbn. rewrite Hys. reflexivity.
Qed.
Lemma map_res_is_ok_inv {A B} (f : A -> res B) l x : is_ok (map_res f l) -> In x l -> is_ok (f x).
Proof.
  intros [ys H] Hin. apply map_res_inv in H. induction H as [|z y l ys Hz _ IH]; [contradiction|].
  destruct Hin as [<-|Hin]; [exists y; exact Hz|auto].
Qed.

Lemma to_tensors_all {A B C} (n : nat) (h : nat -> leaf -> A -> res B) (g : leaf -> A -> res C) : n <> 0 -> forall s t,
  (forall l a, In a (leaves t) -> (forall i, i < n -> is_ok (h i l a)) -> is_ok (g l a)) ->
  (forall i, i < n -> is_ok (to_tensors (h i) s t)) -> is_ok (to_tensors g s t).
Proof.
  intros Hn. induction s as [l|ds IH] using tree_rect'; intros t Hg H; destruct t as [a|d].
  - cbn in *. apply is_ok_bind. destruct (Hg l a (or_introl eq_refl)) as [c Hc].
    + intros i Hi. specialize (H i Hi). apply is_ok_bind in H. destruct H as [b [Hb _]]. exists b; exact Hb.
    + exists c. split; [exact Hc|]. exists (Leaf c). reflexivity.
  - destruct (H 0 ltac:(lia)) as [x Hx]. discriminate.
  - destruct (H 0 ltac:(lia)) as [x Hx]. discriminate.
  - rewrite to_tensors_dict.
    assert (Hs : same_names (Dict ds) (Dict d) = true).
    { destruct (H 0 ltac:(lia)) as [x Hx]. rewrite to_tensors_dict in Hx. destruct (same_names _ _); [reflexivity|discriminate]. }
    rewrite Hs. apply is_ok_bind.
    assert (M : is_ok (map_res (fun ks => do x <- child (fst ks) (Dict d); do y <- to_tensors g (snd ks) x; Ok (fst ks, y)) ds)).
    { apply map_res_is_ok. intros ks Hin.
      assert (HH : forall i, i < n -> is_ok (do x <- child (fst ks) (Dict d); do y <- to_tensors (h i) (snd ks) x; Ok (fst ks, y))).
      { intros i Hi. specialize (H i Hi). rewrite to_tensors_dict, Hs in H. apply is_ok_bind in H. destruct H as [e [He _]].
        eapply (map_res_is_ok_inv (fun ks => do x <- child (fst ks) (Dict d); do y <- to_tensors (h i) (snd ks) x; Ok (fst ks, y))); [exists e; exact He|exact Hin]. }
      destruct (HH 0 ltac:(lia)) as [z Hz]. apply bind_ok in Hz. destruct Hz as [x [Hx _]]. rewrite Hx. cbn [bind].
      apply is_ok_bind. rewrite Forall_forall in IH.
      destruct (IH ks Hin x) as [y Hy].
      - intros l a Ha. apply Hg. eapply child_leaves; eauto.
      - intros i Hi. specialize (HH i Hi). rewrite Hx in HH. cbn [bind] in HH. apply is_ok_bind in HH. destruct HH as [y [Hy _]]. exists y; exact Hy.
      - exists y. split; [exact Hy|]. eexists; reflexivity. }
    destruct M as [e He]. exists e. split; [exact He|]. eexists; reflexivity.
Qed.
Lemma to_tensors_rec_all {A B C} (n : nat) (h : nat -> leaf -> A -> res B) (g : leaf -> A -> res C) : n <> 0 -> forall s t,
  (forall l a, In a (leaves t) -> (forall i, i < n -> is_ok (h i l a)) -> is_ok (g l a)) ->
  (forall i, i < n -> is_ok (to_tensors_rec (h i) s t)) -> is_ok (to_tensors_rec g s t).
Proof.
  intros Hn. induction s as [l|ds IH] using tree_rect'; intros t Hg H; destruct t as [a|d].
  - cbn in *. apply is_ok_bind. destruct (Hg l a (or_introl eq_refl)) as [c Hc].
    + intros i Hi. specialize (H i Hi). apply is_ok_bind in H. destruct H as [b [Hb _]]. exists b; exact Hb.
    + exists c. split; [exact Hc|]. exists (Leaf c). reflexivity.
  - destruct (H 0 ltac:(lia)) as [x Hx]. discriminate.
  - destruct (H 0 ltac:(lia)) as [x Hx]. discriminate.
  - rewrite to_tensors_rec_dict. apply is_ok_bind.
    assert (M : is_ok (map_res (fun ks => do y <- rec_child g d ks; Ok (fst ks, y)) ds)).
    { apply map_res_is_ok. intros ks Hin.
      assert (HH : forall i, i < n -> is_ok (rec_child (h i) d ks)).
      { intros i Hi. specialize (H i Hi). rewrite to_tensors_rec_dict in H. apply is_ok_bind in H. destruct H as [e [He _]].
        pose proof (map_res_is_ok_inv (fun ks => do y <- rec_child (h i) d ks; Ok (fst ks, y)) ds ks (ex_intro _ e He) Hin) as H'.
        apply is_ok_bind in H'. destruct H' as [y [Hy _]]. exists y; exact Hy. }
      apply is_ok_bind. rewrite Forall_forall in IH. unfold rec_child in *. destruct (dget (fst ks) d) as [x|] eqn:E.
      - destruct (IH ks Hin x) as [y Hy].
        + intros l a Ha. apply Hg. eapply dget_leaves; eauto.
        + exact HH.
        + exists y. split; [exact Hy|]. eexists; reflexivity.
      - destruct (HH 0 ltac:(lia)) as [z Hz]. destruct (snd ks) as [l|[|p r]]; [discriminate| |].
        + exists (Dict []). split; [reflexivity|]. eexists; reflexivity.
        + destruct (leaves (Dict (p :: r))); discriminate. }
    destruct M as [e He]. exists e. split; [exact He|]. eexists; reflexivity.
Qed.

(** What holds for all converted arrays *)
Lemma to_tensors_leaves {A B} (g : leaf -> A -> res B) (Q : B -> Prop) : forall s t t',
  (forall l a b, In a (leaves t) -> g l a = Ok b -> Q b) -> to_tensors g s t = Ok t' -> Forall Q (leaves t').
Proof.
  induction s as [l|ds IH] using tree_rect'; intros t t' Hg H; destruct t as [a|d]; try discriminate.
  - cbn in H. destruct (g l a) as [b|] eqn:E; [|discriminate]. cbn in H. apply ok_inj in H. subst t'.
    constructor; [|constructor]. apply (Hg l a b (or_introl eq_refl) E).
  - rewrite to_tensors_dict in H. destruct (same_names _ _); [|discriminate].
    apply bind_ok in H. destruct H as [e [He H]]. apply ok_inj in H. subst t'. apply map_res_inv in He.
    cbn [leaves]. induction He as [|ks kt ds e Hk He IHe]; [constructor|]. cbn [map concat].
    inversion IH as [|? ? I1 I2]; subst. apply Forall_app. split; [|apply IHe; exact I2].
    apply bind_ok in Hk. destruct Hk as [x [Hx Hk]]. apply bind_ok in Hk. destruct Hk as [y [Hy Hk]]. apply ok_inj in Hk. subst kt.
    cbn [snd]. apply (I1 x y); [|exact Hy]. intros l a b Ha. apply Hg. eapply child_leaves; eauto.
Qed.
Lemma to_tensors_rec_leaves {A B} (g : leaf -> A -> res B) (Q : B -> Prop) : forall s t t',
  (forall l a b, In a (leaves t) -> g l a = Ok b -> Q b) -> to_tensors_rec g s t = Ok t' -> Forall Q (leaves t').
Proof.
  induction s as [l|ds IH] using tree_rect'; intros t t' Hg H; destruct t as [a|d]; try discriminate.
  - cbn in H. destruct (g l a) as [b|] eqn:E; [|discriminate]. cbn in H. apply ok_inj in H. subst t'.
    constructor; [|constructor]. apply (Hg l a b (or_introl eq_refl) E).
  - rewrite to_tensors_rec_dict in H.
    apply bind_ok in H. destruct H as [e [He H]]. apply ok_inj in H. subst t'. apply map_res_inv in He.
    cbn [leaves]. induction He as [|ks kt ds e Hk He IHe]; [constructor|]. cbn [map concat].
    inversion IH as [|? ? I1 I2]; subst. apply Forall_app. split; [|apply IHe; exact I2].
    apply bind_ok in Hk. destruct Hk as [y [Hy Hk]]. apply ok_inj in Hk. subst kt.
    cbn [snd]. unfold rec_child in Hy. destruct (dget (fst ks) d) as [x|] eqn:E.
    + apply (I1 x y); [|exact Hy]. intros l a b Ha. apply Hg. eapply dget_leaves; eauto.
    + destruct (snd ks) as [l|[|p r]]; [discriminate| |].
      * apply ok_inj in Hy. subst y. constructor.
      * destruct (leaves (Dict (p :: r))); discriminate.
Qed.

(** * Masks *)

Lemma pop_leaves {A} : forall p (t : tree A) o t', pop p t = Ok (o, t') ->
  (forall m a, o = Some m -> In a (leaves m) -> In a (leaves t)) /\ (forall a, In a (leaves t') -> In a (leaves t)).
Proof.
  induction p as [|k r IH]; intros t o t' H.
  - destruct t; cbn in H; apply ok_inj in H; injection H as <- <-; split; try congruence; auto.
  - destruct t as [a|d]; [destruct r; cbn in H; apply ok_inj in H; injection H as <- <-; split; try congruence; auto|].
    destruct r as [|k' r].
    + cbn in H. destruct (dget k d) as [x|] eqn:E; apply ok_inj in H; injection H as <- <-; split; try congruence; auto.
      * intros m a Hm Ha. apply some_inj in Hm. subst m. eapply dget_leaves; eauto.
      * intros a. cbn [leaves]. rewrite !in_concat. intros [l [Hl Ha]]. exists l. split; [|exact Ha].
        apply in_map_iff in Hl. destruct Hl as [kt [<- Hk]]. apply (in_map (fun kt => leaves (snd kt))).
        clear - Hk. induction d as [|[k2 y] d IHd]; [contradiction|]. cbn in Hk. destruct (String.eqb k k2); [right; exact Hk|].
        destruct Hk as [<-|Hk]; [left; reflexivity|right; auto].
    + rewrite pop_cons2 in H. destruct (dget k d) as [[a|e]|] eqn:E.
      * discriminate.
      * apply bind_ok in H. destruct H as [[o2 x] [Hp H]]. apply ok_inj in H. cbn [fst snd] in H. injection H as <- <-.
        specialize (IH _ _ _ Hp). destruct IH as [I1 I2]. split.
        -- intros m a Hm Ha. eapply dget_leaves; [exact E|]. eapply I1; eauto.
        -- intros a. change (In a (concat (map (fun kt => leaves (snd kt)) (map (fun kt => if String.eqb k (fst kt) then (k, x) else kt) d))) -> In a (leaves (Dict d))).
           rewrite in_concat, map_map. intros [l [Hl Ha]]. apply in_map_iff in Hl. destruct Hl as [kt [<- Hk]].
           destruct (String.eqb k (fst kt)).
           ++ cbn [snd] in Ha. eapply dget_leaves; [exact E|]. apply I2; exact Ha.
           ++ cbn [leaves]. apply in_concat. exists (leaves (snd kt)). split; [|exact Ha]. apply (in_map (fun kt => leaves (snd kt))). exact Hk.
      * apply ok_inj in H. injection H as <- <-. split; try congruence; auto.
Qed.

Definition mmap {A B} (f : A -> B) (ms : list (list string * option (tree A))) : list (list string * option (tree B)) :=
  map (fun po => (fst po, option_map (tmap f) (snd po))) ms.

Lemma take_masks_tmap {A B} (f : A -> B) masking (d1 : leaf -> nat -> A) d2 :
  (forall l k, d2 l k = f (d1 l k)) -> forall acts t,
  take_masks masking d2 acts (tmap f t) = rmap (fun mt => (mmap f (fst mt), tmap f (snd mt))) (take_masks masking d1 acts t).
Proof.
  intros Hd. induction acts as [|[path l] acts IH]; intros t; [reflexivity|]. cbn [take_masks].
  destruct (maskable masking l) as [k|].
  - rewrite pop_tmap. destruct (pop (mask_path path) t) as [[o x]|]; [|reflexivity]. cbn [rmap bind fst snd].
    rewrite IH. destruct (take_masks masking d1 acts x) as [[ms y]|]; [|reflexivity]. cbn. rewrite Hd.
    destruct o; reflexivity.
  - rewrite IH. destruct (take_masks masking d1 acts t) as [[ms y]|]; reflexivity.
Qed.

Lemma take_masks_leaves {A} (Q : A -> Prop) masking (dflt : leaf -> nat -> A) : (forall l k, Q (dflt l k)) -> forall acts t ms t',
  Forall Q (leaves t) -> take_masks masking dflt acts t = Ok (ms, t') ->
  Forall Q (leaves t') /\ (forall p m, In (p, Some m) ms -> Forall Q (leaves m)).
Proof.
  intros Hd. induction acts as [|[path l] acts IH]; intros t ms t' Ht H; cbn [take_masks] in H.
  - apply ok_inj in H. injection H as <- <-. split; [exact Ht|]. intros p m [].
  - destruct (maskable masking l) as [k|].
    + apply bind_ok in H. destruct H as [[o x] [Hp H]]. apply bind_ok in H. destruct H as [[ms' y] [Hm H]].
      apply ok_inj in H. cbn [fst snd] in *. injection H as <- <-.
      destruct (pop_leaves _ _ _ _ Hp) as [P1 P2]. rewrite Forall_forall in Ht.
      destruct (IH x ms' y) as [I1 I2]; [apply Forall_forall; intros a Ha; apply Ht, P2, Ha|exact Hm|].
      split; [exact I1|]. intros p m [He|Hin]; [|eapply I2; exact Hin].
      injection He as <- <-. destruct o as [m|]; [apply Forall_forall; intros a Ha; apply Ht; eapply P1; eauto|].
      constructor; [apply Hd|constructor].
    + apply bind_ok in H. destruct H as [[ms' y] [Hm H]]. apply ok_inj in H. cbn [fst snd] in H. injection H as <- <-.
      destruct (IH t ms' y Ht Hm) as [I1 I2]. split; [exact I1|]. intros p m [He|Hin]; [discriminate|eapply I2; exact Hin].
Qed.

Lemma masks_tmap {A B C} (f : A -> B) (g : leaf -> B -> res C) : forall acts ms,
  masks_to_tensors g acts (mmap f ms) = masks_to_tensors (fun l a => g l (f a)) acts ms.
Proof.
  induction acts as [|[path l] acts IH]; intros [|[p o] ms]; try reflexivity.
  destruct o as [[a|d]|]; cbn [mmap map fst snd option_map tmap masks_to_tensors]; [|reflexivity|apply IH].
  destruct (l_num l); [|reflexivity]. destruct (g _ (f a)); [|reflexivity]. cbn [bind]. fold (mmap f ms). rewrite IH. reflexivity.
Qed.
Lemma masks_mono {A B C} (g : leaf -> A -> res B) (h : leaf -> A -> res C) (f : B -> C) : forall acts ms bs,
  (forall l p m a b, In (p, Some m) ms -> In a (leaves m) -> g l a = Ok b -> h l a = Ok (f b)) ->
  masks_to_tensors g acts ms = Ok bs -> masks_to_tensors h acts ms = Ok (map (fun pb => (fst pb, f (snd pb))) bs).
Proof.
  induction acts as [|[path l] acts IH]; intros [|[p o] ms] bs Hg H; cbn [masks_to_tensors] in *; try (apply ok_inj in H; subst bs; reflexivity).
  assert (Hg' : forall l p m a b, In (p, Some m) ms -> In a (leaves m) -> g l a = Ok b -> h l a = Ok (f b)) by (intros l1 p1 m1 a1 b1 H1; apply (Hg l1 p1 m1 a1 b1); right; exact H1).
  destruct o as [[a|d]|]; [|discriminate|apply IH; assumption].
  destruct (l_num l); [|discriminate]. apply bind_ok in H. destruct H as [b [Hb H]]. apply bind_ok in H. destruct H as [bs' [Hbs H]].
  apply ok_inj in H. subst bs. rewrite (Hg (mask_leaf l n) p (Leaf a) a b); [|left; reflexivity|left; reflexivity|exact Hb].
  cbn [bind]. rewrite (IH ms bs' Hg' Hbs). reflexivity.
Qed.
Lemma masks_all {A B C} (n : nat) (h : nat -> leaf -> A -> res B) (g : leaf -> A -> res C) : n <> 0 -> forall acts ms,
  (forall l p m a, In (p, Some m) ms -> In a (leaves m) -> (forall i, i < n -> is_ok (h i l a)) -> is_ok (g l a)) ->
  (forall i, i < n -> is_ok (masks_to_tensors (h i) acts ms)) -> is_ok (masks_to_tensors g acts ms).
Proof.
  intros Hn. induction acts as [|[path l] acts IH]; intros [|[p o] ms] Hg H; cbn [masks_to_tensors] in *; try (exists []; reflexivity).
  assert (Hg' : forall l p m a, In (p, Some m) ms -> In a (leaves m) -> (forall i, i < n -> is_ok (h i l a)) -> is_ok (g l a)) by (intros l1 p1 m1 a1 H1; apply (Hg l1 p1 m1 a1); right; exact H1).
  destruct o as [[a|d]|]; [| |apply IH; assumption].
  - destruct (l_num l) as [k|].
    + apply is_ok_bind. destruct (Hg (mask_leaf l k) p (Leaf a) a) as [c Hc]; [left; reflexivity|left; reflexivity| |].
      * intros i Hi. specialize (H i Hi). apply is_ok_bind in H. destruct H as [b [Hb _]]. exists b; exact Hb.
      * exists c. split; [exact Hc|]. apply is_ok_bind. destruct (IH ms Hg') as [cs Hcs].
        -- intros i Hi. specialize (H i Hi). apply is_ok_bind in H. destruct H as [b [_ H]]. apply is_ok_bind in H. destruct H as [bs [Hbs _]]. exists bs; exact Hbs.
        -- exists cs. split; [exact Hcs|]. eexists; reflexivity.
    + destruct (H 0 ltac:(lia)) as [x Hx]. discriminate.
  - destruct (H 0 ltac:(lia)) as [x Hx]. discriminate.
Qed.
Lemma masks_leaves {A B} (g : leaf -> A -> res B) (Q : B -> Prop) : forall acts ms bs,
  (forall l p m a b, In (p, Some m) ms -> In a (leaves m) -> g l a = Ok b -> Q b) ->
  masks_to_tensors g acts ms = Ok bs -> Forall (fun pb => Q (snd pb)) bs.
Proof.
  induction acts as [|[path l] acts IH]; intros [|[p o] ms] bs Hg H; cbn [masks_to_tensors] in *; try (apply ok_inj in H; subst bs; constructor).
  assert (Hg' : forall l p m a b, In (p, Some m) ms -> In a (leaves m) -> g l a = Ok b -> Q b) by (intros l1 p1 m1 a1 b1 H1; apply (Hg l1 p1 m1 a1 b1); right; exact H1).
  destruct o as [[a|d]|]; [|discriminate|apply (IH ms); assumption].
  destruct (l_num l); [|discriminate]. apply bind_ok in H. destruct H as [b [Hb H]]. apply bind_ok in H. destruct H as [bs' [Hbs H]].
  apply ok_inj in H. subst bs. constructor; [|apply (IH ms); assumption].
  cbn. eapply (Hg _ p (Leaf a) a b); [left; reflexivity|left; reflexivity|exact Hb].
Qed.

Lemma rename_tmap {A B} (f : A -> B) spec (t : tree A) : rename_single spec (tmap f t) = rmap (tmap f) (rename_single spec t).
Proof.
  destruct spec as [l|ds]; [|destruct t; reflexivity]. destruct t as [a|d]; [reflexivity|]. cbn [rename_single tmap].
  pose proof (pop_tmap f ["state"%string] (Dict d)) as P. cbn [tmap] in P. rewrite P.
  destruct (pop ["state"%string] (Dict d)) as [[[x|] y]|]; cbn; [|reflexivity|reflexivity].
  destruct y as [b|[|e r]]; reflexivity.
Qed.
Lemma rename_leaves {A} spec (t t' : tree A) a : rename_single spec t = Ok t' -> In a (leaves t') -> In a (leaves t).
Proof.
  destruct spec as [l|ds]; [|destruct t; cbn; intros H; apply ok_inj in H; subst; auto].
  destruct t as [b|d]; [cbn; intros H; apply ok_inj in H; subst; auto|]. cbn [rename_single].
  destruct (pop ["state"%string] (Dict d)) as [[o y]|] eqn:P; [|discriminate]. cbn [bind].
  destruct (pop_leaves _ _ _ _ P) as [P1 _]. destruct o as [x|]; [|discriminate].
  destruct y as [b|[|e r]]; try discriminate. intros H. apply ok_inj in H. subst t'. eapply P1; reflexivity.
Qed.

(** * Rows *)

Section Rows.
Variable V : Type.
Variable conv : leaf -> V -> option V.
Notation to_tensor := (to_tensor V conv).
Notation conv_all := (conv_all V conv).

Definition conv_row (l : leaf) (x : arr V) : res (arr V) :=
  if shape_eqb (shape x) (l_shape l) then do vs <- conv_all l (data x); Ok (Arr (shape x) vs)
  else Err "TensorforceError: invalid value shape".
Definition conv_rows (l : leaf) (xs : list (arr V)) : res (list (arr V)) := map_res (conv_row l) xs.

Lemma to_tensor_expand l x : to_tensor l (expand x) = rmap expand (conv_row l x).
Proof.
  unfold InpModel.to_tensor, conv_row, expand. cbn [shape data tl]. destruct (shape_eqb _ _); [|reflexivity].
  destruct (conv_all l (data x)); reflexivity.
Qed.
Lemma conv_all_length l : forall vs ws, conv_all l vs = Ok ws -> length ws = length vs.
Proof.
  induction vs as [|v vs IH]; cbn; intros ws H; [apply ok_inj in H; subst; reflexivity|].
  destruct (conv l v); [|discriminate]. apply bind_ok in H. destruct H as [x [Hx H]]. apply ok_inj in H. subst. cbn. rewrite (IH x Hx). reflexivity.
Qed.
Lemma conv_all_app l : forall a b, conv_all l (a ++ b) = do x <- conv_all l a; do y <- conv_all l b; Ok (x ++ y).
Proof.
  induction a as [|v a IH]; intros b; cbn; [destruct (conv_all l b); reflexivity|].
  destruct (conv l v); [|reflexivity]. rewrite IH. destruct (conv_all l a); [|reflexivity]. cbn.
  destruct (conv_all l b); reflexivity.
Qed.

Lemma conv_row_inv l x y : conv_row l x = Ok y -> shape x = l_shape l /\ shape y = l_shape l /\ conv_all l (data x) = Ok (data y).
Proof.
  unfold conv_row. destruct (shape_eqb _ _) eqn:E; [|discriminate]. apply shape_eqb_true in E. intros H.
  apply bind_ok in H. destruct H as [vs [Hv H]]. apply ok_inj in H. subst y. auto.
Qed.

Lemma conv_rows_pile n l xs ys : n <> 0 -> rows V n xs -> conv_rows l xs = Ok ys ->
  to_tensor l (pile V xs) = Ok (pile V ys) /\ rows V n ys /\
  forall i, i < n -> conv_row l (nth i xs (Arr [] [])) = Ok (nth i ys (Arr [] [])).
Proof.
  intros Hn [HL [sh Hs]] H. unfold conv_rows in H. apply map_res_inv in H.
  assert (HL' : length ys = n) by (rewrite <- HL; clear - H; induction H; cbn; congruence).
  assert (HD : conv_all l (concat (map data xs)) = Ok (concat (map data ys))).
  { clear - H. induction H as [|x y xs ys Hx H IH]; [reflexivity|]. cbn [map concat]. rewrite conv_all_app.
    apply conv_row_inv in Hx. destruct Hx as [_ [_ ->]]. cbn [bind]. rewrite IH. reflexivity. }
  assert (HN : forall i, i < n -> conv_row l (nth i xs (Arr [] [])) = Ok (nth i ys (Arr [] []))).
  { clear - H HL. intros i Hi. rewrite <- HL in Hi. clear HL. revert i Hi. induction H as [|x y xs ys Hx H IH]; cbn; intros i Hi; [lia|].
    destruct i as [|i]; [exact Hx|apply IH; lia]. }
  split; [|split; [|exact HN]].
  - unfold InpModel.to_tensor, pile. cbn [shape tl data]. rewrite HL, HL'.
    destruct H as [|x y xs ys Hx H]; [cbn in HL; congruence|].
    destruct (conv_row_inv l x y Hx) as [E1 [E2 _]]. rewrite E1, E2, shape_eqb_refl.
    rewrite HD. reflexivity.
  - split; [exact HL'|]. exists (l_shape l). intros y Hy. apply (In_nth _ _ (Arr [] [])) in Hy. destruct Hy as [i [Hi <-]].
    rewrite HL' in Hi. specialize (HN i Hi). destruct (conv_row_inv l _ _ HN) as [E1 [E2 E3]]. split; [exact E2|].
    unfold wf. apply conv_all_length in E3. rewrite E3, E2. rewrite <- E1.
    destruct (Hs (nth i xs (Arr [] []))) as [_ W]; [apply nth_In; lia|]. exact W.
Qed.
Lemma conv_rows_ok n l xs : n <> 0 -> rows V n xs -> is_ok (to_tensor l (pile V xs)) -> is_ok (conv_rows l xs).
Proof.
  intros Hn [HL [sh Hs]] [b H]. unfold InpModel.to_tensor in H. cbn [pile shape data tl] in H.
  destruct xs as [|x0 xs0]; [cbn in HL; congruence|]. destruct (shape_eqb (shape x0) (l_shape l)) eqn:E; [|discriminate].
  apply shape_eqb_true in E. apply bind_ok in H. destruct H as [vs [Hv _]].
  assert (S0 : sh = l_shape l) by (rewrite <- E; destruct (Hs x0 (or_introl eq_refl)); congruence). subst sh.
  unfold conv_rows. apply map_res_is_ok. intros x Hx. unfold conv_row. destruct (Hs x Hx) as [-> _]. rewrite shape_eqb_refl.
  apply is_ok_bind. clear - Hx Hv. revert vs Hv Hx. generalize (x0 :: xs0). induction l0 as [|y ys IH]; intros vs Hv Hx; [contradiction|].
  cbn [map concat] in Hv. rewrite conv_all_app in Hv. apply bind_ok in Hv. destruct Hv as [a [Ha Hv]]. apply bind_ok in Hv. destruct Hv as [c [Hc _]].
  destruct Hx as [->|Hx]; [exists a; split; [exact Ha|eexists; reflexivity]|]. eapply IH; eauto.
Qed.
End Rows.
