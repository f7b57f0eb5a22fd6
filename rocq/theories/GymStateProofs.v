(** Proofs about OpenAIGym: states, clipping and dropping, ends of episodes. *)

From Coq Require Import String Ascii List ZArith Reals Bool Lia Lra Permutation.
From Verif Require Import Base ParModel ParProofs GymModel GymEnvModel GymSpec GymProofs GymFitProofs.
Import ListNotations.
Open Scope string_scope.

(** * States *)

Lemma dget_dset : forall A (d : list (string * A)) k v k', dget (dset d k v) k' = if String.eqb k' k then Some v else dget d k'.
Proof.
  induction d as [| (k0, v0) d IH]; intros k v k'; cbn [dset dget]; [reflexivity |].
  destruct (String.eqb_spec k k0) as [<- | N]; cbn [dget].
  - destruct (String.eqb k' k); reflexivity.
  - rewrite IH. destruct (String.eqb_spec k' k0) as [-> | N']; [| reflexivity]. destruct (String.eqb_spec k0 k); [congruence | reflexivity].
Qed.

Lemma one_tensor_spec : forall allow mn mx s sp, one_tensor s = true -> specs_from allow mn mx s = Ok sp -> exists l, sp = SLeaf l.
Proof.
  intros allow mn mx s sp O E. destruct s as [n | sh | sh nv | sh lo hi | l | l]; try discriminate O; cbn [specs_from simple_specs] in E.
  - injection E as <-. eauto.
  - injection E as <-. eauto.
  - destruct nv as [| k nv]; [discriminate |]. rewrite uniform_all in E. cbn [one_tensor] in O. rewrite O in E. injection E as <-. eauto.
  - destruct (box_min allow mn lo); [| discriminate]. cbn [bind] in E. destruct (box_max allow mx hi); [| discriminate]. injection E as <-. eauto.
Qed.

Lemma tuple_declared : forall allow l n d d', forallb one_tensor l = true -> tuple_specs (specs_from allow None None) n l d = Ok d' ->
  forall i, (n <= i < n + length l)%nat \/ dget d ("gymtpl" ++ str i) <> None -> exists x, dget d' ("gymtpl" ++ str i) = Some x.
Proof.
  intros allow. induction l as [| s l IH]; intros n d d' O E i H; cbn [tuple_specs forallb length] in *.
  - injection E as <-. destruct H as [H | H]; [lia |]. destruct (dget d ("gymtpl" ++ str i)); [eauto | congruence].
  - apply andb_prop in O. destruct O as [O1 O2]. destruct (specs_from allow None None s) as [x |] eqn:Ex; [| discriminate]. cbn [bind] in E.
    destruct (one_tensor_spec _ _ _ _ _ O1 Ex) as [lf ->].
    apply (IH (S n) _ _ O2 E). destruct (Nat.eq_dec i n) as [-> | Ni].
    + right. rewrite dget_dset, String.eqb_refl. discriminate.
    + destruct H as [H | H]; [left; lia |]. right. rewrite dget_dset. destruct (String.eqb ("gymtpl" ++ str i) ("gymtpl" ++ str n)); [discriminate | exact H].
Qed.

Lemma dict_declared : forall allow l d d', forallb (fun ks => one_tensor (snd ks)) l = true -> dict_specs (specs_from allow None None) l d = Ok d' ->
  forall k, In k (map fst l) \/ dget d k <> None -> exists x, dget d' k = Some x.
Proof.
  intros allow. induction l as [| (key, s) l IH]; intros d d' O E k H; cbn [dict_specs forallb map fst snd] in *.
  - injection E as <-. destruct H as [[] | H]. destruct (dget d k); [eauto | congruence].
  - apply andb_prop in O. destruct O as [O1 O2]. destruct (specs_from allow None None s) as [x |] eqn:Ex; [| discriminate]. cbn [bind] in E.
    destruct (one_tensor_spec _ _ _ _ _ O1 Ex) as [lf ->].
    apply (IH _ _ O2 E). destruct (String.eqb_spec k key) as [-> | Nk].
    + right. rewrite dget_dset, String.eqb_refl. discriminate.
    + destruct H as [[<- | H] | H]; [congruence | left; exact H |]. right. rewrite dget_dset. destruct (String.eqb k key); [discriminate | exact H].
Qed.

Section States.
Variable V : Type.
Variable finite : V -> bool.
Notation tarr := (TArr V).

Lemma tuple_states_ok : forall sp xs n d, (forall k, In k (map fst d) -> exists i, (i < n)%nat /\ k = "gymtpl" ++ str i) ->
  (forall i, (n <= i < n + length xs)%nat -> exists l, component sp ("gymtpl" ++ str i) = Ok (SLeaf l)) ->
  forallb (fun x => forallb finite (snd x)) xs = true ->
  tuple_states V (flatten V finite) sp n (map (fun x => GArr V (fst x) (snd x)) xs) d = Ok (d ++ tpl_items V n xs)%list.
Proof.
  intros sp. induction xs as [| x xs IH]; intros n d Hd Hc Hf; [cbn; rewrite app_nil_r; reflexivity |].
  cbn [map tuple_states forallb length] in *. apply andb_prop in Hf. destruct Hf as [F1 F2].
  destruct (Hc n) as [l ->]; [lia |]. cbn [bind flatten]. unfold flatten_array, all_finite. rewrite F1. cbn [negb bind add_state].
  rewrite dset_fresh.
  - rewrite IH.
    + rewrite <- app_assoc. rewrite tpl_items_cons. reflexivity.
    + intros k I. rewrite map_app in I. apply in_app_or in I. destruct I as [I | [<- | []]].
      * destruct (Hd k I) as (i & Hi & ->). exists i. split; [lia | reflexivity].
      * exists n. split; [lia | reflexivity].
    + intros i Hi. apply Hc. lia.
    + exact F2.
  - intro I. apply Hd in I. destruct I as (i & Hi & E). apply app_inj_s, str_inj in E. lia.
Qed.

(** Arrays of a dictionary *)
Definition arr_items (l : list (string * (list nat * list V))) : list (string * tval V) := map (fun kx => (fst kx, tarr (fst (snd kx)) (snd (snd kx)))) l.
Definition arr_values (l : list (string * (list nat * list V))) : list (string * gval V) := map (fun kx => (fst kx, GArr V (fst (snd kx)) (snd (snd kx)))) l.

Lemma arr_items_names : forall l, map fst (arr_items l) = map fst l.
Proof. intro l. unfold arr_items. rewrite map_map. reflexivity. Qed.
Lemma arr_values_names : forall l, map fst (arr_values l) = map fst l.
Proof. intro l. unfold arr_values. rewrite map_map. reflexivity. Qed.

Lemma dict_states_ok : forall sp l d, NoDup (map fst d ++ map fst l)%list ->
  (forall k, In k (map fst l) -> exists lf, component sp k = Ok (SLeaf lf)) ->
  forallb (fun kx => forallb finite (snd (snd kx))) l = true ->
  dict_states V (flatten V finite) sp (arr_values l) d = Ok (d ++ arr_items l)%list.
Proof.
  intros sp. induction l as [| (k, x) l IH]; intros d Hd Hc Hf; [cbn; rewrite app_nil_r; reflexivity |].
  cbn [arr_values map dict_states forallb fst snd] in *. fold (arr_values l). apply andb_prop in Hf. destruct Hf as [F1 F2].
  destruct (Hc k) as [lf ->]; [left; reflexivity |]. cbn [bind flatten]. unfold flatten_array, all_finite. rewrite F1. cbn [negb bind add_state].
  rewrite dset_fresh by (apply NoDup_remove_2 in Hd; intro I; apply Hd, in_or_app; auto).
  rewrite IH; [rewrite <- app_assoc; reflexivity | | | exact F2].
  - rewrite map_app, <- app_assoc. exact Hd.
  - intros k' I. apply Hc. right. exact I.
Qed.

Lemma named_dict_arrays : forall l vs d, forallb (fun ks => one_tensor (snd ks)) l = true -> named_dict V (named V) l vs = Some d ->
  exists xs, vs = arr_values xs /\ d = arr_items xs /\ map fst xs = map fst l.
Proof.
  induction l as [| (key, s) l IH]; intros vs d O E; destruct vs as [| (key', v) vs]; cbn [named_dict forallb snd] in *; try discriminate.
  - injection E as <-. exists []. auto.
  - apply andb_prop in O. destruct O as [O1 O2]. destruct (String.eqb_spec key key') as [<- |]; [| discriminate].
    destruct (named V s v) as [t |] eqn:E1; [| discriminate]. destruct (named_dict V (named V) l vs) as [r |] eqn:E2; [| discriminate]. injection E as <-.
    destruct (one_tensor_named V s v t O1 E1) as (sh & data & -> & ->). destruct (IH vs r O2 E2) as (xs & -> & -> & K).
    exists ((key, (sh, data)) :: xs). cbn [map fst]. rewrite K. auto.
Qed.

Lemma dpop_arr : forall l k, dpop (arr_values l) k =
  (option_map (fun x => GArr V (fst x) (snd x)) (fst (dpop l k)), arr_values (snd (dpop l k))).
Proof.
  induction l as [| (k', x) l IH]; intro k; [reflexivity |]. cbn [arr_values map dpop fst snd]. fold (arr_values l).
  destruct (String.eqb k k'); [reflexivity |]. rewrite IH. destruct (dpop l k) as [o r]. reflexivity.
Qed.

Lemma dpop_perm : forall A (l : list (string * A)) k x r, dpop l k = (Some x, r) -> Permutation l ((k, x) :: r).
Proof.
  intros A. induction l as [| (k', y) l IH]; intros k x r E; cbn [dpop] in E; [discriminate |].
  destruct (String.eqb_spec k k') as [-> | N].
  - injection E as -> ->. apply Permutation_refl.
  - destruct (dpop l k) as [o r'] eqn:D. injection E as -> <-. specialize (IH k x r' D).
    transitivity ((k', y) :: (k, x) :: r'); [constructor; exact IH | constructor].
Qed.

Lemma dpop_none : forall A (l : list (string * A)) k, ~ In k (map fst l) -> dpop l k = (None, l).
Proof.
  intros A. induction l as [| (k', y) l IH]; intros k N; [reflexivity |]. cbn [dpop map fst In] in *.
  destruct (String.eqb_spec k k') as [-> |]; [exfalso; auto |]. rewrite IH by auto. reflexivity.
Qed.

Lemma pop_perm : forall names l d0, NoDup (map fst d0 ++ map fst l)%list ->
  exists d l', pop_masks V names (arr_values l) (arr_items d0) = (arr_items d, arr_values l') /\ Permutation (d ++ l') (d0 ++ l).
Proof.
  induction names as [| k names IH]; intros l d0 N; cbn [pop_masks]; [exists d0, l; split; [reflexivity | apply Permutation_refl] |].
  rewrite dpop_arr. destruct (dpop l k) as [[x |] r] eqn:D; cbn [option_map fst snd]; [| apply IH; exact N].
  apply dpop_perm in D.
  assert (P : Permutation ((d0 ++ [(k, x)]) ++ r) (d0 ++ l)).
  { rewrite <- app_assoc. apply Permutation_app_head. symmetry. exact D. }
  assert (N' : NoDup (map fst (d0 ++ [(k, x)]) ++ map fst r)%list).
  { rewrite <- map_app. eapply Permutation_NoDup; [apply Permutation_map; symmetry; exact P |]. rewrite map_app. exact N. }
  assert (F : dset (arr_items d0) k (tarr (fst x) (snd x)) = arr_items (d0 ++ [(k, x)])).
  { rewrite dset_fresh; [unfold arr_items; rewrite map_app; reflexivity |]. rewrite arr_items_names.
    intro I. apply NoDup_app_l in N'. rewrite map_app in N'. apply NoDup_remove_2 in N'. apply N'. rewrite app_nil_r. exact I. }
  rewrite F. destruct (IH r (d0 ++ [(k, x)])%list N') as (d & l' & -> & P'). exists d, l'. split; [reflexivity |].
  transitivity ((d0 ++ [(k, x)]) ++ r)%list; assumption.
Qed.

Lemma pop_none : forall names l d, (forall k, In k names -> ~ In k (map fst l)) -> pop_masks V names l d = (d, l).
Proof.
  induction names as [| k names IH]; intros l d H; [reflexivity |]. cbn [pop_masks].
  rewrite dpop_none by (apply H; left; reflexivity). apply IH. intros k' I. apply H. right. exact I.
Qed.

Lemma states_flat : forall allow mn mx s sp actions v t,
  flat s = true -> specs_from allow mn mx s = Ok sp -> named V s v = Some t -> finite_value V finite v = true ->
  match t with TArr _ _ _ => True | TDict _ l => NoDup (map fst l) end ->
  exists t', flatten_state V finite sp actions v = Ok t' /\
    match t, t' with TArr _ _ _, _ => t' = t | TDict _ l, TDict _ l' => Permutation l' l | _, _ => False end /\
    ((forall l, v = GDict V l -> forall k, In k (mask_names actions) -> ~ In k (map fst l)) -> t' = t).
Proof.
  intros allow mn mx s sp actions v t Hf E N F U.
  assert (One : one_tensor s = true -> exists t', flatten_state V finite sp actions v = Ok t' /\
    match t, t' with TArr _ _ _, _ => t' = t | TDict _ l, TDict _ l' => Permutation l' l | _, _ => False end /\
    ((forall l, v = GDict V l -> forall k, In k (mask_names actions) -> ~ In k (map fst l)) -> t' = t)).
  { intro O. destruct (one_tensor_named V s v t O N) as (sh & data & -> & ->). destruct (one_tensor_spec _ _ _ _ _ O E) as [lf ->].
    exists (tarr sh data). cbn [flatten_state flatten finite_value] in *. unfold flatten_array, all_finite. rewrite F. auto. }
  destruct s as [n | sh | sh nv | sh lo hi | l | l]; try (apply One; exact Hf).
  - cbn [flat specs_from] in *. destruct v as [| vs |]; try discriminate. cbn [named] in N.
    destruct (tuple_specs (specs_from allow None None) 0 l []) as [d |] eqn:E1; [| discriminate]. injection E as <-.
    destruct (named_tuple V (named V) 0 l vs) as [r |] eqn:E2; [| discriminate]. injection N as <-.
    destruct (named_tuple_items V l vs 0 r Hf E2) as (xs & -> & -> & L).
    exists (TDict V (tpl_items V 0 xs)). cbn [flatten_state flatten]. rewrite tuple_states_ok.
    + cbn [bind List.app]. repeat split. apply Permutation_refl.
    + intros k [].
    + intros i Hi. destruct (tuple_declared allow l 0 [] d Hf E1 i) as [x Hx]; [left; lia |]. exists x. cbn [component]. rewrite Hx. reflexivity.
    + cbn [finite_value] in F. rewrite forallb_forall in F. apply forallb_forall. intros x I.
      apply (F (GArr V (fst x) (snd x))). apply in_map_iff. eauto.
  - cbn [flat specs_from] in *. destruct v as [| | vs]; try discriminate. cbn [named] in N.
    destruct (dict_specs (specs_from allow None None) l []) as [d |] eqn:E1; [| discriminate]. injection E as <-.
    destruct (named_dict V (named V) l vs) as [r |] eqn:E2; [| discriminate]. injection N as <-.
    destruct (named_dict_arrays l vs r Hf E2) as (xs & -> & -> & K). rewrite arr_items_names in U.
    assert (C : forall k, In k (map fst xs) -> exists lf, component (SDict d) k = Ok (SLeaf lf)).
    { intros k I. destruct (dict_declared allow l [] d Hf E1 k) as [x Hx]; [left; rewrite <- K; exact I |]. exists x. cbn [component]. rewrite Hx. reflexivity. }
    assert (Fx : forallb (fun kx : string * (list nat * list V) => forallb finite (snd (snd kx))) xs = true).
    { cbn [finite_value] in F. rewrite forallb_forall in F. apply forallb_forall. intros x I.
      apply (F (fst x, GArr V (fst (snd x)) (snd (snd x)))). apply in_map_iff. eauto. }
    destruct (pop_perm (mask_names actions) xs [] U) as (d' & l' & Ep & P). cbn [List.app] in P.
    cbn [flatten_state]. change (pop_masks V (mask_names actions) (arr_values xs) []) with (pop_masks V (mask_names actions) (arr_values xs) (arr_items [])).
    rewrite Ep. rewrite dict_states_ok.
    + cbn [bind]. exists (TDict V (arr_items d' ++ arr_items l')%list). split; [reflexivity |]. split.
      * unfold arr_items. rewrite <- map_app. apply Permutation_map. exact P.
      * intro M. specialize (M _ eq_refl). change (pop_masks V (mask_names actions) (arr_values xs) (arr_items [])) with (pop_masks V (mask_names actions) (arr_values xs) []) in Ep.
        rewrite (pop_none _ _ _ M) in Ep. injection Ep as E3 E4.
        assert (Q : forall a b, arr_values a = arr_values b -> arr_items a = arr_items b).
        { induction a as [| (k, (s1, d1)) a IHa]; intros [| (k2, (s2, d2)) b] Q; try discriminate; [reflexivity |].
          cbn [arr_values map fst snd] in Q. injection Q as -> -> -> Q. cbn [arr_items map fst snd]. f_equal. apply IHa. exact Q. }
        rewrite <- E3. rewrite (Q _ _ E4). reflexivity.
    + rewrite arr_items_names, <- map_app. eapply Permutation_NoDup; [apply Permutation_map; symmetry; exact P |]. exact U.
    + intros k I. apply C. eapply Permutation_in; [apply Permutation_map; exact P |]. rewrite map_app. apply in_or_app. auto.
    + rewrite forallb_forall in Fx. apply forallb_forall. intros x I. apply Fx. eapply Permutation_in; [exact P |]. apply in_or_app. auto.
Qed.

(** Components are handled with the specification of one tensor *)
Lemma component_leaf : forall sp k c, component sp k = Ok c -> exists l, c = SLeaf l.
Proof.
  intros [l | d] k c E; [discriminate |]. cbn [component] in E. destruct (dget d k); [injection E as <-; eauto |].
  destruct (filter _ d) as [| (k', l) [|]]; try discriminate. injection E as <-. eauto.
Qed.

Definition nested (v : gval V) : bool := match v with GTup _ (_ :: _) | GDict _ (_ :: _) => true | _ => false end.

Lemma nested_fails : forall l v, nested v = true -> exists e, flatten V finite (SLeaf l) v = Err e.
Proof. intros l [sh d | [| v vs] | [| (k, v) vs]] H; try discriminate; cbn; eauto. Qed.

Lemma tuple_nested : forall sp vs n d v, In v vs -> nested v = true -> exists e, tuple_states V (flatten V finite) sp n vs d = Err e.
Proof.
  intros sp. induction vs as [| x vs IH]; intros n d v I N; [destruct I |]. cbn [tuple_states].
  destruct (component sp ("gymtpl" ++ str n)) as [c | e] eqn:C; [| cbn; eauto]. cbn [bind].
  destruct (component_leaf _ _ _ C) as [l ->]. destruct I as [-> | I].
  - destruct (nested_fails l v N) as [e ->]. cbn. eauto.
  - destruct (flatten V finite (SLeaf l) x); [| cbn; eauto]. cbn [bind]. eapply IH; eassumption.
Qed.

Lemma dict_nested : forall sp vs d kv, In kv vs -> nested (snd kv) = true -> exists e, dict_states V (flatten V finite) sp vs d = Err e.
Proof.
  intros sp. induction vs as [| (k, x) vs IH]; intros d kv I N; [destruct I |]. cbn [dict_states].
  destruct (component sp k) as [c | e] eqn:C; [| cbn; eauto]. cbn [bind].
  destruct (component_leaf _ _ _ C) as [l ->]. destruct I as [<- | I].
  - destruct (nested_fails l x N) as [e ->]. cbn. eauto.
  - destruct (flatten V finite (SLeaf l) x); [| cbn; eauto]. cbn [bind]. eapply IH; eassumption.
Qed.

(** ** Arrays of different numbers of values *)

Lemma cut_mdc : forall shape i, cut (mdc_name shape i) = Some ("gymmdc" ++ str i, join (map str shape)).
Proof.
  intros shape i. unfold mdc_name. rewrite <- (app_assoc_s "gymmdc" (str i) ("_" ++ join (map str shape))).
  apply cut_app. rewrite plain_app, str_plain. reflexivity.
Qed.

Lemma mdc_unnamed : forall shape nvec k, plain_name k = true -> dget (mdc_specs shape 0 nvec []) k = None.
Proof.
  intros shape nvec k P. apply dget_fresh. rewrite mdc_specs_fresh by apply mdc_names_nodup. cbn [List.app]. rewrite map_map. cbn [fst].
  intro I. apply in_map_iff in I. destruct I as (ik & E & _). subst k. apply cut_plain in P. rewrite cut_mdc in P. discriminate.
Qed.

Lemma many_fails : forall shape data n, (11 <= length data)%nat -> exists e, unflatten V finite n (TDict V (mdc_items V shape 0 data)) = Err e.
Proof.
  intros shape data n H. destruct n as [| n]; [cbn; eauto |]. cbn [unflatten]. rewrite all_start_mdc. cbn [orb].
  destruct data as [| x0 data]; [cbn in H; lia |].
  set (items := mdc_items V shape 0 (x0 :: data)).
  replace (match items with
           | [] => Err "StopIteration"
           | (name, _) :: _ => do xs <- parts V (unflatten V finite n) (substring 0 6 name) items 0 (S (length items)); do shape0 <- shape_of name; reshape V xs shape0
           end)
    with (do xs <- parts V (unflatten V finite n) "gymmdc" items 0 (S (length items)); do shape0 <- shape_of (mdc_name shape 0); reshape V xs shape0)
    by reflexivity.
  assert (L : exists f, length items = S f).
  { unfold items, mdc_items. rewrite map_length, combine_length, seq_length. cbn [length]. rewrite Nat.min_id. eauto. }
  destruct L as [f L]. rewrite L.
  assert (P1 : forall fuel, exists e, parts V (unflatten V finite n) "gymmdc" items 1 (S fuel) = Err e).
  { intro fuel. cbn [parts]. unfold items at 1. rewrite exists_mdc. cbn [Nat.leb andb].
    replace (Nat.ltb 1 (0 + length (x0 :: data))) with true by (symmetry; apply Nat.ltb_lt; lia).
    assert (A : forall i, (i < length (x0 :: data))%nat -> exists y, In (mdc_name shape i, y) items).
    { intros i Hi. unfold items, mdc_items. destruct (nth_error (x0 :: data) i) as [y |] eqn:Ey; [| apply nth_error_None in Ey; lia].
      exists (tarr [] [y]). apply in_map_iff. exists (i, y). split; [reflexivity |].
      clear - Ey. change i with (0 + i)%nat at 1. revert i Ey. generalize (x0 :: data) as l. generalize 0%nat as s.
      intros s l. revert s. induction l as [| z l IH]; intros s i Ey; [destruct i; discriminate |]. cbn [length seq combine].
      destruct i as [| i]; cbn in Ey; [injection Ey as ->; rewrite Nat.add_0_r; left; reflexivity |]. right. rewrite <- Nat.add_succ_comm. apply IH. exact Ey. }
    destruct (A 1%nat) as [y1 I1]; [lia |]. destruct (A 10%nat) as [y2 I2]; [lia |].
    assert (F1 : In (mdc_name shape 1, y1) (filter (fun kv => String.prefix ("gymmdc" ++ str 1) (fst kv)) items)) by (apply filter_In; split; [exact I1 |]; cbn; destruct (join (map str shape)); reflexivity).
    assert (F2 : In (mdc_name shape 10, y2) (filter (fun kv => String.prefix ("gymmdc" ++ str 1) (fst kv)) items)) by (apply filter_In; split; [exact I2 |]; cbn; destruct (join (map str shape)); reflexivity).
    destruct (filter _ items) as [| (k, y) [| b r]]; [destruct F1 | | eauto].
    exfalso. destruct F1 as [F1 | []], F2 as [F2 | []]. rewrite F1 in F2. apply (f_equal fst) in F2. cbn [fst] in F2. apply mdc_name_inj in F2. discriminate. }
  enough (exists e, parts V (unflatten V finite n) "gymmdc" items 0 (S (S f)) = Err e) as [e ->] by (cbn; eauto).
  change (parts V (unflatten V finite n) "gymmdc" items 0 (S (S f))) with
    (if existsb (fun kv => String.prefix ("gymmdc" ++ str 0 ++ "_") (fst kv)) items then
        match filter (fun kv => String.prefix ("gymmdc" ++ str 0) (fst kv)) items with
        | [(_, v)] => do x <- unflatten V finite n v; do xs <- parts V (unflatten V finite n) "gymmdc" items 1 (S f); Ok (x :: xs)
        | _ => Err "AssertionError"
        end
      else match dget items ("gymmdc" ++ str 0) with
           | Some v => do x <- unflatten V finite n v; do xs <- parts V (unflatten V finite n) "gymmdc" items 1 (S f); Ok (x :: xs)
           | None => Ok []
           end).
  unfold items at 1. rewrite exists_mdc. cbn [Nat.leb andb]. replace (Nat.ltb 0 (0 + length (x0 :: data))) with true by (symmetry; apply Nat.ltb_lt; cbn; lia).
  destruct (filter _ items) as [| (k, y) [| b r]]; [eauto | | eauto].
  destruct (unflatten V finite n y); [| cbn; eauto]. cbn [bind]. destruct (P1 f) as [e ->]. cbn. eauto.
Qed.
End States.
