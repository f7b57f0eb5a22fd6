(** Proofs about act in independent mode: its outputs, and both ways of writing dictionaries. *)

From Coq Require Import String List ZArith Bool Lia.
From Verif Require Import Base InpModel InpSpec InpProofs InpActProofs InpRowProofs.
Import ListNotations.
Open Scope list_scope.
Open Scope nat_scope.

Lemma items_entries {A} : forall t : tree A, items t = entries t.
Proof.
  induction t as [a|d IH] using tree_rect'; [reflexivity|]. cbn [items entries]. rewrite flat_map_concat_map. f_equal.
  apply map_ext_in. intros kt Hin. rewrite Forall_forall in IH. rewrite (IH kt Hin). reflexivity.
Qed.

Lemma entries_tmap {A B} (f : A -> B) t : entries (tmap f t) = map (fun pa => (fst pa, f (snd pa))) (entries t).
Proof. rewrite <- !items_entries. apply items_tmap. Qed.

(** * Dictionaries written without nesting *)

Lemma dget_app_none {A} k : forall (d e : list (string * A)), dget k d = None -> dget k (d ++ e) = dget k e.
Proof. induction d as [|[k' x] d IH]; intros e H; [reflexivity|]. cbn in *. destruct (String.eqb k k'); [discriminate|]. auto. Qed.
Lemma map_same {A} k (y : tree A) : forall d, dget k d = None -> map (fun kt => if String.eqb k (fst kt) then (k, y) else kt) d = d.
Proof.
  induction d as [|[k' x] d IH]; intros H; [reflexivity|]. cbn in *. destruct (String.eqb k k'); [discriminate|]. f_equal. auto.
Qed.

Lemma insert_cons {A} k k' r (v : tree A) d :
  insert (k :: k' :: r) v d =
  match dget k d with
  | Some (Dict e) => do e' <- insert (k' :: r) v e; Ok (map (fun kt => if String.eqb k (fst kt) then (k, Dict e') else kt) d)
  | Some (Leaf _) => Err "AssertionError"
  | None => do e' <- insert (k' :: r) v []; Ok (d ++ [(k, Dict e')])
  end.
Proof. reflexivity. Qed.

Lemma insert_under {A} k : forall (xs : list (list string * tree A)) acc e, dget k acc = None -> (forall p, In p (map fst xs) -> p <> []) ->
  insert_all (map (fun pv => (k :: fst pv, snd pv)) xs) (acc ++ [(k, Dict e)]) =
  do e' <- insert_all xs e; Ok (acc ++ [(k, Dict e')]).
Proof.
  induction xs as [|[p v] xs IH]; intros acc e Hk Hp; [reflexivity|]. cbn [map insert_all fst snd].
  destruct p as [|k' r]; [exfalso; apply (Hp []); [left; reflexivity|reflexivity]|].
  rewrite insert_cons, dget_app_none by exact Hk. cbn [dget]. rewrite String.eqb_refl.
  destruct (insert (k' :: r) v e) as [e'|]; [|reflexivity]. cbn [bind]. rewrite map_app, map_same by exact Hk. cbn [map fst].
  rewrite String.eqb_refl. apply IH; [exact Hk|]. intros q Hq. apply Hp. right. exact Hq.
Qed.
Lemma insert_new {A} k (xs : list (list string * tree A)) acc : xs <> [] -> dget k acc = None -> (forall p, In p (map fst xs) -> p <> []) ->
  insert_all (map (fun pv => (k :: fst pv, snd pv)) xs) acc = do e' <- insert_all xs []; Ok (acc ++ [(k, Dict e')]).
Proof.
  intros Hx Hk Hp. destruct xs as [|[p v] xs]; [congruence|]. cbn [map insert_all fst snd].
  destruct p as [|k' r]; [exfalso; apply (Hp []); [left; reflexivity|reflexivity]|].
  rewrite insert_cons, Hk. destruct (insert (k' :: r) v []) as [e'|]; [|reflexivity]. cbn [bind].
  apply insert_under; [exact Hk|]. intros q Hq. apply Hp. right. exact Hq.
Qed.
Lemma insert_all_app {A} : forall (xs ys : list (list string * tree A)) d, insert_all (xs ++ ys) d = do d' <- insert_all xs d; insert_all ys d'.
Proof.
  induction xs as [|[p v] xs IH]; intros ys d; [reflexivity|]. cbn [app insert_all]. destruct (insert p v d); [|reflexivity]. cbn [bind]. apply IH.
Qed.

Definition leafy {A} (pa : list string * A) : list string * tree A := (fst pa, Leaf (snd pa)).
Lemma entries_leafy_cons {A} k (t : tree A) :
  map leafy (map (fun pa => (k :: fst pa, snd pa)) (entries t)) = map (fun pv => (k :: fst pv, snd pv)) (map leafy (entries t)).
Proof. rewrite !map_map. reflexivity. Qed.
Lemma no_empty_entries {A} : forall t : tree A, no_empty t -> entries t <> [].
Proof.
  induction t as [a|d IH] using tree_rect'; intros H; [discriminate|]. inversion H as [|? Hd Hf]; subst. destruct d as [|[k x] d]; [congruence|].
  cbn [entries flat_map fst snd]. inversion IH as [|? ? Hx _]; subst. inversion Hf as [|? ? Hn _]; subst. cbn [snd] in *. specialize (Hx Hn).
  destruct (entries x); [congruence|]. discriminate.
Qed.
Lemma entries_dict_path {A} (d : list (string * tree A)) p : In p (map fst (entries (Dict d))) -> p <> [].
Proof.
  cbn [entries]. rewrite in_map_iff. intros [[q a] [<- H]]. apply in_flat_map in H. destruct H as [kt [_ H]].
  apply in_map_iff in H. destruct H as [pa [E _]]. injection E as <- _. discriminate.
Qed.

Lemma entries_insert {A} : forall d acc : list (string * tree A), NoDup (map fst (acc ++ d)) ->
  Forall (fun kt => distinct (snd kt) /\ no_empty (snd kt)) d ->
  (forall kt e, In kt d -> snd kt = Dict e -> insert_all (map leafy (entries (Dict e))) [] = Ok e) ->
  insert_all (map leafy (entries (Dict d))) acc = Ok (acc ++ d).
Proof.
  induction d as [|[k t] d IH]; intros acc Hnd HF Hsub; [rewrite app_nil_r; reflexivity|].
  change (entries (Dict ((k, t) :: d))) with (map (fun pa => (k :: fst pa, snd pa)) (entries t) ++ entries (Dict d)).
  rewrite map_app, entries_leafy_cons, insert_all_app.
  assert (Hk : dget k acc = None).
  { apply dget_none. rewrite map_app in Hnd. apply NoDup_remove_2 in Hnd. intros Hin. apply Hnd. apply in_or_app. left. exact Hin. }
  assert (E : insert_all (map (fun pv => (k :: fst pv, snd pv)) (map leafy (entries t))) acc = Ok (acc ++ [(k, t)])).
  { destruct t as [a|e].
    - cbn. rewrite Hk. reflexivity.
    - rewrite insert_new; [rewrite (Hsub (k, Dict e) e (or_introl eq_refl) eq_refl); reflexivity| |exact Hk|].
      + inversion HF as [|? ? [_ Hn] _]; subst. cbn [snd] in Hn. apply no_empty_entries in Hn. destruct (entries (Dict e)); [congruence|discriminate].
      + intros p Hp. rewrite map_map in Hp. cbn [leafy fst] in Hp. eapply entries_dict_path; exact Hp. }
  rewrite E. cbn [bind]. rewrite IH.
  - rewrite <- app_assoc. reflexivity.
  - rewrite <- app_assoc. exact Hnd.
  - inversion HF; assumption.
  - intros kt e Hin. apply Hsub. right. exact Hin.
Qed.
Lemma entries_insert_all {A} : forall t : tree A, distinct t -> inside no_empty t -> forall d, t = Dict d -> insert_all (map leafy (entries t)) [] = Ok d.
Proof.
  induction t as [a|d IH] using tree_rect'; intros Hd Hi d' E; [discriminate|]. injection E as <-.
  inversion Hd as [|? Hnd HF]; subst. cbn [inside] in Hi. rewrite entries_insert; [reflexivity|exact Hnd| |].
  - rewrite Forall_forall in *. intros kt Hin. split; [apply HF; exact Hin|apply Hi; exact Hin].
  - intros kt e Hin Ee. rewrite Forall_forall in IH, HF, Hi. specialize (IH kt Hin (HF kt Hin)). rewrite Ee in IH. apply IH; [|reflexivity].
    specialize (Hi kt Hin). rewrite Ee in Hi. inversion Hi; subst. exact H1.
Qed.

Lemma array_dict_flat {V} p (t : tree (arr V)) : writes_flat V p t -> distinct t -> inside no_empty t -> array_dict p = Ok t.
Proof.
  intros [[d ->] [ps [-> HF]]] Hd Hi. unfold array_dict. rewrite array_tree_dict.
  assert (M : map_res (fun kp => do y <- array_tree (snd kp); Ok (fst kp, y)) ps = Ok (map leafy (entries (Dict d)))).
  { clear Hd Hi. induction HF as [|kp pa ps es [Hk Hw] _ IH]; [reflexivity|]. cbn [map_res map].
    rewrite (array_tree_writes _ (Leaf (snd pa))) by (constructor; exact Hw). cbn [bind]. rewrite IH. cbn [bind]. unfold leafy at 1. rewrite Hk. reflexivity. }
  rewrite M. cbn [bind]. rewrite (entries_insert_all (Dict d) Hd Hi d eq_refl). reflexivity.
Qed.
Lemma array_dict_writes {V} p (d : list (string * tree (arr V))) : writes_tree V p (Dict d) -> array_dict p = Ok (Dict d).
Proof. intros H. inversion H; subst. unfold array_dict. apply array_tree_writes. exact H. Qed.
Lemma array_dict_any {V} p (t : tree (arr V)) : writes_any V p t -> array_dict p = Ok t.
Proof. intros [[d ->] [H|[H [H1 H2]]]]; [apply array_dict_writes; exact H|apply array_dict_flat; assumption]. Qed.

(** * Outputs *)

Lemma tmap_ext_leaves {A B} (f g : A -> B) : forall t, (forall a, In a (leaves t) -> f a = g a) -> tmap f t = tmap g t.
Proof.
  induction t as [a|d IH] using tree_rect'; intros H; [cbn; rewrite (H a (or_introl eq_refl)); reflexivity|]. cbn [tmap]. f_equal. apply map_ext_in.
  intros kt Hin. f_equal. rewrite Forall_forall in IH. apply IH; [exact Hin|]. intros a Ha. apply H. cbn [leaves]. apply in_concat.
  exists (leaves (snd kt)). split; [apply (in_map (fun kt => leaves (snd kt))); exact Hin|exact Ha].
Qed.
Lemma item_or_value {V} (x : arr V) : item_or V x = as_value V x.
Proof. destruct x as [[|] [|? [|]]]; reflexivity. Qed.
Lemma unbatch1_expand {V} (x : arr V) : wf V x -> unbatch1 V (expand x) = as_value V x.
Proof.
  intros H. destruct x as [sh ds]. unfold unbatch1. destruct sh as [|s sh].
  - unfold wf in H. cbn in H. destruct ds as [|v [|? ?]]; try discriminate. reflexivity.
  - cbn [expand shape data]. rewrite <- (row_expand (Arr (s :: sh) ds) H) at 2. reflexivity.
Qed.

Section Out.
Variable V : Type.
Notation A0 := (@Arr V [] []).

Definition nested (i : nat) (t : tree (list (arr V))) : pv V := tree_pv V (tmap (fun xs => as_value V (nth i xs A0)) t).
Definition flatv (i : nat) (t : tree (list (arr V))) : pv V := PDict (map (fun px => (fst px, as_value V (nth i (snd px) A0))) (entries t)).
Definition batchv (t : tree (list (arr V))) : pv V := PDict (map (fun px => (fst px, PArr (pile V (snd px)))) (entries t)).

Lemma alone_out n i t : even V n t -> i < n -> tree_pv V (tmap (unbatch1 V) (alone V i t)) = nested i t.
Proof.
  intros He Hi. unfold nested. rewrite alone_tmap, tmap_tmap. f_equal. apply tmap_ext_leaves. intros xs Hx.
  unfold even in He. rewrite Forall_forall in He. apply unbatch1_expand. eapply row_wf; [apply He; exact Hx|exact Hi].
Qed.
Lemma items_leaves {A} : forall (t : tree A) p a, In (p, a) (items t) -> In a (leaves t).
Proof.
  induction t as [b|d IH] using tree_rect'; intros p a H; cbn [items leaves] in *.
  - destruct H as [E|[]]. injection E as _ <-. left. reflexivity.
  - apply in_concat in H. destruct H as [l [Hl H]]. apply in_map_iff in Hl. destruct Hl as [kt [<- Hin]].
    apply in_map_iff in H. destruct H as [[q b] [E Hq]]. injection E as _ <-. apply in_concat. exists (leaves (snd kt)).
    split; [apply (in_map (fun kt => leaves (snd kt))); exact Hin|]. rewrite Forall_forall in IH. eapply IH; eauto.
Qed.
Lemma list_out n t : even V n t -> unbatch_dict V n (Some true) (piled V t) = PList (map (fun i => flatv i t) (seq 0 n)).
Proof.
  intros He. unfold unbatch_dict, flatv. f_equal. apply map_ext_in. intros i Hi. apply in_seq in Hi. f_equal.
  rewrite piled_tmap, items_tmap, map_map, <- items_entries. apply map_ext_in. intros [p xs] Hp. cbn [fst snd]. f_equal.
  unfold even in He. rewrite Forall_forall in He. rewrite item_or_value, (row_pile n); [reflexivity| |lia]. apply He. eapply items_leaves; exact Hp.
Qed.
Lemma dict_out n t : unbatch_dict V n (Some false) (piled V t) = batchv t.
Proof. unfold unbatch_dict, batchv. f_equal. rewrite piled_tmap, items_tmap, map_map, items_entries. reflexivity. Qed.
Lemma flat_nested i d : flat (Dict d) = true -> flatv i (Dict d) = nested i (Dict d).
Proof.
  intros H. unfold flatv, nested. cbn [tmap tree_pv]. f_equal. induction d as [|[k t] d IH]; [reflexivity|]. cbn [flat forallb snd] in H.
  apply andb_true_iff in H. destruct H as [H1 H2]. destruct t as [xs|]; [|discriminate]. cbn [entries flat_map map fst snd app tmap tree_pv].
  f_equal. apply IH. exact H2.
Qed.

Lemma like_flat {A B} (s : tree A) (t : tree B) : like s t -> flat s = flat t.
Proof.
  unfold like. destruct s as [a|d], t as [b|e]; cbn; try discriminate; [reflexivity|]. intros H. injection H as H. revert e H.
  induction d as [|[k x] d IH]; intros [|[k' y] e] H; try discriminate; [reflexivity|]. cbn in H. injection H as _ H1 H2. cbn.
  rewrite (IH e H2). destruct x, y; try discriminate; reflexivity.
Qed.
Lemma like_names {A B} (d : list (string * tree A)) (e : list (string * tree B)) : like (Dict d) (Dict e) ->
  Forall2 (fun x y => fst x = fst y /\ like (snd x) (snd y)) d e.
Proof.
  unfold like. cbn. intros H. injection H as H. revert e H. induction d as [|[k x] d IH]; intros [|[k' y] e] H; try discriminate; constructor.
  - cbn in *. injection H as H1 H2 _. split; assumption.
  - apply IH. cbn in H. injection H as _ _ H. exact H.
Qed.
Lemma like_distinct {A B} : forall (s : tree A) (t : tree B), like s t -> distinct s -> distinct t.
Proof.
  induction s as [a|d IH] using tree_rect'; intros [b|e] H Hd; try discriminate; [constructor|].
  apply like_names in H. inversion Hd as [|? Hnd HF]; subst. constructor.
  - replace (map fst e) with (map fst d); [exact Hnd|]. clear - H. induction H as [|x y d e [E _] _ IH]; [reflexivity|]. cbn. rewrite E, IH. reflexivity.
  - clear Hd Hnd. revert IH HF. induction H as [|x y d e [_ E] _ IHl]; intros IH HF; constructor.
    + inversion IH; inversion HF; subst. auto.
    + inversion IH; inversion HF; subst. auto.
Qed.
Lemma like_no_empty {A B} : forall (s : tree A) (t : tree B), like s t -> no_empty s -> no_empty t.
Proof.
  induction s as [a|d IH] using tree_rect'; intros [b|e] H Hd; try discriminate; [constructor|].
  apply like_names in H. inversion Hd as [|? Hnd HF]; subst. constructor.
  - destruct H; [congruence|discriminate].
  - clear Hd Hnd. revert IH HF. induction H as [|x y d e [_ E] _ IHl]; intros IH HF; constructor.
    + inversion IH; inversion HF; subst. auto.
    + inversion IH; inversion HF; subst. auto.
Qed.
Lemma like_inside {A B} (s : tree A) (t : tree B) : like s t -> inside no_empty s -> inside no_empty t.
Proof.
  destruct s as [a|d], t as [b|e]; intros H; cbn; try discriminate; auto. apply like_names in H. intros HF.
  induction H as [|x y d e [_ E] _ IH]; constructor; inversion HF; subst; [eapply like_no_empty; eauto|auto].
Qed.
Lemma like_tmap {A B C} (f : B -> C) (s : tree A) (t : tree B) : like s t -> like s (tmap f t).
Proof. unfold like. intros ->. rewrite tmap_tmap. reflexivity. Qed.
Lemma like_dict {A B} (s : tree A) (t : tree B) : like s t -> (exists d, s = Dict d) -> exists e, t = Dict e.
Proof. intros H [d ->]. destruct t as [b|e]; [discriminate|eauto]. Qed.

Lemma as_value_writes (x : arr V) : writes V (as_value V x) x.
Proof. destruct x as [[|] [|? [|]]]; cbn; constructor. Qed.
Lemma nested_writes i : forall t, distinct t -> writes_tree V (nested i t) (instance V i t).
Proof.
  induction t as [xs|d IH] using tree_rect'; intros Hd; [constructor; apply as_value_writes|]. inversion Hd as [|? Hnd HF]; subst.
  unfold nested. cbn [tmap tree_pv instance]. constructor.
  - rewrite map_map. cbn [fst]. exact Hnd.
  - rewrite map_map. clear Hd Hnd. induction d as [|[k t] d IHd]; [constructor|]. inversion IH; inversion HF; subst. constructor.
    + split; [reflexivity|]. cbn [snd]. auto.
    + apply IHd; assumption.
Qed.
Lemma flatv_writes i d : writes_flat V (flatv i (Dict d)) (instance V i (Dict d)).
Proof.
  split; [eexists; reflexivity|]. eexists. split; [reflexivity|]. rewrite instance_tmap, entries_tmap.
  induction (entries (Dict d)) as [|[p xs] l IH]; cbn [map]; constructor; [|exact IH]. cbn. split; [reflexivity|apply as_value_writes].
Qed.
Lemma batchv_writes d : writes_flat V (batchv (Dict d)) (piled V (Dict d)).
Proof.
  split; [eexists; reflexivity|]. eexists. split; [reflexivity|]. rewrite piled_tmap, entries_tmap.
  induction (entries (Dict d)) as [|[p xs] l IH]; cbn [map]; constructor; [|exact IH]. cbn. split; [reflexivity|constructor].
Qed.
End Out.

Lemma to_tensors_rec_like {A B} (g : leaf -> A -> res B) : forall s t u, to_tensors_rec g s t = Ok u -> like s u.
Proof.
  induction s as [l|ds IH] using tree_rect'; intros t u H; destruct t as [a|d]; try discriminate.
  - cbn in H. destruct (g l a); [|discriminate]. cbn in H. apply ok_inj in H. subst u. reflexivity.
  - rewrite to_tensors_rec_dict in H. apply bind_ok in H. destruct H as [e [He H]]. apply ok_inj in H. subst u. apply map_res_inv in He.
    unfold like. cbn [tmap]. f_equal. induction He as [|ks ky ds e Hk _ IHe]; [reflexivity|]. inversion IH as [|? ? I1 I2]; subst.
    cbn [map]. rewrite (IHe I2). f_equal. apply bind_ok in Hk. destruct Hk as [y [Hy E]]. apply ok_inj in E. subst ky. cbn [fst snd]. f_equal.
    unfold rec_child in Hy. destruct (dget (fst ks) d) as [x|].
    + apply (I1 x y Hy).
    + destruct (snd ks) as [|[|]]; [discriminate|apply ok_inj in Hy; subst y; reflexivity|destruct (leaves _); discriminate].
Qed.
