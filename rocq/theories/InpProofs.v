(** Proofs about inputs: arrays, nested dictionaries, and the formats of states. *)

From Coq Require Import String List ZArith Bool Lia.
From Verif Require Import Base InpModel InpSpec.
Import ListNotations.
Open Scope list_scope.
Open Scope nat_scope.

Lemma ok_inj {A} (a b : A) : Ok a = Ok b -> a = b.
Proof. intros H; injection H; auto. Qed.
Lemma some_inj {A} (a b : A) : Some a = Some b -> a = b.
Proof. intros H; injection H; auto. Qed.

Lemma shape_eqb_true : forall a b, shape_eqb a b = true <-> a = b.
Proof.
  induction a as [|x a IH]; destruct b as [|y b]; cbn; split; try congruence; try discriminate; intros H.
  - apply andb_true_iff in H. destruct H as [H1 H2]. apply Nat.eqb_eq in H1. apply IH in H2. congruence.
  - injection H as -> ->. rewrite Nat.eqb_refl. apply IH; reflexivity.
Qed.
Lemma shape_eqb_refl a : shape_eqb a a = true.
Proof. apply shape_eqb_true; reflexivity. Qed.
Lemma shape_cons_neq : forall (s : list nat) n, shape_eqb (n :: s) s = false.
Proof.
  intros s n. destruct (shape_eqb (n :: s) s) eqn:E; [|reflexivity].
  apply shape_eqb_true in E. exfalso. apply (f_equal (@length nat)) in E. cbn in E. lia.
Qed.

Section TreeInd.
Variable A : Type.
Variable P : tree A -> Prop.
Hypothesis HL : forall a, P (Leaf a).
Hypothesis HD : forall d, Forall (fun kt => P (snd kt)) d -> P (Dict d).
Fixpoint tree_rect' (t : tree A) : P t :=
  match t with
  | Leaf a => HL a
  | Dict d => HD d ((fix go (d : list (string * tree A)) : Forall (fun kt => P (snd kt)) d :=
                       match d with
                       | [] => Forall_nil _
                       | kt :: r => @Forall_cons _ (fun kt => P (snd kt)) kt r (tree_rect' (snd kt)) (go r)
                       end) d)
  end.
End TreeInd.

Lemma map_res_ext {A B} (f g : A -> res B) l : (forall x, In x l -> f x = g x) -> map_res f l = map_res g l.
Proof.
  induction l as [|x l IH]; intros H; [reflexivity|]. cbn. rewrite (H x) by (left; reflexivity).
  destruct (g x); [|reflexivity]. cbn. rewrite IH; [reflexivity|]. intros y Hy; apply H; right; exact Hy.
Qed.
Lemma map_res_Forall2 {A B} (f : A -> res B) l l' : Forall2 (fun x y => f x = Ok y) l l' -> map_res f l = Ok l'.
Proof. induction 1 as [|x y l l' H _ IH]; [reflexivity|]. cbn. rewrite H. cbn. rewrite IH. reflexivity. Qed.
Lemma map_res_inv {A B} (f : A -> res B) : forall l l', map_res f l = Ok l' -> Forall2 (fun x y => f x = Ok y) l l'.
Proof.
  induction l as [|x l IH]; cbn; intros l' H.
  - apply ok_inj in H. subst. constructor.
  - destruct (f x) as [y|] eqn:E; [|discriminate]. cbn in H.
    destruct (map_res f l) as [ys|] eqn:E'; [|discriminate]. cbn in H. apply ok_inj in H. subst. constructor; auto.
Qed.
Lemma map_res_map {A B C} (f : B -> res C) (g : A -> B) l : map_res f (map g l) = map_res (fun x => f (g x)) l.
Proof. induction l as [|x l IH]; [reflexivity|]. cbn. rewrite IH. reflexivity. Qed.
Lemma map_res_ok {A B} (f : A -> B) l : map_res (fun x => Ok (f x)) l = Ok (map f l).
Proof. induction l as [|x l IH]; [reflexivity|]. cbn. rewrite IH. reflexivity. Qed.

(** * Arrays *)

Lemma same_shape_ind {V} (xs : list (arr V)) sh :
  (forall x, In x xs -> shape x = sh) -> forallb (fun y => shape_eqb (shape y) sh) xs = true.
Proof. intros H. apply forallb_forall. intros x Hx. apply shape_eqb_true. apply H; exact Hx. Qed.

Lemma np_stack_pile {V} (xs : list (arr V)) sh :
  xs <> [] -> (forall x, In x xs -> shape x = sh) -> np_stack xs = Ok (pile V xs).
Proof.
  intros Hn H. destruct xs as [|x r]; [congruence|]. unfold np_stack, pile.
  rewrite (H x) by (left; reflexivity). rewrite same_shape_ind; [reflexivity|].
  intros y Hy. apply H; right; exact Hy.
Qed.
Lemma np_stack_inv {V} (xs : list (arr V)) a :
  np_stack xs = Ok a -> xs <> [] /\ (exists sh, forall x, In x xs -> shape x = sh) /\ a = pile V xs.
Proof.
  destruct xs as [|x r]; unfold np_stack; [discriminate|].
  destruct (forallb _ r) eqn:E; [|discriminate]. intros H. apply ok_inj in H. subst a.
  split; [discriminate|]. split; [|reflexivity]. exists (shape x). intros y [<-|Hy]; [reflexivity|].
  rewrite forallb_forall in E. apply shape_eqb_true. apply E; exact Hy.
Qed.

Lemma asarray_list {V} (p : pv V) ps :
  asarray (PList (p :: ps)) = do xs <- map_res asarray (p :: ps); np_stack xs.
Proof.
  cbn [asarray]. f_equal. cbn [map_res]. destruct (asarray p) as [x|]; [|reflexivity]. cbn [bind].
  f_equal. clear. induction ps as [|q ps IH]; [reflexivity|]. cbn [map_res].
  destruct (asarray q); [|reflexivity]. cbn [bind]. rewrite IH. reflexivity.
Qed.

Lemma asarray_writes {V} : forall (p : pv V) a, writes V p a -> asarray p = Ok a.
Proof.
  fix IH 3. intros p a H. destruct H as [v|a|ps xs sh Hn HF Hs]; [reflexivity|reflexivity|].
  assert (M : map_res asarray ps = Ok xs).
  { clear Hn Hs. induction HF as [|q x ps xs Hq HF IH']; [reflexivity|].
    cbn. rewrite (IH q x Hq). cbn. rewrite IH'. reflexivity. }
  assert (HL : length ps = length xs) by (clear - HF; induction HF; cbn; congruence).
  destruct ps as [|q ps]; [congruence|]. rewrite asarray_list, M. cbn [bind].
  assert (Hx : xs <> []) by (intros ->; discriminate HL).
  rewrite (np_stack_pile xs sh Hx Hs). unfold pile. rewrite <- HL.
  destruct xs as [|x r]; [congruence|]. rewrite (Hs x) by (left; reflexivity). reflexivity.
Qed.

Lemma asarray_not_dict {V} (d : list (list string * pv V)) a : ~ writes V (PDict d) a.
Proof. intros H. inversion H. Qed.

Lemma array_tree_dict {V} (d : list (list string * pv V)) :
  array_tree (PDict d) = do xs <- map_res (fun kp => do y <- array_tree (snd kp); Ok (fst kp, y)) d;
                         do t <- insert_all xs []; Ok (Dict t).
Proof.
  cbn [array_tree]. f_equal. induction d as [|[k p] d IH]; [reflexivity|].
  cbn [map_res fst snd]. destruct (array_tree p); [|reflexivity]. cbn [bind]. rewrite IH. reflexivity.
Qed.

Lemma dget_none {A} k (d : list (string * A)) : ~ In k (map fst d) -> dget k d = None.
Proof.
  induction d as [|[k' x] d IH]; cbn; intros H; [reflexivity|].
  destruct (String.eqb k k') eqn:E; [apply String.eqb_eq in E; exfalso; apply H; left; congruence|].
  apply IH. intros Hin; apply H; right; exact Hin.
Qed.
Lemma dget_app {A} k (d e : list (string * A)) : dget k (d ++ e) = match dget k d with Some x => Some x | None => dget k e end.
Proof. induction d as [|[k' x] d IH]; [reflexivity|]. cbn. destruct (String.eqb k k'); [reflexivity|exact IH]. Qed.

Lemma insert_all_plain {A} : forall (ts acc : list (string * tree A)),
  NoDup (map fst (acc ++ ts)) -> insert_all (map (fun kt => ([fst kt], snd kt)) ts) acc = Ok (acc ++ ts).
Proof.
  induction ts as [|[k t] ts IH]; intros acc H; cbn [map insert_all fst snd].
  - rewrite app_nil_r. reflexivity.
  - cbn [insert]. rewrite dget_none.
    + cbn [bind]. rewrite IH; [rewrite <- app_assoc; reflexivity|]. rewrite <- app_assoc. exact H.
    + rewrite map_app in H. apply NoDup_remove_2 in H. intros Hin. apply H. apply in_or_app. left; exact Hin.
Qed.

Lemma array_tree_writes {V} : forall (p : pv V) t, writes_tree V p t -> array_tree p = Ok t.
Proof.
  fix IH 3. intros p t H. destruct H as [p a H|ps ts Hnd HF].
  - pose proof (asarray_writes p a H) as E. destruct p; cbn [array_tree]; try (rewrite E; reflexivity).
    exfalso. eapply asarray_not_dict; exact H.
  - rewrite array_tree_dict.
    assert (M : map_res (fun kp => do y <- array_tree (snd kp); Ok (fst kp, y)) ps = Ok (map (fun kt => ([fst kt], snd kt)) ts)).
    { clear Hnd. induction HF as [|[k q] [k' x] ps ts [Hk Hq] HF IH']; [reflexivity|].
      cbn in Hk, Hq. subst k. cbn [map_res fst snd]. rewrite (IH q x Hq). cbn [bind]. rewrite IH'. reflexivity. }
    rewrite M. cbn [bind]. rewrite insert_all_plain by exact Hnd. reflexivity.
Qed.
Lemma array_dict_writes {V} (p : pv V) d : writes_tree V p (Dict d) -> array_dict p = Ok (Dict d).
Proof.
  intros H. pose proof (array_tree_writes p _ H) as E. inversion H; subst. exact E.
Qed.
Lemma writes_dict_inv {V} (p : pv V) d : writes_tree V p (Dict d) -> exists ps, p = PDict ps.
Proof. intros H. inversion H; subst. eauto. Qed.

(** * Rows *)

Lemma wf_prod {V} (a : arr V) : wf V a -> length (data a) = prod (shape a).
Proof. exact (fun H => H). Qed.

Lemma firstn_skipn_concat {A} (k : nat) : forall (ls : list (list A)) i,
  (forall l, In l ls -> length l = k) -> i < length ls ->
  firstn k (skipn (i * k) (concat ls)) = nth i ls [].
Proof.
  induction ls as [|l ls IH]; cbn [length]; intros i Hl Hi; [lia|].
  assert (L : length l = k) by (apply Hl; left; reflexivity).
  destruct i as [|i]; cbn [concat nth].
  - change (0 * k) with 0. cbn [skipn]. rewrite firstn_app, <- L, firstn_all, Nat.sub_diag. cbn. apply app_nil_r.
  - replace (S i * k) with (length l + i * k) by (rewrite L; lia).
    rewrite skipn_app. rewrite skipn_all2 by lia. cbn [app].
    replace (length l + i * k - length l) with (i * k) by lia.
    apply IH; [|lia]. intros m Hm; apply Hl; right; exact Hm.
Qed.

Lemma nth_map_default {A B} (f : A -> B) l i d e : i < length l -> nth i (map f l) e = f (nth i l d).
Proof. intros H. rewrite (nth_indep _ e (f d)) by (rewrite map_length; exact H). apply map_nth. Qed.

Lemma row_pile {V} (n : nat) (xs : list (arr V)) i :
  rows V n xs -> i < n -> row (pile V xs) i = nth i xs (Arr [] []).
Proof.
  intros [HL [sh Hs]] Hi. unfold row, pile. cbn [shape data tl].
  destruct xs as [|x r]; [cbn in HL; lia|].
  destruct (Hs x) as [Hx _]; [left; reflexivity|]. rewrite Hx.
  assert (Hlen : forall l, In l (map data (x :: r)) -> length l = prod sh).
  { intros l Hin. apply in_map_iff in Hin. destruct Hin as [y [<- Hy]].
    destruct (Hs y Hy) as [Hy' Hw]. rewrite <- Hy'. exact Hw. }
  rewrite firstn_skipn_concat; [|exact Hlen|rewrite map_length, HL; exact Hi].
  rewrite (nth_map_default data (x :: r) i (Arr [] []) []) by lia.
  destruct (Hs (nth i (x :: r) (Arr [] []))) as [Hy _]; [apply nth_In; lia|].
  rewrite <- Hy. destruct (nth i (x :: r) (Arr [] [])); reflexivity.
Qed.

Lemma expand_pile {V} (x : arr V) : expand x = pile V [x].
Proof. unfold expand, pile. cbn. rewrite app_nil_r. reflexivity. Qed.
Lemma row_expand {V} (x : arr V) : wf V x -> row (expand x) 0 = x.
Proof.
  intros H. rewrite expand_pile. apply (row_pile 1 [x] 0); [|lia].
  split; [reflexivity|]. exists (shape x). intros y [<-|[]]. split; [reflexivity|exact H].
Qed.

Lemma row_wf {V} (n : nat) (xs : list (arr V)) i : rows V n xs -> i < n -> wf V (nth i xs (Arr [] [])).
Proof. intros [HL [sh Hs]] Hi. destruct (Hs (nth i xs (Arr [] []))) as [_ H]; [apply nth_In; lia|exact H]. Qed.

(** * Nested dictionaries *)

Lemma tmap_tmap {A B C} (f : A -> B) (g : B -> C) : forall t, tmap g (tmap f t) = tmap (fun x => g (f x)) t.
Proof.
  induction t as [a|d IH] using tree_rect'; [reflexivity|]. cbn. f_equal. rewrite map_map. apply map_ext_in.
  intros kt Hin. cbn. f_equal. rewrite Forall_forall in IH. apply IH; exact Hin.
Qed.
Lemma tmap_ext_in {A B} (f g : A -> B) : forall t, (forall a, In a (leaves t) -> f a = g a) -> tmap f t = tmap g t.
Proof.
  induction t as [a|d IH] using tree_rect'; intros H; cbn.
  - rewrite H; [reflexivity|left; reflexivity].
  - f_equal. apply map_ext_in. intros kt Hin. f_equal. rewrite Forall_forall in IH. apply IH; [exact Hin|].
    intros a Ha. apply H. cbn. apply in_concat. exists (leaves (snd kt)). split; [|exact Ha].
    apply (in_map (fun kt => leaves (snd kt))); exact Hin.
Qed.
Lemma instance_tmap {V} i : forall t, instance V i t = tmap (fun xs => nth i xs (Arr [] [])) t.
Proof.
  induction t as [xs|d IH] using tree_rect'; [reflexivity|]. cbn. f_equal. apply map_ext_in.
  intros kt Hin. f_equal. rewrite Forall_forall in IH. apply IH; exact Hin.
Qed.
Lemma piled_tmap {V} : forall t, piled V t = tmap (pile V) t.
Proof.
  induction t as [xs|d IH] using tree_rect'; [reflexivity|]. cbn. f_equal. apply map_ext_in.
  intros kt Hin. f_equal. rewrite Forall_forall in IH. apply IH; exact Hin.
Qed.
Lemma leaves_tmap {A B} (f : A -> B) : forall t, leaves (tmap f t) = map f (leaves t).
Proof.
  induction t as [a|d IH] using tree_rect'; [reflexivity|]. cbn. rewrite map_map, concat_map, map_map. f_equal.
  apply map_ext_in. intros kt Hin. cbn. rewrite Forall_forall in IH. apply IH; exact Hin.
Qed.
Lemma items_tmap {A B} (f : A -> B) : forall t, items (tmap f t) = map (fun pa => (fst pa, f (snd pa))) (items t).
Proof.
  induction t as [a|d IH] using tree_rect'; [reflexivity|]. cbn. rewrite map_map, concat_map, map_map. f_equal.
  apply map_ext_in. intros kt Hin. cbn. rewrite Forall_forall in IH. rewrite (IH kt Hin), !map_map. reflexivity.
Qed.
Lemma dget_map {A B} (f : A -> B) k : forall d, dget k (map (fun kt => (fst kt, f (snd kt))) d) = option_map f (dget k d).
Proof. induction d as [|[k' x] d IH]; [reflexivity|]. cbn. destruct (String.eqb k k'); [reflexivity|exact IH]. Qed.
Lemma ddel_map {A B} (f : A -> B) k : forall d, ddel k (map (fun kt => (fst kt, f (snd kt))) d) = map (fun kt => (fst kt, f (snd kt))) (ddel k d).
Proof. induction d as [|[k' x] d IH]; [reflexivity|]. cbn. destruct (String.eqb k k'); [reflexivity|cbn; f_equal; exact IH]. Qed.

Definition rmap {A B} (f : A -> B) (x : res A) : res B := match x with Ok a => Ok (f a) | Err e => Err e end.

Lemma child_tmap {A B} (f : A -> B) k t : child k (tmap f t) = rmap (tmap f) (child k t).
Proof. destruct t as [a|d]; [reflexivity|]. cbn. rewrite dget_map. destruct (dget k d); reflexivity. Qed.
Lemma getitem_tmap {A B} (f : A -> B) : forall p t, getitem p (tmap f t) = rmap (tmap f) (getitem p t).
Proof.
  induction p as [|k p IH]; intros t; [reflexivity|]. cbn. rewrite child_tmap. destruct (child k t); [|reflexivity]. cbn. apply IH.
Qed.
Lemma value_tmap {A B} (f : A -> B) t : value (tmap f t) = rmap f (value t).
Proof. destruct t; reflexivity. Qed.
Lemma pop_cons2 {A} k k' r (d : list (string * tree A)) :
  pop (k :: k' :: r) (Dict d) =
  match dget k d with
  | Some (Dict e) =>
      do ox <- pop (k' :: r) (Dict e);
      Ok (fst ox, Dict (map (fun kt => if String.eqb k (fst kt) then (k, snd ox) else kt) d))
  | Some (Leaf _) => Err "AssertionError"
  | None => Ok (None, Dict d)
  end.
Proof. reflexivity. Qed.
Lemma pop_tmap {A B} (f : A -> B) : forall p t,
  pop p (tmap f t) = rmap (fun ox => (option_map (tmap f) (fst ox), tmap f (snd ox))) (pop p t).
Proof.
  induction p as [|k r IH]; intros t; [destruct t; reflexivity|].
  destruct t as [a|d]; [destruct r; reflexivity|].
  destruct r as [|k' r].
  - cbn [pop tmap]. rewrite dget_map. destruct (dget k d) as [x|] eqn:E; cbn.
    + rewrite ddel_map. reflexivity.
    + reflexivity.
  - cbn [tmap]. rewrite !pop_cons2, dget_map. destruct (dget k d) as [[a|e]|] eqn:E; [reflexivity| |reflexivity].
    cbn [option_map tmap]. specialize (IH (Dict e)). cbn [tmap] in IH. rewrite IH.
    destruct (pop (k' :: r) (Dict e)) as [[o x]|]; [|reflexivity]. cbn. f_equal. f_equal. f_equal.
    rewrite !map_map. apply map_ext. intros [k2 y]. cbn. destruct (String.eqb k k2); reflexivity.
Qed.

(** * Instances *)

Lemma table_ind' {V} n (P : tree (list (arr V)) -> Prop) :
  (forall xs, rows V n xs -> P (Leaf xs)) ->
  (forall d, NoDup (map fst d) -> Forall (fun kt => table V n (snd kt)) d -> Forall (fun kt => P (snd kt)) d -> P (Dict d)) ->
  forall t, table V n t -> P t.
Proof.
  intros HL HD. induction t as [xs|d IH] using tree_rect'; intros H; inversion H; subst; [apply HL; assumption|].
  apply HD; [assumption|assumption|]. rewrite Forall_forall in *. intros kt Hin. apply IH; auto.
Qed.

Lemma table_leaves {V} n t xs : table V n t -> In xs (leaves t) -> rows V n xs.
Proof.
  intros H. revert xs. revert t H. apply (table_ind' n (fun t => forall xs, In xs (leaves t) -> rows V n xs)).
  all: [> intros ys Hy | intros d Hnd Ht IH ]; intros xs Hin; cbn in Hin.
  - destruct Hin as [<-|[]]. exact Hy.
  - apply in_concat in Hin. destruct Hin as [l [Hl Hx]]. apply in_map_iff in Hl. destruct Hl as [kt [<- Hk]].
    rewrite Forall_forall in IH. apply (IH kt Hk). exact Hx.
Qed.

Lemma dget_in {A} (d : list (string * A)) k x : NoDup (map fst d) -> In (k, x) d -> dget k d = Some x.
Proof.
  induction d as [|[k' y] d IH]; cbn; intros Hnd Hin; [contradiction|].
  apply NoDup_cons_iff in Hnd. destruct Hnd as [Hk Hnd].
  destruct (String.eqb k k') eqn:E.
  - apply String.eqb_eq in E. subst k'. destruct Hin as [He|Hin]; [congruence|].
    exfalso. apply Hk. apply (in_map fst) in Hin. exact Hin.
  - apply String.eqb_neq in E. destruct Hin as [He|Hin]; [congruence|]. apply IH; assumption.
Qed.
Lemma dget_some_in {A} (d : list (string * A)) k x : dget k d = Some x -> In (k, x) d.
Proof.
  induction d as [|[k' y] d IH]; cbn; [discriminate|]. destruct (String.eqb k k') eqn:E; intros H.
  - apply String.eqb_eq in E. apply some_inj in H. subst. left; reflexivity.
  - right. apply IH; exact H.
Qed.

Lemma stack_trees_dict {V} (d : list (string * tree (arr V))) others :
  stack_trees (Dict d) others =
  do e <- map_res (fun kx => do xs <- map_res (child (fst kx)) others; do y <- stack_trees (snd kx) xs; Ok (fst kx, y)) d;
  Ok (Dict e).
Proof.
  cbn [stack_trees]. f_equal. induction d as [|[k x] d IH]; [reflexivity|].
  cbn [map_res fst snd]. destruct (map_res (child k) others); [|reflexivity]. cbn [bind].
  destruct (stack_trees x a); [|reflexivity]. cbn [bind]. rewrite IH. reflexivity.
Qed.

Lemma nth_seq_all {A} (xs : list A) d : map (fun i => nth i xs d) (seq 0 (length xs)) = xs.
Proof.
  induction xs as [|x xs IH]; [reflexivity|]. cbn. f_equal. rewrite <- seq_shift, map_map. exact IH.
Qed.

Lemma stack_instances {V} n t : table V (S n) t ->
  stack_trees (instance V 0 t) (map (fun i => instance V i t) (seq 1 n)) = Ok (piled V t).
Proof.
  revert t. apply (table_ind' (S n)); [intros xs Hx|intros d Hnd Ht IH].
  - cbn [instance stack_trees piled]. rewrite map_res_map. cbn [value]. rewrite map_res_ok. cbn [bind].
    destruct Hx as [HL [sh Hs]].
    assert (E : nth 0 xs (Arr [] []) :: map (fun i => nth i xs (Arr [] [])) (seq 1 n) = xs).
    { transitivity (map (fun i => nth i xs (Arr [] [])) (seq 0 (S n))); [reflexivity|]. rewrite <- HL. apply nth_seq_all. }
    rewrite E. rewrite (np_stack_pile xs sh); [reflexivity| |].
    + intros ->; discriminate HL.
    + intros x Hin. apply Hs; exact Hin.
  - cbn [instance piled]. rewrite stack_trees_dict, map_res_map. cbn [fst snd].
    assert (M : map_res (fun kt => do xs <- map_res (child (fst kt)) (map (fun i => Dict (map (fun kt => (fst kt, instance V i (snd kt))) d)) (seq 1 n));
                                   do y <- stack_trees (instance V 0 (snd kt)) xs; Ok (fst kt, y)) d
                = map_res (fun kt => Ok (fst kt, piled V (snd kt))) d).
    { apply map_res_ext. intros [k x] Hin. cbn [fst snd]. rewrite map_res_map.
      assert (C : forall i, child k (Dict (map (fun kt => (fst kt, instance V i (snd kt))) d)) = Ok (instance V i x)).
      { intros i. cbn [child]. rewrite dget_map, (dget_in d k x Hnd Hin). reflexivity. }
      rewrite (map_res_ext _ (fun i => Ok (instance V i x))) by (intros i _; apply C).
      rewrite map_res_ok. cbn [bind]. rewrite Forall_forall in IH. pose proof (IH (k, x) Hin) as E. cbn [snd] in E. rewrite E. reflexivity. }
    rewrite M, map_res_ok. reflexivity.
Qed.

Lemma check_rows_all {V} n (xs : list (arr V)) : (forall x, In x xs -> hd_error (shape x) = Some n) -> check_rows V n xs = Ok tt.
Proof.
  induction xs as [|x xs IH]; intros H; [reflexivity|]. cbn. unfold dim0.
  pose proof (H x (or_introl eq_refl)) as Hx. destruct (shape x); [discriminate|]. cbn in Hx. apply some_inj in Hx. subst.
  cbn. rewrite Nat.eqb_refl. apply IH. intros y Hy; apply H; right; exact Hy.
Qed.
Lemma check_piled {V} n t : table V n t -> check_rows V n (leaves (piled V t)) = Ok tt.
Proof.
  intros H. apply check_rows_all. intros x Hx. rewrite piled_tmap, leaves_tmap in Hx. apply in_map_iff in Hx.
  destruct Hx as [xs [<- Hin]]. pose proof (table_leaves n t xs H Hin) as [HL _]. cbn. rewrite HL. reflexivity.
Qed.

(** * Formats of states *)

Lemma find_getitem {A} : forall p (t : tree A) a, find p t = Some a -> getitem p t = Ok (Leaf a).
Proof.
  induction p as [|k p IH]; intros t a H; destruct t as [b|d]; cbn in *; try discriminate.
  - apply some_inj in H. subst. reflexivity.
  - destruct (dget k d); [|discriminate]. cbn. apply IH; exact H.
Qed.
Lemma find_leaves {A} : forall p (t : tree A) a, find p t = Some a -> In a (leaves t).
Proof.
  induction p as [|k p IH]; intros t a H; destruct t as [b|d]; cbn in *; try discriminate.
  - apply some_inj in H. left; exact H.
  - destruct (dget k d) as [x|] eqn:E; [|discriminate]. apply in_concat. exists (leaves x). split; [|apply IH; exact H].
    apply dget_some_in in E. apply (in_map (fun kt => leaves (snd kt))) in E. exact E.
Qed.
Lemma first_items {A} : forall (t : tree A), first t = hd_error (items t).
Proof.
  induction t as [a|d IH] using tree_rect'; [reflexivity|].
  induction d as [|[k x] d IHd]; [reflexivity|].
  inversion IH as [|? ? Hx Hd]; subst. cbn [fst snd] in Hx.
  specialize (IHd Hd). cbn [first items map concat fst snd] in *. rewrite Hx.
  destruct (items x) as [|[p a] r]; cbn; [|reflexivity]. exact IHd.
Qed.

Section Formats.
Variable V : Type.
Notation process := (process_states V).

(** The first entry of the specification, as the code looks it up *)
Lemma fits_entry spec d n : table V n (Dict d) -> fits V spec (Dict d) ->
  exists p l xs, first_entry spec = Ok (p, l) /\ find p (Dict d) = Some xs /\ rows V n xs /\ (forall x, In x xs -> shape x = l_shape l).
Proof.
  intros Ht. destruct spec as [l|ds]; cbn [fits].
  - intros [xs [Hf Hs]]. exists ["state"%string], l, xs. repeat split; auto.
    + apply (table_leaves n (Dict d) xs Ht). eapply find_leaves; exact Hf.
    + apply (table_leaves n (Dict d) xs Ht). eapply find_leaves; exact Hf.
  - intros [p [l [xs [Hp [Hf Hs]]]]]. exists p, l, xs.
    rewrite first_items in Hp. split.
    + unfold first_entry. destruct (items (Dict ds)) as [|x r]; [discriminate|]. cbn in Hp. apply some_inj in Hp. subst. reflexivity.
    + repeat split; auto; apply (table_leaves n (Dict d) xs Ht); eapply find_leaves; exact Hf.
Qed.

Lemma is_single_dict spec p ps : (p = PDict ps \/ exists r, p = PList (PDict ps :: r)) -> is_single V spec p = Ok None.
Proof. intros [->|[r ->]]; destruct spec; reflexivity. Qed.

(** A list of n instances *)
Lemma process_list spec t n ps : n <> 0 -> table V n t -> fits V spec t -> length ps = n ->
  (forall i p, nth_error ps i = Some p -> writes_tree V p (instance V i t)) ->
  process spec (PList ps) = Ok (piled V t, true, n, Some true).
Proof.
  intros Hn Ht Hf HL Hw. destruct n as [|n]; [congruence|]. destruct ps as [|p0 ps]; [discriminate|].
  destruct t as [xs|d].
  - destruct spec as [l|ds]; [|contradiction]. cbn [fits] in Hf.
    inversion Ht as [? Hx|]; subst. destruct Hx as [HLx [sh Hs]].
    assert (Hp0 : forall q, p0 <> PDict q).
    { intros q ->. specialize (Hw 0 _ eq_refl). inversion Hw as [? ? Hq|]; subst. inversion Hq. }
    assert (S1 : is_single V (Leaf l) (PList (p0 :: ps)) = Ok (Some l)).
    { destruct p0; try reflexivity. exfalso. eapply Hp0; reflexivity. }
    unfold process_states. rewrite S1. cbn [bind].
    assert (W : writes V (PList (p0 :: ps)) (Arr (length (p0 :: ps) :: l_shape l) (concat (map data xs)))).
    { apply writes_list; [discriminate| |exact Hf].
      assert (G : forall ps xs, length ps = length xs -> (forall i p, nth_error ps i = Some p -> writes V p (nth i xs (Arr [] []))) -> Forall2 (writes V) ps xs).
      { clear. induction ps as [|p ps IH]; intros [|x xs]; cbn; intros HL H; try discriminate; constructor.
        - exact (H 0 p eq_refl).
        - apply IH; [lia|]. intros i q Hi. exact (H (S i) q Hi). }
      apply G; [lia|]. intros i p Hi. specialize (Hw i p Hi). cbn [instance] in Hw. inversion Hw; subst. assumption. }
    rewrite (asarray_writes _ _ W). cbn [bind shape tl]. rewrite shape_cons_neq, shape_eqb_refl. cbn [dim0 bind shape].
    unfold dim0. cbn [shape bind]. rewrite HL. unfold piled, pile. rewrite HLx.
    destruct xs as [|x r]; [discriminate|]. rewrite (Hf x) by (left; reflexivity). reflexivity.
  - assert (HW : forall i p, nth_error (p0 :: ps) i = Some p -> exists q, p = PDict q).
    { intros i p Hi. specialize (Hw i p Hi). cbn [instance] in Hw. eapply writes_dict_inv; exact Hw. }
    destruct (HW 0 p0 eq_refl) as [q0 E0].
    unfold process_states. rewrite (is_single_dict spec _ q0) by (right; exists ps; congruence). cbn [bind].
    assert (FD : forallb (is_dict V) (p0 :: ps) = true).
    { apply forallb_forall. intros p Hin. apply In_nth_error in Hin. destruct Hin as [i Hi].
      destruct (HW i p Hi) as [q ->]. reflexivity. }
    rewrite FD.
    assert (A0 : array_dict p0 = Ok (instance V 0 (Dict d))).
    { apply array_dict_writes. exact (Hw 0 p0 eq_refl). }
    rewrite A0. cbn [bind].
    assert (AS : map_res array_dict ps = Ok (map (fun i => instance V i (Dict d)) (seq 1 n))).
    { apply map_res_Forall2. cbn in HL.
      assert (G : forall ps k, (forall i p, nth_error ps i = Some p -> writes_tree V p (instance V (k + i) (Dict d))) ->
                  Forall2 (fun p x => array_dict p = Ok x) ps (map (fun i => instance V i (Dict d)) (seq k (length ps)))).
      { clear. induction ps as [|p ps IH]; intros k H; cbn [length seq map]; constructor.
        - apply array_dict_writes. specialize (H 0 p eq_refl). rewrite Nat.add_0_r in H. exact H.
        - apply IH. intros i q Hi. specialize (H (S i) q Hi). replace (S k + i) with (k + S i) by lia. exact H. }
      injection HL as <-. apply (G ps 1). intros i p Hi. exact (Hw (S i) p Hi). }
    rewrite AS. cbn [bind]. rewrite (stack_instances n (Dict d) Ht). cbn [bind]. rewrite HL.
    rewrite (check_piled (S n) (Dict d) Ht). reflexivity.
Qed.

Lemma hd_shape_pile n (xs : list (arr V)) sh : n <> 0 -> length xs = n -> (forall x, In x xs -> shape x = sh) -> shape (pile V xs) = n :: sh.
Proof. intros Hn HL Hs. unfold pile. cbn. rewrite HL. destruct xs as [|x r]; [cbn in HL; congruence|]. rewrite (Hs x) by (left; reflexivity). reflexivity. Qed.

(** All instances in one dictionary of arrays (or one array) *)
Lemma process_arrays spec t n p : n <> 0 -> table V n t -> fits V spec t -> writes_tree V p (piled V t) ->
  process spec p = Ok (piled V t, true, n, Some match t with Leaf _ => true | Dict _ => false end).
Proof.
  intros Hn Ht Hf Hw. destruct t as [xs|d].
  - destruct spec as [l|ds]; [|contradiction]. cbn [fits] in Hf. inversion Ht as [? Hx|]; subst.
    destruct Hx as [HL _]. cbn [piled] in Hw. inversion Hw as [? ? Hp|]; subst.
    assert (S1 : is_single V (Leaf l) p = Ok (Some l)).
    { inversion Hp as [| |ps ys sh Hne HF]; subst; try reflexivity. destruct HF as [|p0 y ps ys Hp0 HF]; [congruence|].
      destruct p0; try reflexivity. inversion Hp0. }
    unfold process_states. rewrite S1. cbn [bind]. rewrite (asarray_writes _ _ Hp). cbn [bind].
    rewrite (hd_shape_pile _ xs (l_shape l) Hn eq_refl Hf). rewrite shape_cons_neq. cbn [tl]. rewrite shape_eqb_refl.
    unfold dim0. rewrite (hd_shape_pile _ xs (l_shape l) Hn eq_refl Hf). reflexivity.
  - destruct (writes_dict_inv p _ Hw) as [ps Hps].
    destruct (fits_entry spec d n Ht Hf) as [q [l [xs [Hq [Hfd [[HL _] Hs]]]]]].
    unfold process_states. rewrite (is_single_dict spec p ps) by (left; exact Hps). cbn [bind].
    remember (piled V (Dict d)) as T eqn:ET.
    assert (A : array_dict p = Ok T) by (subst T; apply array_dict_writes; exact Hw).
    rewrite A. subst p. cbn [bind]. rewrite Hq. cbn [bind fst snd].
    assert (G : getitem q T = Ok (Leaf (pile V xs))).
    { subst T. rewrite piled_tmap, getitem_tmap, (find_getitem q (Dict d) xs Hfd). reflexivity. }
    rewrite G. cbn [bind value]. rewrite (hd_shape_pile n xs (l_shape l) Hn HL Hs).
    rewrite shape_cons_neq. cbn [tl]. rewrite shape_eqb_refl. unfold dim0. rewrite (hd_shape_pile n xs (l_shape l) Hn HL Hs).
    cbn [bind]. destruct (Nat.eqb n 0) eqn:E; [apply Nat.eqb_eq in E; congruence|].
    pose proof (check_piled n (Dict d) Ht) as C. rewrite <- ET in C. rewrite C. reflexivity.
Qed.

Lemma rows_nth n (xs : list (arr V)) i : rows V n xs -> i < n -> In (nth i xs (Arr [] [])) xs.
Proof. intros [HL _] Hi. apply nth_In. lia. Qed.

(** One instance *)
Lemma process_one spec t n i p : i < n -> table V n t -> fits V spec t -> writes_tree V p (instance V i t) ->
  process spec p = Ok (tmap expand (instance V i t), false, 1, None).
Proof.
  intros Hi Ht Hf Hw. destruct t as [xs|d].
  - destruct spec as [l|ds]; [|contradiction]. cbn [fits] in Hf. inversion Ht as [? Hx|]; subst.
    cbn [instance] in Hw. inversion Hw as [? ? Hp|]; subst.
    assert (S1 : is_single V (Leaf l) p = Ok (Some l)).
    { inversion Hp as [| |ps ys sh Hne HF]; subst; try reflexivity. destruct HF as [|p0 y ps ys Hp0 HF]; [congruence|].
      destruct p0; try reflexivity. inversion Hp0. }
    unfold process_states. rewrite S1. cbn [bind]. rewrite (asarray_writes _ _ Hp). cbn [bind].
    rewrite (Hf _ (rows_nth n xs i Hx Hi)). rewrite shape_eqb_refl. reflexivity.
  - destruct (writes_dict_inv p _ Hw) as [ps Hps].
    destruct (fits_entry spec d n Ht Hf) as [q [l [xs [Hq [Hfd [Hx Hs]]]]]].
    unfold process_states. rewrite (is_single_dict spec p ps) by (left; exact Hps). cbn [bind].
    remember (instance V i (Dict d)) as T eqn:ET.
    assert (A : array_dict p = Ok T) by (subst T; apply array_dict_writes; exact Hw).
    rewrite A. subst p. cbn [bind]. rewrite Hq. cbn [bind fst snd].
    assert (G : getitem q T = Ok (Leaf (nth i xs (Arr [] [])))).
    { subst T. rewrite instance_tmap, getitem_tmap, (find_getitem q (Dict d) xs Hfd). reflexivity. }
    rewrite G. cbn [bind value]. rewrite (Hs _ (rows_nth n xs i Hx Hi)), shape_eqb_refl.
    rewrite check_rows_all; [reflexivity|]. intros x Hin. rewrite leaves_tmap in Hin. apply in_map_iff in Hin.
    destruct Hin as [y [<- _]]. reflexivity.
Qed.
End Formats.
