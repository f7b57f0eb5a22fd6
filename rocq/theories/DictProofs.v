(** Lemmas on nested dictionaries. *)

From Coq Require Import String List ZArith Lia Bool Arith FinFun.
From Verif Require Import Base DictSpec DictModel.
Import ListNotations.
Open Scope string_scope.

Section Proofs.
Variable V : Type.
Notation node := (node V).
Implicit Types (d c n : node) (es : list (string * node)).

Lemma view_ind (P : node -> Prop) :
  (forall v, P (Leaf v)) ->
  (forall c, P c -> P (Dict [(single_name, c)])) ->
  (forall es, is_singleton es = false -> P (Dict es)) ->
  forall d, P d.
Proof.
  intros H1 H2 H3. fix IH 1. intros [v|es]; [apply H1|].
  destruct es as [|[k c] [|e r]]; [apply H3; reflexivity| |apply H3; reflexivity].
  destruct (k =? single_name) eqn:E.
  - apply String.eqb_eq in E; subst k. apply H2, IH.
  - apply H3. cbn. exact E.
Qed.

(** A key is [None], invalid ('SINGLETON/...'), a name, or a name with a rest. *)
Inductive keyview : list string -> Prop :=
| kv_none key : none_key key = true -> keyview key
| kv_bad key : none_key key = false -> single_prefix key = true -> keyview key
| kv_one k : (k =? single_name) = false -> keyview [k]
| kv_more k x sub : (k =? single_name) = false -> keyview (k :: x :: sub).

Lemma keyview_of key : keyview key.
Proof.
  destruct key as [|k [|x sub]].
  - apply kv_none; reflexivity.
  - destruct (k =? single_name) eqn:E; [apply kv_none; exact E|apply kv_one; exact E].
  - destruct (k =? single_name) eqn:E; [apply kv_bad; [reflexivity|exact E]|apply kv_more; exact E].
Qed.

Variable ow : bool.

(** ** Unfolding equations *)

Lemma set_none key v es : none_key key = true ->
  setitem ow key v (Dict es) =
  if (match es with [] => true | _ => is_singleton es end)
  then Ok (Dict [(single_name, v)]) else Err "AssertionError".
Proof.
  intro H. destruct key as [|k [|x s]]; cbn [setitem]; rewrite ?H; unfold assert_;
    destruct es as [|[k0 c] [|]]; try reflexivity; try discriminate; cbn [is_singleton];
    try (destruct (k0 =? single_name); reflexivity).
Qed.

Lemma set_bad key v d : none_key key = false -> single_prefix key = true -> exists e, setitem ow key v d = Err e.
Proof.
  intros H H'. destruct d as [|es]; destruct key as [|k [|x s]]; try discriminate;
    cbn [setitem]; rewrite ?H, ?H'; eexists; reflexivity.
Qed.

Lemma set_single key v c : none_key key = false -> single_prefix key = false ->
  setitem ow key v (Dict [(single_name, c)]) = do c' <- setitem ow key v c; Ok (Dict [(single_name, c')]).
Proof.
  intros H H'. destruct key as [|k [|x s]]; [discriminate| |]; cbn [setitem];
    rewrite H, ?H', String.eqb_refl; reflexivity.
Qed.

Lemma set_one k v es : (k =? single_name) = false -> is_singleton es = false ->
  setitem ow [k] v (Dict es) =
  if is_keyword k then Err "reserved keyword"
  else match assoc k es with
       | Some _ => if ow then Ok (Dict (put k v es)) else Err "already set"
       | None => Ok (Dict (put k v es))
       end.
Proof.
  intros H H'. cbn [setitem none_key single_prefix]. rewrite H.
  destruct es as [|[k0 c] [|e r]]; [reflexivity| |reflexivity].
  cbn [is_singleton] in H'. rewrite H'. reflexivity.
Qed.

Definition child k es : node := match assoc k es with Some c => c | None => Dict [] end.

Lemma set_more k x sub v es : (k =? single_name) = false -> is_singleton es = false ->
  setitem ow (k :: x :: sub) v (Dict es) =
  if is_keyword k then Err "reserved keyword"
  else do c' <- setitem ow (x :: sub) v (child k es); Ok (Dict (put k c' es)).
Proof.
  intros H H'. unfold child.
  transitivity (if is_keyword k then Err "reserved keyword" else
    match assoc k es with
    | Some c => do c' <- setitem ow (x :: sub) v c; Ok (Dict (put k c' es))
    | None => do c' <- setitem ow (x :: sub) v (Dict []); Ok (Dict (put k c' es))
    end).
  2:{ destruct (is_keyword k); [reflexivity|]. destruct (assoc k es); reflexivity. }
  remember (x :: sub) as s eqn:Es.
  cbn [setitem]. replace (none_key (k :: s)) with false by (subst; reflexivity).
  replace (single_prefix (k :: s)) with (k =? single_name) by (subst; reflexivity). rewrite H.
  assert (R : forall A (a b : A), match s with [] => a | _ :: _ => b end = b) by (intros; subst; reflexivity).
  destruct es as [|[k0 c] [|e r]]; [| |].
  - subst s; reflexivity.
  - cbn [is_singleton] in H'. rewrite H'. subst s; reflexivity.
  - subst s; reflexivity.
Qed.

Lemma set_leaf key (v : node) (a : V) : exists e, setitem ow key v (Leaf a) = Err e.
Proof. destruct key; eexists; reflexivity. Qed.

Lemma get_leaf key (a : V) : exists e, getitem key (Leaf a) = Err e.
Proof. destruct key; eexists; reflexivity. Qed.

Lemma get_none key es : none_key key = true ->
  getitem key (Dict es) =
  match es with
  | [(k0, c)] => if k0 =? single_name then Ok c else Err "AssertionError"
  | _ => Err "AssertionError"
  end.
Proof. intro H. destruct key as [|k [|x s]]; cbn [getitem]; rewrite ?H; try reflexivity; discriminate. Qed.

Lemma get_bad key d : none_key key = false -> single_prefix key = true -> exists e, getitem key d = Err e.
Proof.
  intros H H'. destruct d as [|es]; destruct key as [|k [|x s]]; try discriminate;
    cbn [getitem]; rewrite ?H, ?H'; eexists; reflexivity.
Qed.

Lemma get_single key c : none_key key = false -> single_prefix key = false ->
  getitem key (Dict [(single_name, c)]) = getitem key c.
Proof.
  intros H H'. destruct key as [|k [|x s]]; [discriminate| |]; cbn [getitem];
    rewrite H, ?H', String.eqb_refl; reflexivity.
Qed.

Lemma get_one k es : (k =? single_name) = false -> is_singleton es = false ->
  getitem [k] (Dict es) = match assoc k es with Some c => Ok c | None => Err "KeyError" end.
Proof.
  intros H H'. cbn [getitem none_key single_prefix]. rewrite H.
  destruct es as [|[k0 c] [|e r]]; [reflexivity| |reflexivity].
  cbn [is_singleton] in H'. rewrite H'. reflexivity.
Qed.

Lemma get_more k x sub es : (k =? single_name) = false -> is_singleton es = false ->
  getitem (k :: x :: sub) (Dict es) =
  match assoc k es with Some c => getitem (x :: sub) c | None => Err "KeyError" end.
Proof.
  intros H H'. remember (x :: sub) as s eqn:Es.
  cbn [getitem]. replace (none_key (k :: s)) with false by (subst; reflexivity).
  replace (single_prefix (k :: s)) with (k =? single_name) by (subst; reflexivity). rewrite H.
  destruct es as [|[k0 c] [|e r]]; [subst s; reflexivity| |subst s; reflexivity].
  cbn [is_singleton] in H'. rewrite H'. subst s; reflexivity.
Qed.

Lemma con_leaf key (a : V) : exists e, contains key (Leaf a) = Err e.
Proof. destruct key; eexists; reflexivity. Qed.

Lemma con_none key es : none_key key = true ->
  contains key (Dict es) =
  if (match es with [] => true | _ => is_singleton es end) then Ok (is_singleton es) else Err "AssertionError".
Proof.
  intro H. destruct key as [|k [|x s]]; cbn [contains]; rewrite ?H; unfold assert_; try discriminate;
    destruct es as [|[k0 c] [|]]; cbn [is_singleton]; try reflexivity; destruct (k0 =? single_name); reflexivity.
Qed.

Lemma con_bad key d : none_key key = false -> single_prefix key = true -> exists e, contains key d = Err e.
Proof.
  intros H H'. destruct d as [|es]; destruct key as [|k [|x s]]; try discriminate;
    cbn [contains]; rewrite ?H, ?H'; eexists; reflexivity.
Qed.

Lemma con_single key c : none_key key = false -> single_prefix key = false ->
  contains key (Dict [(single_name, c)]) = match c with Leaf _ => Ok false | Dict _ => contains key c end.
Proof.
  intros H H'. destruct key as [|k [|x s]]; [discriminate| |]; cbn [contains];
    rewrite H, ?H', String.eqb_refl; reflexivity.
Qed.

Lemma con_one k es : (k =? single_name) = false -> is_singleton es = false ->
  contains [k] (Dict es) = Ok (match assoc k es with Some _ => true | None => false end).
Proof.
  intros H H'. cbn [contains none_key single_prefix]. rewrite H.
  destruct es as [|[k0 c] [|e r]]; [reflexivity| |reflexivity].
  cbn [is_singleton] in H'. rewrite H'. reflexivity.
Qed.

Lemma con_more k x sub es : (k =? single_name) = false -> is_singleton es = false ->
  contains (k :: x :: sub) (Dict es) =
  match assoc k es with Some c => contains (x :: sub) c | None => Ok false end.
Proof.
  intros H H'. remember (x :: sub) as s eqn:Es.
  cbn [contains]. replace (none_key (k :: s)) with false by (subst; reflexivity).
  replace (single_prefix (k :: s)) with (k =? single_name) by (subst; reflexivity). rewrite H.
  destruct es as [|[k0 c] [|e r]]; [subst s; reflexivity| |subst s; reflexivity].
  cbn [is_singleton] in H'. rewrite H'. subst s; reflexivity.
Qed.

Lemma pop_leaf key (a : V) : exists e, pop key (Leaf a) = Err e.
Proof. destruct key; eexists; reflexivity. Qed.

Lemma pop_none key es : none_key key = true ->
  pop key (Dict es) =
  match es with
  | [] => Ok (None, Dict [])
  | [(k0, c)] => if k0 =? single_name then Ok (Some c, Dict []) else Err "AssertionError"
  | _ => Err "AssertionError"
  end.
Proof. intro H. destruct key as [|k [|x s]]; cbn [pop]; rewrite ?H; try reflexivity; discriminate. Qed.

Lemma pop_bad key d : none_key key = false -> single_prefix key = true -> exists e, pop key d = Err e.
Proof.
  intros H H'. destruct d as [|es]; destruct key as [|k [|x s]]; try discriminate;
    cbn [pop]; rewrite ?H, ?H'; eexists; reflexivity.
Qed.

Lemma pop_single key c : none_key key = false -> single_prefix key = false ->
  pop key (Dict [(single_name, c)]) =
  match c with
  | Leaf _ => Ok (None, Dict [(single_name, c)])
  | Dict _ => do r <- pop key c; Ok (fst r, Dict [(single_name, snd r)])
  end.
Proof.
  intros H H'. destruct key as [|k [|x s]]; [discriminate| |]; cbn [pop];
    rewrite H, ?H', String.eqb_refl; reflexivity.
Qed.

Lemma pop_one k es : (k =? single_name) = false -> is_singleton es = false ->
  pop [k] (Dict es) =
  match assoc k es with Some c => Ok (Some c, Dict (del k es)) | None => Ok (None, Dict es) end.
Proof.
  intros H H'. cbn [pop none_key single_prefix]. rewrite H.
  destruct es as [|[k0 c] [|e r]]; [reflexivity| |reflexivity].
  cbn [is_singleton] in H'. rewrite H'. reflexivity.
Qed.

Lemma pop_more k x sub es : (k =? single_name) = false -> is_singleton es = false ->
  pop (k :: x :: sub) (Dict es) =
  match assoc k es with
  | Some c => do r <- pop (x :: sub) c; Ok (fst r, Dict (put k (snd r) es))
  | None => Ok (None, Dict es)
  end.
Proof.
  intros H H'. remember (x :: sub) as s eqn:Es.
  cbn [pop]. replace (none_key (k :: s)) with false by (subst; reflexivity).
  replace (single_prefix (k :: s)) with (k =? single_name) by (subst; reflexivity). rewrite H.
  destruct es as [|[k0 c] [|e r]]; [subst s; reflexivity| |subst s; reflexivity].
  cbn [is_singleton] in H'. rewrite H'. subst s; reflexivity.
Qed.

(** ** The underlying dictionary *)

Lemma assoc_put_same k n es : assoc k (put k n es) = Some n.
Proof.
  induction es as [|[k' n'] r IH]; cbn [put assoc]; [rewrite String.eqb_refl; reflexivity|].
  destruct (k =? k') eqn:E; cbn [assoc]; rewrite E; [reflexivity|exact IH].
Qed.

Lemma assoc_put_other k k' n es : k <> k' -> assoc k' (put k n es) = assoc k' es.
Proof.
  intro H. induction es as [|[k0 n'] r IH]; cbn [put assoc].
  - destruct (k' =? k) eqn:E; [apply String.eqb_eq in E; congruence|reflexivity].
  - destruct (k =? k0) eqn:E; cbn [assoc].
    + apply String.eqb_eq in E; subst k0. destruct (k' =? k) eqn:E'; [apply String.eqb_eq in E'; congruence|reflexivity].
    + destruct (k' =? k0); [reflexivity|exact IH].
Qed.

Lemma put_regular k n es : (k =? single_name) = false -> is_singleton es = false -> is_singleton (put k n es) = false.
Proof.
  intros H H'. destruct es as [|[k0 c] [|e r]]; cbn [put].
  - exact H.
  - destruct (k =? k0); [exact H'|reflexivity].
  - destruct (k =? k0); [reflexivity|]. destruct e as [k1 c1]; cbn [put]. destruct (k =? k1); reflexivity.
Qed.

Lemma assoc_del_same k es : assoc k (del k es) = None.
Proof.
  induction es as [|[k' n'] r IH]; [reflexivity|]. unfold del in *; cbn [filter fst].
  destruct (k' =? k) eqn:E; cbn [negb]; [exact IH|]. cbn [assoc]. rewrite String.eqb_sym, E. exact IH.
Qed.

Lemma assoc_del_other k k' es : k <> k' -> assoc k' (del k es) = assoc k' es.
Proof.
  intro H. induction es as [|[k0 n'] r IH]; [reflexivity|]. unfold del in *; cbn [filter fst].
  destruct (k0 =? k) eqn:E; cbn [negb assoc].
  - apply String.eqb_eq in E; subst k0. destruct (k' =? k) eqn:E'; [apply String.eqb_eq in E'; congruence|exact IH].
  - destruct (k' =? k0); [reflexivity|exact IH].
Qed.

Lemma assoc_In k es n : assoc k es = Some n -> In (k, n) es.
Proof.
  induction es as [|[k' n'] r IH]; [discriminate|]. cbn [assoc]. destruct (k =? k') eqn:E.
  - apply String.eqb_eq in E; subst. intro H; injection H as ->. left; reflexivity.
  - intro H; right; exact (IH H).
Qed.

Lemma In_assoc k es n : NoDup (map fst es) -> In (k, n) es -> assoc k es = Some n.
Proof.
  induction es as [|[k' n'] r IH]; intros Hd Hin; [destruct Hin|].
  cbn [map fst] in Hd. inversion Hd as [|? ? Hx Hr]; subst. cbn [assoc]. destruct Hin as [E|Hin].
  - injection E as -> ->. rewrite String.eqb_refl. reflexivity.
  - destruct (k =? k') eqn:E; [|exact (IH Hr Hin)].
    apply String.eqb_eq in E; subst. exfalso; apply Hx. apply (in_map fst) in Hin. exact Hin.
Qed.

(** ** Well-formed dictionaries: what every sequence of operations produces *)

Fixpoint wf d : Prop :=
  match d with
  | Leaf _ => True
  | Dict es =>
      NoDup (map fst es) /\
      (In single_name (map fst es) -> length es = 1%nat) /\
      Forall (fun k => is_keyword k = false) (map fst es) /\
      (fix all es := match es with [] => True | (_, n) :: r => wf n /\ all r end) es
  end.

Fixpoint wfs es : Prop := match es with [] => True | (_, n) :: r => wf n /\ wfs r end.

Lemma wf_dict es : wf (Dict es) <->
  NoDup (map fst es) /\ (In single_name (map fst es) -> length es = 1%nat) /\
  Forall (fun k => is_keyword k = false) (map fst es) /\ wfs es.
Proof. reflexivity. Qed.

Lemma wfs_put k n es : wf n -> wfs es -> wfs (put k n es).
Proof.
  induction es as [|[k' n'] r IH]; intros Hn H; cbn [put wfs] in *; [auto|].
  destruct H as [H1 H2]. destruct (k =? k'); cbn [wfs]; auto.
Qed.

Lemma wfs_del k es : wfs es -> wfs (del k es).
Proof.
  induction es as [|[k' n'] r IH]; intro H; [exact I|]. unfold del in *. cbn [filter fst wfs] in *.
  destruct (negb (k' =? k)); cbn [wfs]; tauto.
Qed.

Lemma keys_put k n es : map fst (put k n es) = match assoc k es with Some _ => map fst es | None => (map fst es ++ [k])%list end.
Proof.
  induction es as [|[k' n'] r IH]; [reflexivity|]. cbn [put assoc map fst].
  destruct (k =? k'); [reflexivity|]. cbn [map fst]. rewrite IH. destruct (assoc k r); reflexivity.
Qed.

Lemma assoc_none k es : assoc k es = None -> ~ In k (map fst es).
Proof.
  induction es as [|[k' n'] r IH]; [tauto|]. cbn [assoc map fst].
  destruct (k =? k') eqn:E; [discriminate|]. intros H [H'|H'].
  - subst. rewrite String.eqb_refl in E. discriminate.
  - exact (IH H H').
Qed.

Lemma wfs_assoc k es n : wfs es -> assoc k es = Some n -> wf n.
Proof.
  induction es as [|[k' n'] r IH]; [discriminate|]. cbn [assoc wfs]. intros [H1 H2].
  destruct (k =? k'); [intro H; injection H as <-; exact H1|exact (IH H2)].
Qed.

Lemma wf_put k n es : (k =? single_name) = false -> is_singleton es = false -> is_keyword k = false ->
  wf n -> wf (Dict es) -> wf (Dict (put k n es)).
Proof.
  intros Hk Hs Hw Hn H. apply wf_dict in H. destruct H as (H1 & H2 & H3 & H4).
  apply wf_dict. rewrite keys_put. destruct (assoc k es) eqn:E.
  - repeat split; auto using wfs_put. intro H. specialize (H2 H). exfalso.
    destruct es as [|[k0 c] [|]]; try discriminate. cbn in H, Hs. destruct H as [H|[]]. subst.
    rewrite String.eqb_refl in Hs. discriminate.
  - apply assoc_none in E. repeat split.
    + clear -H1 E. induction (map fst es) as [|x r IH]; cbn [app]; [constructor; [tauto|constructor]|].
      inversion H1; subst. constructor; [rewrite in_app_iff; cbn in *; intuition|]. apply IH; [auto|cbn in E; tauto].
    + rewrite in_app_iff. intros [H|[H|[]]].
      * exfalso. specialize (H2 H). destruct es as [|[k0 c] [|]]; try discriminate. cbn in H, Hs.
        destruct H as [H|[]]. subst. rewrite String.eqb_refl in Hs. discriminate.
      * subst. rewrite String.eqb_refl in Hk. discriminate.
    + apply Forall_app. split; [exact H3|repeat constructor; exact Hw].
    + apply wfs_put; assumption.
Qed.

Lemma wf_empty : wf (Dict []).
Proof. cbn. repeat split; try constructor. intros []. Qed.

Lemma wf_single c : wf c -> wf (Dict [(single_name, c)]).
Proof. intro H. cbn. repeat split; auto; repeat constructor; cbn; tauto. Qed.

Lemma wf_single_inv c : wf (Dict [(single_name, c)]) -> wf c.
Proof. intro H. apply wf_dict in H. destruct H as (_ & _ & _ & H & _). exact H. Qed.

Lemma wf_child k es : wf (Dict es) -> wf (child k es).
Proof.
  intro H. unfold child. destruct (assoc k es) eqn:E; [|exact wf_empty].
  apply wf_dict in H. destruct H as (_ & _ & _ & H). exact (wfs_assoc _ _ _ H E).
Qed.

Lemma wf_del k es : wf (Dict es) -> wf (Dict (del k es)) /\ (is_singleton es = false -> is_singleton (del k es) = false).
Proof.
  intro H. apply wf_dict in H. destruct H as (H1 & H2 & H3 & H4). split.
  - apply wf_dict. assert (Hin : forall x, In x (map fst (del k es)) -> In x (map fst es)).
    { intros x Hx. apply in_map_iff in Hx. destruct Hx as (e & <- & He). apply filter_In in He.
      apply in_map. tauto. }
    repeat split.
    + clear -H1. induction es as [|[k' n] r IH]; [constructor|]. inversion H1; subst. unfold del in *.
      cbn [filter fst]. destruct (negb (k' =? k)); [|auto]. cbn [map fst]. constructor; [|auto].
      intro Hx. apply in_map_iff in Hx. destruct Hx as (e & <- & He). apply filter_In in He.
      apply H2. apply in_map. tauto.
    + intro Hx. specialize (H2 (Hin _ Hx)).
      destruct es as [|[k0 c] [|]]; try discriminate. cbn in *. destruct (k0 =? k); [destruct Hx|reflexivity].
    + apply Forall_forall. intros x Hx. rewrite Forall_forall in H3. auto.
    + apply wfs_del, H4.
  - intro Hs. destruct (is_singleton (del k es)) eqn:E; [|reflexivity]. exfalso.
    assert (Hi : In single_name (map fst es)).
    { destruct (del k es) as [|[k0 c] [|]] eqn:Ed; try discriminate. cbn in E. apply String.eqb_eq in E; subst k0.
      assert (Hi : In (single_name, c) (del k es)) by (rewrite Ed; left; reflexivity).
      apply filter_In in Hi. destruct Hi as [Hi _]. apply (in_map fst) in Hi. exact Hi. }
    specialize (H2 Hi). destruct es as [|[k0 c] [|]]; try discriminate.
    cbn in Hi, Hs. destruct Hi as [Hi|[]]. subst. rewrite String.eqb_refl in Hs. discriminate.
Qed.

Lemma wf_none es : is_singleton es = true -> exists c, es = [(single_name, c)].
Proof.
  destruct es as [|[k0 c] [|]]; try discriminate. cbn. intro H. apply String.eqb_eq in H; subst. eauto.
Qed.

Ltac inv H := inversion H; subst; clear H.

Lemma bind_ok {A B} (x : res A) (f : A -> res B) b : bind x f = Ok b -> exists a, x = Ok a /\ f a = Ok b.
Proof. destruct x; [intro H; exists a; auto|discriminate]. Qed.

Lemma set_wf key : forall v d d', wf v -> wf d -> setitem ow key v d = Ok d' -> wf d'.
Proof.
  induction key as [key IHk] using (induction_ltof1 _ (@length string)); unfold ltof in IHk.
  intros v d. induction d as [a|c IHc|es Hs] using view_ind; intros d' Hv Hd H.
  - destruct (set_leaf key v a) as [e E]. congruence.
  - destruct (keyview_of key) as [key Hn|key Hn Hb|k Hk|k x sub Hk].
    + rewrite set_none in H by exact Hn. cbn in H. rewrite ?String.eqb_refl in H. injection H as <-. apply wf_single, Hv.
    + destruct (set_bad key v (Dict [(single_name, c)]) Hn Hb) as [e E]. congruence.
    + rewrite set_single in H by (cbn; auto). apply bind_ok in H. destruct H as (c' & E & H). injection H as <-.
      apply wf_single, IHc; auto. apply wf_single_inv, Hd.
    + rewrite set_single in H by (cbn; auto). apply bind_ok in H. destruct H as (c' & E & H). injection H as <-.
      apply wf_single, IHc; auto. apply wf_single_inv, Hd.
  - destruct (keyview_of key) as [key Hn|key Hn Hb|k Hk|k x sub Hk].
    + rewrite set_none in H by exact Hn. destruct es; [|rewrite Hs in H; discriminate].
      injection H as <-. apply wf_single, Hv.
    + destruct (set_bad key v (Dict es) Hn Hb) as [e E]. congruence.
    + rewrite set_one in H by auto. destruct (is_keyword k) eqn:Ek; [discriminate|].
      assert (E : d' = Dict (put k v es)) by (destruct (assoc k es); [destruct ow|]; congruence). subst.
      apply wf_put; auto.
    + rewrite set_more in H by auto. destruct (is_keyword k) eqn:Ek; [discriminate|].
      apply bind_ok in H. destruct H as (c' & E & H). injection H as <-.
      apply wf_put; auto. apply (IHk (x :: sub)) with (v := v) (d := child k es); [cbn; lia|auto|apply wf_child, Hd|exact E].
Qed.

(** ** Reading after writing *)

Lemma get_set key : forall v d d', setitem ow key v d = Ok d' -> getitem key d' = Ok v.
Proof.
  induction key as [key IHk] using (induction_ltof1 _ (@length string)); unfold ltof in IHk.
  intros v d. induction d as [a|c IHc|es Hs] using view_ind; intros d' H.
  - destruct (set_leaf key v a) as [e E]. congruence.
  - destruct (keyview_of key) as [key Hn|key Hn Hb|k Hk|k x sub Hk].
    + rewrite set_none in H by exact Hn. cbn in H. injection H as <-. rewrite get_none by exact Hn. reflexivity.
    + destruct (set_bad key v (Dict [(single_name, c)]) Hn Hb) as [e E]. congruence.
    + rewrite set_single in H by (cbn; auto). apply bind_ok in H. destruct H as (c' & E & H). injection H as <-.
      rewrite get_single by (cbn; auto). apply IHc, E.
    + rewrite set_single in H by (cbn; auto). apply bind_ok in H. destruct H as (c' & E & H). injection H as <-.
      rewrite get_single by (cbn; auto). apply IHc, E.
  - destruct (keyview_of key) as [key Hn|key Hn Hb|k Hk|k x sub Hk].
    + rewrite set_none in H by exact Hn. destruct es; [|rewrite Hs in H; discriminate].
      injection H as <-. rewrite get_none by exact Hn. reflexivity.
    + destruct (set_bad key v (Dict es) Hn Hb) as [e E]. congruence.
    + rewrite set_one in H by auto. destruct (is_keyword k) eqn:Ek; [discriminate|].
      assert (E : d' = Dict (put k v es)) by (destruct (assoc k es); [destruct ow|]; congruence). subst.
      rewrite get_one by auto using put_regular. rewrite assoc_put_same. reflexivity.
    + rewrite set_more in H by auto. destruct (is_keyword k) eqn:Ek; [discriminate|].
      apply bind_ok in H. destruct H as (c' & E & H). injection H as <-.
      rewrite get_more by auto using put_regular. rewrite assoc_put_same.
      apply (IHk (x :: sub)) with (d := child k es); [cbn; lia|exact E].
Qed.

Lemma norm_none key : none_key key = true -> norm key = [].
Proof.
  destruct key as [|k [|x s]]; cbn; [reflexivity| |discriminate]. intro H. rewrite H. reflexivity.
Qed.

Lemma norm_more k x sub : norm (k :: x :: sub) = k :: norm (x :: sub).
Proof. reflexivity. Qed.

Lemma norm_one k : (k =? single_name) = false -> norm [k] = [k].
Proof. intro H. cbn. rewrite H. reflexivity. Qed.

Lemma prefix_nil b : is_prefix [] b = true. Proof. reflexivity. Qed.

Lemma get_empty key x : getitem key (Dict (@nil (string * node))) = Ok x -> False.
Proof.
  destruct (keyview_of key) as [key Hn|key Hn Hb|k Hk|k y sub Hk].
  - rewrite get_none by exact Hn. discriminate.
  - destruct (get_bad key (Dict []) Hn Hb) as [e E]. congruence.
  - rewrite get_one by auto. discriminate.
  - rewrite get_more by auto. discriminate.
Qed.

Lemma get_set_other key : forall key' v d d', unrelated key key' -> setitem ow key v d = Ok d' ->
  forall x, getitem key' d' = Ok x <-> getitem key' d = Ok x.
Proof.
  induction key as [key IHk] using (induction_ltof1 _ (@length string)); unfold ltof in IHk.
  intros key' v d. induction d as [a|c IHc|es Hs] using view_ind; intros d' Hu H y.
  - destruct (set_leaf key v a) as [e E]. congruence.
  - assert (Hk' : none_key key' = false).
    { destruct (none_key key') eqn:En; [|reflexivity]. destruct Hu as [_ Hu]. rewrite (norm_none _ En) in Hu. discriminate. }
    destruct (single_prefix key') eqn:Eb.
    { split; intro Hg; exfalso.
      - destruct (get_bad key' d' Hk' Eb) as [e E]; congruence.
      - destruct (get_bad key' (Dict [(single_name, c)]) Hk' Eb) as [e E]; congruence. }
    destruct (none_key key) eqn:Hn.
    { destruct Hu as [Hu _]. rewrite (norm_none _ Hn) in Hu. discriminate. }
    destruct (single_prefix key) eqn:Hb.
    { destruct (set_bad key v (Dict [(single_name, c)]) Hn Hb) as [e E]. congruence. }
    rewrite set_single in H by auto. apply bind_ok in H. destruct H as (c' & E & H). injection H as <-.
    rewrite !get_single by auto. apply IHc; auto.
  - assert (Hk' : none_key key' = false).
    { destruct (none_key key') eqn:En; [|reflexivity]. destruct Hu as [_ Hu]. rewrite (norm_none _ En) in Hu. discriminate. }
    destruct (keyview_of key) as [key Hn|key Hn Hb|k Hk|k x sub Hk].
    + destruct Hu as [Hu _]. rewrite (norm_none _ Hn) in Hu. discriminate.
    + destruct (set_bad key v (Dict es) Hn Hb) as [e E]. congruence.
    + rewrite set_one in H by auto. destruct (is_keyword k) eqn:Ek; [discriminate|].
      assert (E : d' = Dict (put k v es)) by (destruct (assoc k es); [destruct ow|]; congruence). subst. clear H.
      destruct (keyview_of key') as [key' Hn|key' Hn Hb|k' Hq|k' x' sub' Hq].
      * congruence.
      * split; intro Hg; exfalso; [destruct (get_bad key' (Dict (put k v es)) Hn Hb) as [e E]|
          destruct (get_bad key' (Dict es) Hn Hb) as [e E]]; congruence.
      * rewrite !get_one by auto using put_regular. rewrite assoc_put_other; [reflexivity|].
        intros ->. destruct Hu as [Hu _]. rewrite !norm_one in Hu by auto. cbn in Hu. rewrite String.eqb_refl in Hu. discriminate.
      * rewrite !get_more by auto using put_regular. rewrite assoc_put_other; [reflexivity|].
        intros ->. destruct Hu as [Hu _]. rewrite norm_more, norm_one in Hu by auto. cbn [is_prefix] in Hu.
        rewrite String.eqb_refl in Hu. discriminate.
    + rewrite set_more in H by auto. destruct (is_keyword k) eqn:Ek; [discriminate|].
      apply bind_ok in H. destruct H as (c' & E & H). injection H as <-.
      destruct (keyview_of key') as [key' Hn|key' Hn Hb|k' Hq|k' x' sub' Hq].
      * congruence.
      * split; intro Hg; exfalso; [destruct (get_bad key' (Dict (put k c' es)) Hn Hb) as [e E']|
          destruct (get_bad key' (Dict es) Hn Hb) as [e E']]; congruence.
      * rewrite !get_one by auto using put_regular. rewrite assoc_put_other; [reflexivity|].
        intros ->. destruct Hu as [_ Hu]. rewrite norm_more, norm_one in Hu by auto. cbn [is_prefix] in Hu.
        rewrite String.eqb_refl in Hu. discriminate.
      * rewrite !get_more by auto using put_regular.
        destruct (String.eqb_spec k k') as [<-|Hne].
        -- rewrite assoc_put_same. assert (Hu' : unrelated (x :: sub) (x' :: sub')).
           { destruct Hu as [H1 H2]. rewrite !norm_more in H1, H2. cbn [is_prefix] in H1, H2.
             rewrite String.eqb_refl in H1, H2. split; assumption. }
           rewrite (IHk (x :: sub) ltac:(cbn; lia) (x' :: sub') v (child k es) c' Hu' E).
           unfold child. destruct (assoc k es); [reflexivity|]. split; [|discriminate].
           intro Hg. exfalso. exact (get_empty _ _ Hg).
        -- rewrite assoc_put_other by exact Hne. reflexivity.
Qed.

Lemma contains_get key : forall d b, contains key d = Ok b -> (b = true <-> exists x, getitem key d = Ok x).
Proof.
  induction key as [key IHk] using (induction_ltof1 _ (@length string)); unfold ltof in IHk.
  intros d. induction d as [a|c IHc|es Hs] using view_ind; intros b H.
  - destruct (con_leaf key a) as [e E]. congruence.
  - destruct (none_key key) eqn:Hn.
    { rewrite con_none in H by auto. cbn in H. injection H as <-. rewrite get_none by auto. cbn.
      split; [eauto|reflexivity]. }
    destruct (single_prefix key) eqn:Hb.
    { destruct (con_bad key (Dict [(single_name, c)]) Hn Hb) as [e E]. congruence. }
    rewrite con_single in H by auto. rewrite get_single by auto. destruct c as [a|es].
    + injection H as <-. split; [discriminate|]. intros [x Hx]. destruct (get_leaf key a) as [e E]. congruence.
    + apply IHc, H.
  - destruct (keyview_of key) as [key Hn|key Hn Hb|k Hk|k x sub Hk].
    + rewrite con_none in H by auto. destruct es; [|rewrite Hs in H; discriminate].
      injection H as <-. rewrite get_none by auto. split; [discriminate|]. intros [x Hx]; discriminate.
    + destruct (con_bad key (Dict es) Hn Hb) as [e E]. congruence.
    + rewrite con_one in H by auto. injection H as <-. rewrite get_one by auto.
      destruct (assoc k es); split; eauto; try discriminate. intros [x Hx]; discriminate.
    + rewrite con_more in H by auto. rewrite get_more by auto. destruct (assoc k es) as [c|].
      * apply (IHk (x :: sub)); [cbn; lia|exact H].
      * injection H as <-. split; [discriminate|]. intros [y Hy]; discriminate.
Qed.

Lemma get_contains key : forall d x, getitem key d = Ok x -> contains key d = Ok true.
Proof.
  induction key as [key IHk] using (induction_ltof1 _ (@length string)); unfold ltof in IHk.
  intros d. induction d as [a|c IHc|es Hs] using view_ind; intros b H.
  - destruct (get_leaf key a) as [e E]. congruence.
  - destruct (none_key key) eqn:Hn; [rewrite con_none by auto; reflexivity|].
    destruct (single_prefix key) eqn:Hb.
    { destruct (get_bad key (Dict [(single_name, c)]) Hn Hb) as [e E]. congruence. }
    rewrite get_single in H by auto. rewrite con_single by auto. destruct c as [a|es].
    + destruct (get_leaf key a) as [e E]. congruence.
    + exact (IHc _ H).
  - destruct (keyview_of key) as [key Hn|key Hn Hb|k Hk|k x sub Hk].
    + rewrite get_none in H by auto. destruct es as [|[k0 c] [|]]; try discriminate. cbn in Hs. rewrite Hs in H. discriminate.
    + destruct (get_bad key (Dict es) Hn Hb) as [e E]. congruence.
    + rewrite get_one in H by auto. rewrite con_one by auto. destruct (assoc k es); congruence.
    + rewrite get_more in H by auto. rewrite con_more by auto. destruct (assoc k es) as [c|]; [|discriminate].
      exact (IHk (x :: sub) ltac:(cbn; lia) _ _ H).
Qed.

(** ** Removing *)

Lemma put_same k c es : assoc k es = Some c -> put k c es = es.
Proof.
  induction es as [|[k' n'] r IH]; [discriminate|]. cbn [assoc put].
  destruct (k =? k') eqn:E; [intro H; injection H as ->; reflexivity|]. intro H. rewrite (IH H). reflexivity.
Qed.

Lemma pop_spec key : forall d r d', wf d -> pop key d = Ok (r, d') ->
  wf d' /\
  match r with
  | Some x => getitem key d = Ok x
  | None => d' = d
  end /\
  (forall x, getitem key d' <> Ok x) /\
  (forall key' x, unrelated key key' -> (getitem key' d' = Ok x <-> getitem key' d = Ok x)).
Proof.
  induction key as [key IHk] using (induction_ltof1 _ (@length string)); unfold ltof in IHk.
  intros d. induction d as [a|c IHc|es Hs] using view_ind; intros r d' Hw H.
  - destruct (pop_leaf key a) as [e E]. congruence.
  - destruct (none_key key) eqn:Hn.
    { rewrite pop_none in H by auto. cbn in H. injection H as <- <-. split; [exact wf_empty|].
      split; [rewrite get_none by auto; reflexivity|]. split; [intros x Hx; exact (get_empty _ _ Hx)|].
      intros key' x [H _]. rewrite (norm_none _ Hn) in H. discriminate. }
    destruct (single_prefix key) eqn:Hb.
    { destruct (pop_bad key (Dict [(single_name, c)]) Hn Hb) as [e E]. congruence. }
    rewrite pop_single in H by auto. destruct c as [a|es].
    + injection H as <- <-. split; [exact Hw|]. split; [reflexivity|]. split; [|intros; reflexivity]. intros x Hx. rewrite get_single in Hx by auto. destruct (get_leaf key a) as [e E]. congruence.
    + apply bind_ok in H. destruct H as ([r0 c'] & E & H). cbn [fst snd] in H. injection H as <- <-.
      destruct (IHc r0 c' (wf_single_inv _ Hw) E) as (A & B & C & D). split; [apply wf_single, A|]. split.
      { destruct r0; [rewrite get_single by auto; exact B|congruence]. }
      split.
      { intros x. rewrite get_single by auto. apply C. }
      intros key' x Hu. destruct (none_key key') eqn:Hn'.
      { destruct Hu as [_ Hu]. rewrite (norm_none _ Hn') in Hu. discriminate. }
      destruct (single_prefix key') eqn:Hb'.
      { split; intro Hg; exfalso; [destruct (get_bad key' (Dict [(single_name, c')]) Hn' Hb') as [e E']|
          destruct (get_bad key' (Dict [(single_name, Dict es)]) Hn' Hb') as [e E']]; congruence. }
      rewrite !get_single by auto. apply D, Hu.
  - destruct (keyview_of key) as [key Hn|key Hn Hb|k Hk|k x sub Hk].
    + rewrite pop_none in H by auto. destruct es as [|[k0 c] [|]]; try discriminate.
      * injection H as <- <-. split; [exact Hw|]. split; [reflexivity|]. split; [|intros; reflexivity]. intros x Hx. exact (get_empty _ _ Hx).
      * cbn in Hs. rewrite Hs in H. discriminate.
    + destruct (pop_bad key (Dict es) Hn Hb) as [e E]. congruence.
    + rewrite pop_one in H by auto. destruct (assoc k es) as [c|] eqn:E.
      * injection H as <- <-. destruct (wf_del k es Hw) as [Hw' Hs']. specialize (Hs' Hs).
        split; [exact Hw'|]. split; [rewrite get_one, E by auto; reflexivity|]. split.
        { intros x Hx. rewrite get_one, assoc_del_same in Hx by auto. discriminate. }
        intros key' x Hu. destruct (keyview_of key') as [key' Hn|key' Hn Hb|k' Hq|k' x' sub' Hq].
        -- destruct Hu as [_ Hu]. rewrite (norm_none _ Hn) in Hu. discriminate.
        -- split; intro Hg; exfalso; [destruct (get_bad key' (Dict (del k es)) Hn Hb) as [e E']|
             destruct (get_bad key' (Dict es) Hn Hb) as [e E']]; congruence.
        -- rewrite !get_one by auto. rewrite assoc_del_other; [reflexivity|].
           intros ->. destruct Hu as [Hu _]. rewrite !norm_one in Hu by auto. cbn in Hu. rewrite String.eqb_refl in Hu. discriminate.
        -- rewrite !get_more by auto. rewrite assoc_del_other; [reflexivity|].
           intros ->. destruct Hu as [Hu _]. rewrite norm_more, norm_one in Hu by auto. cbn [is_prefix] in Hu.
           rewrite String.eqb_refl in Hu. discriminate.
      * injection H as <- <-. split; [exact Hw|]. split; [reflexivity|]. split; [|intros; reflexivity]. intros x Hx. rewrite get_one, E in Hx by auto. discriminate.
    + rewrite pop_more in H by auto. destruct (assoc k es) as [c|] eqn:E.
      2:{ injection H as <- <-. split; [exact Hw|]. split; [reflexivity|]. split; [|intros; reflexivity]. intros y Hy. rewrite get_more, E in Hy by auto. discriminate. }
      apply bind_ok in H. destruct H as ([r0 c'] & Ec & H). cbn [fst snd] in H. injection H as <- <-.
      assert (Hwc : wf c). { apply wf_dict in Hw. destruct Hw as (_ & _ & _ & Hw). exact (wfs_assoc _ _ _ Hw E). }
      assert (Hkw : is_keyword k = false).
      { apply wf_dict in Hw. destruct Hw as (_ & _ & Hw & _). rewrite Forall_forall in Hw. apply Hw.
        apply assoc_In in E. apply (in_map fst) in E. exact E. }
      destruct (IHk (x :: sub) ltac:(cbn; lia) c r0 c' Hwc Ec) as (A & B & C & D).
      split; [apply wf_put; auto|]. split.
      { destruct r0; [rewrite get_more, E by auto; exact B|]. rewrite B, put_same by exact E. reflexivity. }
      split.
      { intros y. rewrite get_more, assoc_put_same by auto using put_regular. apply C. }
      intros key' y Hu. destruct (keyview_of key') as [key' Hn|key' Hn Hb|k' Hq|k' x' sub' Hq].
      * destruct Hu as [_ Hu]. rewrite (norm_none _ Hn) in Hu. discriminate.
      * split; intro Hg; exfalso; [destruct (get_bad key' (Dict (put k c' es)) Hn Hb) as [e E']|
          destruct (get_bad key' (Dict es) Hn Hb) as [e E']]; congruence.
      * rewrite !get_one by auto using put_regular. rewrite assoc_put_other; [reflexivity|].
        intros ->. destruct Hu as [_ Hu]. rewrite norm_more, norm_one in Hu by auto. cbn [is_prefix] in Hu.
        rewrite String.eqb_refl in Hu. discriminate.
      * rewrite !get_more by auto using put_regular. destruct (String.eqb_spec k k') as [<-|Hne].
        -- rewrite assoc_put_same, E. apply D. destruct Hu as [H1 H2]. rewrite !norm_more in H1, H2.
           cbn [is_prefix] in H1, H2. rewrite String.eqb_refl in H1, H2. split; assumption.
        -- rewrite assoc_put_other by exact Hne. reflexivity.
Qed.

(** ** Iterating *)

Lemma node_ind_all (P : node -> Prop) :
  (forall v, P (Leaf v)) ->
  (forall es, Forall (fun e => P (snd e)) es -> P (Dict es)) ->
  forall d, P d.
Proof.
  intros H1 H2. fix IH 1. intros [v|es]; [apply H1|apply H2].
  induction es as [|[k c] r IHr]; constructor; [apply IH|exact IHr].
Qed.

Definition lift (k : string) (l : list (list string * V)) : list (list string * V) :=
  map (fun kv => (if k =? single_name then fst kv else k :: fst kv, snd kv)) l.

Lemma items_dict es : items (Dict es) = flat_map (fun e => lift (fst e) (items (snd e))) es.
Proof. cbn [items]. apply flat_map_ext. intros [k n]. reflexivity. Qed.

Lemma lift_single l : lift single_name l = l.
Proof.
  unfold lift. rewrite String.eqb_refl. induction l as [|[k v] r IH]; [reflexivity|]. cbn [map fst snd]. rewrite IH. reflexivity.
Qed.

Lemma items_single c : items (Dict [(single_name, c)]) = items c.
Proof. rewrite items_dict. cbn [flat_map fst snd]. rewrite lift_single, app_nil_r. reflexivity. Qed.

Lemma regular_no_single es : wf (Dict es) -> is_singleton es = false -> ~ In single_name (map fst es).
Proof.
  intros Hw Hs Hi. apply wf_dict in Hw. destruct Hw as (_ & H2 & _). specialize (H2 Hi).
  destruct es as [|[k0 c] [|]]; try discriminate. cbn in Hi, Hs. destruct Hi as [Hi|[]]. subst.
  rewrite String.eqb_refl in Hs. discriminate.
Qed.

Notation outside q := (fun kv : list string * V => negb (is_prefix q (fst kv))).
Notation inside q := (fun kv : list string * V => is_prefix q (fst kv)).

Lemma filter_lift_same f k (l : list (list string * V)) : (k =? single_name) = false ->
  filter f (lift k l) = lift k (filter (fun kv => f (k :: fst kv, snd kv)) l).
Proof.
  intro H. unfold lift. rewrite H. induction l as [|[p v] r IH]; [reflexivity|]. cbn [map filter fst snd].
  destruct (f (k :: p, v)); cbn [map fst snd]; rewrite IH; reflexivity.
Qed.

Lemma filter_out_other q k k' (l : list (list string * V)) : k <> k' -> (k' =? single_name) = false ->
  filter (outside (k :: q)) (lift k' l) = lift k' l /\ filter (inside (k :: q)) (lift k' l) = [].
Proof.
  intros H H'. rewrite !filter_lift_same by exact H'. cbn [fst is_prefix].
  assert (E : (k =? k') = false) by (apply String.eqb_neq; exact H). rewrite E. cbn [andb negb].
  split; [f_equal|].
  - induction l as [|a r IH]; [reflexivity|]. cbn [filter]. f_equal; exact IH.
  - replace (filter (fun _ => false) l) with (@nil (list string * V)); [reflexivity|].
    induction l as [|a r IH]; [reflexivity|exact IH].
Qed.

Lemma filter_out_same q k (l : list (list string * V)) : (k =? single_name) = false ->
  filter (outside (k :: q)) (lift k l) = lift k (filter (outside q) l) /\
  filter (inside (k :: q)) (lift k l) = lift k (filter (inside q) l).
Proof.
  intros H'. rewrite !filter_lift_same by exact H'. cbn [fst is_prefix]. rewrite String.eqb_refl. split; reflexivity.
Qed.

Lemma filter_put q k n es : (k =? single_name) = false -> NoDup (map fst es) -> ~ In single_name (map fst es) ->
  filter (outside q) (items n) = filter (outside q) (items (child k es)) ->
  filter (outside (k :: q)) (items (Dict (put k n es))) = filter (outside (k :: q)) (items (Dict es)) /\
  filter (inside (k :: q)) (items (Dict (put k n es))) = lift k (filter (inside q) (items n)).
Proof.
  intros Hk Hd Hs Hn. rewrite !items_dict.
  assert (Hno : forall r, ~ In k (map fst r) -> ~ In single_name (map fst r) ->
      filter (outside (k :: q)) (flat_map (fun e => lift (fst e) (items (snd e))) r) = flat_map (fun e => lift (fst e) (items (snd e))) r /\
      filter (inside (k :: q)) (flat_map (fun e => lift (fst e) (items (snd e))) r) = []).
  { induction r as [|[k' c] r IH]; [split; reflexivity|]. cbn [map fst snd flat_map]. intros H1 H2.
    rewrite !filter_app. destruct (filter_out_other q k k' (items c)) as [E1 E2].
    { intro; subst; apply H1; left; reflexivity. }
    { apply String.eqb_neq. intro; subst; apply H2; left; reflexivity. }
    rewrite E1, E2. destruct IH as [E3 E4]; [cbn in *; tauto|cbn in *; tauto|]. rewrite E3, E4. split; reflexivity. }
  induction es as [|[k' c] r IH].
  - unfold child in Hn. cbn [assoc items flat_map filter] in Hn. cbn [put flat_map fst snd].
    rewrite app_nil_r. destruct (filter_out_same q k (items n) Hk) as [E1 E2]. rewrite E1, E2, Hn. split; reflexivity.
  - cbn [put]. inv Hd. cbn [map fst snd] in *. unfold child in Hn. cbn [assoc] in Hn.
    destruct (k =? k') eqn:E.
    + apply String.eqb_eq in E; subst k'. cbn [flat_map fst snd]. rewrite !filter_app.
      destruct (filter_out_same q k (items n) Hk) as [E1 E2]. destruct (filter_out_same q k (items c) Hk) as [E3 E4].
      rewrite E1, E2, E3, Hn. split; [reflexivity|]. destruct (Hno r) as [_ E5]; [auto|cbn in Hs; tauto|].
      rewrite E5, app_nil_r. reflexivity.
    + cbn [flat_map fst snd]. rewrite !filter_app.
      destruct (filter_out_other q k k' (items c)) as [E1 E2].
      { apply String.eqb_neq, E. }
      { apply String.eqb_neq. intro; subst; apply Hs; left; reflexivity. }
      rewrite E1, E2. destruct IH as [E3 E4]; [auto|cbn in *; tauto|exact Hn|]. rewrite E3, E4. split; reflexivity.
Qed.

Lemma filter_inside_nil (l : list (list string * V)) : filter (inside []) l = l /\ filter (outside []) l = [].
Proof. induction l as [|a r [IH1 IH2]]; [split; reflexivity|]. cbn in *. rewrite IH1. auto. Qed.

Lemma items_set key : forall v d d', wf d -> setitem ow key v d = Ok d' ->
  filter (outside (norm key)) (items d') = filter (outside (norm key)) (items d) /\
  filter (inside (norm key)) (items d') = map (fun kv => ((norm key ++ fst kv)%list, snd kv)) (items v).
Proof.
  assert (Hid : forall l : list (list string * V), map (fun kv => (([] ++ fst kv)%list, snd kv)) l = l).
  { induction l as [|[p a] r IH]; [reflexivity|]. cbn in *. rewrite IH. reflexivity. }
  induction key as [key IHk] using (induction_ltof1 _ (@length string)); unfold ltof in IHk.
  intros v d. induction d as [a|c IHc|es Hs] using view_ind; intros d' Hw H.
  - destruct (set_leaf key v a) as [e E]. congruence.
  - destruct (none_key key) eqn:Hn.
    { rewrite set_none in H by exact Hn. cbn in H. injection H as <-. rewrite (norm_none _ Hn), !items_single, Hid.
      destruct (filter_inside_nil (items v)) as [E1 E2]. destruct (filter_inside_nil (items c)) as [E3 E4].
      rewrite E1, E2, E4. split; reflexivity. }
    destruct (single_prefix key) eqn:Hb.
    { destruct (set_bad key v (Dict [(single_name, c)]) Hn Hb) as [e E]. congruence. }
    rewrite set_single in H by auto. apply bind_ok in H. destruct H as (c' & E & H). injection H as <-.
    rewrite !items_single. apply IHc; [apply wf_single_inv, Hw|exact E].
  - pose proof (regular_no_single _ Hw Hs) as Hns. pose proof (proj1 (proj1 (wf_dict es) Hw)) as Hnd.
    destruct (keyview_of key) as [key Hn|key Hn Hb|k Hk|k x sub Hk].
    + rewrite set_none in H by exact Hn. destruct es; [|rewrite Hs in H; discriminate]. injection H as <-.
      rewrite (norm_none _ Hn), !items_single, Hid. destruct (filter_inside_nil (items v)) as [E1 E2].
      rewrite E1, E2. split; reflexivity.
    + destruct (set_bad key v (Dict es) Hn Hb) as [e E]. congruence.
    + rewrite set_one in H by auto. destruct (is_keyword k) eqn:Ek; [discriminate|].
      assert (E : d' = Dict (put k v es)) by (destruct (assoc k es); [destruct ow|]; congruence). subst.
      rewrite norm_one by auto. destruct (filter_put [] k v es Hk Hnd Hns) as [E1 E2].
      { destruct (filter_inside_nil (items v)) as [_ E1]. destruct (filter_inside_nil (items (child k es))) as [_ E2]. congruence. }
      rewrite E1, E2. split; [reflexivity|]. destruct (filter_inside_nil (items v)) as [E3 _]. rewrite E3.
      unfold lift. rewrite Hk. reflexivity.
    + rewrite set_more in H by auto. destruct (is_keyword k) eqn:Ek; [discriminate|].
      apply bind_ok in H. destruct H as (c' & E & H). injection H as <-. rewrite norm_more.
      destruct (IHk (x :: sub) ltac:(cbn; lia) v (child k es) c' (wf_child _ _ Hw) E) as [I1 I2].
      destruct (filter_put (norm (x :: sub)) k c' es Hk Hnd Hns I1) as [E1 E2].
      rewrite E1, E2, I2. split; [reflexivity|]. unfold lift. rewrite Hk, map_map. reflexivity.
Qed.

Lemma put_new k n es : assoc k es = None -> put k n es = (es ++ [(k, n)])%list.
Proof.
  induction es as [|[k' c] r IH]; [reflexivity|]. cbn [assoc put]. destruct (k =? k'); [discriminate|].
  intro H. cbn [app]. rewrite (IH H). reflexivity.
Qed.

Lemma items_set_new k v : forall d d', (k =? single_name) = false -> wf d ->
  contains [k] d = Ok false -> setitem ow [k] v d = Ok d' ->
  items d' = (items d ++ map (fun kv => (k :: fst kv, snd kv)) (items v))%list.
Proof.
  intro d. induction d as [a|c IHc|es Hs] using view_ind; intros d' Hk Hw Hc H.
  - discriminate.
  - rewrite set_single in H by auto. apply bind_ok in H. destruct H as (c' & E & H). injection H as <-.
    rewrite !items_single. apply IHc; auto; [apply wf_single_inv, Hw|].
    rewrite con_single in Hc by auto. destruct c; [|exact Hc]. discriminate.
  - rewrite set_one in H by auto. rewrite con_one in Hc by auto. destruct (is_keyword k); [discriminate|].
    destruct (assoc k es) eqn:E; [discriminate|]. injection H as <-. rewrite put_new by exact E.
    rewrite !items_dict, flat_map_app. cbn [flat_map fst snd]. rewrite app_nil_r. f_equal.
    unfold lift. rewrite Hk. reflexivity.
Qed.

Lemma length_items d : length_ d = length (items d).
Proof.
  induction d as [v|es IH] using node_ind_all; [reflexivity|]. rewrite items_dict. cbn [length_].
  induction IH as [|[k c] r H Hr IHr]; [reflexivity|]. cbn [fold_right flat_map fst snd] in *.
  rewrite app_length, <- IHr, H. unfold lift. rewrite map_length. reflexivity.
Qed.

(** The value reached through nested singletons. *)
Fixpoint unwrap d : option V :=
  match d with
  | Leaf v => Some v
  | Dict [(k, c)] => if k =? single_name then unwrap c else None
  | Dict _ => None
  end.

Lemma items_nil d v : wf d -> In ([], v) (items d) <-> unwrap d = Some v.
Proof.
  induction d as [a|c IHc|es Hs] using view_ind; intro Hw.
  - cbn. split; [intros [H|[]]; congruence|]. intro H; left; congruence.
  - rewrite items_single. cbn [unwrap]. rewrite String.eqb_refl. apply IHc, wf_single_inv, Hw.
  - pose proof (regular_no_single _ Hw Hs) as Hns.
    assert (Hn : unwrap (Dict es) = None).
    { destruct es as [|[k0 c] [|]]; try reflexivity. cbn in *. rewrite Hs. reflexivity. }
    rewrite Hn. split; [|discriminate]. intro Hi. exfalso. rewrite items_dict in Hi. apply in_flat_map in Hi.
    destruct Hi as ([k c] & Hk & Hi). unfold lift in Hi. apply in_map_iff in Hi. destruct Hi as ([p a] & E & _).
    cbn [fst snd] in E. destruct (k =? single_name) eqn:E'; [|discriminate]. apply String.eqb_eq in E'; subst.
    apply Hns. apply (in_map fst) in Hk. exact Hk.
Qed.

Lemma norm_id_more k x sub : norm (k :: x :: sub) = k :: x :: sub <-> norm (x :: sub) = x :: sub.
Proof. rewrite norm_more. split; [intro H; injection H; auto|intros ->; reflexivity]. Qed.

Lemma items_get key : forall es v, wf (Dict es) ->
  In (key, v) (items (Dict es)) <-> norm key = key /\ exists n, getitem key (Dict es) = Ok n /\ unwrap n = Some v.
Proof.
  enough (G : forall d v, wf d -> key <> [] ->
    In (key, v) (items d) <-> norm key = key /\ exists n, getitem key d = Ok n /\ unwrap n = Some v).
  { intros es v Hw. destruct key as [|k0 s0]; [|apply G; [exact Hw|discriminate]].
    rewrite (items_nil _ _ Hw). rewrite get_none by reflexivity. split.
    - intro H. split; [reflexivity|]. destruct es as [|[k c] [|]]; try discriminate. cbn [unwrap] in H.
      destruct (k =? single_name); [eauto|discriminate].
    - intros [_ (n & H & Hn)]. destruct es as [|[k c] [|]]; try discriminate. cbn [unwrap].
      destruct (k =? single_name); [congruence|discriminate]. }
  induction key as [key IHk] using (induction_ltof1 _ (@length string)); unfold ltof in IHk.
  intros d. induction d as [a|c IHc|es Hs] using view_ind; intros v Hw Hne.
  - destruct (get_leaf key a) as [e E]. rewrite E. cbn. split.
    + intros [H|[]]. congruence.
    + intros (_ & n & H & _). discriminate.
  - rewrite items_single. destruct (none_key key) eqn:Hn.
    { assert (Hnk : norm key <> key) by (rewrite (norm_none _ Hn); congruence).
      split; [|tauto]. intro Hi. exfalso. apply (IHc v (wf_single_inv _ Hw) Hne) in Hi. tauto. }
    destruct (single_prefix key) eqn:Hb.
    { rewrite (IHc v (wf_single_inv _ Hw) Hne).
      destruct (get_bad key c Hn Hb) as [e E]. destruct (get_bad key (Dict [(single_name, c)]) Hn Hb) as [e' E'].
      rewrite E, E'. split; intros (_ & n & H & _); discriminate. }
    rewrite get_single by auto. apply IHc; [apply wf_single_inv, Hw|exact Hne].
  - pose proof (regular_no_single _ Hw Hs) as Hns. apply wf_dict in Hw as Hw'. destruct Hw' as (Hnd & _ & _ & Hws).
    assert (Hit : forall k p, In (k :: p, v) (items (Dict es)) <->
      exists c, assoc k es = Some c /\ In (p, v) (items c)).
    { intros k p. rewrite items_dict, in_flat_map. split.
      - intros ([k' c] & Hin & Hi). unfold lift in Hi. apply in_map_iff in Hi. destruct Hi as ([p' a] & E & Hp).
        cbn [fst snd] in *. destruct (k' =? single_name) eqn:E'.
        + apply String.eqb_eq in E'; subst. exfalso. apply Hns. apply (in_map fst) in Hin. exact Hin.
        + injection E as -> -> ->. exists c. split; [apply In_assoc; auto|exact Hp].
      - intros (c & Ha & Hi). exists (k, c). split; [apply assoc_In, Ha|]. unfold lift. apply in_map_iff.
        exists (p, v). split; [|exact Hi]. cbn [fst snd]. destruct (k =? single_name) eqn:E'; [|reflexivity].
        apply String.eqb_eq in E'; subst. exfalso. apply Hns. apply assoc_In in Ha. apply (in_map fst) in Ha. exact Ha. }
    destruct (keyview_of key) as [key Hn|key Hn Hb|k Hk|k x sub Hk].
    + assert (Hnk : norm key <> key) by (rewrite (norm_none _ Hn); congruence). split; [|tauto].
      destruct key as [|k [|]]; try discriminate; [congruence|]. cbn in Hn. apply String.eqb_eq in Hn; subst.
      rewrite Hit. intros (c & Ha & _). exfalso. apply Hns. apply assoc_In in Ha. apply (in_map fst) in Ha. exact Ha.
    + destruct (get_bad key (Dict es) Hn Hb) as [e E]. rewrite E. split; [|intros (_ & n & H & _); discriminate].
      destruct key as [|k [|]]; try discriminate. cbn in Hb. apply String.eqb_eq in Hb; subst.
      rewrite Hit. intros (c & Ha & _). exfalso. apply Hns. apply assoc_In in Ha. apply (in_map fst) in Ha. exact Ha.
    + rewrite Hit, get_one by auto. split.
      * intros (c & Ha & Hi). rewrite Ha. split; [apply norm_one, Hk|]. exists c. split; [reflexivity|].
        apply items_nil; [exact (wfs_assoc _ _ _ Hws Ha)|exact Hi].
      * intros (_ & n & H & Hn). destruct (assoc k es) as [c|] eqn:Ha; [|discriminate]. exists c. split; [reflexivity|].
        injection H as ->. apply items_nil; [exact (wfs_assoc _ _ _ Hws Ha)|exact Hn].
    + rewrite Hit, get_more by auto. rewrite norm_id_more. split.
      * intros (c & Ha & Hi). rewrite Ha.
        apply (IHk (x :: sub) ltac:(cbn; lia) c v (wfs_assoc _ _ _ Hws Ha) ltac:(discriminate)), Hi.
      * intros (Hid & n & H & Hn). destruct (assoc k es) as [c|] eqn:Ha; [|discriminate]. exists c. split; [reflexivity|].
        apply (IHk (x :: sub) ltac:(cbn; lia) c v (wfs_assoc _ _ _ Hws Ha) ltac:(discriminate)). eauto.
Qed.

Lemma NoDup_app_intro {A} (l l' : list A) : NoDup l -> NoDup l' -> (forall x, In x l -> ~ In x l') -> NoDup (l ++ l').
Proof.
  induction l as [|a r IH]; intros H H' Hd; [exact H'|]. inv H. cbn [app]. constructor.
  - rewrite in_app_iff. intros [Hx|Hx]; [auto|]. exact (Hd a (or_introl eq_refl) Hx).
  - apply IH; auto. intros x Hx. apply Hd. right; exact Hx.
Qed.

Lemma items_nodup d : wf d -> NoDup (map fst (items d)).
Proof.
  induction d as [v|es IH] using node_ind_all; intro Hw; [repeat constructor; tauto|].
  assert (Hl : forall k c, NoDup (map fst (items c)) -> NoDup (map fst (lift k (items c)))).
  { intros k c. unfold lift. rewrite map_map. cbn [fst]. destruct (k =? single_name); [auto|].
    rewrite <- (map_map fst (cons k)). apply FinFun.Injective_map_NoDup. intros a b H. congruence. }
  destruct (is_singleton es) eqn:Hs.
  { apply wf_none in Hs. destruct Hs as [c ->]. rewrite items_single. inv IH. apply H1, wf_single_inv, Hw. }
  pose proof (regular_no_single _ Hw Hs) as Hns. apply wf_dict in Hw. destruct Hw as (Hnd & _ & _ & Hws).
  clear Hs. rewrite items_dict. induction IH as [|[k c] r Hc Hr IHr]; [constructor|].
  cbn [flat_map fst snd map] in *. inv Hnd. destruct Hws as [Hwc Hwr]. rewrite map_app.
  apply NoDup_app_intro; [apply Hl, Hc, Hwc|apply IHr; auto; intro Hx; apply Hns; right; exact Hx|].
  intros p Hp Hp'. apply in_map_iff in Hp. destruct Hp as ([p1 v1] & <- & Hp). cbn [fst] in Hp'.
  unfold lift in Hp. apply in_map_iff in Hp. destruct Hp as ([p2 v2] & E & _). cbn [fst snd] in E.
  destruct (k =? single_name) eqn:Ek; [apply String.eqb_eq in Ek; subst; apply Hns; left; reflexivity|].
  injection E as <- <-. apply in_map_iff in Hp'. destruct Hp' as ([p3 v3] & E & Hp'). cbn [fst] in E. subst p3.
  apply in_flat_map in Hp'. destruct Hp' as ([k' c'] & Hin & Hi). unfold lift in Hi. apply in_map_iff in Hi.
  destruct Hi as ([p4 v4] & E & _). cbn [fst snd] in E.
  apply (in_map fst) in Hin. cbn [fst] in Hin.
  destruct (k' =? single_name) eqn:Ek'.
  - apply String.eqb_eq in Ek'; subst. apply Hns. right; exact Hin.
  - injection E as -> _ _. apply H1, Hin.
Qed.

(** ** Mapping *)

Fixpoint mapn (f : V -> V) d : node :=
  match d with
  | Leaf v => Leaf (f v)
  | Dict es => Dict (map (fun e => let '(k, n) := e in (k, mapn f n)) es)
  end.

Lemma mapn_id d : mapn (fun v => v) d = d.
Proof.
  induction d as [v|es IH] using node_ind_all; [reflexivity|]. cbn [mapn]. f_equal.
  induction IH as [|[k c] r H Hr IHr]; [reflexivity|]. cbn [map snd] in *. rewrite H, IHr. reflexivity.
Qed.

Lemma items_mapn f d : items (mapn f d) = map (fun kv => (fst kv, f (snd kv))) (items d).
Proof.
  induction d as [v|es IH] using node_ind_all; [reflexivity|]. cbn [mapn]. rewrite !items_dict.
  induction IH as [|[k c] r H Hr IHr]; [reflexivity|]. cbn [map flat_map fst snd] in *. rewrite IHr, H, map_app. f_equal.
  unfold lift. rewrite !map_map. apply map_ext. intros [p v]. reflexivity.
Qed.

Lemma set_fresh k n acc : wf (Dict acc) -> is_keyword k = false -> ~ In k (map fst acc) ->
  (k = single_name -> acc = []) -> (acc <> [] -> is_singleton acc = false) ->
  setitem ow [k] n (Dict acc) = Ok (Dict (acc ++ [(k, n)])).
Proof.
  intros Hw Hk Hn Hs Hr. destruct (k =? single_name) eqn:E.
  - apply String.eqb_eq in E. rewrite (Hs E). subst. rewrite set_none by reflexivity. reflexivity.
  - assert (Hr' : is_singleton acc = false) by (destruct acc; [reflexivity|apply Hr; discriminate]).
    rewrite set_one by auto. rewrite Hk.
    assert (Ha : assoc k acc = None).
    { destruct (assoc k acc) eqn:Ea; [|reflexivity]. exfalso. apply Hn. apply assoc_In in Ea. apply (in_map fst) in Ea. exact Ea. }
    rewrite Ha, put_new by exact Ha. reflexivity.
Qed.

Lemma wf_mapn f d : wf d -> wf (mapn f d).
Proof.
  induction d as [v|es IH] using node_ind_all; [exact (fun H => H)|]. intro Hw. cbn [mapn].
  apply wf_dict in Hw. destruct Hw as (H1 & H2 & H3 & H4). apply wf_dict.
  assert (E : map fst (map (fun e : string * node => let '(k, n) := e in (k, mapn f n)) es) = map fst es).
  { rewrite map_map. apply map_ext. intros [k n]; reflexivity. }
  rewrite E, map_length. repeat split; auto. clear -IH H4.
  induction IH as [|[k c] r H Hr IHr]; [exact I|]. cbn [map wfs snd] in *. tauto.
Qed.

Lemma wf_firstn es es' : wf (Dict (es ++ es')) -> wf (Dict es).
Proof.
  intro H. apply wf_dict in H. destruct H as (H1 & H2 & H3 & H4). rewrite map_app in *. apply wf_dict. repeat split.
  - clear -H1. induction (map fst es) as [|a r IH]; [constructor|]. cbn [app] in H1. inv H1. constructor; [|auto].
    intro Hx. apply H2. apply in_or_app. auto.
  - intro Hi. specialize (H2 (in_or_app _ _ _ (or_introl Hi))). rewrite app_length in H2.
    destruct es; [destruct Hi|]. cbn in *. lia.
  - apply Forall_app in H3. tauto.
  - clear -H4. induction es as [|[k c] r IH]; [exact I|]. cbn in *. tauto.
Qed.

Lemma fmap_ok f d : wf d -> fmap ow f d = Ok (mapn f d).
Proof.
  induction d as [v|es IH] using node_ind_all; intro Hw; [reflexivity|]. cbn [fmap mapn].
  set (mp := fun e : string * node => let '(k, n) := e in (k, mapn f n)).
  set (fill := fix fill (es : list (string * node)) (acc : node) : res node := _).
  enough (G : forall r acc, Forall (fun e => wf (snd e) -> fmap ow f (snd e) = Ok (mapn f (snd e))) r ->
    wfs r -> wf (Dict (acc ++ map mp r)) -> fill r (Dict acc) = Ok (Dict (acc ++ map mp r))).
  { change (Dict (map mp es)) with (Dict ([] ++ map mp es)). apply G; [exact IH|exact (proj2 (proj2 (proj2 (proj1 (wf_dict es) Hw))))|].
    cbn [app]. exact (wf_mapn f (Dict es) Hw). }
  clear IH Hw es. induction r as [|[k n] r IHr]; intros acc HF Hws Hw; [cbn; rewrite app_nil_r; reflexivity|].
  inv HF. cbn [snd] in *. destruct Hws as [Hwn Hwr]. cbn [map] in *.
  change (fill ((k, n) :: r) (Dict acc)) with
    (do n' <- fmap ow f n; do acc' <- setitem ow [k] n' (Dict acc); fill r acc').
  rewrite (H1 Hwn). cbn [bind]. cbn [mp] in Hw.
  apply wf_dict in Hw as Hw'. destruct Hw' as (D1 & D2 & D3 & D4). rewrite map_app in D1, D2, D3.
  rewrite set_fresh.
  - cbn [bind]. replace (acc ++ mp (k, n) :: map mp r)%list with ((acc ++ [(k, mapn f n)]) ++ map mp r)%list
      by (rewrite <- app_assoc; reflexivity).
    apply IHr; auto. rewrite <- app_assoc. exact Hw.
  - exact (wf_firstn _ _ Hw).
  - rewrite Forall_forall in D3. apply D3. apply in_or_app. right. left. reflexivity.
  - intro Hi. apply NoDup_remove_2 in D1. apply D1. apply in_or_app. left; exact Hi.
  - intros ->. assert (Hl : (length (acc ++ (single_name, mapn f n) :: map mp r) = 1)%nat).
    { apply D2. apply in_or_app. right. left. reflexivity. }
    rewrite app_length in Hl. cbn in Hl. destruct acc; [reflexivity|]. cbn in Hl. lia.
  - intro Hne. destruct acc as [|[k0 c0] [|]]; [congruence| |reflexivity]. cbn [is_singleton].
    destruct (k0 =? single_name) eqn:E; [|reflexivity]. exfalso. apply String.eqb_eq in E; subst.
    assert (Hl := D2 (or_introl eq_refl)). cbn in Hl. lia.
Qed.

(** ** Equality *)

Variable veqb : V -> V -> bool.

Notation eqs d' := (fix all es : res bool :=
  match es with
  | [] => Ok true
  | (k, n) :: r =>
      do o <- get_ [k] d';
      match o with
      | None => Ok false
      | Some n' => do b <- eq_ veqb n n'; if b then all r else Ok false
      end
  end).

Lemma eqs_true d' es : eqs d' es = Ok true ->
  forall k n, In (k, n) es -> exists n', getitem [k] d' = Ok n' /\ eq_ veqb n n' = Ok true.
Proof.
  induction es as [|[k0 n0] r IH]; intros H k n Hi; [destruct Hi|].
  apply bind_ok in H. destruct H as (o & Ho & H). destruct o as [n'|]; [|discriminate].
  apply bind_ok in H. destruct H as (b & Hb & H). destruct b; [|discriminate].
  destruct Hi as [E|Hi]; [|exact (IH H _ _ Hi)]. injection E as <- <-. exists n'. split; [|exact Hb].
  unfold get_ in Ho. apply bind_ok in Ho. destruct Ho as (b & _ & Ho). destruct b; [|discriminate].
  apply bind_ok in Ho. destruct Ho as (x & Hx & Ho). congruence.
Qed.

Lemma eq_dict es d' : eq_ veqb (Dict es) d' = Ok true ->
  (exists es', d' = Dict es') /\ length_ (Dict es) = length_ d' /\
  forall k n, In (k, n) es -> exists n', getitem [k] d' = Ok n' /\ eq_ veqb n n' = Ok true.
Proof.
  destruct d' as [v|es']; [discriminate|]. intro H. cbn [eq_] in H.
  destruct (Nat.eqb (length_ (Dict es)) (length_ (Dict es'))) eqn:E; [|discriminate].
  apply Nat.eqb_eq in E. repeat split; [eauto|exact E|]. exact (eqs_true _ _ H).
Qed.

Lemma eq_items_sub d : forall d', wf d -> wf d' -> eq_ veqb d d' = Ok true ->
  forall p v, In (p, v) (items d) -> exists v', In (p, v') (items d') /\ veqb v v' = true.
Proof.
  assert (Hsub : forall d k n' p v', wf d -> (k =? single_name) = false -> getitem [k] d = Ok n' ->
    In (p, v') (items n') -> In (k :: p, v') (items d)).
  { intro d0. induction d0 as [a|c IHc|es Hs] using view_ind; intros k n' p v' Hw Hk Hg Hi.
    - discriminate.
    - rewrite get_single in Hg by auto. rewrite items_single. eapply IHc; eauto. apply wf_single_inv, Hw.
    - rewrite get_one in Hg by auto. destruct (assoc k es) as [c|] eqn:Ha; [|discriminate]. injection Hg as ->.
      rewrite items_dict. apply in_flat_map. exists (k, n'). split; [apply assoc_In, Ha|].
      unfold lift. cbn [fst snd]. rewrite Hk. apply in_map_iff. exists (p, v'). auto. }
  induction d as [a|es IH] using node_ind_all; intros d' Hw Hw' He p v Hi.
  - destruct d' as [v'|]; [|discriminate]. cbn in Hi. destruct Hi as [E|[]]. injection E as <- <-.
    cbn in He. injection He as He. exists v'. split; [left; reflexivity|exact He].
  - destruct (eq_dict _ _ He) as ([es' ->] & _ & Hall).
    rewrite items_dict in Hi. apply in_flat_map in Hi. destruct Hi as ([k c] & Hin & Hi).
    destruct (Hall _ _ Hin) as (n' & Hg & En). unfold lift in Hi. apply in_map_iff in Hi.
    destruct Hi as ([p0 v0] & E & Hp). cbn [fst snd] in *. rewrite Forall_forall in IH. specialize (IH _ Hin). cbn [snd] in IH.
    assert (Hwc : wf c). { apply wf_dict in Hw. destruct Hw as (Hnd & _ & _ & Hw). exact (wfs_assoc _ _ _ Hw (In_assoc _ _ _ Hnd Hin)). }
    assert (Hwn : wf n').
    { clear -Hg Hw'. revert Hw' Hg. generalize (Dict es') as d0. induction d0 as [a|c IHc|es Hs] using view_ind; intros Hw' Hg.
      - discriminate.
      - destruct (k =? single_name) eqn:Ek; [rewrite get_none in Hg by exact Ek; injection Hg as <-; apply wf_single_inv, Hw'|].
        rewrite get_single in Hg by auto. apply IHc; [apply wf_single_inv, Hw'|exact Hg].
      - destruct (k =? single_name) eqn:Ek.
        + rewrite get_none in Hg by exact Ek. destruct es as [|[k0 c] [|]]; try discriminate. cbn in Hs. rewrite Hs in Hg. discriminate.
        + rewrite get_one in Hg by auto. destruct (assoc k es) as [c|] eqn:Ha; [|discriminate]. injection Hg as ->.
          apply wf_dict in Hw'. destruct Hw' as (_ & _ & _ & Hw'). exact (wfs_assoc _ _ _ Hw' Ha). }
    destruct (IH n' Hwc Hwn En _ _ Hp) as (v' & Hv & Hb). injection E as Ep <-.
    exists v'. split; [|exact Hb]. subst p. destruct (k =? single_name) eqn:Ek.
    + rewrite get_none in Hg by exact Ek. destruct es' as [|[k' c'] [|]]; try discriminate.
      destruct (k' =? single_name) eqn:Ek'; [|discriminate]. injection Hg as ->. apply String.eqb_eq in Ek'; subst.
      rewrite items_single. exact Hv.
    + eapply Hsub; eauto.
Qed.

Lemma eq_refl_ok d : (forall v, veqb v v = true) -> wf d -> eq_ veqb d d = Ok true.
Proof.
  intro Hv. induction d as [v|es IH] using node_ind_all; intro Hw; [cbn; rewrite Hv; reflexivity|].
  cbn [eq_]. rewrite Nat.eqb_refl.
  enough (G : forall r, (forall e, In e r -> In e es) -> eqs (Dict es) r = Ok true) by (apply G; auto).
  induction r as [|[k n] r IHr]; intro Hin; [reflexivity|].
  assert (Hg : getitem [k] (Dict es) = Ok n).
  { apply wf_dict in Hw as Hw'. destruct Hw' as (Hnd & _ & _ & _).
    assert (Ha := In_assoc _ _ _ Hnd (Hin _ (or_introl eq_refl))).
    destruct (is_singleton es) eqn:Hs.
    - apply wf_none in Hs. destruct Hs as [c ->]. cbn [assoc] in Ha. destruct (k =? single_name) eqn:Ek; [|discriminate].
      rewrite get_none by exact Ek. rewrite String.eqb_refl. congruence.
    - rewrite get_one; [rewrite Ha; reflexivity| |exact Hs]. apply String.eqb_neq. intros ->.
      apply (regular_no_single _ Hw Hs). apply assoc_In in Ha. apply (in_map fst) in Ha. exact Ha. }
  unfold get_ at 1. rewrite (get_contains _ _ _ Hg), Hg. cbn [bind].
  rewrite Forall_forall in IH. assert (Hi : In (k, n) es) by (apply Hin; left; reflexivity).
  pose proof (IH (k, n) Hi) as IH'. cbn [snd] in IH'. rewrite IH'. 2:{ apply wf_dict in Hw. destruct Hw as (Hnd & _ & _ & Hw). exact (wfs_assoc _ _ _ Hw (In_assoc _ _ _ Hnd Hi)). }
  cbn [bind]. apply IHr. intros e He. apply Hin. right; exact He.
Qed.

Lemma eq_items d d' : wf d -> wf d' -> eq_ veqb d d' = Ok true ->
  (forall p v, In (p, v) (items d) -> exists v', In (p, v') (items d') /\ veqb v v' = true) /\
  (forall p v', In (p, v') (items d') -> exists v, In (p, v) (items d) /\ veqb v v' = true).
Proof.
  intros Hw Hw' He. pose proof (eq_items_sub d d' Hw Hw' He) as H1. split; [exact H1|].
  assert (Hlen : (length (map fst (items d')) <= length (map fst (items d)))%nat).
  { rewrite !map_length, <- !length_items. destruct d as [v|es].
    - destruct d' as [v'|]; [|discriminate]. cbn. lia.
    - destruct (eq_dict _ _ He) as (_ & El & _). lia. }
  assert (Hincl : incl (map fst (items d)) (map fst (items d'))).
  { intros p Hp. apply in_map_iff in Hp. destruct Hp as ([p0 v] & <- & Hp). destruct (H1 _ _ Hp) as (v' & Hv & _).
    apply (in_map fst) in Hv. exact Hv. }
  pose proof (NoDup_length_incl (items_nodup d Hw) Hlen Hincl) as Hback.
  intros p v' Hi. assert (Hp : In p (map fst (items d))) by (apply Hback; apply (in_map fst) in Hi; exact Hi).
  apply in_map_iff in Hp. destruct Hp as ([p0 v] & E & Hp). cbn [fst] in E. subst p0.
  exists v. split; [exact Hp|]. destruct (H1 _ _ Hp) as (v2 & Hv2 & Hb).
  assert (E : v2 = v'); [|congruence].
  clear -Hi Hv2 Hw'. pose proof (items_nodup d' Hw') as Hn.
  induction (items d') as [|[q u] r IH]; [destruct Hi|]. cbn [map fst] in Hn. inv Hn.
  destruct Hi as [E|Hi]; destruct Hv2 as [E'|Hv2].
  - congruence.
  - injection E as -> ->. exfalso. apply H1. apply (in_map fst) in Hv2. exact Hv2.
  - injection E' as -> ->. exfalso. apply H1. apply (in_map fst) in Hi. exact Hi.
  - auto.
Qed.

End Proofs.
