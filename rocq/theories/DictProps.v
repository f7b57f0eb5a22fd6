(** Theorems on nested dictionaries (C37), signatures (C38), merging specifications
    (C41), the comparison of environment specifications (C59) and of nested dictionaries
    (C60). *)

From Coq Require Import String List ZArith Lia Bool Arith.
From Verif Require Import Base DictSpec DictModel DictProofs SigModel SigProofs MergeProofs.
Import ListNotations.
Open Scope nat_scope.
Open Scope string_scope.

(** ** C37 *)
Section C37.
Variable V : Type.
Variable overwrite : bool.
Notation node := (node V).

(** Values and the dictionaries obtained by any sequence of assignments and removals. *)
Inductive built : node -> Prop :=
| b_leaf x : built (Leaf x)
| b_empty : built (Dict [])
| b_set d key v d' : built d -> built v -> setitem overwrite key v d = Ok d' -> built d'
| b_pop d key r d' : built d -> pop key d = Ok (r, d') -> built d'.

Lemma built_wf d : built d -> wf V d.
Proof.
  induction 1; [exact I|apply wf_empty|exact (set_wf _ _ _ _ _ _ IHbuilt2 IHbuilt1 H1)|].
  destruct (pop_spec _ _ _ _ _ IHbuilt H0) as (Hw & _). exact Hw.
Qed.

(** Reading a key just set gives the value set. *)
Theorem C37_get_after_set : forall key (v d d' : node),
  setitem overwrite key v d = Ok d' -> getitem key d' = Ok v /\ contains key d' = Ok true.
Proof. intros key v d d' H. apply get_set in H. split; [exact H|exact (get_contains _ _ _ _ H)]. Qed.

(** Setting a key changes nothing outside the values above and below it. *)
Theorem C37_set_other : forall key key' (v d d' : node), unrelated key key' -> setitem overwrite key v d = Ok d' ->
  forall x, getitem key' d' = Ok x <-> getitem key' d = Ok x.
Proof. intros. eapply get_set_other; eassumption. Qed.

(** [in] says whether reading succeeds. *)
Theorem C37_contains : forall key (d : node) b, contains key d = Ok b -> (b = true <-> exists x, getitem key d = Ok x).
Proof. intros. apply contains_get; assumption. Qed.

(** A stored key is not overwritten unless the class allows it. *)
Theorem C37_no_overwrite : forall k (v d x : node), overwrite = false -> built d -> norm [k] = [k] ->
  getitem [k] d = Ok x -> exists e, setitem overwrite [k] v d = Err e.
Proof.
  intros k v d x Ho _ Hk. assert (Hk' : (k =? single_name) = false) by (cbn in Hk; destruct (k =? single_name); [discriminate|reflexivity]).
  induction d as [a|c IHc|es Hs] using view_ind; intro H.
  - destruct (set_leaf V overwrite [k] v a) as [e E]. eauto.
  - rewrite get_single in H by auto. rewrite set_single by auto. destruct (IHc H) as [e E]. rewrite E. eexists; reflexivity.
  - rewrite get_one in H by auto. rewrite set_one by auto. destruct (is_keyword k); [eexists; reflexivity|].
    destruct (assoc k es); [|discriminate]. rewrite Ho. eexists; reflexivity.
Qed.

(** pop returns what reading would have returned, and then it is gone, and nothing else is. *)
Theorem C37_pop : forall key (d : node) r d', built d -> pop key d = Ok (r, d') ->
  match r with Some x => getitem key d = Ok x | None => d' = d end /\
  (forall x, getitem key d' <> Ok x) /\
  (forall key' x, unrelated key key' -> (getitem key' d' = Ok x <-> getitem key' d = Ok x)).
Proof. intros key d r d' Hb H. apply built_wf in Hb. destruct (pop_spec _ _ _ _ _ Hb H) as (_ & H'). exact H'. Qed.

(** Iteration lists every leaf exactly once, under the name by which it is found
    (a singleton below a name is listed under that name), and len counts them. *)
Theorem C37_items : forall es, built (Dict es) ->
  NoDup (map fst (items (Dict es))) /\ length_ (Dict es) = length (items (Dict es)) /\
  forall key v, In (key, v) (items (Dict es)) <->
    norm key = key /\ exists n, getitem key (Dict es) = Ok n /\ unwrap V n = Some v.
Proof.
  intros es Hb. apply built_wf in Hb. split; [exact (items_nodup _ _ Hb)|]. split; [apply length_items|].
  intros key v. apply items_get, Hb.
Qed.

(** After an assignment the other leaves are listed as before, in the same order, and
    under the key the leaves of the value in theirs. *)
Theorem C37_items_after_set : forall key (v d d' : node), built d -> setitem overwrite key v d = Ok d' ->
  filter (fun kv => negb (is_prefix (norm key) (fst kv))) (items d') =
  filter (fun kv => negb (is_prefix (norm key) (fst kv))) (items d) /\
  filter (fun kv => is_prefix (norm key) (fst kv)) (items d') =
  map (fun kv => ((norm key ++ fst kv)%list, snd kv)) (items v).
Proof. intros key v d d' Hb H. apply built_wf in Hb. eapply items_set; eassumption. Qed.

(** A new name comes last. *)
Theorem C37_insertion_order : forall k (v d d' : node), built d -> norm [k] = [k] ->
  contains [k] d = Ok false -> setitem overwrite [k] v d = Ok d' ->
  items d' = (items d ++ map (fun kv => (k :: fst kv, snd kv)) (items v))%list.
Proof.
  intros k v d d' Hb Hk Hc H. apply built_wf in Hb. eapply items_set_new; try eassumption.
  cbn in Hk. destruct (k =? single_name); [discriminate|reflexivity].
Qed.

(** copy succeeds and gives the same entries in the same order; fmap maps the leaves. *)
Theorem C37_copy : forall d, built d -> copy overwrite d = Ok d.
Proof. intros d Hb. apply built_wf in Hb. unfold copy. rewrite fmap_ok by exact Hb. rewrite mapn_id. reflexivity. Qed.

Theorem C37_fmap : forall f (d : node), built d -> exists d', fmap overwrite f d = Ok d' /\
  items d' = map (fun kv => (fst kv, f (snd kv))) (items d).
Proof. intros f d Hb. apply built_wf in Hb. rewrite fmap_ok by exact Hb. eexists. split; [reflexivity|apply items_mapn]. Qed.

(** Equal dictionaries list the same names with equal values; a dictionary equals itself. *)
Theorem C60_sound_partial : forall (veqb : V -> V -> bool) d d', built d -> built d' -> eq_ veqb d d' = Ok true ->
  (forall p v, In (p, v) (items d) -> exists v', In (p, v') (items d') /\ veqb v v' = true) /\
  (forall p v', In (p, v') (items d') -> exists v, In (p, v) (items d) /\ veqb v v' = true).
Proof. intros veqb d d' H H' He. apply eq_items; auto using built_wf. Qed.

Theorem C60_reflexive_partial : forall (veqb : V -> V -> bool) d, (forall v, veqb v v = true) -> built d -> eq_ veqb d d = Ok true.
Proof. intros. apply eq_refl_ok; auto using built_wf. Qed.

End C37.

(** Two claims which fail.  Reading a listed name gives the listed value: not below a
    nested singleton, where a dictionary is returned. *)
Theorem C60_read_listed_refuted : exists d k v n,
  built nat true d /\ In (k, v) (items d) /\ getitem k d = Ok n /\ n <> Leaf v.
Proof.
  exists (Dict [("states", Dict [(single_name, Leaf 7)])]), ["states"], 7, (Dict [(single_name, Leaf 7)]).
  repeat split; [|left; reflexivity|discriminate].
  eapply (b_set nat true (Dict []) ["states"] (Dict [(single_name, Leaf 7)])); [constructor| |reflexivity].
  eapply (b_set nat true (Dict []) [] (Leaf 7)); [constructor|constructor|reflexivity].
Qed.

(** == is symmetric and always answers: an empty sub-dictionary is overlooked from one
    side, and a singleton compared with another dictionary raises an AssertionError. *)
Theorem C60_symmetric_refuted :
  (exists d d' : node nat, built nat true d /\ built nat true d' /\ eq_ Nat.eqb d d' = Ok true /\ eq_ Nat.eqb d' d = Ok false) /\
  (exists (d d' : node nat) e, built nat true d /\ built nat true d' /\ eq_ Nat.eqb d d' = Err e).
Proof.
  assert (B1 : built nat true (Dict [("a", Dict [])])).
  { eapply (b_set nat true (Dict []) ["a"] (Dict [])); [constructor|constructor|reflexivity]. }
  assert (B2 : built nat true (Dict [(single_name, Leaf 1)])).
  { eapply (b_set nat true (Dict []) [] (Leaf 1)); [constructor|constructor|reflexivity]. }
  assert (B3 : built nat true (Dict [("a", Leaf 1)])).
  { eapply (b_set nat true (Dict []) ["a"] (Leaf 1)); [constructor|constructor|reflexivity]. }
  split.
  - exists (Dict []), (Dict [("a", Dict [])]). repeat split; [constructor|exact B1].
  - exists (Dict [(single_name, Leaf 1)]), (Dict [("a", Leaf 1)]). eexists. split; [exact B2|]. split; [exact B3|reflexivity].
Qed.

(** Examples: a dictionary {'a': {'b': 1, 'c': {None: 2}}, 'd': 3} and operations on it. *)
Definition ex_ops (ow : bool) : res (node nat) :=
  do d <- setitem ow ["a"; "b"] (Leaf 1) (Dict []);
  do d <- setitem ow ["d"] (Leaf 3) d;
  setitem ow ["a"; "c"] (Dict [(single_name, Leaf 2)]) d.
Definition ex_dict : node nat := Dict [("a", Dict [("b", Leaf 1); ("c", Dict [(single_name, Leaf 2)])]); ("d", Leaf 3)].

Example ex_dict_ops : ex_ops false = Ok ex_dict. Proof. reflexivity. Qed.
Lemma ex_built ow : built nat ow ex_dict.
Proof.
  eapply (b_set nat ow _ ["a"; "c"] (Dict [(single_name, Leaf 2)])).
  - eapply (b_set nat ow _ ["d"] (Leaf 3)); [|constructor|].
    + eapply (b_set nat ow (Dict []) ["a"; "b"] (Leaf 1)); [constructor|constructor|reflexivity].
    + reflexivity.
  - eapply (b_set nat ow (Dict []) [] (Leaf 2)); [constructor|constructor|reflexivity].
  - reflexivity.
Qed.
Example ex_set_get : exists d', setitem true ["a"; "b"] (Leaf 9) ex_dict = Ok d' /\ getitem ["a"; "b"] d' = Ok (Leaf 9).
Proof. eexists; split; reflexivity. Qed.
Example ex_unrelated : unrelated ["a"; "b"] ["a"; "c"; single_name] /\ getitem ["a"; "c"; single_name] ex_dict = Ok (Leaf 2).
Proof. repeat split. Qed.
Example ex_contains : contains ["a"; "x"] ex_dict = Ok false /\ contains ["a"; "c"] ex_dict = Ok true.
Proof. split; reflexivity. Qed.
Example ex_no_overwrite : exists e, setitem false ["d"] (Leaf 4) ex_dict = Err e /\ getitem ["d"] ex_dict = Ok (Leaf 3).
Proof. eexists; split; reflexivity. Qed.
Example ex_pop : pop ["a"; "b"] ex_dict = Ok (Some (Leaf 1), Dict [("a", Dict [("c", Dict [(single_name, Leaf 2)])]); ("d", Leaf 3)]).
Proof. reflexivity. Qed.
Example ex_items : items ex_dict = [(["a"; "b"], 1); (["a"; "c"], 2); (["d"], 3)]. Proof. reflexivity. Qed.
Example ex_items_set : exists d', setitem true ["a"; "e"] (Leaf 5) ex_dict = Ok d' /\
  items d' = [(["a"; "b"], 1); (["a"; "c"], 2); (["a"; "e"], 5); (["d"], 3)].
Proof. eexists; split; reflexivity. Qed.
Example ex_insert : contains ["f"] ex_dict = Ok false /\ exists d', setitem false ["f"] ex_dict ex_dict = Ok d' /\ length (items d') = 6.
Proof. split; [reflexivity|]. eexists; split; reflexivity. Qed.
Example ex_copy : copy false ex_dict = Ok ex_dict. Proof. reflexivity. Qed.
Example ex_fmap : exists d', fmap false S ex_dict = Ok d' /\ items d' = [(["a"; "b"], 2); (["a"; "c"], 3); (["d"], 4)].
Proof. eexists; split; reflexivity. Qed.
Example ex_eq : eq_ Nat.eqb ex_dict (Dict [("d", Leaf 3); ("a", Dict [("b", Leaf 1); ("c", Dict [(single_name, Leaf 2)])])]) = Ok true /\
  eq_ Nat.eqb ex_dict (Dict [("d", Leaf 3); ("a", Dict [("b", Leaf 1); ("c", Dict [(single_name, Leaf 4)])])]) = Ok false.
Proof. split; reflexivity. Qed.

(** ** C38 *)
Section C38.
Variables Sp T : Type.
Variable compat : Sp -> T -> bool.
Notation sig := (node Sp).

(** Flattening keyword arguments and rebuilding them gives them back, with tuples and
    with dictionaries as flat form. *)
Theorem C38_roundtrip : forall ow td ot (es : list (string * sig)) kw,
  built Sp ow (Dict es) -> no_double (Dict es) -> matches compat (Dict es) kw ->
  exists a, kwargs_to_args compat td ot true (Dict es) (KNode kw) = Ok a /\ args_to_kwargs compat td true (Dict es) a = Ok kw.
Proof. intros ow td ot es kw Hb. apply built_wf in Hb. apply roundtrip_input, Hb. Qed.

(** The same for results given as a tuple (or, for a singleton, as the bare value). *)
Theorem C38_roundtrip_outputs : forall ow td (es : list (string * sig)) es',
  built Sp ow (Dict es) -> no_double (Dict es) -> matches compat (Dict es) (Dict es') ->
  let out := match es' with
             | [(k, c)] => if k =? single_name then KNode c else KTuple [c]
             | _ => KTuple (map snd es')
             end in
  exists a, kwargs_to_args compat td false true (Dict es) out = Ok a /\ args_to_kwargs_outer compat td (Dict es) a = Ok out.
Proof. intros ow td es es' Hb. apply built_wf in Hb. apply roundtrip_output, Hb. Qed.

(** Number and order of the tensors are those of the signature's leaves. *)
Theorem C38_order : forall td ot outer (sg : sig) kw a, kwargs_to_args compat td ot outer sg kw = Ok a ->
  Forall2 (fun s t => compat s t = true) (map snd (items sg)) (flat a).
Proof. intros. eapply flat_ok; eassumption. Qed.

(** The flat form has the nesting announced by to_list. *)
Theorem C38_to_list_partial : forall ot outer (sg : sig) kw a,
  kwargs_to_args compat false ot outer sg kw = Ok a -> fits compat (to_list false sg) a.
Proof. intros. eapply fits_list; eassumption. Qed.

Theorem C38_to_list_dict_partial : forall (es : list (string * sig)) kw a, is_singleton es = false ->
  kwargs_to_args compat true true true (Dict es) kw = Ok a -> fits compat (to_list true (Dict es)) a.
Proof. intros. eapply fits_outer; eassumption. Qed.

End C38.

(** With dictionaries the claim fails for a singleton of a dictionary: to_list announces
    a tuple. *)
Theorem C38_to_list_refuted : exists (sg : node nat) kw a, built nat false sg /\
  kwargs_to_args Nat.eqb true true true sg kw = Ok a /\ ~ fits Nat.eqb (to_list true sg) a.
Proof.
  exists (Dict [(single_name, Dict [("a", Leaf 1)])]), (KNode (Dict [("a", Leaf 1)])), (ADict [("a", ATensor 1)]).
  split; [|split; [reflexivity|]].
  - eapply (b_set nat false (Dict []) [] (Dict [("a", Leaf 1)])); [constructor| |reflexivity].
    eapply (b_set nat false (Dict []) ["a"] (Leaf 1)); [constructor|constructor|reflexivity].
  - cbn. intro H. inversion H.
Qed.

(** "Missing arguments are rejected" fails: the argument before is taken in its place. *)
Theorem C38_missing_refuted : exists (sg : node nat) (kw : node nat) a,
  kwargs_to_args Nat.eqb false true true sg (KNode kw) = Ok a /\ contains ["b"] sg = Ok true /\ contains ["b"] kw = Ok false.
Proof.
  exists (Dict [("a", Leaf 1); ("b", Leaf 1)]), (Dict [("a", Leaf 1)]), (ATuple [ATensor 1; ATensor 1]).
  repeat split.
Qed.

(** A singleton inside a singleton is not accepted. *)
Theorem C38_double_refuted : exists (sg kw : node nat) e, built nat false sg /\
  matches Nat.eqb sg kw /\ kwargs_to_args Nat.eqb false true true sg (KNode kw) = Err e.
Proof.
  exists (Dict [(single_name, Dict [(single_name, Leaf 1)])]), (Dict [(single_name, Dict [(single_name, Leaf 1)])]). eexists.
  split; [|split; [|reflexivity]].
  - eapply (b_set nat false (Dict []) [] (Dict [(single_name, Leaf 1)])); [constructor| |reflexivity].
    eapply (b_set nat false (Dict []) [] (Leaf 1)); [constructor|constructor|reflexivity].
  - constructor. constructor; [|constructor]. split; [reflexivity|]. constructor. constructor; [|constructor].
    split; [reflexivity|]. constructor. reflexivity.
Qed.

(** Example: {'states': {None: 5}, 'empty': {'x': {}}, 'internals': {'p': {'q': 1}}, 'r': 2};
    tensors are pairs of their specification and a number. *)
Definition ex_sig : list (string * node nat) :=
  [("states", Dict [(single_name, Leaf 5)]); ("empty", Dict [("x", Dict [])]);
   ("internals", Dict [("p", Dict [("q", Leaf 1)])]); ("r", Leaf 2)].
Definition ex_kw : list (string * node (nat * nat)) :=
  [("states", Dict [(single_name, Leaf (5, 100))]); ("empty", Dict [("x", Dict [])]);
   ("internals", Dict [("p", Dict [("q", Leaf (1, 101))])]); ("r", Leaf (2, 102))].
Definition ex_compat (s : nat) (t : nat * nat) : bool := Nat.eqb s (fst t).

Example ex_matches : matches ex_compat (Dict ex_sig) (Dict ex_kw) /\ no_double (Dict ex_sig).
Proof.
  split.
  - repeat first [apply m_leaf; reflexivity | apply m_dict | apply Forall2_cons | apply Forall2_nil | split; [reflexivity|]].
  - cbn. repeat split; discriminate.
Qed.
Example ex_sig_built : built nat false (Dict ex_sig).
Proof.
  assert (Q : built nat false (Dict [("q", Leaf 1)])) by (eapply (b_set nat false (Dict []) ["q"] (Leaf 1)); [constructor|constructor|reflexivity]).
  assert (S5 : built nat false (Dict [(single_name, Leaf 5)])) by (eapply (b_set nat false (Dict []) [] (Leaf 5)); [constructor|constructor|reflexivity]).
  eapply (b_set nat false _ ["r"] (Leaf 2)); [|constructor|].
  - eapply (b_set nat false _ ["internals"; "p"] (Dict [("q", Leaf 1)])); [|exact Q|].
    + eapply (b_set nat false _ ["empty"; "x"] (Dict [])); [|constructor|].
      * eapply (b_set nat false (Dict []) ["states"] (Dict [(single_name, Leaf 5)])); [constructor|exact S5|reflexivity].
      * reflexivity.
    + reflexivity.
  - reflexivity.
Qed.
Example ex_flat : kwargs_to_args ex_compat true true true (Dict ex_sig) (KNode (Dict ex_kw)) =
  Ok (ATuple [ATensor (5, 100); ADict [("p", ADict [("q", ATensor (1, 101))])]; ATensor (2, 102)]).
Proof. reflexivity. Qed.
Example ex_back : args_to_kwargs ex_compat true true (Dict ex_sig)
  (ATuple [ATensor (5, 100); ADict [("p", ADict [("q", ATensor (1, 101))])]; ATensor (2, 102)]) = Ok (Dict ex_kw).
Proof. reflexivity. Qed.
Example ex_out : args_to_kwargs_outer ex_compat false (Dict ex_sig)
  (ATuple [ATensor (5, 100); ATuple [ATuple [ATensor (1, 101)]]; ATensor (2, 102)]) = Ok (KTuple (map snd ex_kw)).
Proof. reflexivity. Qed.
Example ex_to_list : to_list true (Dict ex_sig) = ATuple [ATensor 5; ADict [("p", ADict [("q", ATensor 1)])]; ATensor 2].
Proof. reflexivity. Qed.

(** ** C41 *)
Section C41.
Variable A : Type.
Variable aeqb : A -> A -> bool.

(** A successful merge keeps every entry of the target, has an entry equal to every
    entry of the source, and nothing else. *)
Theorem C41_merge : forall ts ss ts', uniq A (PDict ss) -> deep_disjoint_update aeqb ts (PDict ss) = Ok ts' ->
  (forall p x, at_path A (PDict ts) p = Some x ->
     exists y, at_path A (PDict ts') p = Some y /\ (if is_pdict A x then is_pdict A y = true else y = x)) /\
  (forall p x, at_path A (PDict ss) p = Some x ->
     exists y, at_path A (PDict ts') p = Some y /\ stands_for A aeqb y x) /\
  (forall p y, at_path A (PDict ts') p = Some y ->
     (exists x, at_path A (PDict ts) p = Some x) \/ (exists x, at_path A (PDict ss) p = Some x)).
Proof. intros ts ss ts' Hu H. exact (ddu_ok A aeqb (PDict ss) ts ts' Hu H). Qed.

(** It fails only if some path leads to entries which do not agree. *)
Theorem C41_error_means_conflict : forall ts ss e, uniq A (PDict ss) -> deep_disjoint_update aeqb ts (PDict ss) = Err e ->
  exists p x y, at_path A (PDict ts) p = Some x /\ at_path A (PDict ss) p = Some y /\ ~ agree A aeqb x y.
Proof. intros ts ss e Hu H. exact (ddu_err A aeqb (PDict ss) ts e Hu eq_refl H). Qed.

(** ** C59: util.is_equal agrees with == on sequences of the same lengths *)
Theorem C59_same_lengths_partial : forall v w, same_shape A v w -> is_equal aeqb v w = peqb aeqb v w.
Proof. intros. apply is_equal_partial; assumption. Qed.
End C41.

(** With different lengths it does not: specifications of shapes (2,) and (2, 3) are
    "equal". *)
Theorem C59_refuted : exists v w : pval nat, is_equal Nat.eqb v w = true /\ peqb Nat.eqb v w = false.
Proof.
  exists (PDict [("shape", PSeq true [PAtom 2])]), (PDict [("shape", PSeq true [PAtom 2; PAtom 3])]). split; reflexivity.
Qed.

Definition ex_target : list (string * pval nat) :=
  [("type", PAtom 1); ("optimizer", PDict [("rate", PAtom 2); ("sizes", PSeq false [PAtom 3; PAtom 4])])].
Definition ex_source : list (string * pval nat) :=
  [("optimizer", PDict [("sizes", PSeq true [PAtom 3; PAtom 4]); ("steps", PAtom 7)]); ("type", PAtom 1); ("memory", PAtom 8)].

Example ex_merge : uniq nat (PDict ex_source) /\ deep_disjoint_update Nat.eqb ex_target (PDict ex_source) =
  Ok [("type", PAtom 1); ("optimizer", PDict [("rate", PAtom 2); ("sizes", PSeq false [PAtom 3; PAtom 4]); ("steps", PAtom 7)]); ("memory", PAtom 8)].
Proof.
  split; [|reflexivity]. cbn. repeat split; repeat constructor; cbn; intuition discriminate.
Qed.
Example ex_conflict : exists e, deep_disjoint_update Nat.eqb ex_target (PDict [("optimizer", PDict [("rate", PAtom 3)])]) = Err e.
Proof. eexists; reflexivity. Qed.
Example ex_same_shape : same_shape nat (PDict [("shape", PSeq true [PAtom 2; PAtom 3])]) (PDict [("shape", PSeq true [PAtom 2; PAtom 4])]).
Proof.
  constructor. intros k v v' [E|[]] H. injection E as <- <-. cbn in H. injection H as <-. repeat constructor.
Qed.

Print Assumptions C37_get_after_set.
Print Assumptions C37_set_other.
Print Assumptions C37_contains.
Print Assumptions C37_no_overwrite.
Print Assumptions C37_pop.
Print Assumptions C37_items.
Print Assumptions C37_items_after_set.
Print Assumptions C37_insertion_order.
Print Assumptions C37_copy.
Print Assumptions C37_fmap.
Print Assumptions C60_sound_partial.
Print Assumptions C60_reflexive_partial.
Print Assumptions C60_read_listed_refuted.
Print Assumptions C60_symmetric_refuted.
Print Assumptions C38_roundtrip.
Print Assumptions C38_roundtrip_outputs.
Print Assumptions C38_order.
Print Assumptions C38_to_list_partial.
Print Assumptions C38_to_list_dict_partial.
Print Assumptions C38_to_list_refuted.
Print Assumptions C38_missing_refuted.
Print Assumptions C38_double_refuted.
Print Assumptions C41_merge.
Print Assumptions C41_error_means_conflict.
Print Assumptions C59_same_lengths_partial.
Print Assumptions C59_refuted.
