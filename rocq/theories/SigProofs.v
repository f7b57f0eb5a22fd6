(** Lemmas on signatures and merging. *)

From Coq Require Import String List ZArith Lia Bool Arith.
From Verif Require Import Base DictSpec DictModel DictProofs SigModel.
Import ListNotations.
Open Scope string_scope.

(** ** What matching arguments are (independent of the conversions) *)
Section Spec.
Variables S T : Type.
Variable compat : S -> T -> bool.

(** Same structure, names and order, with a compatible tensor for every specification. *)
Inductive matches : node S -> node T -> Prop :=
| m_leaf s t : compat s t = true -> matches (Leaf s) (Leaf t)
| m_dict es es' : Forall2 (fun e e' => fst e = fst e' /\ matches (snd e) (snd e')) es es' ->
                  matches (Dict es) (Dict es').

(** No singleton directly inside a singleton. *)
Fixpoint no_double (sig : node S) : Prop :=
  match sig with
  | Leaf _ => True
  | Dict es =>
      (forall c, es = [(single_name, Dict c)] -> is_singleton c = false) /\
      (fix all es := match es with [] => True | (_, n) :: r => no_double n /\ all r end) es
  end.
End Spec.
Arguments matches {S T}. Arguments no_double {S}.

(** The tensors of flattened arguments, from left to right. *)
Fixpoint flat {X} (a : args X) : list X :=
  match a with
  | ATensor x => [x]
  | ATuple l => flat_map flat l
  | ADict l => flat_map (fun e => let '(_, b) := e in flat b) l
  end.

(** The same nesting of tuples and dictionaries, with compatible tensors. *)
Inductive fits {S T} (compat : S -> T -> bool) : args S -> args T -> Prop :=
| f_tensor s t : compat s t = true -> fits compat (ATensor s) (ATensor t)
| f_tuple l l' : Forall2 (fits compat) l l' -> fits compat (ATuple l) (ATuple l')
| f_dict l l' : Forall2 (fun e e' => fst e = fst e' /\ fits compat (snd e) (snd e')) l l' -> fits compat (ADict l) (ADict l').

Section Proofs.
Variables S T : Type.
Variable compat : S -> T -> bool.
Notation sg := (node S).
Notation kn := (node T).

Notation klook := find_kwarg.
Notation kkind := kwargs_kind.
Notation kloop td := (kwargs_loop compat (fun spec a => kwargs_to_args compat td false false spec (KNode a))).

Lemma k2a_regular td ot outer es kw : is_singleton es = false ->
  kwargs_to_args compat td ot outer (Dict es) kw =
  do _ <- assert_ (kkind outer kw) "AssertionError";
  do l <- kloop td kw es 0 None;
  Ok (if td then if ot && outer then ATuple (map snd l) else ADict l else ATuple (map snd l)).
Proof.
  intro Hs. destruct es as [|[k0 c] [|e r]]; [reflexivity| |reflexivity].
  cbn [is_singleton] in Hs. cbn [kwargs_to_args]. rewrite Hs. reflexivity.
Qed.

Lemma k2a_single_leaf td ot outer s kw :
  kwargs_to_args compat td ot outer (Dict [(single_name, Leaf s)]) kw =
  match kw with
  | KNode (Leaf t) => do _ <- assert_ (compat s t) "AssertionError: spec"; Ok (ATensor t)
  | KNode (Dict [(k1, Leaf t)]) =>
      do _ <- assert_ (k1 =? single_name) "AssertionError: singleton";
      do _ <- assert_ (compat s t) "AssertionError: spec"; Ok (ATensor t)
  | _ => Err "AssertionError: singleton"
  end.
Proof. reflexivity. Qed.

Lemma k2a_single_dict td ot outer c kw :
  kwargs_to_args compat td ot outer (Dict [(single_name, Dict c)]) kw = kwargs_to_args compat td false false (Dict c) kw.
Proof. reflexivity. Qed.

Notation alook := find_arg.
Notation akind := args_kind.
Notation aloop fd := (args_loop compat (args_to_kwargs compat fd false) fd).

Lemma a2k_regular fd outer es a : is_singleton es = false ->
  args_to_kwargs compat fd outer (Dict es) a =
  do _ <- assert_ (akind fd outer a) "AssertionError"; aloop fd outer a es 0 (Dict []).
Proof.
  intro Hs. destruct es as [|[k0 c] [|e r]]; [reflexivity| |reflexivity].
  cbn [is_singleton] in Hs. cbn [args_to_kwargs]. rewrite Hs. reflexivity.
Qed.

Lemma a2k_single_leaf fd outer s a :
  args_to_kwargs compat fd outer (Dict [(single_name, Leaf s)]) a =
  match a with
  | ATensor t => do _ <- assert_ (compat s t) "AssertionError: spec"; Ok (Dict [(single_name, Leaf t)])
  | _ => Err "AssertionError: not a tensor"
  end.
Proof. reflexivity. Qed.

Lemma a2k_single_dict fd outer c a :
  args_to_kwargs compat fd outer (Dict [(single_name, Dict c)]) a =
  do n <- args_to_kwargs compat fd false (Dict c) a; Ok (Dict [(single_name, n)]).
Proof. reflexivity. Qed.

(** ** Matching *)

Lemma matches_keys es es' :
  Forall2 (fun (e : string * sg) (e' : string * kn) => fst e = fst e' /\ matches compat (snd e) (snd e')) es es' ->
  map fst es' = map fst es /\ is_singleton es' = is_singleton es.
Proof.
  intro H. split.
  - induction H as [|e e' r r' [H1 _] Hr IH]; [reflexivity|]. cbn. rewrite IH, H1. reflexivity.
  - destruct H as [|[k n] [k' n'] r r' [H1 _] Hr]; [reflexivity|]. cbn in H1. subst.
    destruct Hr; reflexivity.
Qed.

Lemma matches_wf sig : forall kw, wf S sig -> matches compat sig kw -> wf T kw.
Proof.
  induction sig as [s|es IH] using node_ind_all; intros kw Hw Hm; inversion Hm; subst; [exact I|].
  apply wf_dict in Hw. destruct Hw as (W1 & W2 & W3 & W4). destruct (matches_keys _ _ H0) as [Hk _].
  apply wf_dict. rewrite Hk. repeat split; auto.
  - intro Hi. rewrite <- (W2 Hi). symmetry. clear -H0. induction H0; cbn; congruence.
  - clear -IH W4 H0. revert es' H0. induction IH as [|[k n] r Hn Hr IHr]; intros es' H0; inversion H0; subst; [exact I|].
    destruct y as [k' n']. destruct H2 as [_ H2]. cbn in *. destruct W4 as [W4 W5]. split; auto.
Qed.

Lemma matches_empty sig : forall kw, length_ sig = 0%nat -> matches compat sig kw -> kw = fmap_empty T sig.
Proof.
  induction sig as [s|es IH] using node_ind_all; intros kw Hl Hm; [discriminate|]. inversion Hm; subst. cbn [fmap_empty]. f_equal.
  clear Hm. revert es' H0 Hl. induction IH as [|[k n] r Hn Hr IHr]; intros es' H0 Hl; inversion H0; subst; [reflexivity|].
  destruct y as [k' n']. destruct H2 as [H2 H3]. cbn [fst snd map length_ fold_right] in *. subst k'.
  assert (Hl1 : length_ n = 0%nat) by lia. assert (Hl2 : length_ (Dict r) = 0%nat) by (cbn [length_]; lia).
  rewrite (Hn n' Hl1 H3). f_equal. apply IHr; assumption.
Qed.

Lemma matches_dict es kw : matches compat (Dict es) kw -> exists es', kw = Dict es' /\
  Forall2 (fun (e : string * sg) (e' : string * kn) => fst e = fst e' /\ matches compat (snd e) (snd e')) es es'.
Proof. intro H. inversion H; subst. eauto. Qed.

Lemma matches_leaf s kw : matches compat (Leaf s) kw -> exists t, kw = Leaf t /\ compat s t = true.
Proof. intro H. inversion H; subst. eauto. Qed.

Lemma matches_one k n es' : Forall2 (fun (e : string * sg) (e' : string * kn) => fst e = fst e' /\ matches compat (snd e) (snd e')) [(k, n)] es' ->
  exists n', es' = [(k, n')] /\ matches compat n n'.
Proof. intro H. inversion H; subst. inversion H4; subst. destruct y as [k' n']. destruct H2 as [E H2]. cbn in *. subst. eauto. Qed.

(** ** The round trip *)

Inductive conv (td : bool) : list (string * sg) -> list (string * kn) -> list (string * args T) -> Prop :=
| c_nil : conv td [] [] []
| c_leaf k s t r r' l : compat s t = true -> conv td r r' l ->
    conv td ((k, Leaf s) :: r) ((k, Leaf t) :: r') ((k, ATensor t) :: l)
| c_empty k es r r' l : length_ (Dict es) = 0%nat -> conv td r r' l ->
    conv td ((k, Dict es) :: r) ((k, fmap_empty T (Dict es)) :: r') l
| c_more k es n x r r' l : length_ (Dict es) <> 0%nat -> args_to_kwargs compat td false (Dict es) x = Ok n ->
    conv td r r' l -> conv td ((k, Dict es) :: r) ((k, n) :: r') ((k, x) :: l).

Lemma kloop_conv td K es : forall es' i stale,
  Forall (fun e => forall kw, length_ (snd e) <> 0%nat -> matches compat (snd e) kw -> (exists es, snd e = Dict es) ->
    exists a, kwargs_to_args compat td false false (snd e) (KNode kw) = Ok a /\ args_to_kwargs compat td false (snd e) a = Ok kw) es ->
  Forall2 (fun (e : string * sg) (e' : string * kn) => fst e = fst e' /\ matches compat (snd e) (snd e')) es es' ->
  (forall j k n stale, nth_error es' j = Some (k, n) -> klook K k (i + j) stale = Ok (Some n)) ->
  exists l, kloop td K es i stale = Ok l /\ conv td es es' l.
Proof.
  induction es as [|[k spec] r IH]; intros es' i stale HF HM HK; inversion HM; subst.
  - exists []. split; [reflexivity|constructor].
  - destruct y as [k' n']. destruct H1 as [H1 H2]. cbn [fst snd] in H1, H2. subst k'. inversion HF; subst.
    assert (Hk := HK 0%nat k n' stale eq_refl). rewrite Nat.add_0_r in Hk.
    assert (HK' : forall j k n stale, nth_error l' j = Some (k, n) -> klook K k (i + 1 + j) stale = Ok (Some n)).
    { intros j k0 n stale0 Hj. replace (i + 1 + j)%nat with (i + Datatypes.S j)%nat by lia. apply HK. exact Hj. }
    cbn [kwargs_loop]. rewrite Hk. cbn [bind]. destruct spec as [s|es].
    + inversion H2; subst. unfold assert_. rewrite H0. cbn [bind].
      destruct (IH l' (i + 1)%nat (Some (Leaf t)) H4 H3 HK') as (l & El & Hc). rewrite El. cbn [bind].
      eexists. split; [reflexivity|]. constructor; assumption.
    + destruct (Nat.eqb_spec (length_ (Dict es)) 0) as [E|E].
      * destruct (IH l' (i + 1)%nat (Some n') H4 H3 HK') as (l & El & Hc). exists l. split; [exact El|].
        rewrite (matches_empty _ _ E H2). constructor; assumption.
      * cbn [snd] in H1. destruct (H1 n' E H2 ltac:(eauto)) as (x & Ex & Ea). rewrite Ex. cbn [bind].
        edestruct (IH l' (i + 1)%nat) as (l & El & Hc); [exact H4|exact H3|exact HK'|]. rewrite El. cbn [bind].
        eexists. split; [reflexivity|]. econstructor; eassumption.
Qed.

Lemma conv_aloop td outer a es es' l : conv td es es' l -> forall i acc,
  wf T (Dict (acc ++ es')) -> is_singleton (acc ++ es') = false ->
  (forall j k x, nth_error l j = Some (k, x) -> alook td outer a k (i + j) = Ok (Some x)) ->
  (forall k i, exists o, alook td outer a k i = Ok o) ->
  aloop td outer a es i (Dict acc) = Ok (Dict (acc ++ es')).
Proof.
  intro Hc. induction Hc as [|k s t r r' l Hct Hc IH|k es0 r r' l Hl Hc IH|k es0 n x r r' l Hl Ha Hc IH];
    intros i acc Hw Hs HA HO.
  - cbn. rewrite app_nil_r. reflexivity.
  - assert (Hset : setitem true [k] (Leaf t) (Dict acc) = Ok (Dict (acc ++ [(k, Leaf t)]))).
    { apply wf_dict in Hw as Hw'. destruct Hw' as (D1 & D2 & D3 & D4). rewrite map_app in D1, D2, D3.
      pose proof (regular_no_single _ _ Hw Hs) as Hns. rewrite map_app in Hns.
      apply set_fresh.
      - exact (wf_firstn _ _ _ Hw).
      - rewrite Forall_forall in D3. apply D3. apply in_or_app. right. left. reflexivity.
      - intro Hi. apply NoDup_remove_2 in D1. apply D1. apply in_or_app. left; exact Hi.
      - intros ->. exfalso. apply Hns. apply in_or_app. right. left. reflexivity.
      - intro Hne. destruct acc as [|[k0 c0] [|]]; [congruence| |reflexivity]. cbn [is_singleton].
        destruct (k0 =? single_name) eqn:E; [|reflexivity]. exfalso. apply String.eqb_eq in E; subst. apply Hns. left; reflexivity. }
    cbn [args_loop]. rewrite <- (Nat.add_0_r i), (HA 0%nat k _ eq_refl), Nat.add_0_r. cbn [bind]. unfold assert_. rewrite Hct. cbn [bind].
    rewrite Hset. cbn [bind]. replace (acc ++ (k, Leaf t) :: r')%list with ((acc ++ [(k, Leaf t)]) ++ r')%list in * by (rewrite <- app_assoc; reflexivity).
    apply IH; auto. intros j k0 x Hj. replace (i + 1 + j)%nat with (i + Datatypes.S j)%nat by lia. apply HA. exact Hj.
  - assert (Hset : setitem true [k] (fmap_empty T (Dict es0)) (Dict acc) = Ok (Dict (acc ++ [(k, fmap_empty T (Dict es0))]))).
    { apply wf_dict in Hw as Hw'. destruct Hw' as (D1 & D2 & D3 & D4). rewrite map_app in D1, D2, D3.
      pose proof (regular_no_single _ _ Hw Hs) as Hns. rewrite map_app in Hns.
      apply set_fresh.
      - exact (wf_firstn _ _ _ Hw).
      - rewrite Forall_forall in D3. apply D3. apply in_or_app. right. left. reflexivity.
      - intro Hi. apply NoDup_remove_2 in D1. apply D1. apply in_or_app. left; exact Hi.
      - intros ->. exfalso. apply Hns. apply in_or_app. right. left. reflexivity.
      - intro Hne. destruct acc as [|[k0 c0] [|]]; [congruence| |reflexivity]. cbn [is_singleton].
        destruct (k0 =? single_name) eqn:E; [|reflexivity]. exfalso. apply String.eqb_eq in E; subst. apply Hns. left; reflexivity. }
    cbn [args_loop]. destruct (HO k i) as [o Ho]. rewrite Ho. cbn [bind]. rewrite Hl. cbn [Nat.eqb]. rewrite Hset. cbn [bind].
    replace (acc ++ (k, fmap_empty T (Dict es0)) :: r')%list with ((acc ++ [(k, fmap_empty T (Dict es0))]) ++ r')%list in *
      by (rewrite <- app_assoc; reflexivity).
    apply IH; auto.
  - assert (Hset : setitem true [k] n (Dict acc) = Ok (Dict (acc ++ [(k, n)]))).
    { apply wf_dict in Hw as Hw'. destruct Hw' as (D1 & D2 & D3 & D4). rewrite map_app in D1, D2, D3.
      pose proof (regular_no_single _ _ Hw Hs) as Hns. rewrite map_app in Hns.
      apply set_fresh.
      - exact (wf_firstn _ _ _ Hw).
      - rewrite Forall_forall in D3. apply D3. apply in_or_app. right. left. reflexivity.
      - intro Hi. apply NoDup_remove_2 in D1. apply D1. apply in_or_app. left; exact Hi.
      - intros ->. exfalso. apply Hns. apply in_or_app. right. left. reflexivity.
      - intro Hne. destruct acc as [|[k0 c0] [|]]; [congruence| |reflexivity]. cbn [is_singleton].
        destruct (k0 =? single_name) eqn:E; [|reflexivity]. exfalso. apply String.eqb_eq in E; subst. apply Hns. left; reflexivity. }
    cbn [args_loop]. rewrite <- (Nat.add_0_r i), (HA 0%nat k _ eq_refl), Nat.add_0_r. cbn [bind].
    destruct (Nat.eqb_spec (length_ (Dict es0)) 0) as [E|E]; [contradiction|]. rewrite Ha. cbn [bind]. rewrite Hset. cbn [bind].
    replace (acc ++ (k, n) :: r')%list with ((acc ++ [(k, n)]) ++ r')%list in * by (rewrite <- app_assoc; reflexivity).
    apply IH; auto. intros j k0 y Hj. replace (i + 1 + j)%nat with (i + Datatypes.S j)%nat by lia. apply HA. exact Hj.
Qed.

Lemma conv_keys td es es' l : conv td es es' l -> forall k, In k (map fst l) -> In k (map fst es').
Proof. induction 1; intros k0 Hk; cbn in *; firstorder. Qed.

Lemma conv_nodup td es es' l : conv td es es' l -> NoDup (map fst es') -> NoDup (map fst l).
Proof.
  induction 1; intro Hn; cbn [map fst] in *; [constructor| | |]; inversion Hn; subst; auto.
  - constructor; auto. intro Hi. eapply conv_keys in Hi; eauto.
  - constructor; auto. intro Hi. eapply conv_keys in Hi; eauto.
Qed.

Lemma dict_get_nth l j k (x : args T) : NoDup (map fst l) -> nth_error l j = Some (k, x) -> dict_get k l = Some x.
Proof.
  revert j; induction l as [|[k' x'] r IH]; intros j Hn Hj; [destruct j; discriminate|].
  inversion Hn; subst. cbn [dict_get]. destruct j as [|j].
  - injection Hj as -> ->. rewrite String.eqb_refl. reflexivity.
  - cbn in Hj. destruct (String.eqb_spec k k') as [->|_]; [|exact (IH _ H2 Hj)].
    exfalso. apply H1. apply nth_error_In in Hj. apply (in_map fst) in Hj. exact Hj.
Qed.

(** The round trip for a signature which is not a singleton, from any presentation of the arguments. *)
Lemma regular_roundtrip td ot outer K es es' :
  wf S (Dict es) -> is_singleton es = false ->
  Forall (fun e => forall kw, length_ (snd e) <> 0%nat -> matches compat (snd e) kw -> (exists es, snd e = Dict es) ->
    exists a, kwargs_to_args compat td false false (snd e) (KNode kw) = Ok a /\ args_to_kwargs compat td false (snd e) a = Ok kw) es ->
  matches compat (Dict es) (Dict es') ->
  kkind outer K = true ->
  (forall j k n stale, nth_error es' j = Some (k, n) -> klook K k j stale = Ok (Some n)) ->
  exists a, kwargs_to_args compat td ot outer (Dict es) K = Ok a /\ args_to_kwargs compat td outer (Dict es) a = Ok (Dict es').
Proof.
  intros Hw Hs HF HM HK Hl.
  pose proof (matches_wf _ _ Hw HM) as Hw'. destruct (matches_dict _ _ HM) as (? & E & H0). injection E as <-. destruct (matches_keys _ _ H0) as [_ Hs'].
  destruct (kloop_conv td K es es' 0%nat None HF H0 Hl) as (l & El & Hc).
  rewrite k2a_regular by exact Hs. unfold assert_. rewrite HK, El. cbn [bind].
  eexists. split; [reflexivity|]. rewrite a2k_regular by exact Hs.
  assert (Hnd : NoDup (map fst l)) by (eapply conv_nodup; [exact Hc|]; apply wf_dict in Hw'; destruct Hw' as (? & _); assumption).
  assert (HT : negb td || outer = true ->
    (do _ <- assert_ (akind td outer (ATuple (map snd l))) "AssertionError"; aloop td outer (ATuple (map snd l)) es 0 (Dict [])) = Ok (Dict es')).
  { intro Ho. replace (akind td outer (ATuple (map snd l))) with true by (destruct td, outer; cbn in *; congruence).
    cbn [assert_ bind]. apply (conv_aloop td outer _ es es' l Hc 0%nat []); [exact Hw'|cbn [app]; congruence| |].
    - intros j k x Hj. cbn [find_arg]. rewrite map_length.
      assert (Hlt : (j < length l)%nat) by (apply nth_error_Some; congruence).
      cbn [Nat.add]. destruct (Nat.ltb_spec j (length l)) as [_|?]; [|lia]. unfold assert_. rewrite Ho. cbn [bind].
      rewrite nth_error_map, Hj. reflexivity.
    - intros k i. cbn [find_arg]. destruct (Nat.ltb i (length (map snd l))); [|eauto]. unfold assert_. rewrite Ho. cbn [bind]. eauto. }
  assert (HD : td = true ->
    (do _ <- assert_ (akind td outer (ADict l)) "AssertionError"; aloop td outer (ADict l) es 0 (Dict [])) = Ok (Dict es')).
  { intros ->. replace (akind true outer (ADict l)) with true by (destruct outer; reflexivity).
    cbn [assert_ bind]. apply (conv_aloop true outer _ es es' l Hc 0%nat []); [exact Hw'|cbn [app]; congruence| |].
    - intros j k x Hj. cbn [find_arg]. rewrite (dict_get_nth _ _ _ _ Hnd Hj). reflexivity.
    - intros k i. cbn [find_arg]. eauto. }
  destruct td; [|apply HT; reflexivity]. destruct (ot && outer) eqn:E; [|apply HD; reflexivity].
  apply HT. apply andb_true_iff in E. destruct E as [_ ->]. reflexivity.
Qed.

Lemma klook_self es : wf T (Dict es) -> is_singleton es = false ->
  forall j k n stale, nth_error es j = Some (k, n) -> klook (KNode (Dict es)) k j stale = Ok (Some n).
Proof.
  intros Hw Hs j k n stale Hj. apply nth_error_In in Hj.
  assert (Hk : (k =? single_name) = false).
  { apply String.eqb_neq. intros ->. apply (regular_no_single _ _ Hw Hs). apply (in_map fst) in Hj. exact Hj. }
  apply wf_dict in Hw. destruct Hw as (Hnd & _). cbn [find_kwarg].
  assert (Ha := In_assoc _ _ _ _ Hnd Hj). rewrite con_one, Ha by auto. cbn [bind]. rewrite get_one, Ha by auto. reflexivity.
Qed.

Lemma klook_wrapped es : wf T (Dict es) -> is_singleton es = false ->
  forall j k n stale, nth_error es j = Some (k, n) -> klook (KNode (Dict [(single_name, Dict es)])) k j stale = Ok (Some n).
Proof.
  intros Hw Hs j k n stale Hj.
  assert (Hk : (k =? single_name) = false).
  { apply nth_error_In in Hj. apply String.eqb_neq. intros ->. apply (regular_no_single _ _ Hw Hs). apply (in_map fst) in Hj. exact Hj. }
  rewrite <- (klook_self es Hw Hs j k n stale Hj). cbn [find_kwarg]. rewrite con_single, get_single by auto. reflexivity.
Qed.

Lemma klook_tuple (es : list (string * kn)) :
  forall j k n stale, nth_error es j = Some (k, n) -> klook (KTuple (map snd es)) k j stale = Ok (Some n).
Proof. intros j k n stale Hj. cbn [find_kwarg]. rewrite nth_error_map, Hj. reflexivity. Qed.

Lemma no_double_dict es : no_double (Dict es) -> Forall (fun e : string * sg => no_double (snd e)) es.
Proof. intros [_ H]. induction es as [|[k n] r IH]; constructor; [apply H|apply IH, H]. Qed.

Notation claim td n := (forall kw, matches compat n kw -> (exists es, n = Dict es) ->
  exists a, kwargs_to_args compat td false false n (KNode kw) = Ok a /\ args_to_kwargs compat td false n a = Ok kw).

(** The claim for a node and for the entries of the dictionary in it. *)
Lemma roundtrip_both td sig : wf S sig -> no_double sig ->
  claim td sig /\ forall es, sig = Dict es -> Forall (fun e => claim td (snd e)) es.
Proof.
  induction sig as [s|es IH] using node_ind_all; intros Hw Hnd.
  { split; [intros kw _ [? H]; discriminate|intros; discriminate]. }
  assert (HF : Forall (fun e => claim td (snd e) /\ forall es, snd e = Dict es -> Forall (fun e => claim td (snd e)) es) es).
  { pose proof (no_double_dict _ Hnd) as Hnd'. rewrite Forall_forall in *. intros [k n] Hin. cbn [snd] in *.
    apply (IH (k, n) Hin).
    - apply wf_dict in Hw. destruct Hw as (W1 & _ & _ & W4). exact (wfs_assoc _ _ _ _ W4 (In_assoc _ _ _ _ W1 Hin)).
    - exact (Hnd' _ Hin). }
  clear IH.
  assert (HF1 : Forall (fun e => claim td (snd e)) es) by (eapply Forall_impl; [|exact HF]; intros a [Ha _]; exact Ha).
  split; [|intros es0 E; injection E as <-; exact HF1].
  intros kw Hm _.
  assert (HW : forall l, Forall (fun e => claim td (snd e)) l ->
    Forall (fun e : string * sg => forall kw, length_ (snd e) <> 0%nat -> matches compat (snd e) kw -> (exists es, snd e = Dict es) ->
    exists a, kwargs_to_args compat td false false (snd e) (KNode kw) = Ok a /\ args_to_kwargs compat td false (snd e) a = Ok kw) l).
  { intros l Hl. eapply Forall_impl; [|exact Hl]. intros e He kw0 _. apply He. }
  destruct (is_singleton es) eqn:Hs.
  - apply wf_none in Hs. destruct Hs as [c ->]. destruct (matches_dict _ _ Hm) as (es' & -> & H0).
    destruct (matches_one _ _ _ H0) as (n' & -> & Hm'). destruct c as [s|c].
    + destruct (matches_leaf _ _ Hm') as (t & -> & H2). exists (ATensor t). rewrite k2a_single_leaf, a2k_single_leaf. unfold assert_.
      rewrite String.eqb_refl, H2. split; reflexivity.
    + rewrite k2a_single_dict. destruct (matches_dict _ _ Hm') as (es' & -> & H1).
      assert (Hsc : is_singleton c = false) by (apply (proj1 Hnd c eq_refl)).
      assert (Hwc := wf_single_inv _ _ Hw).
      destruct (matches_keys _ _ H1) as [_ Hsc']. pose proof (matches_wf _ _ Hwc Hm') as Hwc'.
      destruct (regular_roundtrip td false false (KNode (Dict [(single_name, Dict es')])) c es' Hwc Hsc) as (a & E1 & E2).
      * apply HW. inversion HF; subst. destruct H3 as [_ H3]. exact (H3 c eq_refl).
      * exact Hm'.
      * reflexivity.
      * apply klook_wrapped; [exact Hwc'|congruence].
      * exists a. split; [exact E1|]. rewrite a2k_single_dict, E2. reflexivity.
  - destruct (matches_dict _ _ Hm) as (es' & -> & H0). destruct (matches_keys _ _ H0) as [_ Hs']. pose proof (matches_wf _ _ Hw Hm) as Hw'.
    apply (regular_roundtrip td false false (KNode (Dict es')) es es' Hw Hs (HW _ HF1) Hm eq_refl).
    apply klook_self; [exact Hw'|congruence].
Qed.

(** Keyword arguments to flat arguments and back. *)
Lemma roundtrip_input td ot es kw : wf S (Dict es) -> no_double (Dict es) -> matches compat (Dict es) kw ->
  exists a, kwargs_to_args compat td ot true (Dict es) (KNode kw) = Ok a /\ args_to_kwargs compat td true (Dict es) a = Ok kw.
Proof.
  intros Hw Hnd Hm. destruct (roundtrip_both td (Dict es) Hw Hnd) as [H1 H2].
  destruct (is_singleton es) eqn:Hs.
  - destruct (H1 kw Hm ltac:(eauto)) as (a & E1 & E2). exists a.
    apply wf_none in Hs. destruct Hs as [[s|c] ->]; split; assumption.
  - destruct (matches_dict _ _ Hm) as (es' & -> & H0). destruct (matches_keys _ _ H0) as [_ Hs']. pose proof (matches_wf _ _ Hw Hm) as Hw'.
    apply (regular_roundtrip td ot true (KNode (Dict es')) es es' Hw Hs); [|exact Hm|reflexivity|apply klook_self; [exact Hw'|congruence]].
    eapply Forall_impl; [|exact (H2 es eq_refl)]. intros e He kw0 _. apply He.
Qed.

(** Outputs given as a tuple (or the bare value of a singleton). *)
Lemma roundtrip_output td es es' : wf S (Dict es) -> no_double (Dict es) -> matches compat (Dict es) (Dict es') ->
  let out := match es' with
             | [(k, c)] => if k =? single_name then KNode c else KTuple [c]
             | _ => KTuple (map snd es')
             end in
  exists a, kwargs_to_args compat td false true (Dict es) out = Ok a /\ args_to_kwargs_outer compat td (Dict es) a = Ok out.
Proof.
  intros Hw Hnd Hm out. destruct (roundtrip_both td (Dict es) Hw Hnd) as [H1 H2].
  destruct (matches_dict _ _ Hm) as (? & E & H0). injection E as <-. destruct (matches_keys _ _ H0) as [_ Hs']. pose proof (matches_wf _ _ Hw Hm) as Hw'.
  unfold args_to_kwargs_outer. destruct (is_singleton es) eqn:Hs.
  - apply wf_none in Hs. destruct Hs as [c ->]. 
    destruct (matches_one _ _ _ H0) as (n' & -> & Hm'). subst out. rewrite String.eqb_refl.
    destruct c as [s|c].
    + destruct (matches_leaf _ _ Hm') as (t & -> & H4). exists (ATensor t). rewrite k2a_single_leaf, a2k_single_leaf. unfold assert_. rewrite H4. split; reflexivity.
    + rewrite k2a_single_dict. destruct (matches_dict _ _ Hm') as (es' & -> & H1x).
      assert (Hsc : is_singleton c = false) by (apply (proj1 Hnd c eq_refl)).
      assert (Hwc := wf_single_inv _ _ Hw). destruct Hnd as [_ [Hndc _]].
      destruct (roundtrip_both td (Dict c) Hwc Hndc) as [H8 H9].
      destruct (H8 (Dict es') Hm' ltac:(eauto)) as (a & E1 & E2).
      exists a. split; [exact E1|]. rewrite a2k_single_dict, E2. reflexivity.
  - assert (Eo : out = KTuple (map snd es')).
    { subst out. destruct es' as [|[k c] [|]]; try reflexivity. cbn in Hs'. rewrite Hs'. reflexivity. }
    rewrite Eo. destruct (regular_roundtrip td false true (KTuple (map snd es')) es es' Hw Hs) as (a & E1 & E2).
    + eapply Forall_impl; [|exact (H2 es eq_refl)]. intros e He kw0 _. apply He.
    + exact Hm.
    + reflexivity.
    + apply klook_tuple.
    + exists a. split; [exact E1|]. rewrite E2. reflexivity.
Qed.

(** ** The flat arguments are those of the signature *)

Lemma items_snd (es : list (string * sg)) : map snd (items (Dict es)) = flat_map (fun e => map snd (items (snd e))) es.
Proof.
  rewrite items_dict. induction es as [|[k n] r IH]; [reflexivity|]. cbn [flat_map fst snd]. rewrite map_app, IH. f_equal.
  unfold lift. rewrite map_map. reflexivity.
Qed.

Lemma flat_tuple_dict (l : list (string * args T)) : flat (ADict l) = flat (ATuple (map snd l)).
Proof. cbn [flat]. induction l as [|[k a] r IH]; [reflexivity|]. cbn [map flat_map snd]. rewrite IH. reflexivity. Qed.

Lemma flat_ok sig : forall td ot outer K a, kwargs_to_args compat td ot outer sig K = Ok a ->
  Forall2 (fun s t => compat s t = true) (map snd (items sig)) (flat a).
Proof.
  induction sig as [s|es IH] using node_ind_all; intros td ot outer K a H; [discriminate|].
  destruct (is_singleton es) eqn:Hs.
  - apply wf_none in Hs. destruct Hs as [c ->]. rewrite items_single. destruct c as [s|c].
    + rewrite k2a_single_leaf in H. cbn [items map].
      assert (G : exists t, a = ATensor t /\ compat s t = true).
      { destruct K as [[t|[|[k [t|]] [|]]]|]; try discriminate.
        - unfold assert_ in H. destruct (compat s t) eqn:E; [|discriminate]. injection H as <-. eauto.
        - unfold assert_ in H. destruct (k =? single_name); [|discriminate]. cbn [bind] in H.
          destruct (compat s t) eqn:E; [|discriminate]. injection H as <-. eauto. }
      destruct G as (t & -> & E). repeat constructor. exact E.
    + rewrite k2a_single_dict in H. inversion IH; subst. exact (H2 _ _ _ _ _ H).
  - rewrite k2a_regular in H by exact Hs. apply bind_ok in H. destruct H as (? & _ & H).
    apply bind_ok in H. destruct H as (l & El & H). injection H as <-.
    rewrite items_snd.
    assert (G : Forall2 (fun s t => compat s t = true) (flat_map (fun e => map snd (items (snd e))) es) (flat (ATuple (map snd l)))).
    { clear Hs. revert El. generalize 0%nat as i. generalize (@None kn) as stale. revert l.
      induction IH as [|[k spec] r Hn Hr IHr]; intros l stale i El.
      - injection El as <-. constructor.
      - cbn [kwargs_loop] in El. apply bind_ok in El. destruct El as (arg & _ & El). cbn [flat_map snd] in *. destruct spec as [s|cs].
        + destruct arg as [[t|]|]; try discriminate. unfold assert_ in El. destruct (compat s t) eqn:E; [|discriminate].
          cbn [bind] in El. apply bind_ok in El. destruct El as (rest & Er & El). injection El as <-.
          cbn [items map snd app flat flat_map]. constructor; [exact E|]. exact (IHr _ _ _ Er).
        + destruct (Nat.eqb_spec (length_ (Dict cs)) 0) as [E|E].
          * rewrite length_items in E. destruct (items (Dict cs)); [|discriminate]. exact (IHr _ _ _ El).
          * destruct arg as [x0|]; [|discriminate]. apply bind_ok in El. destruct El as (y & Ey & El).
            apply bind_ok in El. destruct El as (rest & Er & El). injection El as <-.
            cbn [map snd flat flat_map]. apply Forall2_app; [exact (Hn _ _ _ _ _ Ey)|exact (IHr _ _ _ Er)]. }
    destruct td; [destruct (ot && outer)|]; rewrite ?flat_tuple_dict; exact G.
Qed.

Lemma to_list_regular b (es : list (string * sg)) : is_singleton es = false ->
  to_list b (Dict es) = ATuple (flat_map (fun e => let '(k, n) := e in
    match n with
    | Leaf s => [ATensor s]
    | Dict _ => if Nat.eqb (length_ n) 0 then [] else [if b then to_dict n else to_list false n]
    end) es).
Proof.
  intro Hs. destruct es as [|[k0 c] [|e r]]; [reflexivity| |reflexivity].
  cbn [is_singleton] in Hs. cbn [to_list]. rewrite Hs. reflexivity.
Qed.

Lemma to_dict_regular (es : list (string * sg)) : is_singleton es = false ->
  to_dict (Dict es) = ADict (flat_map (fun e => let '(k, n) := e in
    if (match n with Leaf _ => true | Dict _ => false end) || negb (Nat.eqb (length_ n) 0) then [(k, to_dict n)] else []) es).
Proof.
  intro Hs. destruct es as [|[k0 c] [|e r]]; [reflexivity| |reflexivity].
  cbn [is_singleton] in Hs. cbn [to_dict]. rewrite Hs. cbn [flat_map]. rewrite app_nil_r. reflexivity.
Qed.

Lemma k2a_leaf_inv s td ot outer K a : kwargs_to_args compat td ot outer (Dict [(single_name, Leaf s)]) K = Ok a ->
  exists t, a = ATensor t /\ compat s t = true.
Proof.
  rewrite k2a_single_leaf. intro H. destruct K as [[t|[|[k [t|]] [|]]]|]; try discriminate.
  - unfold assert_ in H. destruct (compat s t) eqn:E; [|discriminate]. injection H as <-. eauto.
  - unfold assert_ in H. destruct (k =? single_name); [|discriminate]. cbn [bind] in H.
    destruct (compat s t) eqn:E; [|discriminate]. injection H as <-. eauto.
Qed.

(** The result of the loop, entry by entry. *)
Lemma kloop_inv td K es : forall i stale l, kloop td K es i stale = Ok l ->
  Forall2 (fun e e' => fst e = fst e' /\
      match snd e with
      | Leaf s => exists t, snd e' = ATensor t /\ compat s t = true
      | Dict _ => exists kw, kwargs_to_args compat td false false (snd e) (KNode kw) = Ok (snd e')
      end)
    (filter (fun e : string * sg => (match snd e with Leaf _ => true | Dict _ => false end) || negb (Nat.eqb (length_ (snd e)) 0)) es) l.
Proof.
  induction es as [|[k spec] r IH]; intros i stale l El; [injection El as <-; constructor|].
  cbn [kwargs_loop] in El. apply bind_ok in El. destruct El as (arg & _ & El). cbn [filter snd]. destruct spec as [s|cs].
  - destruct arg as [[t|]|]; try discriminate. unfold assert_ in El. destruct (compat s t) eqn:E; [|discriminate].
    cbn [bind] in El. apply bind_ok in El. destruct El as (rest & Er & El). injection El as <-.
    cbn [orb]. constructor; [|exact (IH _ _ _ Er)]. split; [reflexivity|]. cbn [snd]. eauto.
  - cbn [orb]. destruct (Nat.eqb (length_ (Dict cs)) 0); cbn [negb]; [exact (IH _ _ _ El)|].
    destruct arg as [x|]; [|discriminate]. apply bind_ok in El. destruct El as (y & Ey & El).
    apply bind_ok in El. destruct El as (rest & Er & El). injection El as <-.
    constructor; [|exact (IH _ _ _ Er)]. split; [reflexivity|]. cbn [snd]. eauto.
Qed.

Lemma fits_dict sig : forall ot outer K a, ot && outer = false ->
  kwargs_to_args compat true ot outer sig K = Ok a -> fits compat (to_dict sig) a.
Proof.
  induction sig as [s|es IH] using node_ind_all; intros ot outer K a Ho H; [discriminate|].
  destruct (is_singleton es) eqn:Hs.
  - apply wf_none in Hs. destruct Hs as [[s|c] ->].
    + destruct (k2a_leaf_inv _ _ _ _ _ _ H) as (t & -> & E). constructor. exact E.
    + rewrite k2a_single_dict in H. inversion IH; subst. cbn [to_dict]. rewrite String.eqb_refl. exact (H2 false false K a eq_refl H).
  - rewrite k2a_regular in H by exact Hs. apply bind_ok in H. destruct H as (? & _ & H).
    apply bind_ok in H. destruct H as (l & El & H). injection H as <-. rewrite Ho, to_dict_regular by exact Hs. constructor.
    apply kloop_inv in El. clear Hs. revert l El. induction IH as [|[k n] r Hn Hr IHr]; intros l El; cbn [filter snd flat_map] in *.
    + inversion El; subst. constructor.
    + destruct ((match n with Leaf _ => true | Dict _ => false end) || negb (Nat.eqb (length_ n) 0)); [|exact (IHr _ El)].
      inversion El; subst. destruct y as [k' a]. destruct H1 as [E H1]. cbn [fst snd] in *. subst k'. cbn [app].
      constructor; [|exact (IHr _ H3)]. split; [reflexivity|]. cbn [snd]. destruct n as [s|cs].
      * destruct H1 as (t & -> & E). constructor. exact E.
      * destruct H1 as (kw & H1). exact (Hn false false (KNode kw) a eq_refl H1).
Qed.

Lemma fits_list sig : forall ot outer K a, kwargs_to_args compat false ot outer sig K = Ok a -> fits compat (to_list false sig) a.
Proof.
  induction sig as [s|es IH] using node_ind_all; intros ot outer K a H; [discriminate|].
  destruct (is_singleton es) eqn:Hs.
  - apply wf_none in Hs. destruct Hs as [[s|c] ->].
    + destruct (k2a_leaf_inv _ _ _ _ _ _ H) as (t & -> & E). constructor. exact E.
    + rewrite k2a_single_dict in H. inversion IH; subst. cbn [to_list]. rewrite String.eqb_refl. exact (H2 false false K a H).
  - rewrite k2a_regular in H by exact Hs. apply bind_ok in H. destruct H as (? & _ & H).
    apply bind_ok in H. destruct H as (l & El & H). injection H as <-. rewrite to_list_regular by exact Hs. constructor.
    apply kloop_inv in El. clear Hs. revert l El. induction IH as [|[k n] r Hn Hr IHr]; intros l El; cbn [filter snd flat_map] in *.
    + inversion El; subst. constructor.
    + destruct n as [s|cs]; cbn [orb] in El.
      * inversion El; subst. destruct y as [k' a]. destruct H1 as [E (t & Et & Ec)]. cbn [fst snd] in *. subst. cbn [map snd app].
        constructor; [constructor; exact Ec|exact (IHr _ H3)].
      * destruct (Nat.eqb (length_ (Dict cs)) 0); cbn [negb] in El; [exact (IHr _ El)|].
        inversion El; subst. destruct y as [k' a]. destruct H1 as [E (kw & H1)]. cbn [fst snd] in *. subst. cbn [map snd app].
        constructor; [exact (Hn false false (KNode kw) a H1)|exact (IHr _ H3)].
Qed.

Lemma fits_outer es K a : is_singleton es = false ->
  kwargs_to_args compat true true true (Dict es) K = Ok a -> fits compat (to_list true (Dict es)) a.
Proof.
  intros Hs H. rewrite k2a_regular in H by exact Hs. apply bind_ok in H. destruct H as (? & _ & H).
  apply bind_ok in H. destruct H as (l & El & H). injection H as <-. rewrite to_list_regular by exact Hs. constructor.
  apply kloop_inv in El. clear Hs. revert l El. induction es as [|[k n] r IHr]; intros l El; cbn [filter snd flat_map] in *.
  - inversion El; subst. constructor.
  - destruct n as [s|cs]; cbn [orb] in El.
    + inversion El; subst. destruct y as [k' a]. destruct H1 as [E (t & Et & Ec)]. cbn [fst snd] in *. subst. cbn [map snd app].
      constructor; [constructor; exact Ec|exact (IHr _ H3)].
    + destruct (Nat.eqb (length_ (Dict cs)) 0); cbn [negb] in El; [exact (IHr _ El)|].
      inversion El; subst. destruct y as [k' a]. destruct H1 as [E (kw & H1)]. cbn [fst snd] in *. subst. cbn [map snd app].
      constructor; [|exact (IHr _ H3)]. exact (fits_dict _ false false (KNode kw) a eq_refl H1).
Qed.

End Proofs.
