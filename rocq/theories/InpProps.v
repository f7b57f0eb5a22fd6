(** act in independent mode: formats of states, many instances, internals. *)

From Coq Require Import String List ZArith Bool Lia.
From Verif Require Import Base InpModel InpSpec InpProofs InpActProofs InpRowProofs InpOutProofs InpBatchProofs.
Import ListNotations.
Open Scope list_scope.
Open Scope nat_scope.

Section Acts.
Variable V : Type.
Variable conv : leaf -> V -> option V.
Variable one : V.
Variable masking : bool.
Variables states_spec actions_spec internals_spec : tree leaf.
Variable policy : tree (arr V) -> tree (arr V) -> list (list string * arr V) -> bool -> tree (arr V) * tree (arr V).
Notation act := (act_independent V conv one masking states_spec actions_spec internals_spec policy).
Notation writes_tree := (writes_tree V).
Notation writes_state := (writes_state V).
Notation writes_any := (writes_any V).
Notation instance := (instance V).
Notation dflt := (@PList V []).

(** * C135: ways of writing states *)

(** The same state written in two ways (numbers, arrays, lists; nested dictionaries or names 'a/b') gives the same result. *)
Theorem C135_state : forall n T i p q internals deterministic, i < n -> table V n T -> fits V states_spec T ->
  writes_state p (instance i T) -> writes_state q (instance i T) ->
  act p internals deterministic = act q internals deterministic.
Proof. intros. eapply act_same; eauto. Qed.

(** For a single state (no dictionary), a list of states and an array of states give the same result. *)
Theorem C135_array : forall n xs ps p deterministic, n <> 0 -> rows V n xs -> fits V states_spec (Leaf xs) -> length ps = n ->
  (forall i p, nth_error ps i = Some p -> writes V p (nth i xs (Arr [] []))) -> writes V p (pile V xs) ->
  act (PList ps) None deterministic = act p None deterministic.
Proof.
  intros n xs ps p det Hn Hx Hf HL Hw Hp.
  rewrite (act_none_list V conv one masking states_spec actions_spec internals_spec policy n Hn (Leaf xs) (table_leaf V n xs Hx) Hf ps det HL).
  - rewrite (act_none_arrays V conv one masking states_spec actions_spec internals_spec policy n Hn (Leaf xs) (table_leaf V n xs Hx) Hf p det); [reflexivity|].
    constructor. exact Hp.
  - intros i q Hq. constructor. apply Hw. exact Hq.
Qed.

(** The internals of one instance can be written in two ways. *)
Theorem C135_internals : forall n T i p q r I deterministic, i < n -> table V n T -> fits V states_spec T ->
  writes_state p (instance i T) -> writes_any q I -> writes_any r I ->
  act p (Some q) deterministic = act p (Some r) deterministic.
Proof.
  intros n T i p q r I det Hi HT Hf Hp Hq Hr. unfold act_independent. cbn [bind].
  rewrite (process_one_any V states_spec T n i p Hi HT Hf Hp). cbn [bind].
  rewrite (internals_one V I q Hq), (internals_one V I r Hr). reflexivity.
Qed.

(** * C136: acting on many instances is acting on each of them *)

Theorem C136_list : forall n T ps deterministic, n <> 0 -> rowwise V states_spec actions_spec internals_spec policy -> flat actions_spec = true ->
  table V n T -> fits V states_spec T -> length ps = n ->
  (forall i p, nth_error ps i = Some p -> writes_tree p (instance i T)) ->
  (forall os, act (PList ps) None deterministic = Ok (PList os, None) <->
              Forall2 (fun p o => act p None deterministic = Ok (o, None)) ps os) /\
  (forall o r, act (PList ps) None deterministic = Ok (o, r) -> r = None /\ exists os, o = PList os).
Proof.
  intros n T ps det Hn Hrow Hflat HT Hf HL Hw.
  rewrite (act_none_list V conv one masking states_spec actions_spec internals_spec policy n Hn T HT Hf ps det HL Hw).
  assert (One : forall i p, nth_error ps i = Some p ->
    act p None det = do _ <- start V internals_spec None; tail V conv one masking states_spec actions_spec internals_spec policy false 1 None (alone V i T) None det).
  { intros i p Hi. apply (act_none_one V conv one masking states_spec actions_spec internals_spec policy n T HT Hf).
    - rewrite <- HL. apply nth_error_Some. congruence.
    - left. apply Hw. exact Hi. }
  destruct (start V internals_spec None) as [[]|e] eqn:Es; cbn [bind] in *.
  2:{ split; [|discriminate]. intros os. split; [discriminate|]. intros H. destruct H as [|p o ps os Hp _]; [cbn in HL; lia|].
      rewrite (One 0 p eq_refl) in Hp. discriminate. }
  destruct (acts_both V conv one masking states_spec actions_spec internals_spec policy n Hn Hrow T HT None det Hflat) as [[A [N [H1 [H2 [H3 [H4 [H5 [H6 H7]]]]]]]]|[H1 H2]];
    [discriminate| |]; cbn [option_map] in *.
  - rewrite H5. split; [|intros o r E; apply ok_inj in E; injection E as <- <-; eauto].
    assert (F : Forall2 (fun p o => act p None det = Ok (o, None)) ps (map (fun i => one_value V i A) (seq 0 n))).
    { assert (G : forall l k, (forall i p, nth_error l i = Some p -> nth_error ps (k + i) = Some p) ->
         Forall2 (fun p o => act p None det = Ok (o, None)) l (map (fun i => one_value V i A) (seq k (length l)))).
      { induction l as [|p l IH]; intros k Hk; cbn [length seq map]; constructor.
        - pose proof (Hk 0 p eq_refl) as E. rewrite Nat.add_0_r in E. rewrite (One k p E). apply H7. rewrite <- HL. apply nth_error_Some. congruence.
        - apply IH. intros i q Hq. rewrite Nat.add_succ_comm. apply Hk. exact Hq. }
      rewrite <- HL. apply (G ps 0). auto. }
    intros os. split.
    + intros E. apply ok_inj in E. injection E as <-. exact F.
    + intros F'. f_equal. f_equal. f_equal. clear - F F'. revert os F'. induction F as [|p o ps os Hp _ IH]; intros os' F'; inversion F'; subst; [reflexivity|].
      f_equal; [congruence|]. apply IH. assumption.
  - split.
    + intros os. split; [intros E; exfalso; apply (H1 (Some true)); eexists; exact E|]. intros F. exfalso. apply H2. intros i Hi.
      destruct (nth_error ps i) as [p|] eqn:Ep; [|apply nth_error_None in Ep; lia].
      assert (exists o, act p None det = Ok (o, None)) as [o Ho].
      { clear - F Ep. revert i Ep. induction F as [|q o ps os Hq _ IH]; intros [|i] Ep; cbn in Ep; try discriminate; [apply some_inj in Ep; subst; eauto|eauto]. }
      rewrite (One i p Ep) in Ho. eexists. exact Ho.
    + intros o r E. exfalso. apply (H1 (Some true)). eexists. exact E.
Qed.

(** States as one dictionary of arrays: the actions are a dictionary of arrays, whose rows are those of the single instances *)
Theorem C136_arrays : forall n d p deterministic, n <> 0 -> rowwise V states_spec actions_spec internals_spec policy -> flat actions_spec = true ->
  table V n (Dict d) -> fits V states_spec (Dict d) -> writes_tree p (piled V (Dict d)) ->
  ((exists o, act p None deterministic = Ok o) <->
   (forall i q, i < n -> writes_state q (instance i (Dict d)) -> exists o, act q None deterministic = Ok o)) /\
  (forall o r, act p None deterministic = Ok (o, r) -> r = None /\ exists A, o = batch_value V A /\ even V n A /\ like actions_spec A /\
   forall i q, i < n -> writes_state q (instance i (Dict d)) -> act q None deterministic = Ok (one_value V i A, None)).
Proof.
  intros n d p det Hn Hrow Hflat HT Hf Hw.
  rewrite (act_none_arrays V conv one masking states_spec actions_spec internals_spec policy n Hn (Dict d) HT Hf p det Hw).
  assert (One : forall i q, i < n -> writes_state q (instance i (Dict d)) ->
    act q None det = do _ <- start V internals_spec None; tail V conv one masking states_spec actions_spec internals_spec policy false 1 None (alone V i (Dict d)) None det).
  { intros i q Hi Hq. apply (act_none_one V conv one masking states_spec actions_spec internals_spec policy n (Dict d) HT Hf); assumption. }
  assert (Exq : forall i, i < n -> exists q, writes_state q (instance i (Dict d))).
  { intros i Hi. exists (nested V i (Dict d)). left. apply nested_writes. clear - HT. revert HT. generalize (Dict d). apply (table_ind' n); [constructor|].
    intros e Hnd _ IH. constructor; assumption. }
  destruct (start V internals_spec None) as [[]|e] eqn:Es; cbn [bind] in *.
  2:{ split; [|discriminate]. split; [intros [o E]; discriminate|]. intros H. destruct (Exq 0 ltac:(lia)) as [q Hq].
      destruct (H 0 q ltac:(lia) Hq) as [o E]. rewrite (One 0 q ltac:(lia) Hq) in E. discriminate. }
  destruct (acts_both V conv one masking states_spec actions_spec internals_spec policy n Hn Hrow (Dict d) HT None det Hflat) as [[A [N [H1 [H2 [H3 [H4 [H5 [H6 H7]]]]]]]]|[H1 H2]];
    [discriminate| |]; cbn [option_map] in *.
  - rewrite H6. split.
    + split; [|intros _; eauto]. intros _ i q Hi Hq. rewrite (One i q Hi Hq), (H7 i Hi). eauto.
    + intros o r E. apply ok_inj in E. injection E as <- <-. split; [reflexivity|]. exists A. repeat split; auto.
      intros i q Hi Hq. rewrite (One i q Hi Hq). apply H7. exact Hi.
  - split.
    + split; [intros [o E]; exfalso; apply (H1 (Some false)); eexists; exact E|]. intros H. exfalso. apply H2. intros i Hi.
      destruct (Exq i Hi) as [q Hq]. destruct (H i q Hi Hq) as [o Ho]. rewrite (One i q Hi Hq) in Ho. eexists. exact Ho.
    + intros o r E. exfalso. apply (H1 (Some false)). eexists. exact E.
Qed.

(** * C137: internals *)

(** * C137: internals *)

(** One step with many instances: it is done if it can be done with every instance, the actions are those of the
    single instances, and the next internals are the same, written as dictionaries with full names in one case
    and as nested dictionaries in the other. *)
Theorem C137_step : forall n T I ps qs deterministic, n <> 0 -> rowwise V states_spec actions_spec internals_spec policy -> flat actions_spec = true ->
  distinct internals_spec -> inside no_empty internals_spec -> (exists d, internals_spec = Dict d) ->
  table V n T -> fits V states_spec T -> length ps = n -> (forall i p, nth_error ps i = Some p -> writes_tree p (instance i T)) ->
  table V n I -> (exists d, I = Dict d) -> length qs = n -> (forall i q, nth_error qs i = Some q -> writes_any q (instance i I)) ->
  ((exists x, act (PList ps) (Some (PList qs)) deterministic = Ok x) <->
   (forall i p q, nth_error ps i = Some p -> nth_error qs i = Some q -> exists x, act p (Some q) deterministic = Ok x)) /\
  (forall o r, act (PList ps) (Some (PList qs)) deterministic = Ok (o, r) ->
   exists os rs R, o = PList os /\ r = Some (PList rs) /\ length os = n /\ length rs = n /\
     forall i p q o r, nth_error ps i = Some p -> nth_error qs i = Some q -> nth_error os i = Some o -> nth_error rs i = Some r ->
     writes_any r (instance i R) /\ exists s, act p (Some q) deterministic = Ok (o, Some s) /\ writes_any s (instance i R)).
Proof.
  intros n T I ps qs det Hn Hrow Hflat Hd Hi HD HT Hf HL Hw HI HDI HLq Hq.
  destruct (step V conv one masking states_spec actions_spec internals_spec policy (conj Hrow (conj Hflat (conj Hd (conj Hi HD)))) n T I ps qs (fun i => nth i qs dflt) det Hn HT Hf HL Hw HI HDI HLq Hq)
    as [[os [rs [ss [R [E [Lo [Lr [TR [DR [Wr [Ws One]]]]]]]]]]]|[E One]].
  - intros i Hi'. apply Hq. apply nth_error_nth'. rewrite HLq. exact Hi'.
  - rewrite E. split.
    + split; [|eauto]. intros _ i p q Hp Hq'.
      assert (Hi' : i < length os) by (rewrite Lo, <- HL; apply nth_error_Some; congruence).
      destruct (nth_error os i) as [o|] eqn:Eo; [|apply nth_error_None in Eo; lia].
      pose proof (One i p o Hp Eo) as X. rewrite (nth_error_nth _ _ _ Hq') in X. eauto.
    + intros o r X. apply ok_inj in X. injection X as <- <-. exists os, rs, R. split; [reflexivity|]. split; [reflexivity|]. split; [exact Lo|]. split; [exact Lr|].
      intros i p q o r H H0 H1 H2. split; [apply (Wr i); assumption|].
      exists (ss i). split.
      * pose proof (One i p o H H1) as X. rewrite (nth_error_nth _ _ _ H0) in X. exact X.
      * apply Ws. rewrite <- HL. apply nth_error_Some. congruence.
  - split.
    + split; [intros [x X]; exfalso; apply E; exists x; exact X|]. intros H. exfalso. apply One. intros i p Hp.
      assert (Hi' : i < length qs) by (rewrite HLq, <- HL; apply nth_error_Some; congruence).
      destruct (H i p (nth i qs dflt) Hp) as [x X]; [apply nth_error_nth'; exact Hi'|]. exists x. exact X.
    + intros o r X. exfalso. apply E. eexists. exact X.
Qed.

(** Several steps with many instances are the steps of the single instances. *)
Theorem C137_steps : forall n deterministic, n <> 0 -> rowwise V states_spec actions_spec internals_spec policy -> flat actions_spec = true ->
  distinct internals_spec -> inside no_empty internals_spec -> (exists d, internals_spec = Dict d) ->
  forall steps Ts, Forall2 (fun ps T => table V n T /\ fits V states_spec T /\ length ps = n /\
                                        forall i p, nth_error ps i = Some p -> writes_tree p (instance i T)) steps Ts ->
  forall I qs outs, table V n I -> (exists d, I = Dict d) -> length qs = n -> (forall i q, nth_error qs i = Some q -> writes_any q (instance i I)) ->
  episode V (fun p q => act p q deterministic) (map PList steps) (PList qs) outs ->
  exists oss, outs = map PList oss /\
    forall i, i < n -> episode V (fun p q => act p q deterministic) (map (fun ps => nth i ps dflt) steps) (nth i qs dflt) (map (fun os => nth i os dflt) oss).
Proof.
  intros n det Hn Hrow Hflat Hd Hi HD steps Ts HS.
  assert (G : forall I qs qs' outs, table V n I -> (exists d, I = Dict d) -> length qs = n -> (forall i q, nth_error qs i = Some q -> writes_any q (instance i I)) ->
    (forall i, i < n -> writes_any (qs' i) (instance i I)) ->
    episode V (fun p q => act p q det) (map PList steps) (PList qs) outs ->
    exists oss, outs = map PList oss /\
      forall i, i < n -> episode V (fun p q => act p q det) (map (fun ps => nth i ps dflt) steps) (qs' i) (map (fun os => nth i os dflt) oss)).
  { induction HS as [|ps T steps Ts [HT [Hf [HL Hw]]] _ IH]; intros I qs qs' outs HI HDI HLq Hq Hq' HE.
    - inversion HE; subst. exists []. split; [reflexivity|]. intros i _. constructor.
    - cbn [map] in HE. revert HL HLq. inversion HE as [|? ? ? r o os X HE']; subst. intros HL HLq.
      destruct (step V conv one masking states_spec actions_spec internals_spec policy (conj Hrow (conj Hflat (conj Hd (conj Hi HD)))) n T I ps qs qs' det Hn HT Hf HL Hw HI HDI HLq Hq Hq')
        as [[os0 [rs [ss [R [E [Lo [Lr [TR [DR [Wr [Ws One]]]]]]]]]]]|[E One]].
      + rewrite E in X. apply ok_inj in X. injection X as <- <-.
        destruct (IH R rs ss os TR DR Lr Wr Ws HE') as [oss [-> Ep]]. exists (os0 :: oss). split; [reflexivity|]. intros i Hi'. cbn [map].
        apply episode_step with (r := ss i); [|apply Ep; exact Hi'].
        apply One; apply nth_error_nth'; lia.
      + exfalso. apply E. eexists. exact X. }
  intros I qs outs HI HDI HLq Hq. apply (G I qs (fun i => nth i qs dflt) outs HI HDI HLq Hq).
  intros i Hi'. apply Hq. apply nth_error_nth'. lia.
Qed.

(** Internals that are not specified are ignored, a missing one is an error. *)
Theorem C137_extra : forall n T i p q r d e deterministic, i < n -> table V n T -> fits V states_spec T -> writes_state p (instance i T) ->
  writes_any q (Dict d) -> writes_any r (Dict (d ++ e)) ->
  (forall k, In k (map fst e) -> match internals_spec with Dict s => ~ In k (map fst s) | Leaf _ => False end) ->
  act p (Some r) deterministic = act p (Some q) deterministic.
Proof.
  intros n T i p q r d e det Hi HT Hf Hp Hq Hr He. unfold act_independent. cbn [bind].
  rewrite (process_one_any V states_spec T n i p Hi HT Hf Hp). cbn [bind].
  rewrite (internals_one V _ q Hq), (internals_one V _ r Hr). cbn [bind].
  assert (E : to_tensors_rec (to_tensor V conv) internals_spec (tmap expand (Dict (d ++ e))) = to_tensors_rec (to_tensor V conv) internals_spec (tmap expand (Dict d))).
  { rewrite !to_tensors_rec_tmap. destruct internals_spec as [l|s].
    - reflexivity.
    - rewrite !to_tensors_rec_dict. f_equal. apply map_res_ext. intros ks Hks. unfold rec_child.
      replace (dget (fst ks) (d ++ e)) with (dget (fst ks) d); [reflexivity|]. assert (Hn : ~ In (fst ks) (map fst e)).
      { intros Hin. apply (He _ Hin). apply in_map. exact Hks. }
      clear - Hn. induction d as [|[k x] d IH]; cbn; [symmetry; apply dget_none; exact Hn|]. destruct (String.eqb (fst ks) k); [reflexivity|exact IH]. }
  rewrite E. reflexivity.
Qed.
Theorem C137_missing : forall n T i p q d k deterministic, i < n -> table V n T -> fits V states_spec T -> writes_state p (instance i T) ->
  writes_any q (Dict d) -> (exists s l, internals_spec = Dict s /\ In (k, Leaf l) s) -> ~ In k (map fst d) ->
  exists e, act p (Some q) deterministic = Err e.
Proof.
  intros n T i p q d k det Hi HT Hf Hp Hq [s [l [Es Hin]]] Hk. unfold act_independent. cbn [bind].
  rewrite (process_one_any V states_spec T n i p Hi HT Hf Hp). cbn [bind]. rewrite (internals_one V _ q Hq). cbn [bind].
  destruct (model_inputs _ _ _ _ _ _ _ _); [|eexists; reflexivity]. cbn [bind].
  destruct (to_tensors_rec _ _ _) as [u|e] eqn:E; [|eexists; reflexivity]. exfalso.
  rewrite Es, to_tensors_rec_tmap, to_tensors_rec_dict in E. apply bind_ok in E. destruct E as [ys [E _]].
  destruct (map_res_is_ok_inv _ s (k, Leaf l) (ex_intro _ ys E) Hin) as [y Y]. unfold rec_child in Y. cbn [fst snd] in Y.
  rewrite dget_none in Y by exact Hk. discriminate.
Qed.
End Acts.

(** * Examples *)

(** A policy: all actions and internals are the sum of the entries of the instance's states, internals and masks *)
Definition total (n : nat) (l : list (arr Z)) : arr Z :=
  Arr [n] (map (fun i => fold_right (fun a s => (fold_right Z.add 0 (data (row a i)) + s)%Z) 0%Z l) (seq 0 n)).
Definition sum_policy (actions internals : tree leaf) (S I : tree (arr Z)) (M : list (list string * arr Z)) (deterministic : bool)
  : tree (arr Z) * tree (arr Z) :=
  let n := match leaves S with a :: _ => hd 0 (shape a) | [] => 0 end in
  (tmap (fun _ => total n (leaves S ++ leaves I ++ map snd M)) actions, tmap (fun _ => total n (leaves S ++ leaves I ++ map snd M)) internals).

Definition total_of (l : list (list (arr Z))) (i : nat) : Z :=
  fold_right (fun xs s => (fold_right Z.add 0 (data (nth i xs (Arr [] []))) + s)%Z) 0%Z l.
Lemma pile_numbers : forall (f : nat -> Z) n, n <> 0 -> pile Z (map (fun i => Arr [] [f i]) (seq 0 n)) = Arr [n] (map f (seq 0 n)).
Proof.
  intros f n Hn. unfold pile. rewrite map_length, seq_length, map_map. destruct n as [|n]; [congruence|]. cbn [seq map shape data]. f_equal.
  cbn [concat app]. f_equal. induction (seq 1 n) as [|k l IH]; [reflexivity|]. cbn. f_equal. exact IH.
Qed.
Lemma total_piled : forall n l, Forall (rows Z n) l -> total n (map (pile Z) l) = Arr [n] (map (total_of l) (seq 0 n)).
Proof.
  intros n l H. unfold total. f_equal. apply map_ext_in. intros i Hi. apply in_seq in Hi. unfold total_of.
  induction H as [|xs l Hx _ IH]; [reflexivity|]. cbn [map fold_right]. rewrite (row_pile n) by (auto; lia). rewrite IH. reflexivity.
Qed.
Lemma total_alone : forall n l i, Forall (rows Z n) l -> i < n -> total 1 (map (fun xs => expand (nth i xs (Arr [] []))) l) = Arr [1] [total_of l i].
Proof.
  intros n l i H Hi. unfold total. cbn [seq map]. f_equal. f_equal. unfold total_of.
  induction H as [|xs l Hx _ IH]; [reflexivity|]. cbn [map fold_right]. rewrite row_expand by (eapply row_wf; eauto). rewrite IH. reflexivity.
Qed.
Lemma sum_rowwise : forall states actions internals, leaves states <> [] -> rowwise Z states actions internals (sum_policy actions internals).
Proof.
  intros states actions internals Hs n S I M det Hn HL HS HI HM.
  set (all := leaves S ++ leaves I ++ map snd M).
  assert (HSI : Forall (rows Z n) all).
  { apply Forall_app; split; [assumption|]. apply Forall_app; split; [assumption|]. apply Forall_map. exact HM. }
  assert (Hlen : exists x r, leaves S = x :: r).
  { unfold like in HL. assert (E : length (leaves states) = length (leaves S)).
    { apply (f_equal leaves) in HL. rewrite !leaves_tmap in HL. apply (f_equal (@length _)) in HL. rewrite !map_length in HL. exact HL. }
    destruct (leaves S) as [|x r]; [destruct (leaves states); [congruence|discriminate]|eauto]. }
  destruct Hlen as [x [r Ex]]. assert (Hx : rows Z n x) by (unfold even in HS; rewrite Ex in HS; inversion HS; assumption).
  set (col := map (fun i => Arr [] [total_of all i]) (seq 0 n)).
  assert (Rc : rows Z n col).
  { split; [unfold col; rewrite map_length, seq_length; reflexivity|]. exists []. intros y Hy. unfold col in Hy. apply in_map_iff in Hy. destruct Hy as [i [<- _]]. split; reflexivity. }
  assert (Ec : forall t : tree leaf, even Z n (tmap (fun _ => col) t)).
  { intros t. unfold even. rewrite leaves_tmap. apply Forall_forall. intros y Hy. apply in_map_iff in Hy. destruct Hy as [l [<- _]]. exact Rc. }
  assert (Ln : forall t : tree leaf, like t (tmap (fun _ => col) t)) by (intros t; apply like_tmap; reflexivity).
  exists (tmap (fun _ => col) actions), (tmap (fun _ => col) internals). repeat split; try apply Ec; try apply Ln.
  - unfold sum_policy. cbv zeta. rewrite !piled_tmap, !leaves_tmap.
    assert (En : match map (pile Z) (leaves S) with a :: _ => hd 0 (shape a) | [] => 0 end = n) by (rewrite Ex; cbn; destruct Hx as [<- _]; reflexivity).
    assert (Ea : map (pile Z) (leaves S) ++ map (pile Z) (leaves I) ++ map snd (map (fun pm => (fst pm, pile Z (snd pm))) M) = map (pile Z) all).
    { unfold all. rewrite !map_app, !map_map. reflexivity. }
    rewrite En, Ea, total_piled by exact HSI.
    rewrite !tmap_tmap. unfold col. rewrite <- pile_numbers by exact Hn. reflexivity.
  - intros i Hi. unfold sum_policy. cbv zeta. rewrite !alone_tmap, !leaves_tmap.
    assert (En : match map (fun xs => expand (nth i xs (Arr [] []))) (leaves S) with a :: _ => hd 0 (shape a) | [] => 0 end = 1) by (rewrite Ex; reflexivity).
    assert (Ea : map (fun xs => expand (nth i xs (Arr [] []))) (leaves S) ++ map (fun xs => expand (nth i xs (Arr [] []))) (leaves I) ++
                 map snd (map (fun pm => (fst pm, pile Z [nth i (snd pm) (Arr [] [])])) M) = map (fun xs => expand (nth i xs (Arr [] []))) all).
    { unfold all. rewrite !map_app, !map_map. f_equal. f_equal. apply map_ext. intros pm. rewrite expand_pile. reflexivity. }
    rewrite En, Ea, (total_alone n) by assumption.
    rewrite !tmap_tmap. replace (nth i col (Arr [] [])) with (Arr [] [total_of all i]); [reflexivity|].
    unfold col. rewrite (nth_indep _ _ (Arr [] [total_of all 0])) by (rewrite map_length, seq_length; exact Hi).
    rewrite (map_nth (fun i => Arr [] [total_of all i])), seq_nth by exact Hi. reflexivity.
Qed.

(** Two instances of a state {'s': [.., ..]} *)
Definition num : leaf := mkLeaf [] None.
Definition ex_spec : tree leaf := Dict [("s"%string, Leaf (mkLeaf [2] None))].
Definition ex_table : tree (list (arr Z)) := Dict [("s"%string, Leaf [Arr [2] [1; 2]%Z; Arr [2] [3; 4]%Z])].
Definition ex_list : list (pv Z) :=
  [PDict [(["s"%string], PList [PNum 1%Z; PNum 2%Z])]; PDict [(["s"%string], PArr (Arr [2] [3; 4]%Z))]].
Definition ex_arrays : pv Z := PDict [(["s"%string], PList [PArr (Arr [2] [1; 2]%Z); PList [PNum 3%Z; PNum 4%Z]])].
Definition any (l : leaf) (v : Z) : option Z := Some v.

Lemma ex_table_ok : table Z 2 ex_table /\ fits Z ex_spec ex_table.
Proof.
  split.
  - constructor; [repeat constructor; intros []|]. repeat constructor. exists [2]. intros x [<-|[<-|[]]]; split; reflexivity.
  - exists ["s"%string], (mkLeaf [2] None), [Arr [2] [1; 2]%Z; Arr [2] [3; 4]%Z]. repeat split. intros x [<-|[<-|[]]]; reflexivity.
Qed.
Lemma ex_numbers : forall a b, writes Z (PList [PNum a; PNum b]) (Arr [2] [a; b]).
Proof.
  intros a b. apply (writes_list Z [PNum a; PNum b] [Arr [] [a]; Arr [] [b]] []); [discriminate|repeat constructor|].
  intros x [<-|[<-|[]]]; reflexivity.
Qed.
Lemma ex_list_ok : forall i p, nth_error ex_list i = Some p -> writes_tree Z p (instance Z i ex_table).
Proof.
  intros [|[|[|]]] p E; try discriminate; cbn in E; apply some_inj in E; subst p; cbn; apply writes_dict; try (constructor; [intros []|constructor]).
  - constructor; [|constructor]. split; [reflexivity|]. apply writes_leaf. apply ex_numbers.
  - constructor; [|constructor]. split; [reflexivity|]. apply writes_leaf. constructor.
Qed.
Lemma ex_arrays_ok : writes_tree Z ex_arrays (piled Z ex_table).
Proof.
  constructor; [repeat constructor; intros []|]. constructor; [|constructor]. split; [reflexivity|]. constructor.
  apply (writes_list Z [PArr (Arr [2] [1; 2]%Z); PList [PNum 3%Z; PNum 4%Z]] [Arr [2] [1; 2]%Z; Arr [2] [3; 4]%Z] [2]); [discriminate| |].
  - constructor; [constructor|]. constructor; [apply ex_numbers|constructor].
  - intros x [<-|[<-|[]]]; reflexivity.
Qed.

Example C135_state_case : writes_state Z (PDict [(["x"%string], PDict [(["y"%string], PNum 1%Z)])]) (Dict [("x"%string, Dict [("y"%string, Leaf (Arr [] [1%Z]))])]) /\
  writes_state Z (PDict [(["x"; "y"]%string, PArr (Arr [] [1%Z]))]) (Dict [("x"%string, Dict [("y"%string, Leaf (Arr [] [1%Z]))])]).
Proof.
  split.
  - left. constructor; [repeat constructor; intros []|]. constructor; [|constructor]. split; [reflexivity|]. cbn. constructor; [repeat constructor; intros []|].
    constructor; [|constructor]. split; [reflexivity|]. constructor. constructor.
  - right. split; [|split].
    + split; [eexists; reflexivity|]. eexists. split; [reflexivity|]. repeat constructor.
    + repeat constructor; intros [].
    + repeat constructor; discriminate.
Qed.
Example C135_array_case : rows Z 2 [Arr [2] [1; 2]%Z; Arr [2] [3; 4]%Z] /\
  writes Z (PArr (Arr [2; 2] [1; 2; 3; 4]%Z)) (pile Z [Arr [2] [1; 2]%Z; Arr [2] [3; 4]%Z]) /\
  act_independent Z any 1%Z false (Leaf (mkLeaf [2] None)) (Leaf num) (Dict []) (sum_policy (Leaf num) (Dict [])) (PArr (Arr [2; 2] [1; 2; 3; 4]%Z)) None true =
  Ok (PList [PNum 3%Z; PNum 7%Z], None).
Proof.
  split; [|split; [constructor|reflexivity]]. split; [reflexivity|]. exists [2]. intros x [<-|[<-|[]]]; split; reflexivity.
Qed.

Example C136_list_case :
  rowwise Z ex_spec (Leaf num) (Dict []) (sum_policy (Leaf num) (Dict [])) /\ table Z 2 ex_table /\ fits Z ex_spec ex_table /\
  (forall i p, nth_error ex_list i = Some p -> writes_tree Z p (instance Z i ex_table)) /\
  act_independent Z any 1%Z false ex_spec (Leaf num) (Dict []) (sum_policy (Leaf num) (Dict [])) (PList ex_list) None true = Ok (PList [PNum 3%Z; PNum 7%Z], None).
Proof.
  split; [apply sum_rowwise; discriminate|]. split; [apply ex_table_ok|]. split; [apply ex_table_ok|]. split; [exact ex_list_ok|reflexivity].
Qed.
Example C136_arrays_case : writes_tree Z ex_arrays (piled Z ex_table) /\
  act_independent Z any 1%Z false ex_spec (Leaf num) (Dict []) (sum_policy (Leaf num) (Dict [])) ex_arrays None true = Ok (PArr (Arr [2] [3; 7]%Z), None).
Proof. split; [exact ex_arrays_ok|reflexivity]. Qed.

(** Nested actions: a list of states gives names 'a/b', a single state nested dictionaries. *)
Theorem C136_nested_refuted : exists states actions policy p o, rowwise Z states actions (Dict []) policy /\
  act_independent Z any 1%Z false states actions (Dict []) policy (PList [p]) None true = Ok (PList [o], None) /\
  act_independent Z any 1%Z false states actions (Dict []) policy p None true <> Ok (o, None).
Proof.
  exists ex_spec, (Dict [("a"%string, Dict [("b"%string, Leaf num)])]), (sum_policy (Dict [("a"%string, Dict [("b"%string, Leaf num)])]) (Dict [])), (PDict [(["s"%string], PArr (Arr [2] [3; 4]%Z))]).
  eexists. split; [apply sum_rowwise; discriminate|]. split; [reflexivity|]. cbn. discriminate.
Qed.

(** A mask that is missing in the first state of a list is ignored in the others. *)
Theorem C136_mask_refuted : exists states actions policy p q a b c, rowwise Z states actions (Dict []) policy /\
  act_independent Z any 1%Z true states actions (Dict []) policy (PList [p; q]) None true = Ok (PList [a; b], None) /\
  act_independent Z any 1%Z true states actions (Dict []) policy q None true = Ok (c, None) /\ c <> b.
Proof.
  exists ex_spec, (Leaf (mkLeaf [] (Some 2))), (sum_policy (Leaf (mkLeaf [] (Some 2))) (Dict [])), (PDict [(["s"%string], PArr (Arr [2] [3; 4]%Z))]),
    (PDict [(["s"%string], PArr (Arr [2] [3; 4]%Z)); (["action_mask"%string], PArr (Arr [2] [0; 1]%Z))]).
  do 3 eexists. split; [apply sum_rowwise; discriminate|]. split; [reflexivity|]. split; [reflexivity|]. discriminate.
Qed.

(** The agent with the internal 'a/m' *)
Definition ex_internals : tree leaf := Dict [("a"%string, Dict [("m"%string, Leaf num)])].
Definition ex_memory : tree (list (arr Z)) := Dict [("a"%string, Dict [("m"%string, Leaf [Arr [] [10%Z]; Arr [] [20%Z]])])].
Definition ex_memories : list (pv Z) := [PDict [(["a"%string], PDict [(["m"%string], PNum 10%Z)])]; PDict [(["a"; "m"]%string, PNum 20%Z)]].
Example C137_step_case :
  rowwise Z ex_spec (Leaf num) ex_internals (sum_policy (Leaf num) ex_internals) /\ distinct ex_internals /\ inside no_empty ex_internals /\
  table Z 2 ex_memory /\ (forall i q, nth_error ex_memories i = Some q -> writes_any Z q (instance Z i ex_memory)) /\
  act_independent Z any 1%Z false ex_spec (Leaf num) ex_internals (sum_policy (Leaf num) ex_internals) (PList ex_list) (Some (PList ex_memories)) true =
  Ok (PList [PNum 13%Z; PNum 27%Z], Some (PList [PDict [(["a"; "m"]%string, PNum 13%Z)]; PDict [(["a"; "m"]%string, PNum 27%Z)]])).
Proof.
  split; [apply sum_rowwise; discriminate|]. split; [repeat constructor; intros []|]. split; [repeat constructor; discriminate|].
  split; [|split; [|reflexivity]].
  - repeat constructor; try intros []. exists []. intros x [<-|[<-|[]]]; split; reflexivity.
  - intros [|[|[|]]] q E; try discriminate; cbn in E; apply some_inj in E; subst q; split; try (eexists; reflexivity); [left|right].
    + constructor; [repeat constructor; intros []|]. constructor; [|constructor]. split; [reflexivity|]. cbn. constructor; [repeat constructor; intros []|].
      constructor; [|constructor]. split; [reflexivity|]. constructor. constructor.
    + split; [|split].
      * split; [eexists; reflexivity|]. eexists. split; [reflexivity|]. repeat constructor.
      * repeat constructor; intros [].
      * repeat constructor; discriminate.
Qed.
Example C137_steps_case : exists outs,
  episode Z (fun p q => act_independent Z any 1%Z false ex_spec (Leaf num) ex_internals (sum_policy (Leaf num) ex_internals) p q true)
    [PList ex_list; PList ex_list] (PList ex_memories) outs /\ outs = [PList [PNum 13%Z; PNum 27%Z]; PList [PNum 16%Z; PNum 34%Z]].
Proof. eexists. split; [|reflexivity]. eapply episode_step; [reflexivity|]. eapply episode_step; [reflexivity|]. constructor. Qed.
Example C137_extra_case :
  act_independent Z any 1%Z false ex_spec (Leaf num) ex_internals (sum_policy (Leaf num) ex_internals) (hd (PList []) ex_list)
    (Some (PDict [(["a"; "m"]%string, PNum 20%Z); (["b"%string], PNum 5%Z)])) true = Ok (PNum 23%Z, Some (PDict [(["a"%string], PDict [(["m"%string], PNum 23%Z)])])).
Proof. reflexivity. Qed.
Example C137_missing_case :
  act_independent Z any 1%Z false ex_spec (Leaf num) (Dict [("m"%string, Leaf num)]) (sum_policy (Leaf num) (Dict [("m"%string, Leaf num)])) (hd (PList []) ex_list)
    (Some (PDict [(["n"%string], PNum 20%Z)])) true = Err "AssertionError".
Proof. reflexivity. Qed.

Example C135_internals_case :
  act_independent Z any 1%Z false ex_spec (Leaf num) ex_internals (sum_policy (Leaf num) ex_internals) (hd (PList []) ex_list)
    (Some (PDict [(["a"; "m"]%string, PNum 20%Z)])) true =
  act_independent Z any 1%Z false ex_spec (Leaf num) ex_internals (sum_policy (Leaf num) ex_internals) (hd (PList []) ex_list)
    (Some (PDict [(["a"%string], PDict [(["m"%string], PArr (Arr [] [20%Z]))])])) true /\
  writes_any Z (PDict [(["a"; "m"]%string, PNum 20%Z)]) (instance Z 1 ex_memory).
Proof.
  split; [reflexivity|]. split; [eexists; reflexivity|]. right. split; [|split].
  - split; [eexists; reflexivity|]. eexists. split; [reflexivity|]. repeat constructor.
  - repeat constructor; intros [].
  - repeat constructor; discriminate.
Qed.

Print Assumptions C135_state.
Print Assumptions C135_array.
Print Assumptions C135_internals.
Print Assumptions C136_list.
Print Assumptions C136_arrays.
Print Assumptions C136_nested_refuted.
Print Assumptions C136_mask_refuted.
Print Assumptions C137_step.
Print Assumptions C137_steps.
Print Assumptions C137_extra.
Print Assumptions C137_missing.
