(** Proofs about act in independent mode: acting on many instances is acting on each of them. *)

From Coq Require Import String List ZArith Bool Lia.
From Verif Require Import Base InpModel InpSpec InpProofs InpActProofs InpRowProofs InpOutProofs.
Import ListNotations.
Open Scope list_scope.
Open Scope nat_scope.

Section Batch.
Variable V : Type.
Variable conv : leaf -> V -> option V.
Variable one : V.
Variable masking : bool.
Variables states_spec actions_spec internals_spec : tree leaf.
Variable ia : tree (arr V) -> tree (arr V) -> list (list string * arr V) -> bool -> tree (arr V) * tree (arr V).
Notation act := (act_independent V conv one masking states_spec actions_spec internals_spec ia).
Notation model_inputs := (model_inputs V conv one masking states_spec actions_spec).
Notation inputs_rows := (inputs_rows V conv one masking states_spec actions_spec).
Notation has_internals := (has_internals internals_spec).
Notation to_tensor := (to_tensor V conv).
Notation conv_rows := (conv_rows V conv).

(** What follows the processing of the arguments *)
Definition tail (batched : bool) (n : nat) (iter : option bool) (t : tree (arr V)) (it : option (tree (arr V))) (det : bool)
  : res (pv V * option (pv V)) :=
  do sm <- model_inputs n t;
  do i <- match it with
          | None => Ok (Dict [])
          | Some i => to_tensors_rec to_tensor internals_spec i
          end;
  let out := ia (fst sm) i (snd sm) det in
  let next := if has_internals then snd out else i in
  Ok (unbatch_actions V batched n iter (fst out),
      match it with None => None | Some _ => Some (unbatch_internals V batched n iter next) end).

Definition start (internals : option (pv V)) : res unit :=
  match internals with
  | None => if has_internals then Err "TensorforceError: internals required" else Ok tt
  | Some _ => Ok tt
  end.
Lemma act_tail states internals det t b n iter it : process_states V states_spec states = Ok (t, b, n, iter) ->
  match internals with None => it = None | Some p => exists i, it = Some i /\ process_internals V b n iter p = Ok i end ->
  act states internals det = do _ <- start internals; tail b n iter t it det.
Proof.
  intros Hp Hi. unfold act_independent. fold (start internals). destruct (start internals); [|reflexivity]. cbn [bind]. rewrite Hp. cbn [bind].
  destruct internals as [p|]; [destruct Hi as [i [-> ->]]|subst it]; reflexivity.
Qed.

Section Fixed.
Variable n : nat.
Hypothesis Hn : n <> 0.
Hypothesis Hrow : rowwise V states_spec actions_spec internals_spec ia.
Variable T : tree (list (arr V)).
Hypothesis HT : even V n T.
Variable oI : option (tree (list (arr V))).
Hypothesis HI : forall I, oI = Some I -> even V n I.

Definition internals_rows : res (tree (list (arr V))) :=
  match oI with None => Ok (Dict []) | Some it => to_tensors_rec conv_rows internals_spec it end.

Lemma tail_ok det : is_ok (inputs_rows n T) -> is_ok internals_rows ->
  exists A N, even V n A /\ even V n N /\ like actions_spec A /\ (oI <> None -> like internals_spec N) /\
    (forall iter, tail true n iter (piled V T) (option_map (piled V) oI) det =
       Ok (unbatch_actions V true n iter (piled V A), option_map (fun _ => unbatch_internals V true n iter (piled V N)) oI)) /\
    forall i, i < n -> tail false 1 None (alone V i T) (option_map (alone V i) oI) det =
       Ok (nested V i A, option_map (fun _ => nested V i N) oI).
Proof.
  intros [[S M] HS] [J HJ]. destruct (inputs_ok V conv one masking states_spec actions_spec n Hn T HT S M HS) as [E0 [E1 [E2 [E3 E4]]]].
  assert (HJ' : even V n J /\ (oI <> None -> like internals_spec J) /\
    match option_map (piled V) oI with None => Ok (Dict []) | Some i => to_tensors_rec to_tensor internals_spec i end = Ok (piled V J) /\
    forall i, i < n -> match option_map (alone V i) oI with None => Ok (Dict []) | Some i => to_tensors_rec to_tensor internals_spec i end = Ok (alone V i J)).
  { unfold internals_rows in HJ. destruct oI as [I|]; cbn [option_map].
    - destruct (internals_ok V conv internals_spec n Hn I (HI I eq_refl) J HJ) as [F1 [F2 F3]]. split; [exact F1|]. split; [|split; assumption].
      intros _. eapply to_tensors_rec_like; exact HJ.
    - apply ok_inj in HJ. subst J. split; [constructor|]. split; [congruence|]. split; [reflexivity|]. reflexivity. }
  destruct HJ' as [F1 [F2 [F3 F4]]].
  destruct (Hrow n S J M det Hn E0 E1 F1 E2) as [A [J' [G1 [G2 [G3 [G4 [G5 G6]]]]]]].
  exists A, (if has_internals then J' else J). split; [exact G1|]. split; [destruct has_internals; assumption|]. split; [exact G3|].
  split; [destruct has_internals; auto|]. split.
  - intros iter. unfold tail. rewrite E3. cbn [bind]. rewrite F3. cbn [bind fst snd]. unfold pmap. rewrite G5. cbn [fst snd].
    destruct oI, has_internals; reflexivity.
  - intros i Hi. unfold tail. rewrite (E4 i Hi). cbn [bind]. rewrite (F4 i Hi). cbn [bind fst snd]. unfold pmap. rewrite (G6 i Hi). cbn [fst snd].
    unfold unbatch_actions, unbatch_internals. rewrite (alone_out V n i A G1 Hi).
    destruct oI; [|destruct has_internals; reflexivity]. cbn [option_map]. destruct has_internals; [rewrite (alone_out V n i J' G2 Hi)|rewrite (alone_out V n i J F1 Hi)]; reflexivity.
Qed.
Lemma tail_batch iter det : is_ok (tail true n iter (piled V T) (option_map (piled V) oI) det) -> is_ok (inputs_rows n T) /\ is_ok internals_rows.
Proof.
  intros H. unfold tail in H. apply is_ok_bind in H. destruct H as [sm [Hs H]]. split.
  - apply inputs_batch; [exact Hn|exact HT|]. exists sm; exact Hs.
  - unfold internals_rows. destruct oI as [I|]; [|exists (Dict []); reflexivity]. cbn [option_map] in H. apply is_ok_bind in H. destruct H as [j [Hj _]].
    eapply internals_batch; [exact Hn|exact (HI I eq_refl)|]. exists j; exact Hj.
Qed.
Lemma tail_each det : (forall i, i < n -> is_ok (tail false 1 None (alone V i T) (option_map (alone V i) oI) det)) -> is_ok (inputs_rows n T) /\ is_ok internals_rows.
Proof.
  intros H. split.
  - apply inputs_each; [exact Hn|exact HT|]. intros i Hi. specialize (H i Hi). unfold tail in H. apply is_ok_bind in H. destruct H as [sm [Hs _]]. exists sm; exact Hs.
  - unfold internals_rows. destruct oI as [I|]; [|exists (Dict []); reflexivity]. eapply internals_each; [exact Hn|exact (HI I eq_refl)|].
    intros i Hi. specialize (H i Hi). unfold tail in H. apply is_ok_bind in H. destruct H as [sm [_ H]]. cbn [option_map] in H.
    apply is_ok_bind in H. destruct H as [j [Hj _]]. exists j; exact Hj.
Qed.
End Fixed.

(** * Arguments *)

Lemma internals_list n I qs : n <> 0 -> table V n I -> length qs = n -> (exists d, I = Dict d) ->
  (forall i q, nth_error qs i = Some q -> writes_any V q (instance V i I)) ->
  forall iter, process_internals V true n iter (PList qs) = Ok (piled V I).
Proof.
  intros Hn Ht HL [d ->] Hw iter. destruct n as [|n]; [congruence|]. destruct qs as [|q0 qs]; [discriminate|]. unfold process_internals.
  rewrite (array_dict_any q0 (instance V 0 (Dict d))) by (apply Hw; reflexivity). cbn [bind].
  assert (E : map_res array_dict qs = Ok (map (fun i => instance V i (Dict d)) (seq 1 n))).
  { assert (G : forall qs k m, length qs = m -> (forall i q, nth_error qs i = Some q -> writes_any V q (instance V (k + i) (Dict d))) ->
        map_res array_dict qs = Ok (map (fun i => instance V i (Dict d)) (seq k m))).
    { clear. induction qs as [|q qs IH]; intros k m HL H; [subst m; reflexivity|]. destruct m as [|m]; [discriminate|]. cbn [map_res seq map].
      rewrite (array_dict_any q (instance V k (Dict d))) by (rewrite <- (Nat.add_0_r k); apply H; reflexivity). cbn [bind].
      rewrite (IH (S k) m); [reflexivity|cbn in HL; lia|]. intros i q' Hq. rewrite Nat.add_succ_comm. apply (H (S i)). exact Hq. }
    apply G; [cbn in HL; lia|]. intros i q Hq. apply (Hw (S i)). exact Hq. }
  rewrite E. cbn [bind]. rewrite (stack_instances n (Dict d) Ht). cbn [bind]. rewrite check_piled by exact Ht. reflexivity.
Qed.
Lemma internals_arrays n I q : table V n I -> writes_any V q (piled V I) -> process_internals V true n (Some false) q = Ok (piled V I).
Proof.
  intros Ht Hq. pose proof (array_dict_any _ _ Hq) as E. unfold process_internals. destruct q; try discriminate. rewrite E. cbn [bind].
  rewrite check_piled by exact Ht. reflexivity.
Qed.
Lemma check_expand (t : tree (arr V)) : check_rows V 1 (leaves (tmap expand t)) = Ok tt.
Proof. apply check_rows_all. rewrite leaves_tmap. intros x Hx. apply in_map_iff in Hx. destruct Hx as [y [<- _]]. reflexivity. Qed.
Lemma internals_one (I : tree (arr V)) q : writes_any V q I -> process_internals V false 1 None q = Ok (tmap expand I).
Proof.
  intros Hq. pose proof (array_dict_any _ _ Hq) as E. unfold process_internals. destruct q; try discriminate. rewrite E. cbn [bind].
  rewrite check_expand. reflexivity.
Qed.

(** * Many instances *)

Lemma tail_det_ok A N n iter oI : even V n A -> flat actions_spec = true -> like actions_spec A -> iter = Some true ->
  (unbatch_actions V true n iter (piled V A), option_map (fun _ : tree (list (arr V)) => unbatch_internals V true n iter (piled V N)) oI) =
  (PList (map (fun i => nested V i A) (seq 0 n)), option_map (fun _ => unbatch_dict V n iter (piled V N)) oI).
Proof.
  intros HA Hf HL ->. f_equal. rewrite (like_flat _ _ HL) in Hf. unfold unbatch_actions. destruct A as [xs|d]; cbn [piled].
  - f_equal. apply map_ext_in. intros i Hi. apply in_seq in Hi. unfold nested. cbn [tmap tree_pv]. rewrite item_or_value, (row_pile n); [reflexivity| |lia].
    unfold even in HA. cbn [leaves] in HA. inversion HA; assumption.
  - change (Dict (map (fun kt => (fst kt, piled V (snd kt))) d)) with (piled V (Dict d)). rewrite (list_out V n (Dict d) HA). f_equal.
    apply map_ext. intros i. apply flat_nested. exact Hf.
Qed.
End Batch.

(** * act on lists, arrays and single instances *)
Section Acts.
Variable V : Type.
Variable conv : leaf -> V -> option V.
Variable one : V.
Variable masking : bool.
Variables states_spec actions_spec internals_spec : tree leaf.
Variable ia : tree (arr V) -> tree (arr V) -> list (list string * arr V) -> bool -> tree (arr V) * tree (arr V).
Notation act := (act_independent V conv one masking states_spec actions_spec internals_spec ia).
Notation tail := (tail V conv one masking states_spec actions_spec internals_spec ia).
Notation A0 := (@Arr V [] []).

Lemma process_dict_any spec p q : is_dict V p = true -> is_dict V q = true -> array_dict p = array_dict q -> process_states V spec p = process_states V spec q.
Proof.
  intros Hp Hq E. destruct p; try discriminate. destruct q; try discriminate. unfold process_states.
  replace (is_single V spec (PDict d0)) with (is_single V spec (PDict d)) by (destruct spec; reflexivity). rewrite E. reflexivity.
Qed.
Lemma process_one_any spec t n i p : i < n -> table V n t -> fits V spec t -> writes_state V p (instance V i t) ->
  process_states V spec p = Ok (alone V i t, false, 1, None).
Proof.
  intros Hi Ht Hf [Hw|[Hw [H1 H2]]]; rewrite alone_expand; [eapply process_one; eauto|].
  assert (D : distinct t).
  { clear - Ht. revert t Ht. apply (table_ind' n); [constructor|]. intros d Hnd _ IH. constructor; assumption. }
  rewrite <- (process_one V spec t n i (nested V i t) Hi Ht Hf (nested_writes V i t D)).
  destruct t as [xs|d]; [destruct Hw as [[d E] _]; discriminate|].
  apply process_dict_any.
  - destruct Hw as [_ [ps [-> _]]]. reflexivity.
  - reflexivity.
  - rewrite (array_dict_flat _ _ Hw H1 H2). symmetry. apply (array_dict_writes _ (map (fun kt => (fst kt, instance V i (snd kt))) d)).
    apply (nested_writes V i (Dict d) D).
Qed.
Lemma act_same T n i p q x det : i < n -> table V n T -> fits V states_spec T -> writes_state V p (instance V i T) -> writes_state V q (instance V i T) ->
  act p x det = act q x det.
Proof.
  intros Hi Ht Hf Hp Hq. unfold act_independent. rewrite (process_one_any _ _ _ _ _ Hi Ht Hf Hp), (process_one_any _ _ _ _ _ Hi Ht Hf Hq). reflexivity.
Qed.

(** many instances *)
Section Many.
Variable n : nat.
Hypothesis Hn : n <> 0.
Hypothesis Hrow : rowwise V states_spec actions_spec internals_spec ia.
Variable T : tree (list (arr V)).
Hypothesis HT : table V n T.
Hypothesis Hfit : fits V states_spec T.

Lemma one_nested i A : flat A = true -> one_value V i A = nested V i A.
Proof. destruct A as [xs|d]; [reflexivity|]. intros H. apply (flat_nested V i d H). Qed.

Lemma act_none_list ps det : length ps = n -> (forall i p, nth_error ps i = Some p -> writes_tree V p (instance V i T)) ->
  act (PList ps) None det = do _ <- start V internals_spec None; tail true n (Some true) (piled V T) None det.
Proof.
  intros HL Hw. rewrite (act_tail V conv one masking states_spec actions_spec internals_spec ia (PList ps) None det _ _ _ _ None (process_list V states_spec T n ps Hn HT Hfit HL Hw) eq_refl). reflexivity.
Qed.
Lemma act_none_one i p det : i < n -> writes_state V p (instance V i T) ->
  act p None det = do _ <- start V internals_spec None; tail false 1 None (alone V i T) None det.
Proof. intros Hi Hw. rewrite (act_tail V conv one masking states_spec actions_spec internals_spec ia p None det _ _ _ _ None (process_one_any _ _ _ _ _ Hi HT Hfit Hw) eq_refl). reflexivity. Qed.
Lemma act_none_arrays p det : writes_tree V p (piled V T) ->
  act p None det = do _ <- start V internals_spec None; tail true n (Some match T with Leaf _ => true | Dict _ => false end) (piled V T) None det.
Proof.
  intros Hw. rewrite (act_tail V conv one masking states_spec actions_spec internals_spec ia p None det _ _ _ _ None (process_arrays V states_spec T n p Hn HT Hfit Hw) eq_refl). reflexivity.
Qed.

(** what acting on all, or on each, gives *)
Lemma acts_both oI det : flat actions_spec = true -> (forall It, oI = Some It -> even V n It) ->
  (exists A N, even V n A /\ like actions_spec A /\ even V n N /\ (oI <> None -> like internals_spec N) /\
     tail true n (Some true) (piled V T) (option_map (piled V) oI) det =
       Ok (PList (map (fun i => one_value V i A) (seq 0 n)), option_map (fun _ => PList (map (fun i => flatv V i N) (seq 0 n))) oI) /\
     tail true n (Some false) (piled V T) (option_map (piled V) oI) det = Ok (batch_value V A, option_map (fun _ => batchv V N) oI) /\
     forall i, i < n -> tail false 1 None (alone V i T) (option_map (alone V i) oI) det = Ok (one_value V i A, option_map (fun _ => nested V i N) oI)) \/
  ((forall iter, ~ is_ok (tail true n iter (piled V T) (option_map (piled V) oI) det)) /\
   ~ (forall i, i < n -> is_ok (tail false 1 None (alone V i T) (option_map (alone V i) oI) det))).
Proof.
  intros Hflat HI. pose proof (table_even n T HT) as HE.
  destruct (inputs_rows V conv one masking states_spec actions_spec n T) as [SM|e] eqn:E;
  [destruct (internals_rows V conv internals_spec oI) as [J|e] eqn:EJ|].
  - left. destruct (tail_ok V conv one masking states_spec actions_spec internals_spec ia n Hn Hrow T HE oI HI det) as [A [N [H1 [H2 [H3 [H4 [H5 H6]]]]]]];
      [exists SM; exact E|exists J; exact EJ|].
    pose proof (like_flat _ _ H3) as Hf. rewrite Hflat in Hf. symmetry in Hf.
    exists A, N. split; [exact H1|]. split; [exact H3|]. split; [exact H2|]. split; [exact H4|]. split; [|split].
    + rewrite H5. rewrite (tail_det_ok V actions_spec A N n (Some true) oI H1 Hflat H3 eq_refl). rewrite (list_out V n N H2). f_equal. f_equal. f_equal.
      apply map_ext. intros i. symmetry. apply one_nested. exact Hf.
    + rewrite H5. unfold unbatch_internals. rewrite dict_out. f_equal. f_equal. unfold unbatch_actions, batch_value. destruct A as [xs|d]; cbn [piled]; [reflexivity|].
      change (Dict (map (fun kt => (fst kt, piled V (snd kt))) d)) with (piled V (Dict d)). rewrite dict_out. reflexivity.
    + intros i Hi. rewrite (H6 i Hi), (one_nested i A Hf). reflexivity.
  - right. split.
    + intros iter H. destruct (tail_batch V conv one masking states_spec actions_spec internals_spec ia n Hn T HE oI HI iter det H) as [_ [x Hx]]. congruence.
    + intros H. destruct (tail_each V conv one masking states_spec actions_spec internals_spec ia n Hn T HE oI HI det H) as [_ [x Hx]]. congruence.
  - right. split.
    + intros iter H. destruct (tail_batch V conv one masking states_spec actions_spec internals_spec ia n Hn T HE oI HI iter det H) as [[x Hx] _]. congruence.
    + intros H. destruct (tail_each V conv one masking states_spec actions_spec internals_spec ia n Hn T HE oI HI det H) as [[x Hx] _]. congruence.
Qed.

(** with internals *)
Lemma act_some_list ps qs It det : length ps = n -> (forall i p, nth_error ps i = Some p -> writes_tree V p (instance V i T)) ->
  table V n It -> length qs = n -> (exists d, It = Dict d) -> (forall i q, nth_error qs i = Some q -> writes_any V q (instance V i It)) ->
  act (PList ps) (Some (PList qs)) det = tail true n (Some true) (piled V T) (Some (piled V It)) det.
Proof.
  intros HL Hw HTI HLq HD Hq. rewrite (act_tail V conv one masking states_spec actions_spec internals_spec ia (PList ps) (Some (PList qs)) det _ _ _ _ (Some (piled V It)) (process_list V states_spec T n ps Hn HT Hfit HL Hw)); [reflexivity|].
  exists (piled V It). split; [reflexivity|]. apply internals_list; assumption.
Qed.
Lemma act_some_one i p q It det : i < n -> writes_state V p (instance V i T) -> writes_any V q (instance V i It) ->
  act p (Some q) det = tail false 1 None (alone V i T) (Some (alone V i It)) det.
Proof.
  intros Hi Hw Hq. rewrite (act_tail V conv one masking states_spec actions_spec internals_spec ia p (Some q) det _ _ _ _ (Some (alone V i It)) (process_one_any _ _ _ _ _ Hi HT Hfit Hw)); [reflexivity|].
  exists (alone V i It). split; [reflexivity|]. rewrite alone_expand. apply internals_one. exact Hq.
Qed.
Lemma act_some_arrays p q d It det : T = Dict d -> writes_tree V p (piled V T) -> table V n It -> writes_any V q (piled V It) ->
  act p (Some q) det = tail true n (Some false) (piled V T) (Some (piled V It)) det.
Proof.
  intros E Hw HTI Hq. rewrite (act_tail V conv one masking states_spec actions_spec internals_spec ia p (Some q) det _ _ _ _ (Some (piled V It)) (process_arrays V states_spec T n p Hn HT Hfit Hw)).
  - rewrite E. reflexivity.
  - exists (piled V It). split; [reflexivity|]. rewrite E. apply internals_arrays; assumption.
Qed.
End Many.

Lemma even_table n : forall t, even V n t -> distinct t -> table V n t.
Proof.
  unfold even. induction t as [xs|d IH] using tree_rect'; intros He Hd; [constructor; inversion He; assumption|]. inversion Hd as [|? Hnd HF]; subst.
  constructor; [exact Hnd|]. rewrite Forall_forall in *. intros kt Hin. apply IH; [exact Hin| |apply HF; exact Hin].
  apply Forall_forall. intros xs Hx. apply He. cbn [leaves]. apply in_concat. exists (leaves (snd kt)). split; [|exact Hx].
  apply (in_map (fun kt => leaves (snd kt))). exact Hin.
Qed.
Lemma like_sym {A B} (s : tree A) (t : tree B) : like s t -> like t s.
Proof. unfold like. intros H. symmetry. exact H. Qed.
Lemma distinct_instance i t : distinct t -> distinct (instance V i t).
Proof. intros H. eapply like_distinct; [|exact H]. rewrite instance_tmap. apply like_tmap. reflexivity. Qed.
Lemma inside_instance i t : inside no_empty t -> inside no_empty (instance V i t).
Proof. intros H. eapply like_inside; [|exact H]. rewrite instance_tmap. apply like_tmap. reflexivity. Qed.
Lemma flatv_any i t : (exists d, t = Dict d) -> distinct t -> inside no_empty t -> writes_any V (flatv V i t) (instance V i t).
Proof.
  intros [d ->] Hd Hi. split; [eexists; reflexivity|]. right. split; [apply flatv_writes|]. split; [apply distinct_instance; exact Hd|apply inside_instance; exact Hi].
Qed.
Lemma nested_any i t : (exists d, t = Dict d) -> distinct t -> writes_any V (nested V i t) (instance V i t).
Proof. intros [d ->] Hd. split; [eexists; reflexivity|]. left. apply nested_writes. exact Hd. Qed.
Hypothesis agent_ok : rowwise V states_spec actions_spec internals_spec ia /\ flat actions_spec = true /\
  distinct internals_spec /\ inside no_empty internals_spec /\ exists d, internals_spec = Dict d.

(** One step with many instances: the next internals can be passed on as they are, in both cases *)
Lemma step n T I ps qs qs' det : n <> 0 -> table V n T -> fits V states_spec T -> length ps = n ->
  (forall i p, nth_error ps i = Some p -> writes_tree V p (instance V i T)) ->
  table V n I -> (exists d, I = Dict d) -> length qs = n -> (forall i q, nth_error qs i = Some q -> writes_any V q (instance V i I)) ->
  (forall i, i < n -> writes_any V (qs' i) (instance V i I)) ->
  (exists os rs ss R, act (PList ps) (Some (PList qs)) det = Ok (PList os, Some (PList rs)) /\ length os = n /\ length rs = n /\
     table V n R /\ (exists d, R = Dict d) /\
     (forall i r, nth_error rs i = Some r -> writes_any V r (instance V i R)) /\ (forall i, i < n -> writes_any V (ss i) (instance V i R)) /\
     forall i p o, nth_error ps i = Some p -> nth_error os i = Some o -> act p (Some (qs' i)) det = Ok (o, Some (ss i))) \/
  (~ is_ok (act (PList ps) (Some (PList qs)) det) /\ ~ (forall i p, nth_error ps i = Some p -> is_ok (act p (Some (qs' i)) det))).
Proof.
  intros Hn HT Hf HL Hw HI HD HLq Hq Hq'. destruct agent_ok as [Hrow [Hflat [Hdis [Hins Hdict]]]].
  rewrite (act_some_list n Hn T HT Hf ps qs I det HL Hw HI HLq HD Hq).
  assert (One : forall i p, nth_error ps i = Some p ->
    act p (Some (qs' i)) det = tail false 1 None (alone V i T) (Some (alone V i I)) det).
  { intros i p Hi. assert (i < n) by (rewrite <- HL; apply nth_error_Some; congruence).
    apply (act_some_one n T HT Hf i p (qs' i) I); [assumption|left; apply Hw; exact Hi|auto]. }
  destruct (acts_both n Hn Hrow T HT (Some I) det Hflat) as [[A [N [H1 [H2 [H3 [H4 [H5 [H6 H7]]]]]]]]|[H1 H2]];
    [intros It E; apply some_inj in E; subst It; apply table_even; exact HI| |]; cbn [option_map] in *.
  - left. specialize (H4 ltac:(discriminate)). pose proof (like_distinct _ _ H4 Hdis) as ND. pose proof (like_inside _ _ H4 Hins) as NI. pose proof (like_dict _ _ H4 Hdict) as NN.
    exists (map (fun i => one_value V i A) (seq 0 n)), (map (fun i => flatv V i N) (seq 0 n)), (fun i => nested V i N), N.
    assert (nth_map : forall B (f : nat -> B) i x, nth_error (map f (seq 0 n)) i = Some x -> i < n /\ x = f i).
    { intros B f i x E. assert (Hi : i < n) by (rewrite <- (seq_length n 0), <- (map_length f); apply nth_error_Some; congruence). split; [exact Hi|].
      apply (nth_error_nth _ _ x) in E. rewrite (nth_indep _ x (f 0)) in E by (rewrite map_length, seq_length; exact Hi). rewrite map_nth, seq_nth in E by exact Hi. symmetry. exact E. }
    split; [exact H5|]. split; [rewrite map_length, seq_length; reflexivity|]. split; [rewrite map_length, seq_length; reflexivity|].
    split; [apply even_table; assumption|]. split; [exact NN|]. split; [|split].
    + intros i r E. apply nth_map in E. destruct E as [_ ->]. apply flatv_any; assumption.
    + intros i Hi. apply nested_any; assumption.
    + intros i p o Hp Ho. apply nth_map in Ho. destruct Ho as [Hi ->]. rewrite (One i p Hp). apply H7. exact Hi.
  - right. split; [apply H1|]. intros H. apply H2. intros i Hi. destruct (nth_error ps i) as [p|] eqn:Ep; [|apply nth_error_None in Ep; lia].
    rewrite <- (One i p Ep). apply H. exact Ep.
Qed.

End Acts.
