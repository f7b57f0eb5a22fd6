(** Further properties of pretrain: C152 auxiliaries of recordings. *)

From Coq Require Import String List ZArith Bool Lia.
From Verif Require Import Base InpModel InpMaskProofs ExpModel ExpProps PtrProps.
Import ListNotations.
Open Scope string_scope.
Open Scope list_scope.
Open Scope nat_scope.

Section Auxiliaries.
Variable V : Type.
Variable conv : leaf -> V -> option V.
Variables conv_terminal conv_reward : V -> option V.
Variable is_zero : V -> bool.
Variable one : V.
Variable masking : bool.
Variables states_spec actions_spec internals_spec : tree leaf.
Variable initial : tree (arr V).
Variable M : Type.
Variable model_experience : M -> batch V -> M * res unit.
Variable model_update : M -> M * res unit.
Notation iteration := (iteration V conv conv_terminal conv_reward is_zero one masking states_spec actions_spec internals_spec initial M model_experience model_update).

Lemma mask_of_name : forall p q, mask_of p = Some q -> exists r k, p = r ++ [k; "mask"].
Proof.
  induction p as [|k p IH]; intros q H; [discriminate|]. destruct p as [|k' p]; [discriminate|]. destruct p as [|k'' p].
  - cbn in H. destruct (String.eqb k' "mask") eqn:E; [|discriminate]. apply String.eqb_eq in E. subst k'. exists [], k. reflexivity.
  - change (option_map (cons k) (mask_of (k' :: k'' :: p)) = Some q) in H. destruct (mask_of (k' :: k'' :: p)) as [q'|] eqn:E; [|discriminate].
    destruct (IH q' eq_refl) as (r & j & ->). exists (k :: r), j. reflexivity.
Qed.
Lemma move_masks_other : forall ms t p a, In (p, a) ms -> (forall r k, p <> r ++ [k; "mask"]) -> exists e, move_masks V ms t = Err e.
Proof.
  induction ms as [|[p' a'] ms IH]; intros t p a I N; [destruct I|]. cbn [move_masks]. destruct (mask_of p') as [q|] eqn:E; [|eauto].
  destruct I as [I|I]. { injection I as -> ->. apply mask_of_name in E. destruct E as (r & k & E). destruct (N r k E). }
  destruct t as [x|d]; [eauto|]. destruct (insert q (Leaf a') d) as [d'|]; cbn [bind]; eauto.
Qed.
Lemma selected files : forall sel (fs : list (file V)), Forall2 (fun i f => nth_error files i = Some f) sel fs ->
  map_res (fun i => match nth_error files i with Some f => Ok f | None => Err "IndexError" end) sel = Ok fs.
Proof. induction 1 as [|i f sel fs H F IH]; [reflexivity|]. cbn [map_res]. rewrite H. cbn [bind]. rewrite IH. reflexivity. Qed.

(** Recorded auxiliaries which are not called mask are an error, and the model stays as it is *)
Theorem C152_auxiliaries : forall busy files sel ups m fs d e p a, Forall2 (fun i f => nth_error files i = Some f) sel fs ->
  load_all V fs None = Ok (Some (Dict d)) -> dget "auxiliaries" d = Some (Dict e) -> In (p, a) (items (Dict e)) -> (forall r k, p <> r ++ [k; "mask"]) ->
  exists err, iteration busy files sel ups m = (m, Err err).
Proof.
  intros busy files sel ups m fs d e p a F L G I N. unfold ExpModel.iteration. rewrite (selected files sel fs F). cbn [bind]. rewrite L. cbn [bind with_masks].
  rewrite G. destruct (items (Dict e)) as [|x ms] eqn:Ei; [destruct I|]. destruct (child "states" (Dict (ddel "auxiliaries" d))) as [s|]; cbn [bind]; [|eauto].
  destruct (move_masks_other (x :: ms) s p a I N) as (err & E). rewrite E. cbn [bind]. eauto.
Qed.

(** What is given to experience has the names of the recording, without the auxiliaries *)
Theorem C152_removed : forall d d', with_masks V (Dict d) = Ok d' -> NoDup (map fst d) ->
  map fst d' = filter (fun k => negb (String.eqb k "auxiliaries")) (map fst d) /\
  forall k, k <> "auxiliaries" -> k <> "states" -> dget k d' = dget k d.
Proof.
  assert (D : forall (d : list (string * tree (arr V))) x, dget "auxiliaries" d = Some x -> NoDup (map fst d) ->
     map fst (ddel "auxiliaries" d) = filter (fun k => negb (String.eqb k "auxiliaries")) (map fst d)).
  { assert (K : forall l : list string, ~ In "auxiliaries" l -> filter (fun k => negb (String.eqb k "auxiliaries")) l = l).
    { induction l as [|k l IH]; intros N; cbn [filter]; [reflexivity|]. destruct (String.eqb k "auxiliaries") eqn:E.
      - apply String.eqb_eq in E. destruct N. left. exact E.
      - cbn [negb]. rewrite IH; [reflexivity|]. intros I. apply N. right. exact I. }
    induction d as [|[k v] d IH]; intros x G U; [discriminate|]. cbn [dget] in G. cbn [ddel map fst filter]. inversion U as [|? ? U1 U2]; subst.
    rewrite (String.eqb_sym k). destruct (String.eqb "auxiliaries" k) eqn:E; cbn [negb].
    - apply String.eqb_eq in E. subst k. symmetry. apply K. exact U1.
    - cbn [map fst]. f_equal. eapply IH; eauto. }
  assert (A : forall d : list (string * tree (arr V)), dget "auxiliaries" d = None -> map fst d = filter (fun k => negb (String.eqb k "auxiliaries")) (map fst d)).
  { induction d as [|[k v] d IH]; intros G; [reflexivity|]. cbn [dget] in G. cbn [map fst filter]. rewrite (String.eqb_sym k). destruct (String.eqb "auxiliaries" k); [discriminate|].
    cbn [negb]. f_equal. apply IH. exact G. }
  intros d d' W U. cbn [with_masks] in W. destruct (dget "auxiliaries" d) as [[x|e]|] eqn:G; [discriminate| |].
  - destruct (items (Dict e)) as [|x ms].
    + injection W as <-. split; [eapply D; eauto|]. intros k N _. apply dget_ddel. congruence.
    + destruct (child "states" _) as [s|]; cbn [bind] in W; [|discriminate]. destruct (move_masks V (x :: ms) s) as [s'|]; cbn [bind] in W; [|discriminate].
      apply (f_equal (fun r => match r with Ok z => z | Err _ => [] end)) in W. cbv beta iota in W. rewrite <- W. clear W. split.
      * rewrite map_map. rewrite <- (D d _ G U). apply map_ext. intros kt. cbv beta. destruct (String.eqb "states" (fst kt)); reflexivity.
      * intros k N1 N2. rewrite <- (dget_ddel k "auxiliaries" d N1). generalize (ddel "auxiliaries" d). clear -N2.
        induction l as [|[k' t] l IH]; [reflexivity|]. cbn [map fst]. destruct (String.eqb "states" k') eqn:E; cbn [dget].
        -- apply String.eqb_eq in E. subst k'. destruct (String.eqb k "states") eqn:E; [apply String.eqb_eq in E; congruence|exact IH].
        -- destruct (String.eqb k k'); [reflexivity|exact IH].
  - injection W as <-. split; [apply A; exact G|reflexivity].
Qed.
End Auxiliaries.
Print Assumptions C152_auxiliaries.
Print Assumptions C152_removed.

Definition aux_file (name : string) : file Z := [(["states"; "x"], Arr [1] [5%Z]); (["auxiliaries"; "x"; name], Arr [1] [1%Z])].
Example C152_auxiliaries_case : exists d e, load_all Z [aux_file "other"] None = Ok (Some (Dict d)) /\ dget "auxiliaries" d = Some (Dict e) /\
  In (["x"; "other"], Arr [1] [1%Z]) (items (Dict e)) /\ (forall r k, ["x"; "other"] <> r ++ [k; "mask"]).
Proof.
  do 2 eexists. split; [vm_compute; reflexivity|]. split; [vm_compute; reflexivity|]. split; [left; reflexivity|].
  intros [|a [|b [|c r]]] k H; cbn in H; discriminate.
Qed.
Example C152_removed_case : (do b <- load_all Z [aux_file "mask"] None; match b with None => Err "" | Some b => with_masks Z b end) =
  Ok [("states", Dict [("x", Leaf (Arr [1] [5%Z])); ("x_mask", Leaf (Arr [1] [1%Z]))])].
Proof. vm_compute. reflexivity. Qed.
Example C152_removed_empty : with_masks Z (Dict [("states", Leaf (Arr [1] [5%Z])); ("auxiliaries", Dict [])]) = Ok [("states", Leaf (Arr [1] [5%Z]))].
Proof. reflexivity. Qed.
