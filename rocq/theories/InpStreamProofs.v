(** Proofs about act and observe with streams. *)

From Coq Require Import String List ZArith Bool Lia.
From Verif Require Import Base InpModel InpSpec InpProofs InpActProofs InpRowProofs InpOutProofs InpBatchProofs.
Import ListNotations.
Open Scope list_scope.
Open Scope nat_scope.

(** * Arrays of streams *)

Lemma update_nth_length {A} : forall (l : list A) i v, length (update_nth l i v) = length l.
Proof. induction l as [|x l IH]; intros [|i] v; cbn; auto. Qed.
Lemma nth_update {A} (d : A) : forall l i j v, i < length l -> nth j (update_nth l i v) d = if Nat.eqb j i then v else nth j l d.
Proof.
  induction l as [|x l IH]; intros [|i] [|j] v H; cbn in *; try lia; try reflexivity. apply IH. lia.
Qed.
Lemma put_length {A} : forall is (x : list A) vs, length (put x is vs) = length x.
Proof. induction is as [|i is IH]; intros x [|v vs]; cbn; auto. rewrite IH. apply update_nth_length. Qed.
Lemma nth_put_const {A} (d b : A) : forall is x j, (forall i, In i is -> i < length x) ->
  nth j (put x is (map (fun _ => b) is)) d = if existsb (Nat.eqb j) is then b else nth j x d.
Proof.
  induction is as [|i is IH]; intros x j H; [reflexivity|]. cbn [map put existsb]. rewrite IH.
  - rewrite nth_update by (apply H; left; reflexivity). destruct (Nat.eqb j i); cbn [orb]; [|reflexivity]. destruct (existsb _ is); reflexivity.
  - intros k Hk. rewrite update_nth_length. apply H. right. exact Hk.
Qed.
Lemma index_ok n z : (0 <= z < Z.of_nat n)%Z -> index n z = Ok (Z.to_nat z).
Proof.
  intros H. unfold index. destruct (Z.ltb_spec z 0); [lia|]. destruct (Z.leb_spec 0 z); [|lia]. destruct (Z.ltb_spec z (Z.of_nat n)); [reflexivity|lia].
Qed.
Lemma index_lt n z i : index n z = Ok i -> i < n.
Proof.
  unfold index. destruct (Z.ltb_spec z 0); destruct (Z.leb_spec 0 (if (z <? 0)%Z then z + Z.of_nat n else z)%Z).
  all: try (destruct (Z.ltb_spec z 0); [|lia]); try (destruct (Z.ltb_spec z 0); [lia|]).
  all: cbn [andb]; intros E; repeat match type of E with context [Z.leb ?a ?b] => destruct (Z.leb_spec a b) | context [Z.ltb ?a ?b] => destruct (Z.ltb_spec a b) end; cbn [andb] in E; try discriminate; apply ok_inj in E; subst i; lia.
Qed.
Lemma index_all n : forall l, (forall z, In z l -> (0 <= z < Z.of_nat n)%Z) -> map_res (index n) l = Ok (map Z.to_nat l).
Proof.
  induction l as [|z l IH]; intros H; [reflexivity|]. cbn [map_res map]. rewrite (index_ok n z) by (apply H; left; reflexivity). cbn [bind].
  rewrite IH by (intros y Hy; apply H; right; exact Hy). reflexivity.
Qed.
Lemma index_all_lt n l is : map_res (index n) l = Ok is -> forall i, In i is -> i < n.
Proof.
  intros H. apply map_res_inv in H. induction H as [|z i l is Hz _ IH]; intros k Hk; [contradiction|]. destruct Hk as [<-|Hk]; [eapply index_lt; exact Hz|auto].
Qed.
Lemma among_indices j : forall l, (forall z, In z l -> (0 <= z)%Z) -> existsb (Nat.eqb j) (map Z.to_nat l) = among j l.
Proof.
  induction l as [|z l IH]; intros H; [reflexivity|]. cbn [map existsb among]. unfold among in IH. rewrite IH by (intros y Hy; apply H; right; exact Hy). f_equal.
  specialize (H z (or_introl eq_refl)). destruct (Nat.eqb_spec j (Z.to_nat z)), (Z.eqb_spec z (Z.of_nat j)); lia || reflexivity.
Qed.
Lemma pick_all (x : list bool) is : forallb (fun b => b) (pick x false is) = forallb (fun i => nth i x false) is.
Proof. unfold pick. induction is as [|i is IH]; [reflexivity|]. cbn. rewrite IH. reflexivity. Qed.
Lemma pick_any (x : list bool) is : existsb (fun b => b) (pick x true is) = existsb (fun i => nth i x true) is.
Proof. unfold pick. induction is as [|i is IH]; [reflexivity|]. cbn. rewrite IH. reflexivity. Qed.
Lemma nth_false_true (x : list bool) i : i < length x -> nth i x true = nth i x false.
Proof. intros H. apply nth_indep. exact H. Qed.

(** * act *)

Section Act.
Variable V : Type.
Variable conv : leaf -> V -> option V.
Variable one : V.
Variable masking : bool.
Variables states_spec actions_spec : tree leaf.
Variable M : Type.
Variable model_act : M -> tree (arr V) -> list (list string * arr V) -> list Z -> M * tree (arr V).
Variable recording : bool.
Variable streams : nat.
Notation act := (act V conv one masking states_spec actions_spec M model_act recording streams).
Notation model_inputs := (model_inputs V conv one masking states_spec actions_spec).
Notation completed := (completed M).
Notation counter := (counter M).
Notation model := (model M).

Definition within (l : list Z) : bool := forallb (fun z => (0 <=? z)%Z && (z <? Z.of_nat streams)%Z) l.
Lemma within_in l : within l = true -> forall z, In z l -> (0 <= z < Z.of_nat streams)%Z.
Proof.
  unfold within. rewrite forallb_forall. intros H z Hz. specialize (H z Hz). apply andb_prop in H. destruct H as [H1 H2].
  apply Z.leb_le in H1. apply Z.ltb_lt in H2. lia.
Qed.
Lemma in_within l : (forall z, In z l -> (0 <= z < Z.of_nat streams)%Z) -> within l = true.
Proof.
  intros H. apply forallb_forall. intros z Hz. specialize (H z Hz). apply andb_true_intro. split; [apply Z.leb_le|apply Z.ltb_lt]; lia.
Qed.
Lemma parallel_meant b n p l v : process_parallel b n p = Ok (l, v) -> l = meant p.
Proof.
  unfold process_parallel. destruct b; destruct p; try discriminate.
  - destruct (Nat.eqb (length l0) n); [|discriminate]. intros H. apply ok_inj in H. inversion H. reflexivity.
  - intros H. apply ok_inj in H. inversion H. reflexivity.
  - intros H. apply ok_inj in H. inversion H. reflexivity.
Qed.

(** all ways in which act ends *)
Lemma act_cases st p par st' r : act st p None par = (st', r) ->
  (st' = st /\ exists e, r = Err e) \/
  exists t b n iter v is, process_states V states_spec p = Ok (t, b, n, iter) /\ process_parallel b n par = Ok (meant par, v) /\
    map_res (index streams) (meant par) = Ok is /\ forallb (fun i => nth i (completed st) false) is = true /\
    completed st' = completed (set_completed M st is false) /\ counter st' = counter st /\
    ((model st' = model st /\ exists e, r = Err e) \/
     exists s ms, model_inputs n t = Ok (s, ms) /\ v = true /\ within (meant par) = true /\ (recording = true -> is_ok (recordable V states_spec t)) /\
       model st' = fst (model_act (model st) s ms (meant par)) /\
       r = Ok (unbatch_actions V b n iter (snd (model_act (model st) s ms (meant par))))).
Proof.
  unfold InpModel.act. destruct (process_states V states_spec p) as [[[[t b] n] iter]|e] eqn:EP; [|intros H; inversion H; subst; left; eauto].
  destruct (process_parallel b n par) as [[ps v]|e] eqn:EQ; [|intros H; inversion H; subst; left; eauto].
  pose proof (parallel_meant _ _ _ _ _ EQ) as ->.
  destruct (map_res (index streams) (meant par)) as [is|e] eqn:EI; [|intros H; inversion H; subst; left; eauto].
  rewrite pick_all. destruct (forallb (fun i => nth i (completed st) false) is) eqn:EC; cbn [negb]; [|intros H; inversion H; subst; left; eauto].
  intros H. right. exists t, b, n, iter, v, is. split; [reflexivity|]. split; [exact EQ|]. split; [reflexivity|]. split; [exact EC|].
  destruct (if recording then recordable V states_spec t else Ok tt) as [u|e] eqn:ER; [|inversion H; subst; cbn; repeat split; left; split; [reflexivity|eauto]].
  destruct (model_inputs n t) as [[s ms]|e] eqn:EM; [|inversion H; subst; cbn; repeat split; left; split; [reflexivity|eauto]].
  fold (within (meant par)) in H. destruct (v && within (meant par)) eqn:EV; [|inversion H; subst; cbn; repeat split; left; split; [reflexivity|eauto]].
  apply andb_prop in EV. destruct EV as [-> EV].
  inversion H; subst. cbn. repeat split. right. exists s, ms. repeat split; auto.
  intros ->. rewrite ER. eexists; reflexivity.
Qed.

(** act when everything up to the states is in order *)
Lemma act_past st p par t b n iter v is : process_states V states_spec p = Ok (t, b, n, iter) -> process_parallel b n par = Ok (meant par, v) ->
  map_res (index streams) (meant par) = Ok is ->
  act st p None par =
  (if forallb (fun i => nth i (completed st) false) is then
   match (if recording then recordable V states_spec t else Ok tt) with
   | Err e => (set_completed M st is false, Err e)
   | Ok _ =>
   match model_inputs n t with
   | Err e => (set_completed M st is false, Err e)
   | Ok (s, ms) =>
   if v && within (meant par) then
     (mkState M (counter st) (completed (set_completed M st is false)) (fst (model_act (model st) s ms (meant par))),
      Ok (unbatch_actions V b n iter (snd (model_act (model st) s ms (meant par)))))
   else (set_completed M st is false, Err "TensorforceError: invalid value")
   end end
   else (st, Err "TensorforceError: Calling agent.act must be preceded by agent.observe")).
Proof.
  intros EP EQ EI. unfold InpModel.act. rewrite EP, EQ, EI, pick_all. destruct (forallb _ is); [|reflexivity]. cbn [negb].
  destruct (if recording then recordable V states_spec t else Ok tt); [|reflexivity]. destruct (model_inputs n t) as [[s ms]|]; reflexivity.
Qed.

Lemma set_completed_closed st is b j : (forall i, In i is -> i < length (completed st)) ->
  nth j (completed (set_completed M st is b)) false = if existsb (Nat.eqb j) is then b else nth j (completed st) false.
Proof. intros H. cbn. apply nth_put_const. exact H. Qed.
Lemma proper_completed st is b : proper streams st -> proper streams (set_completed M st is b).
Proof. intros [H1 H2]. split; cbn; [rewrite put_length; exact H1|exact H2]. Qed.
End Act.
