(** Agent-side buffering (agents/agent.py 502-568): what the agent passes on to its
    model is exactly the buffered sequence of calls of AgentSpec.v. *)

From Coq Require Import String List ZArith Lia Bool.
From Coq Require Import ZifyBool ZifyNat.
From Verif Require Import Base BaseFacts Field MemSpec MemModel MemProofs
  RetSpec RetModel RetProofs AgentSpec AgentModel AgentProofs AgentInv AgentRuns.
Import ListNotations.
Open Scope Z_scope.

Section AgentFlush.
Variable K : field.
Variables St In Au Ac W : Type.
Variable pol : W -> St -> In -> Au -> Ac * In.
Variable init_int : In.
Notation X := (X St In Au Ac).
Notation tstep := (X * K * Z)%type.
Variable zero_x : X.
Variable cf : config.

Notation oracle := (oracle K St In Au Ac).
Notation mstate := (mstate K St In Au Ac).
Notation astate := (astate K St In Au Ac).
Notation op := (op K St In Au Ac W oracle).
Notation mcall := (mcall K St In Au Ac W oracle).
Notation a_tbuf := (a_tbuf K St In Au Ac).
Notation a_rbuf := (a_rbuf K St In Au Ac).
Notation a_m := (a_m K St In Au Ac).
Notation agent_run := (agent_run K St In Au Ac W pol init_int zero_x cf).
Notation agent_step := (agent_step K St In Au Ac W pol init_int cf).
Notation agent_observe_one := (agent_observe_one K St In Au Ac init_int cf).

(** One call on the model object: the methods of core/models/model.py and
    core/models/tensorforce.py that the agent calls, without their results. *)
Definition mcall_step (m : mstate) (c : mcall) : res mstate :=
  match c with
  | CAct items => do r <- model_act K St In Au Ac W pol cf m items; Ok (fst r)
  | CIndAct items => do r <- model_independent_act K St In Au Ac W pol cf m items; Ok (fst r)
  | CObserve p b o => do r <- model_observe K St In Au Ac init_int cf o m (map fst b) (map snd b) p; Ok (fst r)
  | CExperience o ep =>
      model_experience K St In Au Ac o m (map (fun e => fst (fst e)) ep) (map snd ep) (map (fun e => snd (fst e)) ep)
  | CUpdate o => core_update K St In Au Ac cf o m
  | CReset => model_reset K St In Au Ac m
  end.

(** The model object under a sequence of calls. *)
Definition model_run (calls : list mcall) : res mstate :=
  do m0 <- model_initialize K St In Au Ac init_int zero_x cf;
  do m1 <- model_reset K St In Au Ac m0;
  fold_res mcall_step m1 calls.

Lemma fold_res_app {S I} (f : S -> I -> res S) l1 l2 s :
  fold_res f s (l1 ++ l2) = do s' <- fold_res f s l1; fold_res f s' l2.
Proof.
  revert s. induction l1 as [|x l1 IH]; intros s; [reflexivity|]. cbn [app fold_res].
  destruct (f s x); cbn [bind]; [apply IH|reflexivity].
Qed.

Lemma model_run_snoc calls c m m' : model_run calls = Ok m -> mcall_step m c = Ok m' -> model_run (calls ++ [c]) = Ok m'.
Proof.
  unfold model_run. intros H H'. binv H. binv H. rewrite E. cbn [bind]. rewrite E0. cbn [bind]. rewrite fold_res_app, H. cbn [bind fold_res].
  rewrite H'. reflexivity.
Qed.

Definition Kept (a : astate) (fc : (Z -> list (Z * K)) * list mcall) : Prop :=
  model_run (snd fc) = Ok (a_m a) /\
  len (a_tbuf a) = Z.max 0 (cf_par cf) /\ len (a_rbuf a) = Z.max 0 (cf_par cf) /\
  forall p, 0 <= p < cf_par cf ->
    gather (a_tbuf a) p = Ok (map fst (fst fc p)) /\ gather (a_rbuf a) p = Ok (map snd (fst fc p)).

Lemma observe_loop_kept items : forall a n a' n' fc, fold_res agent_observe_one (a, n) items = Ok (a', n') ->
  Kept a fc -> Kept a' (fold_left (flush_item (cf_bo cf)) items fc).
Proof.
  induction items as [|[[[p t] r] o] items IH]; intros a n a' n' fc H HK; cbn [fold_res] in H.
  - injection H as <- <-. exact HK.
  - binv H. destruct v as [a1 n1]. cbn [fold_left]. eapply IH; [exact H|].
    destruct HK as (Hm & L1 & L2 & HG).
    apply observe_one_inv in E as (tb & rb & Et & Er & _ & _ & _ & Hc).
    assert (0 <= p < cf_par cf) as Hp by (apply gather_range in Et; lia).
    destruct (HG p Hp) as [G1 G2]. rewrite Et in G1. rewrite Er in G2. injection G1 as ->. injection G2 as ->.
    assert (forall tb' rb' b calls m1, a_tbuf a1 = update_nth (a_tbuf a) (Z.to_nat p) tb' ->
      a_rbuf a1 = update_nth (a_rbuf a) (Z.to_nat p) rb' -> map fst b = tb' -> map snd b = rb' ->
      a_m a1 = m1 -> model_run calls = Ok m1 -> Kept a1 (set_kept (fst fc) p b, calls)) as HF.
    { intros tb' rb' b calls m1 B1 B2 B3 B4 B5 B6. unfold Kept. cbn [fst snd]. rewrite B1, B2, !update_nth_length, B5.
      split; [exact B6|]. split; [exact L1|]. split; [exact L2|]. intros q Hq. unfold set_kept.
      destruct (Z.eqb_spec q p) as [->|N].
      - rewrite !gather_update_same by lia. subst. auto.
      - rewrite !gather_update_other by lia. apply HG. exact Hq. }
    unfold flush_item. rewrite map_length in Hc.
    destruct Hc as [(Ht & Hb & B1 & B2 & B3 & _)|(Hb & B1 & B2 & _ & _ & u & B3 & _)].
    + subst t. cbn [Z.eqb andb]. rewrite app_length. cbn [length].
      replace (match cf_bo cf with Some n0 => Z.of_nat (length (fst fc p) + 1) <? n0 | None => true end) with true.
      2: { destruct (cf_bo cf) as [b|]; [|reflexivity]. specialize (Hb b eq_refl). lia. }
      eapply HF; [exact B1|exact B2| | |exact B3|exact Hm]; now rewrite map_app.
    + replace ((t =? 0) && match cf_bo cf with Some n0 => len (fst fc p ++ [(t, r)]) <? n0 | None => true end) with false.
      2: { destruct (Z.eqb_spec t 0) as [Ht|]; [|reflexivity]. destruct (Hb Ht) as (b & -> & Hle).
           rewrite app_length. cbn [length andb]. lia. }
      eapply HF; [exact B1|exact B2|reflexivity|reflexivity|reflexivity|].
      eapply model_run_snoc; [exact Hm|]. cbn [mcall_step]. rewrite !map_app. cbn [map fst snd]. rewrite B3. reflexivity.
Qed.

Lemma experience_loop_kept os items : forall a seg k a' calls,
  experience_loop K St In Au Ac os a seg items k = Ok a' ->
  model_run calls = Ok (a_m a) ->
  model_run (calls ++ numbered os k (cut_episodes seg items)) = Ok (a_m a').
Proof.
  induction items as [|e items IH]; intros a seg k a' calls H HM; cbn [AgentModel.experience_loop cut_episodes] in *.
  - injection H as <-. cbn [numbered]. now rewrite app_nil_r.
  - destruct (snd e =? 0); [eapply IH; eauto|]. binv H. cbn [numbered].
    replace (calls ++ CExperience (os k) (seg ++ [e]) :: numbered os (S k) (cut_episodes [] items))
      with ((calls ++ [CExperience (os k) (seg ++ [e])]) ++ numbered os (S k) (cut_episodes [] items))
      by (rewrite <- app_assoc; reflexivity).
    eapply IH; [exact H|]. cbn [AgentModel.a_m]. eapply model_run_snoc; [exact HM|]. exact E.
Qed.

Lemma run_kept ops a evs : agent_run ops = Ok (a, evs) -> Kept a (flush (cf_bo cf) ops).
Proof.
  revert ops a evs. apply run_ind.
  - intros a H. pose proof H as H'. apply initialize_inv in H as (f & _ & _ & _ & _ & _ & H1 & H2 & _).
    unfold Kept, flush. cbn [fold_left fst snd]. rewrite H1, H2, !repeat_length.
    split; [|split; [lia|split; [lia|]]].
    + unfold model_run, agent_initialize in *. binv H'. binv H'. rewrite E. cbn [bind]. rewrite E0. cbn [bind fold_res].
      injection H' as <-. reflexivity.
    + intros p Hp. rewrite !gather_repeat by lia. auto.
  - intros ops a evs x a' ev _ HK H. unfold flush. rewrite fold_left_app. cbn [fold_left]. fold (flush (cf_bo cf) ops).
    set (fc := flush (cf_bo cf) ops) in *.
    assert (forall calls, a_tbuf a' = a_tbuf a -> a_rbuf a' = a_rbuf a -> model_run (snd fc ++ calls) = Ok (a_m a') ->
      Kept a' (fst fc, snd fc ++ calls)) as Hsame.
    { intros calls E1 E2 E3. destruct HK as (_ & L1 & L2 & HG). unfold Kept. cbn [fst snd]. rewrite E1, E2. auto. }
    destruct HK as (HM & L1 & L2 & HG).
    destruct x as [items|items|items|os items|o|]; cbn [AgentModel.agent_step flush_op] in *.
    + binv H. destruct v as [a1 xs]. injection H as <- <-. cbn [fst].
      pose proof (act_inv K St In Au Ac W pol init_int cf _ _ _ _ E) as E'. destruct E' as (_ & _ & _ & T1 & T2 & _). apply Hsame; auto.
      unfold agent_act in E. do 4 binv E. destruct v2 as [m1 xs']. injection E as <- <-. cbn [AgentModel.a_m].
      eapply model_run_snoc; [exact HM|]. cbn [mcall_step]. rewrite E3. reflexivity.
    + binv H. destruct v as [a1 outs]. injection H as <- <-. unfold agent_independent_act in E. binv E. destruct v as [m1 o1].
      injection E as <- <-. cbn [fst]. apply Hsame; try reflexivity. cbn [AgentModel.a_m].
      eapply model_run_snoc; [exact HM|]. cbn [mcall_step]. rewrite E0. reflexivity.
    + binv H. destruct v as [a1 u]. injection H as <- <-. cbn [fst].
      apply observe_inv in E as (_ & _ & cs & a0 & _ & _ & _ & _ & T1 & T2 & Em & _ & _ & _ & E').
      eapply observe_loop_kept; [exact E'|]. unfold Kept. rewrite T1, T2, Em. auto.
    + binv H. injection H as <- <-. unfold agent_experience in E. binv E. binv E. binv E.
      apply experience_loop_same in E as E'. destruct E' as (_ & _ & T1 & T2 & _). apply Hsame; auto.
      eapply experience_loop_kept; [exact E|exact HM].
    + binv H. injection H as <- <-. unfold agent_update in E. binv E. injection E as <-. apply Hsame; try reflexivity. cbn [AgentModel.a_m].
      eapply model_run_snoc; [exact HM|]. exact E0.
    + binv H. injection H as <- <-. unfold agent_reset in E. binv E. injection E as <-.
      unfold Kept. cbn. rewrite !map_length. split; [|split; [lia|split; [lia|]]].
      * eapply model_run_snoc; [exact HM|]. exact E0.
      * intros p Hp. rewrite !gather_const_map by lia. auto.
Qed.

(** ** The buffered sequence of calls *)
Section Buffered.
Variable bo : option Z.

Definition is_reset (x : op) : bool := match x with OReset => true | _ => false end.

Lemma batches_app p (c1 c2 : list mcall) : batches_of p (c1 ++ c2) = batches_of p c1 ++ batches_of p c2.
Proof. apply flat_map_app. Qed.

Lemma batches_numbered p os k (eps : list (list tstep)) : batches_of p (numbered (W:=W) (O:=oracle) os k eps) = [].
Proof. revert k. induction eps as [|e eps IH]; intros k; [reflexivity|]. cbn. apply IH. Qed.

Definition obs_item_of (p : Z) (it : Z * Z * K * oracle) : list (Z * K) :=
  let '(q, t, r, _) := it in if q =? p then [(t, r)] else [].

Lemma flush_items_sent p items : forall fc : (Z -> list (Z * K)) * list mcall,
  let fc' := fold_left (flush_item bo) items fc in
  concat (batches_of p (snd fc')) ++ fst fc' p
  = (concat (batches_of p (snd fc)) ++ fst fc p) ++ flat_map (obs_item_of p) items.
Proof.
  induction items as [|[[[q t] r] o] items IH]; intros fc; cbn zeta in *.
  - cbn. now rewrite app_nil_r.
  - cbn [fold_left flat_map]. rewrite IH, app_assoc. f_equal. unfold flush_item.
    destruct (_ && _); cbn [fst snd obs_item_of]; unfold set_kept.
    + rewrite (Z.eqb_sym q p). destruct (Z.eqb_spec p q) as [->|N]; [now rewrite app_assoc|now rewrite app_nil_r].
    + rewrite batches_app, concat_app. cbn [batches_of flat_map app]. rewrite (Z.eqb_sym q p).
      destruct (Z.eqb_spec p q) as [->|N]; cbn [concat app]; rewrite ?app_nil_r; [now rewrite app_assoc|reflexivity].
Qed.

Lemma flush_sent p ops : forallb (fun x => negb (is_reset x)) ops = true ->
  concat (batches_of p (snd (flush bo ops))) ++ fst (flush bo ops) p = observed p ops.
Proof.
  induction ops as [|x ops IH] using rev_ind; intros H; [reflexivity|].
  rewrite forallb_app in H. apply andb_true_iff in H as [H Hx]. specialize (IH H).
  unfold flush, observed. rewrite fold_left_app, flat_map_app. fold (flush bo ops) (observed p ops). rewrite <- IH.
  cbn [fold_left flat_map]. rewrite app_nil_r. set (fc := flush bo ops).
  destruct x as [items|items|items|os items|o|]; cbn [flush_op observed_op fst snd]; rewrite ?batches_app, ?app_nil_r;
    try reflexivity.
  - apply (flush_items_sent p items fc).
  - rewrite concat_app, batches_numbered. cbn [concat]. now rewrite ?app_nil_r.
  - discriminate.
Qed.

(** Shape of a batch, and of what is kept. *)
Definition batch_shape (b : list (Z * K)) : Prop :=
  exists pre t r, b = pre ++ [(t, r)] /\ Forall (fun e => fst e = 0) pre /\
    (forall n, bo = Some n -> Z.of_nat (length pre) < Z.max 1 n) /\
    (t = 0 -> exists n, bo = Some n /\ n <= len b).
Definition kept_shape (b : list (Z * K)) : Prop :=
  Forall (fun e => fst e = 0) b /\ (forall n, bo = Some n -> len b < Z.max 1 n).

Lemma flush_items_shape items : forall fc : (Z -> list (Z * K)) * list mcall,
  (forall p, kept_shape (fst fc p) /\ Forall batch_shape (batches_of p (snd fc))) ->
  let fc' := fold_left (flush_item bo) items fc in
  forall p, kept_shape (fst fc' p) /\ Forall batch_shape (batches_of p (snd fc')).
Proof.
  induction items as [|[[[q t] r] o] items IH]; intros fc HF; cbn zeta in *; [exact HF|].
  cbn [fold_left]. apply IH. intros p. destruct (HF p) as [F1 F2]. destruct (HF q) as [[G1 G2] _]. unfold flush_item.
  destruct ((t =? 0) && _) eqn:Ec; cbn [fst snd]; unfold set_kept.
  - split; [|exact F2]. destruct (Z.eqb_spec p q) as [->|N]; [|exact F1].
    apply andb_true_iff in Ec as [Et Eb]. apply Z.eqb_eq in Et. subst t. split.
    + apply Forall_app. split; [exact G1|]. constructor; auto.
    + intros n ->. lia.
  - split.
    + destruct (Z.eqb_spec p q) as [->|N]; [|exact F1]. split; [constructor|]. intros n _. cbn. lia.
    + rewrite batches_app. apply Forall_app. split; [exact F2|]. cbn [batches_of flat_map]. rewrite app_nil_r.
      destruct (Z.eqb_spec q p) as [->|N]; [|constructor]. constructor; [|constructor].
      exists (fst fc p), t, r. split; [reflexivity|]. split; [exact G1|]. split; [exact G2|].
      intros ->. cbn [Z.eqb andb] in Ec. destruct bo as [n|]; [|discriminate]. exists n. split; [reflexivity|lia].
Qed.

Lemma flush_shape (ops : list op) : forall p, kept_shape (fst (flush bo ops) p) /\ Forall batch_shape (batches_of p (snd (flush bo ops))).
Proof.
  induction ops as [|x ops IH] using rev_ind.
  - intros p. split; [split; [constructor|]; intros n _; cbn; lia|constructor].
  - unfold flush. rewrite fold_left_app. cbn [fold_left]. fold (flush bo ops). set (fc := flush bo ops) in *.
    destruct x as [items|items|items|os items|o|]; cbn [flush_op];
      try (intros p; cbn [fst snd]; rewrite batches_app; cbn [batches_of flat_map]; rewrite app_nil_r; apply IH).
    + apply flush_items_shape. exact IH.
    + intros p. cbn [fst snd]. rewrite batches_app, batches_numbered, app_nil_r. apply IH.
    + intros p. cbn [fst snd]. rewrite batches_app. cbn [batches_of flat_map]. rewrite app_nil_r. split; [|apply IH].
      split; [constructor|]. intros n _. cbn. lia.
Qed.

(** Nothing is kept after a terminal observation. *)
Lemma flush_terminal ops items p t r o : List.In (p, t, r, o) items -> NoDup (map (fun it => fst (fst (fst it))) items) ->
  t <> 0 -> fst (flush bo (ops ++ [OObserve (items : list (Z * Z * K * oracle)) : op])) p = [].
Proof.
  intros Hin ND Ht. unfold flush. rewrite fold_left_app. cbn [fold_left flush_op]. fold (flush bo ops).
  generalize (flush bo ops) as fc. revert Hin ND.
  induction items as [|it items IH]; intros Hin ND fc; [contradiction|].
  cbn [map] in ND. apply NoDup_cons_iff in ND as [Hn ND]. cbn [fold_left]. destruct Hin as [->|Hin]; [|apply IH; auto].
  cbn [fst] in Hn.
  assert (forall fc : (Z -> list (Z * K)) * list mcall, ~ List.In p (map (fun it : Z * Z * K * oracle => fst (fst (fst it))) items) ->
     fst (fold_left (flush_item bo) items fc) p = fst fc p) as Hother.
  { clear. induction items as [|[[[q t] r] o] items IH]; intros fc Hn; [reflexivity|]. cbn [fold_left map] in *.
    rewrite IH by (intros C; apply Hn; now right). unfold flush_item. cbn [fst] in Hn.
    destruct (_ && _); cbn [fst]; unfold set_kept; (destruct (Z.eqb_spec p q) as [->|N]; [exfalso; apply Hn; now left|reflexivity]). }
  rewrite Hother by exact Hn. unfold flush_item. replace (t =? 0) with false by lia. cbn [andb fst]. unfold set_kept.
  now rewrite Z.eqb_refl.
Qed.
End Buffered.

End AgentFlush.
