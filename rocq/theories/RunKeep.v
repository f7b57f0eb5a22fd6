(** Invariants of the runner which depend on the log, the evaluation internals and the best score only *)
From Coq Require Import String List ZArith Lia Bool Arith.
From Verif Require Import Base RunSpec RunModel RunProofs.
Import ListNotations.
Open Scope string_scope.
Open Scope list_scope.
Open Scope Z_scope.

Section P.
Context {S A R I : Type}.
Variable zero : R.
Variable add : R -> R -> R.
Variable w : world S A R I.
Variable c : config.
Notation runner := (@runner S A R I).
Notation event := (event S A R I).
Notation history := (history S A R I).
Implicit Types q : runner.
Implicit Types h : history.
Notation k := (num_environments c).

Definition plain_event (e : event) : Prop :=
  match e with Reset n => is_eval c n = false | ActEval _ _ _ _ | Score _ | Save => False | _ => True end.

Section Invariant.
Variable Inv : runner -> Prop.
Hypothesis I_same : forall q q', log q' = log q -> best q' = best q -> internals q' = internals q -> Inv q -> Inv q'.
Hypothesis I_emit : forall e q, plain_event e -> Inv q -> Inv (emit e q).
Hypothesis I_act : forall s a i q, is_eval c (last c) = true -> w_act_eval w (log q) s (internals q) = (a, i) -> Inv q ->
  Inv (set_internals i (emit (ActEval s (internals q) a i) q)).
Hypothesis I_reset : forall q, is_eval c (last c) = true -> Inv q -> Inv (set_internals (w_initial w) (emit (Reset (last c)) q)).
Hypothesis I_evaluate : forall q, Inv q -> Inv (evaluate w c q).
Hypothesis I_restart : sync_episodes c = true -> forall q, is_eval c (last c) = true -> Inv q -> Inv (emit (Reset (last c)) q).

Ltac same := match goal with H : Inv ?q |- Inv ?q' => first [exact H | apply (I_same q); [reflexivity|reflexivity|reflexivity|exact H]] end.

Lemma k_start_execute n a q q' : Inv q -> start_execute n a q = Ok q' -> Inv q'.
Proof. intros H E. unfold start_execute in E. destruct (pending q n); [discriminate|]. injection E as <-. apply I_emit; [exact Logic.I|]. same. Qed.
Lemma k_start_reset n q q' : is_eval c n = false -> Inv q -> start_reset n q = Ok q' -> Inv q'.
Proof. intros He H E. unfold start_reset in E. destruct (pending q n); [discriminate|]. injection E as <-. apply I_emit; [exact He|]. same. Qed.
Lemma k_receive n q q' : Inv q -> receive w n q = Ok q' -> Inv q'.
Proof.
  intros H E. unfold receive in E. destruct (pending q n) as [x|]; [|discriminate].
  destruct (match x with None => _ | Some _ => _ end) as [[s t] r]. injection E as <-. apply I_emit; [exact Logic.I|]. same.
Qed.
Lemma k_count_timestep n p q : Inv q -> Inv (count_timestep w c n p q).
Proof.
  intros H. unfold count_timestep, call_back. assert (Inv (set_timesteps (Datatypes.S (timesteps q)) q)) as H1 by same.
  destruct (divides _ _); cbv zeta beta iota.
  - apply (I_emit (Callback p)) in H1; [|exact Logic.I]. destruct (_ || _); [same|exact H1].
  - destruct (_ || _); [same|exact H1].
Qed.
Lemma k_count_episode p q : Inv q -> Inv (count_episode w c p q).
Proof.
  intros H. unfold count_episode, call_back. assert (Inv (set_episodes (Datatypes.S (episodes q)) q)) as H1 by same.
  cbv zeta. destruct (_ =? _); [|exact H1]. destruct (divides _ _); cbv zeta beta iota.
  - apply (I_emit (Callback p)) in H1; [|exact Logic.I]. destruct (_ || _); [same|exact H1].
  - destruct (_ || _); [same|exact H1].
Qed.
Lemma k_handle_act n q q' : Inv q -> handle_act w c n q = Ok q' -> Inv q'.
Proof.
  intros H E. unfold handle_act in E.
  assert (exists q1, Inv q1 /\ q' = count_timestep w c n (Some n) (set_episode_timestep (upd (episode_timestep q1) n (Datatypes.S (episode_timestep q1 n))) q1)) as (q1 & H1 & ->).
  { destruct (batch_agent_calls c).
    - destruct (actions q n) as [a|]; [|discriminate]. destruct (start_execute n a q) as [q1|m] eqn:E1; [|discriminate].
      injection E as <-. exists q1. split; auto. eapply k_start_execute; eauto.
    - destruct (states q n) as [s|]; [|discriminate]. cbv zeta in E. destruct (start_execute _ _ _) as [q1|m] eqn:E1; [|discriminate].
      injection E as <-. exists q1. split; auto. eapply k_start_execute; [|exact E1]. apply I_emit; [exact Logic.I|exact H]. }
  apply k_count_timestep. same.
Qed.
Lemma k_handle_act_evaluation q q' : is_eval c (last c) = true -> Inv q -> handle_act_evaluation w c q = Ok q' -> Inv q'.
Proof.
  intros He H E. unfold handle_act_evaluation in E.
  match type of E with bind ?x _ = _ => destruct x as [q1|m] eqn:E1; [|discriminate] end. cbn [bind] in E.
  assert (Inv q1) as H1.
  { destruct (batch_agent_calls c).
    - destruct (actions q (last c)) as [a|]; [|discriminate]. eapply k_start_execute; eauto.
    - destruct (states q (last c)) as [s|]; [|discriminate]. destruct (w_act_eval w (log q) s (internals q)) as [a i] eqn:Ea.
      eapply k_start_execute; [|exact E1]. now apply I_act. }
  injection E as <-. destruct (_ && _); [apply k_count_timestep|]; same.
Qed.
Lemma k_handle_observe n q q' : Inv q -> handle_observe add w c n q = Ok q' -> Inv q'.
Proof.
  intros H E. unfold handle_observe in E. destruct (rewards q n) as [r|]; [|discriminate]. cbv zeta in E.
  match type of E with context [if ?b then set_terminals ?x ?y else ?z] => set (q1 := if b then set_terminals x y else z) in E end.
  match type of E with context [if batch_agent_calls c then q1 else ?z] => set (q2 := if batch_agent_calls c then q1 else z) in E end.
  assert (Inv q1) as H1 by (unfold q1; destruct (_ && _); same).
  assert (Inv q2) as H2.
  { unfold q2. destruct (batch_agent_calls c); auto. 
    match goal with |- Inv (set_updates _ ?x) => assert (Inv x) as H2 by (apply I_emit; [exact Logic.I|exact H1]) end. same. }
  injection E as <-. destruct (reached _ _); same.
Qed.
Lemma k_handle_terminal n q q' : is_eval c n = false -> Inv q -> handle_terminal zero w c n q = Ok q' -> Inv q'.
Proof.
  intros He H E. unfold handle_terminal in E. cbv zeta in E.
  match type of E with context [count_episode w c ?p ?x] => set (q1 := count_episode w c p x) in E; assert (Inv q1) as H1 by (apply k_count_episode; same) end.
  clearbody q1. match type of E with context [if ?b then _ else _] => destruct b end.
  - eapply k_start_reset; [exact He| |exact E]. same.
  - injection E as <-. same.
Qed.
Lemma k_handle_terminal_evaluation q q' : is_eval c (last c) = true -> Inv q -> handle_terminal_evaluation zero w c q = Ok q' -> Inv q'.
Proof.
  intros He H E. unfold handle_terminal_evaluation in E. cbv zeta in E.
  match type of E with context [evaluate w c ?x] => set (q1 := evaluate w c x) in E; assert (Inv q1) as H1 by (apply I_evaluate; same) end.
  match type of E with context [if evaluation_run c && ?b then ?x else q1] => set (q2 := if evaluation_run c && b then x else q1) in E end.
  assert (Inv q2) as H2 by (unfold q2; destruct (_ && _); [apply k_count_episode|]; exact H1).
  clearbody q2. match type of E with context [if ?b then _ else _] => destruct b end.
  - unfold start_reset in E. match type of E with context [pending ?a ?b] => destruct (pending a b); [discriminate|] end. cbn [bind] in E. injection E as <-.
    match goal with |- Inv (set_internals ?i (emit ?e ?x)) => assert (Inv x) as H3 by same end. now apply I_reset.
  - injection E as <-. same.
Qed.
Lemma eval_is n : is_eval c n = true -> n = last c.
Proof. unfold is_eval. intros H. apply andb_prop in H. now apply Nat.eqb_eq. Qed.
Lemma k_handle n q q' : Inv q -> handle zero add w c n q = Ok q' -> Inv q'.
Proof.
  intros H E. unfold handle in E. destruct (is_eval c n) eqn:He.
  - assert (is_eval c (last c) = true) as Hl by (rewrite <- (eval_is n He); exact He).
    destruct (terminals q n =? -1); [eapply k_handle_act_evaluation; eauto|].
    destruct (handle_observe_evaluation add c q) as [q1|m] eqn:E1; [|discriminate]. cbn [bind] in E.
    assert (Inv q1) as H1.
    { unfold handle_observe_evaluation in E1. destruct (rewards q (last c)); [|discriminate]. injection E1 as <-. same. }
    destruct (_ =? _); [eapply k_handle_act_evaluation; eauto|eapply k_handle_terminal_evaluation; eauto].
  - destruct (terminals q n =? -1); [eapply k_handle_act; eauto|].
    destruct (handle_observe add w c n q) as [q1|m] eqn:E1; [|discriminate]. cbn [bind] in E. apply k_handle_observe in E1; auto.
    destruct (_ =? _); [eapply k_handle_act; eauto|eapply k_handle_terminal; eauto].
Qed.
Lemma k_visit n q q' : Inv q -> visit zero add w c n q = Ok q' -> Inv q'.
Proof.
  intros H E. unfold visit in E. destruct (_ <? _); [injection E as <-; same|]. destruct (batch_agent_calls c); [eapply k_handle; eauto|].
  destruct (_ || _).
  - destruct (receive w n q) as [q1|m] eqn:E1; [|discriminate]. cbn [bind] in E. apply k_receive in E1; auto. eapply k_handle; eauto.
  - injection E as <-. apply I_emit; [exact Logic.I|]. same.
Qed.
Lemma k_each {X} (f : X -> runner -> res runner) l : (forall x q q', In x l -> Inv q -> f x q = Ok q' -> Inv q') ->
  forall q q', Inv q -> each f l q = Ok q' -> Inv q'.
Proof.
  intros Hf. induction l as [|x l IH]; cbn [each]; intros q q' H E; [injection E as <-; auto|].
  destruct (f x q) as [q1|m] eqn:E1; [|discriminate]. cbn [bind] in E. eapply IH; [|eapply Hf; [now left|exact H|exact E1]|exact E].
  intros x' q2 q2' Hi. apply Hf. now right.
Qed.
Lemma k_receive_batch n q q' : Inv q -> receive_batch w n q = Ok q' -> Inv q'.
Proof. intros H E. unfold receive_batch in E. destruct (_ <=? _); [eapply k_receive; eauto|]. injection E as <-. same. Qed.
Lemma k_observe_joint q q' : Inv q -> handle_observe_joint w c q = Ok q' -> Inv q'.
Proof.
  intros H E. unfold handle_observe_joint in E. destruct (filter _ _) as [|x l]; [injection E as <-; auto|].
  destruct (values _ _) as [rs|m]; [|discriminate]. cbn [bind] in E. injection E as <-.
  match goal with |- Inv (set_updates _ ?x) => assert (Inv x) as H2 by (apply I_emit; [exact Logic.I|exact H]) end. same.
Qed.
Lemma k_act_joint q q' : (0 < k)%nat -> Inv q -> handle_act_joint w c q = Ok q' -> Inv q'.
Proof.
  intros Hk H E. unfold handle_act_joint in E. cbv zeta in E.
  match type of E with bind ?x _ = _ => destruct x as [q1|m] eqn:E1; [|discriminate] end. cbn [bind] in E.
  assert (Inv q1) as H1.
  { destruct (filter _ _) as [|x l]; [injection E1 as <-; auto|]. destruct (values _ _) as [rs|m]; [|discriminate]. cbn [bind] in E1. injection E1 as <-.
    match goal with |- Inv (set_actions _ ?x) => assert (Inv x) as H2 by (apply I_emit; [exact Logic.I|exact H]) end. same. }
  destruct (evaluation_run c && _) eqn:Hev; [|injection E as <-; auto]. apply andb_prop in Hev. destruct Hev as [Hev _].
  destruct (states q1 (last c)) as [s|]; [|discriminate]. destruct (w_act_eval w (log q1) s (internals q1)) as [a i] eqn:Ea. injection E as <-.
  match goal with |- Inv (set_actions _ ?x) => assert (Inv x) as H2 by (apply I_act; auto; unfold is_eval; now rewrite Hev, Nat.eqb_refl) end. same.
Qed.
Lemma k_restart_all q q' : (0 < k)%nat -> Inv q -> restart_all c q = Ok q' -> Inv q'.
Proof.
  intros Hk H E. unfold restart_all in E. destruct (sync_episodes c && _) eqn:Hs; [|injection E as <-; auto].
  apply andb_prop in Hs. destruct Hs as [Hs _]. cbv zeta in E.
  match type of E with bind ?x _ = _ => destruct x as [q1|m] eqn:E1; [|discriminate] end. cbn [bind] in E.
  assert (Inv q1) as H1.
  { eapply k_each; [|exact H|exact E1]. intros n q2 q2' Hi H2 E2. apply in_seq in Hi. unfold restart in E2.
    eapply k_start_reset; [| |exact E2]; [|same].
    assert (n < training c)%nat as Hn by (destruct (num_episodes c); lia).
    unfold is_eval. unfold training in Hn. destruct (evaluation_run c); auto. cbn. apply Nat.eqb_neq. unfold last. lia. }
  destruct (evaluation_run c && _) eqn:Hev; [|injection E as <-; auto]. apply andb_prop in Hev. destruct Hev as [Hev _].
  unfold restart, start_reset in E. destruct (pending _ _); [discriminate|]. injection E as <-.
  match goal with |- Inv (emit _ ?x) => assert (Inv x) as H2 by same end.
  apply I_restart; auto. unfold is_eval. now rewrite Hev, Nat.eqb_refl.
Qed.
Lemma k_pass q q' : (0 < k)%nat -> Inv q -> pass zero add w c q = Ok q' -> Inv q'.
Proof.
  intros Hk H E. unfold pass in E. 
  match type of E with bind ?x _ = _ => destruct x as [q1|m] eqn:E1; [|discriminate] end. cbn [bind] in E.
  assert (Inv q1) as H1.
  { destruct (batch_agent_calls c); [|injection E1 as <-; auto].
    destruct (each (receive_batch w) _ q) as [q2|m] eqn:E2; [|discriminate]. cbn [bind] in E1.
    destruct (handle_observe_joint w c q2) as [q3|m] eqn:E3; [|discriminate]. cbn [bind] in E1.
    eapply k_act_joint; [auto| |exact E1]. eapply k_observe_joint; [|exact E3]. eapply k_each; [|exact H|exact E2]. intros; eapply k_receive_batch; eauto. }
  match type of E with bind ?x _ = _ => destruct x as [q2|m] eqn:E2; [|discriminate] end. cbn [bind] in E.
  assert (Inv q2) as H2 by (eapply k_each; [|exact H1|exact E2]; intros; eapply k_visit; eauto).
  eapply k_restart_all; [auto| |exact E]. same.
Qed.
Lemma k_loop fuel : (0 < k)%nat -> forall q q', Inv q -> loop zero add w c fuel q = Ok q' -> Inv q'.
Proof.
  intros Hk. induction fuel as [|fuel IH]; cbn [loop]; intros q q' H E; [injection E as <-; auto|].
  destruct (running c q); [|injection E as <-; auto]. destruct (pass zero add w c q) as [q1|m] eqn:E1; [|discriminate]. cbn [bind] in E.
  eapply IH; [|exact E]. eapply k_pass; eauto.
Qed.
Lemma k_run fuel q : (0 < k)%nat -> (forall q, start zero w c = Ok q -> Inv q) -> run zero add w c fuel = Ok q -> Inv q.
Proof.
  intros Hk Hs E. unfold run in E. destruct (start zero w c) as [q1|m] eqn:E1; [|discriminate]. cbn [bind] in E. exact (k_loop fuel Hk q1 q (Hs q1 eq_refl) E).
Qed.
End Invariant.

(** After the resets at the start *)
Lemma start_log q : start zero w c = Ok q -> exists ns, log q = map Reset ns /\ best q = None /\ internals q = w_initial w.
Proof.
  unfold start. destruct (refused c); [discriminate|].
  assert (forall l q0 q, each start_reset l q0 = Ok q -> exists ns, log q = map Reset ns ++ log q0 /\ best q = best q0 /\ internals q = internals q0) as H.
  { induction l as [|n l IH]; cbn [each]; intros q0 q1 E; [injection E as <-; exists []; auto|].
    destruct (start_reset n q0) as [q2|m] eqn:E2; [|discriminate]. cbn [bind] in E. destruct (IH q2 q1 E) as (ns & L & B & J).
    unfold start_reset in E2. destruct (pending q0 n); [discriminate|]. injection E2 as <-. exists (ns ++ [n]). cbn in *.
    rewrite map_app, <- app_assoc. auto. }
  intros E. destruct (H _ _ _ E) as (ns & L & B & J). exists ns. cbn in *. now rewrite app_nil_r in L.
Qed.

(** ** Evaluation internals *)
Definition kept (q : runner) : Prop := internals_kept w (last c) (log q) /\ internals q = internals_of w (last c) (log q).
Theorem run_kept fuel q : (0 < k)%nat -> evaluation_run c = true -> sync_episodes c = false -> run zero add w c fuel = Ok q -> kept q.
Proof.
  intros Hk Hev Hs. apply (k_run kept); auto.
  - intros q1 q2 E1 _ E3 [H1 H2]. unfold kept. now rewrite E1, E3.
  - intros e q1 He [H1 H2]. unfold kept. destruct e; cbn in *; auto; try tauto.
    unfold is_eval in He. rewrite Hev in He. cbn in He. rewrite He. auto.
  - intros s a i q1 _ _ [H1 H2]. unfold kept. cbn. auto.
  - intros q1 _ [H1 H2]. unfold kept. cbn. rewrite Nat.eqb_refl. auto.
  - intros q1 [H1 H2]. unfold kept, evaluate. destruct (save_best_agent c); [|auto]. cbn.
    destruct (best q1) as [b|]; [destruct (b <? _)|]; cbn; auto.
  - congruence.
  - intros q1 E. destruct (start_log q1 E) as (ns & L & _ & J). unfold kept. rewrite L, J. split.
    + clear. induction ns; cbn; auto.
    + clear. induction ns as [|n ns IH]; cbn; auto. destruct (_ =? _)%nat; auto.
Qed.

(** ** Saving the best agent *)
Definition best_ok (q : runner) : Prop :=
  match best q with None => scores (log q) = [] | Some b => In b (scores (log q)) /\ Forall (fun y => y <= b) (scores (log q)) end.
Lemma saves_other e h : e <> Save -> saves_ok h -> saves_ok (e :: h).
Proof. intros He H [|e' l] h' E; cbn in E; [congruence|]. injection E as _ E. eapply H; eauto. Qed.
Lemma saved_other e h : (forall x, e <> Score x) -> saved_ok h -> saved_ok (e :: h).
Proof.
  intros He H [|e' l] x h' E Hb; cbn in E; injection E as E1 E2; [destruct (He x E1)|]. destruct (H l x h' E2 Hb) as (l' & ->). exists (e' :: l'). reflexivity.
Qed.
Definition book (q : runner) : Prop := best_ok q /\ saves_ok (log q) /\ saved_ok (log q).
Lemma beats_best q x : best_ok q -> (beats x (log q) <-> exists b, best q = Some b /\ b < x).
Proof.
  unfold best_ok, beats. intros H. destruct (best q) as [b|].
  - destruct H as [H1 H2]. rewrite Forall_forall in H2. split.
    + intros [_ Hf]. rewrite Forall_forall in Hf. exists b. split; auto.
    + intros (b' & E & Hlt). injection E as <-. split; [intros E; rewrite E in H1; destruct H1|]. apply Forall_forall. intros y Hy. specialize (H2 y Hy). lia.
  - rewrite H. split; [tauto|]. intros (b & E & _). discriminate.
Qed.
Theorem run_book fuel q : (0 < k)%nat -> run zero add w c fuel = Ok q -> book q.
Proof.
  intros Hk. apply (k_run book); auto.
  - intros q1 q2 E1 E2 _ (H1 & H2 & H3). unfold book, best_ok in *. now rewrite E1, E2.
  - intros e q1 He (H1 & H2 & H3). unfold book, best_ok in *. cbn [log best emit set_log].
    split; [|split; [apply saves_other|apply saved_other]; auto].
    + assert (scores (e :: log q1) = scores (log q1)) as ->; auto. destruct e; cbn in *; auto; destruct He.
    + intros ->. destruct He.
    + intros x ->. destruct He.
  - intros s a i q1 _ _ (H1 & H2 & H3). unfold book, best_ok in *. cbn [log best emit set_log set_internals].
    split; [exact H1|split; [apply saves_other|apply saved_other]; auto; discriminate].
  - intros q1 _ (H1 & H2 & H3). unfold book, best_ok in *. cbn [log best emit set_log set_internals].
    split; [exact H1|split; [apply saves_other|apply saved_other]; auto; discriminate].
  - intros q1 (H1 & H2 & H3). unfold evaluate. destruct (save_best_agent c); [|repeat split; auto]. cbv zeta.
    set (x := w_score w (log q1)). cbn [best emit set_log].
    assert (saves_ok (Score x :: log q1)) as S1 by (apply saves_other; auto; discriminate).
    assert (~ beats x (log q1) -> saved_ok (Score x :: log q1)) as S2.
    { intros Hn l y h' E Hb. destruct l as [|e l]; cbn in E; injection E as E1 E2; [congruence|]. destruct (H3 l y h' E2 Hb) as (l' & ->). exists (e :: l'). reflexivity. }
    pose proof (beats_best q1 x H1) as Hbb. unfold best_ok in H1. destruct (best q1) as [b|] eqn:Eb.
    + destruct H1 as [B1 B2]. destruct (Z.ltb_spec b x) as [Hlt|Hge].
      * split; [|split].
        -- unfold best_ok. cbn. split; auto. constructor; [lia|]. eapply Forall_impl; [|exact B2]. cbn. intros; lia.
        -- intros l h' E. destruct l as [|e l]; cbn in E; [injection E as E2|injection E as E1 E2; now apply (S1 l h')]. subst h'. exists x, (log q1). split; auto.
           apply Hbb. exists b. auto.
        -- intros l y h' E Hb. destruct l as [|e l]; cbn in E; [discriminate|]. injection E as E1 E2. destruct l as [|e' l]; cbn in E2; injection E2 as E3 E4.
           ++ exists []. rewrite <- E1. reflexivity.
           ++ destruct (H3 l y h' E4 Hb) as (l' & ->). exists (e :: e' :: l'). reflexivity.
      * split; [|split]; cbn [log emit set_log]; auto.
        -- unfold best_ok. cbn. rewrite Eb. split; auto.
        -- apply S2. rewrite Hbb. intros (b' & E & Hlt). injection E as <-. lia.
    + split; [|split]; cbn [log emit set_log set_best]; auto.
      * unfold best_ok. cbn. rewrite H1. split; auto. constructor; [lia|auto].
      * apply S2. rewrite Hbb. intros (b' & E & _). discriminate.
  - intros _ q1 _ (H1 & H2 & H3). unfold book, best_ok in *. cbn [log best emit set_log set_internals].
    split; [exact H1|split; [apply saves_other|apply saved_other]; auto; discriminate].
  - intros q1 E. destruct (start_log q1 E) as (ns & L & B & _). unfold book, best_ok. rewrite L, B. split; [|split].
    + clear. induction ns; cbn; auto.
    + intros l h' E'. exfalso. assert (In (@Save S A R I) (map Reset ns)) as Hi by (rewrite E'; apply in_or_app; right; now left).
      apply in_map_iff in Hi. destruct Hi as (n & Hn & _). discriminate.
    + intros l x h' E'. exfalso. assert (In (@Score S A R I x) (map Reset ns)) as Hi by (rewrite E'; apply in_or_app; right; now left).
      apply in_map_iff in Hi. destruct Hi as (n & Hn & _). discriminate.
Qed.

End P.
