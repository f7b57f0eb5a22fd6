(** More proofs for C175 and C176. *)

From Coq Require Import String Ascii List ZArith QArith Qminmax Bool Arith Lia Lqa.
From Verif Require Import Base CfgModel CfgSpec CfgProofs3 ToolModel ToolSpec ToolProofs.
Import ListNotations.
Open Scope string_scope.
Open Scope list_scope.
Open Scope Z_scope.

(** ** The script run.py *)

Lemma environment_ok o e : environment_of o = Ok e -> environments o e.
Proof.
  unfold environment_of. cbn zeta. intros H. destruct (o_environment o) as [n|] eqn:E.
  - injection H as <-. apply (environments_some o n); auto.
    + destruct (o_level o), (o_visualize o), (o_visualize_directory o); cbn; repeat (constructor; [cbn; intuition discriminate|]); constructor.
    + intros k v. cbn [In]. rewrite !in_app_iff, !entry_in. split.
      * intros [[= <- <-]|[(-> & H)|[H|(-> & H)]]]; auto.
        -- right; left. split; auto. destruct (o_level o); [|discriminate]. injection H as <-. eauto.
        -- right; right; left. destruct (o_visualize o); [|destruct H]. destruct H as [[= <- <-]|[]]. auto.
        -- right; right; right. split; auto. destruct (o_visualize_directory o); [|discriminate]. injection H as <-. eauto.
      * intros [(-> & ->)|[(-> & x & -> & ->)|[(-> & -> & ->)|(-> & x & -> & ->)]]]; cbn; auto.
  - destruct (o_level o) eqn:E1; cbn in H; [discriminate|]. destruct (o_visualize o) eqn:E2; cbn in H; [discriminate|].
    destruct (o_visualize_directory o) eqn:E3; cbn in H; [discriminate|]. injection H as <-. constructor; auto.
Qed.
Lemma environment_total o : (exists e, environment_of o = Ok e) <-> o_environment o <> None \/ environment_free o.
Proof.
  unfold environment_of, environment_free. cbn zeta. destruct (o_environment o) as [n|].
  - split; [left; discriminate|eauto].
  - destruct (o_level o); cbn; [split; [intros (e & H); discriminate|intros [H|(H & _)]; [congruence|discriminate]]|].
    destruct (o_visualize o); cbn; [split; [intros (e & H); discriminate|intros [H|(_ & H & _)]; [congruence|discriminate]]|].
    destruct (o_visualize_directory o); cbn; [split; [intros (e & H); discriminate|intros [H|(_ & _ & H)]; [congruence|discriminate]]|].
    split; [auto|eauto].
Qed.

Lemma agent_ok o a : agent_of o = Ok a -> agents o a.
Proof.
  unfold agent_of. destruct (o_agent o) as [n|] eqn:E; [|discriminate]. intros H. apply bind_inv in H. destruct H as (c & Hc & H).
  apply bind_inv in H. destruct H as (s & Hs & H). injection H as <-. apply directory_iff in Hc. apply directory_iff in Hs.
  exists n, c, s. split; auto. split; auto. split; auto. split.
  - destruct c, s, (o_recordings o); cbn; repeat (constructor; [cbn; intuition discriminate|]); constructor.
  - intros k v. cbn [In]. rewrite !in_app_iff, !entry_in. split.
    + intros [[= <- <-]|[(-> & H)|[(-> & H)|(-> & H)]]]; auto. right; right; right. split; auto.
      destruct (o_recordings o); [|discriminate]. injection H as <-. eauto.
    + intros [(-> & ->)|[(-> & ->)|[(-> & ->)|(-> & x & -> & ->)]]]; cbn; auto.
Qed.
Lemma agent_total o : (exists a, agent_of o = Ok a) <-> o_agent o <> None /\ (exists c, location (o_checkpoints o) c) /\ (exists s, location (o_summaries o) s).
Proof.
  unfold agent_of. split.
  - intros (a & H). destruct (o_agent o) as [nm|]; [|discriminate]. apply bind_inv in H. destruct H as (c & Hc & H).
    apply bind_inv in H. destruct H as (s & Hs & H). split; [discriminate|]. split; [exists c|exists s]; apply directory_iff; auto.
  - intros (A & (c & C) & s & S). destruct (o_agent o) as [nm|]; [|congruence]. apply directory_iff in C. apply directory_iff in S. rewrite C. cbn [bind].
    rewrite S. cbn [bind]. eauto.
Qed.

Lemma path_iff o : (exists x, match o_path o with None => Ok tt
  | Some extension => assert_ (negb extension && match o_episodes o with Some _ => true | None => false end) "AssertionError" end = Ok x) <-> path_ok o.
Proof.
  unfold path_ok. destruct (o_path o) as [x|]; [|split; [intros _ y H; discriminate|eauto]]. split.
  - intros (u & H) y [= <-]. apply assert_iff, andb_true_iff in H. destruct H as (H1 & H2). destruct x; [discriminate|]. split; auto. destruct (o_episodes o); discriminate.
  - intros H. destruct (H x eq_refl) as (-> & E). destruct (o_episodes o); [|congruence]. exists tt. reflexivity.
Qed.

Lemma script_ok int o c : script int o = Ok c ->
  path_ok o /\
  match c with
  | Serve e p => o_remote o = Some "socket-server" /\ environments o e /\ ports int (o_port o) p
  | Execute a e h p => o_remote o <> Some "socket-server" /\ agents o a /\ environments o e /\ hosts (o_host o) h /\ ports int (o_port o) p
  end.
Proof.
  unfold script. intros H. apply bind_inv in H. destruct H as (u & P & H). assert (Po := proj1 (path_iff o) (ex_intro _ _ P)). split; auto.
  apply bind_inv in H. destruct H as (e & E & H). apply environment_ok in E. apply bind_inv in H. destruct H as (p & Pp & H). apply port_iff in Pp.
  destruct (o_remote o) as [r|].
  - destruct (String.eqb r "socket-server") eqn:R.
    + apply String.eqb_eq in R. injection H as <-. subst. auto.
    + apply String.eqb_neq in R. apply bind_inv in H. destruct H as (a & A & H). injection H as <-. split; [congruence|]. apply agent_ok in A.
      split; auto. split; auto. split; auto. apply host_iff; auto.
  - apply bind_inv in H. destruct H as (a & A & H). injection H as <-. split; [congruence|]. apply agent_ok in A.
    split; auto. split; auto. split; auto. apply host_iff; auto.
Qed.
Lemma script_total int o : (exists c, script int o = Ok c) <->
  path_ok o /\ (o_environment o <> None \/ environment_free o) /\ (exists p, ports int (o_port o) p) /\
  (o_remote o = Some "socket-server" \/ (o_agent o <> None /\ (exists c, location (o_checkpoints o) c) /\ (exists s, location (o_summaries o) s))).
Proof.
  rewrite <- path_iff, <- environment_total, <- agent_total. unfold script. split.
  - intros (c & H). apply bind_inv in H. destruct H as (u & P & H). split; [eauto|].
    apply bind_inv in H. destruct H as (e & E & H). split; [eauto|]. apply bind_inv in H. destruct H as (p & Pp & H). apply port_iff in Pp. split; [eauto|].
    destruct (o_remote o) as [r|].
    + destruct (String.eqb r "socket-server") eqn:R.
      * apply String.eqb_eq in R. subst. auto.
      * apply bind_inv in H. destruct H as (a & A & H). eauto.
    + apply bind_inv in H. destruct H as (a & A & H). eauto.
  - intros ((u & ->) & (e & ->) & (p & P) & R). apply port_iff in P. cbn [bind]. rewrite P. cbn [bind]. destruct R as [->|(a & ->)].
    + cbn. eauto.
    + destruct (o_remote o) as [r|]; [destruct (String.eqb r "socket-server")|]; cbn; eauto.
Qed.

(** ** Recorded returns *)

Lemma append_ok {X} i (x : X) rows : (i < length rows)%nat -> exists rows', append_at i x rows = Ok rows' /\ length rows' = length rows /\
  forall e r, nth_error rows e = Some r -> nth_error rows' e = Some (if Nat.eqb e i then r ++ [x] else r).
Proof.
  revert i. induction rows as [|r q IH]; intros i L; [cbn in L; lia|]. destruct i as [|i]; cbn [append_at].
  - eexists. split; [reflexivity|]. split; [reflexivity|]. intros [|e] r' H; cbn in *; [congruence|auto].
  - destruct (IH i) as (q' & -> & L' & F); [cbn in L; lia|]. cbn [bind]. eexists. split; [reflexivity|]. split; [cbn; auto|].
    intros [|e] r' H; cbn in *; [auto|apply F; auto].
Qed.
Lemma append_err {X} i (x : X) rows : (length rows <= i)%nat -> exists e, append_at i x rows = Err e.
Proof.
  revert i. induction rows as [|r q IH]; intros i L; [destruct i; cbn; eauto|]. destruct i as [|i]; [cbn in L; lia|]. cbn [append_at].
  destruct (IH i) as (e & ->); [cbn in L; lia|]. cbn. eauto.
Qed.
Lemma run_recorded {X} (run : list X) rows i : (i + length run <= length rows)%nat ->
  exists rows', record_run rows i run = Ok rows' /\ length rows' = length rows /\
  forall e r, nth_error rows e = Some r -> nth_error rows' e = Some (r ++ (if Nat.ltb e i then [] else cell (nth_error run (e - i)))).
Proof.
  revert rows i. induction run as [|x q IH]; intros rows i L; cbn [record_run].
  - eexists. split; [reflexivity|]. split; auto. intros e r H. destruct (Nat.ltb e i); [rewrite app_nil_r; auto|]. destruct (e - i)%nat; cbn; rewrite app_nil_r; auto.
  - destruct (append_ok i x rows) as (rows1 & -> & L1 & F1); [cbn in L; lia|]. cbn [bind].
    destruct (IH rows1 (S i)) as (rows2 & -> & L2 & F2); [cbn in L; lia|]. eexists. split; [reflexivity|]. split; [congruence|].
    intros e r H. rewrite (F2 e _ (F1 e r H)). f_equal. destruct (Nat.eqb e i) eqn:Ei.
    + apply Nat.eqb_eq in Ei. subst. rewrite Nat.sub_diag, Nat.ltb_irrefl. replace (Nat.ltb i (S i)) with true by (symmetry; apply Nat.ltb_lt; lia).
      cbn. rewrite app_nil_r. auto.
    + apply Nat.eqb_neq in Ei. destruct (Nat.ltb e i) eqn:El.
      * apply Nat.ltb_lt in El. replace (Nat.ltb e (S i)) with true by (symmetry; apply Nat.ltb_lt; lia). auto.
      * apply Nat.ltb_ge in El. replace (Nat.ltb e (S i)) with false by (symmetry; apply Nat.ltb_ge; lia).
        replace (e - i)%nat with (S (e - S i)) by lia. auto.
Qed.
Lemma run_too_long {X} (run : list X) rows i : (length rows < i + length run)%nat -> (i <= length rows)%nat -> exists e, record_run rows i run = Err e.
Proof.
  revert rows i. induction run as [|x q IH]; intros rows i L B; cbn [record_run].
  - cbn in L. lia.
  - destruct (lt_dec i (length rows)) as [I|I].
    + destruct (append_ok i x rows I) as (rows1 & -> & L1 & _). cbn [bind]. apply IH; cbn in L; lia.
    + destruct (append_err i x rows) as (e & ->); [lia|]. cbn. eauto.
Qed.
Lemma all_recorded {X} (runs : list (list X)) rows : (forall r, In r runs -> (length r <= length rows)%nat) ->
  exists rows', record_all rows runs = Ok rows' /\ length rows' = length rows /\
  forall e r, nth_error rows e = Some r -> nth_error rows' e = Some (r ++ flat_map (fun run => cell (nth_error run e)) runs).
Proof.
  revert rows. induction runs as [|r q IH]; intros rows L; cbn [record_all].
  - eexists. split; [reflexivity|]. split; auto. intros e x H. cbn. rewrite app_nil_r. auto.
  - destruct (run_recorded r rows 0) as (rows1 & -> & L1 & F1); [apply L; left; auto|]. cbn [bind].
    destruct (IH rows1) as (rows2 & -> & L2 & F2). { intros x I. rewrite L1. apply L; right; auto. }
    eexists. split; [reflexivity|]. split; [congruence|]. intros e x H. rewrite (F2 _ _ (F1 e x H)). cbn [flat_map Nat.ltb Nat.leb].
    rewrite Nat.sub_0_r, app_assoc. reflexivity.
Qed.
Lemma all_too_long {X} (runs : list (list X)) rows r : In r runs -> (length rows < length r)%nat -> exists e, record_all rows runs = Err e.
Proof.
  revert rows. induction runs as [|x q IH]; intros rows I L; [destruct I|]. cbn [record_all].
  destruct (record_run rows 0 x) as [rows1|e] eqn:E; [|cbn; eauto]. cbn [bind].
  destruct (le_lt_dec (length x) (length rows)) as [B|B].
  - destruct (run_recorded x rows 0 B) as (rows2 & E2 & L2 & _). rewrite E in E2. injection E2 as <-. destruct I as [<-|I]; [lia|]. apply IH; auto. lia.
  - destruct (run_too_long x rows 0) as (e & E2); [lia|lia|]. congruence.
Qed.

(** ** The script tune.py *)
Lemma tune_total actions max parallel c : in_space c -> exists a, tune_args actions max parallel c = Ok a.
Proof.
  intros (_ & _ & _ & _ & _ & _ & _ & _ & B & _ & N). unfold tune_args, tune_baseline.
  destruct B as [B|[B|[B|[]]]]; rewrite <- B in *; cbn -[Qle_bool]; eauto; destruct N as ((w & -> & _) & e & -> & _); try discriminate; cbn -[Qle_bool]; eauto.
Qed.

Ltac keys := repeat match goal with
  | H : In _ (_ :: _) |- _ => destruct H as [H|H]
  | H : In _ [] |- _ => destruct H
  | H : (_, _) = (_, _) |- _ => injection H; clear H; intros; subst
  end; try discriminate.

Lemma tune_distinct actions max parallel c a : NoDup (map fst actions) -> tune_args actions max parallel c = Ok a -> distinct a.
Proof.
  intros N H. unfold tune_args in H. apply bind_inv in H. destruct H as (((((p, e), b), o), ob) & _ & H). injection H as <-.
  unfold distinct. cbn -[In]. split; [|split; [|split; [exact N|exact I]]]; repeat (constructor; [cbn; intuition discriminate|]); constructor.
Qed.

Lemma tune_fields actions max parallel c a : tune_args actions max parallel c = Ok a ->
  a_actions a = actions /\ a_max a = max /\ a_policy a = Network /\ a_policy_past a = 0 /\ a_memory a = Recent /\ a_capacity a = None /\
  a_update a = [("unit", VStr "episodes"); ("batch_size", VNum (NInt (c_batch_size c))); ("frequency", VNum (NInt 1))] /\
  a_objective a = PolicyGradient /\ a_baseline_past a = 0 /\
  a_entropy_regularization a = VNum (NFloat (if Qle_bool (1 # 100000) (c_entropy_regularization c) then c_entropy_regularization c else 0)) /\
  a_exploration a = EValue (VNum (NFloat 0)) /\ a_variable_noise a = VNum (NFloat 0) /\ a_buffer_observe a = None /\
  exists p e, a_reward_estimation a = [("horizon", VNum (NInt (c_horizon c))); ("discount", VNum (NFloat (c_discount c)));
          ("predict_horizon_values", p); ("estimate_advantage", e); ("predict_action_values", VNum (NBool false))] /\
    tune_baseline c = Ok (p, e, a_baseline a, a_baseline_optimizer a, a_baseline_objective a).
Proof.
  unfold tune_args. intros H. apply bind_inv in H. destruct H as (((((p, e), b), o), ob) & B & H). injection H as <-. cbn -[Qle_bool]. repeat (split; [reflexivity|]).
  exists p, e. auto.
Qed.

Lemma baseline_cases c p e b o ob : in_space c -> tune_baseline c = Ok (p, e, b, o, ob) ->
  (c_baseline c = "no" /\ p = VNum (NBool false) /\ e = VNum (NBool false) /\ b = None /\ o = NoOptimizer /\ ob = None) \/
  (exists w x, c_baseline c <> "no" /\ (b = None \/ b = Some Network) /\ (b = None <-> c_baseline c = "same") /\ (b = Some Network <-> c_baseline c = "yes") /\ c_baseline_weight c = Some w /\ (0 < w)%Q /\ c_estimate_advantage c = Some x /\
     p = VStr "early" /\ e = VNum (NBool (String.eqb x "yes")) /\ o = Weight w /\ ob = Some (Value true)).
Proof.
  intros (_ & _ & _ & _ & _ & _ & _ & _ & B & _ & N) H. unfold tune_baseline in H. destruct B as [B|[B|[B|[]]]]; rewrite <- B in *; cbn in H.
  - injection H as <- <- <- <- <-. left. auto 10.
  - right. destruct N as ((w & W & Wb) & x & X & _); [discriminate|]. rewrite W, X in H. cbn in H. injection H as <- <- <- <- <-.
    exists w, x. split; [discriminate|]. split; [auto|]. split; [tauto|]. split; [split; discriminate|]. split; auto. split; [unfold within in Wb; lra|]. auto 10.
  - right. destruct N as ((w & W & Wb) & x & X & _); [discriminate|]. rewrite W, X in H. cbn in H. injection H as <- <- <- <- <-.
    exists w, x. split; [discriminate|]. split; [auto|]. split; [split; discriminate|]. split; [tauto|]. split; auto. split; [unfold within in Wb; lra|]. auto 10.
Qed.


Ltac member := cbn [In]; repeat first [left; reflexivity|right].

Lemma tune_accepted actions max parallel c a : in_space c -> tune_args actions max parallel c = Ok a ->
  (accepted a <-> exists n, max = Some n /\ c_horizon c <= n).
Proof.
  intros S T. destruct (tune_fields _ _ _ _ _ T) as (Fa & Fm & Fp & Fpp & Fme & Fc & Fu & Fo & Fbp & Fe & Fx & Fn & Fb & p & e & Fr & B).
  assert (Cs : (a_baseline a = None \/ a_baseline a = Some Network) /\ (a_baseline_objective a = None \/ a_baseline_objective a = Some (Value true)) /\
               forall q, a_baseline_optimizer a = Weight q -> (0 <= q)%Q).
  { destruct (baseline_cases _ _ _ _ _ _ S B) as [(_ & _ & _ & -> & -> & ->)|(w & x & _ & Cb & _ & _ & _ & Cw & _ & _ & _ & -> & ->)].
    - split; auto. split; auto. discriminate.
    - split; auto. split; auto. intros q [= <-]. lra. }
  destruct Cs as (Cb & Co & Cw). destruct S as (Sb & _ & _ & Sh & Sd & _ & _ & Se & _). split.
  - intros (_ & _ & G & _ & _ & M). destruct M as (_ & _ & M & _). unfold given in M. rewrite Fu, Fm, Fb in M.
    destruct max as [n|]; [|destruct M; [left; reflexivity|reflexivity|reflexivity]]. exists n. split; auto.
    destruct G as (_ & [(G & _)|(v & lo & hi & G & R & _ & L)] & _); unfold given in G; rewrite Fr in G; keys.
    inversion R; subst. destruct (L n Fm) as (y & Y & Ly). injection Y as <-. auto.
  - intros (n & -> & Hn). unfold within in *.
    assert (Ent : (0 <= if Qle_bool (1 # 100000) (c_entropy_regularization c) then c_entropy_regularization c else 0)%Q).
    { destruct (Qle_bool _ _) eqn:Q; [apply Qle_bool_iff in Q|]; lra. }
    split; [unfold good_exploration; rewrite Fx; right; exists (Some 0%Q), (Some 0%Q); split; [constructor|exists 0%Q; split; [auto|lra]]|].
    split; [rewrite Fn; right; exists (Some 0%Q), (Some 0%Q); split; [constructor|exists 0%Q; split; [auto|lra]]|].
    split; [|split; [|split]].
    + unfold good_reward, good_horizon, good_processing, unset, value_or, only, omitted, given. cbn zeta. rewrite Fr, Fm.
      split; [intros k v I; keys; member|].
      split; [right; exists (VNum (NInt (c_horizon c))), (Some (c_horizon c)), (Some (c_horizon c)); split; [member|]; split; [constructor|];
              split; [exists (c_horizon c); split; [auto|lia]|intros m [= <-]; exists (c_horizon c); auto]|].
      split; [right; exists (VNum (NFloat (c_discount c))); split; [member|]; exists (Some (c_discount c)), (Some (c_discount c)); split; [constructor|];
              split; exists (c_discount c); split; auto; lra|].
      split; [left; left; intros v I; keys|]. split; [left; left; intros v I; keys|]. split; [left; left; intros v I; keys|].
      split; [intros I; keys|]. split.
      * intros v [I|(_ & ->)]; [keys|]. split; [exists (Some 1%Q), (Some 1%Q); split; [constructor|]; split; exists 1%Q; split; auto; lra|].
        left. right; right; right. exists 1%Q. split; auto. reflexivity.
      * intros v [I|(_ & ->)]; [keys|]. split; [exists (Some 0%Q), (Some 0%Q); split; [constructor|]; split; exists 0%Q; split; auto; lra|].
        left. right; right; right. exists 0%Q. split; auto. reflexivity.
    + unfold good_update, good_frequency, good_start, unset, only, omitted, given. rewrite Fu.
      split; [intros k v I; keys; member|]. split; [right; member|].
      exists (VNum (NInt (c_batch_size c))), (Some (c_batch_size c)), (Some (c_batch_size c)). split; [member|]. split; [constructor|].
      split; [exists (c_batch_size c); split; [auto|lia]|]. right. exists (c_batch_size c). split; auto. split.
      * right; right. exists (VNum (NInt 1)), (Some 1), (Some 1). split; [member|]. split; [constructor|]. split; exists 1; split; auto; lia.
      * left; left. intros v I; keys.
    + unfold good_policies. rewrite Fo, Fp, Fe. split; [intros D; inversion D|].
      split; [intros o Eo D; destruct Co as [Co|Co]; rewrite Co in Eo; [discriminate|]; injection Eo as <-; inversion D|].
      split; [discriminate|]. split; [destruct Cb as [Cb|Cb]; rewrite Cb; discriminate|]. split; [|exact Cw].
      right. split; [eexists; eexists; split; [constructor|]; eexists; split; [reflexivity|exact Ent]|].
      right; right. split; auto. left. right; left. rewrite Fo. constructor.
    + unfold good_memory, given. rewrite Fu, Fm, Fc. split; [intros I; keys|]. split.
      * intros _ _. exists (c_batch_size c), (VNum (NInt (c_batch_size c))), (Some (c_batch_size c)). unfold given. rewrite Fu. split; [member|constructor].
      * split; [discriminate|]. intros x; discriminate.
Qed.

(** Predictions are made early, or there are none *)
Lemma tune_predicting actions max parallel c a : in_space c -> tune_args actions max parallel c = Ok a -> c_baseline c <> "no" -> predicting a.
Proof.
  intros S T N. destruct (tune_fields _ _ _ _ _ T) as (_ & _ & _ & _ & _ & _ & _ & _ & _ & _ & _ & _ & _ & p & e & Fr & B).
  destruct (baseline_cases _ _ _ _ _ _ S B) as [(Z & _)|(w & x & _ & _ & _ & _ & _ & _ & _ & -> & _)]; [congruence|].
  left. unfold predicts_horizon, given, omitted. cbn zeta. rewrite Fr. intros [(_ & O & _)|[(G & _)|(G & _)]].
  - apply (O (VStr "early")). member.
  - unfold False_ in G. keys.
  - destruct G as [G|(O & _)]; [keys|]. apply (O (VStr "early")). member.
Qed.

Lemma tune_baseline_class actions max parallel c a m : NoDup (map fst actions) -> in_space c -> tune_args actions max parallel c = Ok a -> construct a = Ok m ->
  m_baseline m = (if String.eqb (c_baseline c) "yes" then Some StateValue else None).
Proof.
  intros ND S T E. assert (D := tune_distinct _ _ _ _ _ ND T). apply construct_ok in E; auto. destruct E as (_ & O).
  destruct (tune_fields _ _ _ _ _ T) as (_ & _ & _ & _ & _ & _ & _ & Fo & _ & _ & _ & _ & _ & p & e & Fr & B).
  destruct O as (_ & _ & _ & _ & _ & _ & _ & _ & _ & _ & _ & O & _).
  destruct (baseline_cases _ _ _ _ _ _ S B) as [(Z & _ & _ & Eb & _)|(w & x & N & Cb & C1 & C2 & _ & _ & _ & _ & _ & _ & Co)].
  - rewrite Eb in O. rewrite Z. apply O.
  - destruct Cb as [Cb|Cb]; rewrite Cb in O.
    + rewrite (proj1 C1 Cb). apply O.
    + rewrite (proj1 C2 Cb). cbn. destruct O as (k & -> & K & _). f_equal. cbn in K.
      assert (U : forall f, baseline_considered a f -> f = "state_value").
      { intros f [[(_ & V)|[(Dt & _)|(o & Eo & U)]]|(P & _)].
        - destruct V as [(_ & v & G & V)|(-> & _)]; auto. exfalso. unfold given in G. rewrite Fr in G. keys. destruct V as (_ & _ & V). apply V.
          right; left. split; auto. reflexivity.
        - rewrite Fo in Dt. inversion Dt.
        - rewrite Co in Eo. injection Eo as <-. inversion U; auto.
        - destruct P. eapply tune_predicting; eauto. }
      destruct k; auto; exfalso; apply (proj1 K U).
Qed.

(** The number of runs *)
Lemma exponent_ok base i k tries : 2 <= base -> (k <= i)%nat -> (i < k + tries)%nat -> exponent base (base ^ Z.of_nat i) k tries = Some i.
Proof.
  intros B. revert k. induction tries as [|t IH]; intros k L U; [lia|]. cbn [exponent]. destruct (Nat.eq_dec k i) as [->|N].
  - rewrite Z.eqb_refl. auto.
  - assert (base ^ Z.of_nat k < base ^ Z.of_nat i) by (apply Z.pow_lt_mono_r; lia).
    replace (base ^ Z.of_nat i =? base ^ Z.of_nat k) with false by (symmetry; apply Z.eqb_neq; lia). apply IH; lia.
Qed.
Lemma exponent_some base budget k tries i : exponent base budget k tries = Some i -> budget = base ^ Z.of_nat i /\ (k <= i < k + tries)%nat.
Proof.
  revert k. induction tries as [|t IH]; intros k; cbn [exponent]; [discriminate|]. destruct (budget =? base ^ Z.of_nat k) eqn:E.
  - apply Z.eqb_eq in E. intros [= <-]. split; auto. lia.
  - intros H. apply IH in H. destruct H as (H1 & H2). split; auto. lia.
Qed.
Lemma num_runs_iff base runs budget n : 2 <= base -> (num_runs base runs budget = Ok n <-> exists i, budget = base ^ Z.of_nat i /\ nth_error runs i = Some n).
Proof.
  intros B. unfold num_runs. replace (base =? 1) with false by (symmetry; apply Z.eqb_neq; lia). split.
  - destruct (exponent base budget 0 (length runs)) as [i|] eqn:E; [|discriminate]. apply exponent_some in E. destruct E as (E & _).
    destruct (nth_error runs i) eqn:N; [|discriminate]. intros [= <-]. eauto.
  - intros (i & -> & N). assert (i < length runs)%nat by (apply nth_error_Some; congruence). rewrite exponent_ok by lia. rewrite N. auto.
Qed.

Lemma candidates_nth base rounds i : (i < rounds)%nat -> nth_error (candidates base rounds) i = Some (base ^ Z.of_nat (rounds - S i)).
Proof.
  intros L. unfold candidates. rewrite nth_error_map. assert (E : nth_error (seq 1 rounds) i = Some (S i)).
  { rewrite nth_error_nth' with (d := 0%nat) by (rewrite seq_length; auto). rewrite seq_nth by auto. reflexivity. }
  rewrite E. reflexivity.
Qed.

(** The loss *)
Lemma sum_le a b : Forall2 Qle a b -> (sum a <= sum b)%Q.
Proof. induction 1; cbn; lra. Qed.
Lemma forall2_length {X Y} (R : X -> Y -> Prop) a b : Forall2 R a b -> length a = length b.
Proof. induction 1; cbn; auto. Qed.
Lemma mean_le a b : Forall2 Qle a b -> (mean a <= mean b)%Q.
Proof.
  intros F. unfold mean. rewrite (forall2_length _ _ _ F). apply sum_le in F. apply Qmult_le_compat_r; auto. apply Qinv_le_0_compat.
  change 0%Q with (inject_Z 0). rewrite <- Zle_Qle. lia.
Qed.
Lemma skipn_forall2 {X Y} (R : X -> Y -> Prop) n a b : Forall2 R a b -> Forall2 R (skipn n a) (skipn n b).
Proof. intros F. revert n. induction F as [|x y a b H F IH]; intros [|n]; cbn; auto. Qed.
Lemma loss_le a b : Forall2 (Forall2 Qle) a b -> (loss b <= loss a)%Q.
Proof.
  intros F. unfold loss.
  assert (H1 : (mean (map mean a) <= mean (map mean b))%Q). { apply mean_le. induction F; cbn; constructor; auto. apply mean_le; auto. }
  assert (H2 : (mean (map (fun r => mean (last20 r)) a) <= mean (map (fun r => mean (last20 r)) b))%Q).
  { clear H1. apply mean_le. induction F as [|x y a b H F IH]; cbn; constructor; auto. apply mean_le. unfold last20. rewrite (forall2_length _ _ _ H).
    apply skipn_forall2; auto. }
  lra.
Qed.
Lemma loss_short runs : (forall r, In r runs -> (length r <= 20)%nat) -> (loss runs == - (2) * mean (map mean runs))%Q.
Proof.
  intros H. unfold loss. rewrite (map_ext_in (fun r => mean (last20 r)) mean runs); [lra|]. intros r I. unfold last20. specialize (H r I).
  replace (length r - 20)%nat with 0%nat by lia. reflexivity.
Qed.
Lemma sum_repeat q n : (sum (repeat q n) == inject_Z (Z.of_nat n) * q)%Q.
Proof.
  induction n as [|n IH]; cbn [repeat sum]; [change (inject_Z (Z.of_nat 0)) with 0%Q; lra|]. rewrite IH, Nat2Z.inj_succ, <- Z.add_1_l, inject_Z_plus. change (inject_Z 1) with 1%Q. lra.
Qed.
Lemma mean_repeat q n : (0 < n)%nat -> (mean (repeat q n) == q)%Q.
Proof.
  intros P. unfold mean. rewrite repeat_length, sum_repeat. field. intros H. unfold Qeq in H. cbn in H. lia.
Qed.
Lemma mean_same q l : l <> [] -> (forall x, In x l -> x == q)%Q -> (mean l == q)%Q.
Proof.
  intros N H. unfold mean. assert (S : (sum l == inject_Z (Z.of_nat (length l)) * q)%Q).
  { clear N. induction l as [|x l IH]; [cbn [sum length]; change (inject_Z (Z.of_nat 0)) with 0%Q; lra|]. cbn [sum length]. rewrite IH by (intros; apply H; right; auto). rewrite (H x) by (left; auto).
    rewrite Nat2Z.inj_succ, <- Z.add_1_l, inject_Z_plus. change (inject_Z 1) with 1%Q. lra. }
  rewrite S. destruct l; [congruence|]. field. intros F. unfold Qeq in F. cbn in F. lia.
Qed.
Lemma loss_constant q runs : runs <> [] -> (forall r, In r runs -> exists n, (0 < n)%nat /\ r = repeat q n) -> (loss runs == - (2) * q)%Q.
Proof.
  intros N H. unfold loss. rewrite (mean_same q (map mean runs)), (mean_same q (map _ runs)); [lra| | | |].
  - destruct runs; [congruence|discriminate].
  - intros x I. apply in_map_iff in I. destruct I as (r & <- & I). destruct (H r I) as (n & P & ->). apply mean_same.
    + unfold last20. intros F. assert (L := skipn_length (length (repeat q n) - 20) (repeat q n)). rewrite F, repeat_length in L. cbn in L. lia.
    + intros x J. apply In_nth_error in J. destruct J as (k & J). unfold last20 in J.
      assert (J' : In x (repeat q n)). { rewrite <- (firstn_skipn (length (repeat q n) - 20)). apply in_app_iff. right. eapply nth_error_In; eauto. }
      apply repeat_spec in J'. rewrite J'. reflexivity.
  - destruct runs; [congruence|discriminate].
  - intros x I. apply in_map_iff in I. destruct I as (r & <- & I). destruct (H r I) as (n & P & ->). apply mean_repeat; auto.
Qed.
Lemma sum_app a b : (sum (a ++ b) == sum a + sum b)%Q.
Proof. induction a as [|x a IH]; cbn; [lra|]. rewrite IH. lra. Qed.
Lemma loss_final early late : length late = 20%nat ->
  (loss [early ++ late] == - ((sum early + sum late) / inject_Z (Z.of_nat (length early) + 20) + sum late / 20))%Q.
Proof.
  intros L. unfold loss, last20. cbn [map]. assert (M : forall x, (mean [x] == x)%Q). { intros x. unfold mean. cbn [sum length]. change (inject_Z (Z.of_nat 1)) with 1%Q. field. }
  rewrite !M. rewrite app_length, L. replace (length early + 20 - 20)%nat with (length early) by lia.
  rewrite skipn_app, skipn_all, Nat.sub_diag. cbn [app skipn]. unfold mean. rewrite sum_app, app_length, L. rewrite Nat2Z.inj_add. reflexivity.
Qed.

Lemma tune_updates actions max parallel c a m : NoDup (map fst actions) -> in_space c -> tune_args actions max parallel c = Ok a -> construct a = Ok m ->
  u_unit (m_update m) = "episodes" /\ u_batch (m_update m) = (Some (c_batch_size c), Some (c_batch_size c)) /\ u_frequency (m_update m) = Some (Some 1, Some 1) /\
  m_horizon m = Steps (Some (c_horizon c), Some (c_horizon c)).
Proof.
  intros ND S T E. assert (D := tune_distinct _ _ _ _ _ ND T). apply construct_ok in E; auto. destruct E as (_ & O).
  assert (U : update_effect (a_update a) (m_update m)) by apply O. assert (H : horizon_effect a (m_horizon m)) by apply O. clear O.
  destruct (tune_fields _ _ _ _ _ T) as (_ & _ & _ & _ & _ & _ & Fu & _ & _ & _ & _ & _ & _ & p & e & Fr & _).
  unfold update_effect, frequency_effect, unset, omitted, given in U. rewrite Fu in U. destruct U as (_ & _ & G & batch & Gb & R & _ & C).
  destruct (m_update m) as [un (lo, hi) fr st]. cbn [u_unit u_batch u_frequency u_start fst snd] in *.
  assert (un = "episodes") as -> by (keys; congruence). assert (batch = VNum (NInt (c_batch_size c))) as -> by (keys; congruence).
  inversion R; subst. split; auto. split; auto. split.
  - destruct C as [(F & _)|(most & (l, h) & s & _ & _ & -> & _ & F & _)]; [keys|]. cbn [fst snd] in F.
    destruct F as [([U|U] & _)|[(r & n & k & U & _)|(v & U & Rv & _)]].
    + destruct (U (VNum (NInt 1))). cbn; auto.
    + keys.
    + keys.
    + keys. inversion Rv; subst. auto.
  - unfold horizon_effect, given in H. cbn zeta in H. rewrite Fr in H. destruct H as [(G' & _)|(v & l & h & G' & Rv & _ & _ & ->)]; keys.
    inversion Rv; subst. auto.
Qed.
