(** Theorems C174-C176: variables of modules, and the scripts run.py and tune.py. *)

From Coq Require Import String Ascii List ZArith QArith Qminmax Bool Arith Lia Lqa.
From Verif Require Import Base CfgModel CfgSpec CfgProofs3 ToolModel ToolSpec ToolProofs ToolProofs2.
Import ListNotations.
Open Scope string_scope.
Open Scope list_scope.
Open Scope Z_scope.

(** ** C174: variables *)
(** Which variables can be made, with their name and values *)
Theorem C174_accepted : forall name t shape i scale trainable saved n v b s,
  variable name t shape i scale trainable saved = Ok (n, v, b, s) <->
  (exists m, name = VStr m /\ renamed m n) /\ Forall (fun x => 0 < x) shape /\ initialized t shape i scale v /\
  trainable = VNum (NBool b) /\ saved = VNum (NBool s) /\ (b = true -> t = TFloat).
Proof. intros. apply variable_iff. Qed.
Print Assumptions C174_accepted.

Example C174_weights : variable (VStr "dense/weights") TFloat [8; 4] (IName "orthogonal-relu") (Some (NFloat (1 # 2))) (VNum (NBool true)) (VNum (NBool true)) =
  Ok ("dense_weights", Orthogonal (1 # 2) true, true, true).
Proof. vm_compute. reflexivity. Qed.
Example C174_normal : variable (VStr "w") TFloat [3; 3; 5; 300] (IName "normal") None (VNum (NBool true)) (VNum (NBool true)) =
  Ok ("w", Normal (2 # 345), true, true).
Proof. vm_compute. reflexivity. Qed.

(** The name of a variable has the same length, and no slash *)
Theorem C174_name : forall name t shape i scale trainable saved n v b s,
  variable name t shape i scale trainable saved = Ok (n, v, b, s) ->
  exists m, name = VStr m /\ String.length n = String.length m /\ forall k, String.get k n <> Some "/"%char /\
    (forall c, String.get k m = Some c -> c <> "/"%char -> String.get k n = Some c).
Proof.
  intros name t shape i scale trainable saved n v b s H. apply variable_iff in H. destruct H as ((m & -> & R) & _). exists m. split; auto.
  clear - R. induction R as [|s s' R (L & IH)|c s s' N R (L & IH)]; cbn [String.length]; (split; [congruence|]); intros [|k]; cbn [String.get];
    try (split; [discriminate|discriminate]); try apply IH.
  - split; [discriminate|]. intros c [= <-] F. congruence.
  - split; [congruence|auto].
Qed.
Print Assumptions C174_name.
Example C174_name_case : exists v, variable (VStr "a/b/c") TInt [2] (INumber (NInt 3)) None (VNum (NBool false)) (VNum (NBool true)) = Ok ("a_b_c", v, false, true).
Proof. eexists. vm_compute. reflexivity. Qed.

(** The standard deviation of normal values is at most 0.1, and positive *)
Theorem C174_variance : forall name t shape i scale trainable saved n q b s,
  variable name t shape i scale trainable saved = Ok (n, Normal q, b, s) -> (0 < q <= 1 # 100)%Q.
Proof.
  intros name t shape i scale trainable saved n q b s H. apply variable_iff in H. destruct H as (_ & P & I & _).
  assert (En : forall l k, entries l k -> Forall (fun x => 0 < x) l -> 0 < k).
  { induction 1 as [|x l k _ IH]; intros F; [lia|]. inversion F; subst. apply Z.mul_pos_pos; auto. }
  assert (V : forall k, 0 < k -> (0 < Qmin (1 # 100) (2 / inject_Z k) <= 1 # 100)%Q).
  { intros k K. split; [|apply Q.le_min_l]. apply Q.min_glb_lt; [reflexivity|]. apply Qlt_shift_div_l; [|lra].
    change 0%Q with (inject_Z 0). rewrite <- Zlt_Qlt. auto. }
  inversion I; subst; apply V.
  - apply Forall_app in P. destruct P as (P1 & P2). inversion P2; subst. match goal with H : entries _ _ |- _ => specialize (En _ _ H P1) end. lia.
  - match goal with H : _ \/ _ |- _ => destruct H as [->|(-> & ->)] end; [apply Forall_app in P; destruct P as (P & _)|]; eauto.
Qed.
Print Assumptions C174_variance.
Example C174_variance_case : variable (VStr "w") TFloat [64; 64] (IName "normal-relu") None (VNum (NBool true)) (VNum (NBool true)) = Ok ("w", Normal (1 # 100), true, true).
Proof. vm_compute. reflexivity. Qed.

(** The matrix with orthogonal rows or columns has the shape of the random matrix *)
Theorem C174_factor : forall m n, 0 < m -> 0 < n -> factor m n = (m, n).
Proof.
  intros m n M N. unfold factor. destruct (Z.min m n =? n) eqn:E; [apply Z.eqb_eq in E|apply Z.eqb_neq in E]; f_equal; lia.
Qed.
Print Assumptions C174_factor.
Example C174_factor_case : factor 3 7 = (3, 7) /\ factor 7 3 = (7, 3).
Proof. split; reflexivity. Qed.

(** The initializer 'constant' passes all checks without a scale, but then always fails *)
Theorem C174_constant_refuted : (forall t, check_initializer t (IName "constant") = Ok tt /\ check_scale t (IName "constant") None = Ok tt) /\
  forall name t shape trainable saved r, variable name t shape (IName "constant") None trainable saved <> Ok r.
Proof.
  split; [intros t; split; reflexivity|]. intros name t shape trainable saved (((n & v) & b) & s) H. apply variable_iff in H.
  destruct H as (_ & _ & I & _). inversion I; destruct relu; discriminate.
Qed.
Print Assumptions C174_constant_refuted.

(** The initializer 'normal' fails for a single number, although 'normal-relu' works *)
Theorem C174_scalar_refuted : (forall name scale trainable saved r, variable name TFloat [] (IName "normal") scale trainable saved <> Ok r) /\
  (forall m b s, exists n v, variable (VStr m) TFloat [] (IName "normal-relu") None (VNum (NBool b)) (VNum (NBool s)) = Ok (n, v, b, s)).
Proof.
  split.
  - intros name scale trainable saved (((n & v) & b) & s) H. apply variable_iff in H. destruct H as (_ & _ & I & _). inversion I; subst.
    + destruct ins; discriminate.
    + destruct relu; discriminate.
    + destruct relu; discriminate.
    + destruct relu; discriminate.
  - intros m b s. exists (replace m), (Normal (1 # 100)). destruct b; reflexivity.
Qed.
Print Assumptions C174_scalar_refuted.

(** ** C175: run.py *)
(** What is executed: exactly the given arguments *)
Theorem C175_script : forall int o c, script int o = Ok c ->
  path_ok o /\
  match c with
  | Serve e p => o_remote o = Some "socket-server" /\ environments o e /\ ports int (o_port o) p
  | Execute a e h p => o_remote o <> Some "socket-server" /\ agents o a /\ environments o e /\ hosts (o_host o) h /\ ports int (o_port o) p
  end.
Proof. intros. apply script_ok; auto. Qed.
Print Assumptions C175_script.

(** Which arguments work *)
Theorem C175_accepted : forall int o, (exists c, script int o = Ok c) <->
  path_ok o /\ (o_environment o <> None \/ environment_free o) /\ (exists p, ports int (o_port o) p) /\
  (o_remote o = Some "socket-server" \/ (o_agent o <> None /\ (exists c, location (o_checkpoints o) c) /\ (exists s, location (o_summaries o) s))).
Proof. intros. apply script_total. Qed.
Print Assumptions C175_accepted.

Definition some_options : options := {|
  o_path := Some false; o_episodes := Some 10; o_environment := Some "gym"; o_level := Some "CartPole-v1"; o_visualize := true; o_visualize_directory := None;
  o_host := Some "a,b"; o_port := Some "1,2"; o_remote := Some "socket-client";
  o_agent := Some "agent.json"; o_checkpoints := Some "dir,model"; o_summaries := Some "dir"; o_recordings := None |}.
Example C175_case : script (fun s => if String.eqb s "1" then Some 1 else if String.eqb s "2" then Some 2 else None) some_options =
  Ok (Execute [("agent", Text "agent.json"); ("saver", Pair "dir" "model"); ("summarizer", Text "dir")]
        (Some [("environment", Text "gym"); ("level", Text "CartPole-v1"); ("visualize", Flag true)]) (Some (Texts ["a"; "b"])) (Some (Numbers [1; 2]))).
Proof. vm_compute. reflexivity. Qed.

(** A list of words survives: the words are those which were joined *)
Theorem C175_words : forall l, l <> [] -> Forall no_comma l -> split (join l) = l.
Proof. intros. apply split_join; auto. Qed.
Print Assumptions C175_words.
Theorem C175_words_back : forall s, join (split s) = s /\ Forall no_comma (split s).
Proof. intros. apply join_split. Qed.
Print Assumptions C175_words_back.
Example C175_words_case : split "a,,b" = ["a"; ""; "b"] /\ join ["a"; ""; "b"] = "a,,b".
Proof. split; reflexivity. Qed.

(** The agent is documented as optional, but without it only a server works *)
Theorem C175_agent_refuted : forall int o, o_agent o = None -> (exists c, script int o = Ok c) -> o_remote o = Some "socket-server".
Proof. intros int o A E. apply script_total in E. destruct E as (_ & _ & _ & [E|(E & _)]); [auto|congruence]. Qed.
Print Assumptions C175_agent_refuted.
Example C175_agent_case : exists c, script (fun _ => Some 1) {| o_path := None; o_episodes := None; o_environment := Some "gym"; o_level := None; o_visualize := false;
  o_visualize_directory := None; o_host := None; o_port := Some "1"; o_remote := Some "socket-server"; o_agent := None; o_checkpoints := None; o_summaries := None; o_recordings := None |} = Ok c.
Proof. eexists. vm_compute. reflexivity. Qed.

(** Returns: row [e] has the return of episode [e] of each run with so many episodes, in the order of the runs *)
Theorem C175_recorded : forall X (runs : list (list X)) episodes, (forall r, In r runs -> (length r <= episodes)%nat) ->
  exists rows, recorded episodes runs = Ok rows /\ length rows = episodes /\
  forall e, (e < episodes)%nat -> nth_error rows e = Some (flat_map (fun run => cell (nth_error run e)) runs).
Proof.
  intros X runs episodes L. unfold recorded. destruct (all_recorded runs (repeat [] episodes)) as (rows & E & L' & F).
  { rewrite repeat_length. auto. }
  exists rows. split; auto. rewrite repeat_length in L'. split; auto. intros e He. specialize (F e []). cbn [app] in F. apply F.
  rewrite nth_error_nth' with (d := []) by (rewrite repeat_length; auto). f_equal. clear. revert e. induction episodes; intros [|e]; cbn; auto.
Qed.
Print Assumptions C175_recorded.
Example C175_recorded_case : recorded 3 [[1; 2; 3]; [4; 5; 6]] = Ok [[1; 4]; [2; 5]; [3; 6]].
Proof. reflexivity. Qed.

(** If all runs have all episodes, every row has one return of each run *)
Theorem C175_rectangular : forall X (runs : list (list X)) episodes rows, (forall r, In r runs -> length r = episodes) -> recorded episodes runs = Ok rows ->
  length rows = episodes /\ (forall row, In row rows -> length row = length runs) /\
  (forall e n row run, nth_error rows e = Some row -> nth_error runs n = Some run -> nth_error row n = nth_error run e).
Proof.
  intros X runs episodes rows L E. destruct (C175_recorded X runs episodes) as (rows' & E' & L' & F). { intros r I. rewrite (L r I). auto. }
  rewrite E in E'. injection E' as <-. split; auto.
  assert (G : forall e, (e < episodes)%nat -> length (flat_map (fun run => cell (nth_error run e)) runs) = length runs /\
    forall n run, nth_error runs n = Some run -> nth_error (flat_map (fun run => cell (nth_error run e)) runs) n = nth_error run e).
  { intros e He. clear - L He. induction runs as [|r q IH]; [split; [reflexivity|intros [|n]; discriminate]|].
    destruct IH as (IH1 & IH2); [intros x I; apply L; right; auto|]. cbn [flat_map]. destruct (nth_error r e) as [x|] eqn:Nx.
    - cbn. split; [congruence|]. intros [|n] run H; cbn in *; [congruence|auto].
    - apply nth_error_None in Nx. specialize (L r (or_introl eq_refl)). lia. }
  split.
  - intros row I. apply In_nth_error in I. destruct I as (e & N). assert (e < episodes)%nat. { rewrite <- L'. apply nth_error_Some. congruence. }
    rewrite F in N by auto. injection N as <-. apply G; auto.
  - intros e n row run N R. assert (e < episodes)%nat. { rewrite <- L'. apply nth_error_Some. congruence. }
    rewrite F in N by auto. injection N as <-. apply G; auto.
Qed.
Print Assumptions C175_rectangular.
(** A run with more episodes fails *)
Theorem C175_longer : forall X (runs : list (list X)) episodes r, In r runs -> (episodes < length r)%nat -> exists e, recorded episodes runs = Err e.
Proof. intros X runs episodes r I L. apply all_too_long with r; auto. rewrite repeat_length. auto. Qed.
Print Assumptions C175_longer.
Example C175_longer_case : recorded 2 [[1; 2]; [4; 5; 6]] = Err "IndexError".
Proof. reflexivity. Qed.

(** ** C176: tune.py *)
(** Every configuration of the space gives arguments; they are accepted iff the horizon is at most the known limit of episodes *)
Theorem C176_accepted : forall actions max parallel c, NoDup (map fst actions) -> in_space c ->
  exists a, tune_args actions max parallel c = Ok a /\ ((exists m, construct a = Ok m) <-> exists n, max = Some n /\ c_horizon c <= n).
Proof.
  intros actions max parallel c ND S. destruct (tune_total actions max parallel c S) as (a & T). exists a. split; auto.
  rewrite <- (tune_accepted _ _ _ _ _ S T). assert (D := tune_distinct _ _ _ _ _ ND T). split.
  - intros (m & E). apply construct_ok in E; auto. apply E.
  - intros A. apply construct_total; auto.
Qed.
Print Assumptions C176_accepted.

(** So some configurations of the space are rejected if the limit is below the longest horizon, or not known *)
Theorem C176_limit_refuted : forall actions max parallel, NoDup (map fst actions) -> (forall n, max = Some n -> n < 100) ->
  exists c a e, in_space c /\ tune_args actions max parallel c = Ok a /\ construct a = Err e.
Proof.
  intros actions max parallel ND L.
  exists {| c_batch_size := 10; c_learning_rate := 1 # 1000; c_multi_step := 5; c_horizon := 100; c_discount := 99 # 100; c_importance_sampling := "no";
            c_clipping_value := 2 # 10; c_baseline := "no"; c_baseline_weight := None; c_estimate_advantage := None; c_entropy_regularization := 1 # 100 |}.
  match goal with |- exists a e, in_space ?c /\ _ => assert (S : in_space c) end.
  { unfold in_space, within. cbn -[In]. repeat split; try (unfold Qle; cbn; lia); try lia; try (cbn; auto; fail); cbn in *; congruence. }
  destruct (C176_accepted actions max parallel _ ND S) as (a & T & A). exists a. destruct (construct a) as [m|e] eqn:E; [|exists e; auto].
  destruct A as (A & _). destruct A as (n & M & H); [eauto|]. specialize (L n M). cbn in H. lia.
Qed.
Print Assumptions C176_limit_refuted.

(** The agents which are made: updates, horizon and baseline *)
Theorem C176_made : forall actions max parallel c a m, NoDup (map fst actions) -> in_space c -> tune_args actions max parallel c = Ok a -> construct a = Ok m ->
  u_unit (m_update m) = "episodes" /\ u_batch (m_update m) = (Some (c_batch_size c), Some (c_batch_size c)) /\ u_frequency (m_update m) = Some (Some 1, Some 1) /\
  m_horizon m = Steps (Some (c_horizon c), Some (c_horizon c)) /\ m_baseline m = (if String.eqb (c_baseline c) "yes" then Some StateValue else None).
Proof. intros actions max parallel c a m ND S T E. destruct (tune_updates _ _ _ _ _ _ ND S T E) as (U1 & U2 & U3 & U4). split; auto. split; auto. split; auto. split; auto. eapply tune_baseline_class; eauto. Qed.
Print Assumptions C176_made.
Example C176_made_case : exists a m, tune_args [("a", TInt); ("b", TFloat)] (Some 500) 1
  {| c_batch_size := 10; c_learning_rate := 1 # 1000; c_multi_step := 5; c_horizon := 50; c_discount := 99 # 100; c_importance_sampling := "no";
     c_clipping_value := 2 # 10; c_baseline := "yes"; c_baseline_weight := Some 1%Q; c_estimate_advantage := Some "yes"; c_entropy_regularization := 1 # 100 |} = Ok a /\
  construct a = Ok m /\ m_baseline m = Some StateValue.
Proof. eexists; eexists. split; [vm_compute; reflexivity|]. split; vm_compute; reflexivity. Qed.

(** The weight of the baseline is that of the configuration *)
Theorem C176_weight : forall actions max parallel c a, in_space c -> tune_args actions max parallel c = Ok a ->
  (c_baseline c = "no" <-> a_baseline_optimizer a = NoOptimizer) /\ (forall w, a_baseline_optimizer a = Weight w <-> c_baseline c <> "no" /\ c_baseline_weight c = Some w) /\
  (c_baseline c = "no" <-> a_baseline_objective a = None).
Proof.
  intros actions max parallel c a S T. destruct (tune_fields _ _ _ _ _ T) as (_ & _ & _ & _ & _ & _ & _ & _ & _ & _ & _ & _ & _ & p & e & Fr & B).
  destruct (baseline_cases _ _ _ _ _ _ S B) as [(Z & _ & _ & _ & O & Ob)|(w & x & N & _ & _ & _ & W & _ & _ & _ & _ & O & Ob)]; rewrite O, Ob.
  - split; [tauto|]. split; [|tauto]. intros w. split; [discriminate|]. intros (F & _). congruence.
  - split; [split; [congruence|discriminate]|]. split; [|split; [congruence|discriminate]]. intros v. rewrite W. split; [intros [= <-]; auto|]. intros (_ & [= <-]). auto.
Qed.
Print Assumptions C176_weight.

(** The number of runs is that of the round *)
Theorem C176_runs : forall base runs budget n, 2 <= base ->
  (num_runs base runs budget = Ok n <-> exists i, budget = base ^ Z.of_nat i /\ nth_error runs i = Some n).
Proof. intros. apply num_runs_iff; auto. Qed.
Print Assumptions C176_runs.
Example C176_runs_case : num_runs 3 [1; 2; 5] 9 = Ok 5 /\ num_runs 3 [1; 2; 5] 6 = Err "AssertionError".
Proof. split; reflexivity. Qed.

(** Each round has [base] times fewer candidates, and the last has one *)
Theorem C176_candidates : forall base rounds, length (candidates base rounds) = rounds /\
  (forall i x y, nth_error (candidates base rounds) i = Some x -> nth_error (candidates base rounds) (S i) = Some y -> x = base * y) /\
  ((0 < rounds)%nat -> nth_error (candidates base rounds) (rounds - 1) = Some 1).
Proof.
  intros base rounds. assert (L : length (candidates base rounds) = rounds) by (unfold candidates; rewrite map_length, seq_length; auto). split; auto. split.
  - intros i x y X Y. assert (Sl : (S i < rounds)%nat) by (rewrite <- L; apply nth_error_Some; congruence).
    rewrite candidates_nth in X by lia. rewrite candidates_nth in Y by lia. injection X as <-. injection Y as <-.
    replace (rounds - S i)%nat with (S (rounds - S (S i))) by lia. rewrite Nat2Z.inj_succ, Z.pow_succ_r by lia. reflexivity.
  - intros P. rewrite candidates_nth by lia. replace (rounds - S (rounds - 1))%nat with 0%nat by lia. reflexivity.
Qed.
Print Assumptions C176_candidates.
Example C176_candidates_case : candidates 3 3 = [9; 3; 1].
Proof. reflexivity. Qed.

(** The loss: better returns are not worse, constant returns count twice, negated *)
Theorem C176_loss : forall a b, Forall2 (Forall2 Qle) a b -> (loss b <= loss a)%Q.
Proof. intros. apply loss_le; auto. Qed.
Print Assumptions C176_loss.
Theorem C176_loss_constant : forall q runs, runs <> [] -> (forall r, In r runs -> exists n, (0 < n)%nat /\ r = repeat q n) -> (loss runs == - (2) * q)%Q.
Proof. intros. apply loss_constant; auto. Qed.
Print Assumptions C176_loss_constant.
(** Up to 20 episodes: the negated mean, twice *)
Theorem C176_loss_short : forall runs, (forall r, In r runs -> (length r <= 20)%nat) -> (loss runs == - (2) * mean (map mean runs))%Q.
Proof. intros. apply loss_short; auto. Qed.
Print Assumptions C176_loss_short.
(** Episodes before the last 20 count only in the mean over all *)
Theorem C176_loss_final : forall early late, length late = 20%nat ->
  (loss [early ++ late] == - ((sum early + sum late) / inject_Z (Z.of_nat (length early) + 20) + sum late / 20))%Q.
Proof. intros. apply loss_final; auto. Qed.
Print Assumptions C176_loss_final.
Example C176_loss_case : (loss [[1; 2; 3]; [3; 4; 5]] == - (6))%Q.
Proof. vm_compute. reflexivity. Qed.

(** The objective is clipped iff the value is at most one, and there are no more parallel environments than episodes of a batch *)
Theorem C176_clipping : forall c q, tune_clipping c = Some q <-> q = c_clipping_value c /\ (q <= 1)%Q.
Proof.
  intros c q. unfold tune_clipping. destruct (Qle_bool (c_clipping_value c) 1) eqn:E.
  - apply Qle_bool_iff in E. split; [intros [= <-]; auto|intros (-> & _); auto].
  - split; [discriminate|]. intros (-> & L). apply Qle_bool_iff in L. congruence.
Qed.
Print Assumptions C176_clipping.
Theorem C176_parallel : forall p c, in_space c -> (forall n, p = Some n -> 1 <= n) ->
  1 <= tune_parallel p c <= c_batch_size c /\ (forall n, p = Some n -> tune_parallel p c <= n /\ (tune_parallel p c = n \/ tune_parallel p c = c_batch_size c)).
Proof.
  intros p c (S & _) P. unfold tune_parallel. destruct p as [n|]; [specialize (P n eq_refl)|].
  - split; [lia|]. intros m [= <-]. lia.
  - split; [lia|]. discriminate.
Qed.
Print Assumptions C176_parallel.
