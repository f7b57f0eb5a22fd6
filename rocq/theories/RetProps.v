(** Theorems about reward estimation (C11, C12, C14, C15). *)

From Coq Require Import String List ZArith Lia Bool QArith Qcanon.
From Coq Require Import ZifyBool ZifyNat.
From Verif Require Import Base BaseFacts Field RetSpec RetModel RetProofs.
Import ListNotations.
Open Scope Z_scope.

(** The horizon that counts for an episode of length T: horizon = "episode" means
    the whole episode. *)
Definition effective_horizon (o : option Z) (T : nat) : nat :=
  match o with None => T | Some h => Z.to_nat h end.

(** Values a configuration may use: the predictions of the baseline if
    predict_horizon_values = 'early', nothing otherwise. *)
Definition used_values {K : field} {X} (bval : X -> K) (early : bool) (xs : list X) : nat -> K :=
  if early then value_at bval xs else (fun _ => 0%F).

(** ** C11 *)

Theorem C11_finished_return : forall (K : field) X (bval : X -> K) c xs rs ts T,
  rc_trace K c = None -> rc_predterm K c = false ->
  (forall h, rc_horizon K c = Some h -> 1 <= h) ->
  length xs = T -> length rs = T -> length ts = T -> (1 <= T)%nat ->
  nth_error ts (T - 1) = Some 1 ->
  episode_returns K X bval c xs rs ts
  = Ok (tabulate T (nstep (rc_discount K c) (at_ rs) (used_values bval (rc_early K c) xs) T
                          (effective_horizon (rc_horizon K c) T))).
Proof.
  intros K X bval c xs rs ts T Htr Hpt Hh Hx Hr Ht HT Hf.
  rewrite (episode_returns_ok K X bval c xs rs ts 1 T); auto.
  - unfold ret, rews, final_reward. rewrite Htr, Hpt. reflexivity.
  - split; [congruence|]. destruct (rc_horizon K c); auto.
  - congruence.
  - unfold final_reward. rewrite Hpt. discriminate.
Qed.
Print Assumptions C11_finished_return.

(** Each implementation on its own, wherever core_experience may use it: the
    iterative one for every horizon reaching the end of the episode, the parallel
    one for every shorter horizon; one formula covers both. *)
Theorem C11_both_implementations : forall (K : field) X (bval : X -> K) c xs rs ts T h,
  rc_trace K c = None -> rc_predterm K c = false -> 1 <= h ->
  length xs = T -> length rs = T -> length ts = T -> (1 <= T)%nat ->
  nth_error ts (T - 1) = Some 1 ->
  let spec := tabulate T (nstep (rc_discount K c) (at_ rs) (used_values bval (rc_early K c) xs) T (Z.to_nat h)) in
  (Z.of_nat T <= h -> terminal_iterative K X bval c xs rs ts = Ok spec) /\
  (h < Z.of_nat T -> terminal_parallel K X bval c h xs rs ts = Ok spec).
Proof.
  intros K X bval c xs rs ts T h Htr Hpt Hh Hx Hr Ht HT Hf spec.
  pose (c' := {| rc_horizon := Some h; rc_discount := rc_discount K c; rc_early := rc_early K c;
                 rc_predterm := rc_predterm K c; rc_trace := rc_trace K c |}).
  assert (terminal_iterative K X bval c xs rs ts = terminal_iterative K X bval c' xs rs ts) as E1 by reflexivity.
  assert (terminal_parallel K X bval c h xs rs ts = terminal_parallel K X bval c' h xs rs ts) as E2 by reflexivity.
  assert (wf_conf K c') as Hwf by (split; [cbn; congruence|exact Hh]).
  assert (spec = tabulate T (ret K c' (rews K X bval c' xs rs 1) (vals K X bval c' xs) T (Z.to_nat h))) as Es.
  { unfold spec, ret, rews, final_reward. cbn [rc_trace rc_predterm rc_discount c']. rewrite Htr, Hpt. reflexivity. }
  rewrite E1, E2, Es. split; intros HTh.
  - apply terminal_iterative_ok; auto; try lia.
    + cbn. congruence.
    + unfold final_reward. cbn. rewrite Hpt. discriminate.
  - apply terminal_parallel_ok; auto.
Qed.
Print Assumptions C11_both_implementations.

Definition qc (z : Z) : Qc_field := Q2Qc (inject_Z z).
Definition half : Qc_field := Q2Qc (1 # 2).
Definition third : Qc_field := Q2Qc (1 # 3).
Definition ex_conf (o : option Z) (early pt : bool) (l : option Qc_field) : rconf Qc_field :=
  {| rc_horizon := o; rc_discount := half; rc_early := early; rc_predterm := pt; rc_trace := l |}.

(** Equality of lists of canonical rationals, up to the proof component. *)
Definition same_list (a b : res (list Qc)) : Prop :=
  match a, b with Ok x, Ok y => map this x = map this y | _, _ => False end.

(** Episode of 4 timesteps, horizon 2, values 10 20 30 40. *)
Example C11_example :
  same_list (episode_returns Qc_field Z qc (ex_conf (Some 2) true false None) [10; 20; 30; 40]
               (map qc [1; 2; 3; 4]) [0; 0; 0; 1])
            (Ok [Q2Qc (19 # 2); Q2Qc (27 # 2); qc 5; qc 4]) /\
  same_list (episode_returns Qc_field Z qc (ex_conf (Some 7) true false None) [10; 20; 30; 40]
               (map qc [1; 2; 3; 4]) [0; 0; 0; 1])
            (Ok [Q2Qc (13 # 4); Q2Qc (9 # 2); qc 5; qc 4]).
Proof. vm_compute. split; reflexivity. Qed.

(** ** C12 *)

(** Abort: the last reward is replaced by the prediction for the last state; the
    rest is the ordinary return. *)
Theorem C12_abort_bootstraps : forall (K : field) X (bval : X -> K) c xs rs ts T f,
  rc_early K c = true -> rc_predterm K c = false ->
  (forall h, rc_horizon K c = Some h -> 1 <= h) ->
  length xs = T -> length rs = T -> length ts = T -> (1 <= T)%nat ->
  (rc_trace K c <> None -> (2 <= T)%nat) ->
  rc_discount K c <> 0%F ->
  nth_error ts (T - 1) = Some f -> f <> 1 ->
  let h := effective_horizon (rc_horizon K c) T in
  let V := value_at bval xs in
  let r := with_last (at_ rs) T (V (T - 1)%nat) in
  episode_returns K X bval c xs rs ts
  = Ok (tabulate T (match rc_trace K c with
                    | None => nstep (rc_discount K c) r V T h
                    | Some l => lambda_return (rc_discount K c) l r V T h
                    end)).
Proof.
  intros K X bval c xs rs ts T f He Hpt Hh Hx Hr Ht HT H2 Hg Hf Hf1 h V r.
  rewrite (episode_returns_ok K X bval c xs rs ts f T); auto.
  - f_equal. unfold ret, rews, final_reward, vals. rewrite He, Hpt. cbn [negb andb].
    destruct (Z.eqb_spec f 1); [contradiction|]. rewrite Hr.
    destruct (rc_trace K c); reflexivity.
  - split; [auto|]. destruct (rc_horizon K c); auto.
Qed.
Print Assumptions C12_abort_bootstraps.

(** True terminal: the predictions for the timesteps from t+h on, and in
    particular anything the baseline says about the last state when the horizon
    reaches the end, are irrelevant; all that is ever added to the rewards is one
    prediction strictly inside the episode. *)
Theorem C12_terminal_no_bootstrap : forall (K : field) X (bval bval' : X -> K) c xs rs ts T,
  rc_trace K c = None -> rc_predterm K c = false ->
  length xs = T -> length rs = T -> length ts = T -> (1 <= T)%nat ->
  nth_error ts (T - 1) = Some 1 ->
  (forall h, rc_horizon K c = Some h -> Z.of_nat T <= h) ->
  episode_returns K X bval c xs rs ts = episode_returns K X bval' c xs rs ts /\
  episode_returns K X bval c xs rs ts
  = Ok (tabulate T (fun t => sumn (T - t) (fun k => fpow (rc_discount K c) k * at_ rs (t + k)))%F).
Proof.
  intros K X bval bval' c xs rs ts T Htr Hpt Hx Hr Ht HT Hf Hh.
  assert (forall b, episode_returns K X b c xs rs ts
    = Ok (tabulate T (fun t => sumn (T - t) (fun k => fpow (rc_discount K c) k * at_ rs (t + k)))%F)) as G.
  { intros b. rewrite (C11_finished_return K X b c xs rs ts T); auto.
    2: { intros h Eh. specialize (Hh h Eh). lia. }
    f_equal. apply tabulate_ext. intros t HtT.
    rewrite (nstep_end K _ _ _ T _ (T - t)).
    - unfold nstep. replace (t + (T - t) <? T)%nat with false by lia.
      rewrite (sumn_ext K _ _ (fun k => (fpow (rc_discount K c) k * at_ rs (t + k))%F)).
      + pose proof (fth K) as [[A0 AC _ _ _ _ _ _ _] _ _ _]. rewrite AC. apply A0.
      + intros k Hk. replace (t + k <? T)%nat with true by lia. reflexivity.
    - unfold effective_horizon. destruct (rc_horizon K c) as [h|]; [|lia].
      specialize (Hh h eq_refl). lia.
    - lia. }
  split; [rewrite !G; reflexivity|apply G].
Qed.
Print Assumptions C12_terminal_no_bootstrap.

Example C12_example :
  same_list (episode_returns Qc_field Z qc (ex_conf (Some 2) true false None) [10; 20; 30; 40]
               (map qc [1; 2; 3; 4]) [0; 0; 0; 2])
            (Ok [Q2Qc (19 # 2); Q2Qc (27 # 2); qc 23; qc 40]) /\
  same_list (episode_returns Qc_field Z qc (ex_conf None true false None) [10; 20; 30; 40]
               (map qc [1; 2; 3; 4]) [0; 0; 0; 2])
            (Ok [Q2Qc (31 # 4); Q2Qc (27 # 2); qc 23; qc 40]) /\
  same_list (episode_returns Qc_field Z qc (ex_conf None true false None) [10; 20; 30; 40]
               (map qc [1; 2; 3; 4]) [0; 0; 0; 1])
            (Ok [Q2Qc (13 # 4); Q2Qc (9 # 2); qc 5; qc 4]).
Proof. vm_compute. repeat split; reflexivity. Qed.

(** ** C14 *)

(** Missing: episodes of a single timestep, see the next theorem. *)
Theorem C14_lambda_return_partial : forall (K : field) X (bval : X -> K) c xs rs ts T l,
  rc_trace K c = Some l -> rc_early K c = true -> rc_predterm K c = false ->
  (forall h, rc_horizon K c = Some h -> 1 <= h) ->
  length xs = T -> length rs = T -> length ts = T -> (2 <= T)%nat ->
  nth_error ts (T - 1) = Some 1 ->
  episode_returns K X bval c xs rs ts
  = Ok (tabulate T (lambda_return (rc_discount K c) l (at_ rs) (value_at bval xs) T
                          (effective_horizon (rc_horizon K c) T))).
Proof.
  intros K X bval c xs rs ts T l Htr He Hpt Hh Hx Hr Ht HT Hf.
  rewrite (episode_returns_ok K X bval c xs rs ts 1 T); auto; try lia.
  - f_equal. unfold ret, rews, final_reward, vals. rewrite Htr, He, Hpt. reflexivity.
  - split; [auto|]. destruct (rc_horizon K c); auto.
  - unfold final_reward. rewrite Hpt. discriminate.
Qed.
Print Assumptions C14_lambda_return_partial.

(** l = 1 (as a parameter value) gives what trace_decay = 1.0 (which selects
    other code) gives. *)
Theorem C14_lambda_one : forall (K : field) X (bval : X -> K) c1 c2 xs rs ts T f,
  rc_trace K c1 = Some 1%F -> rc_trace K c2 = None ->
  rc_early K c1 = true -> rc_early K c2 = true -> rc_predterm K c1 = rc_predterm K c2 ->
  rc_discount K c1 = rc_discount K c2 -> rc_horizon K c1 = rc_horizon K c2 ->
  (forall h, rc_horizon K c1 = Some h -> 1 <= h) ->
  length xs = T -> length rs = T -> length ts = T -> (2 <= T)%nat ->
  nth_error ts (T - 1) = Some f -> rc_discount K c1 <> 0%F ->
  episode_returns K X bval c1 xs rs ts = episode_returns K X bval c2 xs rs ts.
Proof.
  intros K X bval c1 c2 xs rs ts T f Ht1 Ht2 He1 He2 Hp Hd Hhh Hh Hx Hr Ht HT Hf Hg.
  rewrite (episode_returns_ok K X bval c1 xs rs ts f T); auto; try lia.
  2: { split; [auto|]. destruct (rc_horizon K c1); auto. }
  rewrite (episode_returns_ok K X bval c2 xs rs ts f T); auto; try lia.
  2: { split; [auto|]. rewrite <- Hhh. destruct (rc_horizon K c1); auto. }
  2: { now rewrite <- Hd. }
  f_equal. apply tabulate_ext. intros t HtT. unfold ret, rews, final_reward, vals, horizon_of.
  rewrite Ht1, Ht2, He1, He2, Hp, Hd, Hhh. apply lambda_one.
  rewrite <- Hhh. destruct (rc_horizon K c1) as [h|]; [specialize (Hh h eq_refl); lia|lia].
Qed.
Print Assumptions C14_lambda_one.

Example C14_example :
  same_list (episode_returns Qc_field Z qc (ex_conf (Some 2) true false (Some third)) [10; 20; 30]
               (map qc [1; 2; 3]) [0; 0; 1])
            (Ok [Q2Qc (21 # 2); Q2Qc (25 # 2); qc 3]) /\
  same_list (episode_returns Qc_field Z qc (ex_conf None true false (Some third)) [10; 20; 30]
               (map qc [1; 2; 3]) [0; 0; 1])
            (Ok [Q2Qc (39 # 4); Q2Qc (25 # 2); qc 3]).
Proof. vm_compute. split; reflexivity. Qed.

(** An episode of one timestep is rejected by every configuration with
    trace_decay != 1 (values = states[1:] is empty, values[-1] fails). *)
Theorem C14_single_timestep_refuted : forall (K : field) X (bval : X -> K) c l x r f,
  rc_trace K c = Some l -> rc_early K c = true ->
  (forall h, rc_horizon K c = Some h -> 1 <= h) ->
  episode_returns K X bval c [x] [r] [f] = Err "gather: index out of range".
Proof.
  intros K X bval c l x r f Htr He Hh. eapply lambda_single; eauto.
  split; [auto|]. destruct (rc_horizon K c); auto.
Qed.
Print Assumptions C14_single_timestep_refuted.

Example C14_single_example :
  episode_returns Qc_field Z qc (ex_conf (Some 2) true false (Some third)) [10] [qc 1] [1]
  = Err "gather: index out of range".
Proof. vm_compute. reflexivity. Qed.

(** ** C15 *)

(** A batch is a concatenation of fragments; each is (advantages, terminal flags),
    all flags 0 but the last one, which is non-zero except possibly in the very
    last fragment. *)
Definition fragment {A} (f : list A * list Z) : Prop :=
  length (fst f) = length (snd f) /\ (1 <= length (fst f))%nat /\
  forall k, (k < length (snd f) - 1)%nat -> nth_error (snd f) k = Some 0.
Definition closed {A} (f : list A * list Z) : Prop :=
  forall t, nth_error (snd f) (length (snd f) - 1) = Some t -> t <> 0.

Theorem C15_gae_no_leak : forall (K : field) (g l : K) (frs : list (list K * list Z)) (last : list K * list Z),
  Forall fragment (frs ++ [last]) -> Forall closed frs ->
  gae_scan K g l (concat (map fst (frs ++ [last]))) (concat (map snd (frs ++ [last])))
  = Ok (concat (map (fun f => gae (g * l)%F (fst f)) (frs ++ [last]))).
Proof.
  intros K g l frs last. induction frs as [|f frs IH]; intros HF HC.
  - cbn [app map concat]. rewrite !app_nil_r. inversion HF as [|? ? [H1 [H2 H3]] _]; subst.
    now apply gae_scan_one.
  - cbn [app map concat]. inversion HF as [|? ? [H1 [H2 H3]] HF']; subst.
    inversion HC as [|? ? HCf HC']; subst.
    rewrite gae_scan_snoc_fragment; auto.
    + rewrite gae_scan_one by auto. cbn [bind]. rewrite IH by auto. reflexivity.
    + clear -HF'. induction (frs ++ [last]) as [|a b IHb]; [reflexivity|].
      inversion HF' as [|? ? [E _] ?]; subst. cbn [map concat]. rewrite !app_length, E. f_equal. now apply IHb.
    + intros E. rewrite E in H2. cbn in H2. lia.
Qed.
Print Assumptions C15_gae_no_leak.

Example C15_example :
  let frs := [(map qc [1; 2; 4], [0; 0; 1]); (map qc [8], [2])] in
  let last := (map qc [3; 6], [0; 0]) in
  Forall fragment (frs ++ [last]) /\ Forall closed frs /\
  same_list (gae_scan Qc_field half half (concat (map fst (frs ++ [last]))) (concat (map snd (frs ++ [last]))))
            (Ok [Q2Qc (7 # 4); qc 3; qc 4; qc 8; Q2Qc (9 # 2); qc 6]).
Proof.
  cbn zeta. split; [|split].
  - repeat constructor; cbn; try lia; intros [|[|k]] Hk; cbn in Hk; try lia; reflexivity.
  - repeat constructor; intros t Ht; cbn in Ht; inversion Ht; lia.
  - vm_compute. reflexivity.
Qed.
