(** Which algorithm a named agent is, and existing agents (C103, C104). *)

From Coq Require Import String List ZArith Bool Lia.
From Verif Require Import Base AgtModel AgtProofs AgtProofs2 AgtProps AgtMoreProps.
Import ListNotations.
Open Scope string_scope.
Open Scope Z_scope.
Open Scope list_scope.

(** ** Specification *)
(** What makes an agent: fixed settings at places of the model's arguments; [None] if nothing is set
    there.  [baseline]: whether there is a baseline (PPO, TRPO, VPG). *)
Definition setting := (list string * option value)%type.
Definition likelihoods (temperature : value) : list setting :=
  [(["policy"; "type"], Some (Str "parametrized_distributions")); (["policy"; "temperature"], Some temperature)].
Definition uses_memory (kind unit : string) : list setting :=
  [(["memory"; "type"], Some (Str kind)); (["update"; "unit"], Some (Str unit))].
Definition with_adam : list setting := [(["optimizer"; "type"], Some (Str "adam"))].
Definition estimation (predict_horizon_values : value) (estimate_advantage : bool) (predict_action_values : option bool) : list setting :=
  [(["reward_estimation"; "predict_horizon_values"], Some predict_horizon_values);
   (["reward_estimation"; "estimate_advantage"], Some (Bool estimate_advantage));
   (["reward_estimation"; "predict_action_values"], option_map Bool predict_action_values)].
Definition learned_critic (kind objective : string) : list setting :=
  [(["baseline"; "type"], Some (Str kind)); (["baseline_objective"; "type"], Some (Str objective))].
Definition deep_q (implicit : bool) (predict_action_values : bool) : list setting :=
  [(["policy"; "type"], Some (Str "parametrized_value_policy"));
   (["policy"; "state_value_mode"], if implicit then Some (Str "implicit") else None);
   (["objective"; "type"], Some (Str "action_value"));
   (["baseline"; "type"], Some (Str "parametrized_value_policy"));
   (["baseline"; "state_value_mode"], if implicit then Some (Str "implicit") else None);
   (["baseline_optimizer"; "type"], Some (Str "synchronization")); (["baseline_objective"], Some None_)]
  ++ uses_memory "replay" "timesteps" ++ with_adam ++ estimation (Str "late") false (Some predict_action_values).
Definition episodic (baseline : bool) : list setting :=
  likelihoods (Float 1 0) ++ uses_memory "recent" "episodes" ++ [(["reward_estimation"; "horizon"], Some (Str "episode"))]
  ++ (if baseline then estimation (Str "early") true (Some false) ++ learned_critic "parametrized_state_value" "state_value"
      else estimation (Bool false) false None ++ [(["baseline"], Some None_); (["baseline_optimizer"], Some None_); (["baseline_objective"], Some None_)]).
Definition settings (c : class) (baseline : bool) : list setting :=
  match c with
  | A2C => likelihoods (Float 1 0) ++ uses_memory "recent" "timesteps" ++ with_adam ++ [(["objective"], Some (Str "policy_gradient"))]
           ++ estimation (Str "early") true (Some false) ++ learned_critic "parametrized_state_value" "state_value"
  | AC => likelihoods (Float 1 0) ++ uses_memory "recent" "timesteps" ++ with_adam ++ [(["objective"], Some (Str "policy_gradient"))]
          ++ estimation (Str "early") false (Some false) ++ learned_critic "parametrized_state_value" "state_value"
  | DPG => likelihoods (Float 0 0) ++ uses_memory "replay" "timesteps" ++ with_adam ++ [(["objective"], Some (Str "deterministic_policy_gradient"))]
           ++ estimation (Str "late") false (Some true) ++ learned_critic "parametrized_action_value" "action_value"
  | DQN => deep_q true false
  | DoubleDQN => deep_q true true
  | DuelingDQN => deep_q false true
  | PPO => episodic baseline ++ [(["optimizer"; "optimizer"], Some (Str "adam")); (["objective"; "type"], Some (Str "policy_gradient"));
                                 (["objective"; "importance_sampling"], Some (Bool true))]
  | TRPO => episodic baseline ++ [(["optimizer"; "optimizer"], Some (Str "natural_gradient")); (["optimizer"; "only_positive_updates"], Some (Bool true));
                                  (["objective"; "type"], Some (Str "policy_gradient")); (["objective"; "importance_sampling"], Some (Bool true));
                                  (["objective"; "clipping_value"], None)]
  | VPG => episodic baseline ++ with_adam ++ [(["objective"], Some (Str "policy_gradient"))]
  | Constant | Random | Tensorforce => []
  end.

Definition set_as (m : dict) (l : list setting) : Prop := Forall (fun s => at_ (fst s) m = snd s) l.
Ltac settings_of := unfold set_as; repeat (apply Forall_cons; [cbn [fst snd at_]; reflexivity|]); apply Forall_nil.

Lemma settings_at c a g path v : finish c a = Ok g ->
  In (path, v) (settings c (negb (is_none (arg a "baseline")))) -> at_ path (g_model g) = v.
Proof.
  intros F I. assert (A : set_as (g_model g) (settings c (negb (is_none (arg a "baseline"))))); [clear I|unfold set_as in A; rewrite Forall_forall in A; exact (A _ I)].
  destruct (built_on_base c) eqn:B; [|destruct c; try discriminate B; apply Forall_nil].
  destruct (finish_model c a g B F) as (p & c0 & c1 & P & _ & _ & ->). clear F B.
  assert (RM : recent a = if is_str "minimum" (arg a "memory") then Dict [("type", Str "recent")] else Dict [("type", Str "recent"); ("capacity", arg a "memory")]) by reflexivity.
  destruct c; cbn [class_body] in P; try discriminate P.
  1,2: unfold a2c_body, ac_body in P; rewrite RM in P; destruct (is_str "minimum" (arg a "memory")); injection P as <-; settings_of.
  1-4: injection P as <-; settings_of.
  all: unfold ppo_body, trpo_body, vpg_body, episode_parts in P; rewrite RM in P.
  all: destruct (is_none (arg a "baseline")) eqn:N; cbn [negb];
    [destruct (assert_ (negb (truthy (arg a "predict_terminal_values"))) _); [|discriminate P]; cbn [bind] in P;
     destruct (arg a "baseline_optimizer") eqn:BO; cbn [is_none assert_ bind] in P; try discriminate P
    |destruct (assert_ (negb (is_none (arg a "baseline_optimizer"))) _); [|discriminate P]; cbn [bind] in P];
    destruct (is_str "minimum" (arg a "memory")); injection P as <-; settings_of.
Qed.

(** ** C103: named agents *)
(** Whatever the arguments, an agent has the settings that make it the algorithm it is named after. *)
Theorem C103_settings c kw g path v : construct c kw = Ok g ->
  In (path, v) (settings c (match value_of c kw "baseline" with Some None_ | None => false | _ => true end)) ->
  at_ path (g_model g) = v.
Proof.
  intros C I. apply construct_iff in C. destruct C as (a & B & R & F). apply (settings_at c a g path v F).
  destruct (existsb (String.eqb "baseline") (map fst (class_signature c))) eqn:J.
  - apply in_signature in J. rewrite (value_of_bound c kw a "baseline" B J) in I.
    replace (negb (is_none (arg a "baseline"))) with (match arg a "baseline" with None_ => false | _ => true end) by (now destruct (arg a "baseline")).
    exact I.
  - assert (X : forall b b', settings c b = settings c b') by (intros b1 b2; destruct c; try reflexivity; vm_compute in J; discriminate J).
    rewrite (X _ (match value_of c kw "baseline" with Some None_ | None => false | _ => true end)). exact I.
Qed.

(** Baseline and baseline optimizer come together, and terminal values are predicted by a baseline. *)
(** False values of Python *)
Definition false_value (v : value) : Prop :=
  match v with Bool false | Int 0 | Float 0 _ | Str "" | Dict [] | List_ [] | None_ => True | _ => False end.
Theorem C103_baseline c kw g : construct c kw = Ok g -> In c [PPO; TRPO; VPG] ->
  (value_of c kw "baseline" = Some None_ <-> value_of c kw "baseline_optimizer" = Some None_)
  /\ (forall v, value_of c kw "predict_terminal_values" = Some v -> ~ false_value v -> value_of c kw "baseline" <> Some None_).
Proof.
  intros C I. apply construct_iff in C. destruct C as (a & B & R & F).
  assert (S : forall n, In n ["baseline"; "baseline_optimizer"; "predict_terminal_values"] -> value_of c kw n = Some (arg a n)).
  { intros n Hn. apply (value_of_bound c kw a n B). apply in_signature.
    destruct Hn as [<-|[<-|[<-|[]]]]; destruct I as [<-|[<-|[<-|[]]]]; vm_compute; reflexivity. }
  rewrite !S by (cbn; tauto). clear S B R.
  assert (BB : built_on_base c = true) by (destruct I as [<-|[<-|[<-|[]]]]; reflexivity).
  destruct (finish_model c a g BB F) as (p & _ & _ & P & _).
  assert (P' : exists o1 o2, episode_parts o1 o2 a = Ok p) by (destruct I as [<-|[<-|[<-|[]]]]; cbn [class_body] in P; unfold ppo_body, trpo_body, vpg_body in P; eauto).
  destruct P' as (o1 & o2 & P'). clear - P'. unfold episode_parts in P'.
  destruct (is_none (arg a "baseline")) eqn:N.
  - destruct (truthy (arg a "predict_terminal_values")) eqn:T; cbn [negb assert_ bind] in P'; [discriminate P'|].
    destruct (arg a "baseline"); try discriminate N. destruct (arg a "baseline_optimizer"); cbn [is_none assert_ bind] in P'; try discriminate P'.
    split; [tauto|]. intros v E NF _. injection E as E. rewrite E in T. apply NF. clear - T.
    destruct v as [|[|]|[|p|p]|[|p|p] ?|[|]|[|]|[|]|]; try exact I; discriminate T.
  - destruct (is_none (arg a "baseline_optimizer")) eqn:O; cbn [negb assert_ bind] in P'; [discriminate P'|].
    split; [split; intros E; injection E as E; [rewrite E in N|rewrite E in O]; discriminate|]. intros v _ _ E. injection E as E. rewrite E in N. discriminate N.
Qed.

(** ** C104: passing an existing agent *)
(** It is returned unchanged exactly if it has been created with the given arguments; only the number
    of parallel interactions may be smaller. *)
Theorem C104_existing files library equal at_least depth e spec kw :
  (create files library equal at_least (S depth) e (Instance spec) kw = Ok (Same spec)
   <-> forall n v, In (n, v) kw -> exists w, get n spec = Some w /\ (if String.eqb n "parallel_interactions" then at_least w v else equal w v) = true)
  /\ forall r, create files library equal at_least (S depth) e (Instance spec) kw = Ok r -> r = Same spec.
Proof.
  cbn [create]. assert (K : check_existing equal at_least spec kw = Ok tt <->
    forall n v, In (n, v) kw -> exists w, get n spec = Some w /\ (if String.eqb n "parallel_interactions" then at_least w v else equal w v) = true).
  { induction kw as [|[n v] kw IH]; [split; [intros _ ? ? []|reflexivity]|]. cbn [check_existing]. split.
    - intros H m x [E|I].
      + injection E as <- <-. destruct (get n spec) as [w|]; [|discriminate H]. exists w. split; [reflexivity|].
        destruct (if String.eqb n "parallel_interactions" then at_least w v else equal w v); [reflexivity|discriminate H].
      + destruct (get n spec) as [w|]; [|discriminate H]. destruct (assert_ _ _); [|discriminate H]. cbn [bind] in H. apply IH; assumption.
    - intros H. destruct (H n v (or_introl eq_refl)) as (w & -> & E). rewrite E. cbn [assert_ bind]. apply IH. intros m x I. apply H. now right. }
  split.
  - rewrite <- K. destruct (check_existing equal at_least spec kw) as [[]|]; cbn [bind]; split; congruence.
  - intros r. destruct (check_existing equal at_least spec kw); cbn [bind]; congruence.
Qed.

(** ** Examples *)
Example C103_example : exists g, construct TRPO (required_args ++ [("baseline", Str "auto"); ("baseline_optimizer", Float 5 (-1))]) = Ok g
  /\ at_ ["optimizer"; "optimizer"] (g_model g) = Some (Str "natural_gradient") /\ at_ ["reward_estimation"; "estimate_advantage"] (g_model g) = Some (Bool true).
Proof. eexists. split; [vm_compute; reflexivity|]. split; reflexivity. Qed.
Example C103_baseline_example : construct VPG (put "baseline" (Str "auto") required_args) = Err "AssertionError"
  /\ construct VPG (put "predict_terminal_values" (Bool true) required_args) = Err "AssertionError"
  /\ construct VPG (put "predict_terminal_values" (Int 1) required_args) = Err "AssertionError"
  /\ is_ok (construct VPG (put "predict_terminal_values" (Int 0) required_args))
  /\ is_ok (construct VPG (put "predict_terminal_values" (Float 0 1) required_args)).
Proof. repeat split; vm_compute; try reflexivity; eexists; reflexivity. Qed.
Example C104_example : forall files library,
  let eq v w := match v, w with Int a, Int b => a =? b | _, _ => false end in
  let ge v w := match v, w with Int a, Int b => b <=? a | _, _ => false end in
  let spec := [("agent", Str "dqn"); ("batch_size", Int 4); ("parallel_interactions", Int 8)] in
  create files library eq ge 1 None (Instance spec) [("batch_size", Int 4); ("parallel_interactions", Int 2)] = Ok (Same spec)
  /\ create files library eq ge 1 None (Instance spec) [("batch_size", Int 5)] = Err "AssertionError"
  /\ create files library eq ge 1 None (Instance spec) [("horizon", Int 5)] = Err "KeyError".
Proof. intros. repeat split; reflexivity. Qed.

Print Assumptions C103_settings.
Print Assumptions C103_baseline.
Print Assumptions C104_existing.
