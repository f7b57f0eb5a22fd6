(** Where agent arguments arrive, buffers, and dictionaries that are passed (C99 - C102). *)

From Coq Require Import String List ZArith Bool Lia.
From Verif Require Import Base AgtModel AgtProofs AgtProofs2 AgtProps.
Import ListNotations.
Open Scope string_scope.
Open Scope Z_scope.
Open Scope list_scope.

(** ** Specification *)
(** the value of an argument: given, or default *)
Definition value_of (c : class) (kw : dict) (n : string) : option value :=
  match get n kw with
  | Some v => Some v
  | None => match find (fun p => String.eqb n (fst p)) (class_signature c) with Some (_, d) => d | None => None end
  end.
(** the value at a place in nested dictionaries *)
Fixpoint at_ (path : list string) (d : dict) : option value :=
  match path with
  | [] => None
  | [n] => get n d
  | n :: path => match get n d with Some (Dict d') => at_ path d' | _ => None end
  end.
(** arguments and the places of the model's arguments where they are expected *)
Definition places := list (string * list string).
Definition common : places :=
  [("states", ["states"]); ("actions", ["actions"]); ("max_episode_timesteps", ["max_episode_timesteps"]);
   ("l2_regularization", ["l2_regularization"]); ("entropy_regularization", ["entropy_regularization"]);
   ("state_preprocessing", ["state_preprocessing"]); ("exploration", ["exploration"]);
   ("variable_noise", ["variable_noise"]); ("parallel_interactions", ["parallel_interactions"]);
   ("saver", ["saver"]); ("summarizer", ["summarizer"]); ("tracking", ["tracking"]); ("recorder", ["recorder"])].
Definition learning : places :=
  [("network", ["policy"; "network"]); ("batch_size", ["update"; "batch_size"]);
   ("update_frequency", ["update"; "frequency"]); ("learning_rate", ["optimizer"; "learning_rate"]);
   ("discount", ["reward_estimation"; "discount"]); ("reward_processing", ["reward_estimation"; "reward_processing"]);
   ("return_processing", ["reward_estimation"; "return_processing"])].
Definition beta : places := [("use_beta_distribution", ["policy"; "use_beta_distribution"])].
Definition horizon : places :=
  [("horizon", ["reward_estimation"; "horizon"]); ("predict_terminal_values", ["reward_estimation"; "predict_terminal_values"])].
Definition critic : places := [("critic", ["baseline"; "network"]); ("critic_optimizer", ["baseline_optimizer"])].
Definition off_policy : places := [("start_updating", ["update"; "start"]); ("memory", ["memory"; "capacity"])].
Definition target : places :=
  [("network", ["baseline"; "network"]); ("huber_loss", ["objective"; "huber_loss"]);
   ("target_update_weight", ["baseline_optimizer"; "update_weight"]);
   ("target_sync_frequency", ["baseline_optimizer"; "sync_frequency"])].
Definition with_baseline : places :=
  [("baseline", ["baseline"; "network"]); ("baseline_optimizer", ["baseline_optimizer"]);
   ("advantage_processing", ["reward_estimation"; "advantage_processing"]);
   ("predict_terminal_values", ["reward_estimation"; "predict_terminal_values"])].
Definition arrives (c : class) (baseline : bool) : places :=
  match c with
  | A2C | AC => common ++ learning ++ beta ++ horizon ++ critic
  | DPG => common ++ learning ++ beta ++ horizon ++ critic ++ off_policy
  | DoubleDQN | DQN | DuelingDQN => common ++ learning ++ horizon ++ off_policy ++ target
  | PPO => common ++ learning ++ beta ++ (if baseline then with_baseline else [])
           ++ [("multi_step", ["optimizer"; "multi_step"]); ("subsampling_fraction", ["optimizer"; "subsampling_fraction"]);
               ("likelihood_ratio_clipping", ["objective"; "clipping_value"])]
  | TRPO => common ++ learning ++ beta ++ (if baseline then with_baseline else [])
           ++ [("linesearch_iterations", ["optimizer"; "linesearch_iterations"]); ("subsampling_fraction", ["optimizer"; "subsampling_fraction"])]
  | VPG => common ++ learning ++ beta ++ (if baseline then with_baseline else [])
  | Constant => [("states", ["states"]); ("actions", ["actions"]); ("max_episode_timesteps", ["max_episode_timesteps"]);
                 ("config", ["config"]); ("recorder", ["recorder"]); ("action_values", ["action_values"])]
  | Random => [("states", ["states"]); ("actions", ["actions"]); ("max_episode_timesteps", ["max_episode_timesteps"]);
               ("config", ["config"]); ("recorder", ["recorder"])]
  | Tensorforce => common ++ [("policy", ["policy"]); ("optimizer", ["optimizer"]); ("objective", ["objective"]);
      ("reward_estimation", ["reward_estimation"]); ("baseline", ["baseline"]); ("baseline_optimizer", ["baseline_optimizer"]);
      ("baseline_objective", ["baseline_objective"])]
  end.
(** The arguments without a place of their own: the configuration is completed, the memory may be
    the minimum, the base agent completes memory and update; some are used only with a baseline. *)
Definition elsewhere (c : class) (baseline : bool) : list string :=
  match c with
  | A2C => ["config"; "memory"; "advantage_processing"]
  | AC => ["config"; "memory"]
  | DPG | DoubleDQN | DQN | DuelingDQN => ["config"]
  | PPO | TRPO | VPG => ["config"; "memory"] ++ (if baseline then [] else ["baseline"; "baseline_optimizer"; "advantage_processing"; "predict_terminal_values"])
  | Constant | Random => []
  | Tensorforce => ["config"; "memory"; "update"]
  end.

(** ** Lemmas *)
Lemma value_of_bound c kw a n : bind_args (class_signature c) kw = Ok a -> In n (map fst (class_signature c)) ->
  value_of c kw n = Some (arg a n).
Proof.
  intros B I. assert (N : In n (map fst a)) by (now rewrite (bind_names _ _ _ B)).
  assert (E : forall s a, bind_args s kw = Ok a -> In n (map fst s) ->
    match get n kw with Some v => Some v | None => match find (fun p => String.eqb n (fst p)) s with Some (_, d) => d | None => None end end = get n a).
  { clear. induction s as [|[k d] s IH]; intros a B I; [destruct I|]. cbn [bind_args] in B.
    destruct (match get k kw with Some v => Ok v | None => match d with Some v => Ok v | None => _ end end) as [v|] eqn:V; [|discriminate B]. cbn [bind] in B.
    destruct (bind_args s kw) as [r|] eqn:R; [|discriminate B]. cbn [bind] in B. injection B as <-. cbn [get find fst].
    destruct (String.eqb_spec n k) as [->|D].
    - destruct (get k kw); [congruence|]. destruct d; [congruence|discriminate V].
    - apply IH; [reflexivity|]. destruct I as [I|I]; [cbn in I; congruence|exact I]. }
  unfold value_of. rewrite (E _ _ B I). now apply arg_get.
Qed.

Lemma in_signature c n : existsb (String.eqb n) (map fst (class_signature c)) = true -> In n (map fst (class_signature c)).
Proof. intros E. apply existsb_exists in E. destruct E as (m & I & M). apply String.eqb_eq in M. now subst m. Qed.
Lemma arrives_known c b : forallb (fun p => existsb (String.eqb (fst p)) (map fst (class_signature c))) (arrives c b) = true.
Proof. destruct c, b; vm_compute; reflexivity. Qed.
Lemma arrives_all c b : forallb (fun n => existsb (String.eqb n) (map fst (arrives c b)) || existsb (String.eqb n) (elsewhere c b)) (map fst (class_signature c)) = true.
Proof. destruct c, b; vm_compute; reflexivity. Qed.

Lemma finish_model c a g : built_on_base c = true -> finish c a = Ok g ->
  exists p config0 config, class_body c a = Ok p
  /\ (arg a "config" = None_ /\ config0 = [] \/ arg a "config" = Dict config0)
  /\ buffer_observe (base_args a p) (final_update (base_args a p)) config0 = Ok config
  /\ g_model g = model_args (base_args a p) (final_memory (base_args a p)) (final_update (base_args a p)) config.
Proof.
  intros B. rewrite finish_sub by exact B. destruct (class_body c a) as [p|]; [|discriminate]. cbn [bind]. intros H.
  apply base_body_ok in H. destruct H as (_ & c0 & c1 & H1 & H2 & H3). exists p, c0, c1. auto.
Qed.

Definition arrived (a m : dict) (l : places) : Prop := Forall (fun p => at_ (snd p) m = Some (arg a (fst p))) l.
Ltac places_of := unfold arrived; repeat (apply Forall_cons; [cbn [fst snd at_]; reflexivity|]); apply Forall_nil.

Lemma arrives_at c a g n path : finish c a = Ok g ->
  In (n, path) (arrives c (negb (is_none (arg a "baseline")))) -> at_ path (g_model g) = Some (arg a n).
Proof.
  intros F I. assert (A : arrived a (g_model g) (arrives c (negb (is_none (arg a "baseline"))))); [clear I|unfold arrived in A; rewrite Forall_forall in A; exact (A _ I)].
  destruct (built_on_base c) eqn:B.
  - destruct (finish_model c a g B F) as (p & c0 & c1 & P & _ & _ & ->). clear F B.
    destruct c; cbn [class_body] in P; try discriminate P.
    1-6: injection P as <-; places_of.
    all: unfold ppo_body, trpo_body, vpg_body, episode_parts in P;
      destruct (is_none (arg a "baseline")) eqn:N; cbn [negb];
      repeat match type of P with (do x <- assert_ ?b ?m; _) = _ => destruct (assert_ b m); [|discriminate P]; cbn [bind] in P end;
      injection P as <-; places_of.
  - destruct c; try discriminate B; cbn [finish] in F.
    1,2: injection F as <-; places_of.
    apply base_body_ok in F. destruct F as (_ & c0 & c1 & _ & _ & ->). places_of.
Qed.

(** ** C100: arguments arrive *)
(** Every argument of an agent that is accepted, given or default, is found unchanged at its place
    in the arguments of the model -- apart from the ones listed in [elsewhere]. *)
Theorem C100_arguments c kw g n : construct c kw = Ok g -> In n (map fst (class_signature c)) ->
  forall b, b = (match value_of c kw "baseline" with Some None_ | None => false | _ => true end) ->
  ~ In n (elsewhere c b) ->
  exists path v, In (n, path) (arrives c b) /\ value_of c kw n = Some v /\ at_ path (g_model g) = Some v.
Proof.
  intros C I b Hb E. apply construct_iff in C. destruct C as (a & B & R & F).
  pose proof (arrives_all c b) as A. rewrite forallb_forall in A. specialize (A n I). apply orb_true_iff in A. destruct A as [A|A].
  - apply existsb_exists in A. destruct A as (m & A & M). apply String.eqb_eq in M. subst m. apply in_map_iff in A. destruct A as ([n' path] & NE & A). cbn in NE. subst n'.
    exists path, (arg a n). split; [exact A|]. split; [now apply value_of_bound|].
    destruct (in_dec string_dec "baseline" (map fst (class_signature c))) as [J|J].
    + rewrite (value_of_bound c kw a "baseline" B J) in Hb. apply (arrives_at c a g n path F).
      replace (negb (is_none (arg a "baseline"))) with b; [exact A|]. rewrite Hb. now destruct (arg a "baseline").
    + apply (arrives_at c a g n path F).
      assert (X : forall b b', arrives c b = arrives c b').
      { intros b1 b2. destruct c; try reflexivity; destruct J; vm_compute; tauto. }
      rewrite (X _ b). exact A.
  - apply existsb_exists in A. destruct A as (m & A & M). apply String.eqb_eq in M. subst m. contradiction.
Qed.

(** On-policy agents: the capacity of the memory, unless it is the minimum. *)
Theorem C100_memory c kw g v : construct c kw = Ok g -> In c [A2C; AC; PPO; TRPO; VPG] -> value_of c kw "memory" = Some v ->
  at_ ["memory"; "type"] (g_model g) = Some (Str "recent")
  /\ (v = Str "minimum" -> at_ ["memory"; "capacity"] (g_model g) = None)
  /\ (v <> Str "minimum" -> at_ ["memory"; "capacity"] (g_model g) = Some v).
Proof.
  intros C I V. apply construct_iff in C. destruct C as (a & B & R & F).
  assert (Va : v = arg a "memory").
  { rewrite (value_of_bound c kw a "memory" B) in V; [congruence|]. destruct c; try (vm_compute; tauto); cbn in I; exfalso; intuition discriminate. }
  assert (BB : built_on_base c = true) by (destruct c; try reflexivity; exfalso; cbn in I; intuition discriminate).
  destruct (finish_model c a g BB F) as (p & c0 & c1 & P & _ & _ & ->).
  assert (M : p_memory p = recent a).
  { destruct c; cbn [class_body] in P; try (exfalso; cbn in I; intuition discriminate); try (injection P as <-; reflexivity).
    all: unfold ppo_body, trpo_body, vpg_body, episode_parts in P; destruct (is_none (arg a "baseline"));
      repeat match type of P with (do x <- assert_ ?b ?m; _) = _ => destruct (assert_ b m); [|discriminate P]; cbn [bind] in P end; injection P as <-; reflexivity. }
  assert (FM : final_memory (base_args a p) = recent a).
  { unfold final_memory. change (arg (base_args a p) "memory") with (p_memory p). rewrite M. unfold recent. now destruct (is_str "minimum" (arg a "memory")). }
  rewrite FM. unfold recent. rewrite <- Va.
  assert (X : is_str "minimum" v = true <-> v = Str "minimum").
  { destruct v; cbn [is_str]; try (split; [discriminate|intros Q; discriminate Q]). rewrite String.eqb_eq. split; congruence. }
  destruct (is_str "minimum" v) eqn:Q.
  - split; [reflexivity|]. split; [reflexivity|]. intros NM. destruct NM. now apply X.
  - split; [reflexivity|]. split; [|reflexivity]. intros E. apply X in E. discriminate E.
Qed.

(** The base agent: the default memory, and an update that is a number. *)
Theorem C100_base kw g memory update : construct Tensorforce kw = Ok g ->
  value_of Tensorforce kw "memory" = Some memory -> value_of Tensorforce kw "update" = Some update ->
  get "memory" (g_model g) = Some (match memory with None_ => Dict [("type", Str "recent")] | _ => memory end)
  /\ match update with
     | Int _ | Bool _ => at_ ["update"; "unit"] (g_model g) = Some (Str "timesteps") /\ at_ ["update"; "batch_size"] (g_model g) = Some update
     | _ => get "update" (g_model g) = Some update
     end.
Proof.
  intros C M U. apply construct_iff in C. destruct C as (a & B & R & F).
  rewrite (value_of_bound Tensorforce kw a "memory" B) in M by (apply in_signature; vm_compute; reflexivity). injection M as M.
  rewrite (value_of_bound Tensorforce kw a "update" B) in U by (apply in_signature; vm_compute; reflexivity). injection U as U.
  cbn [finish] in F. apply base_body_ok in F. destruct F as (_ & c0 & c1 & _ & _ & ->).
  split.
  - change (get "memory" (model_args a (final_memory a) (final_update a) c1)) with (Some (final_memory a)).
    f_equal. unfold final_memory. rewrite M. now destruct memory.
  - assert (E : final_update a = match as_int update with Some _ => Dict [("unit", Str "timesteps"); ("batch_size", update)] | None => update end)
      by (unfold final_update; now rewrite U).
    rewrite E. destruct update; cbn [as_int]; try reflexivity; split; reflexivity.
Qed.

(** The arguments which never arrive: A2C's advantage processing; without a baseline also the ones
    of PPO, TRPO and VPG.  Agents with different values are the same. *)
Theorem C100_a2c_refuted kw v w : get "advantage_processing" kw = Some v ->
  forall g, construct A2C kw = Ok g -> exists g', construct A2C (put "advantage_processing" w kw) = Ok g' /\ g_model g' = g_model g.
Proof.
  intros G g C. apply construct_iff in C. destruct C as (a & B & R & F).
  assert (B' : bind_args a2c_signature (put "advantage_processing" w kw) = Ok (put "advantage_processing" w a)).
  { assert (Z : forall s a, bind_args s kw = Ok a -> In "advantage_processing" (map fst s) -> NoDup (map fst s) ->
      bind_args s (put "advantage_processing" w kw) = Ok (put "advantage_processing" w a)).
    { clear - G. induction s as [|[k d] s IH]; intros a B I N; [destruct I|]. cbn [bind_args] in B |- *. rewrite get_put.
      cbn [map fst] in N, I. inversion N as [|? ? N1 N2]; subst.
      destruct (match get k kw with Some v0 => Ok v0 | None => match d with Some v0 => Ok v0 | None => _ end end) as [x|] eqn:V; [|discriminate B]. cbn [bind] in B.
      destruct (bind_args s kw) as [r|] eqn:Br; [|discriminate B]. cbn [bind] in B. injection B as <-. cbn [put].
      rewrite (String.eqb_sym "advantage_processing" k). destruct (String.eqb_spec k "advantage_processing") as [->|D].
      - cbn [bind]. rewrite (bind_same s (put "advantage_processing" w kw) kw).
        + rewrite Br. reflexivity.
        + intros m Hm. rewrite get_put. destruct (String.eqb_spec m "advantage_processing") as [->|]; [contradiction|reflexivity].
      - rewrite V. cbn [bind]. rewrite (IH r eq_refl); [reflexivity| |exact N2]. destruct I as [I|I]; [congruence|exact I]. }
    apply Z; [exact B|vm_compute; tauto|apply (signatures_nodup A2C)]. }
  assert (AR : forall n, n <> "advantage_processing" -> arg (put "advantage_processing" w a) n = arg a n).
  { intros n N. unfold arg. rewrite get_put. apply String.eqb_neq in N. now rewrite N. }
  rewrite finish_sub in F by reflexivity. cbn [class_body bind] in F. unfold a2c_body in F. cbn [bind] in F.
  set (p := {| p_policy := _ |}) in F.
  assert (X : exists g', finish A2C (put "advantage_processing" w a) = Ok g' /\ g_model g' = g_model g).
  { rewrite finish_sub by reflexivity. cbn [class_body bind]. unfold a2c_body. cbn [bind].
    set (p' := {| p_policy := _ |}).
    assert (P : p' = p) by (unfold p', p, distributions, recent, on_policy_update, adam, horizon_estimation; rewrite !AR by discriminate; reflexivity).
    assert (BA : base_args (put "advantage_processing" w a) p' = base_args a p) by (rewrite P; unfold base_args; rewrite !AR by discriminate; reflexivity).
    rewrite BA. clear P BA p' B B' AR R G.
    unfold base_body in F |- *.
    destruct (contains "estimate_actions" _) as [c1|]; [|discriminate F]. cbn [bind] in F |- *. destruct (assert_ (negb c1) _); [|discriminate F]. cbn [bind] in F |- *.
    destruct (contains "estimate_terminal" _) as [c2|]; [|discriminate F]. cbn [bind] in F |- *. destruct (assert_ (negb c2) _); [|discriminate F]. cbn [bind] in F |- *.
    destruct (if is_none (arg (base_args a p) "summarizer") then Ok false else contains "labels" _) as [c3|]; [|discriminate F]. cbn [bind] in F |- *. destruct (assert_ (negb c3) _); [|discriminate F]. cbn [bind] in F |- *.
    destruct (filter _ _); [|discriminate F]. cbv zeta in F |- *.
    match type of F with (do x <- ?o; _) = _ => destruct o as [config|]; [|discriminate F] end. cbn [bind] in F |- *.
    match type of F with (do x <- ?o; _) = _ => destruct o as [config'|]; [|discriminate F] end. cbn [bind] in F |- *.
    injection F as <-. eexists. split; reflexivity. }
  destruct X as (g' & F' & M). exists g'. split; [|exact M]. apply construct_iff. exists (put "advantage_processing" w a).
  split; [exact B'|]. split; [|exact F'].
  apply same_empty. intros m. rewrite get_rest, get_put. change (class_signature A2C) with a2c_signature in *.
  destruct (existsb (String.eqb m) (map fst a2c_signature)) eqn:E; [reflexivity|].
  destruct (String.eqb_spec m "advantage_processing") as [->|]; [vm_compute in E; discriminate E|].
  pose proof (get_rest a2c_signature kw m) as Y. rewrite R, E in Y. symmetry. exact Y.
Qed.
Theorem C100_baseline_refuted : ~ (forall c kw g g' v, In c [PPO; TRPO; VPG] -> construct c kw = Ok g ->
  construct c (put "advantage_processing" (Str v) kw) = Ok g' -> value_of c kw "advantage_processing" <> Some (Str v) -> g_model g' <> g_model g).
Proof.
  intros H. destruct (construct PPO required_args) as [g|] eqn:E; [|vm_compute in E; discriminate E].
  destruct (construct PPO (put "advantage_processing" (Str "clipping") required_args)) as [g'|] eqn:E'; [|vm_compute in E'; discriminate E'].
  apply (H PPO _ g g' "clipping" (or_introl eq_refl) E E'); [vm_compute; discriminate|].
  vm_compute in E, E'. injection E as <-. injection E' as <-. reflexivity.
Qed.

(** ** C101: how many timesteps are collected before they are passed to the model *)
(** v <= n for numbers *)
Definition at_most (v : value) (n : Z) : Prop :=
  match v with
  | Int m => m <= n
  | Bool b => (if b then 1 else 0) <= n
  | Float m e => if 0 <=? e then m * 10 ^ e <= n else m <= n * 10 ^ (- e)
  | _ => False
  end.
(** the configuration that is given *)
Definition given_config (c : class) (kw : dict) (n : string) : option value :=
  match value_of c kw "config" with Some (Dict d) => get n d | _ => None end.

Theorem C101_buffer c kw g : construct c kw = Ok g -> c <> Constant -> c <> Random ->
  (forall n, n <> "buffer_observe" -> at_ ["config"; n] (g_model g) = given_config c kw n)
  /\ (forall v, given_config c kw "buffer_observe" = Some v -> at_ ["config"; "buffer_observe"] (g_model g) = Some v)
  /\ forall p, value_of c kw "parallel_interactions" = Some (Int p) ->
     (1 < p -> given_config c kw "buffer_observe" = None ->
        at_ ["config"; "buffer_observe"] (g_model g) = Some (Str "episode")
        /\ at_ ["max_episode_timesteps"] (g_model g) <> Some None_)
     /\ (p <= 1 -> at_ ["update"; "unit"] (g_model g) = Some (Str "timesteps") ->
         exists batch_size buffer, at_ ["update"; "batch_size"] (g_model g) = Some batch_size
         /\ at_ ["config"; "buffer_observe"] (g_model g) = Some buffer
         /\ forall frequency n, frequency = (match at_ ["update"; "frequency"] (g_model g) with Some f => f | None => batch_size end) ->
            frequency = Int n -> at_most buffer n /\ (given_config c kw "buffer_observe" = None -> buffer = Int n))
     /\ (p <= 1 -> at_ ["update"; "unit"] (g_model g) = Some (Str "episodes") -> given_config c kw "buffer_observe" = None ->
         at_ ["config"; "buffer_observe"] (g_model g) = Some (Str "episode")).
Proof.
  intros C N1 N2. apply construct_iff in C. destruct C as (a & B & R & F).
  assert (X : exists a', arg a' "config" = arg a "config" /\ arg a' "parallel_interactions" = arg a "parallel_interactions"
    /\ exists c0 c1, (arg a' "config" = None_ /\ c0 = [] \/ arg a' "config" = Dict c0)
    /\ buffer_observe a' (final_update a') c0 = Ok c1
    /\ g_model g = model_args a' (final_memory a') (final_update a') c1).
  { destruct (built_on_base c) eqn:BB.
    - destruct (finish_model c a g BB F) as (p & c0 & c1 & _ & H1 & H2 & H3). exists (base_args a p).
      split; [reflexivity|]. split; [reflexivity|]. exists c0, c1. auto.
    - destruct c; try discriminate BB; [now destruct N1|now destruct N2|]. cbn [finish] in F. apply base_body_ok in F.
      destruct F as (_ & c0 & c1 & H1 & H2 & H3). exists a. split; [reflexivity|]. split; [reflexivity|]. exists c0, c1. auto. }
  destruct X as (a' & Xc & Xp & c0 & c1 & H1 & H2 & H3).
  assert (I1 : In "config" (map fst (class_signature c))) by (apply in_signature; destruct c; vm_compute; reflexivity).
  assert (I2 : In "parallel_interactions" (map fst (class_signature c))) by (apply in_signature; destruct c; try (now destruct N1); try (now destruct N2); vm_compute; reflexivity).
  assert (G : forall n, given_config c kw n = get n c0).
  { intros n. unfold given_config. rewrite (value_of_bound c kw a "config" B I1), <- Xc. now destruct H1 as [[-> ->]| ->]. }
  assert (A1 : forall n, at_ ["config"; n] (g_model g) = get n c1) by (intros n; rewrite H3; reflexivity).
  assert (A2 : at_ ["max_episode_timesteps"] (g_model g) = Some (arg a' "max_episode_timesteps")) by (rewrite H3; reflexivity).
  assert (A3 : forall n, at_ ["update"; n] (g_model g) = match final_update a' with Dict u => get n u | _ => None end) by (intros n; rewrite H3; reflexivity).
  rewrite A2. clear H3 A2 F R N1 N2.
  assert (P : forall p, value_of c kw "parallel_interactions" = Some (Int p) -> greater (arg a' "parallel_interactions") 1 = Ok (1 <? p)).
  { intros p. rewrite (value_of_bound c kw a _ B I2), Xp. intros E. injection E as ->. reflexivity. }
  clear B I1 I2 H1 Xc Xp.
  unfold buffer_observe in H2.
  assert (PUT : forall v n, n <> "buffer_observe" -> get n (put "buffer_observe" v c0) = get n c0).
  { intros v n N. rewrite get_put. apply String.eqb_neq in N. now rewrite N. }
  assert (PUTE : forall v, get "buffer_observe" (put "buffer_observe" v c0) = Some v) by (intros v; rewrite get_put, String.eqb_refl; reflexivity).
  split; [|split].
  - intros n N. rewrite A1, G. clear P A1 A3 G.
    destruct (greater _ 1) as [[]|]; cbn [bind] in H2; [| |discriminate H2].
    + destruct (has "buffer_observe" c0); [injection H2 as <-; reflexivity|]. destruct (is_none _); [discriminate H2|]. injection H2 as <-. now apply PUT.
    + destruct (final_update a'); try discriminate H2. destruct (get "unit" items) as [unit|]; [|discriminate H2].
      destruct (is_str "timesteps" unit).
      * destruct (get "batch_size" items); [|discriminate H2]. cbv zeta in H2. destruct (get "buffer_observe" c0) eqn:BO.
        -- destruct (as_int _); [|injection H2 as <-; reflexivity]. destruct (if is_str "episode" v0 then Ok true else greater v0 z) as [[]|]; cbn [bind] in H2; try discriminate H2. injection H2 as <-. reflexivity.
        -- destruct (as_int _); injection H2 as <-; now apply PUT.
      * destruct (is_str "episodes" unit); [|injection H2 as <-; reflexivity]. destruct (has "buffer_observe" c0); injection H2 as <-; [reflexivity|now apply PUT].
  - intros v GV. rewrite G in GV. rewrite A1. clear P A1 A3 G PUT PUTE. unfold has in H2. rewrite GV in H2.
    destruct (greater _ 1) as [[]|]; cbn [bind] in H2; [injection H2 as <-; exact GV| |discriminate H2].
    destruct (final_update a'); try discriminate H2. destruct (get "unit" items) as [unit|]; [|discriminate H2].
    destruct (is_str "timesteps" unit).
    + destruct (get "batch_size" items); [|discriminate H2]. cbv zeta in H2. 
      destruct (as_int _); [|injection H2 as <-; exact GV]. destruct (if is_str "episode" v then Ok true else greater v z) as [[]|]; cbn [bind] in H2; try discriminate H2. injection H2 as <-. exact GV.
    + destruct (is_str "episodes" unit); injection H2 as <-; exact GV.
  - intros p VP. specialize (P p VP). rewrite P in H2. cbn [bind] in H2. split; [|split].
    + intros Hp GN. rewrite G in GN. rewrite A1. replace (1 <? p) with true in H2 by (symmetry; apply Z.ltb_lt; lia).
      unfold has in H2. rewrite GN in H2. destruct (arg a' "max_episode_timesteps") eqn:ME; cbn [is_none] in H2; try discriminate H2; injection H2 as <-; (split; [apply PUTE|discriminate]).
    + intros Hp U. replace (1 <? p) with false in H2 by (symmetry; apply Z.ltb_ge; lia). rewrite A3 in U.
      setoid_rewrite A1. setoid_rewrite A3. rewrite G. destruct (final_update a') as [| | | | |u| |]; try discriminate U. rewrite U in H2. cbn [is_str] in H2. rewrite String.eqb_refl in H2.
      destruct (get "batch_size" u) as [bs|] eqn:BS; [|discriminate H2]. cbv zeta in H2.
      clear A1 A3 G P.
      destruct (get "buffer_observe" c0) as [w|] eqn:BO.
      * exists bs, w. split; [reflexivity|].
        destruct (as_int (match get "frequency" u with Some f => f | None => bs end)) as [m|] eqn:AI.
        -- destruct (is_str "episode" w) eqn:IE; [discriminate H2|]. destruct (greater w m) as [gt|] eqn:GR; cbn [bind] in H2; [|discriminate H2]. destruct gt; [discriminate H2|]. injection H2 as <-.
           split; [exact BO|]. intros fr n -> E. rewrite E in AI. injection AI as ->. split; [|discriminate].
           unfold greater in GR. destruct w; try discriminate GR; injection GR as GR; cbn [at_most].
           ++ apply Z.ltb_ge in GR. exact GR.
           ++ apply Z.ltb_ge in GR. exact GR.
           ++ destruct (0 <=? exponent); apply Z.ltb_ge in GR; exact GR.
        -- injection H2 as <-. split; [exact BO|]. intros fr n -> E. rewrite E in AI. discriminate AI.
      * destruct (as_int (match get "frequency" u with Some f => f | None => bs end)) as [m|] eqn:AI; injection H2 as <-.
        -- exists bs, (Int m). split; [reflexivity|]. split; [apply PUTE|]. intros fr n -> E. rewrite E in AI. injection AI as ->. split; [cbn; lia|reflexivity].
        -- exists bs, (Int 1). split; [reflexivity|]. split; [apply PUTE|]. intros fr n -> E. rewrite E in AI. discriminate AI.
    + intros Hp U GN. rewrite G in GN. rewrite A1. rewrite A3 in U. replace (1 <? p) with false in H2 by (symmetry; apply Z.ltb_ge; lia).
      destruct (final_update a') as [| | | | |u| |]; try discriminate U. rewrite U in H2.
      change (is_str "timesteps" (Str "episodes")) with false in H2. change (is_str "episodes" (Str "episodes")) with true in H2. unfold has in H2. rewrite GN in H2.
      cbv iota in H2. injection H2 as <-. apply PUTE.
Qed.

(** A frequency relative to the batch size is not checked: an update is due after every ten
    timesteps, but only every hundredth is passed on. *)
Theorem C101_relative_refuted : ~ (forall c kw g batch_size buffer, construct c kw = Ok g ->
  value_of c kw "parallel_interactions" = Some (Int 1) ->
  at_ ["update"; "unit"] (g_model g) = Some (Str "timesteps") ->
  at_ ["update"; "batch_size"] (g_model g) = Some (Int batch_size) ->
  at_ ["update"; "frequency"] (g_model g) = Some (Float 1 0) ->
  at_ ["config"; "buffer_observe"] (g_model g) = Some (Int buffer) -> buffer <= batch_size).
Proof.
  intros H. destruct (construct A2C (required_args ++ [("config", Dict [("buffer_observe", Int 100)])])) as [g|] eqn:E; [|vm_compute in E; discriminate E].
  assert (X : 100 <= 10); [|lia]. apply (H A2C _ g 10 100 E); vm_compute in E; injection E as <-; reflexivity.
Qed.

(** ** C99, C102: what goes wrong with dictionaries *)
Section Files.
Variable files : string -> option value.
Variable library : string -> option class.
Variables equal at_least : value -> value -> bool.
Notation create := (create files library equal at_least).

(** The passed dictionary is changed: keyword arguments of one call are still there in the next. *)
Theorem C99_unchanged_refuted : files "dqn" = None -> ~ (forall depth d kw,
  is_ok (create depth None (Value (Dict d)) kw) ->
  create depth None (Value (Dict (dict_after d kw))) [] = create depth None (Value (Dict d)) []).
Proof.
  intros F H. specialize (H 3%nat (("agent", Str "dqn") :: required_args) [("learning_rate", Float 5 (-1))]).
  assert (X : forall d, get "agent" d = Some (Str "dqn") -> has "environment" (remove "agent" (remove "type" d)) = false ->
    create 3 None (Value (Dict d)) [] = (do g <- construct DQN (remove "agent" (remove "type" d)); Ok (New DQN g))).
  { intros d A E. cbn [AgtModel.create]. cbv zeta. unfold update_. cbn [fold_left]. rewrite A, E, F. reflexivity. }
  assert (Y : forall d kw, create 3 None (Value (Dict d)) kw = create 3 None (Value (Dict (dict_after d kw))) []) by reflexivity.
  rewrite Y in H. rewrite !X in H by reflexivity.
  match type of H with context [construct DQN ?d1] => destruct (construct DQN d1) as [g1|] eqn:E1; [|vm_compute in E1; discriminate E1] end.
  match type of H with context [construct DQN ?d1] => destruct (construct DQN d1) as [g2|] eqn:E2; [|vm_compute in E2; discriminate E2] end.
  cbn [bind] in H. specialize (H (ex_intro _ _ eq_refl)). injection H as H. subst g2.
  rewrite <- E2 in E1. vm_compute in E1. discriminate E1.
Qed.

(** A saver which is told not to load is loaded nevertheless: a key of the agent is checked instead
    of the saver's. *)
Theorem C102_saver_refuted : ~ (forall stored saver kw r, get "saver" stored = Some (Dict saver) -> get "load" saver = Some (Bool false) ->
  load_args equal at_least None (Some stored) kw = Ok r -> False).
Proof.
  intros H. eapply (H [("agent", Str "dqn"); ("saver", Dict [("directory", Str "model"); ("load", Bool false)])] [("directory", Str "model"); ("load", Bool false)] [] _ eq_refl eq_refl).
  reflexivity.
Qed.
End Files.

(** ** Examples *)
(** C96: a PPO agent with a baseline and a changed learning rate is restored from its specification *)
Example C96_example : exists g,
  construct PPO (required_args ++ [("baseline", Str "auto"); ("baseline_optimizer", Float 5 (-1)); ("learning_rate", Float 2 (-3))]) = Ok g
  /\ get "learning_rate" (g_spec g) = Some (Float 2 (-3))
  /\ create (fun _ => None) (fun _ => None) (fun _ _ => true) (fun _ _ => true) 3 None (Value (Dict (g_spec g))) [] = Ok (New PPO g)
  /\ forall n, In n (lost PPO) -> at_default PPO (required_args ++ [("baseline", Str "auto"); ("baseline_optimizer", Float 5 (-1)); ("learning_rate", Float 2 (-3))]) n.
Proof.
  eexists. split; [vm_compute; reflexivity|]. split; [reflexivity|]. split; [vm_compute; reflexivity|].
  intros n [<-|[]] v G. discriminate G.
Qed.
Example C96_double_dqn_example : exists g, construct DoubleDQN required_args = Ok g /\ get "agent" (g_spec g) = Some (Str "dqn")
  /\ at_default DoubleDQN required_args "reward_processing".
Proof. eexists. split; [vm_compute; reflexivity|]. split; [reflexivity|]. intros v G. discriminate G. Qed.
(** C97: an unknown, a deprecated and a missing argument *)
Example C97_example : construct DQN (put "gamma" (Float 9 (-1)) required_args) = Err "invalid: arguments"
  /\ construct DQN (put "estimate_terminal" (Bool true) required_args) = Err "deprecated: estimate_terminal"
  /\ construct DQN (remove "batch_size" required_args) = Err "TypeError: missing argument batch_size"
  /\ is_ok (construct DQN required_args).
Proof. repeat split; try (vm_compute; reflexivity). eexists. vm_compute. reflexivity. Qed.
Example C98_example : keywords required_args /\ get "horizon" required_args = None /\ In ("horizon", Some (Int 1)) (class_signature DQN)
  /\ is_ok (construct DQN (rev required_args)).
Proof. repeat split; [|vm_compute; tauto|eexists; vm_compute; reflexivity]. unfold keywords. repeat constructor; vm_compute; intuition discriminate. Qed.
(** C99: the learning rate of the call, the horizon of the dictionary, the states of the environment *)
Example C99_example : exists g,
  create (fun _ => None) (fun _ => None) (fun _ _ => true) (fun _ _ => true) 3
    (Some {| e_states := Str "S"; e_actions := Str "A"; e_max_episode_timesteps := None_ |})
    (Value (Dict [("agent", Str "dqn"); ("horizon", Int 3); ("learning_rate", Float 1 (-1)); ("memory", Int 50); ("batch_size", Int 4)]))
    [("learning_rate", Float 7 (-1))] = Ok (New DQN g)
  /\ at_ ["optimizer"; "learning_rate"] (g_model g) = Some (Float 7 (-1)) /\ at_ ["reward_estimation"; "horizon"] (g_model g) = Some (Int 3)
  /\ get "states" (g_model g) = Some (Str "S") /\ get "max_episode_timesteps" (g_model g) = Some None_.
Proof. eexists. split; [vm_compute; reflexivity|]. repeat split; reflexivity. Qed.
Example C100_example : exists g, construct DQN (put "target_sync_frequency" (Int 7) required_args) = Ok g
  /\ at_ ["baseline_optimizer"; "sync_frequency"] (g_model g) = Some (Int 7)
  /\ at_ ["optimizer"; "learning_rate"] (g_model g) = Some (Float 1 (-3))
  /\ ~ In "target_sync_frequency" (elsewhere DQN false) /\ In "target_sync_frequency" (map fst (class_signature DQN)).
Proof.
  eexists. split; [vm_compute; reflexivity|]. repeat split; [cbn; intuition discriminate|apply in_signature; vm_compute; reflexivity].
Qed.
Example C100_memory_example : (exists g, construct A2C (remove "memory" required_args) = Ok g /\ at_ ["memory"; "capacity"] (g_model g) = None)
  /\ (exists g, construct A2C required_args = Ok g /\ at_ ["memory"; "capacity"] (g_model g) = Some (Int 100))
  /\ (exists g, construct A2C (put "advantage_processing" (Str "clipping") required_args) = Ok g).
Proof. repeat split; eexists; try split; vm_compute; reflexivity. Qed.
Example C100_base_example : exists g, construct Tensorforce [("states", Str "S"); ("actions", Str "A"); ("update", Int 64); ("optimizer", Str "adam");
    ("objective", Str "policy_gradient"); ("reward_estimation", Dict [("horizon", Int 20)])] = Ok g
  /\ at_ ["update"; "batch_size"] (g_model g) = Some (Int 64) /\ at_ ["memory"; "type"] (g_model g) = Some (Str "recent").
Proof. eexists. split; [vm_compute; reflexivity|]. split; reflexivity. Qed.
(** C101: buffers of one, several and too many timesteps *)
Example C101_example :
  (exists g, construct DQN (put "update_frequency" (Int 4) required_args) = Ok g /\ at_ ["config"; "buffer_observe"] (g_model g) = Some (Int 4)
     /\ value_of DQN (put "update_frequency" (Int 4) required_args) "parallel_interactions" = Some (Int 1))
  /\ (exists g, construct DQN (required_args ++ [("update_frequency", Int 4); ("config", Dict [("seed", Int 1); ("buffer_observe", Int 2)])]) = Ok g
     /\ at_ ["config"; "buffer_observe"] (g_model g) = Some (Int 2) /\ at_ ["config"; "seed"] (g_model g) = Some (Int 1))
  /\ construct DQN (required_args ++ [("update_frequency", Int 4); ("config", Dict [("buffer_observe", Int 5)])]) = Err "value: config[buffer_observe]"
  /\ (exists g, construct DQN (put "parallel_interactions" (Int 2) required_args) = Ok g /\ at_ ["config"; "buffer_observe"] (g_model g) = Some (Str "episode"))
  /\ construct DQN (put "parallel_interactions" (Int 2) (remove "max_episode_timesteps" required_args)) = Err "required: max_episode_timesteps"
  /\ (exists g, construct PPO required_args = Ok g /\ at_ ["config"; "buffer_observe"] (g_model g) = Some (Str "episode")).
Proof.
  split; [eexists; split; [vm_compute; reflexivity|split; vm_compute; reflexivity]|].
  split; [eexists; split; [vm_compute; reflexivity|split; vm_compute; reflexivity]|].
  split; [vm_compute; reflexivity|].
  split; [eexists; split; vm_compute; reflexivity|].
  split; [vm_compute; reflexivity|]. eexists; split; vm_compute; reflexivity.
Qed.
Example C102_example : exists g,
  load (fun _ => None) (fun _ => None) (fun _ _ => true) (fun _ _ => true) 3 None
    (Some (("agent", Str "dqn") :: ("internals", Str "x") :: ("saver", Dict [("directory", Str "model")]) :: required_args))
    [("learning_rate", Float 7 (-1))] = Ok (New DQN g, false)
  /\ at_ ["optimizer"; "learning_rate"] (g_model g) = Some (Float 7 (-1)) /\ at_ ["saver"; "load"] (g_model g) = Some (Bool true)
  /\ at_ ["update"; "batch_size"] (g_model g) = Some (Int 10).
Proof. eexists. split; [vm_compute; reflexivity|]. repeat split; reflexivity. Qed.

Print Assumptions C100_arguments.
Print Assumptions C100_memory.
Print Assumptions C100_base.
Print Assumptions C100_a2c_refuted.
Print Assumptions C100_baseline_refuted.
Print Assumptions C101_buffer.
Print Assumptions C101_relative_refuted.
Print Assumptions C99_unchanged_refuted.
Print Assumptions C102_saver_refuted.
