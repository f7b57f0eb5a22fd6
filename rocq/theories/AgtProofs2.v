(** Lemmas about agents: what is left of the arguments. *)

From Coq Require Import String List ZArith Bool Lia.
From Verif Require Import Base AgtModel AgtProofs.
Import ListNotations.
Open Scope string_scope.
Open Scope list_scope.

(** the arguments of the base agent in the order of its signature *)
Definition base_args (a : dict) (p : parts) : dict := [
  ("states", arg a "states"); ("actions", arg a "actions"); ("update", p_update p); ("optimizer", p_optimizer p);
  ("objective", p_objective p); ("reward_estimation", p_reward_estimation p); ("max_episode_timesteps", arg a "max_episode_timesteps");
  ("policy", p_policy p); ("memory", p_memory p); ("baseline", p_baseline p); ("baseline_optimizer", p_baseline_optimizer p);
  ("baseline_objective", p_baseline_objective p); ("l2_regularization", arg a "l2_regularization");
  ("entropy_regularization", arg a "entropy_regularization"); ("state_preprocessing", arg a "state_preprocessing");
  ("exploration", arg a "exploration"); ("variable_noise", arg a "variable_noise");
  ("parallel_interactions", arg a "parallel_interactions"); ("config", arg a "config"); ("saver", arg a "saver");
  ("summarizer", arg a "summarizer"); ("tracking", arg a "tracking"); ("recorder", arg a "recorder")].

Lemma bind_super a p kwargs : bind_args tensorforce_signature (super_args a p ++ kwargs) = Ok (base_args a p).
Proof. reflexivity. Qed.
Lemma rest_app s a b : rest s (a ++ b) = rest s a ++ rest s b.
Proof. apply filter_app. Qed.
Lemma rest_super a p : rest tensorforce_signature (super_args a p) = [].
Proof. reflexivity. Qed.
Lemma super_names a p : map fst (super_args a p) = map fst (super_args [] {| p_policy := None_; p_memory := None_; p_update := None_; p_optimizer := None_; p_objective := None_; p_reward_estimation := None_; p_baseline := None_; p_baseline_optimizer := None_; p_baseline_objective := None_ |}).
Proof. reflexivity. Qed.
Lemma has_names n d d' : map fst d = map fst d' -> has n d = has n d'.
Proof. intros E. apply eq_true_iff_eq. rewrite !has_in, E. reflexivity. Qed.
Lemma in_super a p n : In n (map fst tensorforce_signature) -> has n (super_args a p) = true.
Proof.
  intros H. rewrite (has_names n _ _ (super_names a p)).
  assert (F : forallb (fun n => has n (super_args [] {| p_policy := None_; p_memory := None_; p_update := None_; p_optimizer := None_; p_objective := None_; p_reward_estimation := None_; p_baseline := None_; p_baseline_optimizer := None_; p_baseline_objective := None_ |})) (map fst tensorforce_signature) = true) by (vm_compute; reflexivity).
  rewrite forallb_forall in F. now apply F.
Qed.

Lemma base_body_kwargs spec a kwargs g : base_body spec a kwargs = Ok g -> kwargs = [].
Proof.
  unfold base_body. intros H.
  destruct (contains "estimate_actions" _) as [c1|]; [|discriminate H]. cbn [bind] in H. destruct (assert_ (negb c1) _); [|discriminate H]. cbn [bind] in H.
  destruct (contains "estimate_terminal" _) as [c2|]; [|discriminate H]. cbn [bind] in H. destruct (assert_ (negb c2) _); [|discriminate H]. cbn [bind] in H.
  destruct (if is_none (arg a "summarizer") then Ok false else contains "labels" _) as [c3|]; [|discriminate H]. cbn [bind] in H. destruct (assert_ (negb c3) _); [|discriminate H]. cbn [bind] in H.
  destruct (filter _ _); [|discriminate H]. destruct kwargs; [reflexivity|discriminate H].
Qed.

(** the model's arguments *)
Definition model_args (a : dict) (memory update : value) (config : dict) : dict :=
  [("states", arg a "states"); ("actions", arg a "actions");
   ("max_episode_timesteps", arg a "max_episode_timesteps");
   ("policy", arg a "policy"); ("memory", memory); ("update", update); ("optimizer", arg a "optimizer");
   ("objective", arg a "objective"); ("reward_estimation", arg a "reward_estimation");
   ("baseline", arg a "baseline"); ("baseline_optimizer", arg a "baseline_optimizer");
   ("baseline_objective", arg a "baseline_objective");
   ("l2_regularization", arg a "l2_regularization");
   ("entropy_regularization", arg a "entropy_regularization");
   ("state_preprocessing", arg a "state_preprocessing");
   ("exploration", arg a "exploration"); ("variable_noise", arg a "variable_noise");
   ("parallel_interactions", arg a "parallel_interactions"); ("config", Dict config);
   ("saver", arg a "saver"); ("summarizer", arg a "summarizer"); ("tracking", arg a "tracking");
   ("recorder", arg a "recorder")].
Definition final_memory (a : dict) : value := if is_none (arg a "memory") then Dict [("type", Str "recent")] else arg a "memory".
Definition final_update (a : dict) : value :=
  match as_int (arg a "update") with
  | Some n => Dict [("unit", Str "timesteps"); ("batch_size", arg a "update")]
  | None => arg a "update"
  end.

Lemma base_body_ok spec a g : base_body spec a [] = Ok g ->
  g_spec g = match spec with Some s => s | None => make_spec "tensorforce" tensorforce_spec a end
  /\ exists config0 config, (arg a "config" = None_ /\ config0 = [] \/ arg a "config" = Dict config0)
     /\ buffer_observe a (final_update a) config0 = Ok config
     /\ g_model g = model_args a (final_memory a) (final_update a) config.
Proof.
  unfold base_body. intros H.
  destruct (contains "estimate_actions" _) as [c1|]; [|discriminate H]. cbn [bind] in H. destruct (assert_ (negb c1) _); [|discriminate H]. cbn [bind] in H.
  destruct (contains "estimate_terminal" _) as [c2|]; [|discriminate H]. cbn [bind] in H. destruct (assert_ (negb c2) _); [|discriminate H]. cbn [bind] in H.
  destruct (if is_none (arg a "summarizer") then Ok false else contains "labels" _) as [c3|]; [|discriminate H]. cbn [bind] in H. destruct (assert_ (negb c3) _); [|discriminate H]. cbn [bind] in H.
  destruct (filter _ _); [|discriminate H]. cbv zeta in H.
  fold (final_memory a) in H. fold (final_update a) in H.
  destruct (arg a "config") as [| | | | |d| |] eqn:C; try discriminate H; cbn [bind] in H.
  - destruct (buffer_observe a (final_update a) []) as [config|] eqn:B; [|discriminate H]. cbn [bind] in H. injection H as <-.
    split; [reflexivity|]. exists [], config. repeat split; auto.
  - destruct (buffer_observe a (final_update a) d) as [config|] eqn:B; [|discriminate H]. cbn [bind] in H. injection H as <-.
    split; [reflexivity|]. exists d, config. repeat split; auto.
Qed.

(** what __init__ does with bound arguments *)
Definition finish (c : class) (a : dict) : res agent :=
  match c with
  | Tensorforce => base_body None a []
  | Constant | Random =>
      Ok {| g_spec := make_spec (class_name c) (class_spec c) a;
            g_model := [("states", arg a "states"); ("actions", arg a "actions");
              ("max_episode_timesteps", arg a "max_episode_timesteps"); ("config", arg a "config"); ("recorder", arg a "recorder")]
              ++ (match c with Constant => [("action_values", arg a "action_values")] | _ => [] end) |}
  | _ => do p <- class_body c a; base_body (Some (make_spec (class_name c) (class_spec c) a)) (base_args a p) []
  end.
Lemma finish_sub c a : built_on_base c = true ->
  finish c a = do p <- class_body c a; base_body (Some (make_spec (class_name c) (class_spec c) a)) (base_args a p) [].
Proof. destruct c; intros B; try discriminate B; reflexivity. Qed.

Lemma construct_iff c kw g : construct c kw = Ok g <->
  exists a, bind_args (class_signature c) kw = Ok a /\ rest (class_signature c) kw = [] /\ finish c a = Ok g.
Proof.
  destruct (built_on_base c) eqn:B.
  - rewrite construct_sub by exact B. split.
    + intros H. destruct (bind_args (class_signature c) kw) as [a|]; [|discriminate H]. cbn [bind] in H. cbv zeta in H.
      destruct (filter (fun n => has n (rest (class_signature c) kw)) (class_deprecated c)); [|discriminate H].
      exists a. split; [reflexivity|]. rewrite finish_sub by exact B.
      destruct (class_body c a) as [p|]; [|discriminate H]. cbn [bind] in H |- *.
      destruct (existsb _ _) eqn:E; [discriminate H|]. unfold base_init in H. rewrite bind_super, rest_app, rest_super in H. cbn [bind app] in H.
      assert (K := base_body_kwargs _ _ _ _ H). rewrite K in H. split; [|exact H].
      destruct (rest (class_signature c) kw) as [|[n v] l] eqn:R; [reflexivity|]. exfalso.
      cbn [existsb fst] in E. apply orb_false_iff in E. destruct E as [E _].
      unfold rest in K at 1. cbn [filter fst] in K. rewrite has_sig in K.
      destruct (existsb (String.eqb n) (map fst tensorforce_signature)) eqn:I; cbn [negb] in K; [|discriminate K].
      apply existsb_exists in I. destruct I as (m & I & M). apply String.eqb_eq in M. subst m. rewrite (in_super a p n I) in E. discriminate E.
    + intros (a & E & R & F). rewrite E. cbn [bind]. cbv zeta. rewrite R. rewrite finish_sub in F by exact B.
      assert (Z : filter (fun n => has n []) (class_deprecated c) = []) by (induction (class_deprecated c) as [|x l IH]; [reflexivity|exact IH]).
      rewrite Z. destruct (class_body c a) as [p|]; [|discriminate F]. cbn [bind] in F |- *. cbn [existsb]. unfold base_init.
      rewrite bind_super, rest_app, rest_super. exact F.
  - destruct c; try discriminate B; cbn [construct finish].
    1,2: split;
      [intros H; destruct (bind_args _ kw) as [a|]; [|discriminate H]; cbn [bind] in H;
       destruct (rest _ kw) eqn:R; [|discriminate H]; exists a; split; [reflexivity|split; [reflexivity|exact H]]
      |intros (a & E & R & F); rewrite E, R; exact F].
    unfold base_init. split.
    + intros H. change (class_signature Tensorforce) with tensorforce_signature. destruct (bind_args tensorforce_signature kw) as [a|]; [|discriminate H].
      cbn [bind] in H. assert (K := base_body_kwargs _ _ _ _ H). rewrite K in H. exists a. auto.
    + intros (a & E & R & F). change (class_signature Tensorforce) with tensorforce_signature in *. rewrite E. cbn [bind]. now rewrite R.
Qed.

Lemma finish_spec c a g : finish c a = Ok g -> g_spec g = make_spec (class_name c) (class_spec c) a.
Proof.
  destruct (built_on_base c) eqn:B.
  - rewrite finish_sub by exact B. destruct (class_body c a) as [p|]; [|discriminate]. cbn [bind]. intros H.
    now apply base_body_ok in H.
  - destruct c; try discriminate B; cbn [finish]; intros H.
    1,2: injection H as <-; reflexivity.
    apply base_body_ok in H. apply H.
Qed.

Lemma get_spec n names a : get n (map (fun n => (n, arg a n)) names) = if existsb (String.eqb n) names then Some (arg a n) else None.
Proof.
  induction names as [|m l IH]; cbn; [reflexivity|]. destruct (String.eqb_spec n m) as [->|]; [reflexivity|exact IH].
Qed.
Lemma arg_get a n : In n (map fst a) -> get n a = Some (arg a n).
Proof. intros H. unfold arg. apply get_some in H. destruct H as [v ->]. reflexivity. Qed.
