(** Claims about Environment.create: C145 (forms of specifications), C146 (the result), C147
    (remote modes), C148 (importing classes). *)
From Coq Require Import String List ZArith Bool Lia Arith.
From Verif Require Import Base SigModel EcrModel EcrSpec MergeProofs EcrProofs EcrTermProofs.
Import ListNotations.
Open Scope string_scope.
Open Scope list_scope.
Open Scope nat_scope.

(** ** Examples *)
Definition int (z : Z) : value := PAtom (AInt z).
Definition obj (e : env) : value := PAtom (AEnv e).
Definition class (c : cls) : value := PAtom (AClass c).
(** Constructors which note the number of arguments; a file; no modules. *)
Definition ex : world := World
  (fun s => if String.eqb s "spec.json" then Some (Ok (PDict [("type", str "custom_cartpole"); ("max_episode_timesteps", int 50); ("state_indicator", int 1)])) else
            if String.eqb s "loop.json" then Some (Ok (PDict [("environment", str "loop.json")])) else None)
  (fun _ => Ok None)
  (fun c d => if String.eqb c "OpenAIGym" then (if has "level" d then Ok (Env (length d) (Some 200%Z) false) else Err "TensorforceError: level") else Ok (Env (length d) None false)).

(** ** C145 *)
(** The name of a JSON file stands for its content. *)
Theorem C145_file : forall W s v lim sh kw, plain kw -> w_file W s = Some (Ok (PDict v)) ->
  same_result W (named (str s) lim sh ++ kw) (named (PDict v) lim sh ++ kw).
Proof.
  intros W s v lim sh kw Hp H. apply same_next. rewrite !step_local by assumption. cbn [create_local str]. unfold from_string. rewrite H. reflexivity.
Qed.
Print Assumptions C145_file.

(** A keyword stands for its class, unless there is a file of this name. *)
Theorem C145_keyword : forall W s c lim sh kw, plain kw -> w_file W s = None -> In (s, c) environments ->
  same_result W (named (str s) lim sh ++ kw) (named (class c) lim sh ++ kw).
Proof.
  intros W s c lim sh kw Hp H Hin. apply same_call. rewrite step_local by assumption. cbn [create_local str]. unfold from_string. rewrite H.
  assert (R : registered s environments = Some c).
  { assert (G : forall l : list (string * cls), NoDup (map fst l) -> In (s, c) l -> registered s l = Some c).
    { induction l as [|[k x] r IH]; intros ND; cbn; [tauto|]. inversion ND as [|? ? N1 N2]; subst. intros [X|X].
      - injection X as -> ->. rewrite String.eqb_refl. reflexivity.
      - destruct (String.eqb_spec s k) as [->|]; [destruct N1; apply in_map_iff; exists (k, c); auto|apply IH; assumption]. }
    apply G; [|exact Hin]. repeat (constructor; [cbn; intuition discriminate|]). constructor. }
  rewrite R. reflexivity.
Qed.
Print Assumptions C145_keyword.

(** A dictionary stands for a call with its entries as arguments; "type" is the same as
    "environment", the default is gym. *)
Theorem C145_dictionary : forall W es lim sh kw, plain kw -> ~ In "type" (map fst kw) ->
  NoDup (map fst es) -> (forall k, In k (map fst es) -> ~ In k (map fst kw)) -> is_none (kind es) = false ->
  (is_none lim = false -> ~ In "max_episode_timesteps" (map fst es)) -> (is_none sh = false -> ~ In "reward_shaping" (map fst es)) ->
  same_result W (named (PDict es) lim sh ++ kw)
    (named (kind es) (either lim "max_episode_timesteps" es) (either sh "reward_shaping" es) ++ kw ++ others es).
Proof.
  intros W es lim sh kw Hp Ht ND Hd Hk Hl Hs. apply same_call. rewrite step_local by assumption. cbn [create_local]. rewrite dict_args_ok by assumption. reflexivity.
Qed.
Print Assumptions C145_dictionary.

Lemma plain_one k v : ~ In k parameters -> plain [(k, v)].
Proof. intros H k' v' [X|[]]. injection X as <- <-. exact H. Qed.
(** All three together. *)
Example C145_example : creates ex (named (str "spec.json") none none ++ [("visualize", PAtom (ABool true))])
  (Ok (Local (Wrapper (Env 2 (Some 50%Z) false) (Some 50%Z) NoShaping))).
Proof.
  assert (P1 : plain [("visualize", PAtom (ABool true))]) by (apply plain_one; cbn; intuition discriminate).
  apply (C145_file ex "spec.json" [("type", str "custom_cartpole"); ("max_episode_timesteps", int 50); ("state_indicator", int 1)]); [exact P1|reflexivity|].
  apply (C145_dictionary ex [("type", str "custom_cartpole"); ("max_episode_timesteps", int 50); ("state_indicator", int 1)] none none); [exact P1| | | |reflexivity|discriminate|discriminate|].
  - cbn. intuition discriminate.
  - repeat (constructor; [cbn; intuition discriminate|]). constructor.
  - cbn. intros k [<-|[<-|[<-|[]]]] [X|[]]; discriminate.
  - apply (C145_keyword ex "custom_cartpole" (CEnv "CartPole")).
    + intros k v [X|[X|[]]]; injection X as <- <-; cbn; intuition discriminate.
    + reflexivity.
    + cbn. tauto.
    + exists 2. reflexivity.
Qed.

(** Arguments which contradict the dictionary are errors; no value is overwritten. *)
Theorem C145_conflict : forall W es lim sh kw k a x, plain kw -> uniq atom (PDict es) ->
  plook k kw = Some (PAtom a) -> plook k es = Some x -> peqb atom_eqb (PAtom a) x = false ->
  raises W (named (PDict es) lim sh ++ kw).
Proof.
  intros W es lim sh kw k a x Hp Hu Ha Hx Hn.
  destruct (deep_disjoint_update atom_eqb kw (PDict es)) as [m|e] eqn:E.
  - exfalso. destruct (ddu_ok atom atom_eqb (PDict es) kw m Hu E) as (A & B & _).
    destruct (A [k] (PAtom a)) as (y & Y1 & Y2); [cbn; rewrite Ha; reflexivity|]. cbn in Y2. subst y.
    destruct (B [k] x) as (z & Z1 & Z2); [cbn; rewrite Hx; reflexivity|]. assert (z = PAtom a) by congruence. subst z.
    inversion Z2; subst; [|congruence]. clear - Hn. destruct a as [|[]|z|s|f|c|en|w|i m|g]; cbn in Hn; try discriminate.
    + rewrite Z.eqb_refl in Hn. discriminate. + rewrite String.eqb_refl in Hn. discriminate. + rewrite Nat.eqb_refl in Hn. discriminate.
    + destruct c; cbn in Hn; rewrite String.eqb_refl in Hn; discriminate. + rewrite Nat.eqb_refl in Hn. discriminate. + rewrite Nat.eqb_refl in Hn. discriminate.
    + rewrite Nat.eqb_refl in Hn. discriminate. + rewrite Nat.eqb_refl in Hn. discriminate.
  - apply (done_err W _ e). rewrite step_local by assumption. cbn [create_local]. unfold dict_args. rewrite E. reflexivity.
Qed.
Print Assumptions C145_conflict.
Example C145_conflict_example : raises ex (named (PDict [("environment", str "gym"); ("level", str "CartPole-v1")]) none none ++ [("level", str "Pendulum-v0")]).
Proof.
  apply (C145_conflict ex _ none none _ "level" (AStr "Pendulum-v0") (str "CartPole-v1")); try reflexivity.
  - apply plain_one. cbn. intuition discriminate.
  - cbn. split; [|tauto]. repeat (constructor; [cbn; intuition discriminate|]). constructor.
Qed.

(** max_episode_timesteps and reward_shaping given as argument and in the dictionary raise, even
    if they are the same. *)
Theorem C145_twice_refuted : forall W es lim sh kw, plain kw -> NoDup (map fst es) ->
  (forall k, In k (map fst es) -> ~ In k (map fst kw)) ->
  is_none lim = false -> In "max_episode_timesteps" (map fst es) -> raises W (named (PDict es) lim sh ++ kw).
Proof.
  intros W es lim sh kw Hp ND Hd Hl Hin.
  assert (G : exists e, dict_args (PDict es) lim sh kw = Err e).
  { unfold dict_args. rewrite update_disjoint by assumption. cbn [bind]. destruct (assert_ _ _); [|eexists; reflexivity]. cbn [bind]. rewrite Hl.
    assert (X : In "max_episode_timesteps" (map fst (drop "environment" (drop "type" (kw ++ es))))).
    { rewrite !in_drop, map_app, in_app_iff. repeat split; [tauto|discriminate..]. }
    assert (Y : forall d, In "max_episode_timesteps" (map fst d) -> forall v s, call_args (named v lim s) d = Err "TypeError: multiple values for keyword argument").
    { intros d H v s. unfold call_args. cbn [named existsb fst]. apply has_in in H. rewrite H, orb_true_r. reflexivity. }
    destruct (is_none sh); eexists; apply Y; [|exact X]. rewrite in_drop. split; [exact X|discriminate]. }
  destruct G as (e & G). apply (done_err W _ e). rewrite step_local by assumption. cbn [create_local]. rewrite G. reflexivity.
Qed.
Print Assumptions C145_twice_refuted.
Example C145_twice_example : raises ex (named (PDict [("environment", str "custom_cartpole"); ("max_episode_timesteps", int 50)]) (int 50) none ++ []).
Proof.
  apply C145_twice_refuted; [apply plain_nil| |intros k _ []|reflexivity|cbn; tauto]. repeat (constructor; [cbn; intuition discriminate|]). constructor.
Qed.

(** "type" is dropped if there is "environment", whatever it is. *)
Theorem C145_type_refuted : forall W v t lim sh, is_none v = false ->
  same_result W (named (PDict [("environment", v); ("type", t)]) lim sh) (named (PDict [("environment", v)]) lim sh).
Proof.
  intros W v t lim sh Hv. apply same_next. rewrite !step_named. cbn [create_local]. unfold dict_args. cbn. rewrite Hv. reflexivity.
Qed.
Print Assumptions C145_type_refuted.
Example C145_type_example : creates ex (named (PDict [("environment", str "custom_cartpole"); ("type", str "vizdoom")]) none none) (Ok (Local (Wrapper (Env 0 None false) None NoShaping))).
Proof. apply C145_type_refuted; [reflexivity|]. exists 4. reflexivity. Qed.

(** Another string is a class which can be imported, or else a gym level. *)
Theorem C145_import : forall W s c lim sh kw, plain kw -> w_file W s = None -> (forall c', ~ In (s, c') environments) -> w_import W s = Ok (Some c) ->
  same_result W (named (str s) lim sh ++ kw) (named (class c) lim sh ++ kw).
Proof.
  intros W s c lim sh kw Hp H Hn Hi. apply same_call. rewrite step_local by assumption. cbn [create_local str]. unfold from_string. rewrite H.
  assert (R : registered s environments = None).
  { assert (G : forall l : list (string * cls), (forall c', ~ In (s, c') l) -> registered s l = None).
    { induction l as [|[k x] r IH]; intro N; [reflexivity|]. cbn. destruct (String.eqb_spec s k) as [->|]; [destruct (N x); left; reflexivity|]. apply IH. intros c' X. apply (N c'). right. exact X. }
    apply G, Hn. }
  rewrite R, Hi. reflexivity.
Qed.
Print Assumptions C145_import.
Theorem C145_level : forall W s lim sh kw o, plain kw -> ~ In "level" (map fst kw) -> w_file W s = None -> (forall c', ~ In (s, c') environments) -> w_import W s = Ok None ->
  (creates W (named (str s) lim sh ++ kw) (Ok o) <-> creates W (named (str "gym") lim sh ++ ("level", str s) :: kw) (Ok o)).
Proof.
  intros W s lim sh kw o Hp Hl H Hn Hi. rewrite creates_step. rewrite step_local by assumption. cbn [create_local str]. unfold from_string. rewrite H.
  assert (R : registered s environments = None).
  { assert (G : forall l : list (string * cls), (forall c', ~ In (s, c') l) -> registered s l = None).
    { induction l as [|[k x] r IH]; intro N; [reflexivity|]. cbn. destruct (String.eqb_spec s k) as [->|]; [destruct (N x); left; reflexivity|]. apply IH. intros c' X. apply (N c'). right. exact X. }
    apply G, Hn. }
  rewrite R, Hi. unfold call_args. cbn [named app existsb fst].
  assert (HP : forall p, In p parameters -> has p kw = false) by (intros p X; unfold has; rewrite plain_arg by assumption; reflexivity).
  rewrite !HP by (cbn; tauto). apply has_not in Hl. rewrite Hl. cbn [orb]. split.
  - intros (x & X & E). symmetry in E. apply (proj1 (gym_error_ok _ _)) in E. subst x. exact X.
  - intro X. exists (Ok o). split; [exact X|reflexivity].
Qed.
Print Assumptions C145_level.
Lemma not_keyword : forall s, ~ In s (map fst environments) -> forall c, ~ In (s, c) environments.
Proof. intros s H c X. apply H. apply in_map_iff. exists (s, c). auto. Qed.
Example C145_level_example : creates ex (named (str "CartPole-v1") (int 100) none ++ []) (Ok (Local (Wrapper (Env 1 (Some 200%Z) false) (Some 100%Z) NoShaping))).
Proof.
  apply C145_level; [apply plain_nil|intros []|reflexivity| |reflexivity|exists 3; reflexivity]. apply not_keyword. cbn. intuition discriminate.
Qed.
Example C145_import_example : exists W, creates W (named (str "mod") none none ++ []) (Ok (Local (Wrapper (Env 0 None false) None NoShaping))).
Proof.
  exists (World (fun _ => None) (fun _ => Ok (Some (CEnv "Mine"))) (fun _ _ => Ok (Env 0 None false))).
  apply (C145_import _ "mod" (CEnv "Mine")); [apply plain_nil|reflexivity| |reflexivity|exists 2; reflexivity]. apply not_keyword. cbn. intuition discriminate.
Qed.
(** Errors of the gym environment are reported as an unknown environment; an argument "level"
    raises. *)
Theorem C145_message_refuted : forall W s lim sh kw e, plain kw -> ~ In "level" (map fst kw) -> w_file W s = None -> ~ In s (map fst environments) -> w_import W s = Ok None ->
  creates W (named (str "gym") lim sh ++ ("level", str s) :: kw) (Err ("TensorforceError" ++ e)) ->
  creates W (named (str s) lim sh ++ kw) (Err "TensorforceError: environment").
Proof.
  intros W s lim sh kw e Hp Hl H Hn Hi X. apply creates_step. rewrite step_local by assumption. cbn [create_local str]. unfold from_string. rewrite H.
  assert (R : registered s environments = None).
  { assert (G : forall l : list (string * cls), ~ In s (map fst l) -> registered s l = None).
    { induction l as [|[k x] r IH]; intro N; [reflexivity|]. cbn in *. destruct (String.eqb_spec s k) as [->|]; [destruct N; left; reflexivity|]. apply IH. tauto. }
    apply G, Hn. }
  rewrite R, Hi. unfold call_args. cbn [named app existsb fst].
  assert (HP : forall p, In p parameters -> has p kw = false) by (intros p Y; unfold has; rewrite plain_arg by assumption; reflexivity).
  rewrite !HP by (cbn; tauto). apply has_not in Hl. rewrite Hl. cbn [orb]. eexists. split; [exact X|]. destruct e; reflexivity.
Qed.
Print Assumptions C145_message_refuted.
Example C145_message_example : creates ex (named (str "CartPole-v1") (int 500) none ++ []) (Err "TensorforceError: environment").
Proof.
  apply (C145_message_refuted ex "CartPole-v1" _ _ _ ": unexpected"); [apply plain_nil|intros []|reflexivity| |reflexivity|exists 3; reflexivity]. cbn. intuition discriminate.
Qed.
Theorem C145_level_argument_refuted : forall W s lim sh kw, plain kw -> In "level" (map fst kw) -> w_file W s = None -> ~ In s (map fst environments) -> w_import W s = Ok None ->
  raises W (named (str s) lim sh ++ kw).
Proof.
  intros W s lim sh kw Hp Hl H Hn Hi. eapply done_err. rewrite step_local by assumption. cbn [create_local str]. unfold from_string. rewrite H.
  assert (R : registered s environments = None).
  { assert (G : forall l : list (string * cls), ~ In s (map fst l) -> registered s l = None).
    { induction l as [|[k x] r IH]; intro N; [reflexivity|]. cbn in *. destruct (String.eqb_spec s k) as [->|]; [destruct N; left; reflexivity|]. apply IH. tauto. }
    apply G, Hn. }
  rewrite R, Hi. unfold call_args. cbn [named app existsb fst]. apply has_in in Hl. rewrite Hl. rewrite !orb_true_r. reflexivity.
Qed.
Print Assumptions C145_level_argument_refuted.
Example C145_level_argument_example : raises ex (named (str "CartPole-v1") none none ++ [("level", str "CartPole-v1")]).
Proof.
  apply C145_level_argument_refuted; [apply plain_one; cbn; intuition discriminate|cbn; tauto|reflexivity| |reflexivity]. cbn. intuition discriminate.
Qed.

(** create returns or raises, if the files do not refer to each other in cycles: every file is
    assigned a number larger than the strings of its content. *)
Theorem C145_terminates : forall W cost, w_file W "gym" = None -> w_file W "default" = None ->
  (forall s v, w_file W s = Some (Ok v) -> vsize cost v <= cost s) -> forall args, exists r, creates W args r.
Proof. intros W cost H1 H2 H args. eapply (total_all W cost H1 H2 H). apply le_n. Qed.
Print Assumptions C145_terminates.
Example C145_terminates_example : forall args, exists r, creates (World (fun s => if String.eqb s "a" then Some (Ok (PDict [("type", str "b")])) else if String.eqb s "b" then Some (Ok (PDict [("type", str "c")])) else None) (fun _ => Ok None) (fun _ _ => Err "")) args r.
Proof.
  apply (C145_terminates _ (fun s => if String.eqb s "a" then 2 else if String.eqb s "b" then 1 else 0)); try reflexivity.
  intros s v. cbn. destruct (s =? "a")%string; [intro X; injection X as <-; apply le_n|]. destruct (s =? "b")%string; [intro X; injection X as <-; apply le_n|discriminate].
Qed.
(** A file which refers to itself makes create go on forever (until Python's recursion limit). *)
Theorem C145_cycle_refuted : forall n, run ex n (named (str "loop.json") none none) = None.
Proof. induction n as [|n IH]; [reflexivity|]. exact IH. Qed.
Print Assumptions C145_cycle_refuted.

(** ** C146 *)
(** A class is constructed once, with exactly the remaining arguments, and wrapped. *)
Theorem C146_class : forall W c lim sh kw, plain kw ->
  (forall e, w_construct W c kw = Ok e -> same_result W (named (class (CEnv c)) lim sh ++ kw) (named (obj e) lim sh)) /\
  (forall m, w_construct W c kw = Err m -> creates W (named (class (CEnv c)) lim sh ++ kw) (Err m)).
Proof.
  intros W c lim sh kw Hp. split; intros x H.
  - apply same_call. rewrite step_local by assumption. cbn [create_local class]. rewrite H. reflexivity.
  - apply creates_step. rewrite step_local by assumption. cbn [create_local class]. rewrite H. reflexivity.
Qed.
Print Assumptions C146_class.
Example C146_class_example : creates ex (named (class (CEnv "CartPole")) (int 5) (str "-reward") ++ [("a", none)]) (Ok (Local (Wrapper (Env 1 (Some 5%Z) false) (Some 5%Z) (Expr "-reward")))).
Proof.
  apply (proj1 (C146_class ex "CartPole" (int 5) (str "-reward") [("a", none)] ltac:(apply plain_one; cbn; intuition discriminate)) (Env 1 None false) eq_refl). exists 1. reflexivity.
Qed.

(** An environment is wrapped exactly if it has a single actor and the given limit is not above its
    own; the wrapper has the given limit, or else its own; the environment keeps its own, or else
    gets the given one. *)
Theorem C146_object : forall W e lim sh o,
  creates W (named (obj e) lim sh) (Ok o) <->
  exists l w, as_limit lim = Ok l /\ o = Local w /\ e_multi e = false /\ (forall m z, e_limit e = Some m -> l = Some z -> (z <= m)%Z) /\
    wr_limit w = match l with Some z => Some z | None => e_limit e end /\ wr_shaping w = as_shaping sh /\
    e_id (wr_env w) = e_id e /\ e_multi (wr_env w) = e_multi e /\ e_limit (wr_env w) = match e_limit e with Some m => Some m | None => l end.
Proof.
  intros W e lim sh o. rewrite creates_step, step_named. cbn [create_local obj]. split.
  - destruct (as_limit lim) as [l|]; [|discriminate]. cbn [bind]. destruct (wrap e l (as_shaping sh)) as [w|] eqn:E; [|discriminate]. cbn. intro X. injection X as ->.
    apply wrap_iff in E. exists l, w. split; [reflexivity|]. split; [reflexivity|exact E].
  - intros (l & w & -> & -> & H). cbn [bind]. apply wrap_iff in H. rewrite H. reflexivity.
Qed.
Print Assumptions C146_object.
Example C146_object_example : ~ exists o, creates ex (named (obj (Env 7 (Some 10%Z) false)) (int 11) none) (Ok o).
Proof.
  intros (o & H). apply C146_object in H. destruct H as (l & w & X & _ & _ & H & _). injection X as <-. specialize (H 10%Z 11%Z eq_refl eq_refl). lia.
Qed.

(** However the environment is specified, the result has the limit given as argument. *)
Theorem C146_limit : forall W args w z, creates W args (Ok (Local w)) ->
  as_limit (arg args "max_episode_timesteps") = Ok (Some z) -> wr_limit w = Some z.
Proof. intros W args w z [n H] Hz. exact (given_limit W n args w z H Hz). Qed.
Print Assumptions C146_limit.
Example C146_limit_example : forall w, creates ex (named (str "CartPole-v1") (int 100) none) (Ok (Local w)) -> wr_limit w = Some 100%Z.
Proof. intros w H. exact (C146_limit ex _ w 100%Z H eq_refl). Qed.

(** What was created is returned itself: exactly without further arguments, and if a limit is
    given, the same. *)
Theorem C146_existing : forall W w lim sh kw o, plain kw ->
  (creates W (named (PAtom (AWrapper w)) lim sh ++ kw) (Ok o) <->
   o = Local w /\ kw = [] /\ (as_limit lim = Ok None \/ exists z, as_limit lim = Ok (Some z) /\ wr_limit w = Some z)).
Proof.
  intros W w lim sh kw o Hp. rewrite creates_step, step_local by assumption. cbn [create_local]. unfold check_existing. split.
  - destruct (as_limit lim) as [[z|]|]; cbn [bind]; [| |discriminate].
    + destruct (wr_limit w) as [m|] eqn:E; [|discriminate]. destruct (Z.eqb_spec z m) as [->|]; [|discriminate]. cbn. destruct kw; [|discriminate]. cbn.
      intro X. injection X as ->. eauto 6.
    + destruct kw; [|discriminate]. cbn. intro X. injection X as ->. auto.
  - intros (-> & -> & [->|(z & -> & E)]); [reflexivity|]. cbn [bind]. rewrite E, Z.eqb_refl. reflexivity.
Qed.
Print Assumptions C146_existing.
Theorem C146_idempotent : forall W args w sh, creates W args (Ok (Local w)) ->
  creates W (named (PAtom (AWrapper w)) (arg args "max_episode_timesteps") sh) (Ok (Local w)) \/ as_limit (arg args "max_episode_timesteps") = Err "TypeError or ValueError: max_episode_timesteps".
Proof.
  intros W args w sh H. destruct (as_limit (arg args "max_episode_timesteps")) as [l|] eqn:E.
  - left. rewrite <- (app_nil_r (named _ _ _)). apply C146_existing; [apply plain_nil|]. split; [reflexivity|]. split; [reflexivity|]. destruct l as [z|]; [|left; exact E].
    right. exists z. split; [exact E|]. eapply C146_limit; eauto.
  - right. clear - E. destruct (arg args "max_episode_timesteps") as [[]|?|?]; cbn in E; congruence.
Qed.
Print Assumptions C146_idempotent.
Example C146_idempotent_example : let w := Wrapper (Env 1 (Some 200%Z) false) (Some 100%Z) NoShaping in
  creates ex (named (PAtom (AWrapper w)) (int 100) none) (Ok (Local w)).
Proof.
  intro w. destruct (C146_idempotent ex (named (str "CartPole-v1") (int 100) none) w none) as [H|H]; [exists 4; reflexivity|exact H|discriminate].
Qed.

(** A reward shaping given for an existing wrapper is ignored; further arguments given for an
    existing environment are ignored. *)
Theorem C146_ignored_refuted : forall W,
  (forall w sh sh', same_result W (named (PAtom (AWrapper w)) none sh) (named (PAtom (AWrapper w)) none sh')) /\
  (forall e lim sh kw, plain kw -> same_result W (named (obj e) lim sh ++ kw) (named (obj e) lim sh)).
Proof.
  intro W. split; intros; apply same_next.
  - rewrite !step_named. reflexivity.
  - rewrite step_named, step_local by assumption. reflexivity.
Qed.
Print Assumptions C146_ignored_refuted.
Example C146_ignored_example : let w := Wrapper (Env 1 None false) None NoShaping in creates ex (named (PAtom (AWrapper w)) none (str "0.0 * reward")) (Ok (Local w)).
Proof. intro w. apply (proj1 (C146_ignored_refuted ex) w none). exists 1. reflexivity. Qed.

(** Creating a wrapper changes the environment: afterwards it cannot be wrapped with a larger limit. *)
Theorem C146_again_refuted : forall W e a b sh sh' w, e_limit e = None -> (a < b)%Z ->
  creates W (named (obj e) (int a) sh) (Ok (Local w)) ->
  creates W (named (obj e) (int b) sh) (Ok (Local (Wrapper (Env (e_id e) (Some b) false) (Some b) (as_shaping sh)))) /\
  raises W (named (obj (wr_env w)) (int b) sh').
Proof.
  intros W e a b sh sh' w He Hab H. apply C146_object in H. destruct H as (l & w' & X & Y & M & _ & A1 & A2 & A3 & A4 & A5). injection X as <-. injection Y as <-. split.
  - apply C146_object. exists (Some b). eexists. split; [reflexivity|]. split; [reflexivity|]. split; [exact M|]. split; [congruence|]. cbn. rewrite He, M. repeat split.
  - rewrite He in A5. eapply done_err. rewrite step_named. cbn [create_local obj as_limit int bind]. unfold wrap. rewrite A5.
    destruct (Z.ltb_spec a b); [|lia]. reflexivity.
Qed.
Print Assumptions C146_again_refuted.
Example C146_again_example : raises ex (named (obj (Env 3 (Some 10%Z) false)) (int 20) none).
Proof.
  apply (C146_again_refuted ex (Env 3 None false) 10 20 none none (Wrapper (Env 3 (Some 10%Z) false) (Some 10%Z) NoShaping)); [reflexivity|lia|exists 1; reflexivity].
Qed.
(** Limits which are not positive are accepted. *)
Theorem C146_positive_refuted : forall W e z, e_limit e = None -> e_multi e = false -> (z <= 0)%Z ->
  exists w, creates W (named (obj e) (int z) none) (Ok (Local w)) /\ wr_limit w = Some z.
Proof.
  intros W e z He Hm Hz. exists (Wrapper (Env (e_id e) (Some z) false) (Some z) NoShaping). split; [|reflexivity].
  apply C146_object. exists (Some z). eexists. split; [reflexivity|]. split; [reflexivity|]. cbn. rewrite He, Hm. repeat split; congruence.
Qed.
Print Assumptions C146_positive_refuted.
Example C146_positive_example : exists w, creates ex (named (obj (Env 0 None false)) (int 0) none) (Ok (Local w)) /\ wr_limit w = Some 0%Z.
Proof. apply C146_positive_refuted; [reflexivity..|lia]. Qed.
