(** Claims about Environment.create, continued: the values of its arguments (C145 equal values and names of
    environments, C146 limits, shapings and existing environments, C147 the argument blocking). *)
From Coq Require Import Ascii String List ZArith Bool Lia Arith.
From Verif Require Import Base SigModel EcrModel EcrSpec MergeProofs EcrProofs EcrTermProofs EcrProps EcrRemoteProps.
Import ListNotations.
Open Scope string_scope.
Open Scope list_scope.
Open Scope nat_scope.

(** ** C145 *)
(** The names of the environments. *)
Theorem C145_names : forall W lim sh kw s c, plain kw -> w_file W s = None ->
  In (s, c) [("default", "OpenAIGym"); ("gym", "OpenAIGym"); ("openai_gym", "OpenAIGym"); ("ale", "ArcadeLearningEnvironment");
    ("arcade_learning_environment", "ArcadeLearningEnvironment"); ("custom_cartpole", "CartPole"); ("retro", "OpenAIRetro"); ("openai_retro", "OpenAIRetro");
    ("osim", "OpenSim"); ("open_sim", "OpenSim"); ("ple", "PyGameLearningEnvironment"); ("pygame_learning_environment", "PyGameLearningEnvironment");
    ("vizdoom", "ViZDoom"); ("carla", "CARLAEnvironment"); ("carla_environment", "CARLAEnvironment")] ->
  same_result W (named (str s) lim sh ++ kw) (named (class (CEnv c)) lim sh ++ kw).
Proof.
  intros W lim sh kw s c Hp Hf Hin. apply C145_keyword; [exact Hp|exact Hf|]. cbn in Hin.
  repeat (destruct Hin as [E|Hin]; [injection E as <- <-; cbn; tauto|]). destruct Hin.
Qed.
Print Assumptions C145_names.
Example C145_names_example : same_result ex (named (str "vizdoom") none none) (named (class (CEnv "ViZDoom")) none none).
Proof. rewrite <- (app_nil_r (named (str "vizdoom") none none)), <- (app_nil_r (named (class (CEnv "ViZDoom")) none none)). apply C145_names; [apply plain_nil|reflexivity|cbn; tauto]. Qed.

(** Numbers given twice, as argument and in the dictionary, must be equal; False is 0 and True is 1. *)
Definition number (a : atom) : option Z := match a with AInt z => Some z | ABool b => Some (if b then 1 else 0)%Z | _ => None end.
Theorem C145_numbers : forall W t lim sh k a x z z', ~ In k parameters -> k <> "type" -> is_none t = false -> number a = Some z -> number x = Some z' ->
  (z = z' -> same_result W (named (PDict [("type", t); (k, PAtom x)]) lim sh ++ [(k, PAtom a)]) (named t lim sh ++ [(k, PAtom a)])) /\
  (z <> z' -> raises W (named (PDict [("type", t); (k, PAtom x)]) lim sh ++ [(k, PAtom a)])).
Proof.
  intros W t lim sh k a x z z' Hk Hkt Ht Ha Hx.
  assert (Hp : plain [(k, PAtom a)]) by (intros k' v [E|[]] Hin; injection E as <- _; contradiction).
  assert (EK : forall s, In s parameters \/ s = "type" -> String.eqb s k = false) by (intros s Hs; apply String.eqb_neq; intros ->; destruct Hs; contradiction).
  assert (EQ : peqb atom_eqb (PAtom a) (PAtom x) = Z.eqb z z').
  { destruct a as [|[]| | | | | | | |], x as [|[]| | | | | | | |]; cbn in Ha, Hx; try discriminate; injection Ha as <-; injection Hx as <-; cbn; try reflexivity. }
  assert (ED : dict_args (PDict [("type", t); (k, PAtom x)]) lim sh [(k, PAtom a)] =
               if Z.eqb z z' then Ok (named t lim sh ++ [(k, PAtom a)]) else Err "mismatch").
  { assert (U : deep_disjoint_update atom_eqb [(k, PAtom a)] (PDict [("type", t); (k, PAtom x)]) = if Z.eqb z z' then Ok [(k, PAtom a); ("type", t)] else Err "mismatch").
    { cbn [deep_disjoint_update update_loop plook]. rewrite (EK "type" (or_intror eq_refl)). cbn [app plook]. rewrite String.eqb_refl. rewrite EQ. destruct (Z.eqb z z'); reflexivity. }
    assert (P1 : plook "environment" [(k, PAtom a); ("type", t)] = None) by (cbn [plook]; rewrite (EK "environment") by (left; cbn; tauto); reflexivity).
    assert (P2 : plook "type" [(k, PAtom a); ("type", t)] = Some t) by (cbn [plook]; rewrite (EK "type" (or_intror eq_refl)); reflexivity).
    assert (NI : forall p, In p parameters \/ p = "type" -> ~ In p (map fst [(k, PAtom a)])) by (intros p X [Y|[]]; cbn in Y; subst p; destruct X; contradiction).
    assert (D1 : drop "environment" (drop "type" [(k, PAtom a); ("type", t)]) = [(k, PAtom a)]).
    { change [(k, PAtom a); ("type", t)] with ([(k, PAtom a)] ++ [("type", t)]). rewrite drop_app, (drop_none "type" [(k, PAtom a)]) by (apply NI; right; reflexivity).
      change (drop "type" [("type", t)]) with (@nil (string * value)). rewrite app_nil_r. apply drop_none, NI. left; cbn; tauto. }
    assert (P3 : forall p, In p parameters -> arg [(k, PAtom a)] p = none /\ drop p [(k, PAtom a)] = [(k, PAtom a)] /\ has p [(k, PAtom a)] = false).
    { intros p X. split; [unfold arg; rewrite (proj2 (plook_none p [(k, PAtom a)])) by (apply NI; left; exact X); reflexivity|]. split; [apply drop_none, NI; left; exact X|]. apply has_not, NI. left. exact X. }
    assert (I1 : In "environment" parameters) by (cbn; tauto). assert (I2 : In "max_episode_timesteps" parameters) by (cbn; tauto). assert (I3 : In "reward_shaping" parameters) by (cbn; tauto).
    destruct (P3 _ I1) as (_ & _ & H1), (P3 _ I2) as (A2 & B2 & H2), (P3 _ I3) as (A3 & B3 & H3).
    assert (NN : forall v, is_none v = true -> v = none) by (intros [[]|? ?|?]; try discriminate; reflexivity).
    assert (CA : forall l s, call_args (named t l s) [(k, PAtom a)] = Ok (named t l s ++ [(k, PAtom a)])).
    { intros l s. unfold call_args. cbn [named existsb fst]. rewrite H1, H2, H3. reflexivity. }
    unfold dict_args. rewrite U. destruct (Z.eqb z z'); [|reflexivity]. cbn [bind]. rewrite P1, P2, D1, Ht. cbn [negb assert_ bind].
    destruct (is_none lim) eqn:El; rewrite ?A2, ?B2; destruct (is_none sh) eqn:Es; rewrite ?A3, ?B3; rewrite CA; rewrite ?(NN lim El), ?(NN sh Es); reflexivity. }
  split; intros H.
  - apply same_call. rewrite step_local by exact Hp. cbn [create_local]. rewrite ED. rewrite (proj2 (Z.eqb_eq _ _) H). reflexivity.
  - eapply done_err. rewrite step_local by exact Hp. cbn [create_local]. rewrite ED. rewrite (proj2 (Z.eqb_neq _ _) H). reflexivity.
Qed.
Print Assumptions C145_numbers.
Example C145_numbers_example : same_result ex (named (PDict [("type", str "gym"); ("visualize", int 1)]) none none ++ [("visualize", PAtom (ABool true))]) (named (str "gym") none none ++ [("visualize", PAtom (ABool true))]) /\
  raises ex (named (PDict [("type", str "gym"); ("visualize", PAtom (ABool false))]) none none ++ [("visualize", PAtom (ABool true))]).
Proof.
  split.
  - apply (C145_numbers ex (str "gym") none none "visualize" (ABool true) (AInt 1) 1 1); try reflexivity; [cbn; intuition discriminate|discriminate].
  - apply (C145_numbers ex (str "gym") none none "visualize" (ABool true) (ABool false) 1 0); try reflexivity; [cbn; intuition discriminate|discriminate|lia].
Qed.
(** A number is different from everything that is no number. *)
Theorem C145_types : forall W t lim sh k a x z, ~ In k parameters -> k <> "type" -> number a = Some z -> number x = None ->
  raises W (named (PDict [("type", t); (k, PAtom x)]) lim sh ++ [(k, PAtom a)]).
Proof.
  intros W t lim sh k a x z Hk Hkt Ha Hx.
  assert (Hp : plain [(k, PAtom a)]) by (intros k' v [E|[]] Hin; injection E as <- _; contradiction).
  eapply done_err. rewrite step_local by exact Hp. cbn [create_local]. unfold dict_args. cbn [deep_disjoint_update update_loop plook].
  rewrite (proj2 (String.eqb_neq "type" k)) by congruence. cbn [app plook]. rewrite String.eqb_refl.
  assert (EQ : peqb atom_eqb (PAtom a) (PAtom x) = false) by (destruct a, x; cbn in Ha, Hx; try discriminate; reflexivity). rewrite EQ. reflexivity.
Qed.
Print Assumptions C145_types.
Example C145_types_example : raises ex (named (PDict [("type", str "gym"); ("visualize", str "1")]) none none ++ [("visualize", int 1)]).
Proof. apply (C145_types ex (str "gym") none none "visualize" (AInt 1) (AStr "1") 1%Z); try reflexivity; [cbn; intuition discriminate|discriminate]. Qed.

(** Objects and classes of gym are levels of the gym environment. *)
Theorem C145_gym : forall W v lim sh kw, plain kw -> ~ In "level" (map fst kw) -> (exists i, v = PAtom (AGym i)) \/ (exists c, v = class (CGym c)) ->
  same_result W (named v lim sh ++ kw) (named (str "gym") lim sh ++ ("level", v) :: kw).
Proof.
  intros W v lim sh kw Hp Hl Hv. apply same_call. rewrite step_local by exact Hp.
  assert (E : create_local W v lim sh kw = calls (call_args (named (str "gym") lim sh ++ [("level", v)]) kw)) by (destruct Hv as [[i ->]|[c ->]]; reflexivity).
  rewrite E. unfold call_args. cbn [named app existsb fst].
  assert (HP : forall p, In p parameters -> has p kw = false) by (intros p X; unfold has; rewrite plain_arg by assumption; reflexivity).
  rewrite !HP by (cbn; tauto). apply has_not in Hl. rewrite Hl. reflexivity.
Qed.
Print Assumptions C145_gym.
Example C145_gym_example : creates ex (named (PAtom (AGym 3)) none none ++ []) (Ok (Local (Wrapper (Env 1 (Some 200%Z) false) (Some 200%Z) NoShaping))).
Proof. apply C145_gym; [apply plain_nil|intros []|left; eexists; reflexivity|exists 3; reflexivity]. Qed.

(** Other errors of a gym level are reported as they are. *)
Theorem C145_errors : forall W s lim sh kw e, plain kw -> ~ In "level" (map fst kw) -> w_file W s = None -> ~ In s (map fst environments) -> w_import W s = Ok None ->
  String.prefix "TensorforceError" e = false ->
  creates W (named (str "gym") lim sh ++ ("level", str s) :: kw) (Err e) -> creates W (named (str s) lim sh ++ kw) (Err e).
Proof.
  intros W s lim sh kw e Hp Hl H Hn Hi He X. apply creates_step. rewrite step_local by assumption. cbn [create_local str]. unfold from_string. rewrite H.
  assert (R : registered s environments = None).
  { assert (G : forall l : list (string * cls), ~ In s (map fst l) -> registered s l = None).
    { induction l as [|[k x] r IH]; intro N; [reflexivity|]. cbn in *. destruct (String.eqb_spec s k) as [->|]; [destruct N; left; reflexivity|]. apply IH. tauto. }
    apply G, Hn. }
  rewrite R, Hi. unfold call_args. cbn [named app existsb fst].
  assert (HP : forall p, In p parameters -> has p kw = false) by (intros p Y; unfold has; rewrite plain_arg by assumption; reflexivity).
  rewrite !HP by (cbn; tauto). apply has_not in Hl. rewrite Hl. cbn [orb]. exists (Err e). split; [exact X|]. cbn [gym_error]. rewrite He. reflexivity.
Qed.
Print Assumptions C145_errors.
Example C145_errors_example : exists W, creates W (named (str "CartPole-v1") none none ++ []) (Err "ValueError: x").
Proof.
  exists (World (fun _ => None) (fun _ => Ok None) (fun _ _ => Err "ValueError: x")). apply C145_errors; [apply plain_nil|intros []|reflexivity| |reflexivity|reflexivity|exists 2; reflexivity].
  cbn. intuition discriminate.
Qed.

(** ** C146 *)
(** The limit is None, an integer or a boolean (then 0 or 1), nothing else; the reward shaping is kept. *)
Theorem C146_values : forall W i sh v,
  (forall z, v = int z -> creates W (named (obj (Env i None false)) v sh) (Ok (Local (Wrapper (Env i (Some z) false) (Some z) (as_shaping sh))))) /\
  (forall b, v = PAtom (ABool b) -> creates W (named (obj (Env i None false)) v sh) (Ok (Local (Wrapper (Env i (Some (if b then 1 else 0)%Z) false) (Some (if b then 1 else 0)%Z) (as_shaping sh))))) /\
  (v = none -> creates W (named (obj (Env i None false)) v sh) (Ok (Local (Wrapper (Env i None false) None (as_shaping sh))))) /\
  (v <> none -> (forall z, v <> int z) -> (forall b, v <> PAtom (ABool b)) -> raises W (named (obj (Env i None false)) v sh)).
Proof.
  intros W i sh v. split; [|split; [|split]].
  - intros z ->. exists 1. reflexivity.
  - intros b ->. exists 1. destruct b; reflexivity.
  - intros ->. exists 1. reflexivity.
  - intros H1 H2 H3. assert (E : exists e, as_limit v = Err e).
    { destruct v as [a|? ?|?]; try (eexists; reflexivity). destruct a; try (eexists; reflexivity); [destruct H1|destruct (H3 b)|destruct (H2 z)]; reflexivity. }
    destruct E as [e E]. apply (done_err W _ e). rewrite step_named. cbn [create_local obj]. rewrite E. reflexivity.
Qed.
Print Assumptions C146_values.
Example C146_values_example : raises ex (named (obj (Env 0 None false)) (str "100") none).
Proof. apply C146_values; discriminate. Qed.
(** The reward shaping: None, an expression, a function. *)
Theorem C146_shaping : forall W i v w, creates W (named (obj (Env i None false)) none v) (Ok (Local w)) ->
  (wr_shaping w = NoShaping <-> v = none) /\ (forall s, wr_shaping w = Expr s <-> v = str s) /\ (forall f, wr_shaping w = Fun f <-> v = PAtom (AFun f)).
Proof.
  intros W i v w H. apply creates_step in H. rewrite step_named in H. cbn in H. injection H as ->. cbn [wr_shaping].
  destruct v as [[]|? ?|?]; cbn; unfold none, str; repeat split; intros; try discriminate; try congruence.
Qed.
Print Assumptions C146_shaping.
Example C146_shaping_example : creates ex (named (obj (Env 0 None false)) none (PAtom (AFun 7))) (Ok (Local (Wrapper (Env 0 None false) None (Fun 7)))).
Proof. exists 1. reflexivity. Qed.
(** An existing remote environment is returned itself, like an existing wrapper. *)
Theorem C146_remote : forall W i m lim sh kw o, plain kw ->
  (creates W (named (PAtom (ARemote i m)) lim sh ++ kw) (Ok o) <->
   o = Remote i m /\ kw = [] /\ (lim = none \/ exists z, (lim = int z \/ exists b, lim = PAtom (ABool b) /\ z = if b then 1 else 0)%Z /\ m = Some z)).
Proof.
  intros W i m lim sh kw o Hp. rewrite creates_step, step_local by assumption. cbn [create_local]. unfold check_existing. split.
  - destruct (as_limit lim) as [[z|]|] eqn:E; cbn [bind]; [| |discriminate].
    + destruct m as [m|]; [|discriminate]. destruct (Z.eqb_spec z m) as [->|]; [|discriminate]. cbn. destruct kw; [|discriminate]. cbn.
      intro X. injection X as ->. split; [reflexivity|]. split; [reflexivity|]. right. exists m. split; [|reflexivity].
      destruct lim as [[]|? ?|?]; cbn in E; try discriminate; [right; eexists; split; [reflexivity|]|left]; injection E as <-; [destruct b|]; reflexivity.
    + cbn. destruct kw; [|discriminate]. cbn. intro X. injection X as ->. split; [reflexivity|]. split; [reflexivity|]. left. destruct lim as [[]|? ?|?]; cbn in E; try discriminate; reflexivity.
  - intros (-> & -> & [->|(z & Hz & ->)]); [reflexivity|].
    assert (E : as_limit lim = Ok (Some z)) by (destruct Hz as [->|[b [-> ->]]]; [|destruct b]; reflexivity). rewrite E. cbn. rewrite Z.eqb_refl. reflexivity.
Qed.
Print Assumptions C146_remote.
Example C146_remote_example : creates ex (named (PAtom (ARemote 3 (Some 50%Z))) (int 50) none ++ []) (Ok (Remote 3 (Some 50%Z))).
Proof. apply C146_remote; [apply plain_nil|]. split; [reflexivity|]. split; [reflexivity|]. right. exists 50%Z. split; [left|]; reflexivity. Qed.

(** ** C147 *)
(** Without remote, blocking is only accepted if it is false: None, False, 0 or empty. *)
Definition falsy (v : value) : Prop :=
  v = none \/ v = PAtom (ABool false) \/ v = int 0 \/ v = str "" \/ (exists t, v = PSeq t []) \/ v = PDict [].
Lemma falsy_iff v : truthy v = false <-> falsy v.
Proof.
  unfold falsy. destruct v as [a|t l|d].
  - destruct a; cbn; (split; [intro H; try discriminate; try tauto|intros [H|[H|[H|[H|[[t H]|H]]]]]; try discriminate; try reflexivity]).
    + destruct b; [discriminate|tauto].
    + injection H as ->. reflexivity.
    + apply negb_false_iff in H. apply Z.eqb_eq in H. subst. tauto.
    + injection H as ->. reflexivity.
    + apply negb_false_iff in H. apply String.eqb_eq in H. subst. tauto.
    + injection H as ->. reflexivity.
  - cbn. split; [intro H; apply negb_false_iff in H; destruct l; [|discriminate]; eauto 8|]. intros [H|[H|[H|[H|[[t' H]|H]]]]]; try discriminate. injection H as _ ->. reflexivity.
  - cbn. split; [intro H; apply negb_false_iff in H; destruct d; [|discriminate]; tauto|]. intros [H|[H|[H|[H|[[t' H]|H]]]]]; try discriminate. injection H as ->. reflexivity.
Qed.
Theorem C147_blocking : forall W e lim sh b kw, plain kw ->
  (falsy b -> same_result W (full e lim sh none b none none kw) (named e lim sh ++ kw)) /\
  (~ falsy b -> raises W (full e lim sh none b none none kw)) /\
  forall flag a, creates W (full e lim sh (str "multiprocessing") b none none kw) (Ok (Process flag a)) -> (flag = false <-> falsy b).
Proof.
  intros W e lim sh b kw Hp. split; [|split].
  - intros H. apply C147_local; [exact Hp|]. apply falsy_iff in H. auto.
  - intros H. apply C147_local; [exact Hp|]. left. destruct (truthy b) eqn:E; [reflexivity|]. destruct H. apply falsy_iff. exact E.
  - intros flag a H. apply (proj1 (C147_process W e lim sh b none none kw _ Hp)) in H. destruct H as (_ & _ & _ & a' & E & _). injection E as -> _. apply falsy_iff.
Qed.
Print Assumptions C147_blocking.
Example C147_blocking_example : raises ex (full (str "gym") none none none (str "no") none none []) /\ same_result ex (full (str "gym") none none none (int 0) none none []) (named (str "gym") none none ++ []).
Proof.
  split; apply C147_blocking; try apply plain_nil; unfold falsy; [|tauto]. intros [H|[H|[H|[H|[[t H]|H]]]]]; discriminate.
Qed.
