(** Claims about Environment.create, continued: C147 (remote modes), C148 (importing classes). *)
From Coq Require Import Ascii String List ZArith Bool Lia Arith.
From Verif Require Import Base SigModel EcrModel EcrSpec MergeProofs EcrProofs EcrTermProofs EcrProps.
Import ListNotations.
Open Scope string_scope.
Open Scope list_scope.
Open Scope nat_scope.

(** ** C147: remote modes *)
Lemma none_iff v : is_none v = true <-> v = none.
Proof. split; [destruct v as [[]|?|?]; cbn; intro H; try discriminate; reflexivity|intros ->; reflexivity]. Qed.
(** A call with all arguments. *)
Definition full (environment lim sh remote blocking host port : value) (kw : dict) : dict :=
  named environment lim sh ++ [("remote", remote); ("blocking", blocking); ("host", host); ("port", port)] ++ kw.

Lemma step_full W e l s r b h p kw : plain kw ->
  step W (full e l s r b h p kw) =
  match check_remote r b h p with
  | Err e => Done (Err e)
  | Ok _ =>
      if is_str "multiprocessing" r then
        Done (do _ <- assert_ (negb (has "connection" kw)) "TypeError: multiple values for keyword argument"; Ok (Process (truthy b) (named e l s ++ kw)))
      else if is_str "socket-client" r then
        Done (do _ <- assert_ (is_none e) "TensorforceError: environment"; do _ <- assert_ (is_none l) "TensorforceError: max_episode_timesteps";
              do _ <- assert_ (Nat.eqb (length kw) 0) "TensorforceError: kwargs"; do _ <- assert_ (negb (is_none h) && negb (is_none p)) "TypeError: address"; Ok (Client h p (truthy b)))
      else if is_str "socket-server" r then
        Done (do _ <- assert_ (negb (has "connection" kw)) "TypeError: multiple values for keyword argument"; do _ <- assert_ (negb (is_none p)) "TypeError: address"; Ok (Served (named e l s ++ kw)))
      else if negb (is_none r) then Done (Err "TensorforceError: remote") else create_local W e l s kw
  end.
Proof.
  intro Hp. unfold step. assert (K : kwargs_of (full e l s r b h p kw) = kw) by (rewrite <- (plain_filter kw Hp) at 2; reflexivity). rewrite K. reflexivity.
Qed.

(** A local call is the one without the remote arguments; blocking, host and port must not be given. *)
Theorem C147_local : forall W e lim sh b h p kw, plain kw ->
  (truthy b = false /\ h = none /\ p = none -> same_result W (full e lim sh none b h p kw) (named e lim sh ++ kw)) /\
  (truthy b = true \/ h <> none \/ p <> none -> raises W (full e lim sh none b h p kw)).
Proof.
  intros W e lim sh b h p kw Hp. split.
  - intros (Hb & -> & ->). apply same_next. rewrite step_full, step_local by assumption. unfold check_remote. rewrite Hb. reflexivity.
  - intro H. apply (done_err W _ (if truthy b then "TensorforceError: blocking" else "TensorforceError: host or port")).
    rewrite step_full by assumption. unfold check_remote. cbn [none is_str]. destruct (truthy b); [reflexivity|]. cbn [orb negb assert_ bind].
    destruct (is_none h && is_none p) eqn:E; [|reflexivity]. apply andb_true_iff in E. destruct E as [E1 E2].
    apply none_iff in E1, E2. destruct H as [H|[H|H]]; congruence.
Qed.
Print Assumptions C147_local.
Example C147_local_example : raises ex (full (str "gym") none none none none (str "localhost") none []).
Proof. apply C147_local; [apply plain_nil|]. right. left. discriminate. Qed.

(** In a process: exactly without host and port; its worker gets all other arguments, so it creates
    what would be created locally. *)
Theorem C147_process : forall W e lim sh b h p kw o, plain kw ->
  (creates W (full e lim sh (str "multiprocessing") b h p kw) (Ok o) <->
   h = none /\ p = none /\ ~ In "connection" (map fst kw) /\ exists a, o = Process (truthy b) a /\ a = named e lim sh ++ kw) /\
  same_result W (named e lim sh ++ kw) (full e lim sh none none none none kw).
Proof.
  intros W e lim sh b h p kw o Hp. split.
  - rewrite creates_step, step_full by assumption. unfold check_remote. cbn [str is_str String.eqb Ascii.eqb Bool.eqb orb andb assert_ bind].
    assert (N : forall v, is_none v = true <-> v = none) by exact none_iff. rewrite <- has_not.
    split.
    + destruct (is_none h && is_none p) eqn:E; [|discriminate]. apply andb_true_iff in E. destruct E as [E1 E2]. apply N in E1, E2. cbn [assert_].
      destruct (has "connection" kw); [discriminate|]. cbn. intro X. injection X as ->. repeat split; auto. exists (named e lim sh ++ kw). auto.
    + intros (-> & -> & -> & a & -> & ->). reflexivity.
  - intro r. split; intro H; apply (proj1 (C147_local W e lim sh none none none kw Hp)); auto.
Qed.
Print Assumptions C147_process.
Example C147_process_example : exists a, creates ex (full (str "custom_cartpole") (int 5) none (str "multiprocessing") (PAtom (ABool true)) none none []) (Ok (Process true a)) /\
  creates ex a (Ok (Local (Wrapper (Env 0 (Some 5%Z) false) (Some 5%Z) NoShaping))).
Proof.
  exists (named (str "custom_cartpole") (int 5) none ++ []). split.
  - apply (C147_process ex _ _ _ _ _ _ [] _ plain_nil). repeat split; [intros []|]. eexists. split; reflexivity.
  - exists 3. reflexivity.
Qed.

(** A socket client: exactly with host and port, and nothing about the environment; a server: exactly
    with a port and not blocking. *)
Theorem C147_sockets : forall W e lim sh b h p kw o, plain kw ->
  (creates W (full e lim sh (str "socket-client") b h p kw) (Ok o) <->
   e = none /\ lim = none /\ kw = [] /\ h <> none /\ p <> none /\ o = Client h p (truthy b)) /\
  (creates W (full e lim sh (str "socket-server") b h p kw) (Ok o) <->
   truthy b = false /\ ~ In "connection" (map fst kw) /\ p <> none /\ o = Served (named e lim sh ++ kw)).
Proof.
  intros W e lim sh b h p kw o Hp.
  assert (N : forall v, is_none v = true <-> v = none) by exact none_iff.
  assert (N' : forall v, is_none v = false <-> v <> none) by (intro v; rewrite <- N; destruct (is_none v); split; congruence).
  split; rewrite creates_step, step_full by assumption; unfold check_remote; cbn [str is_str String.eqb Ascii.eqb Bool.eqb orb andb assert_ bind].
  - split.
    + destruct (is_none e) eqn:E1; [|discriminate]. cbn. destruct (is_none lim) eqn:E2; [|discriminate]. cbn. destruct kw; [|discriminate]. cbn.
      destruct (is_none h) eqn:E3; [discriminate|]. destruct (is_none p) eqn:E4; [discriminate|]. cbn. intro X. injection X as ->.
      apply N in E1, E2. apply N' in E3, E4. auto 10.
    + intros (-> & -> & -> & Hh & Hp' & ->). apply N' in Hh, Hp'. rewrite Hh, Hp'. reflexivity.
  - rewrite <- has_not. split.
    + destruct (truthy b); [discriminate|]. cbn. destruct (has "connection" kw); [discriminate|]. cbn. destruct (is_none p) eqn:E; [discriminate|]. cbn.
      intro X. injection X as ->. apply N' in E. auto.
    + intros (-> & -> & Hp' & ->). apply N' in Hp'. rewrite Hp'. reflexivity.
Qed.
Print Assumptions C147_sockets.
Example C147_sockets_example : creates ex (full none none none (str "socket-client") none (str "localhost") (int 65432) []) (Ok (Client (str "localhost") (int 65432) false)).
Proof. apply (C147_sockets ex); [apply plain_nil|]. repeat split; discriminate. Qed.

(** Another remote mode raises. *)
Theorem C147_mode : forall W e lim sh r b h p kw, plain kw -> r <> none ->
  (forall s, In s ["multiprocessing"; "socket-client"; "socket-server"] -> r <> str s) -> raises W (full e lim sh r b h p kw).
Proof.
  intros W e lim sh r b h p kw Hp Hr Hs.
  assert (S : forall s, In s ["multiprocessing"; "socket-client"; "socket-server"] -> is_str s r = false).
  { intros s Hin. destruct (is_str s r) eqn:E; [|reflexivity]. exfalso. apply (Hs s Hin). destruct r as [[]|?|?]; try discriminate. cbn in E. apply String.eqb_eq in E. subst. reflexivity. }
  assert (N : is_none r = false) by (destruct (is_none r) eqn:E; [|reflexivity]; exfalso; apply Hr; apply none_iff; exact E).
  pose proof (step_full W e lim sh r b h p kw Hp) as E. rewrite !S in E by (cbn; tauto). rewrite N in E. cbn [negb] in E.
  destruct (check_remote r b h p); eapply done_err; exact E.
Qed.
Print Assumptions C147_mode.
Example C147_mode_example : raises ex (full (str "gym") none none (str "socket") none none none []).
Proof. apply C147_mode; [apply plain_nil|discriminate|]. intros s [<-|[<-|[<-|[]]]]; discriminate. Qed.

(** A specification can say that it is remote. *)
Theorem C147_specified : forall W es kw, plain kw -> ~ In "type" (map fst kw) -> NoDup (map fst es) -> (forall k, In k (map fst es) -> ~ In k (map fst kw)) ->
  is_none (kind es) = false -> plook "remote" es = Some (str "multiprocessing") -> ~ In "host" (map fst es) -> ~ In "port" (map fst es) ->
  ~ In "connection" (map fst (kw ++ es)) ->
  exists a, creates W (named (PDict es) none none ++ kw) (Ok (Process (truthy (arg es "blocking")) a)) /\
    arg a "environment" = kind es /\ arg a "max_episode_timesteps" = arg es "max_episode_timesteps" /\ arg a "reward_shaping" = arg es "reward_shaping" /\
    (forall k, ~ In k ("type" :: parameters) -> plook k a = plook k (kw ++ es)).
Proof.
  intros W es kw Hp Ht ND Hd Hk Hr Hh Hpo Hc.
  pose proof (C145_dictionary W es none none kw Hp Ht ND Hd Hk ltac:(discriminate) ltac:(discriminate)) as S.
  set (A := named (kind es) (either none "max_episode_timesteps" es) (either none "reward_shaping" es) ++ kw ++ others es) in *.
  assert (PO : forall k, ~ In k ["environment"; "type"; "max_episode_timesteps"; "reward_shaping"] -> plook k (others es) = plook k es).
  { intros k Hn. rewrite others_drop. cbn in Hn. rewrite !plook_drop; intuition congruence. }
  assert (PA : forall k, In k ["remote"; "blocking"; "host"; "port"] -> plook k A = plook k es).
  { intros k Hin. unfold A. rewrite !plook_app. assert (plook k kw = None) by (apply plain_arg; [assumption|cbn in *; tauto]).
    assert (E : plook k (named (kind es) (either none "max_episode_timesteps" es) (either none "reward_shaping" es)) = None).
    { apply plook_none. cbn in *. intros [X|[X|[X|[]]]]; subst; intuition discriminate. }
    rewrite E, H. apply PO. cbn in *. intros [X|[X|[X|[X|[]]]]]; subst; intuition discriminate. }
  exists (named (kind es) (either none "max_episode_timesteps" es) (either none "reward_shaping" es) ++ kwargs_of (kw ++ others es)). split; [|split; [reflexivity|split; [reflexivity|split; [reflexivity|]]]].
  - apply S. apply creates_step. unfold step. unfold arg. rewrite !PA by (cbn; tauto). rewrite Hr. apply plook_none in Hh, Hpo. rewrite Hh, Hpo.
    assert (C : has "connection" (kwargs_of A) = false).
    { apply has_not. intro X. apply in_map_iff in X. destruct X as (x & X & Hin). apply filter_In in Hin. destruct Hin as [Hin _]. apply Hc. rewrite map_app, in_app_iff.
      unfold A in Hin. rewrite !in_app_iff in Hin. destruct Hin as [Hin|[Hin|Hin]].
      - cbn in Hin. destruct Hin as [<-|[<-|[<-|[]]]]; discriminate.
      - left. apply in_map_iff. eauto.
      - right. apply filter_In in Hin. apply in_map_iff. exists x. tauto. }
    rewrite C. reflexivity.
  - intros k Hn. assert (K : existsb (String.eqb k) parameters = false).
    { destruct (existsb _ _) eqn:E; [|reflexivity]. apply existsb_exists in E. destruct E as (x & Hx & Ex). apply String.eqb_eq in Ex. subst x. destruct Hn. right. exact Hx. }
    rewrite plook_app. assert (E : plook k (named (kind es) (either none "max_episode_timesteps" es) (either none "reward_shaping" es)) = None).
    { apply plook_none. cbn in *. tauto. }
    rewrite E. assert (F : forall d, plook k (kwargs_of d) = plook k d).
    { clear - K. unfold kwargs_of. induction d as [|[k' v] r IH]; [reflexivity|]. cbn [filter fst plook]. destruct (String.eqb_spec k k') as [<-|N].
      - rewrite K. cbn [negb plook]. rewrite String.eqb_refl. reflexivity.
      - destruct (negb _); cbn [plook]; [destruct (String.eqb_spec k k'); [congruence|exact IH]|exact IH]. }
    rewrite F, !plook_app. rewrite PO by (cbn in *; tauto). reflexivity.
Qed.
Print Assumptions C147_specified.
Example C147_specified_example : exists a, creates ex (named (PDict [("type", str "gym"); ("remote", str "multiprocessing"); ("level", str "CartPole-v1")]) none none ++ []) (Ok (Process false a)) /\ plook "level" a = Some (str "CartPole-v1").
Proof.
  destruct (C147_specified ex [("type", str "gym"); ("remote", str "multiprocessing"); ("level", str "CartPole-v1")] []) as (a & A1 & _ & _ & _ & A2); try reflexivity; try (cbn; intuition discriminate).
  - apply plain_nil. - repeat (constructor; [cbn; intuition discriminate|]). constructor.
  - exists a. split; [exact A1|]. rewrite A2; [reflexivity|]. cbn. intuition discriminate.
Qed.

(** A socket client ignores reward_shaping, a server ignores host; a process is started for a
    specification which cannot be created, and a server returns nothing. *)
Theorem C147_ignored_refuted : forall W,
  (forall sh sh' b h p, same_result W (full none none sh (str "socket-client") b h p []) (full none none sh' (str "socket-client") b h p [])) /\
  (forall e lim sh b h p kw, plain kw -> same_result W (full e lim sh (str "socket-server") b h p kw) (full e lim sh (str "socket-server") b none p kw)).
Proof.
  intro W. split; intros; apply same_next.
  - rewrite !step_full by apply plain_nil. reflexivity.
  - rewrite !step_full by assumption. unfold check_remote. cbn. reflexivity.
Qed.
Print Assumptions C147_ignored_refuted.
Example C147_ignored_example : creates ex (full none none (str "reward") (str "socket-client") none (str "localhost") (int 65432) []) (Ok (Client (str "localhost") (int 65432) false)).
Proof. apply (proj1 (C147_ignored_refuted ex) (str "reward") none). exists 1. reflexivity. Qed.
Theorem C147_delayed_refuted : forall W, exists a, creates W (full none none none (str "multiprocessing") none none none []) (Ok (Process false a)) /\ raises W a.
Proof.
  intro W. exists (named none none none ++ []). split; [exists 1; reflexivity|]. eapply done_err. reflexivity.
Qed.
Print Assumptions C147_delayed_refuted.

(** ** C148: importing classes *)
Section C148.
Context {C : Type}.
Variable ceq : C -> C -> bool.
Variable sub : C -> C -> bool.
Variable parents : list C.
Variable modules : string -> option (list (string * @member C)).
Hypothesis ceq_ok : forall a b, ceq a b = true <-> a = b.

(** A class of the module which derives from a parent. *)
Definition environment_class (m : list (string * @member C)) (c : C) : Prop :=
  (exists n, In (n, IsClass c) m) /\ exists p, In p parents /\ sub c p = true.
(** A class from which all of these classes derive. *)
Definition common (m : list (string * @member C)) (c : C) : Prop := forall x, environment_class m x -> sub x c = true.

Lemma candidates_in m c : In c (candidates sub parents m) <-> environment_class m c.
Proof.
  unfold candidates, environment_class. rewrite in_flat_map. split.
  - intros ([n x] & Hin & H). cbn in H. destruct x as [c'|]; [|destruct H]. destruct (is_sub sub parents c') eqn:E; [|destruct H]. destruct H as [<-|[]].
    split; [eauto|]. unfold is_sub in E. apply existsb_exists in E. exact E.
  - intros ((n & Hin) & H). exists (n, IsClass c). split; [exact Hin|]. cbn. assert (E : is_sub sub parents c = true) by (apply existsb_exists; exact H). rewrite E. left. reflexivity.
Qed.

(** A module stands for its class: the only one, or the only one which is not a base of all. The
    names of the module stand for different classes here. *)
Theorem C148_module_partial : forall m c, NoDup (candidates sub parents m) -> (forall x, sub x x = true) ->
  (module_class ceq sub parents m = Ok (Some c) <->
   environment_class m c /\ ~ In c parents /\
   (forall x, environment_class m x -> x = c \/ common m x) /\ ((forall x, environment_class m x -> x = c) \/ ~ common m c)).
Proof.
  intros m c ND Hrefl. unfold module_class. set (l := candidates sub parents m) in *.
  assert (HC : forall x, forallb (fun y => sub y x) l = true <-> common m x).
  { intro x. rewrite forallb_forall. unfold common. split; intros H y Hy; apply H; apply candidates_in; exact Hy. }
  assert (HP : forall x, forallb (fun p => negb (ceq x p)) parents = true <-> ~ In x parents).
  { intro x. rewrite forallb_forall. split.
    - intros H Hin. specialize (H x Hin). destruct (ceq x x) eqn:E; [discriminate|]. pose proof (proj2 (ceq_ok x x) eq_refl). congruence.
    - intros H p Hin. destruct (ceq x p) eqn:E; [apply ceq_ok in E; subst; contradiction|reflexivity]. }
  unfold filter_classes. destruct (Nat.ltb_spec 1 (length l)) as [L|L].
  - set (f := filter (fun x => negb (forallb (fun y => sub y x) l)) l).
    assert (HF : forall x, In x f <-> environment_class m x /\ ~ common m x).
    { intro x. unfold f. rewrite filter_In, <- HC. fold l. rewrite <- candidates_in. fold l. destruct (forallb _ l); cbn; intuition congruence. }
    assert (NF : NoDup f) by (apply NoDup_filter; exact ND).
    assert (Two : forall x, exists y, In y l /\ y <> x).
    { intro x. destruct l as [|a [|b r]]; cbn in L; try lia. inversion ND as [|? ? N1 N2]; subst. destruct (ceq a x) eqn:E.
      - apply ceq_ok in E. subst a. exists b. split; [cbn; tauto|]. intro X. apply N1. left. exact X.
      - exists a. split; [left; reflexivity|]. intro X. apply ceq_ok in X. congruence. }
    clearbody f. split.
    + destruct f as [|a [|b r]]; try discriminate. destruct (forallb (fun p => negb (ceq a p)) parents) eqn:E; [|discriminate]. cbn. intro X. injection X as ->.
      apply HP in E. destruct (proj1 (HF c) (or_introl eq_refl)) as [A B]. repeat split; try assumption; [apply A..| |right; exact B].
      intros x Hx. destruct (forallb (fun y => sub y x) l) eqn:Ex; [right; apply HC; exact Ex|]. left. assert (In x [c]) by (apply HF; split; [exact Hx|]; rewrite <- HC; congruence).
      destruct H as [H|[]]. congruence.
    + intros (A & B & D & E). destruct E as [E|E].
      { destruct (Two c) as (y & Y1 & Y2). exfalso. apply Y2, E, candidates_in, Y1. }
      assert (Hc : In c f) by (apply HF; auto). assert (Ho : forall x, In x f -> x = c). { intros x Hx. apply HF in Hx. destruct Hx as [X1 X2]. destruct (D x X1); [assumption|contradiction]. }
      destruct f as [|a [|b r]]; [destruct Hc| |].
      * rewrite (Ho a (or_introl eq_refl)). apply HP in B. rewrite B. reflexivity.
      * exfalso. inversion NF as [|? ? N1 _]; subst. apply N1. left. rewrite (Ho a (or_introl eq_refl)). apply Ho. cbn. tauto.
  - assert (IL : forall x, In x l <-> environment_class m x) by (intro x; apply candidates_in).
    clearbody l. destruct l as [|a [|b r]]; [| |cbn in L; lia].
    + split; [discriminate|]. intros (A & _). apply IL in A. destruct A.
    + split.
      * destruct (forallb (fun p => negb (ceq a p)) parents) eqn:E; [|discriminate]. cbn. intro X. injection X as ->. apply HP in E.
        assert (U : forall x, environment_class m x -> x = c) by (intros x Hx; apply IL in Hx; destruct Hx as [<-|[]]; reflexivity).
        assert (A : environment_class m c) by (apply IL; left; reflexivity).
        split; [exact A|]. split; [exact E|]. split; [intros x Hx; left; apply U, Hx|left; exact U].
      * intros (A & B & _). apply IL in A. destruct A as [<-|[]]. apply HP in B. rewrite B. reflexivity.
Qed.

(** Whatever is found derives from a parent. *)
Theorem C148_derives : forall name c, try_import_module ceq sub parents modules name = Ok (Some c) -> exists p, In p parents /\ sub c p = true.
Proof.
  intros name c H. unfold try_import_module in H. destruct (modules name) as [m|].
  - unfold module_class in H. destruct (filter_classes sub (candidates sub parents m)) as [|a [|b r]] eqn:E; try discriminate.
    destruct (assert_ _ _); [|discriminate]. cbn in H. injection H as <-.
    assert (In a (candidates sub parents m)). { unfold filter_classes in E. destruct (Nat.ltb _ _); [|rewrite E; left; reflexivity]. assert (In a [a]) by (left; reflexivity). rewrite <- E in H. apply filter_In in H. apply H. }
    apply candidates_in in H. apply H.
  - destruct (rsplit name) as [[m n]|]; [|discriminate]. destruct (modules m) as [l|]; [|discriminate]. destruct (attribute n l) as [[c'|]|]; try discriminate.
    destruct (is_sub sub parents c') eqn:E; [|discriminate]. cbn in H. injection H as <-. apply existsb_exists in E. exact E.
Qed.

(** A class is found by its path, if there is no module of this name. *)
Fixpoint no_dot (s : string) : Prop := match s with EmptyString => True | String a r => a <> "."%char /\ no_dot r end.
Lemma rsplit_none n : no_dot n -> rsplit n = None.
Proof. induction n as [|a r IH]; [reflexivity|]. intros [H1 H2]. cbn. rewrite (IH H2). destruct (Ascii.eqb_spec a "."%char); [contradiction|reflexivity]. Qed.
Lemma rsplit_path m n : no_dot n -> rsplit (append m (String "."%char n)) = Some (m, n).
Proof. intro H. induction m as [|a r IH]; cbn; [rewrite (rsplit_none n H); reflexivity|]. rewrite IH. reflexivity. Qed.
Theorem C148_path : forall m n l c, no_dot n -> modules (append m (String "."%char n)) = None -> modules m = Some l -> NoDup (map fst l) ->
  (try_import_module ceq sub parents modules (append m (String "."%char n)) = Ok (Some c) <-> In (n, IsClass c) l /\ exists p, In p parents /\ sub c p = true).
Proof.
  intros m n l c Hn H1 H2 ND. unfold try_import_module. rewrite H1, (rsplit_path m n Hn), H2.
  assert (A : forall x, attribute n l = Some x <-> In (n, x) l).
  { intro x. clear - ND. induction l as [|[k y] r IH]; cbn; [split; [discriminate|tauto]|]. inversion ND as [|? ? N1 N2]; subst. destruct (String.eqb_spec n k) as [->|N].
    - split; [intro X; injection X as ->; left; reflexivity|]. intros [X|X]; [congruence|]. destruct N1. apply in_map_iff. exists (k, x). auto.
    - rewrite (IH N2). split; [tauto|]. intros [X|X]; [congruence|exact X]. }
  split.
  - destruct (attribute n l) as [[c'|]|] eqn:E; try discriminate. destruct (is_sub sub parents c') eqn:F; [|discriminate]. cbn. intro X. injection X as <-.
    split; [apply A; reflexivity|]. apply existsb_exists in F. exact F.
  - intros [Hin Hs]. apply A in Hin. rewrite Hin. assert (E : is_sub sub parents c = true) by (apply existsb_exists; exact Hs). rewrite E. reflexivity.
Qed.
End C148.
Print Assumptions C148_module_partial.
Print Assumptions C148_derives.
Print Assumptions C148_path.

(** Examples: classes 0 (Environment), 1 (gym.Env), 2 (derives from 0), 3 (derives from 2). *)
Definition nsub (a b : nat) : bool := Nat.eqb a b || match a, b with 2, 0 | 3, 0 | 3, 2 => true | _, _ => false end.
Definition nmods (s : string) : option (list (string * @member nat)) :=
  if String.eqb s "one" then Some [("Environment", IsClass 0); ("Mine", IsClass 2); ("np", NoClass)] else
  if String.eqb s "alias" then Some [("Mine", IsClass 2); ("Other", IsClass 2)] else
  if String.eqb s "both" then Some [("Env", IsClass 1); ("Environment", IsClass 0); ("Mine", IsClass 2)] else
  if String.eqb s "chain" then Some [("Environment", IsClass 0); ("Mine", IsClass 2); ("Special", IsClass 3)] else None.
Example C148_module_example : try_import_module Nat.eqb nsub [0; 1] nmods "one" = Ok (Some 2).
Proof.
  unfold try_import_module. apply (C148_module_partial Nat.eqb nsub [0; 1] Nat.eqb_eq).
  - cbn. repeat (constructor; [cbn; intuition discriminate|]). constructor.
  - intro x. unfold nsub. rewrite Nat.eqb_refl. reflexivity.
  - assert (H : forall x, environment_class nsub [0; 1] [("Environment", IsClass 0); ("Mine", IsClass 2); ("np", NoClass)] x -> x = 0 \/ x = 2).
    { intros x ((n & [X|[X|[X|[]]]]) & _); injection X; intros; subst; auto; discriminate. }
    split; [|split; [cbn; intuition discriminate|split]].
    + split; [exists "Mine"; cbn; tauto|]. exists 0. split; [left; reflexivity|reflexivity].
    + intros x Hx. destruct (H x Hx) as [->| ->]; [right|left; reflexivity]. intros y Hy. destruct (H y Hy) as [->| ->]; reflexivity.
    + right. intro X. assert (E : nsub 0 2 = true). { apply X. split; [exists "Environment"; cbn; tauto|]. exists 0. split; [left; reflexivity|reflexivity]. } discriminate.
Qed.
Example C148_derives_example : forall c, try_import_module Nat.eqb nsub [0; 1] nmods "one" = Ok (Some c) -> nsub c 0 = true \/ nsub c 1 = true.
Proof. intros c H. apply C148_derives in H. destruct H as (p & [<-|[<-|[]]] & E); auto. Qed.
Example C148_path_example : try_import_module Nat.eqb nsub [0; 1] nmods "chain.Special" = Ok (Some 3).
Proof.
  apply (C148_path Nat.eqb nsub [0; 1] nmods "chain" "Special" [("Environment", IsClass 0); ("Mine", IsClass 2); ("Special", IsClass 3)]); try reflexivity.
  - cbn. repeat split; discriminate.
  - repeat (constructor; [cbn; intuition discriminate|]). constructor.
  - split; [cbn; tauto|]. exists 0. split; [left; reflexivity|reflexivity].
Qed.
(** A module with a second name for its class has none; one which also imports gym.Env, or has a
    class derived from another, is ambiguous; by its path, Environment itself is accepted; a wrong
    name in a module raises instead of being no module. *)
Theorem C148_modules_refuted :
  try_import_module Nat.eqb nsub [0; 1] nmods "alias" = Ok None /\
  (exists e, try_import_module Nat.eqb nsub [0; 1] nmods "both" = Err e) /\
  (exists e, try_import_module Nat.eqb nsub [0; 1] nmods "chain" = Err e) /\
  try_import_module Nat.eqb nsub [0; 1] nmods "one.Environment" = Ok (Some 0) /\
  exists e, try_import_module Nat.eqb nsub [0; 1] nmods "one.Typo" = Err e.
Proof. repeat split; try (eexists; reflexivity). Qed.
Print Assumptions C148_modules_refuted.
