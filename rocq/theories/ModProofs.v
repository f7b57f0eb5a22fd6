(** Lemmas about module specifications. *)
From Coq Require Import String List ZArith Bool Lia Arith.
From Verif Require Import Base SigModel ModModel ModSpec MergeProofs.
Import ListNotations.
Open Scope string_scope.
Open Scope list_scope.
Open Scope nat_scope.

Lemma atom_eqb_equal : forall a b, atom_eqb a b = true -> equal_atoms a b.
Proof.
  intros a b H. destruct a, b; cbn in H; try discriminate; try constructor.
  - apply Bool.eqb_prop in H. subst. constructor.
  - apply Z.eqb_eq in H. subst. constructor.
  - apply Z.eqb_eq in H. subst. constructor.
  - apply Z.eqb_eq in H. subst. constructor.
  - apply String.eqb_eq in H. subst. constructor.
  - apply Nat.eqb_eq in H. subst. constructor.
  - apply andb_prop in H. destruct H as [H1 H2]. apply String.eqb_eq in H2. subst. assert (k = k0) by (destruct k, k0; discriminate || reflexivity). subst. constructor.
  - apply Nat.eqb_eq in H. subst. constructor.
  - apply Nat.eqb_eq in H. subst. constructor.
Qed.
Lemma plook_none : forall k (d : dict), plook k d = None <-> ~ In k (map fst d).
Proof.
  intros k d. induction d as [|[k' v] r IH]; cbn; [tauto|]. destruct (String.eqb_spec k k') as [->|N]; [split; [discriminate|tauto]|].
  rewrite IH. split; [intros H [X|X]; [congruence|tauto]|tauto].
Qed.
Lemma has_in : forall k (d : dict), has k d = true <-> In k (map fst d).
Proof.
  intros k d. unfold has. destruct (plook k d) as [v|] eqn:E.
  - split; [intros _; eapply plook_In; exact E|reflexivity].
  - split; [discriminate|]. apply plook_none in E. tauto.
Qed.
Lemma has_not : forall k (d : dict), has k d = false <-> ~ In k (map fst d).
Proof. intros k d. rewrite <- has_in. destruct (has k d); split; congruence. Qed.
Lemma update_disjoint : forall ss kw, NoDup (map fst ss) -> disjoint ss kw ->
  deep_disjoint_update atom_eqb kw (PDict ss) = Ok (kw ++ ss).
Proof.
  cbn [deep_disjoint_update]. unfold disjoint. induction ss as [|[k v] r IH]; intros kw ND H; [rewrite app_nil_r; reflexivity|]. cbn [update_loop].
  assert (E : plook k kw = None) by (apply plook_none, H; left; reflexivity). rewrite E. inversion ND as [|? ? N1 N2]; subst.
  rewrite IH; [rewrite <- app_assoc; reflexivity|exact N2|]. intros k' Hk. rewrite map_app, in_app_iff. intros [X|[X|[]]]; [exact (H k' (or_intror Hk) X)|].
  cbn in X. subst k'. exact (N1 Hk).
Qed.
Lemma drop_app : forall k a b, drop k (a ++ b) = drop k a ++ drop k b.
Proof. intros. unfold drop. apply filter_app. Qed.
Lemma drop_none : forall k d, ~ In k (map fst d) -> drop k d = d.
Proof.
  intros k d. unfold drop. induction d as [|[k' v] r IH]; intro H; [reflexivity|]. cbn [filter fst]. destruct (String.eqb_spec k k') as [->|N].
  - destruct H. left. reflexivity.
  - cbn [negb]. f_equal. apply IH. intro X. apply H. right. exact X.
Qed.
Lemma in_drop : forall k k' d, In k (map fst (drop k' d)) <-> In k (map fst d) /\ k <> k'.
Proof.
  intros k k' d. unfold drop. rewrite !in_map_iff. split.
  - intros (e & <- & H). apply filter_In in H. destruct H as [H E]. split; [eauto|]. intro X. rewrite <- X, String.eqb_refl in E. discriminate.
  - intros ((e & <- & H) & N). exists e. split; [reflexivity|]. apply filter_In. split; [exact H|]. destruct (String.eqb_spec k' (fst e)); [congruence|reflexivity].
Qed.
Lemma plook_app2 : forall k (a b : dict), ~ In k (map fst a) -> plook k (a ++ b) = plook k b.
Proof. intros k a b H. rewrite plook_app. apply plook_none in H. rewrite H. reflexivity. Qed.
Lemma pput_new : forall k v (d : dict), ~ In k (map fst d) -> pput k v d = d ++ [(k, v)].
Proof.
  intros k v d. induction d as [|[k' x] r IH]; intro H; [reflexivity|]. cbn [pput]. destruct (String.eqb_spec k k') as [->|N]; [destruct H; left; reflexivity|].
  cbn. f_equal. apply IH. intro X. apply H. right. exact X.
Qed.
Lemma plook_in : forall k v (d : dict), plook k d = Some v -> In (k, v) d.
Proof.
  intros k v d. induction d as [|[k' x] r IH]; cbn; [discriminate|]. destruct (String.eqb_spec k k') as [->|N]; [intro X; injection X as ->; tauto|auto].
Qed.

Lemma plain_free : forall kw, plain kw -> existsb (fun p => has p kw) parameters = false.
Proof.
  intros kw H. destruct (existsb _ _) eqn:E; [|reflexivity]. apply existsb_exists in E. destruct E as (p & Hp & E). apply has_in in E. destruct (H p E). right. exact Hp.
Qed.
Lemma plain_first : forall kw, plain kw -> ~ In "_first_arg" (map fst kw).
Proof. intros kw H X. apply (H _ X). left. reflexivity. Qed.
Lemma plain_name : forall kw, plain kw -> ~ In "name" (map fst kw).
Proof. intros kw H X. apply (H _ X). right. left. reflexivity. Qed.
Lemma plain_app : forall a b, plain a -> plain b -> plain (a ++ b).
Proof. intros a b A B k. rewrite map_app, in_app_iff. intros [X|X]; [exact (A k X)|exact (B k X)]. Qed.
Lemma free_first : forall v kw, plain kw -> existsb (fun p => has p (kw ++ [("_first_arg", v)])) parameters = false.
Proof.
  intros v kw H. destruct (existsb _ _) eqn:E; [|reflexivity]. apply existsb_exists in E. destruct E as (p & Hp & E). apply has_in in E.
  rewrite map_app, in_app_iff in E. destruct E as [E|[E|[]]]; [destruct (H p E); right; exact Hp|]. cbn in E. subst p. cbn in Hp. intuition discriminate.
Qed.

Section Mod.
Variable W : world.
Variable name : string.
Variable ms : option dict.
Notation step := (step W name ms).
Notation results := (results W name ms).
Notation same := (same W name ms).

Lemma run_mono : forall n m a r, run W name ms n a = Some r -> n <= m -> run W name ms m a = Some r.
Proof.
  induction n as [|n IH]; intros m a r H Hm; [discriminate|]. destruct m as [|m]; [lia|]. cbn [run] in *.
  destruct (step a); [exact H|apply IH; [exact H|lia]].
Qed.
Lemma results_det : forall a r r', results a r -> results a r' -> r = r'.
Proof.
  intros a r r' [n H] [m H']. pose proof (run_mono _ (max n m) _ _ H ltac:(lia)). pose proof (run_mono _ (max n m) _ _ H' ltac:(lia)). congruence.
Qed.
Lemma results_step : forall a r, results a r <-> match step a with Done x => r = x | Call b => results b r end.
Proof.
  intros a r. split.
  - intros [[|n] H]; [discriminate|]. cbn [run] in H. destruct (step a) as [x|b]; [congruence|exists n; exact H].
  - intro H. destruct (step a) as [x|b] eqn:E.
    + exists 1. cbn. rewrite E. congruence.
    + destruct H as [n H]. exists (S n). cbn. rewrite E. exact H.
Qed.
Lemma same_next : forall a b, step a = step b -> same a b.
Proof. intros a b E r. rewrite (results_step a), (results_step b), E. reflexivity. Qed.
Lemma same_call : forall a b, step a = Call b -> same a b.
Proof. intros a b E r. rewrite (results_step a), E. reflexivity. Qed.
Lemma done : forall a r, step a = Done r -> results a r.
Proof. intros a r E. apply results_step. rewrite E. reflexivity. Qed.
Lemma done_err : forall a e, step a = Done (Err e) -> rejected W name ms a.
Proof. intros a e E. exists e. apply done, E. Qed.
Lemma same_sym : forall a b, same a b -> same b a.
Proof. intros a b H r. symmetry. apply H. Qed.
Lemma same_trans : forall a b c, same a b -> same b c -> same a c.
Proof. intros a b c H K r. rewrite (H r). apply K. Qed.

Lemma call_plain : forall m d di kw, plain kw -> call m d di kw = Call (Args m d di kw).
Proof. intros. unfold call. rewrite plain_free by assumption. reflexivity. Qed.

Lemma check_ok : forall d, default_value ms d -> check_default ms d = Ok tt.
Proof.
  intros d H. unfold check_default. destruct (is_none d) eqn:N; [reflexivity|]. destruct d as [[]|?|?]; cbn in *; try destruct H; try discriminate.
  - destruct H as [-> H]. apply has_in in H. rewrite H. reflexivity.
  - destruct k; try contradiction; destruct ms; tauto || reflexivity.
Qed.
Lemma check_none : check_default ms none = Ok tt.
Proof. reflexivity. Qed.

Lemma step_constructor : forall m d di kw, constructor_value m -> default_value ms d ->
  step (Args m d di kw) = constructor name m kw.
Proof.
  intros m d di kw Hm Hd. unfold ModModel.step. cbn [a_default a_module a_kwargs a_disable]. rewrite check_ok by assumption.
  destruct m as [[]|?|?]; cbn in Hm; try contradiction; [reflexivity|]. destruct k; try contradiction; reflexivity.
Qed.
Lemma constructor_plain : forall m kw, plain kw -> constructor name m kw = Done (Ok (m, [], kw ++ [("name", str name)])).
Proof.
  intros m kw H. unfold constructor. pose proof (plain_first _ H) as F. rewrite (proj2 (plook_none _ _) F), drop_none by assumption. rewrite pput_new by (apply plain_name, H). reflexivity.
Qed.
Lemma constructor_first : forall m kw v, plain kw -> constructor name m (kw ++ [("_first_arg", v)]) = Done (Ok (m, [v], kw ++ [("name", str name)])).
Proof.
  intros m kw v H. unfold constructor. pose proof (plain_first _ H) as F. rewrite plook_app2 by assumption. cbn [plook String.eqb Ascii.eqb Bool.eqb andb].
  rewrite drop_app, drop_none by assumption. cbn. rewrite app_nil_r, pput_new by (apply plain_name, H). reflexivity.
Qed.
Lemma step_string : forall s d di kw, default_value ms d -> step (Args (str s) d di kw) = from_string W ms s d di kw.
Proof. intros s d di kw Hd. unfold ModModel.step. cbn [a_default a_module a_kwargs a_disable str]. rewrite check_ok by assumption. reflexivity. Qed.
Lemma step_dict : forall es d di kw, default_value ms d -> NoDup (map fst es) -> disjoint es kw -> ~ In "type" (map fst kw) -> plain (kw ++ others es) ->
  step (Args (PDict es) d di kw) = Call (Args (match plook "type" es with Some t => t | None => d end) d true (kw ++ others es)).
Proof.
  intros es d di kw Hd ND Dj Ht Hp. unfold ModModel.step. cbn [a_default a_module a_kwargs a_disable]. rewrite check_ok by assumption.
  rewrite update_disjoint by assumption. rewrite plook_app2 by assumption. rewrite drop_app, (drop_none "type" kw) by assumption.
  change (drop "type" es) with (others es). apply call_plain, Hp.
Qed.
End Mod.

Section Default.
Variable W : world.
Variable name : string.
Variable l : dict.
Notation ms := (Some l).
Notation step := (step W name ms).
Notation results := (results W name ms).

Lemma default_checked : forall d c, default_is W l d c -> default_value ms d.
Proof.
  intros d c H. destruct H as [k c Hk|s v F H C|v H C]; cbn.
  - cbn in Hk. destruct k; try discriminate; intuition discriminate.
  - exists l. split; [reflexivity|]. apply has_in. unfold has. rewrite H. reflexivity.
  - exact I.
Qed.
Lemma constructor_value_class : forall k c, In k [KMulti; KLayer; KModule] -> constructor_value (PAtom (AClass k c)).
Proof. intros k c H. cbn in *. destruct k; try tauto; intuition discriminate. Qed.
Lemma default_has : forall d c, default_is W l d c -> has_default ms d = Ok true.
Proof.
  intros d c H. destruct H as [k c Hk|s v F H C|v H C]; cbn; try (rewrite orb_true_r; reflexivity). unfold has. rewrite H. reflexivity.
Qed.
(** The default with some arguments. *)
Lemma default_runs : forall d c kw, default_is W l d c -> forall r, existsb (fun p => has p kw) parameters = false ->
  constructor name c kw = Done r -> results (Args (default_of ms d) none false kw) r.
Proof.
  intros d c kw H r Hf Hr. destruct H as [k c Hk|s v F H C|v H C]; unfold default_of; cbn [is_none none str].
  - apply done. rewrite step_constructor; [exact Hr|apply constructor_value_class, Hk|exact I].
  - apply results_step. rewrite (step_string W name ms s) by exact I. unfold from_string. rewrite F, H. unfold call. rewrite Hf.
    apply done. rewrite step_constructor; [exact Hr|exact C|exact I].
  - rewrite H. apply done. rewrite step_constructor; [exact Hr|exact C|exact I].
Qed.
Lemma use_default_first : forall v d c kw, default_is W l d c -> plain kw -> is_none v = false -> use_default ms v d kw = ModModel.Call (Args (default_of ms d) none false (kw ++ [("_first_arg", v)])) /\
  results (Args (default_of ms d) none false (kw ++ [("_first_arg", v)])) (Ok (c, [v], kw ++ [("name", str name)])).
Proof.
  intros v d c kw H Hp Hn. split.
  - unfold use_default. rewrite (proj2 (has_not _ _) (plain_first _ Hp)), Hn. unfold call. rewrite free_first by assumption. reflexivity.
  - eapply default_runs; [exact H|apply free_first, Hp|apply constructor_first, Hp].
Qed.
Lemma use_default_none : forall d c kw, default_is W l d c -> plain kw -> use_default ms none d kw = ModModel.Call (Args (default_of ms d) none false kw) /\
  results (Args (default_of ms d) none false kw) (Ok (c, [], kw ++ [("name", str name)])).
Proof.
  intros d c kw H Hp. split.
  - unfold use_default. rewrite (proj2 (has_not _ _) (plain_first _ Hp)). cbn [is_none none]. apply call_plain, Hp.
  - eapply default_runs; [exact H|apply plain_free, Hp|apply constructor_plain, Hp].
Qed.
Lemma step_value : forall v d di kw, default_value ms d -> has_default ms d = Ok true -> first_argument v \/ v = none ->
  step (Args v d di kw) = use_default ms v d kw.
Proof.
  intros v d di kw Hd Hh Hv. unfold ModModel.step. cbn [a_default a_module a_kwargs a_disable]. rewrite check_ok by assumption.
  destruct Hv as [Hv|Hv]; [|subst v; cbn [none]; unfold from_object; cbn [callable is_keras negb orb]; rewrite Hh; reflexivity].
  destruct v as [[]|?|?]; cbn in Hv; try contradiction; unfold from_object; cbn [callable is_keras negb orb]; try (rewrite Hh; reflexivity).
  destruct k; try contradiction. rewrite Hh. reflexivity.
Qed.
End Default.
