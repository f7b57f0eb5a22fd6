(** Lemmas about Environment.create. *)
From Coq Require Import String List ZArith Bool Lia Arith.
From Verif Require Import Base SigModel EcrModel EcrSpec MergeProofs.
Import ListNotations.
Open Scope string_scope.
Open Scope list_scope.
Open Scope nat_scope.

Section Ecr.
Variable W : world.

Lemma run_mono : forall n m args r, run W n args = Some r -> n <= m -> run W m args = Some r.
Proof.
  induction n as [|n IH]; intros m args r H Hm; [discriminate|]. destruct m as [|m]; [lia|]. cbn [run] in *.
  destruct (step W args) as [x|a|a]; [exact H|apply IH; [exact H|lia]|].
  destruct (run W n a) as [x|] eqn:E; [|discriminate]. rewrite (IH m a x E ltac:(lia)). exact H.
Qed.

Lemma creates_det : forall args r r', creates W args r -> creates W args r' -> r = r'.
Proof.
  intros args r r' [n H] [m H']. pose proof (run_mono _ (max n m) _ _ H ltac:(lia)). pose proof (run_mono _ (max n m) _ _ H' ltac:(lia)). congruence.
Qed.

Lemma creates_step : forall args r, creates W args r <->
  match step W args with
  | Done x => r = x
  | Call a => creates W a r
  | CallGym a => exists x, creates W a x /\ r = gym_error x
  end.
Proof.
  intros args r. split.
  - intros [[|n] H]; [discriminate|]. cbn [run] in H. destruct (step W args) as [x|a|a]; [congruence|exists n; exact H|].
    destruct (run W n a) as [x|] eqn:E; [|discriminate]. exists x. split; [exists n; exact E|]. cbn in H. congruence.
  - intro H. destruct (step W args) as [x|a|a] eqn:E.
    + exists 1. cbn. rewrite E. congruence.
    + destruct H as [n H]. exists (S n). cbn. rewrite E. exact H.
    + destruct H as (x & [n H] & ->). exists (S n). cbn. rewrite E, H. reflexivity.
Qed.

Lemma same_next : forall a b, step W a = step W b -> same_result W a b.
Proof. intros a b E r. rewrite (creates_step a), (creates_step b), E. reflexivity. Qed.
Lemma same_call : forall a b, step W a = Call b -> same_result W a b.
Proof. intros a b E r. rewrite (creates_step a), E. reflexivity. Qed.
Lemma done_err : forall a e, step W a = Done (Err e) -> raises W a.
Proof. intros a e E. exists e. apply creates_step. rewrite E. reflexivity. Qed.

(** ** Dictionaries *)
Lemma plook_none : forall k (d : dict), plook k d = None <-> ~ In k (map fst d).
Proof.
  intros k d. induction d as [|[k' v] r IH]; cbn; [tauto|]. destruct (String.eqb_spec k k') as [->|N]; [split; [discriminate|tauto]|].
  rewrite IH. split; [intros H [X|X]; [congruence|tauto]|tauto].
Qed.
Lemma has_in : forall k (d : dict), has k d = true <-> In k (map fst d).
Proof.
  intros k d. unfold has. destruct (plook k d) as [v|] eqn:E.
  - split; [intros _; eapply plook_In; exact E|reflexivity].
  - split; [discriminate|]. apply plook_none in E. tauto.
Qed.
Lemma has_not : forall k (d : dict), has k d = false <-> ~ In k (map fst d).
Proof. intros k d. rewrite <- has_in. destruct (has k d); split; congruence. Qed.

Lemma plain_filter : forall kw, plain kw -> kwargs_of kw = kw.
Proof.
  unfold plain, kwargs_of. induction kw as [|[k v] r IH]; intro H; [reflexivity|]. cbn [filter].
  assert (E : existsb (String.eqb k) parameters = false).
  { destruct (existsb _ _) eqn:E; [|reflexivity]. apply existsb_exists in E. destruct E as (x & Hx & Ex). apply String.eqb_eq in Ex. subst x.
    destruct (H k v (or_introl eq_refl) Hx). }
  cbn [fst]. rewrite E. cbn [negb]. f_equal. apply IH. intros k' v' Hin. apply (H k' v'). right. exact Hin.
Qed.
Lemma plain_arg : forall kw p, plain kw -> In p parameters -> plook p kw = None.
Proof. intros kw p H Hp. apply plook_none. intro X. apply in_map_iff in X. destruct X as ([k v] & <- & Hin). exact (H k v Hin Hp). Qed.
Lemma kwargs_named : forall e l s kw, kwargs_of (named e l s ++ kw) = kwargs_of kw.
Proof. reflexivity. Qed.

(** What create does with a call without remote. *)
Lemma step_local : forall e l s kw, plain kw -> step W (named e l s ++ kw) = create_local W e l s kw.
Proof.
  intros e l s kw H. unfold step. rewrite kwargs_named, (plain_filter kw H). unfold arg. cbn [named app plook String.eqb Ascii.eqb Bool.eqb andb].
  rewrite !(plain_arg kw _ H) by (cbn; tauto). reflexivity.
Qed.
Lemma plain_nil : plain [].
Proof. intros k v []. Qed.
Lemma step_named : forall e l s, step W (named e l s) = create_local W e l s [].
Proof. intros e l s. rewrite <- (app_nil_r (named e l s)). apply step_local, plain_nil. Qed.

(** Merging disjoint dictionaries appends them. *)
Lemma update_disjoint : forall ss kw, NoDup (map fst ss) -> (forall k, In k (map fst ss) -> ~ In k (map fst kw)) ->
  deep_disjoint_update atom_eqb kw (PDict ss) = Ok (kw ++ ss).
Proof.
  cbn [deep_disjoint_update]. induction ss as [|[k v] r IH]; intros kw ND H; [rewrite app_nil_r; reflexivity|]. cbn [update_loop].
  assert (E : plook k kw = None) by (apply plook_none, H; left; reflexivity). rewrite E. inversion ND as [|? ? N1 N2]; subst.
  rewrite IH; [rewrite <- app_assoc; reflexivity|exact N2|]. intros k' Hk. rewrite map_app, in_app_iff. intros [X|[X|[]]]; [exact (H k' (or_intror Hk) X)|].
  cbn in X. subst k'. exact (N1 Hk).
Qed.

Lemma drop_app : forall k a b, drop k (a ++ b) = drop k a ++ drop k b.
Proof. intros. unfold drop. apply filter_app. Qed.
Lemma drop_none : forall k d, ~ In k (map fst d) -> drop k d = d.
Proof.
  intros k d. unfold drop. induction d as [|[k' v] r IH]; intro H; [reflexivity|]. cbn [filter fst]. destruct (String.eqb_spec k k') as [->|N].
  - destruct H. left. reflexivity.
  - cbn [negb]. f_equal. apply IH. intro X. apply H. right. exact X.
Qed.
Lemma plook_drop : forall k k' d, k <> k' -> plook k (drop k' d) = plook k d.
Proof.
  intros k k' d N. unfold drop. induction d as [|[a v] r IH]; [reflexivity|]. cbn [filter fst plook]. destruct (String.eqb_spec k' a) as [->|N'].
  - cbn [negb]. destruct (String.eqb_spec k a); [congruence|]. exact IH.
  - cbn [negb plook]. destruct (String.eqb k a); [reflexivity|]. exact IH.
Qed.
Lemma in_drop : forall k k' d, In k (map fst (drop k' d)) <-> In k (map fst d) /\ k <> k'.
Proof.
  intros k k' d. unfold drop. rewrite !in_map_iff. split.
  - intros (e & <- & H). apply filter_In in H. destruct H as [H E]. split; [eauto|]. intro X. rewrite <- X, String.eqb_refl in E. discriminate.
  - intros ((e & <- & H) & N). exists e. split; [reflexivity|]. apply filter_In. split; [exact H|]. destruct (String.eqb_spec k' (fst e)); [congruence|reflexivity].
Qed.
Lemma others_drop : forall d, others d = drop "reward_shaping" (drop "max_episode_timesteps" (drop "environment" (drop "type" d))).
Proof.
  intro d. unfold others, drop. induction d as [|[k v] r IH]; [reflexivity|]. cbn [filter fst existsb].
  rewrite !(String.eqb_sym k).
  destruct (String.eqb "type" k) eqn:E1; cbn [negb filter fst].
  - rewrite orb_true_l, orb_true_r. cbn. exact IH.
  - destruct (String.eqb "environment" k) eqn:E2; cbn [negb filter fst orb]; [exact IH|].
    destruct (String.eqb "max_episode_timesteps" k) eqn:E3; cbn [negb filter fst orb]; [exact IH|].
    destruct (String.eqb "reward_shaping" k) eqn:E4; cbn [negb filter fst orb]; [exact IH|].
    f_equal. exact IH.
Qed.

Lemma plook_app2 : forall k (a b : dict), ~ In k (map fst a) -> plook k (a ++ b) = plook k b.
Proof. intros k a b H. rewrite plook_app. apply plook_none in H. rewrite H. reflexivity. Qed.

(** The arguments after a dictionary. *)
Lemma dict_args_ok : forall es lim sh kw, plain kw -> NoDup (map fst es) -> (forall k, In k (map fst es) -> ~ In k (map fst kw)) ->
  ~ In "type" (map fst kw) -> is_none (kind es) = false ->
  (is_none lim = false -> ~ In "max_episode_timesteps" (map fst es)) -> (is_none sh = false -> ~ In "reward_shaping" (map fst es)) ->
  dict_args (PDict es) lim sh kw = Ok (named (kind es) (either lim "max_episode_timesteps" es) (either sh "reward_shaping" es) ++ kw ++ others es).
Proof.
  intros es lim sh kw Hp ND Hd Ht Hk Hl Hs. unfold dict_args. rewrite update_disjoint by assumption. cbn [bind].
  assert (NP : forall p, In p parameters -> ~ In p (map fst kw)) by (intros p X; apply plook_none, plain_arg; assumption).
  assert (N1 : ~ In "environment" (map fst kw)) by (apply NP; cbn; tauto).
  assert (N2 : ~ In "max_episode_timesteps" (map fst kw)) by (apply NP; cbn; tauto).
  assert (N3 : ~ In "reward_shaping" (map fst kw)) by (apply NP; cbn; tauto).
  rewrite (plook_app2 "environment"), (plook_app2 "type") by assumption.
  match goal with |- context [negb (is_none ?x)] => change x with (kind es) end. rewrite Hk. cbn [negb assert_ bind].
  rewrite (drop_app "type"), (drop_none "type" kw), (drop_app "environment"), (drop_none "environment" kw) by assumption.
  set (d := drop "environment" (drop "type" es)).
  assert (P1 : plook "max_episode_timesteps" d = plook "max_episode_timesteps" es) by (unfold d; rewrite !plook_drop by discriminate; reflexivity).
  assert (P2 : plook "reward_shaping" d = plook "reward_shaping" es) by (unfold d; rewrite !plook_drop by discriminate; reflexivity).
  assert (E1 : (if is_none lim then (arg (kw ++ d) "max_episode_timesteps", drop "max_episode_timesteps" (kw ++ d)) else (lim, kw ++ d)) =
               (either lim "max_episode_timesteps" es, kw ++ drop "max_episode_timesteps" d)).
  { unfold either, arg. destruct (is_none lim).
    - rewrite plook_app2 by assumption. rewrite P1, drop_app, (drop_none _ kw) by assumption. reflexivity.
    - rewrite (drop_none _ d); [reflexivity|]. unfold d. rewrite !in_drop. intros [[X _] _]. exact (Hl eq_refl X). }
  match goal with |- context [if is_none lim then ?a else ?b] => replace (if is_none lim then a else b) with (either lim "max_episode_timesteps" es, kw ++ drop "max_episode_timesteps" d) by (symmetry; exact E1) end.
  clear E1. set (d1 := drop "max_episode_timesteps" d).
  assert (E2 : (if is_none sh then (arg (kw ++ d1) "reward_shaping", drop "reward_shaping" (kw ++ d1)) else (sh, kw ++ d1)) =
               (either sh "reward_shaping" es, kw ++ drop "reward_shaping" d1)).
  { unfold either, arg. destruct (is_none sh).
    - rewrite plook_app2 by assumption. unfold d1. rewrite plook_drop by discriminate. rewrite P2, drop_app, (drop_none _ kw) by assumption. reflexivity.
    - rewrite (drop_none _ d1); [reflexivity|]. unfold d1, d. rewrite !in_drop. intros [[[X _] _] _]. exact (Hs eq_refl X). }
  match goal with |- context [if is_none sh then ?a else ?b] => replace (if is_none sh then a else b) with (either sh "reward_shaping" es, kw ++ drop "reward_shaping" d1) by (symmetry; exact E2) end.
  clear E2. replace (drop "reward_shaping" d1) with (others es) by apply others_drop.
  unfold call_args. cbn [named existsb fst].
  assert (O : forall k, In k ["environment"; "max_episode_timesteps"; "reward_shaping"] -> has k (kw ++ others es) = false).
  { intros k Hin. apply has_not. rewrite map_app, in_app_iff. intros [X|X]; [apply (NP k); [cbn in *; tauto|exact X]|].
    rewrite others_drop in X. rewrite !in_drop in X. cbn in Hin. destruct X as [[[[_ X1] X2] X3] X4]. destruct Hin as [<-|[<-|[<-|[]]]]; congruence. }
  rewrite !O by (cbn; tauto). reflexivity.
Qed.

(** ** Results *)
Lemma gym_error_ok : forall r o, gym_error r = Ok o <-> r = Ok o.
Proof. intros [x|e] o; cbn; [tauto|]. destruct (String.prefix _ e); split; discriminate. Qed.

Lemma wrap_iff : forall e l s w, wrap e l s = Ok w <->
  e_multi e = false /\ (forall m z, e_limit e = Some m -> l = Some z -> (z <= m)%Z) /\
  wr_limit w = match l with Some z => Some z | None => e_limit e end /\ wr_shaping w = s /\
  e_id (wr_env w) = e_id e /\ e_multi (wr_env w) = e_multi e /\
  e_limit (wr_env w) = match e_limit e with Some m => Some m | None => l end.
Proof.
  intros [i m u] l s w. unfold wrap. cbn [e_limit e_multi e_id]. split.
  - destruct m as [m|], l as [z|]; cbn [bind assert_].
    + destruct (Z.ltb_spec m z); cbn; [discriminate|]. destruct u; cbn; [discriminate|]. intro X. injection X as <-. cbn. repeat split; try reflexivity. intros. congruence.
    + destruct u; cbn; [discriminate|]. intro X. injection X as <-. cbn. repeat split; try reflexivity. intros. discriminate.
    + destruct u; cbn; [discriminate|]. intro X. injection X as <-. cbn. repeat split; try reflexivity. intros. discriminate.
    + destruct u; cbn; [discriminate|]. intro X. injection X as <-. cbn. repeat split; try reflexivity. intros. discriminate.
  - intros (-> & H & A & B & C & D & E). destruct w as [[i' m' u'] wl ws]. cbn in *. subst.
    destruct m as [m|], l as [z|]; cbn; try reflexivity. specialize (H m z eq_refl eq_refl). destruct (Z.ltb_spec m z); [lia|]. reflexivity.
Qed.

Lemma arg_named : forall e l s kw, arg (named e l s ++ kw) "max_episode_timesteps" = l.
Proof. reflexivity. Qed.

Lemma call_args_ok : forall n k a, call_args n k = Ok a -> a = n ++ k.
Proof. intros n k a. unfold call_args. destruct (existsb _ _); [discriminate|]. congruence. Qed.

Lemma dict_args_limit : forall v lim sh kw a, dict_args v lim sh kw = Ok a -> is_none lim = false -> arg a "max_episode_timesteps" = lim.
Proof.
  intros v lim sh kw a H Hl. unfold dict_args in H. destruct (deep_disjoint_update _ kw v) as [k|]; [|discriminate]. cbn [bind] in H.
  destruct (assert_ _ _); [|discriminate]. cbn [bind] in H. rewrite Hl in H. destruct (is_none sh); apply call_args_ok in H; subst a; reflexivity.
Qed.

(** A limit given as argument is the one of the result. *)
Lemma given_limit : forall n args w z, run W n args = Some (Ok (Local w)) -> as_limit (arg args "max_episode_timesteps") = Ok (Some z) -> wr_limit w = Some z.
Proof.
  induction n as [|n IH]; intros args w z H Hz; [discriminate|]. cbn [run] in H.
  assert (Hl : is_none (arg args "max_episode_timesteps") = false) by (destruct (arg args "max_episode_timesteps") as [[]|?|?]; cbn in *; congruence).
  assert (G : (exists a, (step W args = Call a \/ step W args = CallGym a) /\ arg a "max_episode_timesteps" = arg args "max_episode_timesteps") \/
              exists r, step W args = Done r /\ (r = Ok (Local w) -> wr_limit w = Some z)).
  { unfold step. destruct (check_remote _ _ _ _) as [u0|]; [|right; eexists; split; [reflexivity|discriminate]].
    destruct (is_str "multiprocessing" _). { right. eexists. split; [reflexivity|]. destruct (assert_ _ _); discriminate. }
    destruct (is_str "socket-client" _). { right. eexists. split; [reflexivity|]. repeat (destruct (assert_ _ _); cbn; try discriminate). }
    destruct (is_str "socket-server" _). { right. eexists. split; [reflexivity|]. repeat (destruct (assert_ _ _); cbn; try discriminate). }
    destruct (negb _). { right. eexists. split; [reflexivity|]. discriminate. }
    assert (C : forall a n k, a = call_args n k -> arg n "max_episode_timesteps" = arg args "max_episode_timesteps" -> has "max_episode_timesteps" n = true ->
              (exists b, (calls a = Call b \/ calls a = CallGym b) /\ arg b "max_episode_timesteps" = arg args "max_episode_timesteps") \/
              exists r, calls a = Done r /\ (r = Ok (Local w) -> wr_limit w = Some z)).
    { intros a nm k -> Hn Hh. destruct (call_args nm k) as [b|e] eqn:E; cbn; [|right; eexists; split; [reflexivity|discriminate]]. left. exists b. split; [left; reflexivity|].
      apply call_args_ok in E. subst b. unfold arg, has in *. rewrite plook_app. destruct (plook _ nm); [exact Hn|discriminate]. }
    assert (D : forall v k, (exists b, (calls (dict_args v (arg args "max_episode_timesteps") (arg args "reward_shaping") k) = Call b \/ calls (dict_args v (arg args "max_episode_timesteps") (arg args "reward_shaping") k) = CallGym b) /\ arg b "max_episode_timesteps" = arg args "max_episode_timesteps") \/
              exists r, calls (dict_args v (arg args "max_episode_timesteps") (arg args "reward_shaping") k) = Done r /\ (r = Ok (Local w) -> wr_limit w = Some z)).
    { intros v k. destruct (dict_args _ _ _ _) as [b|e] eqn:E; cbn; [|right; eexists; split; [reflexivity|discriminate]]. left. exists b. split; [left; reflexivity|].
      eapply dict_args_limit; eauto. }
    unfold create_local. destruct (arg args "environment") as [[]|t l|d]; try (right; eexists; split; [reflexivity|discriminate]); try (apply D); try (eapply C; reflexivity).
    - unfold from_string. destruct (w_file W s) as [[v|e]|]; [apply D|right; eexists; split; [reflexivity|discriminate]|].
      destruct (registered s environments); [left; eexists; split; [left; reflexivity|reflexivity]|].
      destruct (w_import W s) as [[c|]|e]; [left; eexists; split; [left; reflexivity|reflexivity]| |right; eexists; split; [reflexivity|discriminate]].
      destruct (call_args _ _) as [b|e] eqn:E; [|right; eexists; split; [reflexivity|discriminate]]. left. exists b. split; [right; reflexivity|].
      apply call_args_ok in E. subst b. reflexivity.
    - destruct c; try (right; eexists; split; [reflexivity|discriminate]); [|eapply C; reflexivity].
      destruct (w_construct W name _); [left; eexists; split; [left; reflexivity|reflexivity]|right; eexists; split; [reflexivity|discriminate]].
    - right. eexists. split; [reflexivity|]. rewrite Hz. cbn [bind]. destruct (wrap _ _ _) as [w'|] eqn:E; [|discriminate]. cbn. intro X. injection X as ->. apply wrap_iff in E. apply E.
    - right. eexists. split; [reflexivity|]. unfold check_existing. rewrite Hz. cbn [bind]. destruct (wr_limit w0) as [m|] eqn:E; [|discriminate].
      destruct (Z.eqb_spec z m) as [->|]; [|discriminate]. cbn. destruct (assert_ _ _); [|discriminate]. cbn. congruence.
    - right. eexists. split; [reflexivity|]. destruct (check_existing _ _ _); discriminate. }
  destruct G as [(a & [E|E] & Ha)|(r & E & Hr)]; rewrite E in H.
  - eapply IH; [exact H|congruence].
  - destruct (run W n a) as [r|] eqn:R; [|discriminate]. cbn in H. injection H as H. apply (proj1 (gym_error_ok _ _)) in H. subst r. eapply IH; [exact R|congruence].
  - apply Hr. congruence.
Qed.
End Ecr.
