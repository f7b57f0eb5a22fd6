(** Environment.create returns or raises, if files do not refer to each other in cycles. *)
From Coq Require Import String List ZArith Bool Lia Arith.
From Verif Require Import Base SigModel EcrModel EcrSpec MergeProofs EcrProofs.
Import ListNotations.
Open Scope string_scope.
Open Scope list_scope.
Open Scope nat_scope.

Section Term.
Variable W : world.
Variable cost : string -> nat.

(** The size of a value, where a string counts [cost]. *)
Fixpoint vsize (v : value) : nat :=
  match v with
  | PAtom ANone => 0
  | PAtom (AStr s) => cost s
  | PAtom _ => 0
  | PSeq _ l => 0
  | PDict es => S ((fix go (es : dict) := match es with [] => 0 | (_, x) :: r => vsize x + go r end) es)
  end.
Fixpoint tsize (es : dict) : nat := match es with [] => 0 | (_, x) :: r => vsize x + tsize r end.
Lemma vsize_dict es : vsize (PDict es) = S (tsize es).
Proof. cbn [vsize]. f_equal. Qed.

Lemma tsize_app a b : tsize (a ++ b) = tsize a + tsize b.
Proof. induction a as [|[k x] r IH]; [reflexivity|]. cbn [app tsize]. rewrite IH. lia. Qed.
Lemma tsize_put k (w old : value) es : plook k es = Some old -> tsize (pput k w es) + vsize old = tsize es + vsize w.
Proof.
  induction es as [|[k' x] r IH]; cbn [plook pput]; [discriminate|]. destruct (String.eqb k k'); cbn [tsize].
  - intro H. injection H as ->. lia.
  - intro H. specialize (IH H). lia.
Qed.
Lemma ddu_size (v : value) : forall ts ts', deep_disjoint_update atom_eqb ts v = Ok ts' -> tsize ts' + 1 <= tsize ts + vsize v.
Proof.
  induction v as [a|t l|ss IH] using pval_ind_all; intros ts ts' H; try discriminate. rewrite vsize_dict. cbn [deep_disjoint_update] in H.
  revert ts H. induction IH as [|[key value] r Hv Hr IHr]; intros ts H.
  - injection H as <-. lia.
  - apply step_cases in H. destruct H as (ts1 & H & Hc). specialize (IHr _ H). cbn [tsize].
    assert (tsize ts1 <= tsize ts + vsize value); [|lia].
    destruct Hc as [[_ ->]|[(es & es' & vs & Hk & -> & Hd & ->)|(w & _ & _ & _ & _ & ->)]].
    + rewrite tsize_app. cbn. lia.
    + pose proof (tsize_put key (PDict es') _ _ Hk) as P. cbn [snd] in Hv. specialize (Hv _ _ Hd). rewrite !vsize_dict in *. lia.
    + lia.
Qed.
Lemma drop_size k d : tsize (drop k d) + vsize (arg d k) <= tsize d.
Proof.
  unfold drop, arg. induction d as [|[k' x] r IH]; cbn [filter fst plook tsize]; [cbn; lia|].
  destruct (String.eqb_spec k k') as [->|N]; cbn [negb].
  - assert (tsize (filter (fun e => negb (k' =? fst e)%string) r) <= tsize r); [|lia]. clear. induction r as [|[a y] q IH]; [reflexivity|]. cbn [filter fst tsize]. destruct (k' =? a)%string; cbn [negb tsize]; lia.
  - cbn [tsize]. lia.
Qed.
Lemma drop_size' k d : tsize (drop k d) <= tsize d.
Proof. pose proof (drop_size k d). lia. Qed.

(** The arguments of create are at least as large as their parts. *)
Lemma parts_size args :
  vsize (arg args "environment") + vsize (arg args "max_episode_timesteps") + vsize (arg args "reward_shaping") + tsize (kwargs_of args) <= tsize args.
Proof.
  pose proof (drop_size "environment" args) as A. pose proof (drop_size "max_episode_timesteps" (drop "environment" args)) as B.
  pose proof (drop_size "reward_shaping" (drop "max_episode_timesteps" (drop "environment" args))) as C.
  unfold arg in *. rewrite plook_drop in B by discriminate. rewrite (plook_drop "reward_shaping" "max_episode_timesteps"), (plook_drop "reward_shaping" "environment") in C by discriminate.
  assert (tsize (kwargs_of args) <= tsize (drop "reward_shaping" (drop "max_episode_timesteps" (drop "environment" args)))); [|lia].
  clear. unfold kwargs_of, drop. induction args as [|[k x] r IH]; [reflexivity|]. cbn [filter fst].
  destruct (existsb (String.eqb k) parameters) eqn:E; cbn [negb].
  - destruct ("environment" =? k)%string; cbn [negb filter fst]; [exact IH|]. destruct ("max_episode_timesteps" =? k)%string; cbn [negb filter fst]; [exact IH|].
    destruct ("reward_shaping" =? k)%string; cbn [negb tsize]; lia.
  - cbn [parameters existsb] in E. rewrite !orb_false_iff in E. rewrite !(String.eqb_sym k) in E. destruct E as (E1 & E2 & E3 & _). rewrite E1. cbn [negb filter fst]. rewrite E2. cbn [negb filter fst]. rewrite E3. cbn [negb tsize]. lia.
Qed.

(** Merging a dictionary makes the arguments smaller, or leads to the default environment. *)
Lemma dict_args_size v lim sh kw a : dict_args v lim sh kw = Ok a ->
  arg a "environment" = str "default" \/ tsize a < vsize v + vsize lim + vsize sh + tsize kw.
Proof.
  intro H. unfold dict_args in H. destruct (deep_disjoint_update _ kw v) as [k|] eqn:E; [|discriminate]. apply ddu_size in E. cbn [bind] in H.
  set (environment := match plook "environment" k, plook "type" k with Some e, _ => e | None, Some t => t | None, None => str "default" end) in *.
  assert (K : environment = str "default" \/ vsize environment + tsize (drop "environment" (drop "type" k)) <= tsize k).
  { pose proof (drop_size "type" k) as A. pose proof (drop_size "environment" (drop "type" k)) as B. pose proof (drop_size' "environment" (drop "type" k)) as C.
    unfold arg in *. rewrite plook_drop in B by discriminate. unfold environment. destruct (plook "environment" k); [right; lia|]. destruct (plook "type" k); [right; lia|left; reflexivity]. }
  clearbody environment. destruct (assert_ _ _); [|discriminate]. cbn [bind] in H. set (d := drop "environment" (drop "type" k)) in *.
  destruct K as [->|K].
  - left. destruct (is_none lim), (is_none sh); apply call_args_ok in H; subst a; reflexivity.
  - right. pose proof (drop_size "max_episode_timesteps" d) as A. pose proof (drop_size "reward_shaping" (drop "max_episode_timesteps" d)) as B. pose proof (drop_size "reward_shaping" d) as C.
    assert (Z1 : is_none lim = true -> vsize lim = 0) by (destruct lim as [[]|?|?]; cbn; congruence). assert (Z2 : is_none sh = true -> vsize sh = 0) by (destruct sh as [[]|?|?]; cbn; congruence).
    destruct (is_none lim), (is_none sh); apply call_args_ok in H; subst a; rewrite tsize_app; cbn [named tsize]; lia.
Qed.

Hypothesis no_gym : w_file W "gym" = None.
Hypothesis no_default : w_file W "default" = None.

Definition total (args : dict) : Prop := exists r, creates W args r.
Lemma total_step args : match step W args with Done _ => True | Call a => total a | CallGym a => total a end -> total args.
Proof.
  intro H. unfold total. destruct (step W args) as [r|a|a] eqn:E.
  - exists r. apply creates_step. rewrite E. reflexivity.
  - destruct H as [r H]. exists r. apply creates_step. rewrite E. exact H.
  - destruct H as [r H]. exists (gym_error r). apply creates_step. rewrite E. eauto.
Qed.
Lemma total_local args : match create_local W (arg args "environment") (arg args "max_episode_timesteps") (arg args "reward_shaping") (kwargs_of args) with Done _ => True | Call a => total a | CallGym a => total a end -> total args.
Proof.
  intro H. apply total_step. unfold step. destruct (check_remote _ _ _ _); [|exact I]. destruct (is_str "multiprocessing" _); [exact I|].
  destruct (is_str "socket-client" _); [exact I|]. destruct (is_str "socket-server" _); [exact I|]. destruct (negb _); [exact I|]. exact H.
Qed.
Lemma total_env e l s : total (named (PAtom (AEnv e)) l s).
Proof. apply total_local. exact I. Qed.
Lemma total_class c args : arg args "environment" = PAtom (AClass (CEnv c)) -> total args.
Proof. intro E. apply total_local. rewrite E. cbn [create_local]. destruct (w_construct W c _); [apply total_env|exact I]. Qed.
Lemma registered_class s c : registered s environments = Some c -> exists n, c = CEnv n.
Proof.
  assert (H : forall l, Forall (fun p => exists n, snd p = CEnv n) l -> registered s l = Some c -> exists n, c = CEnv n).
  { intros l F. induction F as [|[k x] r H F IH]; cbn; [discriminate|]. destruct (s =? k)%string; [intro X; injection X as <-; exact H|exact IH]. }
  apply H. repeat (constructor; [eexists; reflexivity|]). constructor.
Qed.
Lemma total_keyword s args : arg args "environment" = str s -> w_file W s = None -> registered s environments <> None -> total args.
Proof.
  intros E F R. apply total_local. rewrite E. cbn [create_local str]. unfold from_string. rewrite F. destruct (registered s environments) as [c|] eqn:G; [|congruence].
  destruct (registered_class _ _ G) as (n & ->). eapply total_class. reflexivity.
Qed.
Lemma total_gym l s v kw : total (named (str "gym") l s ++ ("level", v) :: kw).
Proof. apply (total_keyword "gym"); [reflexivity|exact no_gym|discriminate]. Qed.
Lemma total_gym_class args : (exists c, arg args "environment" = PAtom (AClass c)) -> total args.
Proof.
  intros (c & E). destruct c as [c|c|c|c]; [apply total_local; rewrite E; exact I|eapply total_class; exact E| |apply total_local; rewrite E; exact I].
  apply total_local. rewrite E. cbn [create_local]. destruct (call_args _ _) as [a|e] eqn:C; [|exact I]. apply call_args_ok in C. subst a. cbn [calls]. apply total_gym.
Qed.

Hypothesis smaller : forall s v, w_file W s = Some (Ok v) -> vsize v <= cost s.

Lemma total_all : forall n args, tsize args <= n -> total args.
Proof.
  induction n as [n IH] using lt_wf_ind. intros args Hn.
  assert (D : forall v, vsize v <= vsize (arg args "environment") ->
    match calls (dict_args v (arg args "max_episode_timesteps") (arg args "reward_shaping") (kwargs_of args)) with Done _ => True | Call a => total a | CallGym a => total a end).
  { intros v Hv. destruct (dict_args _ _ _ _) as [a|e] eqn:E; cbn [calls]; [|exact I]. apply dict_args_size in E. destruct E as [E|E].
    - eapply (total_keyword "default"); [exact E|exact no_default|discriminate].
    - apply (IH (tsize a)); [|lia]. pose proof (parts_size args). lia. }
  apply total_local. pose proof (parts_size args) as P. destruct (arg args "environment") as [[]|t l|d] eqn:E; try exact I; cbn [create_local].
  - unfold from_string. destruct (w_file W s) as [[v|e]|] eqn:F; [|exact I|].
    + apply D. cbn. apply smaller, F.
    + destruct (registered s environments) as [c|]; [apply total_gym_class; eexists; reflexivity|].
      destruct (w_import W s) as [[c|]|]; [apply total_gym_class; eexists; reflexivity| |exact I].
      destruct (call_args _ _) as [a|e'] eqn:C; [|exact I]. apply call_args_ok in C. subst a. apply total_gym.
  - destruct c as [c|c|c|c]; try exact I.
    + destruct (w_construct W c _); [apply total_env|exact I].
    + destruct (call_args _ _) as [a|e'] eqn:C; [|exact I]. apply call_args_ok in C. subst a. apply total_gym.
  - destruct (call_args _ _) as [a|e'] eqn:C; [|exact I]. apply call_args_ok in C. subst a. apply total_gym.
  - apply D. lia.
Qed.
End Term.
