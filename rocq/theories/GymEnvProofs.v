(** Proofs about OpenAIGym: bounds, dropping, ends of episodes and levels. *)

From Coq Require Import String Ascii List ZArith Reals Bool Lia Lra Permutation.
From Verif Require Import Base ParModel ParProofs GymModel GymEnvModel GymSpec GymProofs GymFitProofs GymStateProofs.
Import ListNotations.
Open Scope string_scope.

(** * Bounds *)

Lemma ext_eqb_eq : forall x y, ext_eqb x y = true <-> x = y.
Proof.
  intros [| x |] [| y |]; cbn; split; intro H; try discriminate; try reflexivity.
  - apply Reqb_true in H. congruence.
  - injection H as ->. apply Reqb_true. reflexivity.
Qed.

Lemma ext_ltb_lt : forall x y, ext_ltb x y = false <-> ext_le y x.
Proof.
  intros [| x |] [| y |]; cbn; split; intro H; try discriminate; try reflexivity; try (destruct H; fail); try exact I.
  - unfold Rltb in H. destruct (Rlt_dec x y); [discriminate | lra].
  - unfold Rltb. destruct (Rlt_dec x y); [lra | reflexivity].
Qed.

Lemma ext_total : forall x y, ext_ltb x y = true -> ext_le x y.
Proof. intros [| x |] [| y |]; cbn; intro H; try discriminate; try exact I. apply Rltb_true in H. lra. Qed.

Lemma ext_refl : forall x, ext_le x x.
Proof. intros [| x |]; cbn; try exact I. lra. Qed.

Lemma lower_at : forall b i, bound_at NInf b i = lower b i.
Proof. intros [| x | l] i; reflexivity. Qed.
Lemma upper_at : forall b i, bound_at PInf b i = upper b i.
Proof. intros [| x | l] i; reflexivity. Qed.

Lemma clip_length : forall mn mx l i, length (clip mn mx i l) = length l.
Proof. intros mn mx. induction l as [| x l IH]; intro i; [reflexivity |]. cbn [clip length]. rewrite IH. reflexivity. Qed.

Lemma clip_nth : forall mn mx l k i y, nth_error (clip mn mx k l) i = Some y -> exists x, nth_error l i = Some x /\
  ext_le y (upper mx (k + i)) /\ (ext_le (lower mn (k + i)) (upper mx (k + i)) -> ext_le (lower mn (k + i)) y) /\
  (ext_le (lower mn (k + i)) x -> ext_le x (upper mx (k + i)) -> y = x).
Proof.
  intros mn mx. induction l as [| x l IH]; intros k i y E; [destruct i; discriminate |]. cbn [clip] in E. destruct i as [| i]; cbn [nth_error] in *.
  - rewrite Nat.add_0_r. apply some_inj in E. exists x. split; [reflexivity |]. rewrite lower_at, upper_at in E.
    set (z := if ext_ltb x (lower mn k) then lower mn k else x) in *.
    assert (Z1 : ext_le (lower mn k) z) by (unfold z; destruct (ext_ltb x (lower mn k)) eqn:Q; [apply ext_refl | apply ext_ltb_lt; exact Q]).
    destruct (ext_ltb (upper mx k) z) eqn:Q; subst y.
    + split; [apply ext_refl |]. split; [auto |]. intros H1 H2. unfold z in Q. apply ext_ltb_lt in H1. rewrite H1 in Q. apply ext_ltb_lt in H2. congruence.
    + split; [apply ext_ltb_lt; exact Q |]. split; [auto |]. intros H1 H2. unfold z. apply ext_ltb_lt in H1. rewrite H1. reflexivity.
  - rewrite <- Nat.add_succ_comm. apply IH. exact E.
Qed.

(** Bounds that are kept *)
Definition small_low (x : ext) : Prop := match x with NInf => True | Fin a => (-1000000 < a)%R | PInf => False end.
Definition small_high (x : ext) : Prop := match x with PInf => True | Fin a => (a < 1000000)%R | NInf => False end.

Lemma action_lower : forall low b, box_min false None low = Ok b -> Forall small_low low ->
  forall i x, (i < length low)%nat -> ext_le (lower b i) (Fin x) -> ext_le (nth i low NInf) (Fin x).
Proof.
  intros low b H S i x L E. destruct low as [| y low]; [discriminate |]. unfold box_min in H. remember (y :: low) as all.
  assert (Sy : small_low y) by (subst all; apply Forall_inv in S; exact S).
  destruct (forallb (fun z => ext_eqb z y) all) eqn:U.
  - rewrite forallb_forall in U. assert (Q : In (nth i all NInf) all) by (apply nth_In; exact L). apply U, ext_eqb_eq in Q. rewrite Q.
    destruct (above y) eqn:A; injection H as <-; cbn [lower] in E; [exact E |].
    destruct y as [| a |]; cbn in A, Sy |- *; try exact I; try contradiction.
    apply Rltb_true in Sy. congruence.
  - destruct (forallb above all); [| discriminate]. injection H as <-. exact E.
Qed.

Lemma action_upper : forall high b, box_max false None high = Ok b -> Forall small_high high ->
  forall i x, (i < length high)%nat -> ext_le (Fin x) (upper b i) -> ext_le (Fin x) (nth i high PInf).
Proof.
  intros high b H S i x L E. destruct high as [| y high]; [discriminate |]. unfold box_max in H. remember (y :: high) as all.
  assert (Sy : small_high y) by (subst all; apply Forall_inv in S; exact S).
  destruct (forallb (fun z => ext_eqb z y) all) eqn:U.
  - rewrite forallb_forall in U. assert (Q : In (nth i all PInf) all) by (apply nth_In; exact L). apply U, ext_eqb_eq in Q. rewrite Q.
    destruct (below y) eqn:A; injection H as <-; cbn [upper] in E; [exact E |].
    destruct y as [| a |]; cbn in A, Sy |- *; try exact I; try contradiction.
    apply Rltb_true in Sy. congruence.
  - destruct (forallb below all); [| discriminate]. injection H as <-. exact E.
Qed.

(** * Dropping *)

Lemma keep_skip : forall A ix (l : list A) i, (forall j, (i <= j < i + length l)%nat -> ~ In (Z.of_nat j) ix) -> keep ix i l = l.
Proof.
  intros A ix. induction l as [| x l IH]; intros i H; [reflexivity |]. cbn [keep].
  replace (existsb (Z.eqb (Z.of_nat i)) ix) with false.
  - rewrite IH; [reflexivity |]. intros j Hj. apply H. cbn [length]. lia.
  - symmetry. apply not_true_is_false. intro E. apply existsb_exists in E. destruct E as (z & I & E). apply Z.eqb_eq in E. subst z.
    apply (H i); [cbn [length]; lia | exact I].
Qed.

Lemma keep_app : forall A ix (a b : list A) i, keep ix i (a ++ b) = (keep ix i a ++ keep ix (i + length a) b)%list.
Proof.
  intros A ix. induction a as [| x a IH]; intros b i; [cbn; rewrite Nat.add_0_r; reflexivity |]. cbn [List.app keep length]. rewrite IH.
  rewrite <- Nat.add_succ_comm. destruct (existsb _ ix); reflexivity.
Qed.

Lemma keep_ext : forall A ix ix' (l : list A) i, (forall j, (i <= j < i + length l)%nat -> (In (Z.of_nat j) ix <-> In (Z.of_nat j) ix')) -> keep ix i l = keep ix' i l.
Proof.
  intros A ix ix'. induction l as [| x l IH]; intros i H; [reflexivity |]. cbn [keep]. rewrite (IH (S i)) by (intros j Hj; apply H; cbn [length]; lia).
  replace (existsb (Z.eqb (Z.of_nat i)) ix) with (existsb (Z.eqb (Z.of_nat i)) ix'); [reflexivity |].
  apply eq_true_iff_eq. rewrite !existsb_exists. split; intros (z & I & E); apply Z.eqb_eq in E; subst z; exists (Z.of_nat i); rewrite Z.eqb_refl;
    (split; [apply H; [cbn [length]; lia | exact I] | reflexivity]).
Qed.

Lemma keep_out : forall A ix (l : list A) i z, ~ (Z.of_nat i <= z < Z.of_nat (i + length l))%Z -> keep (z :: ix) i l = keep ix i l.
Proof. intros A ix l i z H. apply keep_ext. intros j Hj. cbn [In]. split; [intros [E | E]; [lia | exact E] | auto]. Qed.

Inductive ascending : list Z -> Prop :=
| asc_nil : ascending []
| asc_cons : forall z l, Forall (Z.lt z) l -> ascending l -> ascending (z :: l).

Lemma drop_ascending : forall A ix (l : list A), ascending ix -> Forall (fun z => (0 <= z < Z.of_nat (length l))%Z) ix -> drop ix l = keep ix 0 l.
Proof.
  intros A. induction ix as [| z ix IH]; intros l H B.
  - cbn. symmetry. apply keep_skip. auto.
  - inversion H as [| z' l' Hz Hi]; subst. apply Forall_cons_iff in B. destruct B as [B1 B2].
    unfold drop in *. cbn [List.rev]. rewrite fold_left_app. rewrite (IH l Hi B2). cbn [fold_left].
    assert (S : exists a x b, l = (a ++ x :: b)%list /\ length a = Z.to_nat z).
    { destruct (nth_error l (Z.to_nat z)) as [x |] eqn:E; [| apply nth_error_None in E; lia].
      apply nth_error_split in E. destruct E as (a & b & -> & L). exists a, x, b. auto. }
    destruct S as (a & x & b & -> & L). rewrite !keep_app. cbn [keep]. rewrite Nat.add_0_l.
    assert (N : forall j, (j <= length a)%nat -> ~ In (Z.of_nat j) ix).
    { intros j Hj I. rewrite Forall_forall in Hz. apply Hz in I. lia. }
    rewrite (keep_skip _ ix a 0) by (intros j Hj; apply N; lia).
    assert (E1 : existsb (Z.eqb (Z.of_nat (length a))) ix = false).
    { apply not_true_is_false. intro E. apply existsb_exists in E. destruct E as (w & I & E). apply Z.eqb_eq in E. subst w. apply (N (length a)); [lia | exact I]. }
    rewrite E1. rewrite (keep_skip _ (z :: ix) a 0).
    2:{ intros j Hj [E | I]; [lia | apply (N j); [lia | exact I]]. }
    cbn [existsb]. replace (Z.eqb (Z.of_nat (length a)) z) with true by (symmetry; apply Z.eqb_eq; lia). cbn [orb].
    rewrite (keep_out _ ix b (S (length a)) z) by lia.
    unfold drop_one, slice_pos. replace (Z.ltb z 0) with false by (symmetry; apply Z.ltb_ge; lia). replace (Z.ltb (z + 1) 0) with false by (symmetry; apply Z.ltb_ge; lia).
    replace (Nat.min (length (a ++ x :: keep ix (S (length a)) b)) (Z.to_nat z)) with (length a) by (rewrite app_length; cbn [length]; lia).
    replace (Nat.min (length (a ++ x :: keep ix (S (length a)) b)) (Z.to_nat (z + 1))) with (length a + 1)%nat by (rewrite app_length; cbn [length]; lia).
    rewrite firstn_app, firstn_all, Nat.sub_diag. cbn [firstn]. rewrite app_nil_r.
    rewrite skipn_app. rewrite skipn_all2 by lia. replace (length a + 1 - length a)%nat with 1%nat by lia. reflexivity.
Qed.

Lemma insert_perm : forall x l, Permutation (insert x l) (x :: l).
Proof.
  intros x. induction l as [| y l IH]; [apply Permutation_refl |]. cbn [insert]. destruct (Z.leb x y); [apply Permutation_refl |].
  transitivity (y :: x :: l); [constructor; exact IH | constructor].
Qed.
Lemma sorted_perm : forall l, Permutation (sorted l) l.
Proof.
  induction l as [| x l IH]; [apply Permutation_refl |]. cbn [sorted fold_right]. fold (sorted l).
  transitivity (x :: sorted l); [apply insert_perm | constructor; exact IH].
Qed.
Lemma insert_asc : forall x l, ascending l -> ~ In x l -> ascending (insert x l).
Proof.
  intros x l H. induction H as [| y l Hy Hl IH]; intro N; [repeat constructor |]. cbn [insert]. destruct (Z.leb_spec x y) as [L | L].
  - assert (x <> y) by (intro E; apply N; left; auto). constructor; [| constructor; assumption].
    constructor; [lia |]. eapply Forall_impl; [| exact Hy]. cbn. intros; lia.
  - constructor; [| apply IH; intro I; apply N; right; exact I].
    rewrite Forall_forall in *. intros z I. apply (Permutation_in _ (insert_perm x l)) in I. destruct I as [<- | I]; [exact L | auto].
Qed.
Lemma sorted_asc : forall l, NoDup l -> ascending (sorted l).
Proof.
  intros l H. induction H as [| x l Hx H IH]; [constructor |]. cbn [sorted fold_right]. fold (sorted l).
  apply insert_asc; [exact IH |]. intro I. apply Hx. apply (Permutation_in _ (sorted_perm l)). exact I.
Qed.

Lemma keep_length : forall A ix (l : list A), NoDup ix -> Forall (fun z => (0 <= z < Z.of_nat (length l))%Z) ix ->
  (length (keep ix 0 l) + length ix = length l)%nat.
Proof.
  intros A ix l H. revert l. induction H as [| z ix Hz H IH]; intros l B.
  - rewrite keep_skip by auto. cbn. lia.
  - apply Forall_cons_iff in B. destruct B as [B1 B2].
    assert (S : exists a x b, l = (a ++ x :: b)%list /\ length a = Z.to_nat z).
    { destruct (nth_error l (Z.to_nat z)) as [x |] eqn:E; [| apply nth_error_None in E; lia].
      apply nth_error_split in E. destruct E as (a & b & -> & L). exists a, x, b. auto. }
    specialize (IH l B2). destruct S as (a & x & b & -> & L). rewrite keep_app in *. cbn [keep] in *. rewrite Nat.add_0_l in *.
    rewrite (keep_out _ ix a 0 z) by lia. rewrite (keep_out _ ix b (S (length a)) z) by lia.
    cbn [existsb]. replace (Z.eqb (Z.of_nat (length a)) z) with true by (symmetry; apply Z.eqb_eq; lia). cbn [orb].
    assert (E1 : existsb (Z.eqb (Z.of_nat (length a))) ix = false).
    { apply not_true_is_false. intro E. apply existsb_exists in E. destruct E as (w & I & E). apply Z.eqb_eq in E. subst w. apply Hz. replace z with (Z.of_nat (length a)) by lia. exact I. }
    rewrite E1 in IH. rewrite app_length in *. cbn [length] in *. rewrite app_length in *. cbn [length] in *. lia.
Qed.

Lemma drop_sorted : forall A ix (l : list A), NoDup ix -> Forall (fun z => (0 <= z < Z.of_nat (length l))%Z) ix ->
  drop (sorted ix) l = keep ix 0 l.
Proof.
  intros A ix l N B. rewrite drop_ascending.
  - apply keep_ext. intros j _. split; apply Permutation_in; [apply sorted_perm | symmetry; apply sorted_perm].
  - apply sorted_asc. exact N.
  - rewrite Forall_forall in *. intros z I. apply B. apply (Permutation_in _ (sorted_perm ix)). exact I.
Qed.

(** * Ends of episodes *)

Lemma codes_before : forall limit tr rewards t rest, match limit with Some n => (t + length rewards < n)%nat | None => True end ->
  codes limit tr t (map (fun r => (r, false)) rewards ++ rest) =
  match codes limit tr (t + length rewards) rest with Ok l => Ok (map (fun r => (0%nat, r)) rewards ++ l)%list | Err e => Err e end.
Proof.
  intros limit tr. induction rewards as [| r rewards IH]; intros t rest H.
  - cbn [map List.app length]. rewrite Nat.add_0_r. destruct (codes limit tr t rest); reflexivity.
  - cbn [map List.app codes length] in *. unfold finish_step.
    assert (Q : match limit with Some n => Nat.eqb (S t) n | None => false end = false) by (destruct limit; [apply Nat.eqb_neq; lia | reflexivity]).
    rewrite Q. rewrite IH by (destruct limit; lia). rewrite <- Nat.add_succ_comm.
    destruct (codes limit tr (S t + length rewards) rest); reflexivity.
Qed.

(** * Levels *)

Lemma fresh_all : forall reg level fuel v, dget reg (fresh reg level v fuel) <> None ->
  forall i, (i <= fuel)%nat -> dget reg (level ++ str (v + i)) <> None.
Proof.
  intros reg level. induction fuel as [| fuel IH]; intros v H i Hi; cbn [fresh] in H.
  - replace (v + i)%nat with v by lia. exact H.
  - destruct (dget reg (level ++ str v)) as [e |] eqn:E; [| congruence].
    destruct i as [| i]; [rewrite Nat.add_0_r; congruence |]. rewrite <- Nat.add_succ_comm. apply IH; [exact H | lia].
Qed.

Lemma dget_name : forall A (d : list (string * A)) k, dget d k <> None -> In k (map fst d).
Proof.
  intros A d k H. destruct (in_dec String.string_dec k (map fst d)) as [I | N]; [exact I |]. rewrite dget_fresh in H by exact N. congruence.
Qed.

Lemma fresh_new : forall reg level v fuel, (length reg < S fuel)%nat -> dget reg (fresh reg level v fuel) = None.
Proof.
  intros reg level v fuel L. destruct (dget reg (fresh reg level v fuel)) as [e |] eqn:E; [| reflexivity]. exfalso.
  assert (N : NoDup (map (fun i => level ++ str (v + i)) (seq 0 (S fuel)))).
  { apply FinFun.Injective_map_NoDup; [| apply seq_NoDup]. intros i j Q. apply app_inj_s, str_inj in Q. lia. }
  assert (I : incl (map (fun i => level ++ str (v + i)) (seq 0 (S fuel))) (map fst reg)).
  { intros k I. apply in_map_iff in I. destruct I as (i & <- & I). apply in_seq in I. apply dget_name.
    apply (fresh_all reg level fuel v); [congruence | lia]. }
  pose proof (NoDup_incl_length N I) as Q. rewrite !map_length, seq_length in Q. lia.
Qed.

Lemma new_name_new : forall reg level, dget reg (new_name reg level) = None.
Proof.
  intros reg level. unfold new_name. destruct (vsplit level) as [[a b] |]; [destruct (int_of b) |]; apply fresh_new; lia.
Qed.

Lemma dget_app : forall A (d e : list (string * A)) k, dget (d ++ e)%list k = match dget d k with Some v => Some v | None => dget e k end.
Proof. induction d as [| (k', v) d IH]; intros e k; [reflexivity |]. cbn [List.app dget]. rewrite IH. destruct (String.eqb k k'); reflexivity. Qed.

Lemma vsplit_app : forall s a b, vsplit s = Some (a, b) -> s = a ++ "-v" ++ b.
Proof.
  induction s as [| c s IH]; intros a b E; [discriminate |]. cbn [vsplit] in E. destruct (vsplit s) as [[a' b'] |] eqn:Ev.
  - injection E as <- <-. cbn [String.append]. rewrite (IH a' b' eq_refl). reflexivity.
  - destruct (String.prefix "-v" (String c s)) eqn:P; [| discriminate]. apply prefix_spec in P. destruct P as [r P].
    rewrite P in E. injection E as <- E. cbn in E. rewrite <- E. rewrite P. cbn. f_equal. f_equal. clear. 
    rewrite Nat.sub_0_r. induction r as [| c r IH]; [reflexivity |]. cbn. rewrite <- IH. reflexivity.
Qed.

Lemma substring_all : forall r, substring 0 (String.length r) r = r.
Proof. induction r as [| c r IH]; [reflexivity |]. cbn. rewrite IH. reflexivity. Qed.

Lemma vsplit_none : forall s, vsplit s = None -> forall x y, s <> x ++ "-v" ++ y.
Proof.
  induction s as [| c s IH]; intros E x y Q; [destruct x; discriminate |]. cbn [vsplit] in E. destruct (vsplit s) as [[a b] |]; [discriminate |].
  destruct x as [| c' x].
  - rewrite Q in E. change ("" ++ "-v" ++ y) with ("-v" ++ y) in E. rewrite prefix_app in E. discriminate.
  - cbn [String.append] in Q. injection Q as _ Q. exact (IH eq_refl x y Q).
Qed.

Lemma vsplit_rest : forall s a b, vsplit s = Some (a, b) -> vsplit b = None.
Proof.
  induction s as [| c s IH]; intros a b E; [discriminate |]. pose proof (vsplit_app _ _ _ E) as Q. cbn [vsplit] in E. destruct (vsplit s) as [[a' b'] |] eqn:Ev.
  - injection E as <- <-. eapply IH. reflexivity.
  - destruct (String.prefix "-v" (String c s)) eqn:P; [| discriminate]. injection E as <- _. cbn in Q. injection Q as _ Q. subst s.
    cbn [vsplit] in Ev. destruct (vsplit b) as [[a2 b2] |]; [discriminate | reflexivity].
Qed.

Lemma vsplit_version : forall level b, vsplit b = None -> vsplit (level ++ "-v" ++ b) = Some (level, b).
Proof.
  induction level as [| c level IH]; intros b N.
  - cbn. rewrite N. cbn. rewrite Nat.sub_0_r, substring_all. destruct b as [| c b]; reflexivity.
  - specialize (IH b N). cbn [String.append vsplit] in *. rewrite IH. reflexivity.
Qed.

Lemma version_iff : forall level name, version_of level name <-> exists v, vsplit name = Some (level, v).
Proof.
  intros level name. split.
  - intros (v & -> & N). exists v. apply vsplit_version. destruct (vsplit v) as [[a b] |] eqn:E; [| reflexivity].
    exfalso. apply N. exists a, b. apply vsplit_app. exact E.
  - intros (v & E). exists v. split; [apply vsplit_app; exact E |]. intros (a & b & Q). apply (vsplit_none v (vsplit_rest _ _ _ E) a b Q).
Qed.

(** What the search finds *)
Lemma search_found : forall reg level m names found name, search reg level m names found = Ok name ->
  found = Some name \/ (In name names /\ version_of level name).
Proof.
  intros reg level m. induction names as [| nm names IH]; intros found name E; cbn [search] in E.
  - destruct found; [left; congruence | discriminate].
  - destruct (vsplit nm) as [[base v] |] eqn:Ev; [| discriminate]. destruct (String.eqb_spec level base) as [<- | N].
    + assert (Vn : version_of level nm) by (apply version_iff; eauto).
      destruct (dget reg nm) as [e |]; [| discriminate]. destruct (_ || _).
      * destruct found as [f |].
        -- destruct (IH _ _ E) as [H | [H1 H2]]; [left; exact H | right; split; [right; exact H1 | exact H2]].
        -- destruct (IH _ _ E) as [H | [H1 H2]]; [injection H as <-; right; split; [left; reflexivity | exact Vn] | right; split; [right; exact H1 | exact H2]].
      * injection E as <-. right. split; [left; reflexivity | exact Vn].
    + destruct (IH _ _ E) as [H | [H1 H2]]; [left; exact H | right; split; [right; exact H1 | exact H2]].
Qed.

Lemma search_limit : forall reg level n names found,
  Forall (fun nm => vsplit nm <> None /\ dget reg nm <> None) names ->
  (exists nm e, In nm names /\ version_of level nm /\ dget reg nm = Some e /\ en_steps e = Some n) ->
  exists name e, search reg level (Limit n) names found = Ok name /\ version_of level name /\ dget reg name = Some e /\ en_steps e = Some n.
Proof.
  intros reg level n. induction names as [| nm names IH]; intros found W (nm' & e' & I & Vn & D & Q); [destruct I |].
  apply Forall_cons_iff in W. destruct W as [[W1 W2] W]. cbn [search]. destruct (vsplit nm) as [[base v] |] eqn:Ev; [| congruence].
  destruct (String.eqb_spec level base) as [<- | N].
  - destruct (dget reg nm) as [e |] eqn:De; [| congruence]. cbn [orb]. unfold differs.
    destruct (en_steps e) as [k |] eqn:Es.
    + destruct (Nat.eqb_spec n k) as [<- | Nk]; cbn [negb].
      * exists nm, e. split; [reflexivity |]. split; [apply version_iff; eauto | auto].
      * apply IH; [exact W |]. exists nm', e'. destruct I as [<- | I]; [congruence | auto].
    + apply IH; [exact W |]. exists nm', e'. destruct I as [<- | I]; [congruence | auto].
  - apply IH; [exact W |]. exists nm', e'. destruct I as [<- | I]; [| auto]. exfalso. apply N. apply version_iff in Vn. destruct Vn as [v' Vn]. congruence.
Qed.

Lemma search_unlimited : forall reg level names f,
  Forall (fun nm => vsplit nm <> None /\ exists e, dget reg nm = Some e /\ en_steps e <> Some 0%nat) names ->
  search reg level Unlimited names (Some f) = Ok f.
Proof.
  intros reg level. induction names as [| nm names IH]; intros f W; [reflexivity |]. apply Forall_cons_iff in W. destruct W as [(W1 & e & W2 & W3) W].
  cbn [search]. destruct (vsplit nm) as [[base v] |]; [| congruence]. destruct (String.eqb level base); [| apply IH; exact W].
  rewrite W2. destruct (en_steps e); apply IH; exact W.
Qed.

Lemma search_first : forall reg level names, 
  Forall (fun nm => vsplit nm <> None /\ exists e, dget reg nm = Some e /\ en_steps e <> Some 0%nat) names ->
  forall nm rest before, names = (before ++ nm :: rest)%list -> version_of level nm -> Forall (fun x => ~ version_of level x) before ->
  search reg level Unlimited names None = Ok nm.
Proof.
  intros reg level names W nm rest before. revert names W. induction before as [| b before IH]; intros names W -> Vn B.
  - cbn [List.app search] in *. apply Forall_cons_iff in W. destruct W as [(W1 & e & W2 & W3) W]. apply version_iff in Vn. destruct Vn as [v ->].
    rewrite String.eqb_refl, W2. destruct (en_steps e); apply search_unlimited; exact W.
  - cbn [List.app search] in *. apply Forall_cons_iff in W. destruct W as [(W1 & e & W2 & W3) W]. apply Forall_cons_iff in B. destruct B as [B1 B2].
    destruct (vsplit b) as [[base v] |] eqn:Eb; [| congruence]. destruct (String.eqb_spec level base) as [<- | N].
    + exfalso. apply B1. apply version_iff. eauto.
    + apply IH; auto.
Qed.

(** Versions *)
Lemma vsplit_str : forall n, vsplit (str n) = None.
Proof.
  intro n. unfold str. generalize (Nat.to_uint n). induction u; cbn [DecimalString.NilEmpty.string_of_uint vsplit]; try rewrite IHu; reflexivity.
Qed.
Lemma fresh_from : forall reg level fuel v, exists w, (v <= w)%nat /\ fresh reg level v fuel = level ++ str w.
Proof.
  intros reg level. induction fuel as [| fuel IH]; intro v; cbn [fresh]; [exists v; auto |].
  destruct (dget reg (level ++ str v)); [| exists v; auto]. destruct (IH (S v)) as (w & L & E). exists w. split; [lia | exact E].
Qed.
Lemma new_name_version : forall reg base v, exists w, (v < w)%nat /\ new_name reg (base ++ "-v" ++ str v) = base ++ "-v" ++ str w.
Proof.
  intros reg base v. unfold new_name. rewrite (vsplit_version base (str v) (vsplit_str v)), int_of_str.
  destruct (fresh_from reg (base ++ "-v") (S (length reg)) (S v)) as (w & L & E). exists w. split; [lia |]. rewrite E.
  clear. induction base as [| c base IH]; [reflexivity |]. cbn. f_equal. exact IH.
Qed.
