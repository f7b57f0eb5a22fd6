(** Lemmas about the model of the agents' arguments. *)

From Coq Require Import String List ZArith Bool Lia Permutation.
From Verif Require Import Base AgtModel.
Import ListNotations.
Open Scope string_scope.
Open Scope list_scope.

(** ** Dictionaries *)
Lemma get_put n k v d : get n (put k v d) = if String.eqb n k then Some v else get n d.
Proof.
  induction d as [|[k' v'] d IH]; cbn.
  - now destruct (String.eqb n k).
  - destruct (String.eqb_spec k k') as [<-|N]; cbn.
    + destruct (String.eqb_spec n k); reflexivity.
    + rewrite IH. destruct (String.eqb_spec n k) as [->|]; [|reflexivity].
      destruct (String.eqb_spec k k'); [contradiction|reflexivity].
Qed.
Lemma get_remove n k d : get n (remove k d) = if String.eqb n k then None else get n d.
Proof.
  unfold remove. induction d as [|[k' v'] d IH]; cbn.
  - now destruct (String.eqb n k).
  - destruct (String.eqb_spec k k') as [<-|N]; cbn; rewrite IH.
    + destruct (String.eqb_spec n k); reflexivity.
    + destruct (String.eqb_spec n k) as [->|].
      * destruct (String.eqb_spec k k'); [contradiction|reflexivity].
      * reflexivity.
Qed.
Lemma get_not_in n d : ~ In n (map fst d) -> get n d = None.
Proof.
  induction d as [|[k v] d IH]; cbn; [reflexivity|]. intros H. destruct (String.eqb_spec n k) as [->|]; [tauto|]. apply IH. tauto.
Qed.
Lemma get_in n d v : get n d = Some v -> In (n, v) d.
Proof.
  induction d as [|[k w] d IH]; cbn; [discriminate|]. destruct (String.eqb_spec n k) as [->|]; [intros [= ->]; now left|]. intros H. right. now apply IH.
Qed.
Lemma get_some n d : In n (map fst d) -> exists v, get n d = Some v.
Proof.
  induction d as [|[k w] d IH]; cbn; [tauto|]. intros [<-|H].
  - rewrite String.eqb_refl. eauto.
  - destruct (String.eqb n k); [eauto|]. now apply IH.
Qed.
Lemma in_get n v d : NoDup (map fst d) -> In (n, v) d -> get n d = Some v.
Proof.
  induction d as [|[k w] d IH]; cbn; [tauto|]. intros N [E|H]; inversion N as [|? ? N1 N2]; subst.
  - injection E as -> ->. now rewrite String.eqb_refl.
  - destruct (String.eqb_spec n k) as [->|]; [|now apply IH]. destruct N1. apply in_map_iff. exists (k, v). auto.
Qed.
Lemma get_perm d d' n : NoDup (map fst d) -> Permutation d d' -> get n d = get n d'.
Proof.
  intros N P. assert (N' : NoDup (map fst d')) by (eapply Permutation_NoDup; [apply Permutation_map; exact P|exact N]).
  destruct (get n d) as [v|] eqn:E.
  - symmetry. apply in_get; [exact N'|]. eapply Permutation_in; [exact P|]. now apply get_in.
  - destruct (get n d') as [v|] eqn:E'; [|reflexivity]. apply get_in in E'. apply Permutation_sym in P.
    apply (Permutation_in _ P) in E'. apply in_get in E'; [|exact N]. congruence.
Qed.
Lemma get_update n d kw : NoDup (map fst kw) ->
  get n (update_ d kw) = match get n kw with Some v => Some v | None => get n d end.
Proof.
  unfold update_. revert d. induction kw as [|[k v] kw IH]; intros d N; [reflexivity|].
  cbn in N. inversion N as [|? ? N1 N2]; subst. cbn [fold_left fst snd]. rewrite IH by exact N2. rewrite get_put. cbn [get].
  destruct (String.eqb_spec n k) as [->|]; [|reflexivity]. now rewrite get_not_in by exact N1.
Qed.
Lemma has_get n d d' : get n d = get n d' -> has n d = has n d'.
Proof. unfold has. now intros ->. Qed.
Lemma has_in n d : has n d = true <-> In n (map fst d).
Proof.
  unfold has. split.
  - destruct (get n d) as [v|] eqn:E; [|discriminate]. intros _. apply get_in in E. apply in_map_iff. exists (n, v). auto.
  - intros H. apply get_some in H. destruct H as [v ->]. reflexivity.
Qed.

(** two dictionaries with the same entries *)
Definition same (d d' : dict) : Prop := forall n, get n d = get n d'.

Lemma same_empty d : same d [] -> d = [].
Proof. destruct d as [|[k v] d]; [reflexivity|]. intros H. specialize (H k). cbn in H. rewrite String.eqb_refl in H. discriminate H. Qed.
Lemma same_nil_match {A} d d' (x y : A) : same d d' ->
  match d with [] => x | _ => y end = match d' with [] => x | _ => y end.
Proof.
  intros S. destruct d as [|e d].
  - assert (d' = []) as -> by (apply same_empty; intros n; symmetry; apply S). reflexivity.
  - destruct d' as [|e' d']; [|reflexivity]. apply same_empty in S. discriminate S.
Qed.

(** ** Binding *)
Lemma bind_same s kw kw' : (forall n, In n (map fst s) -> get n kw = get n kw') -> bind_args s kw = bind_args s kw'.
Proof.
  induction s as [|[n d] s IH]; intros H; [reflexivity|]. cbn. rewrite (H n) by (now left). rewrite IH; [reflexivity|].
  intros m Hm. apply H. now right.
Qed.
Lemma bind_names s kw a : bind_args s kw = Ok a -> map fst a = map fst s.
Proof.
  revert a. induction s as [|[n d] s IH]; intros a; cbn.
  - intros [= <-]. reflexivity.
  - destruct (get n kw) as [v|].
    + cbn. destruct (bind_args s kw) as [r|]; [|discriminate]. cbn. intros [= <-]. cbn. f_equal. now apply IH.
    + destruct d as [v|]; [|discriminate]. cbn. destruct (bind_args s kw) as [r|]; [|discriminate]. cbn. intros [= <-]. cbn. f_equal. now apply IH.
Qed.
(** the value a parameter gets *)
Definition chosen (s : signature) (kw : dict) (n : string) (v : value) : Prop :=
  exists d, In (n, d) s /\ match get n kw with Some w => v = w | None => d = Some v end.
Lemma bind_chosen s kw a : bind_args s kw = Ok a -> forall n v, In (n, v) a -> chosen s kw n v.
Proof.
  revert a. induction s as [|[n d] s IH]; intros a; cbn.
  - intros [= <-] m v [].
  - destruct (get n kw) as [w|] eqn:G.
    + cbn. destruct (bind_args s kw) as [r|]; [|discriminate]. cbn. intros [= <-] m v [E|E].
      * injection E as <- <-. exists d. split; [now left|]. now rewrite G.
      * destruct (IH r eq_refl m v E) as (d' & I & C). exists d'. split; [now right|exact C].
    + destruct d as [w|]; [|discriminate]. cbn. destruct (bind_args s kw) as [r|]; [|discriminate]. cbn. intros [= <-] m v [E|E].
      * injection E as <- <-. exists (Some w). split; [now left|]. now rewrite G.
      * destruct (IH r eq_refl m v E) as (d' & I & C). exists d'. split; [now right|exact C].
Qed.
(** binding again what has been bound gives the same *)
Lemma bind_again s kw a kw' : bind_args s kw = Ok a -> NoDup (map fst s) ->
  (forall n d, In (n, d) s -> get n kw' = get n a \/ (get n kw' = None /\ d = get n a /\ d <> None)) ->
  bind_args s kw' = Ok a.
Proof.
  revert a. induction s as [|[n d] s IH]; intros a; cbn [bind_args]; [trivial|]. intros B N H. cbn [map fst] in N. inversion N as [|? ? N1 N2]; subst.
  assert (X : exists v r, a = (n, v) :: r /\ bind_args s kw = Ok r).
  { destruct (get n kw) as [w|]; [|destruct d as [w|]; [|discriminate B]]; cbn [bind] in B; destruct (bind_args s kw) as [r|]; try discriminate B;
      cbn [bind] in B; injection B as <-; eauto. }
  destruct X as (v & r & -> & Br). clear B.
  rewrite (IH r Br N2).
  - destruct (H n d (or_introl eq_refl)) as [E|(E & E' & E'')]; rewrite E; cbn [get]; rewrite ?String.eqb_refl.
    + reflexivity.
    + cbn [get] in E'. rewrite String.eqb_refl in E'. subst d. reflexivity.
  - intros m d' I. assert (M : m <> n).
    { intros ->. destruct N1. apply in_map_iff. exists (n, d'). auto. }
    specialize (H m d' (or_intror I)). cbn [get] in H. destruct (String.eqb_spec m n); [contradiction|]. exact H.
Qed.

Lemma has_sig n s : has n (map (fun p : string * option value => (fst p, None_)) s) = existsb (String.eqb n) (map fst s).
Proof. unfold has. induction s as [|[k d] s IH]; cbn; [reflexivity|]. now destruct (String.eqb n k). Qed.
Lemma get_rest s kw n : get n (rest s kw) = if existsb (String.eqb n) (map fst s) then None else get n kw.
Proof.
  unfold rest. induction kw as [|[k v] kw IH]; cbn.
  - now destruct (existsb _ _).
  - rewrite has_sig. destruct (existsb (String.eqb k) (map fst s)) eqn:E; cbn [negb].
    + rewrite IH. destruct (String.eqb_spec n k) as [->|]; [now rewrite E|reflexivity].
    + cbn. rewrite IH. destruct (String.eqb_spec n k) as [->|]; [now rewrite E|reflexivity].
Qed.
Lemma rest_same s kw kw' : same kw kw' -> same (rest s kw) (rest s kw').
Proof. intros H n. now rewrite !get_rest, H. Qed.
Lemma existsb_keys (f : string -> bool) d d' : same d d' -> existsb (fun e => f (fst e)) d = existsb (fun e : string * value => f (fst e)) d'.
Proof.
  intros S. apply eq_true_iff_eq. rewrite !existsb_exists.
  assert (G : forall a b, same a b -> (exists x : string * value, In x a /\ f (fst x) = true) -> exists x : string * value, In x b /\ f (fst x) = true).
  { intros a b Sab ([n v] & I & F). cbn in F. destruct (get_some n a) as [w E]; [apply in_map_iff; exists (n, v); auto|].
    rewrite Sab in E. apply get_in in E. exists (n, w). auto. }
  split; apply G; [exact S|]. intros n. symmetry. apply S.
Qed.
Lemma same_app a d d' : same d d' -> same (a ++ d) (a ++ d').
Proof. intros S n. induction a as [|[k v] a IH]; cbn; [apply S|]. now rewrite IH. Qed.

Lemma base_body_same spec a kw kw' : same kw kw' -> base_body spec a kw = base_body spec a kw'.
Proof.
  intros S. unfold base_body.
  assert (F : filter (fun n => has n kw) base_deprecated = filter (fun n => has n kw') base_deprecated).
  { apply filter_ext. intros n. apply has_get, S. }
  rewrite F. destruct (filter (fun n => has n kw') base_deprecated) as [|n l]; [|reflexivity].
  destruct kw as [|e d].
  - assert (kw' = []) as -> by (apply same_empty; intros n; symmetry; apply S). reflexivity.
  - destruct kw' as [|e' d']; [|reflexivity]. apply same_empty in S. discriminate S.
Qed.
Lemma base_init_same spec kw kw' : same kw kw' -> base_init spec kw = base_init spec kw'.
Proof.
  intros S. unfold base_init. rewrite (bind_same _ kw kw') by (intros; apply S).
  destruct (bind_args tensorforce_signature kw') as [a|]; [|reflexivity]. cbn [bind]. apply base_body_same, rest_same, S.
Qed.

(** What construct does, for the nine agents built on the base agent. *)
Definition built_on_base (c : class) : bool := match c with Constant | Random | Tensorforce => false | _ => true end.
Lemma construct_sub c kw : built_on_base c = true ->
  construct c kw =
  do a <- bind_args (class_signature c) kw;
  let kwargs := rest (class_signature c) kw in
  match filter (fun n => has n kwargs) (class_deprecated c) with
  | n :: _ => Err ("deprecated: " ++ n)
  | [] =>
      let spec := make_spec (class_name c) (class_spec c) a in
      do p <- class_body c a;
      let args := super_args a p in
      if existsb (fun e => has (fst e) args) kwargs then Err "TypeError: multiple values for keyword argument"
      else base_init (Some spec) (args ++ kwargs)
  end.
Proof. destruct c; intros B; try discriminate B; reflexivity. Qed.

Lemma construct_same c kw kw' : same kw kw' -> construct c kw = construct c kw'.
Proof.
  intros S. destruct (built_on_base c) eqn:B.
  - rewrite !construct_sub by exact B. rewrite (bind_same _ kw kw') by (intros; apply S).
    destruct (bind_args (class_signature c) kw') as [a|]; [|reflexivity]. cbn [bind]. cbv zeta.
    assert (R := rest_same (class_signature c) _ _ S).
    assert (F : filter (fun n => has n (rest (class_signature c) kw)) (class_deprecated c)
              = filter (fun n => has n (rest (class_signature c) kw')) (class_deprecated c)).
    { apply filter_ext. intros n. apply has_get, R. }
    rewrite F. clear F. destruct (filter (fun n => has n (rest (class_signature c) kw')) (class_deprecated c)); [|reflexivity]. destruct (class_body c a) as [p|]; [|reflexivity]. cbn [bind].
    rewrite (existsb_keys (fun n => has n (super_args a p)) _ _ R).
    destruct (existsb _ _); [reflexivity|]. apply base_init_same, same_app, R.
  - destruct c; try discriminate B; cbn [construct].
    1,2: rewrite (bind_same _ kw kw') by (intros; apply S); destruct (bind_args _ kw') as [a|]; [|reflexivity]; cbn [bind];
      rewrite (same_nil_match _ _ true false (rest_same _ _ _ S)); reflexivity.
    now apply base_init_same.
Qed.

Fixpoint nodupb (l : list string) : bool := match l with [] => true | x :: l' => negb (existsb (String.eqb x) l') && nodupb l' end.
Lemma nodupb_nodup l : nodupb l = true -> NoDup l.
Proof.
  induction l as [|x l IH]; cbn; [constructor|]. rewrite andb_true_iff, negb_true_iff. intros [E H]. constructor; [|now apply IH].
  intros I. assert (existsb (String.eqb x) l = true) by (apply existsb_exists; exists x; split; [exact I|apply String.eqb_refl]). congruence.
Qed.
Lemma signatures_nodup c : NoDup (map fst (class_signature c)).
Proof. apply nodupb_nodup. destruct c; vm_compute; reflexivity. Qed.
