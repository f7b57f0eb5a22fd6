From Coq Require Import String Ascii List Arith Bool ZArith QArith Lia.
From Verif Require Import Base ChkModel ChkSpec.
Import ListNotations.
Open Scope string_scope.
Open Scope list_scope.
Open Scope nat_scope.

Lemma isinf_iff b : isinf b = true <-> infinite b.
Proof.
  unfold isinf, infinite. rewrite existsb_exists. split.
  - intros ([q|n] & H & E); [discriminate|]. exists n. exact H.
  - intros (n & H). exists (Inf n). split; [exact H|reflexivity].
Qed.
Lemma isinf_not b : isinf b = false <-> ~ infinite b.
Proof. rewrite <- isinf_iff. destruct (isinf b); split; congruence. Qed.
Lemma mem_iff n l : existsb (String.eqb n) l = true <-> In n l.
Proof.
  rewrite existsb_exists. split.
  - intros (x & H & E). apply String.eqb_eq in E. subst. exact H.
  - intro H. exists n. split; [exact H|apply String.eqb_refl].
Qed.
Lemma mem_not n l : existsb (String.eqb n) l = false <-> ~ In n l.
Proof. rewrite <- mem_iff. destruct (existsb _ l); split; congruence. Qed.
Lemma items_shown v : items v = shown v.
Proof. destruct v; reflexivity. Qed.

(** the cases of a specification *)
Lemma cases s : faultless s \/ exists p, first_problem s p.
Proof.
  unfold faultless, first_problem, finite. destruct (string_dec (ty s) "float") as [T|T]; [|left; congruence].
  destruct (lo s) as [l|] eqn:L; [|right; exists NoMin; tauto].
  destruct (isinf l) eqn:I; [right; exists InfMin; split; [exact T|]; exists l; split; [reflexivity|apply isinf_iff, I]|].
  apply isinf_not in I. assert (F : exists x, Some l = Some x /\ ~ infinite x) by (exists l; split; [reflexivity|exact I]).
  destruct (hi s) as [h|] eqn:H; [|right; exists NoMax; tauto].
  destruct (isinf h) eqn:J; [right; exists InfMax; split; [exact T|]; split; [exact F|]; exists h; split; [reflexivity|apply isinf_iff, J]|].
  apply isinf_not in J. left. intros _. split; [exact F|]. exists h. split; [reflexivity|exact J].
Qed.
Lemma state_faultless n s : faultless s -> state_warning (n, s) = [].
Proof.
  intro F. unfold state_warning. destruct (String.eqb (ty s) "float") eqn:T; [|reflexivity]. cbn [negb].
  apply String.eqb_eq in T. destruct (F T) as [(l & L & NL) (h & H & NH)]. rewrite L, H.
  apply isinf_not in NL. apply isinf_not in NH. rewrite NL, NH. reflexivity.
Qed.
Lemma state_problem n s p : first_problem s p -> state_warning (n, s) = [state_text p n].
Proof.
  intros [T P]. unfold state_warning. rewrite T.
  change (negb (String.eqb "float" "float")) with false. cbv iota.
  destruct p.
  - rewrite P. reflexivity.
  - destruct P as (l & -> & I). apply isinf_iff in I. rewrite I. reflexivity.
  - destruct P as [(l & -> & I) ->]. apply isinf_not in I. rewrite I. reflexivity.
  - destruct P as [(l & -> & I) (h & -> & J)]. apply isinf_not in I. apply isinf_iff in J. rewrite I, J. reflexivity.
Qed.
Lemma action_faultless n s : faultless s -> action_check (n, s) = ([], Ok tt).
Proof.
  intro F. unfold action_check. destruct (String.eqb (ty s) "float") eqn:T; [|reflexivity]. cbn [negb].
  apply String.eqb_eq in T. destruct (F T) as [(l & L & NL) (h & H & NH)]. rewrite L, H.
  apply isinf_not in NL. apply isinf_not in NH. rewrite NL, NH. reflexivity.
Qed.
Lemma action_problem n s p : first_problem s p ->
  action_check (n, s) = match p with NoMin | NoMax => ([action_text p n], Ok tt) | _ => ([], Err (action_text p n)) end.
Proof.
  intros [T P]. unfold action_check. rewrite T. change (negb (String.eqb "float" "float")) with false. cbv iota.
  destruct p.
  - rewrite P. reflexivity.
  - destruct P as (l & -> & I). apply isinf_iff in I. rewrite I. reflexivity.
  - destruct P as [(l & -> & I) ->]. apply isinf_not in I. rewrite I. reflexivity.
  - destruct P as [(l & -> & I) (h & -> & J)]. apply isinf_not in I. apply isinf_iff in J. rewrite I, J. reflexivity.
Qed.
Lemma problem_one s p q : first_problem s p -> first_problem s q -> p = q.
Proof.
  intros P Q. pose proof (state_problem "" s p P) as A. pose proof (state_problem "" s q Q) as B. rewrite A in B.
  destruct p, q; try reflexivity; discriminate.
Qed.
Lemma faultless_not s p : faultless s -> ~ first_problem s p.
Proof. intros F P. pose proof (state_problem "" s p P) as A. rewrite (state_faultless "" s F) in A. discriminate. Qed.
Lemma states_remarks l : remarks state_text l (flat_map state_warning l).
Proof.
  induction l as [|[n s] l IH]; [constructor|]. cbn [flat_map]. destruct (cases s) as [F|[p P]].
  - rewrite (state_faultless n s F). constructor; assumption.
  - rewrite (state_problem n s p P). constructor; assumption.
Qed.
Lemma actions_ok l : (forall n s, In (n, s) l -> ~ rejected s) -> exists w, actions_check l = (w, Ok tt) /\ remarks action_text l w.
Proof.
  induction l as [|[n s] l IH]; intro H; [exists []; split; [reflexivity|constructor]|]. cbn [actions_check].
  destruct IH as (w & E & R); [intros n' s' I; apply (H n' s'); right; exact I|]. rewrite E.
  pose proof (H n s (or_introl eq_refl)) as N. destruct (cases s) as [F|[p P]].
  - rewrite (action_faultless n s F). exists w. split; [reflexivity|constructor; assumption].
  - rewrite (action_problem n s p P). destruct p; try (destruct N; unfold rejected; tauto); (eexists; split; [reflexivity|]; cbn; apply (remarks_add action_text n s l w _ P R)).
Qed.
Lemma actions_err l : (exists n s, In (n, s) l /\ rejected s) ->
  exists a n s b p w, l = a ++ (n, s) :: b /\ (forall n' s', In (n', s') a -> ~ rejected s') /\ (p = InfMin \/ p = InfMax) /\ first_problem s p /\
  remarks action_text a w /\ actions_check l = (w, Err (action_text p n)).
Proof.
  induction l as [|[n s] l IH]; intros (n0 & s0 & I & R); [destruct I|].
  assert (D : (exists p, (p = InfMin \/ p = InfMax) /\ first_problem s p) \/ ~ rejected s).
  { destruct (cases s) as [F|[p P]]; [right; intros [X|X]; exact (faultless_not _ _ F X)|].
    destruct p; try (left; eexists; split; [|exact P]; tauto); right; intros [X|X]; pose proof (problem_one _ _ _ P X); discriminate. }
  cbn [actions_check]. destruct D as [(p & Q & P)|N].
  - exists [], n, s, l, p, []. split; [reflexivity|]. split; [intros ? ? []|]. split; [exact Q|]. split; [exact P|]. split; [constructor|].
    rewrite (action_problem n s p P). destruct Q as [Q|Q]; subst p; reflexivity.
  - destruct IH as (a & n1 & s1 & b & p & w & E & A & Q & P & RM & C).
    { exists n0, s0. split; [|exact R]. destruct I as [I|I]; [injection I as <- <-; contradiction|exact I]. }
    rewrite C. destruct (cases s) as [F|[p' P']].
    + exists ((n, s) :: a), n1, s1, b, p, w. rewrite (action_faultless n s F). subst l.
      split; [reflexivity|]. split; [intros n' s' [X|X]; [injection X as <- <-; exact N|exact (A n' s' X)]|]. split; [exact Q|]. split; [exact P|].
      split; [constructor; assumption|reflexivity].
    + exists ((n, s) :: a), n1, s1, b, p, (action_text p' n :: w). rewrite (action_problem n s p' P'). subst l.
      split; [reflexivity|]. split; [intros n' s' [X|X]; [injection X as <- <-; exact N|exact (A n' s' X)]|]. split; [exact Q|]. split; [exact P|].
      split; [constructor; assumption|]. destruct p'; try reflexivity; destruct N; unfold rejected; tauto.
Qed.
Lemma rejected_dec l : (forall (n : string) (s : tspec), In (n, s) l -> ~ rejected s) \/ (exists (n : string) (s : tspec), In (n, s) l /\ rejected s).
Proof.
  induction l as [|[n s] l [IH|IH]].
  - left. intros ? ? [].
  - assert (D : rejected s \/ ~ rejected s).
    { destruct (cases s) as [F|[p P]]; [right; intros [X|X]; exact (faultless_not _ _ F X)|].
      destruct p; try (left; unfold rejected; tauto); right; intros [X|X]; pose proof (problem_one _ _ _ P X); discriminate. }
    destruct D as [D|D]; [right; exists n, s; split; [left; reflexivity|exact D]|].
    left. intros n' s' [X|X]; [injection X as <- <-; exact D|exact (IH n' s' X)].
  - right. destruct IH as (n' & s' & I & R). exists n', s'. split; [right; exact I|exact R].
Qed.

(** names *)
Lemma add_names_ok l taken : NoDup taken -> forall out, add_names l taken = Ok out <-> NoDup (rev l ++ taken) /\ out = rev l ++ taken.
Proof.
  revert taken. induction l as [|n l IH]; intros taken N out; cbn [add_names rev].
  - cbn [List.app]. split; [intro H; injection H as <-; tauto|intros [_ ->]; reflexivity].
  - destruct (existsb _ taken) eqn:E.
    + apply mem_iff in E. split; [discriminate|]. intros [X _]. rewrite <- app_assoc in X. apply NoDup_remove_2 in X. destruct X. apply in_or_app. right. exact E.
    + apply mem_not in E. rewrite IH; [|constructor; assumption]. rewrite <- app_assoc. reflexivity.
Qed.
Lemma add_names_err l taken : NoDup taken -> forall a n b, l = a ++ n :: b -> NoDup (rev a ++ taken) -> In n (a ++ taken) ->
  add_names l taken = Err ("value name " ++ n)%string.
Proof.
  revert taken. induction l as [|x l IH]; intros taken N a n b E ND I; [destruct a; discriminate|]. cbn [add_names].
  destruct a as [|y a]; injection E as Ex El; subst x.
  - apply mem_iff in I. cbn [List.app] in I. rewrite I. reflexivity.
  - cbn [rev] in ND. rewrite <- app_assoc in ND. assert (X : ~ In y taken). { apply NoDup_remove_2 in ND. intro X. apply ND, in_or_app. right. exact X. }
    apply mem_not in X. rewrite X. apply (IH (y :: taken)) with (a := a) (b := b).
    + constructor; [apply mem_not, X|exact N].
    + exact El.
    + exact ND.
    + apply in_app_or in I. apply in_or_app. destruct I as [[I|I]|I]; [right; left; exact I|left; exact I|right; right; exact I].
Qed.
Lemma add_values_eq single v taken : (match v with Single _ => ~ In single taken | _ => True end) ->
  add_values single v taken = add_names (own_names single v) taken.
Proof.
  destruct v as [s|l]; cbn [own_names add_values add_names]; [|reflexivity]. intro N. apply mem_not in N. rewrite N. reflexivity.
Qed.
Lemma add_values_ok single v taken : NoDup taken -> forall out, add_values single v taken = Ok out <-> NoDup (rev (own_names single v) ++ taken) /\ out = rev (own_names single v) ++ taken.
Proof.
  intros N out. destruct v as [s|l]; cbn [own_names]; [|apply add_names_ok, N]. cbn [add_values rev List.app].
  destruct (existsb _ taken) eqn:E.
  - apply mem_iff in E. split; [discriminate|]. intros [X _]. apply NoDup_cons_iff in X. tauto.
  - apply mem_not in E. split; [intro H; injection H as <-; split; [constructor; assumption|reflexivity]|intros [_ ->]; reflexivity].
Qed.
Lemma NoDup_rev_app {A} (l r : list A) : NoDup (rev l ++ r) <-> NoDup (l ++ r).
Proof.
  revert r. induction l as [|x l IH]; intro r; [reflexivity|]. cbn [rev List.app]. rewrite <- app_assoc, IH. cbn [List.app].
  split; intro H; [|].
  - constructor; [apply NoDup_remove_2 in H; exact H|apply NoDup_remove_1 in H; exact H].
  - apply NoDup_cons_iff in H. destruct H as [A1 B]. apply NoDup_Add with (a := x) (l := l ++ r); [apply Add_app|]. split; assumption.
Qed.
Lemma all_rev states actions internals :
  NoDup (all_names states actions internals) <->
  NoDup (rev internals ++ rev (own_names "action" actions) ++ rev (own_names "state" states) ++ ["deterministic"; "parallel"; "reward"; "terminal"]).
Proof.
  unfold all_names. rewrite <- (app_nil_r (reserved ++ _)) at 1. rewrite <- NoDup_rev_app, app_nil_r, !rev_app_distr, <- !app_assoc. reflexivity.
Qed.
Lemma NoDup_right {A} (l r : list A) : NoDup (l ++ r) -> NoDup r.
Proof. induction l as [|x l IH]; intro H; [exact H|]. apply NoDup_cons_iff in H. tauto. Qed.
Lemma start_nodup : NoDup ["deterministic"; "parallel"; "reward"; "terminal"].
Proof. repeat constructor; cbn; intuition discriminate. Qed.
