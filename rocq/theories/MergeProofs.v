(** Lemmas on deep_disjoint_update and is_equal. *)

From Coq Require Import String List ZArith Lia Bool Arith.
From Verif Require Import Base SigModel.
Import ListNotations.
Open Scope string_scope.

Section Merge.
Variable A : Type.
Variable aeqb : A -> A -> bool.
Notation pval := (pval A).
Implicit Types (v w : pval) (es ss ts : list (string * pval)).

(** ** Specification: what is found under a path of keys *)
Fixpoint at_path v (p : list string) : option pval :=
  match p with
  | [] => Some v
  | k :: p' => match v with
               | PDict es => match plook k es with Some c => at_path c p' | None => None end
               | _ => None
               end
  end.

Definition is_pdict v : bool := match v with PDict _ => true | _ => false end.

(** The entry [w] stands for [v]: it is [v], or a value equal to it, or a sequence with
    equal elements, or both are dictionaries (whose entries are compared by longer paths). *)
Inductive stands_for : pval -> pval -> Prop :=
| sf_same v : stands_for v v
| sf_atom a v : peqb aeqb (PAtom a) v = true -> stands_for (PAtom a) v
| sf_seq t t' l l' : length l = length l' -> Forall2 (fun x y => peqb aeqb x y = true) l l' -> stands_for (PSeq t l) (PSeq t' l')
| sf_dict es es' : stands_for (PDict es) (PDict es').

(** No key occurs twice in a dictionary reached by keys (as in Python). *)
Fixpoint uniq v : Prop :=
  match v with
  | PDict es => NoDup (map fst es) /\ (fix all es := match es with [] => True | (_, x) :: r => uniq x /\ all r end) es
  | _ => True
  end.

(** ** Lemmas *)

Lemma pval_ind_all (P : pval -> Prop) :
  (forall a, P (PAtom a)) -> (forall t l, P (PSeq t l)) ->
  (forall es, Forall (fun e => P (snd e)) es -> P (PDict es)) -> forall v, P v.
Proof.
  intros H1 H2 H3. fix IH 1. intros [a|t l|es]; [apply H1|apply H2|apply H3].
  induction es as [|[k v] r IHr]; constructor; [apply IH|exact IHr].
Qed.

(** Every entry of the first is found in the second, unchanged unless a dictionary. *)
Definition ext v w : Prop := forall p x, at_path v p = Some x ->
  exists y, at_path w p = Some y /\ (if is_pdict x then is_pdict y = true else y = x).

Lemma ext_refl v : ext v v.
Proof. intros p x H. exists x. split; [exact H|]. destruct (is_pdict x); auto. Qed.

Lemma ext_trans u v w : ext u v -> ext v w -> ext u w.
Proof.
  intros H1 H2 p x H. destruct (H1 p x H) as (y & Hy & Hxy). destruct (H2 p y Hy) as (z & Hz & Hyz).
  exists z. split; [exact Hz|]. destruct (is_pdict x) eqn:E; [rewrite Hxy in Hyz; exact Hyz|]. subst. rewrite E in Hyz. exact Hyz.
Qed.

Lemma plook_app k es es' : plook k (es ++ es') = match plook k es with Some v => Some v | None => plook k es' end.
Proof. induction es as [|[k' v] r IH]; [reflexivity|]. cbn [app plook]. destruct (k =? k'); [reflexivity|exact IH]. Qed.

Lemma plook_pput k k' v es : plook k (pput k' v es) = if k =? k' then Some v else plook k es.
Proof.
  induction es as [|[k0 v0] r IH]; cbn [pput plook]; [reflexivity|].
  destruct (k' =? k0) eqn:E; cbn [plook].
  - apply String.eqb_eq in E; subst. destruct (k =? k0); reflexivity.
  - destruct (k =? k0) eqn:E'; [|exact IH]. apply String.eqb_eq in E'; subst. rewrite String.eqb_sym, E. reflexivity.
Qed.

Lemma ext_append k v es : ext (PDict es) (PDict (es ++ [(k, v)])).
Proof.
  intros [|k0 p] x H; [cbn in *; injection H as <-; eexists; split; reflexivity|].
  cbn [at_path] in *. rewrite plook_app. destruct (plook k0 es) as [c|]; [|discriminate].
  exists x. split; [exact H|]. destruct (is_pdict x); auto.
Qed.

Lemma ext_put k v w es : plook k es = Some v -> ext v w -> (is_pdict v = is_pdict w) -> ext (PDict es) (PDict (pput k w es)).
Proof.
  intros Hk He Hd [|k0 p] x H; [cbn in *; injection H as <-; eexists; split; reflexivity|].
  cbn [at_path] in *. rewrite plook_pput. destruct (String.eqb_spec k0 k) as [->|Hne].
  - rewrite Hk in H. apply He, H.
  - exists x. split; [exact H|]. destruct (is_pdict x); auto.
Qed.

Notation loop := (update_loop aeqb (fun ts v => deep_disjoint_update aeqb ts v)).

Lemma combine_all (l l' : list pval) : length l = length l' ->
  forallb (fun xy => peqb aeqb (fst xy) (snd xy)) (combine l l') = true -> Forall2 (fun x y => peqb aeqb x y = true) l l'.
Proof.
  revert l'. induction l as [|x r IH]; intros [|y r'] Hl H; try discriminate; constructor; cbn in *;
    apply andb_true_iff in H; [tauto|apply IH; [lia|tauto]].
Qed.

Lemma stands_ext w v x : stands_for w v -> is_pdict w = false -> x = w -> stands_for x v.
Proof. intros; subst; assumption. Qed.

(** One round of the loop. *)
Lemma step_cases key value ss ts ts' : loop ((key, value) :: ss) ts = Ok ts' ->
  exists ts1, loop ss ts1 = Ok ts' /\
    ((plook key ts = None /\ ts1 = (ts ++ [(key, value)])%list) \/
     (exists es es' vs, plook key ts = Some (PDict es) /\ value = PDict vs /\
        deep_disjoint_update aeqb es value = Ok es' /\ ts1 = pput key (PDict es') ts) \/
     (exists w, plook key ts = Some w /\ is_pdict w = false /\ stands_for w value /\ is_pdict value = false /\ ts1 = ts)).
Proof.
  intro H. cbn [update_loop] in H. destruct (plook key ts) as [w|] eqn:Hk.
  - destruct w as [a|t l|es].
    + destruct (peqb aeqb (PAtom a) value) eqn:E; [|discriminate]. exists ts. split; [exact H|]. right; right.
      exists (PAtom a). repeat split; [constructor; exact E|]. destruct value; try reflexivity. cbn in E. discriminate.
    + destruct value as [|t' l'|]; try discriminate.
      destruct (Nat.eqb (length l) (length l') && forallb (fun xy => peqb aeqb (fst xy) (snd xy)) (combine l l')) eqn:E; [|discriminate].
      exists ts. split; [exact H|]. right; right. apply andb_true_iff in E. destruct E as [E1 E2]. apply Nat.eqb_eq in E1.
      exists (PSeq t l). repeat split. constructor; [exact E1|apply combine_all; assumption].
    + destruct value as [|t' l'|vs]; try discriminate. destruct (deep_disjoint_update aeqb es (PDict vs)) as [es'|] eqn:E; [|discriminate].
      cbn [bind] in H. exists (pput key (PDict es') ts). split; [exact H|]. right; left. exists es, es', vs. repeat split. exact E.
  - exists (ts ++ [(key, value)])%list. split; [exact H|]. left. split; reflexivity.
Qed.

Lemma plook_step key value ss k : plook k ((key, value) :: ss) = if k =? key then Some value else plook k ss.
Proof. reflexivity. Qed.

Definition merged ts v w : Prop :=
  ext (PDict ts) w /\
  (forall p x, at_path v p = Some x -> exists y, at_path w p = Some y /\ stands_for y x) /\
  (forall p y, at_path w p = Some y -> (exists x, at_path (PDict ts) p = Some x) \/ (exists x, at_path v p = Some x)).

Lemma ddu_ok v : forall ts ts', uniq v -> deep_disjoint_update aeqb ts v = Ok ts' -> merged ts v (PDict ts').
Proof.
  induction v as [a|t l|ss IH] using pval_ind_all; intros ts ts' Hu H; try discriminate.
  cbn [deep_disjoint_update] in H. revert ts H.
  induction IH as [|[key value] r Hv Hr IHr]; intros ts H.
  - injection H as <-. split; [apply ext_refl|]. split.
    + intros [|k p] x Hx; cbn in *; [|discriminate]. injection Hx as <-. exists (PDict ts). split; [reflexivity|constructor].
    + intros p y Hy. left. eauto.
  - apply step_cases in H. destruct H as (ts1 & H & Hc). destruct Hu as [Hn [Hu1 Hu2]]. inversion Hn as [|? ? Hn1 Hn2]; subst.
    specialize (IHr (conj Hn2 Hu2) _ H). destruct IHr as (I1 & I2 & I3). cbn [snd] in Hv. pose proof (fun a b => Hv a b Hu1) as Hv'. clear Hv. rename Hv' into Hv.
    assert (E1 : ext (PDict ts) (PDict ts1)).
    { destruct Hc as [[_ ->]|[(es & es' & vs & Hk & -> & Hd & ->)|(w & _ & _ & _ & _ & ->)]].
      - apply ext_append.
      - apply ext_put with (v := PDict es); [exact Hk| |reflexivity]. apply Hv, Hd.
      - apply ext_refl. }
    split; [exact (ext_trans _ _ _ E1 I1)|]. split.
    + intros [|k p] x Hx.
      { cbn in *. injection Hx as <-. eexists. split; [reflexivity|]. constructor. }
      cbn [at_path] in Hx. rewrite plook_step in Hx. destruct (String.eqb_spec k key) as [->|Hne].
      * assert (G : exists z, at_path (PDict ts1) (key :: p) = Some z /\ stands_for z x).
        { cbn [at_path]. destruct Hc as [[Hk ->]|[(es & es' & vs & Hk & -> & Hd & ->)|(w & Hk & Hw & Hs & Hvd & ->)]].
          - rewrite plook_app, Hk. cbn [plook]. rewrite String.eqb_refl. exists x. split; [exact Hx|constructor].
          - rewrite plook_pput, String.eqb_refl. apply (Hv _ _ Hd), Hx.
          - rewrite Hk. destruct p as [|k p]; cbn in Hx |- *.
            + injection Hx as <-. eauto.
            + destruct value; try discriminate. }
        destruct G as (z & Hz & Hs). destruct (I1 _ _ Hz) as (y & Hy & Hyz). exists y. split; [exact Hy|].
        destruct (is_pdict z) eqn:Ez; [|subst; exact Hs]. destruct z as [|?|es]; try discriminate. destruct y as [|?|es']; try discriminate.
        inversion Hs; subst; constructor.
      * apply (I2 (k :: p) x Hx).
    + intros p y Hy. destruct (I3 p y Hy) as [[x Hx]|[x Hx]].
      * destruct p as [|k p]; [left; exists (PDict ts); reflexivity|]. cbn [at_path] in Hx |- *.
        rewrite plook_step. destruct Hc as [[Hk ->]|[(es & es' & vs & Hk & -> & Hd & ->)|(w & Hk & Hw & Hs & Hvd & ->)]].
        -- rewrite plook_app in Hx. destruct (plook k ts) as [c|] eqn:Ek; [left; eauto|].
           cbn [plook] in Hx. destruct (k =? key); [right; eauto|discriminate].
        -- rewrite plook_pput in Hx. destruct (String.eqb_spec k key) as [->|Hne]; [|left; eauto].
           rewrite Hk. destruct (Hv _ _ Hd) as (_ & _ & J3). exact (J3 p x Hx).
        -- left. eauto.
      * destruct p as [|k p]; [left; exists (PDict ts); reflexivity|]. cbn [at_path] in Hx |- *. rewrite plook_step.
        destruct (plook k r) as [c|] eqn:Ek; [|discriminate]. destruct (String.eqb_spec k key) as [->|Hne]; [|right; eauto].
        exfalso. apply Hn1. clear -Ek. induction r as [|[k v] r IH]; [discriminate|]. cbn [plook map fst] in *.
        destruct (String.eqb_spec key k) as [->|_]; [left; reflexivity|right; auto].
Qed.

(** Two entries which may be merged. *)
Inductive agree : pval -> pval -> Prop :=
| ag_atom a v : peqb aeqb (PAtom a) v = true -> agree (PAtom a) v
| ag_seq t t' l l' : length l = length l' -> Forall2 (fun x y => peqb aeqb x y = true) l l' -> agree (PSeq t l) (PSeq t' l')
| ag_dict es es' : agree (PDict es) (PDict es').

Lemma plook_In k es v : plook k es = Some v -> In k (map fst es).
Proof.
  induction es as [|[k' v'] r IH]; [discriminate|]. cbn [plook map fst].
  destruct (String.eqb_spec k k') as [->|_]; [left; reflexivity|right; auto].
Qed.

Lemma all_combine (l l' : list pval) : Forall2 (fun x y => peqb aeqb x y = true) l l' ->
  forallb (fun xy => peqb aeqb (fst xy) (snd xy)) (combine l l') = true.
Proof. induction 1; [reflexivity|]. cbn. rewrite H, IHForall2. reflexivity. Qed.

Lemma ddu_err v : forall ts e, uniq v -> is_pdict v = true -> deep_disjoint_update aeqb ts v = Err e ->
  exists p x y, at_path (PDict ts) p = Some x /\ at_path v p = Some y /\ ~ agree x y.
Proof.
  induction v as [a|t l|ss IH] using pval_ind_all; intros ts e Hu Hd H; try discriminate. clear Hd.
  cbn [deep_disjoint_update] in H. revert ts H.
  induction IH as [|[key value] r Hv Hr IHr]; intros ts H; [discriminate|].
  destruct Hu as [Hn [Hu1 Hu2]]. inversion Hn as [|? ? Hn1 Hn2]; subst. specialize (IHr (conj Hn2 Hu2)). cbn [snd] in Hv.
  assert (G : forall ts1, loop r ts1 = Err e -> (forall k, k <> key -> plook k ts1 = plook k ts) ->
    exists p x y, at_path (PDict ts) p = Some x /\ at_path (PDict ((key, value) :: r)) p = Some y /\ ~ agree x y).
  { intros ts1 H1 Hk. destruct (IHr _ H1) as (p & x & y & Hx & Hy & Hc). destruct p as [|k p].
    - cbn in Hx, Hy. injection Hx as <-. injection Hy as <-. exfalso. apply Hc. constructor.
    - exists (k :: p), x, y. cbn [at_path] in *. rewrite plook_step.
      destruct (plook k r) as [c|] eqn:Ek; [|discriminate].
      assert (Hne : k <> key) by (intros ->; apply Hn1; exact (plook_In _ _ _ Ek)).
      rewrite (Hk k Hne) in Hx. destruct (String.eqb_spec k key) as [?|_]; [contradiction|]. auto. }
  cbn [update_loop] in H. destruct (plook key ts) as [w|] eqn:Hk.
  - assert (Here : ~ agree w value ->
      exists p x y, at_path (PDict ts) p = Some x /\ at_path (PDict ((key, value) :: r)) p = Some y /\ ~ agree x y).
    { intro Hc. exists [key], w, value. cbn [at_path]. rewrite Hk, plook_step, String.eqb_refl. auto. }
    destruct w as [a|t l|es].
    + destruct (peqb aeqb (PAtom a) value) eqn:E; [apply (G ts H); auto|]. apply Here. intro Hc. inversion Hc; subst. congruence.
    + destruct value as [b|t' l'|vs]; [apply Here; intro Hc; inversion Hc| |apply Here; intro Hc; inversion Hc].
      destruct (Nat.eqb (length l) (length l') && forallb (fun xy => peqb aeqb (fst xy) (snd xy)) (combine l l')) eqn:E; [apply (G ts H); auto|].
      apply Here. intro Hc. inversion Hc; subst. apply andb_false_iff in E. destruct E as [E|E].
      * apply Nat.eqb_neq in E. contradiction.
      * rewrite all_combine in E by assumption. discriminate.
    + destruct value as [b|t' l'|vs]; [apply Here; intro Hc; inversion Hc|apply Here; intro Hc; inversion Hc|].
      destruct (deep_disjoint_update aeqb es (PDict vs)) as [es'|e'] eqn:E.
      * cbn [bind] in H. apply (G _ H). intros k Hne. rewrite plook_pput. destruct (String.eqb_spec k key); [contradiction|reflexivity].
      * cbn [bind] in H. destruct (Hv es e' Hu1 eq_refl E) as (p & x & y & Hx & Hy & Hc).
        exists (key :: p), x, y. cbn [at_path]. rewrite Hk, plook_step, String.eqb_refl. auto.
  - apply (G _ H). intros k Hne. rewrite plook_app. cbn [plook]. destruct (String.eqb_spec k key); [contradiction|].
    destruct (plook k ts); reflexivity.
Qed.

(** ** is_equal *)

(** Sequences of the same length everywhere. *)
Inductive same_shape : pval -> pval -> Prop :=
| ss_atom a b : same_shape (PAtom a) (PAtom b)
| ss_seq t t' l l' : Forall2 same_shape l l' -> same_shape (PSeq t l) (PSeq t' l')
| ss_dict es es' : (forall k v v', In (k, v) es -> plook k es' = Some v' -> same_shape v v') -> same_shape (PDict es) (PDict es')
| ss_other v w : (match v, w with PAtom _, PAtom _ | PSeq _ _, PSeq _ _ | PDict _, PDict _ => False | _, _ => True end) -> same_shape v w.

Lemma is_equal_partial v : forall w, same_shape v w -> is_equal aeqb v w = peqb aeqb v w.
Proof.
  induction v as [v IH] using (well_founded_induction_type
    (well_founded_ltof _ (fix size (v : pval) : nat := match v with
      | PAtom _ => 0
      | PSeq _ l => 1 + (fix sum l := match l with [] => 0 | x :: r => 1 + size x + sum r end) l
      | PDict es => 1 + (fix sum es := match es with [] => 0 | (_, x) :: r => 1 + size x + sum r end) es
      end)%nat)). unfold ltof in IH.
  intros w Hs. destruct v as [a|t l|es], w as [b|t' l'|es']; try reflexivity.
  - cbn [is_equal peqb]. f_equal. inversion Hs; [|contradiction]. subst.
    assert (IH' : forall x, In x l -> forall y, same_shape x y -> is_equal aeqb x y = peqb aeqb x y).
    { intros x Hx. apply IH. clear -Hx. induction l as [|z r IHr]; [destruct Hx|]. destruct Hx as [->|Hx]; [lia|].
      specialize (IHr Hx). cbn in *. lia. }
    clear IH Hs. revert l' H0. induction l as [|x r IHr]; intros l' H0; inversion H0; subst; [reflexivity|].
    f_equal; [apply IH'; [left; reflexivity|assumption]|]. apply IHr; [|assumption]. intros z Hz. apply IH'. right; exact Hz.
  - cbn [is_equal peqb]. f_equal. inversion Hs; [|contradiction]. subst.
    assert (IH' : forall k x, In (k, x) es -> forall y, same_shape x y -> is_equal aeqb x y = peqb aeqb x y).
    { intros k x Hx. apply IH. clear -Hx. induction es as [|[k' z] r IHr]; [destruct Hx|].
      destruct Hx as [E|Hx]; [injection E as -> ->; lia|]. specialize (IHr Hx). cbn in *. lia. }
    clear IH Hs. induction es as [|[k x] r IHr]; [reflexivity|].
    destruct (plook k es') as [v'|] eqn:Ek; [|reflexivity]. f_equal.
    + apply (IH' k); [left; reflexivity|]. apply (H1 k); [left; reflexivity|exact Ek].
    + apply IHr; [intros k0 v v0 Hi; apply H1; right; exact Hi|intros k0 z Hz; apply (IH' k0); right; exact Hz].
Qed.

End Merge.
