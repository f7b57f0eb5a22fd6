(** Proofs about OpenAIGym: declared specifications and states. *)

From Coq Require Import String Ascii List ZArith Reals Bool Lia Lra.
From Verif Require Import Base ParModel ParProofs GymModel GymEnvModel GymSpec GymProofs.
Import ListNotations.
Open Scope string_scope.

(** * Names of values *)

Lemma some_inj : forall A (x y : A), Some x = Some y -> x = y.
Proof. congruence. Qed.

Lemma ok_inj : forall A (x y : A), Ok x = Ok y -> x = y.
Proof. congruence. Qed.

Lemma size_one : size [] = 1%nat.
Proof. reflexivity. Qed.

Lemma member_named : forall s v, member s v -> exists t, named R s v = Some t.
Proof.
  induction s as [s Hs | l IH | l IH] using space_ind2; intros v H.
  - destruct s as [n | sh | sh nv | sh lo hi | l | l]; try discriminate Hs; destruct v as [shape data | vs | vs]; try (destruct H; fail); cbn [named]; eauto.
    cbn in H. destruct H as (-> & N & L & F). destruct (list_eq_dec Nat.eq_dec sh sh) as [_ | C]; [| congruence].
    assert (LD : length data = length nv) by (clear - F; induction F; cbn; congruence).
    rewrite LD, Nat.eqb_refl, L. unfold size. rewrite Nat.eqb_refl. destruct sh; [congruence |]. cbn [length Nat.eqb negb andb].
    destruct (uniform nv); eauto.
  - destruct v as [shape data | vs | vs]; try (destruct H; fail). cbn [member named] in *.
    assert (E : forall n, exists d, named_tuple R (named R) n l vs = Some d).
    { revert vs H. induction IH as [| s l Hs Hl IHl]; intros vs H n; destruct vs as [| v vs]; try (destruct H; fail); cbn [tuple_members named_tuple] in *; [eauto |].
      destruct H as [H1 H2]. destruct (Hs v H1) as [t ->]. destruct (IHl vs H2 (S n)) as [d ->]. eauto. }
    destruct (E 0%nat) as [d ->]. eauto.
  - destruct v as [shape data | vs | vs]; try (destruct H; fail). cbn [member named] in *.
    assert (E : exists d, named_dict R (named R) l vs = Some d).
    { revert vs H. induction IH as [| (key, s) l Hs Hl IHl]; intros vs H; destruct vs as [| (key', v) vs]; try (destruct H; fail); cbn [dict_members named_dict snd] in *; [eauto |].
      destruct H as (-> & H1 & H2). rewrite String.eqb_refl. destruct (Hs v H1) as [t ->]. destruct (IHl vs H2) as [d ->]. eauto. }
    destruct E as [d ->]. eauto.
Qed.

(** * Specifications agree with values *)

Definition spec_under (key : string) (x : specs) : list (string * leaf) :=
  match x with SLeaf l => [(key, l)] | SDict d => map (fun kl => (key ++ "_" ++ fst kl, snd kl)) d end.

Lemma fits_under : forall key x y, fits_all x y -> Forall2 (fun kl kt => fst kl = fst kt /\ fits (snd kl) (snd kt)) (spec_under key x) (under R key y).
Proof.
  intros key x y H. destruct x as [l | d], y as [sh data | ts]; cbn [fits_all spec_under under] in *; try (destruct H; fail).
  - constructor; [| constructor]. cbn. auto.
  - induction H as [| (k, l) (k', t) d ts [E F] H IH]; cbn [map fst snd]; constructor; auto. cbn [fst snd] in *. subst k'. auto.
Qed.

Lemma fits_names : forall d (l : list (string * tval R)), Forall2 (fun kl kt => fst kl = fst kt /\ fits (snd kl) (snd kt)) d l -> map fst d = map fst l.
Proof. intros d l H. induction H as [| a b d l [E _] H IH]; [reflexivity |]. cbn [map]. rewrite E, IH. reflexivity. Qed.

Lemma add_fresh : forall d key x, NoDup (map fst d ++ map fst (spec_under key x))%list ->
  match x with SLeaf sp => dset d key sp | SDict sps => dset_all (fun name => key ++ "_" ++ name) sps d end = (d ++ spec_under key x)%list.
Proof.
  intros d key x H. destruct x as [l | sps]; cbn [spec_under map fst] in *.
  - apply dset_fresh. apply NoDup_remove_2 in H. rewrite app_nil_r in H. exact H.
  - apply (dset_all_fresh _ (fun name => key ++ "_" ++ name)). rewrite map_map in H. exact H.
Qed.

Lemma NoDup_app_l : forall A (a b : list A), NoDup (a ++ b)%list -> NoDup a.
Proof.
  induction a as [| x a IH]; intros b H; [constructor |]. cbn in H. apply NoDup_cons_iff in H. destruct H as [H1 H2].
  constructor; [intro I; apply H1, in_or_app; auto | eauto].
Qed.
Lemma NoDup_app_r : forall A (a b : list A), NoDup (a ++ b)%list -> NoDup b.
Proof. induction a as [| x a IH]; intros b H; [exact H |]. cbn in H. apply NoDup_cons_iff in H. destruct H. auto. Qed.

Lemma under_nodup : forall key y, NoDup (map fst (under R key y)) -> match y with TArr _ _ _ => True | TDict _ l => NoDup (map fst l) end.
Proof.
  intros key [sh d | l] H; [exact I |]. cbn [under] in H. rewrite map_map in H. cbn [fst] in H.
  induction l as [| (k, t) l IH]; [constructor |]. cbn [map fst] in *. apply NoDup_cons_iff in H. destruct H as [H1 H2].
  constructor; [| auto]. intro I. apply H1. apply in_map_iff in I. destruct I as (kv & <- & I). apply in_map_iff. exists kv. auto.
Qed.

Definition unclashed (t : tval R) : Prop := match t with TArr _ _ _ => True | TDict _ l => NoDup (map fst l) end.

Lemma mdc_specs_fresh : forall shape nvec n d,
  NoDup (map fst d ++ map (fun i => mdc_name shape i) (seq n (length nvec)))%list ->
  mdc_specs shape n nvec d = (d ++ map (fun ik => (mdc_name shape (fst ik), mkLeaf "int" [] (Some (snd ik)) Free Free)) (combine (seq n (length nvec)) nvec))%list.
Proof.
  intros shape. induction nvec as [| k nvec IH]; intros n d H; [cbn; rewrite app_nil_r; reflexivity |].
  cbn [mdc_specs length seq combine map fst snd] in *.
  assert (F : ~ In (mdc_name shape n) (map fst d)) by (apply NoDup_remove_2 in H; intro I; apply H, in_or_app; auto).
  rewrite dset_fresh by exact F. rewrite IH.
  - rewrite <- app_assoc. reflexivity.
  - rewrite map_app, <- app_assoc. exact H.
Qed.

Lemma mdc_names_nodup : forall shape len n, NoDup (map (fun i => mdc_name shape i) (seq n len)).
Proof.
  intros shape. induction len as [| len IH]; intro n; [constructor |]. cbn [seq map]. constructor; [| apply IH].
  intro I. apply in_map_iff in I. destruct I as (i & E & I). apply in_seq in I. apply mdc_name_inj in E. lia.
Qed.

Lemma uniform_all : forall k nvec, forallb (fun x => Z.eqb x k) (k :: nvec) = uniform (k :: nvec).
Proof. intros. cbn. rewrite Z.eqb_refl. reflexivity. Qed.

Lemma above_spec : forall x, above x = true -> x <> NInf.
Proof. intros [| x |] H; cbn in *; congruence. Qed.

Lemma box_lower : forall allow low b, box_min allow None low = Ok b -> forall i x, (i < length low)%nat -> ext_le (nth i low NInf) x -> ext_le (lower b i) x.
Proof.
  intros allow low b H i x L E. destruct low as [| y low]; [discriminate |]. unfold box_min in H. remember (y :: low) as all.
  destruct (forallb (fun z => ext_eqb z y) all) eqn:U.
  - destruct (above y); injection H as <-; cbn [lower]; [| destruct x; exact I].
    rewrite forallb_forall in U. assert (Q : In (nth i all NInf) all) by (apply nth_In; exact L). apply U in Q.
    destruct (nth i all NInf) as [| a |], y as [| c |]; cbn in Q; try discriminate; auto.
    apply Reqb_true in Q. subst. exact E.
  - destruct allow.
    + injection H as <-. cbn [lower]. rewrite (nth_indep _ NInf ((fun y => if above y then y else NInf) NInf)) by (rewrite map_length; exact L).
      rewrite (map_nth (fun y => if above y then y else NInf)). destruct (above (nth i all NInf)); [exact E | destruct x; exact I].
    + destruct (forallb above all); [| discriminate]. injection H as <-. exact E.
Qed.

Lemma box_upper : forall allow high b, box_max allow None high = Ok b -> forall i x, (i < length high)%nat -> ext_le x (nth i high PInf) -> ext_le x (upper b i).
Proof.
  intros allow high b H i x L E. destruct high as [| y high]; [discriminate |]. unfold box_max in H. remember (y :: high) as all.
  destruct (forallb (fun z => ext_eqb z y) all) eqn:U.
  - destruct (below y); injection H as <-; cbn [upper]; [| destruct x; exact I].
    rewrite forallb_forall in U. assert (Q : In (nth i all PInf) all) by (apply nth_In; exact L). apply U in Q.
    destruct (nth i all PInf) as [| a |], y as [| c |]; cbn in Q; try discriminate; auto.
    apply Reqb_true in Q. subst. exact E.
  - destruct allow.
    + injection H as <-. cbn [upper]. rewrite (nth_indep _ PInf ((fun y => if below y then y else PInf) PInf)) by (rewrite map_length; exact L).
      rewrite (map_nth (fun y => if below y then y else PInf)). destruct (below (nth i all PInf)); [exact E | destruct x; exact I].
    + destruct (forallb below all); [| discriminate]. injection H as <-. exact E.
Qed.

Lemma simple_fits : forall allow s v sp t, simple s = true -> member s v -> specs_from allow None None s = Ok sp -> named R s v = Some t -> fits_all sp t.
Proof.
  intros allow s v sp t Hs M E N. destruct s as [n | sh | sh nv | sh lo hi | l | l]; try discriminate Hs;
    destruct v as [shape data | vs | vs]; try (destruct M; fail); cbn [specs_from simple_specs named member] in *.
  - injection E as <-. injection N as <-. destruct M as (-> & x & -> & B). cbn. repeat split. exists n. auto.
  - injection E as <-. injection N as <-. destruct M as (-> & L & F). cbn. auto.
  - destruct M as (-> & Nn & L & F). destruct (list_eq_dec Nat.eq_dec sh sh) as [_ | C]; [| congruence].
    destruct (_ && _ && _); [| discriminate].
    assert (LD : length data = length nv) by (clear - F; induction F; cbn; congruence).
    destruct nv as [| k nv]; [discriminate |]. rewrite uniform_all in E.
    destruct (uniform (k :: nv)) eqn:U.
    + injection E as <-. injection N as <-. cbn [fits_all fits l_shape l_type l_num]. repeat split; [congruence |].
      change (String.eqb "int" "int") with true. cbv iota. exists k. split; [reflexivity |].
      assert (UU : forall z, In z (k :: nv) -> z = k).
      { intros z [<- | I]; [reflexivity |]. cbn in U. rewrite forallb_forall in U. apply U, Z.eqb_eq in I. exact I. }
      clear - F UU. induction F as [| x z data zs B F IH]; constructor.
      * rewrite <- (UU z) by (left; reflexivity). exact B.
      * apply IH. intros z' I. apply UU. right. exact I.
    + apply ok_inj in E. apply some_inj in N. subst sp t. cbn [fits_all].
      rewrite (mdc_specs_fresh sh (k :: nv) 0 []) by apply mdc_names_nodup. cbn [List.app]. rewrite LD.
      clear - F. generalize 0%nat. revert F. generalize (k :: nv). intros zs F.
      induction F as [| x z data zs B F IH]; intro n; cbn [length seq combine map fst snd]; constructor; [| apply IH].
      split; [reflexivity |]. cbn. repeat split. exists z. auto.
  - destruct M as (-> & L & L1 & L2 & B). injection N as <-.
    destruct (box_min allow None lo) as [mn |] eqn:E1; [| discriminate]. cbn [bind] in E.
    destruct (box_max allow None hi) as [mx |] eqn:E2; [| discriminate]. cbn [bind] in E. injection E as <-.
    cbn [fits_all fits l_shape l_type l_min l_max]. split; [reflexivity |]. split; [exact L |].
    change (String.eqb "float" "int") with false. change (String.eqb "float" "bool") with false. cbv iota. split; [reflexivity |]. intros i x H. split.
    + eapply box_lower; [exact E1 | | apply B; assumption]. rewrite L1, <- L. apply nth_error_Some. congruence.
    + eapply box_upper; [exact E2 | | apply B; assumption]. rewrite L2, <- L. apply nth_error_Some. congruence.
Qed.

Lemma all_fits : forall allow s v sp t, member s v -> specs_from allow None None s = Ok sp -> named R s v = Some t -> unclashed t -> fits_all sp t.
Proof.
  intros allow. induction s as [s Hs | l IH | l IH] using space_ind2; intros v sp t M E N U.
  - eapply simple_fits; eassumption.
  - destruct v as [shape data | vs | vs]; try (destruct M; fail). cbn [specs_from member named] in *.
    destruct (tuple_specs (specs_from allow None None) 0 l []) as [d |] eqn:E1; [| discriminate]. injection E as <-.
    destruct (named_tuple R (named R) 0 l vs) as [r |] eqn:E2; [| discriminate]. injection N as <-. cbn [unclashed fits_all] in *.
    assert (Q : exists e, d = ([] ++ e)%list /\ Forall2 (fun kl kt => fst kl = fst kt /\ fits (snd kl) (snd kt)) e r); [| destruct Q as (e & -> & Q); exact Q].
    assert (U' : NoDup (map fst ([] : list (string * leaf)) ++ map fst r)%list) by exact U. clear U.
    revert vs r d M E1 E2 U'. generalize (@nil (string * leaf)) as a. generalize 0%nat as n.
    induction IH as [| s l Hs Hl IHl]; intros n a vs r d M E1 E2 U; destruct vs as [| v vs]; try (destruct M; fail); cbn [tuple_members tuple_specs named_tuple] in *.
    + injection E1 as <-. injection E2 as <-. exists []. rewrite app_nil_r. split; [reflexivity | constructor].
    + destruct M as [M1 M2]. destruct (specs_from allow None None s) as [x |] eqn:Ex; [| discriminate]. cbn [bind] in E1.
      destruct (named R s v) as [y |] eqn:Ey; [| discriminate].
      destruct (named_tuple R (named R) (S n) l vs) as [r' |] eqn:Er; [| discriminate]. injection E2 as <-.
      rewrite map_app in U.
      assert (F : fits_all x y).
      { apply (Hs v x y M1 eq_refl Ey). apply (under_nodup ("gymtpl" ++ str n)). apply NoDup_app_r in U. apply NoDup_app_l in U. exact U. }
      pose proof (fits_under ("gymtpl" ++ str n) x y F) as FU. pose proof (fits_names _ _ FU) as FN.
      assert (A : match x with SLeaf sp => dset a ("gymtpl" ++ str n) sp | SDict sps => dset_all (fun name => "gymtpl" ++ str n ++ "_" ++ name) sps a end
                  = (a ++ spec_under ("gymtpl" ++ str n) x)%list).
      { rewrite <- add_fresh.
        - destruct x as [l0 | sps]; [reflexivity |]. unfold dset_all. reflexivity.
        - rewrite FN. rewrite app_assoc in U. apply NoDup_app_l in U. exact U. }
      rewrite A in E1.
      edestruct (IHl (S n) (a ++ spec_under ("gymtpl" ++ str n) x)%list vs r' d M2 E1 Er) as (e & -> & Q).
      { rewrite map_app, FN, <- app_assoc. exact U. }
      exists (spec_under ("gymtpl" ++ str n) x ++ e)%list. rewrite <- app_assoc. split; [reflexivity |]. apply Forall2_app; assumption.
  - destruct v as [shape data | vs | vs]; try (destruct M; fail). cbn [specs_from member named] in *.
    destruct (dict_specs (specs_from allow None None) l []) as [d |] eqn:E1; [| discriminate]. injection E as <-.
    destruct (named_dict R (named R) l vs) as [r |] eqn:E2; [| discriminate]. injection N as <-. cbn [unclashed fits_all] in *.
    assert (Q : exists e, d = ([] ++ e)%list /\ Forall2 (fun kl kt => fst kl = fst kt /\ fits (snd kl) (snd kt)) e r); [| destruct Q as (e & -> & Q); exact Q].
    assert (U' : NoDup (map fst ([] : list (string * leaf)) ++ map fst r)%list) by exact U. clear U.
    revert vs r d M E1 E2 U'. generalize (@nil (string * leaf)) as a.
    induction IH as [| (key, s) l Hs Hl IHl]; intros a vs r d M E1 E2 U; destruct vs as [| (key', v) vs]; try (destruct M; fail); cbn [dict_members dict_specs named_dict snd] in *.
    + injection E1 as <-. injection E2 as <-. exists []. rewrite app_nil_r. split; [reflexivity | constructor].
    + destruct M as (<- & M1 & M2). rewrite String.eqb_refl in E2. destruct (specs_from allow None None s) as [x |] eqn:Ex; [| discriminate]. cbn [bind] in E1.
      destruct (named R s v) as [y |] eqn:Ey; [| discriminate].
      destruct (named_dict R (named R) l vs) as [r' |] eqn:Er; [| discriminate]. injection E2 as <-.
      rewrite map_app in U.
      assert (F : fits_all x y).
      { apply (Hs v x y M1 eq_refl Ey). apply (under_nodup key). apply NoDup_app_r in U. apply NoDup_app_l in U. exact U. }
      pose proof (fits_under key x y F) as FU. pose proof (fits_names _ _ FU) as FN.
      rewrite add_fresh in E1 by (rewrite FN; rewrite app_assoc in U; apply NoDup_app_l in U; exact U).
      edestruct (IHl (a ++ spec_under key x)%list vs r' d M2 E1 Er) as (e & -> & Q).
      { rewrite map_app, FN, <- app_assoc. exact U. }
      exists (spec_under key x ++ e)%list. rewrite <- app_assoc. split; [reflexivity |]. apply Forall2_app; assumption.
Qed.

(** * Clean spaces have no clashes *)

Section Clean.
Variable V : Type.

Lemma tuple_head : forall l vs n d, named_tuple V (named V) n l vs = Some d -> forall k, In k (map fst d) ->
  exists i, (n <= i)%nat /\ head k = "gymtpl" ++ str i.
Proof.
  induction l as [| s l IH]; intros vs n d E k I; destruct vs as [| v vs]; cbn [named_tuple] in E; try discriminate; [injection E as <-; destruct I |].
  destruct (named V s v) as [x |]; [| discriminate]. destruct (named_tuple V (named V) (S n) l vs) as [r |] eqn:Er; [| discriminate]. injection E as <-.
  rewrite map_app in I. apply in_app_or in I. destruct I as [I | I].
  - exists n. split; [lia |]. eapply under_head; [| exact I]. rewrite plain_app, str_plain. reflexivity.
  - destruct (IH vs (S n) r Er k I) as (i & Hi & ->). exists i. split; [lia | reflexivity].
Qed.

Lemma nodup_under : forall key (x : tval V), match x with TArr _ _ _ => True | TDict _ l => NoDup (map fst l) end -> NoDup (map fst (under V key x)).
Proof.
  intros key [sh a | l] H; cbn [under map fst]; [constructor; [intros [] | constructor] |].
  rewrite map_map. cbn [fst]. induction l as [| (k, v) l IH]; [constructor |]. cbn [map fst] in *. apply NoDup_cons_iff in H. destruct H as [H1 H2].
  constructor; [| auto]. intro I. apply in_map_iff in I. destruct I as ((k', v') & E & I). cbn [fst] in E.
  apply app_inj_s in E. change ("_" ++ k') with (String "_" k') in E. change ("_" ++ k) with (String "_" k) in E. injection E as ->.
  apply H1. apply in_map_iff. exists (k, v'). auto.
Qed.

Lemma NoDup_app_i : forall A (a b : list A), NoDup a -> NoDup b -> (forall x, In x a -> ~ In x b) -> NoDup (a ++ b)%list.
Proof.
  induction a as [| x a IH]; intros b Ha Hb D; [exact Hb |]. apply NoDup_cons_iff in Ha. destruct Ha as [H1 H2]. cbn. constructor.
  - intro I. apply in_app_or in I. destruct I as [I | I]; [contradiction |]. apply (D x); [left; reflexivity | exact I].
  - apply IH; auto. intros y I. apply D. right. exact I.
Qed.

Lemma clean_nodup : forall s, clean s = true -> forall v t, named V s v = Some t ->
  match t with TArr _ _ _ => True | TDict _ l => NoDup (map fst l) end.
Proof.
  induction s as [s Hs | l IH | l IH] using space_ind2; intros C v t N.
  - destruct s as [n | sh | sh nv | sh lo hi | l | l]; try discriminate Hs; destruct v as [shape data | vs | vs]; try discriminate N; cbn [named] in N; try (injection N as <-; exact I).
    destruct (list_eq_dec Nat.eq_dec sh shape); [| discriminate]. destruct (_ && _ && _); [| discriminate].
    destruct (uniform nv); injection N as <-; [exact I |]. apply (mdc_items_nodup V).
  - destruct v as [shape data | vs | vs]; try discriminate N. cbn [named clean] in *.
    destruct (named_tuple V (named V) 0 l vs) as [r |] eqn:E; [| discriminate]. injection N as <-.
    apply andb_prop in C. destruct C as [_ C]. revert vs r E C. generalize 0%nat as n.
    induction IH as [| s l Hs Hl IHl]; intros n vs r E C; destruct vs as [| v vs]; cbn [named_tuple forallb] in *; try discriminate; [injection E as <-; constructor |].
    destruct (named V s v) as [x |] eqn:Ex; [| discriminate]. destruct (named_tuple V (named V) (S n) l vs) as [r' |] eqn:Er; [| discriminate]. injection E as <-.
    apply andb_prop in C. destruct C as [C1 C2]. rewrite map_app. apply NoDup_app_i.
    + apply nodup_under. eapply Hs; eassumption.
    + eapply IHl; eassumption.
    + intros k I1 I2. apply (under_head V ("gymtpl" ++ str n)) in I1; [| rewrite plain_app, str_plain; reflexivity].
      apply (tuple_head _ _ _ _ Er) in I2. destruct I2 as (i & Hi & E). rewrite I1 in E. apply app_inj_s, str_inj in E. lia.
  - destruct v as [shape data | vs | vs]; try discriminate N. cbn [named clean] in *.
    destruct (named_dict V (named V) l vs) as [r |] eqn:E; [| discriminate]. injection N as <-.
    rewrite !andb_true_iff in C. destruct C as [[[_ D] P] C]. apply distinct_nodup in D.
    assert (Q : NoDup (map fst r) /\ forall k, In k (map fst r) -> In (head k) (map fst l)); [| tauto].
    revert vs r E. induction IH as [| (key, s) l Hs Hl IHl]; intros vs r E; destruct vs as [| (key', v) vs]; cbn [named_dict forallb map fst snd] in *; try discriminate;
      [injection E as <-; split; [constructor | auto] |].
    destruct (String.eqb key key'); [| discriminate].
    destruct (named V s v) as [x |] eqn:Ex; [| discriminate]. destruct (named_dict V (named V) l vs) as [r' |] eqn:Er; [| discriminate]. injection E as <-.
    apply andb_prop in C. destruct C as [C1 C2]. apply andb_prop in P. destruct P as [P1 P2]. apply NoDup_cons_iff in D. destruct D as [D1 D2].
    destruct (IHl D2 P2 C2 vs r' Er) as [Q1 Q2]. rewrite map_app. split.
    + apply NoDup_app_i; [apply nodup_under; eapply Hs; eassumption | exact Q1 |].
      intros k I1 I2. apply under_head in I1; [| exact P1]. apply Q2 in I2. rewrite I1 in I2. contradiction.
    + intros k I. apply in_app_or in I. destruct I as [I | I]; [left; symmetry; eapply under_head; eassumption | right; auto].
Qed.
End Clean.
