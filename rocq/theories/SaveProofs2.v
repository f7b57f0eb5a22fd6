(** Picking a file, and what is read from it. *)

From Coq Require Import String Ascii List ZArith Lia Bool.
From Verif Require Import Base SaveModel SaveSpec SaveProofs.
Import ListNotations.
Open Scope Z_scope.

(** ** The loop over the directory *)

Lemma may_be_spec : forall fmt g, may_be fmt g = true <-> admits fmt g.
Proof.
  intros [[]|] []; cbn; unfold admits; split; try tauto; intros H;
    try discriminate; destruct H; discriminate.
Qed.

Lemma numbered_ends : forall f n e, ends e (numbered f n e).
Proof.
  intros f n e. exists (f ++ lit "-" ++ show n). unfold numbered. rewrite <- !app_assoc. reflexivity.
Qed.

Lemma numbered_begins : forall f n e, begins f (numbered f n e).
Proof. intros f n e. eexists. reflexivity. Qed.

Lemma numbered_slice : forall f n e, (0 < length e)%nat ->
  slice (numbered f n e) (Z.of_nat (length f) + 1) (- Z.of_nat (length e)) = show n.
Proof.
  intros f n e He. unfold numbered.
  replace (f ++ lit "-" ++ show n ++ e) with ((f ++ lit "-") ++ show n ++ e)
    by (rewrite <- app_assoc; reflexivity).
  replace (Z.of_nat (length f) + 1) with (Z.of_nat (length (f ++ lit "-")))
    by (rewrite app_length; cbn; lia).
  apply slice_middle. exact He.
Qed.

Lemma numbered_neq : forall f n e, 0 <= n -> numbered f n e <> f ++ e.
Proof.
  intros f n e Hn E. apply (f_equal (@length ascii)) in E. unfold numbered in E.
  rewrite !app_length in E. cbn in E. lia.
Qed.

Lemma numbered_inj : forall f e m n, 0 <= m -> 0 <= n ->
  numbered f m e = numbered f n e -> m = n.
Proof.
  intros f e m n Hm Hn E. unfold numbered in E. apply app_inv_head in E. apply app_inv_head in E.
  apply app_inv_tail in E. apply show_inj; assumption.
Qed.

Lemma not_ends : forall e c x d r, c <> d -> x = r ++ [d] -> ~ ends (e ++ [c]) x.
Proof.
  intros e c x d r N -> H. apply ends_last in H. congruence.
Qed.

Lemma npz_last : forall x, ends (lit ".npz") x -> exists r, x = r ++ ["z"%char].
Proof. intros x [r ->]. exists (r ++ lit ".np"). rewrite <- app_assoc. reflexivity. Qed.

Lemma hdf5_last : forall x, ends (lit ".hdf5") x \/ ends (lit ".h5") x ->
  exists r, x = r ++ ["5"%char].
Proof.
  intros x [[r ->]|[r ->]]; [exists (r ++ lit ".hdf")|exists (r ++ lit ".h")];
    rewrite <- app_assoc; reflexivity.
Qed.

Lemma npz_not_hdf5 : forall x, ends (lit ".npz") x ->
  ends_with (lit ".hdf5") x = false /\ ends_with (lit ".h5") x = false.
Proof.
  intros x H. destruct (npz_last x H) as [r E]. split; apply ends_with_false.
  - apply (not_ends (lit ".hdf") "5" x "z" r); [discriminate|exact E].
  - apply (not_ends (lit ".h") "5" x "z" r); [discriminate|exact E].
Qed.

Lemma hdf5_not_npz : forall x, ends (lit ".hdf5") x \/ ends (lit ".h5") x ->
  ends_with (lit ".npz") x = false.
Proof.
  intros x H. destruct (hdf5_last x H) as [r E]. apply ends_with_false.
  apply (not_ends (lit ".np") "z" x "5" r); [discriminate|exact E].
Qed.

Lemma eqb_false_ends : forall x f e, ends_with e x = false -> name_eqb x (f ++ e) = false.
Proof.
  intros x f e H. destruct (name_eqb_spec x (f ++ e)) as [->|]; [|reflexivity].
  apply ends_with_false in H. exfalso. apply H, ends_app.
Qed.

Definition goes_on (g : format) (found : option format) : Prop :=
  found = None \/ found = Some g.

Lemma scan_step_own : forall fmt g f n found m,
  admits fmt g -> g = Numpy \/ g = Hdf5 -> 0 <= n -> goes_on g found ->
  scan_step fmt f (numbered f n (extension g)) (found, Some m) =
  Ok (Some g, Some (Z.max n m)).
Proof.
  intros fmt g f n found m Ha Hg Hn Hf. apply may_be_spec in Ha.
  assert ((if n >? m then n else m) = Z.max n m) as Hmax.
  { destruct (Z.gtb_spec n m); lia. }
  pose proof (proj2 (starts_with_spec f _) (numbered_begins f n (extension g))) as Hs.
  unfold scan_step. destruct Hg as [-> | ->]; cbn [extension] in *.
  - rewrite Ha. destruct (name_eqb_spec (numbered f n (lit ".npz")) (f ++ lit ".npz")) as [E|_].
    { destruct (numbered_neq _ _ _ Hn E). }
    cbn [andb]. rewrite Hs, (proj2 (ends_with_spec _ _) (numbered_ends f n (lit ".npz"))).
    cbn [andb].
    assert (assert_ match found with None | Some Numpy => true | _ => false end
              "found is None or found == 'numpy'" = Ok tt) as ->
      by (destruct Hf as [-> | ->]; reflexivity).
    cbn [bind].
    change (-4) with (- Z.of_nat (length (lit ".npz"))).
    rewrite numbered_slice by (cbn; lia).
    rewrite parse_show by exact Hn. cbn [bind]. rewrite Hmax. reflexivity.
  - pose proof (numbered_ends f n (lit ".hdf5")) as He.
    pose proof (hdf5_not_npz _ (or_introl He)) as Hnpz.
    rewrite (eqb_false_ends _ _ _ Hnpz), Hnpz, !andb_false_r, Ha.
    destruct (name_eqb_spec (numbered f n (lit ".hdf5")) (f ++ lit ".hdf5")) as [E|_].
    { destruct (numbered_neq _ _ _ Hn E). }
    assert (name_eqb (numbered f n (lit ".hdf5")) (f ++ lit ".h5") = false) as ->.
    { destruct (name_eqb_spec (numbered f n (lit ".hdf5")) (f ++ lit ".h5")) as [E|]; [|reflexivity].
      apply (f_equal (@length ascii)) in E. unfold numbered in E. rewrite !app_length in E.
      cbn in E. lia. }
    cbn [andb orb]. rewrite Hs, (proj2 (ends_with_spec _ _) He).
    cbn [andb orb].
    assert (assert_ match found with None | Some Hdf5 => true | _ => false end
              "found is None or found == 'hdf5'" = Ok tt) as ->
      by (destruct Hf as [-> | ->]; reflexivity).
    cbn [bind].
    change (-5) with (- Z.of_nat (length (lit ".hdf5"))).
    rewrite numbered_slice by (cbn; lia).
    rewrite parse_show by exact Hn. cbn [bind]. rewrite Hmax. reflexivity.
Qed.

Lemma scan_step_skip : forall fmt f x s,
  ~ looks_saved fmt f x -> scan_step fmt f x s = Ok s.
Proof.
  intros fmt f x [found latest] H. unfold scan_step.
  assert (forall g e, (begins f x -> admits fmt g -> ends e x -> False) ->
            may_be fmt g && name_eqb x (f ++ e) = false /\
            may_be fmt g && starts_with f x && ends_with e x = false) as K.
  { intros g e Hn. destruct (may_be fmt g) eqn:M; [|split; reflexivity].
    apply may_be_spec in M. split.
    - destruct (name_eqb_spec x (f ++ e)) as [->|]; [|reflexivity]. exfalso.
      apply Hn; [eexists; reflexivity|exact M|apply ends_app].
    - destruct (starts_with f x) eqn:S; [|reflexivity].
      destruct (ends_with e x) eqn:E; [|reflexivity]. exfalso.
      apply starts_with_spec in S. apply ends_with_spec in E. exact (Hn S M E). }
  destruct (K Numpy (lit ".npz")) as [A1 A2].
  { intros B C D. apply H. split; [exact B|]. left. auto. }
  destruct (K Hdf5 (lit ".hdf5")) as [B1 B2].
  { intros B C D. apply H. split; [exact B|]. right. auto. }
  destruct (K Hdf5 (lit ".h5")) as [C1 C2].
  { intros B C D. apply H. split; [exact B|]. right. auto. }
  rewrite A1, A2. rewrite !andb_orb_distrib_r, B1, B2, C1, C2. reflexivity.
Qed.

Lemma looks_saved_dec : forall fmt f x, looks_saved fmt f x \/ ~ looks_saved fmt f x.
Proof.
  intros fmt f x. unfold looks_saved.
  rewrite <- !may_be_spec, <- starts_with_spec, <- !ends_with_spec.
  destruct (starts_with f x), (may_be fmt Numpy), (may_be fmt Hdf5), (ends_with (lit ".npz") x),
    (ends_with (lit ".hdf5") x), (ends_with (lit ".h5") x); intuition congruence.
Qed.

Lemma scan_own : forall fmt g f listing found m,
  admits fmt g -> g = Numpy \/ g = Hdf5 ->
  (forall x, In x listing -> looks_saved fmt f x ->
     exists n, 0 <= n /\ x = numbered f n (extension g)) ->
  goes_on g found -> (found = None -> m = -1) -> -1 <= m ->
  exists found' m', scan fmt f listing (found, Some m) = Ok (found', Some m') /\
    m <= m' /\
    (forall n, 0 <= n -> In (numbered f n (extension g)) listing -> n <= m') /\
    (m' = m \/ 0 <= m' /\ In (numbered f m' (extension g)) listing) /\
    (0 <= m' -> found' = Some g) /\ goes_on g found'.
Proof.
  intros fmt g f listing. induction listing as [|x listing IH]; intros found m Ha Hg Hown Hf Hm Hb.
  { exists found, m. cbn. split; [reflexivity|]. split; [lia|]. split; [tauto|].
    split; [left; reflexivity|]. split; [|exact Hf]. intros H0.
    destruct Hf as [E|E]; [|exact E]. specialize (Hm E). lia. }
  cbn [scan].
  assert (forall y, In y listing -> looks_saved fmt f y ->
            exists n, 0 <= n /\ y = numbered f n (extension g)) as Hown'
    by (intros y Hy; apply Hown; right; exact Hy).
  destruct (looks_saved_dec fmt f x) as [L|L].
  - destruct (Hown x (or_introl eq_refl) L) as [n [Hn ->]].
    rewrite scan_step_own by assumption. cbn [bind].
    destruct (IH (Some g) (Z.max n m) Ha Hg Hown' (or_intror eq_refl) ltac:(discriminate) ltac:(lia))
      as [found' [m' [E [H1 [H2 [H3 [H4 H5]]]]]]].
    exists found', m'. split; [exact E|]. split; [lia|]. split.
    { intros k Hk [Ek|Ek]; [|apply H2; assumption].
      apply numbered_inj in Ek; [|assumption..]. lia. }
    split; [|split; assumption].
    destruct H3 as [->|[H3 H3']]; [|right; split; [exact H3|right; exact H3']].
    destruct (Z.max_spec n m) as [[Q ->]|[Q ->]]; [left; reflexivity|].
    right. split; [exact Hn|left; reflexivity].
  - rewrite scan_step_skip by exact L. cbn [bind].
    destruct (IH found m Ha Hg Hown' Hf Hm Hb)
      as [found' [m' [E [H1 [H2 [H3 [H4 H5]]]]]]].
    exists found', m'. split; [exact E|]. split; [exact H1|]. split.
    { intros k Hk [Ek|Ek]; [|apply H2; assumption]. exfalso. apply L. subst x.
      split; [apply numbered_begins|].
      destruct Hg as [-> | ->]; [left|right]; (split; [exact Ha|]);
        [|left]; apply numbered_ends. }
    split; [|split; assumption].
    destruct H3 as [->|[H3 H3']]; [left; reflexivity|right; split; [exact H3|right; exact H3']].
Qed.

Lemma scan_none : forall fmt f listing s,
  (forall x, In x listing -> ~ looks_saved fmt f x) -> scan fmt f listing s = Ok s.
Proof.
  intros fmt f listing. induction listing as [|x listing IH]; intros s H; [reflexivity|].
  cbn [scan]. rewrite scan_step_skip by (apply H; left; reflexivity). cbn [bind].
  apply IH. intros y Hy. apply H. right. exact Hy.
Qed.

Section Restore.
Variable V : Type.
Variable shape : V -> list nat.
Variable item : V -> Z.
Variable spec : Type.
Notation dir := (dir V spec).
Notation agent := (agent V).
Notation present := (present V spec).

Lemma select_newest : forall (d : dir) f fmt g n,
  admits fmt g -> g = Numpy \/ g = Hdf5 ->
  (forall x, present d x -> looks_saved fmt f x ->
     exists k, 0 <= k /\ x = numbered f k (extension g)) ->
  (fmt = None -> ~ present d f /\ ~ present d (f ++ lit ".index")) ->
  0 <= n -> present d (numbered f n (extension g)) ->
  (forall k, 0 <= k -> present d (numbered f k (extension g)) -> k <= n) ->
  select_file V spec d f fmt = Ok (f ++ lit "-" ++ show n, g).
Proof.
  intros d f fmt g n Ha Hg Hown Hplain Hn Hin Hmax. unfold select_file. cbv zeta.
  assert (forall e, (forall k, 0 <= k -> f ++ e <> numbered f k (extension g)) ->
            looks_saved None f (f ++ e) ->
            match fmt with None => true | Some _ => false end && isfile V spec d (f ++ e) = false)
    as K.
  { intros e He Hl. destruct fmt; [reflexivity|]. cbn [andb].
    apply isfile_false. intros P. destruct (Hown _ P Hl) as [k [Hk E]]. exact (He k Hk E). }
  assert (match fmt with None => true | Some _ => false end && isfile V spec d f = false) as ->.
  { destruct fmt; [reflexivity|]. apply isfile_false. apply Hplain. reflexivity. }
  assert (match fmt with None => true | Some _ => false end && isfile V spec d (f ++ lit ".index") = false) as ->.
  { destruct fmt; [reflexivity|]. apply isfile_false. apply Hplain. reflexivity. }
  assert (forall k e e', 0 <= k -> (length e <= S (length e'))%nat -> f ++ e <> numbered f k e') as L.
  { intros k e e' Hk He E. destruct (show_spec k Hk) as [c [ds [Es _]]].
    apply (f_equal (@length ascii)) in E. unfold numbered in E. rewrite Es in E.
    rewrite !app_length in E. cbn in E. lia. }
  rewrite (K (lit ".npz")).
  2:{ intros k Hk. destruct Hg as [-> | ->]; apply L; cbn; lia || exact Hk. }
  2:{ split; [eexists; reflexivity|]. left. split; [left; reflexivity|apply ends_app]. }
  rewrite andb_orb_distrib_r, (K (lit ".hdf5")), (K (lit ".h5")).
  2:{ intros k Hk. destruct Hg as [-> | ->]; apply L; cbn; lia || exact Hk. }
  2:{ split; [eexists; reflexivity|]. right. split; [left; reflexivity|right; apply ends_app]. }
  2:{ intros k Hk. destruct Hg as [-> | ->]; apply L; cbn; lia || exact Hk. }
  2:{ split; [eexists; reflexivity|]. right. split; [left; reflexivity|left; apply ends_app]. }
  cbn [orb].
  destruct (scan_own fmt g f (map fst (d_files V spec d)) None (-1) Ha Hg Hown
              (or_introl eq_refl) (fun _ => eq_refl) ltac:(lia))
    as [found' [m' [E [H1 [H2 [H3 [H4 H5]]]]]]].
  rewrite E. cbn [bind].
  assert (m' = n) as ->.
  { pose proof (H2 n Hn Hin). destruct H3 as [->|[H3 H3']]; [lia|].
    pose proof (Hmax m' H3 H3'). lia. }
  rewrite (H4 Hn).
  assert (match fmt with None => true | Some h => format_eqb h g end = true) as Hok.
  { destruct Ha as [-> | ->]; [reflexivity|]. destruct g; reflexivity. }
  rewrite Hok. destruct n; [reflexivity|reflexivity|lia].
Qed.

Lemma select_checkpoint : forall (d : dir) f fmt,
  admits fmt Checkpoint ->
  (forall x, present d x -> ~ looks_saved fmt f x) ->
  ~ present d f ->
  select_file V spec d f fmt =
  (if isfile V spec d (f ++ lit ".index") then Ok (f, Checkpoint)
   else match latest_checkpoint V spec d with
        | None => Err "Checkpoint does not exist"
        | Some path => Ok (path, Checkpoint)
        end).
Proof.
  intros d f fmt Ha Hno Hf. unfold select_file. cbv zeta.
  rewrite (proj2 (isfile_false V spec d f) Hf), andb_false_r.
  destruct (isfile V spec d (f ++ lit ".index")) eqn:EI.
  - destruct Ha as [-> | ->]; [reflexivity|]. cbn [andb].
    rewrite scan_none by exact Hno. reflexivity.
  - rewrite andb_false_r.
    assert (forall e, looks_saved None f (f ++ e) ->
              match fmt with None => true | Some _ => false end && isfile V spec d (f ++ e) = false) as K.
    { intros e He. destruct fmt; [reflexivity|]. apply isfile_false. intros P. exact (Hno _ P He). }
    rewrite andb_orb_distrib_r, !K.
    + rewrite scan_none by exact Hno. cbn [bind].
      destruct Ha as [-> | ->]; reflexivity.
    + split; [eexists; reflexivity|]. right. split; [left; reflexivity|right; apply ends_app].
    + split; [eexists; reflexivity|]. right. split; [left; reflexivity|left; apply ends_app].
    + split; [eexists; reflexivity|]. left. split; [left; reflexivity|apply ends_app].
Qed.

(** ** Variables *)

Lemma colon_second_last : forall v : name,
  match slice v (-2) (-1) with [c] => Ascii.eqb c ":"%char | _ => false end = true ->
  exists w c, v = w ++ [":"%char; c].
Proof.
  intros v H. destruct (le_lt_dec 2 (length v)) as [L|L].
  - assert (length (skipn (length v - 2) v) = 2%nat) as L2 by (rewrite skipn_length; lia).
    rewrite <- (firstn_skipn (length v - 2) v).
    assert (slice v (-2) (-1) = firstn 1 (skipn (length v - 2) v)) as E.
    { unfold slice, slice_bound. cbn [Z.ltb Z.compare].
      replace (Z.to_nat (Z.max 0 (Z.of_nat (length v) + -1) - Z.max 0 (Z.of_nat (length v) + -2)))
        with 1%nat by lia.
      replace (Z.to_nat (Z.max 0 (Z.of_nat (length v) + -2))) with (length v - 2)%nat by lia.
      reflexivity. }
    rewrite E in H. destruct (skipn (length v - 2) v) as [|x [|y [|z r]]]; try discriminate L2.
    cbn in H. apply Ascii.eqb_eq in H. subst x. exists (firstn (length v - 2) v), y. reflexivity.
  - exfalso. destruct v as [|x [|y v]]; [discriminate H|discriminate H|cbn in L; lia].
Qed.

Lemma variable_key_spec : forall (a : agent) v k,
  ~ In ":"%char (a_name V a) ->
  variable_key V a v = Ok k -> stored_under (a_name V a) v k.
Proof.
  intros a v k Hc H. unfold variable_key in H.
  destruct (match slice v (-2) (-1) with [c] => Ascii.eqb c ":"%char | _ => false end) eqn:E;
    [|discriminate H].
  destruct (colon_second_last v E) as [w [c ->]]. cbn [assert_ bind] in H.
  exists c. set (m := a_name V a) in *.
  destruct (starts_with (m ++ lit "/") (w ++ [":"%char; c])) eqn:S.
  - left. apply starts_with_spec in S. destruct S as [r Hr].
    assert (exists k', r = k' ++ [":"%char; c]) as [k' ->].
    { change [":"%char; c] with ([":"%char] ++ [c]) in Hr. rewrite app_assoc in Hr.
      induction r as [|y r1 _] using rev_ind.
      { exfalso. rewrite app_nil_r in Hr. apply app_inj_tail in Hr. destruct Hr as [Hr _].
        apply Hc. rewrite <- Hr. apply in_or_app. right. left. reflexivity. }
      rewrite app_assoc in Hr. apply app_inj_tail in Hr. destruct Hr as [Hr ->].
      induction r1 as [|x r2 _] using rev_ind.
      { exfalso. rewrite app_nil_r in Hr. apply app_inj_tail in Hr. destruct Hr as [_ Hr].
        discriminate Hr. }
      rewrite app_assoc in Hr. apply app_inj_tail in Hr. destruct Hr as [_ Hr]. subst x.
      exists r2. rewrite <- app_assoc. reflexivity. }
    rewrite Hr in *.
    injection H as <-.
    change (-2) with (- Z.of_nat (length [":"%char; c])).
    replace (Z.of_nat (length m) + 1) with (Z.of_nat (length (m ++ lit "/")))
      by (rewrite app_length; cbn; lia).
    rewrite slice_middle by (cbn; lia). rewrite <- app_assoc. reflexivity.
  - right. split; [apply starts_with_false; exact S|].
    injection H as <-. change (-2) with (- Z.of_nat (length [":"%char; c])).
    rewrite slice_begin by (cbn; lia). reflexivity.
Qed.

Lemma variable_key_name : forall (a b : agent) v,
  a_name V a = a_name V b -> variable_key V a v = variable_key V b v.
Proof. intros a b v H. unfold variable_key. rewrite H. reflexivity. Qed.

Lemma npz_other : forall (a : agent) k vs acc st,
  npz_variables V a vs acc = Ok st ->
  (forall v, In v (map fst vs) -> variable_key V a v <> Ok k) ->
  lookup k st = lookup k acc.
Proof.
  intros a k vs. induction vs as [|[v x] vs IH]; intros acc st H N; cbn in H.
  { congruence. }
  destruct (variable_key V a v) as [k'|] eqn:E; [|discriminate H]. cbn [bind] in H.
  rewrite (IH _ _ H).
  - apply lookup_put_other. intros ->. apply (N v); [left; reflexivity|exact E].
  - intros w Hw. apply N. right. exact Hw.
Qed.

Lemma npz_own : forall (a : agent) vs acc st,
  npz_variables V a vs acc = Ok st ->
  NoDup (map fst vs) ->
  (forall v w k, In v (map fst vs) -> In w (map fst vs) ->
     variable_key V a v = Ok k -> variable_key V a w = Ok k -> v = w) ->
  forall v x, In (v, x) vs ->
  exists k, variable_key V a v = Ok k /\ lookup k st = Some x.
Proof.
  intros a vs. induction vs as [|[v x] vs IH]; intros acc st H Nd Inj w y Hw; [destruct Hw|].
  cbn in H. destruct (variable_key V a v) as [k|] eqn:E; [|discriminate H]. cbn [bind] in H.
  cbn [map fst] in Nd. apply NoDup_cons_iff in Nd. destruct Nd as [Hv Nd].
  destruct Hw as [Hw|Hw].
  - injection Hw as <- <-. exists k. split; [exact E|].
    rewrite (npz_other a k vs _ _ H); [apply lookup_put_same|].
    intros u Hu Eu. apply Hv. rewrite (Inj v u k); [exact Hu|left; reflexivity|right; exact Hu| |];
      assumption.
  - apply (IH _ _ H Nd); [|exact Hw].
    intros u1 u2 k' H1 H2. apply Inj; right; assumption.
Qed.

Lemma hdf5_keep : forall (a : agent) k x vs acc st,
  hdf5_variables V a vs acc = Ok st -> lookup k acc = Some x -> lookup k st = Some x.
Proof.
  intros a k x vs. induction vs as [|[v y] vs IH]; intros acc st H L; cbn in H.
  { congruence. }
  destruct (variable_key V a v) as [k'|] eqn:E; [|discriminate H]. cbn [bind] in H.
  destruct (lookup k' acc) eqn:Ek; [discriminate H|]. cbn [assert_ bind] in H.
  apply (IH _ _ H). rewrite lookup_app_none, L. reflexivity.
Qed.

Lemma hdf5_own : forall (a : agent) vs acc st,
  hdf5_variables V a vs acc = Ok st ->
  forall v x, In (v, x) vs ->
  exists k, variable_key V a v = Ok k /\ lookup k st = Some x.
Proof.
  intros a vs. induction vs as [|[v x] vs IH]; intros acc st H w y Hw; [destruct Hw|].
  cbn in H. destruct (variable_key V a v) as [k|] eqn:E; [|discriminate H]. cbn [bind] in H.
  destruct (lookup k acc) eqn:Ek; [discriminate H|]. cbn [assert_ bind] in H.
  destruct Hw as [Hw|Hw].
  - injection Hw as <- <-. exists k. split; [exact E|].
    apply (hdf5_keep a k x vs _ _ H). rewrite lookup_app_none, Ek. cbn.
    rewrite name_eqb_refl. reflexivity.
  - exact (IH _ _ H w y Hw).
Qed.

Lemma assign_same : forall x y, shape x = shape y -> assign V shape x y = Ok y.
Proof.
  intros x y H. unfold assign. destruct (list_eq_dec _ _ _); congruence.
Qed.

Lemma assign_all_same : forall (a : agent) st vs ws,
  same_variables V shape vs ws ->
  (forall v y, In (v, y) ws -> exists k, variable_key V a v = Ok k /\ lookup k st = Some y) ->
  assign_all V shape a st vs = (ws, Ok tt).
Proof.
  intros a st vs ws H. induction H as [|[v x] [w y] vs ws [E1 E2] F IH]; intros L; [reflexivity|].
  cbn in E1, E2. subst w. cbn [assign_all].
  destruct (L v y (or_introl eq_refl)) as [k [Ek El]].
  rewrite Ek. cbn [bind]. rewrite El, assign_same by exact E2.
  rewrite IH; [reflexivity|]. intros u z Hu. apply L. right. exact Hu.
Qed.

Lemma assign_present_same : forall st vs ws,
  same_variables V shape vs ws ->
  (forall v y, In (v, y) ws -> lookup v st = Some y) ->
  assign_present V shape st vs = (ws, Ok tt).
Proof.
  intros st vs ws H. induction H as [|[v x] [w y] vs ws [E1 E2] F IH]; intros L; [reflexivity|].
  cbn in E1, E2. subst w. cbn [assign_present].
  rewrite (L v y (or_introl eq_refl)), assign_same by exact E2.
  rewrite IH; [reflexivity|]. intros u z Hu. apply L. right. exact Hu.
Qed.

Lemma lookup_nodup : forall (l : list (name * V)) v y,
  NoDup (map fst l) -> In (v, y) l -> lookup v l = Some y.
Proof.
  induction l as [|[w x] l IH]; intros v y Nd H; [destruct H|]. cbn.
  cbn in Nd. apply NoDup_cons_iff in Nd. destruct Nd as [Hw Nd].
  destruct H as [H|H].
  - injection H as -> ->. rewrite name_eqb_refl. reflexivity.
  - destruct (name_eqb_spec v w) as [->|]; [|apply IH; assumption].
    exfalso. apply Hw. apply (in_map fst) in H. exact H.
Qed.

End Restore.
