(** Properties of saving and restoring agents (C56, C77-C80). *)

From Coq Require Import String Ascii List ZArith Lia Bool.
From Verif Require Import Base SaveModel SaveSpec SaveProofs SaveProofs2 SaveProofs3 SaveProofs4.
Import ListNotations.
Open Scope Z_scope.

Section Props.
Variable V : Type.
Variable shape : V -> list nat.
Variable item : V -> Z.
Variable spec : Type.
Notation dir := (dir V spec).
Notation agent := (agent V).
Notation present := (present V spec).
Notation file d x := (lookup x (d_files V spec d)).

(** C56: if the directory holds numbered NumPy (HDF5) files of the name and no
    other file that looks like one, restoring picks the largest number, whatever
    the order of the directory and whatever other files there are. *)
Theorem C56_newest : forall (d : dir) f fmt g n,
  admits fmt g -> g = Numpy \/ g = Hdf5 ->
  (forall x, present d x -> looks_saved fmt f x ->
     exists k, 0 <= k /\ x = numbered f k (extension g)) ->
  (fmt = None -> ~ present d f /\ ~ present d (f ++ lit ".index")) ->
  0 <= n -> present d (numbered f n (extension g)) ->
  (forall k, 0 <= k -> present d (numbered f k (extension g)) -> k <= n) ->
  select_file V spec d f fmt = Ok (f ++ lit "-" ++ show n, g).
Proof. exact (select_newest V spec). Qed.

(** C56: after any series of saves with the counter appended, the counter never
    decreasing, restoring without naming a file gives the variables of the last
    save, and the counters they say. *)
Theorem C56_latest_save : forall f g u (d0 : dir) l s d a fmt t e up,
  g = Numpy \/ g = Hdf5 -> admits fmt g ->
  saves V item spec f g u d0 (l ++ [s]) d ->
  (forall x, present d0 x -> ~ begins f x) ->
  (forall b, In b (l ++ [s]) -> well_named V (a_name V b) (a_saved V b)) ->
  (forall b m n, In b (l ++ [s]) -> counter V item b u = Ok m -> counter V item s u = Ok n ->
     0 <= m <= n) ->
  same_agent V shape a s -> counters_of V item s t e up ->
  exists a', restore V shape item spec d a (Some f) fmt = (a', Ok tt) /\
    a_saved V a' = a_saved V s /\ a_unsaved V a' = a_unsaved V a /\
    a_counters V a' = (t, e, up).
Proof.
  intros. eexists. split; [eapply latest_restored; eassumption|]. repeat split.
Qed.

(** C56: the same for TensorFlow checkpoints, in whatever order the counters come;
    here the variables that are not "saved" come back as well, and the next save
    takes the next number. *)
Theorem C56_checkpoint : forall f u (d0 : dir) l s d a fmt t e up,
  admits fmt Checkpoint ->
  saves V item spec f Checkpoint u d0 (l ++ [s]) d ->
  (forall x, present d0 x -> ~ begins f x) -> f <> lit "checkpoint" ->
  same_agent V shape a s -> NoDup (map fst (a_saved V s ++ a_unsaved V s)) ->
  counters_of V item s t e up ->
  exists a', restore V shape item spec d a (Some f) fmt = (a', Ok tt) /\
    a_saved V a' = a_saved V s /\ a_unsaved V a' = a_unsaved V s /\
    a_counters V a' = (t, e, up) /\ a_save_counter V a' = a_save_counter V s + 1.
Proof.
  intros. eexists. split; [eapply latest_checkpoint_restored; eassumption|]. repeat split.
Qed.

(** C77: saving as NumPy or HDF5 file and restoring the path that was returned
    gives back the variables, into any directory. *)
Theorem C77_roundtrip : forall (d : dir) a fo g ap js a' d' path b t e u,
  g = Numpy \/ g = Hdf5 ->
  save V item spec d a fo g ap js = Ok (a', d', path) ->
  well_named V (a_name V a) (a_saved V a) -> ~ contains (lit ".data-") path ->
  same_agent V shape b a -> counters_of V item a t e u ->
  exists b', restore V shape item spec d' b (Some path) None = (b', Ok tt) /\
    a_saved V b' = a_saved V a /\ a_unsaved V b' = a_unsaved V b /\
    a_counters V b' = (t, e, u).
Proof.
  intros d a fo g ap js a' d' path b t e u Hg Hs Wn Nd [Sn [Ss _]] Cs.
  destruct (save_file V item spec d a fo g ap js a' d' path Hg Wn Hs)
    as [stem [st [_ [Ep [El [Hh _]]]]]].
  eexists. split.
  - apply (restore_file V shape item spec d' b a path None stem g st t e u Hg); try assumption.
    + unfold select_file. cbn [andb].
      assert (isfile V spec d' path = true) as -> by (unfold isfile; rewrite El; reflexivity).
      rewrite (find_none _ _ Nd).
      assert (ends (extension g) path) as Ee by (rewrite Ep; apply ends_app).
      destruct Hg as [-> | ->]; cbn [extension] in *.
      * rewrite (proj2 (ends_with_spec _ _) Ee), Ep.
        change (-4) with (- Z.of_nat (length (lit ".npz"))).
        rewrite slice_begin by (cbn; lia). reflexivity.
      * rewrite (hdf5_not_npz path (or_introl Ee)), (proj2 (ends_with_spec _ _) Ee), Ep.
        change (-5) with (- Z.of_nat (length (lit ".hdf5"))).
        rewrite slice_begin by (cbn; lia). reflexivity.
    + rewrite <- Ep. exact El.
  - repeat split.
Qed.

(** C77: and so does a checkpoint, unless a file without extension has its name. *)
Theorem C77_checkpoint : forall (d : dir) a fo ap js a' d' path b t e u,
  save V item spec d a fo Checkpoint ap js = Ok (a', d', path) ->
  ~ present d' path ->
  same_agent V shape b a -> NoDup (map fst (a_saved V a ++ a_unsaved V a)) ->
  counters_of V item a t e u ->
  exists b', restore V shape item spec d' b (Some path) None = (b', Ok tt) /\
    a_saved V b' = a_saved V a /\ a_unsaved V b' = a_unsaved V a /\
    a_counters V b' = (t, e, u).
Proof.
  intros d a fo ap js a' d' path b t e u Hs Hp Same Nd Cs.
  destruct (save_checkpoint V item spec d a fo ap js a' d' path Hs)
    as [stem [k [_ [_ [_ [_ [Hf _]]]]]]].
  eexists. split.
  - apply (restore_checkpoint V shape item spec d' b a path None path k t e u); try assumption.
    unfold select_file. cbn [andb].
    rewrite (proj2 (isfile_false V spec d' path) Hp).
    assert (isfile V spec d' (path ++ lit ".index") = true) as ->; [|reflexivity].
    unfold isfile. rewrite Hf. reflexivity.
  - repeat split.
Qed.

(** C77: a checkpoint can also be restored by the name of its data file. *)
Theorem C77_data_file : forall (d : dir) a fo ap js a' d' path b t e u,
  save V item spec d a fo Checkpoint ap js = Ok (a', d', path) ->
  ~ contains (lit ".data-") (path ++ lit ".data") ->
  same_agent V shape b a -> NoDup (map fst (a_saved V a ++ a_unsaved V a)) ->
  counters_of V item a t e u ->
  exists b', restore V shape item spec d' b (Some (path ++ lit ".data-00000-of-00001")) None
             = (b', Ok tt) /\
    a_saved V b' = a_saved V a /\ a_unsaved V b' = a_unsaved V a /\
    a_counters V b' = (t, e, u).
Proof.
  intros d a fo ap js a' d' path b t e u Hs Hp Same Nd Cs.
  destruct (save_checkpoint V item spec d a fo ap js a' d' path Hs)
    as [stem [k [_ [_ [_ [_ [Hf Hpres]]]]]]].
  assert (present d' (path ++ lit ".data-00000-of-00001")) as Hd.
  { unfold save in Hs.
    destruct (model_save V item spec d a fo Checkpoint ap) as [[[a1 d1] p1]|] eqn:E; [|discriminate Hs].
    cbn [bind] in Hs. unfold model_save in E. cbv zeta in E.
    destruct (match ap with None => _ | Some u => _ end) as [stem'|]; [|discriminate E].
    cbn [bind] in E. injection E as <- <- <-.
    assert (forall x y : name, x ++ lit ".data-00000-of-00001" <> y ++ lit ".json") as N.
    { intros x y C. apply (f_equal (@rev ascii)) in C. rewrite !rev_app_distr in C. discriminate C. }
    unfold SaveSpec.present. apply lookup_in.
    destruct js; injection Hs as <- <- <-; cbn [d_files write].
    - rewrite lookup_put_other by apply N.
      apply lookup_in. rewrite !in_put. right. right. left. reflexivity.
    - cbn. rewrite lookup_remove_other by apply N.
      apply lookup_in. rewrite !in_put. right. right. left. reflexivity. }
  eexists. split.
  - apply (restore_checkpoint V shape item spec d' b a _ None path k t e u); try assumption.
    unfold select_file. cbn [andb].
    rewrite (proj2 (isfile_spec V spec d' _) Hd).
    change (lit ".data-00000-of-00001") with (lit ".data-" ++ lit "00000-of-00001").
    rewrite (find_first (lit ".data-") path (lit "00000-of-00001") Hp ltac:(discriminate)).
    rewrite firstn_app, firstn_all, Nat.sub_diag, firstn_O, app_nil_r. reflexivity.
  - repeat split.
Qed.

(** C77: an HDF5 file with the extension ".h5" is restored by its name, if there is
    none with the extension ".hdf5". *)
Theorem C77_h5 : forall (d : dir) s st f b t e u,
  file d (f ++ lit ".h5") = Some (Hdf5File V spec st) ->
  ~ present d (f ++ lit ".hdf5") -> ~ contains (lit ".data-") (f ++ lit ".h5") ->
  ~ ends (lit ".hdf5") (f ++ lit ".h5") ->
  (forall v y, In (v, y) (a_saved V s) ->
     exists k, variable_key V s v = Ok k /\ lookup k st = Some y) ->
  same_agent V shape b s -> counters_of V item s t e u ->
  exists b', restore V shape item spec d b (Some (f ++ lit ".h5")) None = (b', Ok tt) /\
    a_saved V b' = a_saved V s /\ a_counters V b' = (t, e, u).
Proof.
  intros d s st f b t e u Hf Hno Nd Ne Hh [Sn [Ss _]] [Ct [Ce Cu]].
  eexists. unfold restore.
  assert (select_file V spec d (f ++ lit ".h5") None = Ok (f, Hdf5)) as ->.
  { unfold select_file. cbn [andb].
    assert (isfile V spec d (f ++ lit ".h5") = true) as -> by (unfold isfile; rewrite Hf; reflexivity).
    rewrite (find_none _ _ Nd), (hdf5_not_npz _ (or_intror (ends_app _ _))).
    rewrite (proj2 (ends_with_false _ _) Ne), (proj2 (ends_with_spec _ _) (ends_app (lit ".h5") f)).
    change (-3) with (- Z.of_nat (length (lit ".h5"))).
    rewrite slice_begin by (cbn; lia). reflexivity. }
  assert (assign_all V shape b st (a_saved V b) = (a_saved V s, Ok tt)) as Has.
  { apply assign_all_same; [exact Ss|]. intros v y Hvy.
    rewrite (variable_key_name V b s v Sn). apply Hh. exact Hvy. }
  unfold model_restore. cbv zeta.
  rewrite (proj2 (isfile_false V spec d _) Hno), Hf, Has. cbn [bind].
  rewrite !(counters_same V item (Agent V (a_name V b) (a_saved V s) _ _ _) s _ Sn eq_refl).
  rewrite Ct, Ce, Cu. cbn [bind]. split; [reflexivity|]. split; reflexivity.
Qed.

(** C78: a successful restore from a NumPy or HDF5 file has assigned every saved
    variable the value stored under its name in one file, and no other variable. *)
Theorem C78_complete : forall (d : dir) a f g a',
  g = Numpy \/ g = Hdf5 -> ~ In ":"%char (a_name V a) ->
  restore V shape item spec d a (Some f) (Some g) = (a', Ok tt) ->
  map fst (a_saved V a') = map fst (a_saved V a) /\ a_unsaved V a' = a_unsaved V a /\
  exists x st,
    (file d x = Some (NpzFile V spec st) \/ file d x = Some (Hdf5File V spec st)) /\
    begins f x /\
    forall v y, In (v, y) (a_saved V a') ->
      exists k, stored_under (a_name V a) v k /\ lookup k st = Some y.
Proof.
  intros d a f g a' Hg Hc H. unfold restore in H.
  destruct (select_file V spec d f (Some g)) as [[stem g']|] eqn:Es; [|discriminate H].
  assert (g' = g /\ begins f stem) as [-> [r Hr]].
  { unfold select_file in Es. cbn [andb] in Es.
    destruct (scan (Some g) f (map fst (d_files V spec d)) (None, Some (-1))) as [[found latest]|];
      [|discriminate Es]. cbn [bind] in Es.
    assert (forall l, (do _ <- assert_ (format_eqb g match found with Some h => h | None => Checkpoint end)
               "format == found";
               Ok (match l with Some n => f ++ lit "-" ++ show n | None => f end,
                   match found with Some h => h | None => Checkpoint end)) = Ok (stem, g') ->
              g' = g /\ begins f stem) as K.
    { intros l E. destruct found as [h|];
        [|destruct Hg as [-> | ->]; discriminate E].
      destruct (format_eqb g h) eqn:Eg; [|discriminate E]. cbn [assert_ bind] in E.
      injection E as <- <-. split; [destruct g, h; congruence || discriminate Eg|].
      destruct l; [eexists; reflexivity|exists []; symmetry; apply app_nil_r]. }
    destruct latest as [z|]; [|apply (K None); exact Es].
    destruct z as [|p|p]; [apply (K (Some 0)); exact Es|apply (K (Some (Z.pos p))); exact Es|].
    destruct p; try (eapply (K (Some (Z.neg _))); exact Es).
    destruct Hg as [-> | ->]; discriminate Es. }
  unfold model_restore in H. cbv zeta in H.
  assert (forall st,
            (let (a1, r) :=
               let (vs, r) := assign_all V shape a st (a_saved V a) in
               let a := Agent V (a_name V a) vs (a_unsaved V a) (a_save_counter V a) (a_counters V a) in
               (a, do _ <- r; do t <- counter V item a Timesteps; do e <- counter V item a Episodes;
                   do u <- counter V item a Updates; Ok (t, e, u)) in
             match r with
             | Ok c => (Agent V (a_name V a1) (a_saved V a1) (a_unsaved V a1) (a_save_counter V a1) c, Ok tt)
             | Err e => (a1, Err e)
             end) = (a', Ok tt) ->
            map fst (a_saved V a') = map fst (a_saved V a) /\ a_unsaved V a' = a_unsaved V a /\
            forall v y, In (v, y) (a_saved V a') ->
              exists k, stored_under (a_name V a) v k /\ lookup k st = Some y) as K.
  { intros st E2. clear H.
    destruct (assign_all V shape a st (a_saved V a)) as [vs r'] eqn:Ea. cbv zeta in E2.
    destruct r' as [[]|]; cbn [bind] in E2; [|discriminate E2].
    destruct (assign_all_ok V shape a st _ _ Ea) as [A B].
    destruct (counter V item _ Timesteps); cbn [bind] in E2; [|discriminate E2].
    destruct (counter V item _ Episodes); cbn [bind] in E2; [|discriminate E2].
    destruct (counter V item _ Updates); cbn [bind] in E2; [|discriminate E2].
    injection E2 as <-. cbn. split; [exact A|]. split; [reflexivity|].
    intros v y Hv. destruct (B v y Hv) as [k [Ek El]]. exists k. split; [|exact El].
    apply variable_key_spec; assumption. }
  destruct Hg as [-> | ->].
  - destruct (file d (stem ++ lit ".npz")) as [[st|st|m st k|s|]|] eqn:Ef;
      try discriminate H.
    destruct (K st H) as [A [B C]]. split; [exact A|]. split; [exact B|].
    exists (stem ++ lit ".npz"), st. split; [left; exact Ef|]. split; [|exact C].
    exists (r ++ lit ".npz"). rewrite Hr, <- app_assoc. reflexivity.
  - set (path := if isfile V spec d (stem ++ lit ".hdf5") then stem ++ lit ".hdf5"
                 else stem ++ lit ".h5") in H.
    assert (begins f path) as Bp.
    { unfold path. rewrite Hr, <- !app_assoc.
      case (isfile V spec d _); eexists; reflexivity. }
    destruct (file d path) as [[st|st|m st k|s|]|] eqn:Ef; try discriminate H.
    destruct (K st H) as [A [B C]]. split; [exact A|]. split; [exact B|].
    exists path, st. split; [right; exact Ef|]. split; [exact Bp|exact C].
Qed.

(** C79: after saving with a counter appended, Agent.load finds the specification,
    given the file name with or without extension. *)
Theorem C79_spec : forall (d : dir) a f g u s a' d' path n,
  g = Numpy \/ g = Hdf5 ->
  save V item spec d a (Some f) g (Some u) (Some s) = Ok (a', d', path) ->
  well_named V (a_name V a) (a_saved V a) ->
  counter V item a u = Ok n -> 0 <= n ->
  ~ In "."%char f -> ~ present d (numbered f n (lit ".json")) ->
  load_spec V spec d' (Some path) = Some (SpecFile V spec s) /\
  load_spec V spec d' (Some (f ++ lit "-" ++ show n)) = Some (SpecFile V spec s) /\
  load_spec V spec d' (Some f) = Some (SpecFile V spec s).
Proof.
  intros d a f g u s a' d' path n Hg Hs Wn Hc Hn Hdot Hp.
  destruct (save_file V item spec d a (Some f) g (Some u) (Some s) a' d' path Hg Wn Hs)
    as [stem [st [[[C _]|[u' [n' [Eu [En Es]]]]] [Ep [El [_ Hpres]]]]]]; [discriminate C|].
  injection Eu as <-. rewrite En in Hc. injection Hc as ->. cbn [base] in *.
  assert (file d' (f ++ lit ".json") = Some (SpecFile V spec s)) as Hj.
  { unfold save in Hs.
    destruct (model_save V item spec d a (Some f) g (Some u)) as [[[a1 d1] p1]|]; [|discriminate Hs].
    cbn in Hs. injection Hs as <- <- <-. cbn. apply lookup_put_same. }
  assert (~ present d' (f ++ lit "-" ++ show n ++ lit ".json")) as Hp'.
  { intros P. destruct (Hpres _ P) as [K|[K|K]].
    - rewrite Ep, Es in K. rewrite <- !app_assoc in K. do 2 apply app_inv_head in K.
      apply app_inv_head in K. destruct Hg as [-> | ->]; discriminate K.
    - apply app_inv_head in K. discriminate K.
    - exact (Hp K). }
  assert (~ In "."%char (f ++ lit "-" ++ show n)) as Hdot'.
  { intros K. apply in_app_or in K. destruct K as [K|K]; [exact (Hdot K)|].
    cbn in K. destruct K as [K|K]; [discriminate K|].
    revert K. apply show_no; [exact Hn|reflexivity]. }
  split; [|split].
  - rewrite (spec_found V spec d' f n path Hn Hp'); [exact Hj|].
    rewrite Ep, Es.
    assert (exists e, extension g = "."%char :: e /\ ~ In "."%char e) as [e [-> He]].
    { destruct Hg as [-> | ->]; eexists; (split; [reflexivity|]); cbn; intuition discriminate. }
    apply (splitext_ext _ e "-"%char He); [|discriminate].
    apply in_or_app. right. left. reflexivity.
  - rewrite (spec_found V spec d' f n _ Hn Hp'); [exact Hj|]. apply splitext_none. exact Hdot'.
  - unfold load_spec. rewrite splitext_none by exact Hdot.
    unfold isfile. rewrite Hj. reflexivity.
Qed.

(** C79: a name that does not end in a number is looked up as it is, never without
    the part after its last dash; no name is the name "agent". *)
Theorem C79_other_name : forall (d : dir) f,
  ~ In "."%char f ->
  (forall b r, f = b ++ lit "-" ++ r -> ~ In "-"%char r ->
     r = [] \/ exists c, In c r /\ ~ In c (lit "0123456789")) ->
  load_spec V spec d (Some f) = file d (f ++ lit ".json") /\
  load_spec V spec d None = load_spec V spec d (Some (lit "agent")).
Proof.
  intros d f Hdot H. split; [|reflexivity]. unfold load_spec. rewrite splitext_none by exact Hdot.
  unfold isfile. destruct (file d (f ++ lit ".json")); [reflexivity|].
  destruct (rfind "-"%char f) as [k|] eqn:E; [|reflexivity].
  destruct (rfind_some _ _ _ E) as [b [r [Ef [Lb Nr]]]]. subst f k.
  assert (skipn (S (length b)) (b ++ "-"%char :: r) = r) as ->.
  { replace (b ++ "-"%char :: r) with ((b ++ ["-"%char]) ++ r) by (rewrite <- app_assoc; reflexivity).
    replace (S (length b)) with (length (b ++ ["-"%char])) by (rewrite app_length; cbn; lia).
    rewrite skipn_app, skipn_all, Nat.sub_diag. reflexivity. }
  destruct (H b r eq_refl Nr) as [->|[c [Hc Nc]]]; [reflexivity|].
  destruct (isdigit r) eqn:D; [|reflexivity]. exfalso. apply Nc. apply digit_listed.
  destruct r; [destruct Hc|]. unfold isdigit in D. rewrite forallb_forall in D. exact (D c Hc).
Qed.

(** C80: numbered files of two formats are rejected, and the agent is unchanged. *)
Theorem C80_ambiguous : forall (d : dir) a f x y,
  present d x -> begins f x -> ends (lit ".npz") x ->
  present d y -> begins f y -> ends (lit ".hdf5") y \/ ends (lit ".h5") y ->
  ~ present d f ->
  (forall e, In e [".index"; ".npz"; ".hdf5"; ".h5"]%string -> ~ present d (f ++ lit e)) ->
  exists msg, restore V shape item spec d a (Some f) None = (a, Err msg).
Proof.
  intros d a f x y Px Bx Ex Py By Ey Hf He. unfold restore, select_file. cbn [andb].
  rewrite (proj2 (isfile_false V spec d f) Hf).
  rewrite (proj2 (isfile_false V spec d _) (He ".index"%string ltac:(cbn; tauto))).
  rewrite (proj2 (isfile_false V spec d _) (He ".npz"%string ltac:(cbn; tauto))).
  rewrite (proj2 (isfile_false V spec d _) (He ".hdf5"%string ltac:(cbn; tauto))).
  rewrite (proj2 (isfile_false V spec d _) (He ".h5"%string ltac:(cbn; tauto))).
  cbn [orb].
  destruct (scan None f (map fst (d_files V spec d)) (None, Some (-1))) as [[found latest]|msg] eqn:E.
  - exfalso. destruct (scan_found f _ _ _ _ _ E) as [_ K].
    pose proof (proj1 (K x Px) Bx Ex). pose proof (proj2 (K y Py) By Ey). congruence.
  - exists msg. reflexivity.
Qed.

End Props.

(** ** Examples and counterexamples: variables are integers, [n] is the shape of
    a vector of length n, specifications are strings. *)

Definition xshape (v : list Z) : list nat := [length v].
Definition xitem (v : list Z) : Z := hd 0 v.
Notation xagent := (Agent (list Z)).
Notation xdir := (Dir (list Z) string).

(** An agent called "agent" with the given timestep count and a weight. *)
Definition example_agent (m : string) (t w : Z) : agent (list Z) :=
  xagent (lit m)
    [(lit (m ++ "/timesteps:0"), [t]); (lit (m ++ "/episodes:0"), [3]);
     (lit (m ++ "/updates:0"), [2]); (lit (m ++ "/policy/weights:0"), [w; w])]
    [(lit (m ++ "/buffer:0"), [9])] 0 (0, 0, 0).

Definition run_save (d : dir (list Z) string) (a : agent (list Z)) (fo : option string)
    (fmt : format) (ap : option unit_) : dir (list Z) string :=
  match save (list Z) xitem string d a (option_map lit fo) fmt ap (Some "spec"%string) with
  | Ok (_, d, _) => d
  | Err _ => d
  end.

Definition run_restore (d : dir (list Z) string) (a : agent (list Z)) (fo : option string)
    (fmt : option format) : agent (list Z) * res unit :=
  restore (list Z) xshape xitem string d a (option_map lit fo) fmt.

Definition weight (a : agent (list Z)) : option (list Z) :=
  lookup (lit "agent/policy/weights:0") (a_saved (list Z) a).

Definition empty : dir (list Z) string := xdir [] None.
Definition fresh : agent (list Z) := example_agent "agent" 0 0.

(** Three saves: 9, 10, 100 timesteps; the last is restored, not the
    lexicographically greatest. *)
Definition three_saves (fmt : format) : dir (list Z) string :=
  let d := run_save empty (example_agent "agent" 9 1) (Some "agent"%string) fmt (Some Timesteps) in
  let d := run_save d (example_agent "agent" 10 2) (Some "agent"%string) fmt (Some Timesteps) in
  run_save d (example_agent "agent" 100 3) (Some "agent"%string) fmt (Some Timesteps).

Example three_saves_restored : forall fmt,
  let (a, r) := run_restore (three_saves fmt) fresh None None in
  weight a = Some [3; 3] /\ a_counters (list Z) a = (100, 3, 2) /\ r = Ok tt.
Proof. intros []; vm_compute; auto. Qed.

Example three_saves_series : forall fmt,
  exists s, saves (list Z) xitem string (lit "agent") fmt Timesteps empty
    ([example_agent "agent" 9 1; example_agent "agent" 10 2] ++ [s]) (three_saves fmt) /\
    same_agent (list Z) xshape fresh s /\ counters_of (list Z) xitem s 100 3 2 /\
    well_named (list Z) (a_name _ s) (a_saved _ s).
Proof.
  intros fmt. exists (example_agent "agent" 100 3). repeat split.
  - assert (forall d a l,
              saves (list Z) xitem string (lit "agent") fmt Timesteps empty l d ->
              match save (list Z) xitem string d a (Some (lit "agent")) fmt (Some Timesteps)
                      (Some "spec"%string) with Ok _ => true | Err _ => false end = true ->
              saves (list Z) xitem string (lit "agent") fmt Timesteps empty (l ++ [a])
                (run_save d a (Some "agent"%string) fmt (Some Timesteps))) as K.
    { intros d a l H E. unfold run_save. cbn [option_map].
      destruct (save _ _ _ _ _ _ _ _ _) as [[[a' d'] p]|] eqn:Es; [|discriminate E].
      eapply saves_snoc; eassumption. }
    change ([example_agent "agent" 9 1; example_agent "agent" 10 2] ++ [example_agent "agent" 100 3])
      with ((([] ++ [example_agent "agent" 9 1]) ++ [example_agent "agent" 10 2])
              ++ [example_agent "agent" 100 3]).
    unfold three_saves. cbv zeta.
    repeat (apply K; [|destruct fmt; vm_compute; reflexivity]).
    apply saves_nil.
  - vm_compute. repeat constructor; auto.
  - vm_compute. repeat constructor; auto.
  - vm_compute. intuition discriminate.
  - vm_compute. repeat constructor; vm_compute; intuition discriminate.
  - intros v w k Hv Hw [c1 E1] [c2 E2].
    assert (forall x c, In x (map fst (a_saved _ (example_agent "agent" 100 3))) ->
              x = lit "agent" ++ lit "/" ++ k ++ lit ":" ++ [c] \/
              ~ begins (lit "agent" ++ lit "/") x /\ x = k ++ lit ":" ++ [c] ->
              x = lit "agent/" ++ k ++ lit ":0") as K.
    { intros x c Hx [E|[N _]].
      - assert (exists r, x = r ++ ["0"%char]) as [r Hr].
        { cbn in Hx. destruct Hx as [<-|[<-|[<-|[<-|[]]]]].
          - exists (lit "agent/timesteps:"). reflexivity.
          - exists (lit "agent/episodes:"). reflexivity.
          - exists (lit "agent/updates:"). reflexivity.
          - exists (lit "agent/policy/weights:"). reflexivity. }
        assert (c = "0"%char) as ->.
        { rewrite Hr in E.
          replace (lit "agent" ++ lit "/" ++ k ++ lit ":" ++ [c])
            with ((lit "agent" ++ lit "/" ++ k ++ lit ":") ++ [c]) in E
            by (rewrite <- !app_assoc; reflexivity).
          apply app_inj_tail in E. symmetry. apply E. }
        exact E.
      - exfalso. apply N. cbn in Hx.
        destruct Hx as [<-|[<-|[<-|[<-|[]]]]]; eexists; reflexivity. }
    rewrite (K v c1 Hv E1), (K w c2 Hw E2). reflexivity.
Qed.

(** C56: files with the extension ".h5" are numbered wrongly: two digits of the
    counter are cut off.  A directory with the checkpoints 1 and 100 restores 1. *)
Theorem C56_h5_refuted : exists (d : dir (list Z) string) a',
  lookup (lit "agent-100.h5") (d_files _ _ d) <> None /\
  (forall x, present (list Z) string d x -> x = lit "agent-1.hdf5" \/ x = lit "agent-100.h5") /\
  run_restore d fresh None None = (a', Ok tt) /\
  weight a' = Some [1; 1] /\
  lookup (lit "agent-100.h5") (d_files _ _ d) =
    Some (Hdf5File (list Z) string
      [(lit "timesteps", [100]); (lit "episodes", [3]); (lit "updates", [2]);
       (lit "policy/weights", [5; 5])]).
Proof.
  exists (xdir
    [(lit "agent-1.hdf5", Hdf5File (list Z) string
       [(lit "timesteps", [1]); (lit "episodes", [3]); (lit "updates", [2]);
        (lit "policy/weights", [1; 1])]);
     (lit "agent-100.h5", Hdf5File (list Z) string
       [(lit "timesteps", [100]); (lit "episodes", [3]); (lit "updates", [2]);
        (lit "policy/weights", [5; 5])])] None).
  eexists. split; [vm_compute; discriminate|]. split.
  { intros x [<-|[<-|[]]]; auto. }
  split; [vm_compute; reflexivity|]. split; vm_compute; reflexivity.
Qed.

(** C56: a second agent in the directory whose name begins with the name of the
    first: restoring the first fails although it has a numbered file of its own;
    with TensorFlow checkpoints, the checkpoint of the other agent is taken, no
    error is raised, and the agent keeps its values. *)
Theorem C56_other_agent_refuted :
  (exists msg, run_restore
     (run_save (run_save empty (example_agent "agent" 10 1) None Numpy (Some Timesteps))
               (example_agent "agent-new" 5 2) None Numpy (Some Timesteps))
     fresh None None = (fresh, Err msg)) /\
  (exists a', run_restore
     (run_save (run_save empty (example_agent "agent" 10 1) None Checkpoint None)
               (example_agent "other" 5 2) None Checkpoint None)
     fresh None None = (a', Ok tt) /\
   a_saved _ a' = a_saved _ fresh /\ weight fresh <> Some [1; 1]).
Proof.
  split.
  - eexists. vm_compute. reflexivity.
  - eexists. split; [vm_compute; reflexivity|]. split; [vm_compute; reflexivity|discriminate].
Qed.

(** C77: with the format given, the checkpoint 5 cannot be restored by its name
    while the checkpoint 50 exists. *)
Theorem C77_named_refuted :
  let d := run_save (run_save empty (example_agent "agent" 5 1) None Numpy (Some Timesteps))
                    (example_agent "agent" 50 2) None Numpy (Some Timesteps) in
  present (list Z) string d (lit "agent-5.npz") /\
  (exists msg, run_restore d fresh (Some "agent-5"%string) (Some Numpy) = (fresh, Err msg)) /\
  (exists a', run_restore d fresh (Some "agent-5"%string) None = (a', Ok tt) /\ weight a' = Some [1; 1]).
Proof.
  cbv zeta. split; [left; vm_compute; reflexivity|]. split.
  - eexists. vm_compute. reflexivity.
  - eexists. split; vm_compute; reflexivity.
Qed.

(** C77: the same for the name of the index file that the checkpoint consists of. *)
Theorem C77_index_refuted :
  let d := run_save empty (example_agent "agent" 5 1) None Checkpoint None in
  present (list Z) string d (lit "agent-1.index") /\
  exists msg, run_restore d fresh (Some "agent-1.index"%string) None = (fresh, Err msg).
Proof.
  cbv zeta. split; [right; left; vm_compute; reflexivity|]. eexists. vm_compute. reflexivity.
Qed.

(** C77: naming the file "agent.h5" restores "agent.hdf5" if that exists too. *)
Theorem C77_h5_refuted : exists (d : dir (list Z) string) a' st,
  lookup (lit "agent.h5") (d_files _ _ d) = Some (Hdf5File (list Z) string st) /\
  lookup (lit "policy/weights") st = Some [5; 5] /\
  run_restore d fresh (Some "agent.h5"%string) None = (a', Ok tt) /\ weight a' = Some [1; 1].
Proof.
  exists (xdir
    [(lit "agent.hdf5", Hdf5File (list Z) string
       [(lit "timesteps", [1]); (lit "episodes", [3]); (lit "updates", [2]);
        (lit "policy/weights", [1; 1])]);
     (lit "agent.h5", Hdf5File (list Z) string
       [(lit "timesteps", [100]); (lit "episodes", [3]); (lit "updates", [2]);
        (lit "policy/weights", [5; 5])])] None).
  eexists. eexists. split; [vm_compute; reflexivity|]. repeat split; vm_compute; reflexivity.
Qed.

(** C77: a round trip in an occupied directory. *)
Example roundtrip_occupied :
  let d := run_save (three_saves Hdf5) (example_agent "agent" 50 7) (Some "agent"%string) Hdf5 (Some Timesteps) in
  let (a, r) := run_restore d fresh (Some "agent-50.hdf5"%string) None in
  weight a = Some [7; 7] /\ r = Ok tt.
Proof. vm_compute. auto. Qed.

Example roundtrip_checkpoint :
  let d := run_save (three_saves Numpy) (example_agent "agent" 50 7) None Checkpoint (Some Updates) in
  let (a, r) := run_restore d fresh (Some "agent-2-1"%string) None in
  weight a = Some [7; 7] /\ r = Ok tt.
Proof. vm_compute. auto. Qed.

(** C78: a restore that raises may leave the agent with some variables of the file. *)
Theorem C78_unchanged_refuted : exists (d : dir (list Z) string) a' msg,
  run_restore d fresh (Some "agent"%string) (Some Numpy) = (a', Err msg) /\
  a_saved _ a' <> a_saved _ fresh /\ weight a' = weight fresh.
Proof.
  exists (xdir [(lit "agent.npz", NpzFile (list Z) string
            [(lit "timesteps", [100]); (lit "episodes", [3]); (lit "updates", [2]);
             (lit "policy/weights", [1; 1; 1])])] None).
  eexists. eexists. split; [vm_compute; reflexivity|]. split; [vm_compute; discriminate|reflexivity].
Qed.

(** C78: a TensorFlow checkpoint in which a variable is missing is restored
    without an error; the variable keeps its value. *)
Theorem C78_checkpoint_refuted : exists (d : dir (list Z) string) st a',
  lookup (lit "agent-1.index") (d_files _ _ d) = Some (CheckpointFile (list Z) string (lit "agent") st 1) /\
  lookup (lit "agent/policy/weights:0") st = None /\
  run_restore d (example_agent "agent" 0 8) (Some "agent-1"%string) None = (a', Ok tt) /\
  a_counters _ a' = (100, 3, 2) /\ weight a' = Some [8; 8].
Proof.
  exists (xdir [(lit "agent-1.index", CheckpointFile (list Z) string (lit "agent")
            [(lit "agent/timesteps:0", [100])] 1)] None).
  eexists. eexists. split; [vm_compute; reflexivity|]. split; [vm_compute; reflexivity|].
  split; [vm_compute; reflexivity|]. split; vm_compute; reflexivity.
Qed.

Example complete_case :
  let (a, r) := run_restore (three_saves Numpy) fresh (Some "agent"%string) (Some Numpy) in
  weight a = Some [3; 3] /\ r = Ok tt.
Proof. vm_compute. auto. Qed.

(** C79: the path returned for a numbered checkpoint has two numbers, of which
    Agent.load removes one; and a dot in the file name hides the specification. *)
Theorem C79_checkpoint_refuted :
  exists d a' path,
    save (list Z) xitem string empty (example_agent "agent" 100 1) None Checkpoint (Some Timesteps)
      (Some "spec"%string) = Ok (a', d, path) /\
    lookup (lit "agent.json") (d_files _ _ d) = Some (SpecFile (list Z) string "spec"%string) /\
    load_spec (list Z) string d (Some path) = None.
Proof.
  eexists. eexists. eexists. split; [vm_compute; reflexivity|]. split; vm_compute; reflexivity.
Qed.

Theorem C79_dot_refuted :
  exists d a' path,
    save (list Z) xitem string empty (example_agent "agent" 100 1) (Some (lit "agent.v2")) Numpy
      (Some Timesteps) (Some "spec"%string) = Ok (a', d, path) /\
    path = lit "agent.v2-100.npz" /\
    load_spec (list Z) string d (Some (lit "agent.v2-100")) = None /\
    load_spec (list Z) string d (Some (lit "agent.v2")) = None.
Proof.
  eexists. eexists. eexists. split; [vm_compute; reflexivity|]. split; [reflexivity|].
  split; vm_compute; reflexivity.
Qed.

Example other_name_case :
  load_spec (list Z) string (three_saves Numpy) (Some (lit "agent-new")) = None /\
  load_spec (list Z) string (three_saves Numpy) None =
  Some (SpecFile (list Z) string "spec"%string).
Proof. vm_compute. auto. Qed.

Example spec_case :
  load_spec (list Z) string (three_saves Numpy) (Some (lit "agent-100.npz")) =
  Some (SpecFile (list Z) string "spec"%string).
Proof. vm_compute. reflexivity. Qed.

(** C80: files of two formats without number are not rejected: the NumPy file is
    taken, whichever was saved last. *)
Theorem C80_silent_refuted :
  let d := run_save (run_save empty (example_agent "agent" 5 1) None Numpy None)
                    (example_agent "agent" 50 2) None Hdf5 None in
  present (list Z) string d (lit "agent.npz") /\ present (list Z) string d (lit "agent.hdf5") /\
  exists a', run_restore d fresh None None = (a', Ok tt) /\ weight a' = Some [1; 1].
Proof.
  cbv zeta. split; [left; vm_compute; reflexivity|]. split; [right; right; left; vm_compute; reflexivity|].
  eexists. split; vm_compute; reflexivity.
Qed.

Example ambiguous_case :
  let d := run_save (run_save empty (example_agent "agent" 5 1) None Numpy (Some Timesteps))
                    (example_agent "agent" 50 2) None Hdf5 (Some Timesteps) in
  exists msg, run_restore d fresh None None = (fresh, Err msg).
Proof. cbv zeta. eexists. vm_compute. reflexivity. Qed.

Print Assumptions C56_newest.
Print Assumptions C56_latest_save.
Print Assumptions C56_checkpoint.
Print Assumptions C56_h5_refuted.
Print Assumptions C56_other_agent_refuted.
Print Assumptions C77_roundtrip.
Print Assumptions C77_checkpoint.
Print Assumptions C77_named_refuted.
Print Assumptions C77_index_refuted.
Print Assumptions C77_data_file.
Print Assumptions C77_h5.
Print Assumptions C77_h5_refuted.
Print Assumptions C78_complete.
Print Assumptions C78_unchanged_refuted.
Print Assumptions C78_checkpoint_refuted.
Print Assumptions C79_spec.
Print Assumptions C79_other_name.
Print Assumptions C79_checkpoint_refuted.
Print Assumptions C79_dot_refuted.
Print Assumptions C80_ambiguous.
Print Assumptions C80_silent_refuted.
