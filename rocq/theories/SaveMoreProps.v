(** More about which files are found: names ending in a dash (C56) and hidden files (C79). *)

From Coq Require Import String Ascii List ZArith Lia Bool.
From Verif Require Import Base SaveModel SaveSpec SaveProofs SaveProofs2 SaveProofs3 SaveProofs4 SaveProps.
Import ListNotations.
Open Scope Z_scope.

Lemma parse_negative k : 0 <= k -> parse_int ("-"%char :: show k) = Ok (- k).
Proof.
  intros Hk. pose proof (parse_show k Hk) as P. destruct (show_spec k Hk) as [c [ds [E1 [E2 E3]]]].
  rewrite E1 in *. unfold parse_int in *.
  assert (S : strip ("-"%char :: c :: ds) = "-"%char :: c :: ds).
  { unfold strip.
    assert (L : lstrip ("-"%char :: c :: ds) = "-"%char :: c :: ds) by reflexivity. rewrite L.
    assert (M : lstrip (rev ("-"%char :: c :: ds)) = rev ("-"%char :: c :: ds)).
    { change ("-"%char :: c :: ds) with (["-"%char] ++ (c :: ds)). rewrite rev_app_distr.
      destruct (rev (c :: ds)) as [|x r] eqn:R.
      - apply (f_equal (@length ascii)) in R. rewrite rev_length in R. discriminate R.
      - assert (In x (c :: ds)) as I by (apply in_rev; rewrite R; left; reflexivity).
        rewrite forallb_forall in E2. cbn [app lstrip]. rewrite digit_not_space by now apply E2. reflexivity. }
    rewrite M. apply rev_involutive. }
  rewrite S. cbv zeta beta iota. replace (Ascii.eqb "-" "-") with true by reflexivity.
  assert (U : unsigned (c :: ds) = Some k).
  { rewrite strip_digits in P by exact E2. pose proof E2 as E2'. cbn [forallb] in E2'. apply andb_true_iff in E2'. destruct E2' as [D _].
    replace (Ascii.eqb c "-") with false in P by (symmetry; apply Ascii.eqb_neq; intros ->; discriminate).
    replace (Ascii.eqb c "+") with false in P by (symmetry; apply Ascii.eqb_neq; intros ->; discriminate).
    cbv zeta in P. destruct (unsigned (c :: ds)); congruence. }
  rewrite U. reflexivity.
Qed.

Section Props.
Variable V : Type.
Variable item : V -> Z.
Variable spec : Type.
Notation dir := (dir V spec).
Notation present := (present V spec).
Notation file d x := (lookup x (d_files V spec d)).

Lemma scan_step_dash f k found : 1 <= k -> goes_on Numpy found ->
  scan_step None f (numbered (f ++ lit "-") k (lit ".npz")) (found, Some (-1)) = Ok (Some Numpy, Some (-1)).
Proof.
  intros Hk Hf.
  assert (E : numbered (f ++ lit "-") k (lit ".npz") = f ++ lit "-" ++ ("-"%char :: show k) ++ lit ".npz")
    by (unfold numbered; rewrite <- !app_assoc; reflexivity).
  rewrite E. unfold scan_step.
  assert (N : name_eqb (f ++ lit "-" ++ ("-"%char :: show k) ++ lit ".npz") (f ++ lit ".npz") = false).
  { destruct (name_eqb_spec (f ++ lit "-" ++ ("-"%char :: show k) ++ lit ".npz") (f ++ lit ".npz")) as [X|_]; [|reflexivity].
    apply app_inv_head in X. discriminate X. }
  rewrite N, andb_false_r.
  rewrite (proj2 (starts_with_spec f _)) by (eexists; reflexivity).
  rewrite (proj2 (ends_with_spec (lit ".npz") _)).
  2:{ rewrite !app_assoc. apply ends_app. }
  cbn [may_be andb].
  assert (assert_ match found with None | Some Numpy => true | _ => false end
            "found is None or found == 'numpy'" = Ok tt) as -> by (destruct Hf as [-> | ->]; reflexivity).
  cbn [bind].
  assert (SL : slice (f ++ lit "-" ++ ("-"%char :: show k) ++ lit ".npz") (Z.of_nat (length f) + 1) (-4) = "-"%char :: show k).
  { change (-4) with (- Z.of_nat (length (lit ".npz"))).
    replace (Z.of_nat (length f) + 1) with (Z.of_nat (length (f ++ lit "-"))) by (rewrite app_length; cbn; lia).
    replace (f ++ lit "-" ++ ("-"%char :: show k) ++ lit ".npz") with ((f ++ lit "-") ++ ("-"%char :: show k) ++ lit ".npz") by (rewrite <- app_assoc; reflexivity).
    apply slice_middle; cbn; lia. }
  rewrite SL, parse_negative by lia. cbn [bind].
  replace (- k >? -1) with false; [reflexivity|]. symmetry. rewrite Z.gtb_ltb. apply Z.ltb_ge. lia.
Qed.

(** C56: files of an agent whose name only has a dash more, numbered from 1 on, are not taken for
    files of this one: only a checkpoint can be restored. *)
Theorem C56_dash : forall (d : dir) f,
  (forall x, present d x -> looks_saved None f x -> exists k, 1 <= k /\ x = numbered (f ++ lit "-") k (lit ".npz")) ->
  ~ present d f -> ~ present d (f ++ lit ".index") ->
  select_file V spec d f None =
  match latest_checkpoint V spec d with
  | None => Err "Checkpoint does not exist"
  | Some path => Ok (path, Checkpoint)
  end.
Proof.
  intros d f H Hf Hi. unfold select_file. cbv zeta. cbn [andb].
  assert (NP : forall x, ~ present d x -> isfile V spec d x = false) by (intros x; apply isfile_false).
  assert (PL : forall e, looks_saved None f (f ++ e) -> (forall k, 1 <= k -> f ++ e <> numbered (f ++ lit "-") k (lit ".npz")) -> ~ present d (f ++ e)).
  { intros e L N P. destruct (H _ P L) as [k [Hk E]]. exact (N k Hk E). }
  assert (Q : forall e k, lit ".npz" = e \/ lit ".hdf5" = e \/ lit ".h5" = e -> f ++ e <> numbered (f ++ lit "-") k (lit ".npz")).
  { intros e k C E. unfold numbered in E. rewrite <- !app_assoc in E. apply app_inv_head in E.
    destruct C as [<-|[<-|<-]]; discriminate E. }
  rewrite (NP f Hf), (NP _ Hi).
  rewrite (NP (f ++ lit ".npz")), (NP (f ++ lit ".hdf5")), (NP (f ++ lit ".h5")).
  2:{ apply PL; [|intros; apply Q; tauto]. split; [eexists; reflexivity|]. right. split; [left; reflexivity|right; apply ends_app]. }
  2:{ apply PL; [|intros; apply Q; tauto]. split; [eexists; reflexivity|]. right. split; [left; reflexivity|left; apply ends_app]. }
  2:{ apply PL; [|intros; apply Q; tauto]. split; [eexists; reflexivity|]. left. split; [left; reflexivity|apply ends_app]. }
  cbn [orb].
  assert (S : forall l, (forall x, In x l -> looks_saved None f x -> exists k, 1 <= k /\ x = numbered (f ++ lit "-") k (lit ".npz")) ->
    forall found, goes_on Numpy found -> exists found', scan None f l (found, Some (-1)) = Ok (found', Some (-1))).
  { induction l as [|x l IH]; intros Hl found G; [exists found; reflexivity|]. cbn [scan].
    destruct (looks_saved_dec None f x) as [L|L].
    - destruct (Hl x (or_introl eq_refl) L) as [k [Hk ->]]. rewrite scan_step_dash by assumption. cbn [bind].
      apply IH; [|right; reflexivity]. intros y Hy. apply Hl. right. exact Hy.
    - rewrite scan_step_skip by exact L. cbn [bind]. apply IH; [|exact G]. intros y Hy. apply Hl. right. exact Hy. }
  destruct (S (map fst (d_files V spec d)) ltac:(intros x Hx; apply H; exact Hx) None (or_introl eq_refl)) as [found' E].
  rewrite E. reflexivity.
Qed.

(** C79: the dot in front of a hidden file's name does not begin an extension. *)
Theorem C79_hidden : forall (d : dir) f c,
  ~ In "."%char f -> present d ("."%char :: f ++ lit ".json") -> c = file d ("."%char :: f ++ lit ".json") ->
  load_spec V spec d (Some ("."%char :: f)) = c.
Proof.
  intros d f c Hf P ->. unfold load_spec.
  assert (S : splitext ("."%char :: f) = "."%char :: f).
  { unfold splitext. change ("."%char :: f) with ([] ++ "."%char :: f). rewrite rfind_last by exact Hf. reflexivity. }
  rewrite S. cbn [app]. destruct (isfile V spec d ("."%char :: f ++ lit ".json")) eqn:E; [reflexivity|].
  apply isfile_false in E. contradiction.
Qed.
End Props.

(* files of agent "agent-" next to none of agent "agent" *)
Example C56_dash_example :
  let d := run_save empty (example_agent "agent-" 5 1) None Numpy (Some Timesteps) in
  (exists x, present (list Z) string d x /\ looks_saved None (lit "agent") x) /\
  select_file (list Z) string d (lit "agent") None = Err "Checkpoint does not exist".
Proof.
  cbv zeta. split; [|vm_compute; reflexivity]. exists (lit "agent--5.npz"). split; [left; vm_compute; reflexivity|].
  split; [exists (lit "--5.npz"); reflexivity|]. left. split; [left; reflexivity|]. exists (lit "agent--5"). reflexivity.
Qed.
(* numbered 0 they are *)
Theorem C56_dash_refuted :
  let d := run_save empty (example_agent "agent-" 0 1) None Numpy (Some Timesteps) in
  select_file (list Z) string d (lit "agent") None = Ok (lit "agent-0", Numpy) /\
  ~ present (list Z) string d (lit "agent-0.npz").
Proof.
  cbv zeta. split; [vm_compute; reflexivity|]. intros H. vm_compute in H. intuition discriminate.
Qed.
Example C79_hidden_example :
  load_spec Z Z {| d_files := [(lit ".agent.json", SpecFile Z Z 3)]; d_latest := None |} (Some (lit ".agent"))
  = Some (SpecFile Z Z 3).
Proof. reflexivity. Qed.

Print Assumptions C56_dash.
Print Assumptions C56_dash_refuted.
Print Assumptions C79_hidden.
