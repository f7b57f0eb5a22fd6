(** Series of checkpoints, ambiguous directories, and the specification file. *)

From Coq Require Import String Ascii List ZArith Lia Bool.
From Verif Require Import Base SaveModel SaveSpec SaveProofs SaveProofs2 SaveProofs3.
Import ListNotations.
Open Scope Z_scope.

Section Restore.
Variable V : Type.
Variable shape : V -> list nat.
Variable item : V -> Z.
Variable spec : Type.
Notation dir := (dir V spec).
Notation agent := (agent V).
Notation present := (present V spec).
Notation file d x := (lookup x (d_files V spec d)).

(** ** Series of checkpoints *)

Lemma checkpoint_names : forall f u (d0 : dir) l d,
  saves V item spec f Checkpoint u d0 l d ->
  forall x, present d x ->
  present d0 x \/ x = f ++ lit ".json" \/ x = lit "checkpoint" \/
  exists r, x = f ++ lit "-" ++ r /\ (ends (lit "x") x \/ ends (lit "1") x).
Proof.
  intros f u d0 l d H. induction H as [|l d a js a' d' path H IH Hs]; intros x Hx.
  { left. exact Hx. }
  destruct (save_checkpoint V item spec d a (Some f) (Some u) js a' d' path Hs)
    as [stem [k [[[C _]|[u' [n [Eu [En Es]]]]] [Ep [_ [_ [_ Hp]]]]]]]; [discriminate C|].
  cbn [base] in *.
  destruct (Hp x Hx) as [E|[E|[E|[E|Hd]]]].
  - right. right. right. exists (show n ++ lit "-" ++ show k ++ lit ".index").
    split; [rewrite E, Ep, Es, <- !app_assoc; reflexivity|].
    left. exists (path ++ lit ".inde"). rewrite E, <- app_assoc. reflexivity.
  - right. right. right. exists (show n ++ lit "-" ++ show k ++ lit ".data-00000-of-00001").
    split; [rewrite E, Ep, Es, <- !app_assoc; reflexivity|].
    right. exists (path ++ lit ".data-00000-of-0000"). rewrite E, <- app_assoc. reflexivity.
  - tauto.
  - tauto.
  - apply IH. exact Hd.
Qed.

Lemma ends_saved : forall fmt f x c r, x = r ++ [c] -> c <> "z"%char -> c <> "5"%char ->
  ~ looks_saved fmt f x.
Proof.
  intros fmt f x c r E N1 N2 [_ [[_ H]|[_ H]]].
  - destruct (npz_last x H) as [r' E']. rewrite E in E'. apply app_inj_tail in E'.
    destruct E'. congruence.
  - destruct (hdf5_last x H) as [r' E']. rewrite E in E'. apply app_inj_tail in E'.
    destruct E'. congruence.
Qed.

Lemma latest_checkpoint_restored : forall f u (d0 : dir) l s d a fmt t e up,
  admits fmt Checkpoint ->
  saves V item spec f Checkpoint u d0 (l ++ [s]) d ->
  (forall x, present d0 x -> ~ begins f x) -> f <> lit "checkpoint" ->
  same_agent V shape a s -> NoDup (map fst (a_saved V s ++ a_unsaved V s)) ->
  counters_of V item s t e up ->
  restore V shape item spec d a (Some f) fmt =
  (Agent V (a_name V a) (a_saved V s) (a_unsaved V s) (a_save_counter V s + 1) (t, e, up), Ok tt).
Proof.
  intros f u d0 l s d a fmt t e up Ha Hs Hd0 Hf Same Nd Cs.
  pose proof (checkpoint_names f u d0 _ d Hs) as Hnames.
  inversion Hs as [Hnil|l' d1 s' js a' d' path Hs' Hsave El Ed].
  { symmetry in Hnil. apply app_eq_nil in Hnil. destruct Hnil; discriminate. }
  apply app_inj_tail in El. destruct El as [-> ->]. subst d'.
  destruct (save_checkpoint V item spec d1 s (Some f) (Some u) js a' d path Hsave)
    as [stem [k [_ [Ep [-> [Hlat [Hfile _]]]]]]].
  apply (restore_checkpoint V shape item spec d a s f fmt path); try assumption.
  assert (forall x, present d x -> begins f x ->
            x = f ++ lit ".json" \/ x = lit "checkpoint" \/
            exists r, x = f ++ lit "-" ++ r /\ (ends (lit "x") x \/ ends (lit "1") x)) as Hx.
  { intros x Px Bx. destruct (Hnames x Px) as [K|K]; [destruct (Hd0 x K Bx)|exact K]. }
  rewrite select_checkpoint; [|exact Ha| |].
  - assert (isfile V spec d (f ++ lit ".index") = false) as ->.
    { apply isfile_false. intros P. destruct (Hx _ P ltac:(eexists; reflexivity)) as [K|[K|[r [K _]]]].
      - apply app_inv_head in K. discriminate K.
      - replace (f ++ lit ".index") with ((f ++ lit ".inde") ++ ["x"%char]) in K
          by (rewrite <- app_assoc; reflexivity).
        change (lit "checkpoint") with (lit "checkpoin" ++ ["t"%char]) in K.
        apply app_inj_tail in K. destruct K. discriminate.
      - apply app_inv_head in K. discriminate K. }
    unfold latest_checkpoint. rewrite Hlat. unfold isfile. rewrite Hfile. reflexivity.
  - intros x Px Lx. destruct (Hx x Px (proj1 Lx)) as [K|[K|[r [_ [[w K]|[w K]]]]]]; revert Lx.
    + apply (ends_saved fmt f x "n" (f ++ lit ".jso")); [|discriminate..].
      rewrite K, <- app_assoc. reflexivity.
    + apply (ends_saved fmt f x "t" (lit "checkpoin")); [exact K|discriminate..].
    + apply (ends_saved fmt f x "x" w); [exact K|discriminate..].
    + apply (ends_saved fmt f x "1" w); [exact K|discriminate..].
  - intros P. destruct (Hx f P ltac:(exists []; symmetry; apply app_nil_r)) as [K|[K|[r [K _]]]].
    + rewrite <- (app_nil_r f) in K at 1. apply app_inv_head in K. discriminate K.
    + exact (Hf K).
    + rewrite <- (app_nil_r f) in K at 1. apply app_inv_head in K. discriminate K.
Qed.

(** ** Two formats *)

Lemma assert_true : forall b msg, assert_ b msg = Ok tt -> b = true.
Proof. intros [] msg H; [reflexivity|discriminate H]. Qed.

Lemma scan_step_found : forall f x found latest found' latest',
  scan_step None f x (found, latest) = Ok (found', latest') ->
  (forall g, found = Some g -> found' = Some g) /\
  (begins f x -> ends (lit ".npz") x -> found' = Some Numpy) /\
  (begins f x -> ends (lit ".hdf5") x \/ ends (lit ".h5") x -> found' = Some Hdf5).
Proof.
  intros f x found latest found' latest' H. unfold scan_step in H.
  cbn [may_be andb] in H.
  assert (forall e, name_eqb x (f ++ e) = true -> begins f x /\ ends e x) as Q.
  { intros e He. destruct (name_eqb_spec x (f ++ e)) as [->|]; [|discriminate He].
    split; [eexists; reflexivity|apply ends_app]. }
  destruct (name_eqb x (f ++ lit ".npz")) eqn:E1.
  { destruct (Q _ E1) as [B E]. destruct found as [h|]; [discriminate H|].
    cbn in H. injection H as <- <-. split; [discriminate|]. split; [reflexivity|].
    intros _ K. apply hdf5_not_npz in K. apply ends_with_spec in E. congruence. }
  destruct (starts_with f x && ends_with (lit ".npz") x) eqn:E2.
  { apply andb_true_iff in E2. destruct E2 as [_ E2]. apply ends_with_spec in E2.
    assert (found' = Some Numpy /\ (found = None \/ found = Some Numpy)) as [-> Hf].
    { destruct found as [[]|]; try discriminate H; cbn [assert_ bind] in H;
        destruct (parse_int _); cbn [bind] in H; try discriminate H;
        destruct latest; cbn [bind] in H; try discriminate H;
        injection H as <- <-; auto. }
    split; [intros g Hg; destruct Hf; congruence|]. split; [reflexivity|].
    intros _ K. apply hdf5_not_npz in K. apply ends_with_spec in E2. congruence. }
  assert (begins f x -> ends (lit ".npz") x -> False) as Nnpz.
  { intros B E. apply starts_with_spec in B. apply ends_with_spec in E. rewrite B, E in E2. discriminate. }
  destruct (name_eqb x (f ++ lit ".hdf5") || name_eqb x (f ++ lit ".h5")) eqn:E3.
  { destruct found as [h|]; [discriminate H|]. cbn in H. injection H as <- <-.
    split; [discriminate|]. split; [intros B E; destruct (Nnpz B E)|reflexivity]. }
  destruct (starts_with f x && (ends_with (lit ".hdf5") x || ends_with (lit ".h5") x)) eqn:E4.
  { assert (found' = Some Hdf5 /\ (found = None \/ found = Some Hdf5)) as [-> Hf].
    { destruct found as [[]|]; try discriminate H; cbn [assert_ bind] in H;
        destruct (parse_int _); cbn [bind] in H; try discriminate H;
        destruct latest; cbn [bind] in H; try discriminate H;
        injection H as <- <-; auto. }
    split; [intros g Hg; destruct Hf; congruence|].
    split; [intros B E; destruct (Nnpz B E)|reflexivity]. }
  injection H as <- <-. split; [auto|]. split; [intros B E; destruct (Nnpz B E)|].
  intros B K. apply starts_with_spec in B. rewrite B in E4. cbn [andb] in E4.
  apply orb_false_iff in E4. destruct E4 as [F1 F2].
  destruct K as [K|K]; apply ends_with_spec in K; congruence.
Qed.

Lemma scan_found : forall f listing found latest found' latest',
  scan None f listing (found, latest) = Ok (found', latest') ->
  (forall g, found = Some g -> found' = Some g) /\
  (forall x, In x listing ->
    (begins f x -> ends (lit ".npz") x -> found' = Some Numpy) /\
    (begins f x -> ends (lit ".hdf5") x \/ ends (lit ".h5") x -> found' = Some Hdf5)).
Proof.
  intros f listing. induction listing as [|x listing IH]; intros found latest found' latest' H.
  { cbn in H. injection H as <- <-. split; [auto|]. intros x []. }
  cbn [scan] in H.
  destruct (scan_step None f x (found, latest)) as [[found1 latest1]|] eqn:E; [|discriminate H].
  cbn [bind] in H. destruct (scan_step_found _ _ _ _ _ _ E) as [A1 [A2 A3]].
  destruct (IH _ _ _ _ H) as [B1 B2]. split; [intros g Hg; apply B1, A1, Hg|].
  intros y [<-|Hy]; [|exact (B2 y Hy)].
  split; intros B C; apply B1; auto.
Qed.

(** ** The specification file *)

Lemma rfind_none : forall c x, ~ In c x -> rfind c x = None.
Proof.
  intros c. induction x as [|a x IH]; intros H; [reflexivity|]. cbn.
  rewrite IH by (intros K; apply H; right; exact K).
  destruct (Ascii.eqb_spec a c) as [->|]; [|reflexivity]. exfalso. apply H. left. reflexivity.
Qed.

Lemma rfind_some : forall c x k, rfind c x = Some k ->
  exists b r, x = b ++ c :: r /\ k = length b /\ ~ In c r.
Proof.
  intros c. induction x as [|a x IH]; intros k H; [discriminate H|]. cbn in H.
  destruct (rfind c x) as [j|] eqn:E.
  - injection H as <-. destruct (IH j eq_refl) as [b [r [-> [-> N]]]].
    exists (a :: b), r. repeat split. exact N.
  - destruct (Ascii.eqb_spec a c) as [->|]; [|discriminate H]. injection H as <-.
    exists [], x. repeat split. clear IH. induction x as [|d x IHx]; [intros []|].
    cbn in E. destruct (rfind c x); [discriminate E|].
    destruct (Ascii.eqb_spec d c) as [|N]; [discriminate E|].
    intros [C|C]; [congruence|]. apply IHx; [reflexivity|exact C].
Qed.

Lemma digit_listed : forall c, is_digit c = true -> In c (lit "0123456789").
Proof.
  intros c H. apply digit_range in H.
  rewrite <- (ascii_nat_embedding c).
  assert (exists d, (d < 10)%nat /\ nat_of_ascii c = (48 + d)%nat) as [d [Hd ->]].
  { exists (nat_of_ascii c - 48)%nat. lia. }
  do 10 (destruct d as [|d]; [vm_compute; tauto|]). lia.
Qed.

Lemma rfind_last : forall c f r, ~ In c r -> rfind c (f ++ c :: r) = Some (length f).
Proof.
  intros c f r H. induction f as [|a f IH]; cbn.
  - rewrite rfind_none by exact H. rewrite Ascii.eqb_refl. reflexivity.
  - rewrite IH. reflexivity.
Qed.

Lemma show_no : forall n c, 0 <= n -> is_digit c = false -> ~ In c (show n).
Proof.
  intros n c Hn Hc H. destruct (show_spec n Hn) as [b [ds [E [D _]]]]. rewrite E in H.
  rewrite forallb_forall in D. rewrite (D c H) in Hc. discriminate.
Qed.

Lemma splitext_none : forall x, ~ In "."%char x -> splitext x = x.
Proof. intros x H. unfold splitext. rewrite rfind_none by exact H. reflexivity. Qed.

Lemma splitext_ext : forall x e c, ~ In "."%char e -> In c x -> c <> "."%char ->
  splitext (x ++ "."%char :: e) = x.
Proof.
  intros x e c He Hc N. unfold splitext. rewrite rfind_last by exact He.
  assert (firstn (length x) (x ++ "."%char :: e) = x) as ->.
  { rewrite firstn_app, firstn_all, Nat.sub_diag, firstn_O, app_nil_r. reflexivity. }
  destruct (forallb (Ascii.eqb ".") x) eqn:F; [|reflexivity].
  rewrite forallb_forall in F. specialize (F c Hc). apply Ascii.eqb_eq in F. congruence.
Qed.

Lemma spec_found : forall (d : dir) f n x,
  0 <= n -> ~ present d (f ++ lit "-" ++ show n ++ lit ".json") ->
  splitext x = f ++ lit "-" ++ show n ->
  load_spec V spec d (Some x) = file d (f ++ lit ".json").
Proof.
  intros d f n x Hn Hp E. unfold load_spec. rewrite E.
  replace ((f ++ lit "-" ++ show n) ++ lit ".json") with (f ++ lit "-" ++ show n ++ lit ".json")
    by (rewrite <- !app_assoc; reflexivity).
  rewrite (proj2 (isfile_false V spec d _) Hp). cbn [lit list_ascii_of_string app].
  rewrite rfind_last by (apply show_no; [exact Hn|reflexivity]).
  assert (skipn (S (length f)) (f ++ "-"%char :: show n) = show n) as ->.
  { replace (f ++ "-"%char :: show n) with ((f ++ ["-"%char]) ++ show n)
      by (rewrite <- app_assoc; reflexivity).
    replace (S (length f)) with (length (f ++ ["-"%char])) by (rewrite app_length; cbn; lia).
    rewrite skipn_app, skipn_all, Nat.sub_diag. reflexivity. }
  rewrite isdigit_show by exact Hn.
  rewrite firstn_app, firstn_all, Nat.sub_diag, firstn_O, app_nil_r. reflexivity.
Qed.

(** ** What a successful restore has read *)

Lemma assign_all_ok : forall (a : agent) st vs ws,
  assign_all V shape a st vs = (ws, Ok tt) ->
  map fst ws = map fst vs /\
  forall v y, In (v, y) ws -> exists k, variable_key V a v = Ok k /\ lookup k st = Some y.
Proof.
  intros a st vs. induction vs as [|[v x] vs IH]; intros ws H; cbn in H.
  { injection H as <-. split; [reflexivity|]. intros v y []. }
  destruct (variable_key V a v) as [k|] eqn:Ek; cbn [bind] in H; [|discriminate H].
  destruct (lookup k st) as [y|] eqn:El; [|discriminate H].
  unfold assign in H. destruct (list_eq_dec _ _ _); [|discriminate H].
  destruct (assign_all V shape a st vs) as [ws' r] eqn:E. injection H as <- ->.
  destruct (IH ws' eq_refl) as [A B]. split; [cbn; rewrite A; reflexivity|].
  intros w z [K|K]; [|exact (B w z K)]. injection K as <- <-. exists k. auto.
Qed.

Lemma assign_all_name : forall (a b : agent) st vs,
  a_name V a = a_name V b -> assign_all V shape a st vs = assign_all V shape b st vs.
Proof.
  intros a b st vs H. induction vs as [|[v x] vs IH]; [reflexivity|]. cbn.
  rewrite (variable_key_name V a b v H), IH. reflexivity.
Qed.

End Restore.
