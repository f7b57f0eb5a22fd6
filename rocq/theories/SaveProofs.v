(** Lemmas about file names, numbers and directories. *)

From Coq Require Import String Ascii List ZArith Lia Bool.
From Verif Require Import Base SaveModel SaveSpec.
Import ListNotations.
Open Scope Z_scope.

(** ** Strings *)

Lemma name_eqb_spec : forall a b, reflect (a = b) (name_eqb a b).
Proof.
  induction a as [|x a IH]; intros [|y b]; cbn; try (constructor; congruence).
  destruct (Ascii.eqb_spec x y) as [->|H]; cbn; [|constructor; congruence].
  destruct (IH b) as [->|H]; constructor; congruence.
Qed.

Lemma name_eqb_refl : forall a, name_eqb a a = true.
Proof. intros a. destruct (name_eqb_spec a a); congruence. Qed.

Lemma starts_with_spec : forall p x, starts_with p x = true <-> begins p x.
Proof.
  unfold begins. induction p as [|a p IH]; intros x; cbn.
  { split; [exists x; reflexivity|reflexivity]. }
  destruct x as [|b x].
  { split; [discriminate|intros [r Hr]; discriminate]. }
  rewrite andb_true_iff, IH, Ascii.eqb_eq. split.
  - intros [-> [r ->]]. exists r. reflexivity.
  - intros [r Hr]. injection Hr as -> ->. split; [reflexivity|exists r; reflexivity].
Qed.

Lemma ends_with_spec : forall e x, ends_with e x = true <-> ends e x.
Proof.
  intros e x. unfold ends_with. rewrite starts_with_spec. unfold begins, ends. split.
  - intros [r Hr]. exists (rev r). rewrite <- (rev_involutive x), Hr, rev_app_distr, rev_involutive.
    reflexivity.
  - intros [r ->]. exists (rev r). apply rev_app_distr.
Qed.

Lemma starts_with_false : forall p x, starts_with p x = false <-> ~ begins p x.
Proof.
  intros p x. rewrite <- starts_with_spec. destruct (starts_with p x); split; congruence.
Qed.

Lemma ends_with_false : forall e x, ends_with e x = false <-> ~ ends e x.
Proof.
  intros p x. rewrite <- ends_with_spec. destruct (ends_with p x); split; congruence.
Qed.

Lemma find_none : forall p x, ~ contains p x -> find p x = None.
Proof.
  intros p x. induction x as [|a x IH]; intros H; cbn [find].
  - destruct (starts_with p []) eqn:E; [|reflexivity].
    exfalso. apply H. apply starts_with_spec in E. destruct E as [r Hr].
    exists [], r. exact Hr.
  - destruct (starts_with p (a :: x)) eqn:E.
    + exfalso. apply H. apply starts_with_spec in E. destruct E as [r Hr]. exists [], r. exact Hr.
    + rewrite IH; [reflexivity|]. intros [u [v Huv]]. apply H. exists (a :: u), v.
      cbn. rewrite Huv. reflexivity.
Qed.

Lemma find_first : forall p x r, ~ contains p (x ++ removelast p) -> p <> [] ->
  find p (x ++ p ++ r) = Some (length x).
Proof.
  intros p x r. induction x as [|a x IH]; intros H Np.
  - cbn [app length]. destruct p as [|c p]; [congruence|].
    cbn [app find]. assert (starts_with (c :: p) (c :: p ++ r) = true) as ->; [|reflexivity].
    apply starts_with_spec. exists r. reflexivity.
  - cbn [app find length].
    destruct (starts_with p (a :: x ++ p ++ r)) eqn:E.
    + exfalso. apply H. apply starts_with_spec in E. destruct E as [q Hq].
      destruct (exists_last Np) as [p' [z Ez]].
      assert (firstn (length p) ((a :: x) ++ p') = p) as F.
      { assert (firstn (length p) (((a :: x) ++ p') ++ z :: r) = p) as F.
        { replace (((a :: x) ++ p') ++ z :: r) with (a :: x ++ p ++ r)
            by (rewrite Ez, <- !app_assoc; reflexivity).
          rewrite Hq, firstn_app, firstn_all, Nat.sub_diag, firstn_O. apply app_nil_r. }
        rewrite firstn_app in F.
        replace (length p - length ((a :: x) ++ p'))%nat with 0%nat in F.
        - rewrite firstn_O, app_nil_r in F. exact F.
        - rewrite Ez, !app_length. cbn [length]. lia. }
      exists [], (skipn (length p) ((a :: x) ++ p')). cbn [app].
      rewrite Ez at 1. rewrite removelast_last. rewrite <- F at 1. symmetry. apply firstn_skipn.
    + rewrite IH; [reflexivity| |exact Np]. intros [u [v Huv]]. apply H. exists (a :: u), v.
      cbn. rewrite Huv. reflexivity.
Qed.

(** The end of a string determines its extension. *)
Lemma ends_app : forall e x, ends e (x ++ e).
Proof. intros e x. exists x. reflexivity. Qed.

Lemma ends_same_length : forall e e' x, length e = length e' -> ends e (x ++ e') -> e = e'.
Proof.
  intros e e' x L [r H]. apply (f_equal (@rev ascii)) in H. rewrite !rev_app_distr in H.
  assert (rev e = rev e') as E.
  { apply (f_equal (firstn (length e))) in H. rewrite L in H at 1.
    rewrite <- (rev_length e'), <- (rev_length e) in H.
    rewrite !firstn_app, !firstn_all, !Nat.sub_diag, !firstn_O, !app_nil_r in H. congruence. }
  rewrite <- (rev_involutive e), E. apply rev_involutive.
Qed.

Lemma ends_last : forall e c x d, ends (e ++ [c]) (x ++ [d]) -> c = d.
Proof.
  intros e c x d [r H]. rewrite app_assoc in H. apply app_inj_tail in H. symmetry. apply H.
Qed.

(** ** Slices *)

Lemma slice_middle : forall (f m e : name),
  (0 < length e)%nat ->
  slice (f ++ m ++ e) (Z.of_nat (length f)) (- Z.of_nat (length e)) = m.
Proof.
  intros f m e He. unfold slice, slice_bound. rewrite !app_length.
  replace (Z.of_nat (length f) <? 0) with false by (symmetry; apply Z.ltb_ge; lia).
  replace (- Z.of_nat (length e) <? 0) with true by (symmetry; apply Z.ltb_lt; lia).
  rewrite Z.min_l by lia. rewrite Z.max_r by lia.
  rewrite Nat2Z.id.
  replace (Z.to_nat _) with (length m) by lia.
  rewrite skipn_app, skipn_all, Nat.sub_diag. cbn.
  rewrite firstn_app, firstn_all, Nat.sub_diag, firstn_O, app_nil_r. reflexivity.
Qed.

Lemma slice_begin : forall (m e : name),
  (0 < length e)%nat -> slice (m ++ e) 0 (- Z.of_nat (length e)) = m.
Proof. intros m e He. exact (slice_middle [] m e He). Qed.

(** ** Numbers *)

Lemma digit_range : forall c, is_digit c = true <-> 48 <= Z.of_nat (nat_of_ascii c) <= 57.
Proof. intros c. unfold is_digit. rewrite andb_true_iff, !Z.leb_le. reflexivity. Qed.

Lemma digit_char_value : forall d, 0 <= d < 10 ->
  is_digit (digit_char d) = true /\ digit_value (digit_char d) = d.
Proof.
  intros d Hd. unfold digit_char, digit_value.
  assert (nat_of_ascii (ascii_of_nat (Z.to_nat (d + 48))) = Z.to_nat (d + 48)) as E.
  { apply nat_ascii_embedding. lia. }
  rewrite digit_range, E. lia.
Qed.

Lemma show_digits_spec : forall fuel n acc,
  0 <= n -> n < 2 ^ Z.of_nat fuel -> (0 < fuel)%nat ->
  exists ds, show_digits fuel n acc = ds ++ acc /\ forallb is_digit ds = true /\ ds <> [] /\
    forall r, digits 0 (ds ++ r) = digits n r.
Proof.
  induction fuel as [|fuel IH]; intros n acc Hn Hl Hf; [lia|].
  cbn [show_digits]. cbv zeta.
  assert (0 <= n mod 10 < 10) as Hm by (apply Z.mod_pos_bound; lia).
  destruct (digit_char_value _ Hm) as [D1 D2].
  destruct (n <? 10) eqn:E.
  { apply Z.ltb_lt in E. exists [digit_char (n mod 10)]. split; [reflexivity|].
    split; [cbn; rewrite D1; reflexivity|]. split; [discriminate|].
    intros r. cbn [app digits]. rewrite D1, D2, Z.mod_small by lia. f_equal. }
  apply Z.ltb_ge in E.
  assert (n / 10 < 2 ^ Z.of_nat fuel) as Hq.
  { apply Z.div_lt_upper_bound; [lia|]. rewrite Nat2Z.inj_succ, Z.pow_succ_r in Hl by lia. lia. }
  assert (0 < fuel)%nat as Hf'.
  { destruct fuel; [|lia]. cbn in Hl. lia. }
  destruct (IH (n / 10) (digit_char (n mod 10) :: acc) ltac:(apply Z.div_pos; lia) Hq Hf')
    as [ds [E1 [E2 [E3 E4]]]].
  exists (ds ++ [digit_char (n mod 10)]). split; [rewrite E1, <- app_assoc; reflexivity|].
  split; [rewrite forallb_app, E2; cbn; rewrite D1; reflexivity|].
  split; [intros C; apply app_eq_nil in C; destruct C; discriminate|].
  intros r. rewrite <- app_assoc. rewrite E4. cbn [app digits]. rewrite D1, D2.
  f_equal. pose proof (Z.div_mod n 10 ltac:(lia)). lia.
Qed.

Lemma show_spec : forall n, 0 <= n ->
  exists c ds, show n = c :: ds /\ forallb is_digit (c :: ds) = true /\
    digits 0 (c :: ds) = Some n.
Proof.
  intros n Hn. unfold show. replace (n <? 0) with false by (symmetry; apply Z.ltb_ge; lia).
  assert (n < 2 ^ Z.of_nat (S (Z.to_nat (Z.log2 n)))) as Hl.
  { rewrite Nat2Z.inj_succ, Z2Nat.id by apply Z.log2_nonneg.
    destruct (Z.eq_dec n 0) as [->|]; [reflexivity|].
    apply Z.log2_spec; lia. }
  destruct (show_digits_spec (S (Z.to_nat (Z.log2 n))) n [] Hn Hl ltac:(lia))
    as [ds [E1 [E2 [E3 E4]]]].
  rewrite E1, app_nil_r. destruct ds as [|c ds]; [congruence|].
  exists c, ds. split; [reflexivity|]. split; [exact E2|].
  specialize (E4 []). rewrite app_nil_r in E4. exact E4.
Qed.

Lemma digit_not_space : forall c, is_digit c = true -> is_space c = false.
Proof.
  intros c H. apply digit_range in H. unfold is_space.
  rewrite !orb_false_iff, !andb_false_iff, Z.eqb_neq, !Z.leb_gt. lia.
Qed.

Lemma strip_digits : forall x, forallb is_digit x = true -> strip x = x.
Proof.
  assert (forall x, forallb is_digit x = true -> lstrip x = x) as H.
  { intros [|c x] Hx; [reflexivity|]. cbn in *. apply andb_true_iff in Hx.
    rewrite digit_not_space by apply Hx. reflexivity. }
  intros x Hx. unfold strip. rewrite (H x) by exact Hx. rewrite H, rev_involutive; [reflexivity|].
  rewrite forallb_forall in *. intros y Hy. apply Hx, in_rev, Hy.
Qed.

Lemma parse_show : forall n, 0 <= n -> parse_int (show n) = Ok n.
Proof.
  intros n Hn. destruct (show_spec n Hn) as [c [ds [E1 [E2 E3]]]].
  unfold parse_int. rewrite E1, strip_digits by exact E2.
  cbn [forallb] in E2. apply andb_true_iff in E2. destruct E2 as [D Ds].
  replace (Ascii.eqb c "-") with false
    by (symmetry; apply Ascii.eqb_neq; intros ->; discriminate).
  replace (Ascii.eqb c "+") with false
    by (symmetry; apply Ascii.eqb_neq; intros ->; discriminate).
  unfold unsigned. rewrite D. cbn [digits] in E3. rewrite D in E3.
  replace (10 * 0 + digit_value c) with (digit_value c) in E3 by lia.
  rewrite E3. reflexivity.
Qed.

Lemma show_inj : forall m n, 0 <= m -> 0 <= n -> show m = show n -> m = n.
Proof.
  intros m n Hm Hn E. pose proof (parse_show m Hm) as P. rewrite E, parse_show in P by exact Hn.
  congruence.
Qed.

Lemma isdigit_show : forall n, 0 <= n -> isdigit (show n) = true.
Proof.
  intros n Hn. destruct (show_spec n Hn) as [c [ds [-> [E _]]]]. exact E.
Qed.

(** ** Directories *)

Section Dir.
Context {A : Type}.

Lemma lookup_in : forall x (l : list (name * A)),
  lookup x l <> None <-> In x (map fst l).
Proof.
  intros x. induction l as [|[y e] l IH]; cbn; [split; congruence|].
  destruct (name_eqb_spec x y) as [->|N].
  - split; [left; reflexivity|congruence].
  - rewrite IH. split; [right; assumption|]. intros [H|H]; [congruence|exact H].
Qed.

Lemma lookup_none : forall x (l : list (name * A)),
  lookup x l = None <-> ~ In x (map fst l).
Proof.
  intros x l. rewrite <- lookup_in. destruct (lookup x l).
  - split; [discriminate|]. intros H. exfalso. apply H. discriminate.
  - split; [intros _ H; apply H; reflexivity|reflexivity].
Qed.

Lemma lookup_put_same : forall x (c : A) l, lookup x (put x c l) = Some c.
Proof.
  intros x c. induction l as [|[y e] l IH]; cbn; [rewrite name_eqb_refl; reflexivity|].
  destruct (name_eqb_spec x y) as [->|N]; cbn.
  - rewrite name_eqb_refl. reflexivity.
  - destruct (name_eqb_spec x y); [congruence|exact IH].
Qed.

Lemma lookup_put_other : forall x y (c : A) l, x <> y -> lookup x (put y c l) = lookup x l.
Proof.
  intros x y c l N. induction l as [|[z e] l IH]; cbn.
  - destruct (name_eqb_spec x y); congruence.
  - destruct (name_eqb_spec y z) as [->|M]; cbn.
    + destruct (name_eqb_spec x z); congruence.
    + rewrite IH. reflexivity.
Qed.

Lemma in_put : forall x y (c : A) l, In x (map fst (put y c l)) <-> x = y \/ In x (map fst l).
Proof.
  intros x y c l. rewrite <- !lookup_in. destruct (name_eqb_spec x y) as [->|N].
  - rewrite lookup_put_same. split; [left; reflexivity|discriminate].
  - rewrite lookup_put_other by exact N. split; [right; assumption|]. intros [?|?]; congruence.
Qed.

Lemma lookup_remove_other : forall x y (l : list (name * A)), x <> y ->
  lookup x (remove y l) = lookup x l.
Proof.
  intros x y l N. induction l as [|[z e] l IH]; cbn; [reflexivity|].
  destruct (name_eqb_spec y z) as [->|M]; cbn.
  - destruct (name_eqb_spec x z); [congruence|exact IH].
  - rewrite IH. reflexivity.
Qed.

Lemma in_remove : forall x y (l : list (name * A)),
  In x (map fst (remove y l)) -> In x (map fst l).
Proof.
  intros x y l. induction l as [|[z e] l IH]; cbn; [tauto|].
  destruct (name_eqb_spec y z) as [->|M]; cbn; tauto.
Qed.

Lemma lookup_app_none : forall x (l r : list (name * A)),
  lookup x (l ++ r) = match lookup x l with Some c => Some c | None => lookup x r end.
Proof.
  intros x l r. induction l as [|[y e] l IH]; cbn; [reflexivity|].
  destruct (name_eqb x y); [reflexivity|exact IH].
Qed.

End Dir.

Lemma isfile_spec : forall V spec (d : dir V spec) x,
  isfile V spec d x = true <-> present V spec d x.
Proof.
  intros V spec d x. unfold isfile, present. rewrite <- lookup_in.
  destruct (lookup x (d_files V spec d)); split; congruence.
Qed.

Lemma isfile_false : forall V spec (d : dir V spec) x,
  isfile V spec d x = false <-> ~ present V spec d x.
Proof.
  intros V spec d x. rewrite <- isfile_spec. destruct (isfile V spec d x); split; congruence.
Qed.
