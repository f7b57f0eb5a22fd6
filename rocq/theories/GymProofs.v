(** Proofs about names of OpenAIGym. *)

From Coq Require Import String Ascii List ZArith Reals Bool Lia Decimal DecimalString DecimalNat.
From Verif Require Import Base ParModel GymModel GymEnvModel GymSpec.
Import ListNotations.
Open Scope string_scope.

(** * Strings *)

Lemma app_assoc_s : forall a b c : string, (a ++ b) ++ c = a ++ (b ++ c).
Proof. induction a as [| x a IH]; intros; [reflexivity |]. cbn. rewrite IH. reflexivity. Qed.

Lemma app_nil_s : forall a : string, a ++ "" = a.
Proof. induction a as [| x a IH]; [reflexivity |]. cbn. rewrite IH. reflexivity. Qed.

Lemma app_inj_s : forall a b c : string, a ++ b = a ++ c -> b = c.
Proof. induction a as [| x a IH]; intros b c H; [exact H |]. cbn in H. injection H as H. auto. Qed.

Lemma prefix_app : forall a b, String.prefix a (a ++ b) = true.
Proof.
  induction a as [| x a IH]; intros b; [destruct b; reflexivity |]. cbn [String.append String.prefix].
  destruct (ascii_dec x x); [apply IH | congruence].
Qed.

Lemma prefix_spec : forall a s, String.prefix a s = true -> exists r, s = a ++ r.
Proof.
  induction a as [| x a IH]; intros s H; [exists s; reflexivity |].
  destruct s as [| y s]; [discriminate |]. cbn [String.prefix] in H.
  destruct (ascii_dec x y) as [-> | N]; [| discriminate].
  apply IH in H. destruct H as [r ->]. exists r. reflexivity.
Qed.

Lemma prefix_same : forall p a b, String.prefix (p ++ a) (p ++ b) = String.prefix a b.
Proof.
  induction p as [| x p IH]; intros; [reflexivity |]. cbn [String.append String.prefix].
  destruct (ascii_dec x x); [apply IH | congruence].
Qed.

Lemma cut_plain : forall s, plain_name s = true -> cut s = None.
Proof.
  induction s as [| c s IH]; intro H; [reflexivity |]. cbn in *. apply andb_prop in H. destruct H as [H1 H2].
  apply negb_true_iff in H1. rewrite H1, (IH H2). reflexivity.
Qed.

Lemma cut_app : forall k r, plain_name k = true -> cut (k ++ "_" ++ r) = Some (k, r).
Proof.
  induction k as [| c k IH]; intros r H; [reflexivity |]. cbn in H. apply andb_prop in H. destruct H as [H1 H2].
  apply negb_true_iff in H1. specialize (IH r H2). cbn [String.append cut] in *. rewrite H1, IH. reflexivity.
Qed.

Lemma plain_app : forall a b, plain_name (a ++ b) = plain_name a && plain_name b.
Proof. induction a as [| c a IH]; intro b; [reflexivity |]. cbn. rewrite IH. apply andb_assoc. Qed.

Lemma prefix_under : forall p k r, plain_name p = true -> String.prefix p (k ++ "_" ++ r) = String.prefix p k.
Proof.
  induction p as [| c p IH]; intros k r H; [destruct k; reflexivity |].
  cbn in H. apply andb_prop in H. destruct H as [H1 H2]. apply negb_true_iff in H1.
  destruct k as [| d k].
  - cbn [String.append String.prefix]. destruct (ascii_dec c "_"); [subst c; discriminate | reflexivity].
  - cbn [String.append String.prefix]. destruct (ascii_dec c d); [apply (IH k r H2) | reflexivity].
Qed.

Lemma prefix_plain : forall a s, plain_name s = true -> plain_name a = false -> String.prefix a s = false.
Proof.
  intros a s H1 H2. destruct (String.prefix a s) eqn:E; [| reflexivity].
  apply prefix_spec in E. destruct E as [r ->]. rewrite plain_app, H2 in H1. discriminate.
Qed.

(** Decimal numbers *)
Lemma uint_plain : forall d, plain_name (NilEmpty.string_of_uint d) = true.
Proof. induction d; cbn; auto. Qed.

Lemma str_plain : forall n, plain_name (str n) = true.
Proof. intro n. apply uint_plain. Qed.

Lemma str_inj : forall n m, str n = str m -> n = m.
Proof.
  intros n m H. unfold str in H. apply (f_equal NilEmpty.uint_of_string) in H. rewrite !NilEmpty.usu in H. injection H as H.
  apply (f_equal Nat.of_uint) in H. rewrite !Unsigned.of_to in H. exact H.
Qed.

Lemma str_nonempty : forall n, str n <> "".
Proof.
  intros n H. unfold str in H.
  assert (N : Nat.to_uint n <> Nil) by (intro E; pose proof (Unsigned.of_to n) as O; rewrite E in O; cbn in O; subst n; discriminate).
  destruct (Nat.to_uint n); cbn in H; try discriminate. congruence.
Qed.

Lemma int_of_str : forall n, int_of (str n) = Ok n.
Proof.
  intro n. unfold int_of, str. rewrite NilEmpty.usu.
  destruct (String.eqb (NilEmpty.string_of_uint (Nat.to_uint n)) "") eqn:E.
  - apply String.eqb_eq in E. destruct (str_nonempty n E).
  - rewrite Unsigned.of_to. reflexivity.
Qed.

Lemma split_from_plain : forall s p, plain_name s = true -> split_from p s = [p ++ s].
Proof.
  induction s as [| c s IH]; intros p H; [cbn; rewrite app_nil_s; reflexivity |].
  cbn in H. apply andb_prop in H. destruct H as [H1 H2]. apply negb_true_iff in H1.
  cbn [split_from]. rewrite H1, (IH _ H2), app_assoc_s. reflexivity.
Qed.

Lemma split_from_app : forall s p r, plain_name s = true -> split_from p (s ++ "_" ++ r) = (p ++ s) :: split_from "" r.
Proof.
  induction s as [| c s IH]; intros p r H; [cbn; rewrite app_nil_s; reflexivity |].
  cbn in H. apply andb_prop in H. destruct H as [H1 H2]. apply negb_true_iff in H1.
  cbn [String.append split_from]. rewrite H1. change (s ++ String "_" r) with (s ++ "_" ++ r).
  rewrite (IH (p ++ String c "") r H2), app_assoc_s. reflexivity.
Qed.

Lemma split_join : forall l, l <> [] -> Forall (fun s => plain_name s = true) l -> split (join l) = l.
Proof.
  intros l N H. unfold split. induction H as [| s l Hs Hl IH]; [congruence |].
  destruct l as [| s' l]; [cbn [join]; rewrite split_from_plain by exact Hs; reflexivity |].
  change (join (s :: s' :: l)) with (s ++ "_" ++ join (s' :: l)).
  rewrite split_from_app by exact Hs. rewrite IH by discriminate. reflexivity.
Qed.

Lemma map_res_int : forall l, map_res int_of (map str l) = Ok l.
Proof. induction l as [| n l IH]; [reflexivity |]. cbn [map map_res]. rewrite int_of_str. cbn [bind]. rewrite IH. reflexivity. Qed.

(** * Dictionaries *)

Lemma dset_fresh : forall A (d : list (string * A)) k v, ~ In k (map fst d) -> dset d k v = (d ++ [(k, v)])%list.
Proof.
  induction d as [| (k', v') d IH]; intros k v H; [reflexivity |]. cbn [dset map fst In] in *.
  destruct (String.eqb_spec k k') as [-> | N]; [exfalso; auto |]. rewrite IH by auto. reflexivity.
Qed.

Lemma dset_last : forall A (d : list (string * A)) k v v', ~ In k (map fst d) -> dset (d ++ [(k, v)])%list k v' = (d ++ [(k, v')])%list.
Proof.
  induction d as [| (k', v'') d IH]; intros k v v' H; [cbn; rewrite String.eqb_refl; reflexivity |]. cbn [dset map fst In List.app] in *.
  destruct (String.eqb_spec k k') as [-> | N]; [exfalso; auto |]. rewrite IH by auto. reflexivity.
Qed.

Lemma dget_fresh : forall A (d : list (string * A)) k, ~ In k (map fst d) -> dget d k = None.
Proof.
  induction d as [| (k', v') d IH]; intros k H; [reflexivity |]. cbn [dget map fst In] in *.
  destruct (String.eqb_spec k k') as [-> | N]; [exfalso; auto |]. auto.
Qed.

Lemma dget_last : forall A (d : list (string * A)) k v, ~ In k (map fst d) -> dget (d ++ [(k, v)])%list k = Some v.
Proof.
  induction d as [| (k', v') d IH]; intros k v H; [cbn; rewrite String.eqb_refl; reflexivity |]. cbn [dget map fst In List.app] in *.
  destruct (String.eqb_spec k k') as [-> | N]; [exfalso; auto |]. auto.
Qed.

Lemma dget_In : forall A (d : list (string * A)) k v, NoDup (map fst d) -> In (k, v) d -> dget d k = Some v.
Proof.
  induction d as [| (k', v') d IH]; intros k v H I; [destruct I |]. cbn [dget map fst] in *.
  apply NoDup_cons_iff in H. destruct H as [H1 H2]. destruct I as [E | I].
  - injection E as -> ->. rewrite String.eqb_refl. reflexivity.
  - destruct (String.eqb_spec k k') as [-> | N]; [| auto]. destruct H1. apply in_map_iff. exists (k', v). auto.
Qed.

Lemma dset_all_fresh : forall A (f : string -> string) (items d : list (string * A)),
  NoDup (map fst d ++ map (fun kv => f (fst kv)) items)%list ->
  dset_all f items d = (d ++ map (fun kv => (f (fst kv), snd kv)) items)%list.
Proof.
  intros A f items. unfold dset_all. induction items as [| (k, v) items IH]; intros d H; [cbn; rewrite app_nil_r; reflexivity |].
  cbn [fold_left map fst snd] in *.
  assert (Hf : ~ In (f k) (map fst d)).
  { apply NoDup_remove_2 in H. intro I. apply H. apply in_or_app. auto. }
  rewrite dset_fresh by exact Hf. rewrite IH.
  - rewrite <- app_assoc. reflexivity.
  - rewrite map_app, <- app_assoc. exact H.
Qed.

(** * Induction over spaces and values *)

Definition simple (s : space) : bool := match s with Tup _ | Dct _ => false | _ => true end.

Lemma space_ind2 : forall P : space -> Prop,
  (forall s, simple s = true -> P s) -> (forall l, Forall P l -> P (Tup l)) ->
  (forall l, Forall (fun ks => P (snd ks)) l -> P (Dct l)) -> forall s, P s.
Proof.
  intros P H1 H2 H3. fix IH 1. intros [n | sh | sh nv | sh lo hi | l | l]; try (apply H1; reflexivity).
  - apply H2. induction l as [| s l IHl]; constructor; [apply IH | exact IHl].
  - apply H3. induction l as [| (k, s) l IHl]; constructor; [apply IH | exact IHl].
Qed.

Section RoundTrip.
Variable V : Type.
Variable finite : V -> bool.

Notation tarr := (TArr V).
Notation unfl := (unflatten V finite).

(** ** Entries of arrays *)

Definition mdc_items (shape : list nat) (start : nat) (data : list V) : list (string * tval V) :=
  map (fun iv => ("gymmdc" ++ str (fst iv) ++ "_" ++ join (map str shape), tarr [] [snd iv])) (combine (seq start (length data)) data).

Lemma mdc_items_cons : forall shape start x data,
  mdc_items shape start (x :: data) = ("gymmdc" ++ str start ++ "_" ++ join (map str shape), tarr [] [x]) :: mdc_items shape (S start) data.
Proof. reflexivity. Qed.

Lemma mdc_items_names : forall shape data start k, In k (map fst (mdc_items shape start data)) ->
  exists i, (start <= i < start + length data)%nat /\ k = "gymmdc" ++ str i ++ "_" ++ join (map str shape).
Proof.
  intros shape. induction data as [| x data IH]; intros start k H; [destruct H |].
  rewrite mdc_items_cons in H. cbn [map fst] in H. destruct H as [<- | H].
  - exists start. cbn [length]. split; [lia | reflexivity].
  - apply IH in H. destruct H as (i & Hi & ->). exists i. cbn [length]. split; [lia | reflexivity].
Qed.

Lemma mdc_name_inj : forall x i j, "gymmdc" ++ str i ++ "_" ++ x = "gymmdc" ++ str j ++ "_" ++ x -> i = j.
Proof.
  intros x i j H. apply app_inj_s in H. apply (f_equal cut) in H. rewrite !cut_app in H by apply str_plain.
  injection H as H. apply str_inj. exact H.
Qed.

Lemma mdc_items_nodup : forall shape data start, NoDup (map fst (mdc_items shape start data)).
Proof.
  intros shape. induction data as [| x data IH]; intro start; [constructor |].
  rewrite mdc_items_cons. cbn [map fst]. constructor; [| apply IH].
  intro I. apply mdc_items_names in I. destruct I as (i & Hi & E). apply mdc_name_inj in E. lia.
Qed.

Lemma all_start_mdc : forall shape data start, all_start "gymmdc" (mdc_items shape start data) = true.
Proof.
  intros shape. induction data as [| x data IH]; intro start; [reflexivity |].
  rewrite mdc_items_cons. cbn [all_start forallb fst]. rewrite prefix_app. apply IH.
Qed.

(** Prefixes of the names of entries *)
Lemma digit_prefix : forall i j x, (i < 10)%nat -> (j < 10)%nat -> String.prefix (str i) (str j ++ x) = Nat.eqb i j.
Proof.
  intros i j x Hi Hj. do 10 (destruct i as [| i]; [do 10 (destruct j as [| j]; [cbn; try (destruct x; reflexivity); reflexivity |]); lia |]). lia.
Qed.

Lemma filter_mdc : forall shape data start n, (start + length data <= 10)%nat -> (n < 10)%nat ->
  filter (fun kv => String.prefix ("gymmdc" ++ str n) (fst kv)) (mdc_items shape start data) =
  match (if Nat.leb start n then nth_error data (n - start) else None) with
  | Some x => [("gymmdc" ++ str n ++ "_" ++ join (map str shape), tarr [] [x])]
  | None => []
  end.
Proof.
  intros shape. induction data as [| x data IH]; intros start n H Hn.
  - destruct (Nat.leb start n); [destruct (n - start)%nat |]; reflexivity.
  - rewrite mdc_items_cons. cbn [filter fst]. rewrite prefix_same. cbn [length] in H.
    rewrite digit_prefix by lia. rewrite IH by lia.
    destruct (Nat.eqb_spec n start) as [-> | N].
    + rewrite Nat.leb_refl, Nat.sub_diag. cbn [nth_error].
      replace (Nat.leb (S start) start) with false by (symmetry; apply Nat.leb_gt; lia). reflexivity.
    + destruct (Nat.leb_spec start n) as [L | L].
      * replace (Nat.leb (S start) n) with true by (symmetry; apply Nat.leb_le; lia).
        replace (n - start)%nat with (S (n - S start)) by lia. reflexivity.
      * replace (Nat.leb (S start) n) with false by (symmetry; apply Nat.leb_gt; lia). reflexivity.
Qed.

Lemma exists_mdc : forall shape data start n,
  existsb (fun kv => String.prefix ("gymmdc" ++ str n ++ "_") (fst kv)) (mdc_items shape start data) =
  Nat.leb start n && Nat.ltb n (start + length data).
Proof.
  intros shape. induction data as [| x data IH]; intros start n.
  - cbn. symmetry. apply andb_false_iff. destruct (Nat.leb_spec start n); [right; apply Nat.ltb_ge; lia | left; reflexivity].
  - rewrite mdc_items_cons. cbn [existsb fst]. rewrite prefix_same, IH. cbn [length].
    assert (E : String.prefix (str n ++ "_") (str start ++ "_" ++ join (map str shape)) = Nat.eqb n start).
    { destruct (Nat.eqb_spec n start) as [-> | N].
      - rewrite <- app_assoc_s. apply prefix_app.
      - destruct (String.prefix _ _) eqn:E; [| reflexivity]. exfalso. apply N.
        apply prefix_spec in E. destruct E as [r E]. rewrite app_assoc_s in E.
        apply (f_equal cut) in E. change ("_" ++ r) with ("_" ++ r) in E. rewrite !cut_app in E by apply str_plain.
        injection E as E _. apply str_inj in E. auto. }
    rewrite E. clear E IH. destruct (Nat.eqb_spec n start) as [Q | N].
    + subst n. rewrite Nat.leb_refl. symmetry. apply Nat.ltb_lt. lia.
    + destruct (Nat.leb_spec start n), (Nat.leb_spec (S start) n), (Nat.ltb_spec n (S start + length data)), (Nat.ltb_spec n (start + S (length data))); cbn; try reflexivity; lia.
Qed.

Lemma stack_scalars : forall data, stack V (map (fun x => GArr V [] [x]) data) = Ok data.
Proof. induction data as [| x data IH]; [reflexivity |]. cbn [map stack]. rewrite IH. reflexivity. Qed.

Lemma parts_mdc : forall shape (data : list V) fuel n rec,
  (length data <= 10)%nat -> (n <= length data)%nat -> (length data - n < fuel)%nat ->
  (forall x, In x data -> rec (tarr [] [x]) = Ok (GArr V [] [x])) ->
  parts V rec "gymmdc" (mdc_items shape 0 data) n fuel = Ok (map (fun x => GArr V [] [x]) (skipn n data)).
Proof.
  intros shape data. induction fuel as [| fuel IH]; intros n rec H10 Hn Hf Hr; [lia |].
  cbn [parts]. rewrite exists_mdc. cbn [Nat.leb andb Nat.add].
  destruct (Nat.ltb_spec n (length data)) as [L | L].
  - rewrite filter_mdc by lia. cbn [Nat.leb]. rewrite Nat.sub_0_r.
    destruct (nth_error data n) as [x |] eqn:E; [| apply nth_error_None in E; lia].
    rewrite (Hr x) by (eapply nth_error_In; exact E). cbn [bind].
    rewrite IH by (auto; lia). cbn [bind].
    assert (S' : skipn n data = x :: skipn (S n) data).
    { clear - E. revert n E. induction data as [| y data IH]; intros [| n] E; cbn in *; try discriminate; [injection E as ->; reflexivity |]. apply IH. exact E. }
    rewrite S'. reflexivity.
  - replace n with (length data) by lia. rewrite skipn_all.
    rewrite dget_fresh; [reflexivity |].
    intro I. apply mdc_items_names in I. destruct I as (i & _ & E). apply app_inj_s in E.
    apply (f_equal cut) in E. rewrite cut_app in E by apply str_plain. rewrite cut_plain in E by apply str_plain. discriminate.
Qed.

Lemma unfl_mdc : forall shape data n, (0 < length data <= 10)%nat -> shape <> [] -> fold_left Nat.mul shape 1%nat = length data ->
  forallb finite data = true -> unfl (S (S n)) (TDict V (mdc_items shape 0 data)) = Ok (GArr V shape data).
Proof.
  intros shape data n H10 Hs Hp Hf. cbn [unflatten]. fold (unfl (S n)). rewrite all_start_mdc. cbn [orb].
  destruct data as [| x data]; [cbn in H10; lia |]. set (xs := x :: data) in *.
  change (mdc_items shape 0 xs) with (("gymmdc" ++ str 0 ++ "_" ++ join (map str shape), tarr [] [x]) :: mdc_items shape 1 data) at 1.
  cbv iota beta. 
  rewrite (parts_mdc shape xs _ 0).
  - cbn [bind skipn]. unfold shape_of. rewrite <- app_assoc_s. rewrite cut_app by (rewrite plain_app, str_plain; reflexivity).
    rewrite split_join.
    + rewrite map_res_int. cbn [bind]. unfold reshape. rewrite stack_scalars. cbn [bind]. rewrite Hp, Nat.eqb_refl. reflexivity.
    + destruct shape; [congruence | discriminate].
    + apply Forall_forall. intros s Hs'. apply in_map_iff in Hs'. destruct Hs' as (k & <- & _). apply str_plain.
  - lia.
  - lia.
  - unfold mdc_items. rewrite map_length, combine_length, seq_length. lia.
  - intros y Hy. cbn [unflatten]. unfold all_finite. cbn [forallb]. rewrite forallb_forall in Hf. rewrite (Hf y Hy). reflexivity.
Qed.

(** ** Tuples of single tensors *)

Lemma one_tensor_named : forall s v t, one_tensor s = true -> named V s v = Some t ->
  exists sh data, v = GArr V sh data /\ t = tarr sh data.
Proof.
  intros s v t H E. destruct s as [n | sh | sh nv | sh lo hi | l | l]; try discriminate H; cbn in E.
  - destruct v as [sh' data | |]; try discriminate. injection E as <-. eauto.
  - destruct v as [sh' data | |]; try discriminate. injection E as <-. eauto.
  - destruct v as [sh' data | |]; try discriminate. destruct (list_eq_dec Nat.eq_dec sh sh') as [<- |]; [| discriminate].
    destruct (_ && _ && _); [| discriminate]. cbn in H. rewrite H in E. injection E as <-. eauto.
  - destruct v as [sh' data | |]; try discriminate. injection E as <-. eauto.
Qed.

(** Arrays by number *)
Definition tpl_items (start : nat) (xs : list (list nat * list V)) : list (string * tval V) :=
  map (fun ix => ("gymtpl" ++ str (fst ix), tarr (fst (snd ix)) (snd (snd ix)))) (combine (seq start (length xs)) xs).

Lemma tpl_items_cons : forall start x xs, tpl_items start (x :: xs) = ("gymtpl" ++ str start, tarr (fst x) (snd x)) :: tpl_items (S start) xs.
Proof. reflexivity. Qed.

Lemma named_tuple_items : forall l vs start d, forallb one_tensor l = true -> named_tuple V (named V) start l vs = Some d ->
  exists xs, vs = map (fun x => GArr V (fst x) (snd x)) xs /\ d = tpl_items start xs /\ length l = length xs.
Proof.
  induction l as [| s l IH]; intros vs start d H E; cbn [named_tuple] in E.
  - destruct vs; [| discriminate]. injection E as <-. exists []. auto.
  - destruct vs as [| v vs]; [discriminate |]. cbn [forallb] in H. apply andb_prop in H. destruct H as [H1 H2].
    destruct (named V s v) as [t |] eqn:E1; [| discriminate].
    destruct (named_tuple V (named V) (S start) l vs) as [r |] eqn:E2; [| discriminate]. injection E as <-.
    destruct (one_tensor_named s v t H1 E1) as (sh & data & -> & ->).
    destruct (IH vs (S start) r H2 E2) as (xs & -> & -> & HL).
    exists ((sh, data) :: xs). cbn [map fst snd length]. rewrite HL. auto.
Qed.

Lemma tpl_items_names : forall xs start k, In k (map fst (tpl_items start xs)) -> exists i, (start <= i < start + length xs)%nat /\ k = "gymtpl" ++ str i.
Proof.
  induction xs as [| x xs IH]; intros start k H; [destruct H |].
  rewrite tpl_items_cons in H. cbn [map fst] in H. destruct H as [<- | H].
  - exists start. cbn [length]. split; [lia | reflexivity].
  - apply IH in H. destruct H as (i & Hi & ->). exists i. cbn [length]. split; [lia | reflexivity].
Qed.

Lemma tpl_items_nodup : forall xs start, NoDup (map fst (tpl_items start xs)).
Proof.
  induction xs as [| x xs IH]; intro start; [constructor |]. rewrite tpl_items_cons. cbn [map fst]. constructor; [| apply IH].
  intro I. apply tpl_items_names in I. destruct I as (i & Hi & E). apply app_inj_s, str_inj in E. lia.
Qed.

Lemma all_start_tpl : forall xs start, all_start "gymtpl" (tpl_items start xs) = true.
Proof. induction xs as [| x xs IH]; intro start; [reflexivity |]. rewrite tpl_items_cons. cbn [all_start forallb fst]. rewrite prefix_app. apply IH. Qed.

Lemma start_other : forall p xs start, xs <> [] -> String.prefix p "gymtpl0" = false ->
  (forall r, String.prefix p ("gymtpl" ++ r) = false) -> all_start p (tpl_items start xs) = false.
Proof.
  intros p xs start N _ H. destruct xs as [| x xs]; [congruence |]. rewrite tpl_items_cons. cbn [all_start forallb fst]. rewrite H. reflexivity.
Qed.

Lemma exists_tpl : forall xs start n, existsb (fun kv => String.prefix ("gymtpl" ++ str n ++ "_") (fst kv)) (tpl_items start xs) = false.
Proof.
  induction xs as [| x xs IH]; intros start n; [reflexivity |]. rewrite tpl_items_cons. cbn [existsb fst]. rewrite IH, prefix_same.
  rewrite prefix_plain; [reflexivity | apply str_plain |]. rewrite plain_app, str_plain. reflexivity.
Qed.

Lemma dget_tpl : forall xs start n, dget (tpl_items start xs) ("gymtpl" ++ str n) =
  (if Nat.leb start n then option_map (fun x => tarr (fst x) (snd x)) (nth_error xs (n - start)) else None).
Proof.
  induction xs as [| x xs IH]; intros start n.
  - cbn. destruct (Nat.leb start n); [destruct (n - start)%nat |]; reflexivity.
  - rewrite tpl_items_cons. cbn [dget]. rewrite IH.
    destruct (String.eqb_spec ("gymtpl" ++ str n) ("gymtpl" ++ str start)) as [E | N].
    + apply app_inj_s, str_inj in E. subst n. rewrite Nat.leb_refl, Nat.sub_diag. reflexivity.
    + assert (n <> start) by congruence.
      destruct (Nat.leb_spec start n) as [L | L], (Nat.leb_spec (S start) n) as [L' | L']; try lia; [| reflexivity].
      replace (n - start)%nat with (S (n - S start)) by lia. reflexivity.
Qed.

Lemma skipn_nth : forall A (l : list A) n x, nth_error l n = Some x -> skipn n l = x :: skipn (S n) l.
Proof. induction l as [| y l IH]; intros [| n] x E; cbn in *; try discriminate; [injection E as ->; reflexivity |]. apply IH. exact E. Qed.

Lemma parts_tpl : forall (xs : list (list nat * list V)) fuel n rec,
  (n <= length xs)%nat -> (length xs - n < fuel)%nat ->
  (forall x, In x xs -> rec (tarr (fst x) (snd x)) = Ok (GArr V (fst x) (snd x))) ->
  parts V rec "gymtpl" (tpl_items 0 xs) n fuel = Ok (map (fun x => GArr V (fst x) (snd x)) (skipn n xs)).
Proof.
  intros xs. induction fuel as [| fuel IH]; intros n rec Hn Hf Hr; [lia |].
  cbn [parts]. rewrite exists_tpl, dget_tpl. cbn [Nat.leb]. rewrite Nat.sub_0_r.
  destruct (nth_error xs n) as [x |] eqn:E; cbn [option_map].
  - rewrite (Hr x) by (eapply nth_error_In; exact E). cbn [bind].
    assert (n < length xs)%nat by (apply nth_error_Some; congruence).
    rewrite IH by (auto; lia). cbn [bind]. rewrite (skipn_nth _ _ _ _ E). reflexivity.
  - apply nth_error_None in E. rewrite skipn_all2 by lia. reflexivity.
Qed.

Lemma unfl_tpl : forall xs n, xs <> [] -> forallb (fun x => forallb finite (snd x)) xs = true ->
  unfl (S (S n)) (TDict V (tpl_items 0 xs)) = Ok (GTup V (map (fun x => GArr V (fst x) (snd x)) xs)).
Proof.
  intros xs n N Hf. cbn [unflatten]. fold (unfl (S n)).
  rewrite (start_other "gymmdc" xs 0 N) by (intros; reflexivity).
  rewrite (start_other "gymbox" xs 0 N) by (intros; reflexivity).
  rewrite all_start_tpl. cbn [orb].
  destruct xs as [| x xs]; [congruence |]. rewrite tpl_items_cons at 1. cbv iota beta.
  change (substring 0 6 ("gymtpl" ++ str 0)) with "gymtpl".
  rewrite (parts_tpl (x :: xs) _ 0).
  - reflexivity.
  - lia.
  - unfold tpl_items. rewrite map_length, combine_length, seq_length. lia.
  - intros y Hy. cbn [unflatten]. rewrite forallb_forall in Hf. unfold all_finite. rewrite (Hf y Hy). reflexivity.
Qed.

(** ** Dictionaries *)

(** The first part of a name *)
Definition head (s : string) : string := match cut s with Some (a, _) => a | None => s end.

Lemma under_head : forall key x k, plain_name key = true -> In k (map fst (under V key x)) -> head k = key.
Proof.
  intros key x k Hp H. unfold head. destruct x as [sh d | l]; cbn [under map fst] in H.
  - destruct H as [<- | []]. rewrite cut_plain by exact Hp. reflexivity.
  - rewrite map_map in H. apply in_map_iff in H. destruct H as (kv & <- & _). cbn [fst]. rewrite cut_app by exact Hp. reflexivity.
Qed.

Definition good (x : tval V) : Prop := match x with TArr _ _ _ => True | TDict _ l => l <> [] /\ NoDup (map fst l) end.

(** Grouping undoes the names of one entry *)
Lemma group_inner : forall l d key l0 rest, plain_name key = true -> ~ In key (map fst d) -> NoDup (map fst l0 ++ map fst l)%list ->
  group V (map (fun kv => ((key ++ "_" ++ fst kv)%string, snd kv)) l ++ rest)%list (d ++ [(key, TDict V l0)])%list =
  group V rest (d ++ [(key, TDict V (l0 ++ l)%list)])%list.
Proof.
  induction l as [| (k, v) l IH]; intros d key l0 rest Hp Hd Hn; [rewrite app_nil_r; reflexivity |].
  cbn [map List.app fst snd group]. unfold group_one at 1. cbn [fst snd]. rewrite cut_app by exact Hp. rewrite dget_last by exact Hd.
  cbn [bind]. rewrite dset_last by exact Hd.
  cbn [map fst] in Hn.
  assert (Hk : ~ In k (map fst l0)) by (apply NoDup_remove_2 in Hn; intro I; apply Hn; apply in_or_app; auto).
  rewrite dset_fresh by exact Hk.
  rewrite (IH d key (l0 ++ [(k, v)])%list rest Hp Hd).
  - rewrite <- app_assoc. reflexivity.
  - rewrite map_app, <- app_assoc. exact Hn.
Qed.

Lemma group_under : forall key x d rest, plain_name key = true -> good x -> ~ In key (map fst d) ->
  group V (under V key x ++ rest)%list d = group V rest (d ++ [(key, x)])%list.
Proof.
  intros key x d rest Hp Hg Hd. destruct x as [sh a | l]; cbn [under].
  - cbn [List.app group]. unfold group_one. cbn [fst snd]. rewrite cut_plain by exact Hp. cbn [bind]. rewrite dset_fresh by exact Hd. reflexivity.
  - destruct Hg as [N Hn]. destruct l as [| (k, v) l]; [congruence |]. cbn [map List.app fst snd group].
    unfold group_one at 1. cbn [fst snd]. rewrite cut_app by exact Hp. rewrite dget_fresh by exact Hd. cbn [bind].
    rewrite dset_fresh by exact Hd. cbn [map fst] in Hn.
    rewrite (group_inner l d key [(k, v)] rest Hp Hd); [reflexivity | exact Hn].
Qed.

(** Entries of a dictionary with their tensors *)
Definition dct_items (items : list (string * tval V)) : list (string * tval V) := flat_map (fun kx => under V (fst kx) (snd kx)) items.

Lemma group_items : forall items d, Forall (fun kx => plain_name (fst kx) = true /\ good (snd kx)) items ->
  NoDup (map fst d ++ map fst items)%list -> group V (dct_items items) d = Ok (d ++ items)%list.
Proof.
  induction items as [| (k, x) items IH]; intros d H Hn; [cbn; rewrite app_nil_r; reflexivity |].
  apply Forall_cons_iff in H. destruct H as [[Hp Hg] H]. cbn [dct_items flat_map fst snd] in *.
  cbn [map fst] in Hn.
  assert (Hk : ~ In k (map fst d)) by (apply NoDup_remove_2 in Hn; intro I; apply Hn; apply in_or_app; auto).
  rewrite group_under by assumption. fold (dct_items items). rewrite IH.
  - rewrite <- app_assoc. reflexivity.
  - exact H.
  - rewrite map_app, <- app_assoc. exact Hn.
Qed.

Lemma items_head : forall items k, Forall (fun kx => plain_name (fst kx) = true /\ good (snd kx)) items ->
  In k (map fst (dct_items items)) -> In (head k) (map fst items).
Proof.
  induction items as [| (key, x) items IH]; intros k H I; [destruct I |].
  apply Forall_cons_iff in H. destruct H as [[Hp Hg] H]. cbn [dct_items flat_map fst snd map] in *.
  rewrite map_app in I. apply in_app_or in I. destruct I as [I | I].
  - left. symmetry. eapply under_head; eassumption.
  - right. apply IH; assumption.
Qed.

Lemma items_nodup : forall items, Forall (fun kx => plain_name (fst kx) = true /\ good (snd kx)) items -> NoDup (map fst items) ->
  NoDup (map fst (dct_items items)).
Proof.
  induction items as [| (key, x) items IH]; intros H Hn; [constructor |].
  apply Forall_cons_iff in H. destruct H as [[Hp Hg] H]. cbn [dct_items flat_map fst snd map] in *. apply NoDup_cons_iff in Hn. destruct Hn as [Hk Hn].
  rewrite map_app.
  assert (Hu : NoDup (map fst (under V key x))).
  { destruct x as [sh a | l]; cbn [under map fst]; [constructor; [intros [] | constructor] |]. destruct Hg as [_ Hg].
    rewrite map_map. cbn [fst]. clear - Hg. induction l as [| (k, v) l IH]; [constructor |]. cbn [map fst] in *. apply NoDup_cons_iff in Hg. destruct Hg as [H1 H2].
    constructor; [| auto]. intro I. apply in_map_iff in I. destruct I as ((k', v') & E & I). cbn [fst] in E.
    apply app_inj_s in E. change ("_" ++ k') with (String "_" k') in E. change ("_" ++ k) with (String "_" k) in E. injection E as ->.
    apply H1. apply in_map_iff. exists (k, v'). auto. }
  specialize (IH H Hn). fold (dct_items items).
  assert (Hd : forall k, In k (map fst (under V key x)) -> ~ In k (map fst (dct_items items))).
  { intros k I1 I2. apply (under_head key x k Hp) in I1. apply (items_head items k H) in I2. rewrite I1 in I2. contradiction. }
  clear - Hu IH Hd. induction (map fst (under V key x)) as [| k l IHl]; [exact IH |].
  apply NoDup_cons_iff in Hu. destruct Hu as [H1 H2]. cbn [List.app]. constructor.
  - intro I. apply in_app_or in I. destruct I as [I | I]; [contradiction |]. apply (Hd k); [left; reflexivity | exact I].
  - apply IHl; [exact H2 |]. intros k' I. apply Hd. right. exact I.
Qed.

Lemma items_start : forall p items, plain_name p = true -> Forall (fun kx => good (snd kx)) items ->
  existsb (fun kx => negb (String.prefix p (fst kx))) items = true -> all_start p (dct_items items) = false.
Proof.
  intros p items Hp. induction items as [| (key, x) items IH]; intros H E; [discriminate |].
  apply Forall_cons_iff in H. destruct H as [Hg H]. cbn [dct_items flat_map fst snd existsb] in *. unfold all_start. rewrite forallb_app.
  fold (all_start p (dct_items items)) in *. 
  destruct (String.prefix p key) eqn:P.
  - cbn [negb orb] in E. change (forallb (fun kv => String.prefix p (fst kv)) (flat_map (fun kx => under V (fst kx) (snd kx)) items)) with (all_start p (dct_items items)).
    rewrite (IH H E). apply andb_false_r.
  - apply andb_false_iff. left. cbn [snd] in Hg. destruct x as [sh a | l]; cbn [under forallb fst]; [rewrite P; reflexivity |].
    destruct Hg as [N _]. destruct l as [| (k, v) l]; [congruence |]. cbn [map forallb fst snd]. rewrite prefix_under by exact Hp. rewrite P. reflexivity.
Qed.

Lemma each_ok : forall rec items vs,
  Forall2 (fun kx kv => fst kx = fst kv /\ match snd kx with TArr _ sh a => snd kv = GArr V sh a | TDict _ l => rec (snd kx) = Ok (snd kv) end) items vs ->
  each V rec items = Ok vs.
Proof.
  intros rec items vs H. induction H as [| (k, x) (k', v) items vs [E1 E2] H IH]; [reflexivity |].
  cbn [fst snd] in *. subst k'. cbn [each]. destruct x as [sh a | l].
  - rewrite IH. cbn [bind]. subst v. reflexivity.
  - rewrite E2. cbn [bind]. rewrite IH. reflexivity.
Qed.

(** ** All spaces *)

Lemma distinct_nodup : forall l, distinct l = true -> NoDup l.
Proof.
  induction l as [| k l IH]; intro H; [constructor |]. cbn in H. apply andb_prop in H. destruct H as [H1 H2].
  constructor; [| auto]. intro I. apply negb_true_iff in H1.
  assert (E : existsb (String.eqb k) l = true) by (apply existsb_exists; exists k; split; [exact I | apply String.eqb_refl]). congruence.
Qed.

Lemma named_dict_items : forall l vs d, named_dict V (named V) l vs = Some d ->
  exists items, d = dct_items items /\ map fst items = map fst l /\ map fst vs = map fst l /\
    Forall2 (fun ks kx => True) l items /\
    Forall2 (fun kv kx => fst kv = fst kx) vs items /\
    (forall i ks kv kx, nth_error l i = Some ks -> nth_error vs i = Some kv -> nth_error items i = Some kx -> named V (snd ks) (snd kv) = Some (snd kx)).
Proof.
  induction l as [| (key, s) l IH]; intros vs d E; cbn [named_dict] in E.
  - destruct vs; [| discriminate]. injection E as <-. exists []. repeat split; try constructor. intros [|]; discriminate.
  - destruct vs as [| (key', v) vs]; [discriminate |]. destruct (String.eqb_spec key key') as [<- |]; [| discriminate].
    destruct (named V s v) as [t |] eqn:E1; [| discriminate].
    destruct (named_dict V (named V) l vs) as [r |] eqn:E2; [| discriminate]. injection E as <-.
    destruct (IH vs r E2) as (items & -> & H1 & H2 & H3 & H4 & H5).
    exists ((key, t) :: items). cbn [dct_items flat_map map fst snd]. rewrite H1, H2.
    repeat split; try (constructor; auto).
    intros [| i] ks kv kx A B C; cbn in A, B, C; [injection A as <-; injection B as <-; injection C as <-; exact E1 |].
    eapply H5; eassumption.
Qed.

Lemma rebuild : forall s, rebuildable s = true -> forall v t, named V s v = Some t -> good t /\
  (finite_value V finite v = true -> forall n, (depth s <= n)%nat -> unfl n t = Ok v).
Proof.
  induction s as [s Hs | l IH | l IH] using space_ind2; intros Hr v t E.
  - destruct (one_tensor s) eqn:O.
    + destruct (one_tensor_named s v t O E) as (sh & data & -> & ->). split; [exact I |].
      intros Hf n Hn. destruct n as [| n]; [destruct s; cbn in Hn; lia |]. cbn in Hf. cbn [unflatten]. unfold all_finite. rewrite Hf. reflexivity.
    + destruct s as [| | sh nv | | |]; try discriminate. cbn in O, Hr. rewrite O in Hr. cbn [orb] in Hr. apply Nat.leb_le in Hr.
      cbn [named] in E. destruct v as [sh' data | |]; try discriminate. destruct (list_eq_dec Nat.eq_dec sh sh') as [<- |]; [| discriminate].
      destruct (_ && _ && _) eqn:C; [| discriminate]. rewrite O in E. injection E as <-.
      apply andb_prop in C. destruct C as [C C3]. apply andb_prop in C. destruct C as [C1 C2].
      apply Nat.eqb_eq in C1, C2. apply negb_true_iff, Nat.eqb_neq in C3.
      fold (mdc_items sh 0 data).
      assert (Hd : (0 < length data)%nat) by (destruct nv; [discriminate | cbn in C1; lia]).
      split.
      * split; [| apply mdc_items_nodup]. destruct data; [cbn in Hd; lia | discriminate].
      * intros Hf n Hn. cbn in Hn, Hf. destruct n as [| [| n]]; try lia. apply unfl_mdc; auto; try lia.
        intro Q. subst sh. cbn in C3. lia.
  - cbn in Hr. apply andb_prop in Hr. destruct Hr as [N Hr]. apply negb_true_iff, Nat.eqb_neq in N.
    destruct v as [| vs |]; try discriminate. cbn [named] in E.
    destruct (named_tuple V (named V) 0 l vs) as [d |] eqn:E1; [| discriminate]. injection E as <-.
    destruct (named_tuple_items l vs 0 d Hr E1) as (xs & -> & -> & HL).
    assert (Nx : xs <> []) by (intro Q; subst xs; cbn in HL; lia).
    split.
    + split; [| apply tpl_items_nodup]. destruct xs; [congruence | discriminate].
    + intros Hf n Hn. cbn in Hn. destruct n as [| [| n]]; try lia. apply unfl_tpl; [exact Nx |].
      cbn in Hf. rewrite forallb_forall in Hf. apply forallb_forall. intros x Hx.
      apply (Hf (GArr V (fst x) (snd x))). apply in_map_iff. eauto.
  - cbn [rebuildable] in Hr. rewrite !andb_true_iff in Hr. destruct Hr as [[[[[R1 R2] R3] R4] R5] R6].
    destruct v as [| | vs]; try discriminate. cbn [named] in E.
    destruct (named_dict V (named V) l vs) as [d |] eqn:E1; [| discriminate]. injection E as <-.
    destruct (named_dict_items l vs d E1) as (items & -> & H1 & H2 & H3 & H4 & H5).
    assert (Len : length items = length l) by (rewrite <- (map_length fst items), H1, map_length; reflexivity).
    assert (Lenv : length vs = length l) by (rewrite <- (map_length fst vs), H2, map_length; reflexivity).
    assert (Each_ : forall i kx, nth_error items i = Some kx -> exists ks kv, nth_error l i = Some ks /\ nth_error vs i = Some kv /\ fst ks = fst kx /\ fst kv = fst kx /\ named V (snd ks) (snd kv) = Some (snd kx)).
    { intros i kx Hi. assert (Hlt : (i < length items)%nat) by (apply nth_error_Some; congruence).
      destruct (nth_error l i) as [ks |] eqn:El; [| apply nth_error_None in El; lia].
      destruct (nth_error vs i) as [kv |] eqn:Ev; [| apply nth_error_None in Ev; lia].
      exists ks, kv. repeat split; auto.
      - apply (map_nth_error fst) in El, Hi. rewrite H1 in Hi. congruence.
      - apply (map_nth_error fst) in Ev, Hi. rewrite H1 in Hi. rewrite H2 in Ev. congruence.
      - eapply H5; eassumption. }
    assert (G : Forall (fun kx => plain_name (fst kx) = true /\ good (snd kx)) items).
    { apply Forall_forall. intros kx Hx. apply In_nth_error in Hx. destruct Hx as [i Hi].
      destruct (Each_ i kx Hi) as (ks & kv & El & Ev & K1 & K2 & Nm). apply nth_error_In in El.
      rewrite forallb_forall in R2, R6. rewrite <- K1. split; [apply (R2 ks El) |].
      rewrite Forall_forall in IH. apply (IH ks El (R6 ks El) _ _ Nm). }
    assert (Gd : Forall (fun kx : string * tval V => good (snd kx)) items) by (eapply Forall_impl; [| exact G]; cbn; tauto).
    assert (ND : NoDup (map fst items)) by (rewrite H1; apply distinct_nodup; exact R1).
    assert (Ex : forall p, existsb (fun ks : string * space => negb (String.prefix p (fst ks))) l = true -> existsb (fun kx : string * tval V => negb (String.prefix p (fst kx))) items = true).
    { intros p Hp. apply existsb_exists in Hp. destruct Hp as (ks & I & Q). apply existsb_exists.
      assert (I' : In (fst ks) (map fst items)) by (rewrite H1; apply in_map; exact I).
      apply in_map_iff in I'. destruct I' as (kx & Q1 & Q2). exists kx. rewrite Q1. auto. }
    split.
    + split; [| apply items_nodup; assumption].
      intro Q. apply Ex in R3. apply (items_start "gymmdc") in R3; [| reflexivity | exact Gd]. rewrite Q in R3. discriminate.
    + intros Hf n Hn. destruct n as [| n]; [cbn in Hn; lia |].
      cbn [unflatten].
      rewrite (items_start "gymmdc"), (items_start "gymbox"), (items_start "gymtpl") by (auto; reflexivity). cbn [orb].
      rewrite group_items by (try exact G; exact ND). cbn [List.app bind].
      rewrite (each_ok _ items vs); [reflexivity |].
      assert (Q : forall i kx kv, nth_error items i = Some kx -> nth_error vs i = Some kv ->
        fst kx = fst kv /\ match snd kx with TArr _ sh a => snd kv = GArr V sh a | TDict _ l0 => unfl n (snd kx) = Ok (snd kv) end).
      { intros i kx kv Hi Hv. destruct (Each_ i kx Hi) as (ks & kv' & El & Ev & K1 & K2 & Nm).
        rewrite Hv in Ev. injection Ev as <-. split; [auto |].
        apply nth_error_In in El as Il. apply nth_error_In in Hv as Iv.
        rewrite forallb_forall in R6. rewrite Forall_forall in IH. destruct (IH ks Il (R6 ks Il) _ _ Nm) as [_ HU].
        cbn [finite_value] in Hf. rewrite forallb_forall in Hf. specialize (HU (Hf kv Iv)).
        assert (Dn : (depth (snd ks) <= n)%nat).
        { cbn [depth] in Hn. assert (L : (depth (snd ks) <= list_max (map (fun ks => depth (snd ks)) l))%nat); [| lia].
          clear - Il. induction l as [| y l IHl]; [destruct Il |]. cbn [map list_max fold_right]. fold (list_max (map (fun ks0 => depth (snd ks0)) l)).
          destruct Il as [-> | Il]; [lia |]. specialize (IHl Il). unfold list_max in *. lia. }
        specialize (HU n Dn). destruct (snd kx) as [sh a | l0] eqn:X; [| exact HU].
        destruct n as [| n']; [destruct (snd ks); cbn in Dn; lia |].
        cbn [unflatten] in HU. destruct (assert_ (all_finite V finite a) _) in HU; [| discriminate]. cbn [bind] in HU. congruence. }
      clear - Q Len Lenv. assert (LL : length items = length vs) by congruence. clear Len Lenv. revert vs Q LL.
      induction items as [| kx items IHi]; intros [| kv vs] Q LL; try discriminate; constructor.
      * apply (Q 0%nat kx kv); reflexivity.
      * apply IHi; [| cbn in LL; lia]. intros i kx' kv' A B. apply (Q (S i) kx' kv'); assumption.
Qed.
End RoundTrip.
