(** Claims about the names of layers and the internals named after them (C156) and about reuse
    layers (C157). *)
From Coq Require Import String Ascii List Arith Bool Lia Permutation DecimalString.
From Coq Require DecimalNat.
From Verif Require Import Base NamModel NamSpec NamProofs.
Import ListNotations.
Open Scope string_scope.
Open Scope list_scope.
Open Scope nat_scope.

(** ** Examples *)
Definition dense : nspec := NLayer (LPlain None (Some "dense")).
Definition named (n t : string) : nspec := NLayer (LPlain (Some n) (Some t)).
Definition rnn : nspec := NLayer (LTemporal None (Some "rnn")).
Definition reuse (t : string) : nspec := NLayer (LReuse None (Some "reuse") t).

Lemma made {A} (r : res (A * state)) (P : A -> state -> Prop) : match r with Ok (a, s) => P a s | Err _ => False end -> exists a s, r = Ok (a, s) /\ P a s.
Proof. destruct r as [[a s]|]; [intro H; exists a, s; split; [reflexivity|exact H]|contradiction]. Qed.

(** ** C156 *)
(** A layer without name is called by its type and the number of such layers before it in the
    network, also over nested lists; within a block it is counted anew. *)
Theorem C156_names : forall ns oss s, networks ns empty = Ok (oss, s) -> Forall2 (fun n os => all_fit (names (flat n)) (flat n) os) ns oss.
Proof. intros ns oss s H. apply (networks_ok _ _ _ _ H). Qed.
Print Assumptions C156_names.
Example C156_names_example : exists oss s, networks [NList [dense; NList [named "x" "dense"; dense]; NLayer (LBlock None (Some "block") [LPlain None (Some "dense"); LPlain None None])]] empty = Ok (oss, s)
  /\ map oname (flat_map created (concat oss)) = ["dense0"; "x"; "dense1"; "block0"; "dense0"; "layer0"].
Proof. apply made. vm_compute. reflexivity. Qed.

(** Every layer is another object. *)
Theorem C156_objects : forall ns oss s, networks ns empty = Ok (oss, s) -> NoDup (map oid (flat_map created (concat oss))).
Proof. intros ns oss s H. destruct (networks_ok _ _ _ _ H) as [_ P]. rewrite (post_ids _ _ _ P). apply seq_NoDup. Qed.
Print Assumptions C156_objects.

Lemma app_string a b : list_ascii_of_string (a ++ b) = list_ascii_of_string a ++ list_ascii_of_string b.
Proof. induction a as [|c r IH]; [reflexivity|]. cbn. rewrite IH. reflexivity. Qed.
Lemma ascii_inj a b : list_ascii_of_string a = list_ascii_of_string b -> a = b.
Proof. intro H. rewrite <- (string_of_list_ascii_of_string a), H. apply string_of_list_ascii_of_string. Qed.
Lemma digits_uint d : Forall digit (list_ascii_of_string (NilEmpty.string_of_uint d)).
Proof. induction d; cbn; constructor; try assumption; unfold digit; cbn; lia. Qed.
Lemma str_inj a b : str a = str b -> a = b.
Proof. unfold str. intro H. apply (f_equal NilEmpty.uint_of_string) in H. rewrite !NilEmpty.usu in H. injection H as H. apply DecimalNat.Unsigned.to_uint_inj, H. Qed.
Lemma digits_split (t t' d d' : list ascii) : Forall digit d -> Forall digit d' ->
  (forall a c, t = a ++ [c] -> ~ digit c) -> (forall a c, t' = a ++ [c] -> ~ digit c) -> t ++ d = t' ++ d' -> t = t' /\ d = d'.
Proof.
  intros D D' T T' H. apply app_eq_app in H. destruct H as (l & [[H1 H2]|[H1 H2]]).
  - idtac.
    destruct l as [|c0 l0]; [rewrite app_nil_r in H1; subst; split; reflexivity|]. exfalso.
    destruct (@exists_last _ (c0 :: l0)) as (x & c & E); [discriminate|]. rewrite E in *. apply (T (t' ++ x) c); [rewrite H1, app_assoc; reflexivity|].
    rewrite H2 in D'. apply Forall_app in D'. destruct D' as [D' _]. apply Forall_app in D'. destruct D' as [_ D']. inversion D'; assumption.
  - destruct l as [|c0 l0]; [rewrite app_nil_r in H1; subst; split; reflexivity|]. exfalso.
    destruct (@exists_last _ (c0 :: l0)) as (x & c & E); [discriminate|]. rewrite E in *. apply (T' (t ++ x) c); [rewrite H1, app_assoc; reflexivity|].
    rewrite H2 in D. apply Forall_app in D. destruct D as [D _]. apply Forall_app in D. destruct D as [_ D]. inversion D; assumption.
Qed.
Lemma no_digit_list t : no_digit t -> forall a c, list_ascii_of_string t = a ++ [c] -> ~ digit c.
Proof.
  intros H a c E. apply (H (string_of_list_ascii a) c). apply ascii_inj. rewrite app_string, list_ascii_of_string_of_list_ascii. exact E.
Qed.
Lemma name_inj t t' a b : no_digit t -> no_digit t' -> (t ++ str a)%string = (t' ++ str b)%string -> t = t' /\ a = b.
Proof.
  intros H H' E. apply (f_equal list_ascii_of_string) in E. rewrite !app_string in E.
  destruct (digits_split _ _ _ _ (digits_uint (Nat.to_uint a)) (digits_uint (Nat.to_uint b)) (no_digit_list _ H) (no_digit_list _ H') E) as [A B].
  split; [apply ascii_inj, A|apply str_inj, ascii_inj, B].
Qed.
Lemma names_in bef ls n : Forall (fun l => given_name l = None) ls -> In n (names_after bef ls) ->
  exists l k, In l ls /\ n = (layer_type l ++ str k)%string /\ count (layer_type l) bef <= k.
Proof.
  intro F. revert bef. induction F as [|l r Hl Hr IH]; intros bef H; [contradiction|]. cbn in H. destruct H as [H|H].
  - exists l, (count (layer_type l) bef). unfold name_after in H. rewrite Hl in H. split; [left; reflexivity|]. split; [congruence|lia].
  - destruct (IH _ H) as (x & k & A & B & C). exists x, k. split; [right; exact A|]. split; [exact B|]. rewrite count_app in C. lia.
Qed.
(** So the names of the layers of a network or block without names differ, if no type ends with a
    digit; as no type of the library does. *)
Theorem C156_distinct : forall ls, Forall (fun l => given_name l = None /\ no_digit (layer_type l)) ls -> NoDup (names ls).
Proof.
  intros ls F. unfold names. generalize (@nil lspec) as bef. induction F as [|l r [Hl Dl] Hr IH]; intro bef; cbn; constructor; [|apply IH].
  intro X. apply names_in in X; [|eapply Forall_impl; [|exact Hr]; cbn; tauto]. destruct X as (x & k & A & B & C). unfold name_after in B. rewrite Hl in B.
  rewrite Forall_forall in Hr. apply name_inj in B; [|exact Dl|apply Hr, A]. destruct B as [B D]. rewrite <- B, count_app in C. cbn in C. rewrite Hl, String.eqb_refl in C. lia.
Qed.
Print Assumptions C156_distinct.
Lemma no_digit_end t : match rev (list_ascii_of_string t) with [] => True | c :: _ => nat_of_ascii c < 48 \/ 57 < nat_of_ascii c end -> no_digit t.
Proof. intros H a c -> D. rewrite app_string, rev_app_distr in H. cbn in H. unfold digit in D. lia. Qed.
Example C156_distinct_example : NoDup (names (flat (NList [dense; rnn; NList [dense; NLayer (LPlain None (Some "conv1d"))]; dense]))).
Proof. apply C156_distinct. repeat constructor; try reflexivity; apply no_digit_end; cbn; lia. Qed.

(** A block with two layers of the same name is an error, *)
Theorem C156_block : forall name n t ls s, ~ NoDup (names ls) -> exists e, make name (LBlock n t ls) s = Err e.
Proof.
  intros name n t ls s H. destruct (make name (LBlock n t ls) s) as [[o s']|e] eqn:E; [|exists e; reflexivity]. exfalso.
  apply make_ok in E. destruct E as [E _]. inversion E; contradiction.
Qed.
Print Assumptions C156_block.
Example C156_block_example : exists e, make "b" (LBlock None None [LPlain (Some "x") None; LTemporal (Some "x") None]) empty = Err e.
Proof. apply C156_block. cbn. intro H. inversion H as [|? ? N _]. apply N. left. reflexivity. Qed.
(** and other blocks are accepted, *)
Theorem C156_accepted : forall n s, (forall l, In l (flat n) -> fine l) -> exists os s', network n s = Ok (os, s').
Proof. intros n s H. unfold network. destruct (parse_accepted n H no_layers s) as [r ->]. eexists. eexists. reflexivity. Qed.
Print Assumptions C156_accepted.
Example C156_accepted_example : exists os s', network (NList [dense; NLayer (LBlock None None [LPlain None (Some "dense"); LBlock None None [LPlain (Some "x") None]])]) empty = Ok (os, s').
Proof.
  apply C156_accepted. cbn. intros l [<-|[<-|[]]]; [constructor|]. constructor; [discriminate|apply C156_distinct; repeat constructor; apply no_digit_end; cbn; lia|].
  intros l [<-|[<-|[]]]; [constructor|]. constructor; [discriminate|repeat constructor; intros []|]. intros l [<-|[]]. constructor.
Qed.
(** but in a network the names need not differ: all are accepted. *)
Theorem C156_duplicate_refuted : forall (ls : list (string * bool)) s,
  exists os s', network (NList (map (fun l : string * bool => NLayer (if snd l then LTemporal (Some (fst l)) None else LPlain (Some (fst l)) None)) ls)) s = Ok (os, s') /\ map oname os = map fst ls.
Proof.
  intros ls s. unfold network. rewrite parse_list. generalize no_layers as c. revert s. induction ls as [|[n b] r IH]; intros s c.
  - exists [], s. split; reflexivity.
  - cbn [map parses parse snd fst]. set (x := if b then LTemporal (Some n) None else LPlain (Some n) None).
    assert (E : exists o s1, choose c x = (n, c) /\ make n x s = Ok (o, s1) /\ oname o = n) by (unfold x; destruct b; eexists; eexists; repeat split; reflexivity).
    destruct E as (o & s1 & E1 & E2 & E3). rewrite E1, E2. cbn [bind fst snd].
    destruct (IH s1 c) as (os & s' & A & B). destruct (parses c _ s1) as [[[os2 c2] s2]|]; [|discriminate]. cbn [bind fst snd] in *. injection A as -> ->.
    exists (o :: os), s'. split; [reflexivity|]. cbn. rewrite B, E3. reflexivity.
Qed.
Print Assumptions C156_duplicate_refuted.
Example C156_duplicate_example : exists os s, network (NList [named "dense1" "dense"; dense; dense]) empty = Ok (os, s) /\ map oname os = ["dense1"; "dense0"; "dense1"].
Proof. apply made. vm_compute. reflexivity. Qed.

(** The internals of a network are those of the last temporal layer of each name. *)
Definition temporal (n : string) (o : obj) : Prop := exists i, o = OTemporal i n.
Lemma put_keys k v d : forall x, In x (map fst (put k v d)) <-> x = k \/ In x (map fst d).
Proof.
  intro x. induction d as [|[a b] r IH]; cbn; [intuition congruence|]. destruct (String.eqb_spec k a) as [->|N]; cbn; [intuition congruence|]. rewrite IH. intuition congruence.
Qed.
Lemma put_in k v d : NoDup (map fst d) -> NoDup (map fst (put k v d)) /\ forall n i, In (n, i) (put k v d) <-> (n = k /\ i = v) \/ (n <> k /\ In (n, i) d).
Proof.
  induction d as [|[a b] r IH]; intro ND; cbn.
  - split; [repeat constructor; intros []|]. intros n i. split; [intros [X|[]]; injection X as -> ->; tauto|]. intros [[-> ->]|[_ []]]. left. reflexivity.
  - inversion ND as [|? ? N1 N2]; subst. specialize (IH N2). destruct IH as [IH1 IH2]. destruct (String.eqb_spec k a) as [->|N]; cbn.
    + split; [constructor; assumption|]. intros n i. split.
      * intros [X|X]; [injection X as -> ->; tauto|]. right. split; [|tauto]. intros ->. apply N1, in_map_iff. exists (a, i). split; [reflexivity|exact X].
      * intros [[-> ->]|[X [Y|Y]]]; [tauto|injection Y as -> ->; congruence|tauto].
    + split; [constructor; [|exact IH1]; rewrite put_keys; intros [X|X]; [congruence|contradiction]|]. intros n i. rewrite IH2. split.
      * intros [X|[X|X]]; [injection X as -> ->; right; split; [congruence|tauto]|tauto|tauto].
      * intros [X|[X [Y|Y]]]; [tauto|injection Y as -> ->; tauto|tauto].
Qed.
Lemma internals_from os : forall d, NoDup (map fst d) ->
  let r := fold_left (fun d o => match o with OTemporal i n => put n i d | _ => d end) os d in
  NoDup (map fst r) /\ forall n i, In (n, i) r <->
    (exists a b, os = a ++ OTemporal i n :: b /\ forall o, In o b -> ~ temporal n o) \/ (In (n, i) d /\ forall o, In o os -> ~ temporal n o).
Proof.
  induction os as [|o os IH]; intros d ND r; unfold r; clear r; cbn [fold_left].
  - split; [exact ND|]. intros n i. split; [intro H; right; split; [exact H|intros _ []]|]. intros [(a & b & E & _)|[H _]]; [destruct a; discriminate|exact H].
  - assert (S : NoDup (map fst (match o with OTemporal i n => put n i d | _ => d end)) /\
                forall n i, In (n, i) (match o with OTemporal i n => put n i d | _ => d end) <-> (o = OTemporal i n \/ (In (n, i) d /\ ~ temporal n o))).
    { assert (T : forall n, (forall j m, o <> OTemporal j m) -> ~ temporal n o) by (intros n X [j Y]; exact (X j n Y)).
      destruct o as [j m|j m|j m l|j m t]; try (split; [exact ND|]; intros n i; split; [intro H; right; split; [exact H|apply T; discriminate]|intros [X|[X _]]; [discriminate|exact X]]).
      destruct (put_in m j d ND) as [A B]. split; [exact A|]. intros n i. rewrite B. split.
      - intros [[-> ->]|[X Y]]; [tauto|]. right. split; [exact Y|]. intros [k Z]. injection Z as -> ->. congruence.
      - intros [X|[X Y]]; [injection X as -> ->; tauto|]. right. split; [|exact X]. intros ->. apply Y. exists j. reflexivity. }
    destruct S as [S1 S2]. destruct (IH _ S1) as [A B]. split; [exact A|]. intros n i. rewrite B, S2. split.
    + intros [(a & b & -> & H)|[[X|[X Y]] H]].
      * left. exists (o :: a), b. split; [reflexivity|exact H].
      * left. exists [], os. split; [rewrite X; reflexivity|exact H].
      * right. split; [exact X|]. intros x [<-|Hx]; [exact Y|apply H, Hx].
    + intros [(a & b & E & H)|[X H]].
      * destruct a as [|y a]; cbn in E; injection E as E1 E2.
        -- right. split; [left; exact E1|]. subst b. exact H.
        -- left. exists a, b. split; [exact E2|exact H].
      * right. split; [right; split; [exact X|apply H; left; reflexivity]|]. intros x Hx. apply H. right. exact Hx.
Qed.
Theorem C156_internals : forall os, NoDup (map fst (internals os)) /\
  forall n i, In (n, i) (internals os) <-> exists a b, os = a ++ OTemporal i n :: b /\ forall o, In o b -> ~ temporal n o.
Proof.
  intro os. destruct (internals_from os []) as [A B]; [constructor|]. split; [exact A|]. intros n i. unfold internals. rewrite B. split; [intros [H|[[] _]]; exact H|tauto].
Qed.
Print Assumptions C156_internals.
(** So two temporal layers of the same name have only one part of the internals, that of the
    second. *)
Theorem C156_shared_refuted : forall a b c i j n, i <> j -> ~ In (OTemporal i n) c -> ~ In (n, i) (internals (a ++ OTemporal i n :: b ++ OTemporal j n :: c)).
Proof.
  intros a b c i j n N H X. apply C156_internals in X. destruct X as (p & q & E & Q).
  assert (G : In (OTemporal j n) q \/ In (OTemporal i n) c).
  { replace (a ++ OTemporal i n :: b ++ OTemporal j n :: c) with ((a ++ OTemporal i n :: b) ++ OTemporal j n :: c) in E by (rewrite <- app_assoc; reflexivity).
    apply app_eq_app in E. destruct E as (l & [[E1 E2]|[E1 E2]]).
    - destruct l as [|y l]; cbn in E2; [exfalso; injection E2; congruence|]. injection E2 as E2 E3. left. rewrite E3. apply in_or_app. right. left. reflexivity.
    - destruct l as [|y l]; cbn in E2; [exfalso; injection E2; congruence|]. injection E2 as E2 E3. right. rewrite E3. apply in_or_app. right. left. reflexivity. }
  destruct G as [G|G]; [|exact (H G)]. destruct (Q _ G). exists j. reflexivity.
Qed.
Print Assumptions C156_shared_refuted.
Example C156_shared_example : exists os s, network (NList [NLayer (LTemporal (Some "memory") (Some "rnn")); dense; NLayer (LTemporal (Some "memory") (Some "lstm"))]) empty = Ok (os, s)
  /\ internals os = [("memory", 2)].
Proof. apply made. vm_compute. reflexivity. Qed.

(** ** C157 *)
(** Without reuse layers a network applies its layers and those of its blocks in order. *)
Theorem C157_applied : forall s os, (forall x i n t, In x (flat_map created os) -> x <> OReuse i n t) ->
  exists k, forall k', k <= k' -> applied k' s os = Some (filter basic (flat_map created os)).
Proof. intros s os H. exists (length (flat_map created os)). intros k' L. apply applied_created; assumption. Qed.
Print Assumptions C157_applied.
(** A reuse layer is applied as the layer it stands for, if that one does not contain reuse layers. *)
Theorem C157_reused : forall s i n t x, reused s t = Some x -> (forall y j m u, In y (created x) -> y <> OReuse j m u) ->
  exists k, forall k', k <= k' -> leaves k' s (OReuse i n t) = Some (filter basic (created x)).
Proof.
  intros s i n t x R H. exists (S (length (created x))). intros k' L. destruct k' as [|k]; [lia|]. cbn [leaves]. rewrite R. apply leaves_created; [exact H|lia].
Qed.
Print Assumptions C157_reused.
Example C157_applied_example : exists os s, network (NList [dense; NLayer (LBlock (Some "b") None [LPlain None (Some "dense"); LTemporal None (Some "rnn")]); reuse "b"]) empty = Ok (os, s) /\
  applied 4 s os = Some [OPlain 0 "dense0"; OPlain 2 "dense0"; OTemporal 3 "rnn0"; OPlain 2 "dense0"; OTemporal 3 "rnn0"].
Proof. apply made. vm_compute. reflexivity. Qed.
(** A reuse layer stands for the last created layer with this name of all networks of the agent. *)
Theorem C157_last : forall ns oss s t x, networks ns empty = Ok (oss, s) ->
  (reused s t = Some x <-> last_of t (flat_map created (concat oss)) x) /\
  (forall k i n, last_of t (flat_map created (concat oss)) x -> leaves (S k) s (OReuse i n t) = leaves k s x).
Proof.
  intros ns oss s t x H. destruct (networks_ok _ _ _ _ H) as [_ P]. rewrite (reused_last _ _ t P). split; [apply last_spec|].
  intros k i n L. apply last_spec in L. cbn [leaves]. rewrite (reused_last _ _ t P), L. reflexivity.
Qed.
Print Assumptions C157_last.
(** If no two layers of the agent have the same name, it is the layer with this name. *)
Theorem C157_unique : forall ns oss s t x, networks ns empty = Ok (oss, s) -> NoDup (map oname (flat_map created (concat oss))) ->
  In x (flat_map created (concat oss)) -> oname x = t -> reused s t = Some x.
Proof.
  intros ns oss s t x H ND Hx Ht. apply (C157_last _ _ _ _ _ H). apply in_split in Hx. destruct Hx as (a & b & E). rewrite E in *. constructor; [exact Ht|].
  intros y Hy X. rewrite map_app in ND. cbn in ND. apply NoDup_remove_2 in ND. apply ND, in_or_app. right. rewrite Ht, <- X. apply in_map, Hy.
Qed.
Print Assumptions C157_unique.
Example C157_example : exists oss s, networks [NList [dense; dense; reuse "dense0"]] empty = Ok (oss, s) /\
  map oname (flat_map created (concat oss)) = ["dense0"; "dense1"; "reuse0"] /\ reused s "dense0" = Some (OPlain 0 "dense0") /\
  applied 2 s (concat oss) = Some [OPlain 0 "dense0"; OPlain 1 "dense1"; OPlain 0 "dense0"].
Proof. apply made. vm_compute. repeat split. Qed.
(** A name which no layer has so far is an error. *)
Theorem C157_unknown : forall ns oss s t a b rest, networks ns empty = Ok (oss, s) -> ~ In t (map oname (flat_map created (concat oss))) ->
  exists e, network (NList (NLayer (LReuse a b t) :: rest)) s = Err e.
Proof.
  intros ns oss s t a b rest H N. destruct (networks_ok _ _ _ _ H) as [_ P]. unfold network. rewrite parse_list. cbn [parses parse].
  destruct (choose no_layers (LReuse a b t)) as [n c]. cbn [make].
  assert (E : registered s t = None) by (rewrite (post_reg _ _ _ P), (proj2 (last_none t _) N); reflexivity). rewrite E. eexists. reflexivity.
Qed.
Print Assumptions C157_unknown.
(** A name which a layer has is accepted. *)
Theorem C157_known : forall ns oss s t a b n, networks ns empty = Ok (oss, s) -> In t (map oname (flat_map created (concat oss))) -> n <> t ->
  exists s', make n (LReuse a b t) s = Ok (OReuse (next_id s) n t, s').
Proof.
  intros ns oss s t a b n H Hin N. destruct (networks_ok _ _ _ _ H) as [_ P]. cbn [make].
  destruct (last_named t (flat_map created (concat oss))) as [x|] eqn:L; [|apply last_none in L; contradiction].
  assert (E : registered s t = Some (oid x)) by (rewrite (post_reg _ _ _ P), L; reflexivity). rewrite E.
  cbn [register registered]. destruct (String.eqb_spec t n); [congruence|]. rewrite E.
  change (find_id (oid x) (register n s)) with (find_id (oid x) s). rewrite (find_id_in _ _ x P (proj1 (last_in _ _ _ L))). eexists. reflexivity.
Qed.
Print Assumptions C157_known.
Example C157_known_example : (exists e, network (NList [reuse "dense0"; dense]) empty = Err e) /\
  (forall oss s, networks [dense] empty = Ok (oss, s) -> exists s', make "reuse0" (LReuse None None "dense0") s = Ok (OReuse (next_id s) "reuse0" "dense0", s')).
Proof.
  split.
  - apply (C157_unknown [] [] empty "dense0"); [reflexivity|intros []].
  - intros oss s H. apply (C157_known [dense] oss s); [exact H| |discriminate]. vm_compute in H. injection H as <- <-. left. reflexivity.
Qed.
(** But a layer of that name in a later network takes its place, also in the networks before. *)
Theorem C157_later_refuted : forall ns n oss os s t x, networks (ns ++ [n]) empty = Ok (oss ++ [os], s) -> last_of t (flat_map created os) x ->
  reused s t = Some x.
Proof.
  intros ns n oss os s t x H L. destruct (networks_ok _ _ _ _ H) as [_ P]. rewrite (reused_last _ _ t P). apply last_spec in L.
  rewrite concat_app, flat_map_app, last_app. cbn [concat]. rewrite app_nil_r, L. reflexivity.
Qed.
Print Assumptions C157_later_refuted.
(** A policy which reuses its first layer applies the baseline's instead. *)
Example C157_later_example : exists oss s, networks [NList [dense; reuse "dense0"]; NList [dense; dense]] empty = Ok (oss, s) /\
  oss = [[OPlain 0 "dense0"; OReuse 1 "reuse0" "dense0"]; [OPlain 2 "dense0"; OPlain 3 "dense1"]] /\
  reused s "dense0" = Some (OPlain 2 "dense0") /\ applied 2 s (hd [] oss) = Some [OPlain 0 "dense0"; OPlain 2 "dense0"].
Proof. apply made. vm_compute. repeat split. Qed.
(** A reuse layer cannot have the name of the layer it reuses. *)
Theorem C157_self_refuted : forall ns oss s t a b, networks ns empty = Ok (oss, s) -> exists e, make t (LReuse a b t) s = Err e.
Proof.
  intros ns oss s t a b H. destruct (networks_ok _ _ _ _ H) as [_ P]. cbn [make]. destruct (registered s t); [|eexists; reflexivity].
  replace (registered (register t s) t) with (Some (next_id s)) by (cbn [register registered]; rewrite String.eqb_refl; reflexivity).
  assert (F : find_id (next_id s) (register t s) = None); [|rewrite F; eexists; reflexivity].
  destruct (find_id (next_id s) (register t s)) as [o|] eqn:E; [|reflexivity]. exfalso. unfold find_id in E. cbn [register complete] in E.
  apply find_some in E. destruct E as [E1 E2]. apply Nat.eqb_eq in E2. apply (Permutation_in _ (post_done _ _ _ P)) in E1. cbn [empty complete] in E1. rewrite app_nil_r in E1.
  apply (in_map oid) in E1. rewrite (post_ids _ _ _ P) in E1. apply in_seq in E1. rewrite E2, (post_next _ _ _ P) in E1. cbn in E1. lia.
Qed.
Print Assumptions C157_self_refuted.
Example C157_self_example : exists e, network (NList [dense; NLayer (LReuse (Some "dense0") None "dense0")]) empty = Err e /\
  forall oss s, networks [dense] empty = Ok (oss, s) -> exists e, make "dense0" (LReuse None None "dense0") s = Err e.
Proof. eexists. split; [vm_compute; reflexivity|]. intros oss s H. apply (C157_self_refuted [dense] oss s _ _ _ H). Qed.
(** Reuse layers which stand for each other are accepted and applying them does not end. *)
Theorem C157_cycle_refuted : forall s a b i j, reused s a = Some (OReuse i a b) -> reused s b = Some (OReuse j b a) ->
  forall k, leaves k s (OReuse i a b) = None /\ leaves k s (OReuse j b a) = None.
Proof.
  intros s a b i j A B. induction k as [|k [IH1 IH2]]; [split; reflexivity|]. cbn [leaves]. rewrite A, B. split; assumption.
Qed.
Print Assumptions C157_cycle_refuted.
Example C157_cycle_example : exists os s, network (NList [named "a" "dense"; NLayer (LReuse (Some "b") None "a"); NLayer (LReuse (Some "a") None "b")]) empty = Ok (os, s) /\
  forall k, applied k s os = None.
Proof.
  assert (X : exists os s, network (NList [named "a" "dense"; NLayer (LReuse (Some "b") None "a"); NLayer (LReuse (Some "a") None "b")]) empty = Ok (os, s) /\
    os = [OPlain 0 "a"; OReuse 1 "b" "a"; OReuse 2 "a" "b"] /\ reused s "a" = Some (OReuse 2 "a" "b") /\ reused s "b" = Some (OReuse 1 "b" "a")) by (apply made; vm_compute; repeat split).
  destruct X as (os & s & E & O & A & B). exists os, s. split; [exact E|]. intro k. rewrite O. cbn [applied].
  destruct (C157_cycle_refuted s "a" "b" 2 1 A B k) as [-> ->]. destruct (leaves k s (OPlain 0 "a")); reflexivity.
Qed.
