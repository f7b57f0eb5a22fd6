(** Lemmas about layer names and the registry of layers. *)
From Coq Require Import String Ascii List Arith Bool Lia Permutation DecimalString.
From Verif Require Import Base NamModel NamSpec.
Import ListNotations.
Open Scope string_scope.
Open Scope list_scope.
Open Scope nat_scope.

Section Ind.
Variable P : lspec -> Prop.
Hypothesis HP : forall n t, P (LPlain n t).
Hypothesis HT : forall n t, P (LTemporal n t).
Hypothesis HB : forall n t ls, Forall P ls -> P (LBlock n t ls).
Hypothesis HR : forall n t x, P (LReuse n t x).
Fixpoint lspec_all (l : lspec) : P l :=
  match l with
  | LPlain n t => HP n t
  | LTemporal n t => HT n t
  | LBlock n t ls => HB n t ls ((fix go (ls : list lspec) : Forall P ls := match ls with [] => Forall_nil _ | x :: r => Forall_cons _ (lspec_all x) (go r) end) ls)
  | LReuse n t x => HR n t x
  end.
End Ind.
Section Ind2.
Variable P : nspec -> Prop.
Hypothesis HL : forall l, P (NLayer l).
Hypothesis HN : forall ns, Forall P ns -> P (NList ns).
Fixpoint nspec_all (n : nspec) : P n :=
  match n with
  | NLayer l => HL l
  | NList ns => HN ns ((fix go (ns : list nspec) : Forall P ns := match ns with [] => Forall_nil _ | x :: r => Forall_cons _ (nspec_all x) (go r) end) ns)
  end.
End Ind2.

Lemma count_app t a b : count t (a ++ b) = count t a + count t b.
Proof. induction a as [|l r IH]; [reflexivity|]. cbn [app count]. destruct (given_name l); [exact IH|]. destruct (String.eqb _ t); rewrite IH; reflexivity. Qed.
Lemma names_app bef a b : names_after bef (a ++ b) = names_after bef a ++ names_after (bef ++ a) b.
Proof. revert bef. induction a as [|l r IH]; intro bef; cbn; [rewrite app_nil_r; reflexivity|]. rewrite IH, <- app_assoc. reflexivity. Qed.
Lemma choose_name c bef l : (forall t, c t = count t bef) ->
  fst (choose c l) = name_after bef l /\ (forall t, snd (choose c l) t = count t (bef ++ [l])).
Proof.
  intro H. unfold choose, name_after. destruct (given_name l) as [n|] eqn:E; cbn.
  - split; [reflexivity|]. intro t. rewrite count_app. cbn. rewrite E, H. lia.
  - rewrite H. split; [reflexivity|]. intro t. rewrite count_app. cbn. rewrite E, H. destruct (String.eqb_spec t (layer_type l)) as [->|N].
    + rewrite String.eqb_refl. lia.
    + destruct (String.eqb_spec (layer_type l) t); [congruence|]. lia.
Qed.
Lemma all_fit_app ns ls os ns' ls' os' : all_fit ns ls os -> all_fit ns' ls' os' -> all_fit (ns ++ ns') (ls ++ ls') (os ++ os').
Proof. intro H. induction H; [auto|]. intro K. cbn. constructor; auto. Qed.
Lemma fits_name n l o : fits n l o -> oname o = n.
Proof. intro H. destruct H; reflexivity. Qed.
Lemma all_fit_names ns ls os : all_fit ns ls os -> map oname os = ns.
Proof. intro H. induction H as [|n ns l ls o os H1 H2 IH]; [reflexivity|]. cbn. rewrite IH, (fits_name _ _ _ H1). reflexivity. Qed.

(** ** The registry *)
Fixpoint last_named (t : string) (l : list obj) : option obj :=
  match l with
  | [] => None
  | x :: r => match last_named t r with Some y => Some y | None => if String.eqb (oname x) t then Some x else None end
  end.
Lemma last_app t a b : last_named t (a ++ b) = match last_named t b with Some y => Some y | None => last_named t a end.
Proof. induction a as [|x r IH]; cbn; [destruct (last_named t b); reflexivity|]. rewrite IH. destruct (last_named t b); reflexivity. Qed.
Lemma last_none t l : last_named t l = None <-> ~ In t (map oname l).
Proof.
  induction l as [|x r IH]; cbn; [tauto|]. destruct (last_named t r) as [y|] eqn:E.
  - split; [discriminate|]. intro H. destruct IH as [_ IH]. discriminate IH. tauto.
  - destruct (String.eqb_spec (oname x) t) as [->|N]; split; [discriminate|tauto| |reflexivity]. destruct IH as [IH _]. intros _ [X|X]; [congruence|]. exact (IH eq_refl X).
Qed.
Lemma last_spec t l x : last_named t l = Some x <-> last_of t l x.
Proof.
  split.
  - revert x. induction l as [|y r IH]; intros x H; [discriminate|]. cbn in H. destruct (last_named t r) as [z|] eqn:E.
    + injection H as ->. specialize (IH _ eq_refl). inversion IH as [a b c A B C D]; subst. apply (last_intro _ (y :: a)); auto.
    + destruct (String.eqb_spec (oname y) t) as [Y|N]; [|discriminate]. injection H as ->. apply (last_intro _ []); [exact Y|]. intros z Hz X. apply last_none in E. apply E. apply in_map_iff. eauto.
  - intro H. destruct H as [a x b A B]. rewrite last_app. cbn. assert (E : last_named t b = None).
    { apply last_none. intro X. apply in_map_iff in X. destruct X as (y & X & Y). exact (B y Y X). }
    rewrite E, A, String.eqb_refl. reflexivity.
Qed.
Lemma last_in t l x : last_named t l = Some x -> In x l /\ oname x = t.
Proof. intro H. apply last_spec in H. destruct H as [a x b A B]. split; [apply in_elt|exact A]. Qed.

(** What the creation of the layers [cr] does to the state. *)
Record post (s : state) (cr : list obj) (s' : state) : Prop := {
  post_reg : forall t, registered s' t = match last_named t cr with Some x => Some (oid x) | None => registered s t end;
  post_done : Permutation (complete s') (cr ++ complete s);
  post_ids : map oid cr = seq (next_id s) (length cr);
  post_next : next_id s' = next_id s + length cr
}.
Lemma post_nil s : post s [] s.
Proof. split; cbn; [reflexivity|apply Permutation_refl|reflexivity|lia]. Qed.
Lemma post_app s a s1 b s2 : post s a s1 -> post s1 b s2 -> post s (a ++ b) s2.
Proof.
  intros A B. split.
  - intro t. rewrite (post_reg _ _ _ B), (post_reg _ _ _ A), last_app. destruct (last_named t b); reflexivity.
  - rewrite (post_done _ _ _ B), (post_done _ _ _ A). rewrite <- !app_assoc. rewrite Permutation_app_swap_app. apply Permutation_refl.
  - rewrite map_app, (post_ids _ _ _ A), (post_ids _ _ _ B), app_length, seq_app, (post_next _ _ _ A). reflexivity.
  - rewrite (post_next _ _ _ B), (post_next _ _ _ A), app_length. lia.
Qed.
(** A layer is registered, its parts are created, it is finished. *)
Lemma post_layer s name o cr s1 : oname o = name -> oid o = next_id s -> post (register name s) cr s1 -> post s (o :: cr) (finish o s1).
Proof.
  intros N I H. split.
  - intro t. cbn [finish registered]. rewrite (post_reg _ _ _ H). cbn [last_named]. destruct (last_named t cr); [reflexivity|]. cbn [register registered].
    rewrite N, (String.eqb_sym name t). destruct (String.eqb t name); congruence.
  - cbn [finish complete app]. apply perm_skip. exact (post_done _ _ _ H).
  - cbn [map length seq]. rewrite I, (post_ids _ _ _ H). reflexivity.
  - cbn [finish next_id length]. rewrite (post_next _ _ _ H). cbn. lia.
Qed.

Definition good (l : lspec) : Prop := forall name s o s', make name l s = Ok (o, s') -> fits name l o /\ post s (created o) s'.

Definition children := fix go (c : counter) (made : list obj) (ls : list lspec) (s : state) : res (list obj * state) :=
  match ls with
  | [] => Ok (made, s)
  | x :: r =>
      let '(n, c') := choose c x in
      if existsb (fun o => String.eqb (oname o) n) made then Err "TensorforceError: module exists"
      else do os <- make n x s; go c' (made ++ [fst os]) r (snd os)
  end.
Lemma make_block name n t ls s : make name (LBlock n t ls) s =
  match ls with
  | [] => Err "TensorforceError: block"
  | _ => do r <- children no_layers [] ls (register name s);
         let o := OBlock (next_id s) name (fst r) in Ok (o, finish o (snd r))
  end.
Proof. destruct ls; reflexivity. Qed.

Lemma children_ok ls : Forall good ls -> forall c bef made s os s', (forall t, c t = count t bef) ->
  all_fit (names bef) bef made -> NoDup (names bef) ->
  children c made ls s = Ok (os, s') ->
  exists new, os = made ++ new /\ all_fit (names (bef ++ ls)) (bef ++ ls) os /\ NoDup (names (bef ++ ls)) /\ post s (flat_map created new) s'.
Proof.
  intro F. induction F as [|l r Hl Hr IH]; intros c bef made s os s' Hc Hf Hn H.
  - injection H as <- <-. exists []. rewrite !app_nil_r. repeat split; try assumption; try reflexivity; cbn; lia.
  - cbn [children] in H. destruct (choose_name c bef l Hc) as [C1 C2]. destruct (choose c l) as [n c']. cbn [fst snd] in C1, C2. subst n.
    destruct (existsb _ made) eqn:E; [discriminate|]. destruct (make _ l s) as [[o s1]|] eqn:M; [|discriminate]. cbn [bind fst snd] in H.
    destruct (Hl _ _ _ _ M) as [Fo Po].
    assert (NB : names (bef ++ [l]) = names bef ++ [name_after bef l]).
    { unfold names. rewrite names_app. reflexivity. }
    destruct (IH c' (bef ++ [l]) (made ++ [o]) s1 os s' C2) as (new & -> & A & B & P).
    + rewrite NB. apply all_fit_app; [exact Hf|]. constructor; [exact Fo|constructor].
    + rewrite NB. apply (Permutation_NoDup (l := name_after bef l :: names bef)); [apply Permutation_cons_append|]. constructor; [|exact Hn].
      rewrite <- (all_fit_names _ _ _ Hf). intro X. apply in_map_iff in X. destruct X as (y & Y & Hy).
      assert (T : existsb (fun o => String.eqb (oname o) (name_after bef l)) made = true) by (apply existsb_exists; exists y; split; [exact Hy|]; apply String.eqb_eq, Y). congruence.
    + exact H.
    + exists (o :: new). rewrite <- !app_assoc in *. cbn [app] in *. repeat split; try assumption; cbn [flat_map];
        pose proof (post_app _ _ _ _ _ Po P) as Q; apply Q.
Qed.

Lemma make_ok : forall l, good l.
Proof.
  apply lspec_all.
  - intros n t name s o s' H. cbn in H. injection H as <- <-. split; [constructor|]. apply (post_layer s name (OPlain (next_id s) name) [] (register name s)); [reflexivity|reflexivity|apply post_nil].
  - intros n t name s o s' H. cbn in H. injection H as <- <-. split; [constructor|]. apply (post_layer s name (OTemporal (next_id s) name) [] (register name s)); [reflexivity|reflexivity|apply post_nil].
  - intros n t ls F name s o s' H. rewrite make_block in H. destruct ls as [|l0 r0] eqn:El; [discriminate|]. rewrite <- El in *.
    destruct (children no_layers [] ls (register name s)) as [[os s1]|] eqn:C; [|discriminate]. cbn [bind fst snd] in H. injection H as <- <-.
    destruct (children_ok ls F no_layers [] [] (register name s) os s1) as (new & E & A & B & P); [reflexivity|constructor|constructor|exact C|]. cbn [app] in *. subst new.
    split; [constructor; [congruence|exact B|exact A]|]. cbn [created]. apply (post_layer s name _ _ s1); [reflexivity|reflexivity|exact P].
  - intros n t x name s o s' H. cbn [make] in H. destruct (registered s x); [|discriminate]. destruct (registered (register name s) x) as [i|]; [|discriminate].
    destruct (find_id i (register name s)); [|discriminate]. injection H as <- <-. split; [constructor|].
    apply (post_layer s name (OReuse (next_id s) name x) [] (register name s)); [reflexivity|reflexivity|apply post_nil].
Qed.

(** ** Networks *)
Definition parses := fix go (c : counter) (ns : list nspec) (s : state) : res (list obj * counter * state) :=
  match ns with
  | [] => Ok ([], c, s)
  | x :: r => do a <- parse c x s; do b <- go (snd (fst a)) r (snd a); Ok (fst (fst a) ++ fst (fst b), snd (fst b), snd b)
  end.
Lemma parse_list c ns s : parse c (NList ns) s = parses c ns s.
Proof. reflexivity. Qed.

Lemma parse_ok : forall n c bef s os c' s', (forall t, c t = count t bef) -> parse c n s = Ok (os, c', s') ->
  (forall t, c' t = count t (bef ++ flat n)) /\ all_fit (names_after bef (flat n)) (flat n) os /\ post s (flat_map created os) s'.
Proof.
  apply (nspec_all (fun n => forall c bef s os c' s', (forall t, c t = count t bef) -> parse c n s = Ok (os, c', s') ->
    (forall t, c' t = count t (bef ++ flat n)) /\ all_fit (names_after bef (flat n)) (flat n) os /\ post s (flat_map created os) s')).
  - intros l c bef s os c' s' Hc H. cbn [parse] in H. destruct (choose_name c bef l Hc) as [C1 C2]. destruct (choose c l) as [n c1]. cbn [fst snd] in C1, C2. subst n.
    destruct (make _ l s) as [[o s1]|] eqn:M; [|discriminate]. cbn [bind fst snd] in H. injection H as <- <- <-. destruct (make_ok l _ _ _ _ M) as [A B].
    split; [exact C2|]. split; [cbn; constructor; [exact A|constructor]|]. cbn [flat_map]. rewrite app_nil_r. exact B.
  - intros ns F c bef s os c' s' Hc H. rewrite parse_list in H. cbn [flat].
    revert c bef s os c' s' Hc H. induction F as [|n r Hn Hr IH]; intros c bef s os c' s' Hc H.
    + injection H as <- <- <-. cbn. rewrite app_nil_r. split; [exact Hc|]. split; [constructor|apply post_nil].
    + cbn [parses] in H. destruct (parse c n s) as [[[o1 c1] s1]|] eqn:E1; [|discriminate]. cbn [bind fst snd] in H.
      destruct (parses c1 r s1) as [[[o2 c2] s2]|] eqn:E2; [|discriminate]. cbn [bind fst snd] in H. injection H as <- <- <-.
      destruct (Hn _ _ _ _ _ _ Hc E1) as (A1 & B1 & P1). destruct (IH _ _ _ _ _ _ A1 E2) as (A2 & B2 & P2).
      cbn [flat_map]. rewrite app_assoc. split; [exact A2|]. split; [|rewrite flat_map_app; eapply post_app; eassumption].
      rewrite names_app. apply all_fit_app; assumption.
Qed.
Lemma network_ok n s os s' : network n s = Ok (os, s') -> all_fit (names (flat n)) (flat n) os /\ post s (flat_map created os) s'.
Proof.
  unfold network. intro H. destruct (parse no_layers n s) as [[[o c] s1]|] eqn:E; [|discriminate]. cbn in H. injection H as <- <-.
  destruct (parse_ok n no_layers [] s o c s1 (fun _ => eq_refl) E) as (_ & A & B). split; assumption.
Qed.
Lemma networks_ok ns : forall s oss s', networks ns s = Ok (oss, s') -> Forall2 (fun n os => all_fit (names (flat n)) (flat n) os) ns oss /\ post s (flat_map created (concat oss)) s'.
Proof.
  induction ns as [|n r IH]; intros s oss s' H; cbn [networks] in H.
  - injection H as <- <-. split; [constructor|apply post_nil].
  - destruct (network n s) as [[os s1]|] eqn:E1; [|discriminate]. cbn [bind fst snd] in H. destruct (networks r s1) as [[oss1 s2]|] eqn:E2; [|discriminate]. cbn [bind fst snd] in H. injection H as <- <-.
    apply network_ok in E1. destruct E1 as [A1 P1]. destruct (IH _ _ _ E2) as [A2 P2]. split; [constructor; assumption|].
    cbn [concat]. rewrite flat_map_app. eapply post_app; eassumption.
Qed.

(** Lookups in a state where all layers are complete. *)
Lemma find_id_in cr s' x : post empty cr s' -> In x cr -> find_id (oid x) s' = Some x.
Proof.
  intros P Hx. unfold find_id. destruct (find _ (complete s')) as [y|] eqn:E.
  - apply find_some in E. destruct E as [Hy E]. apply Nat.eqb_eq in E. apply (Permutation_in _ (post_done _ _ _ P)) in Hy. cbn in Hy. rewrite app_nil_r in Hy.
    f_equal. pose proof (post_ids _ _ _ P) as I. clear - E Hx Hy I. assert (ND : NoDup (map oid cr)) by (rewrite I; apply seq_NoDup). clear I.
    induction cr as [|z r IH]; [contradiction|]. cbn in ND. inversion ND as [|? ? N1 N2]; subst. destruct Hx as [Hx|Hx], Hy as [Hy|Hy]; subst; try reflexivity.
    + destruct N1. rewrite <- E. apply in_map, Hy.
    + destruct N1. rewrite E. apply in_map, Hx.
    + apply IH; assumption.
  - exfalso. eapply find_none in E; [|apply (Permutation_in _ (Permutation_sym (post_done _ _ _ P))); apply in_or_app; left; exact Hx]. rewrite Nat.eqb_refl in E. discriminate.
Qed.
Lemma reused_last cr s' t : post empty cr s' -> reused s' t = last_named t cr.
Proof.
  intro P. unfold reused. rewrite (post_reg _ _ _ P). destruct (last_named t cr) as [x|] eqn:E; [|reflexivity]. apply (find_id_in cr); [exact P|]. apply (last_in t cr x E).
Qed.

(** Acceptance *)
Lemma children_accepted ls : Forall (fun l => forall name s, exists o s', make name l s = Ok (o, s') /\ oname o = name) ls -> forall c bef made s, (forall t, c t = count t bef) ->
  map oname made = names bef -> NoDup (names (bef ++ ls)) -> exists r, children c made ls s = Ok r.
Proof.
  intro F. induction F as [|l r Hl Hr IH]; intros c bef made s Hc Hm ND.
  - eexists. reflexivity.
  - cbn [children]. destruct (choose_name c bef l Hc) as [C1 C2]. destruct (choose c l) as [n c']. cbn [fst snd] in C1, C2. subst n.
    assert (NB : names (bef ++ [l]) = names bef ++ [name_after bef l]) by (unfold names; rewrite names_app; reflexivity).
    destruct (existsb _ made) eqn:E.
    + exfalso. apply existsb_exists in E. destruct E as (y & Hy & E). apply String.eqb_eq in E. apply (in_map oname) in Hy. rewrite Hm, E in Hy.
      change (l :: r) with ([l] ++ r) in ND. rewrite app_assoc in ND. unfold names in ND. rewrite names_app in ND. fold (names (bef ++ [l])) in ND. rewrite NB, <- app_assoc in ND.
      apply NoDup_remove_2 in ND. apply ND, in_or_app. left. exact Hy.
    + destruct (Hl (name_after bef l) s) as (o & s1 & M & O). rewrite M. cbn [bind fst snd]. apply (IH c' (bef ++ [l])); [exact C2| |rewrite <- app_assoc; exact ND].
      rewrite map_app, Hm, NB. cbn. rewrite O. reflexivity.
Qed.
Lemma make_accepted : forall l, fine l -> forall name s, exists o s', make name l s = Ok (o, s') /\ oname o = name.
Proof.
  apply (lspec_all (fun l => fine l -> forall name s, exists o s', make name l s = Ok (o, s') /\ oname o = name)).
  - intros n t _ name s. eexists. eexists. split; reflexivity.
  - intros n t _ name s. eexists. eexists. split; reflexivity.
  - intros n t ls F H name s. inversion H as [| |? ? ? H1 H2 H3]; subst. rewrite make_block.
    destruct (children_accepted ls) with (c := no_layers) (bef := @nil lspec) (made := @nil obj) (s := register name s) as [r R]; try reflexivity.
    + rewrite Forall_forall in *. intros l Hl. apply F; [exact Hl|apply H3, Hl].
    + exact H2.
    + rewrite R. destruct ls; [congruence|]. eexists. eexists. split; reflexivity.
  - intros n t x H. inversion H.
Qed.
Lemma parse_accepted : forall n, (forall l, In l (flat n) -> fine l) -> forall c s, exists r, parse c n s = Ok r.
Proof.
  apply (nspec_all (fun n => (forall l, In l (flat n) -> fine l) -> forall c s, exists r, parse c n s = Ok r)).
  - intros l H c s. cbn [parse]. destruct (choose c l) as [n c']. destruct (make_accepted l (H l (or_introl eq_refl)) n s) as (o & s' & M & _). rewrite M. eexists. reflexivity.
  - intros ns F H c s. rewrite parse_list. revert c s. induction F as [|n r Hn Hr IH]; intros c s; [eexists; reflexivity|]. cbn [parses].
    destruct (Hn (fun l Hl => H l (in_or_app _ _ _ (or_introl Hl))) c s) as [[[o1 c1] s1] ->]. cbn [bind fst snd].
    destruct (IH (fun l Hl => H l (in_or_app _ _ _ (or_intror Hl))) c1 s1) as [r2 ->]. eexists. reflexivity.
Qed.

(** Applied layers *)
Definition each (f : obj -> option (list obj)) := fix go (ls : list obj) : option (list obj) :=
  match ls with [] => Some [] | x :: r => match f x, go r with Some a, Some b => Some (a ++ b) | _, _ => None end end.
Lemma leaves_block k s i n ls : leaves (S k) s (OBlock i n ls) = each (leaves k s) ls.
Proof. reflexivity. Qed.
Lemma applied_each k s os : applied k s os = each (leaves k s) os.
Proof. induction os as [|o r IH]; [reflexivity|]. cbn [applied each]. rewrite IH. reflexivity. Qed.
Lemma leaves_created k : forall s o, (forall x i n t, In x (created o) -> x <> OReuse i n t) -> length (created o) <= k ->
  leaves k s o = Some (filter basic (created o)).
Proof.
  induction k as [|k IH]; intros s o H L; [destruct o; cbn in L; lia|].
  destruct o as [i n|i n|i n ls|i n t]; try reflexivity; [|exfalso; apply (H (OReuse i n t) i n t); [left; reflexivity|reflexivity]].
  rewrite leaves_block. cbn [created filter basic]. cbn [created length] in L. assert (L' : length (flat_map created ls) <= k) by lia. clear L.
  assert (H' : forall x i n t, In x (flat_map created ls) -> x <> OReuse i n t) by (intros x a b c X; apply H; right; exact X). clear H.
  induction ls as [|l r IHr]; [reflexivity|]. cbn [flat_map] in *. rewrite app_length in L'. cbn [each].
  rewrite IH; [|intros x a b c X; apply H', in_or_app; left; exact X|lia]. rewrite IHr; [|lia|intros x a b c X; apply H', in_or_app; right; exact X].
  rewrite filter_app. reflexivity.
Qed.
Lemma applied_created k s os : (forall x i n t, In x (flat_map created os) -> x <> OReuse i n t) -> length (flat_map created os) <= k ->
  applied k s os = Some (filter basic (flat_map created os)).
Proof.
  induction os as [|o r IH]; intros H L; [reflexivity|]. cbn [flat_map applied] in *. rewrite app_length in L.
  rewrite leaves_created; [|intros x a b c X; apply H, in_or_app; left; exact X|lia]. rewrite IH; [|intros x a b c X; apply H, in_or_app; right; exact X|lia].
  rewrite filter_app. reflexivity.
Qed.
