From Coq Require Import String Ascii List Arith Bool ZArith QArith Lia.
From Verif Require Import Base ChkModel ChkSpec ChkProofs ChkProofs2.
Import ListNotations.
Open Scope string_scope.
Open Scope list_scope.
Open Scope nat_scope.

(** * Tracked tensors *)
Section Data.
Variable A : Type.
Lemma module_rec' (P : module A -> Prop) : (forall n vs subs, (forall m, In m subs -> P m) -> P (Module A n vs subs)) -> forall m, P m.
Proof.
  intro H. fix IH 1. intros [n vs subs]. apply H. induction subs as [|m subs IHs]; intros x I; [destruct I|].
  destruct I as [<-|I]; [apply IH|exact (IHs x I)].
Qed.
Lemma append_assoc (a b c : string) : ((a ++ b) ++ c = a ++ (b ++ c))%string.
Proof. induction a as [|x a IH]; [reflexivity|]. cbn. rewrite IH. reflexivity. Qed.
Lemma append_inj (a b c : string) : (a ++ b = a ++ c)%string -> b = c.
Proof. induction a as [|x a IH]; intro H; [exact H|]. injection H as H. exact (IH H). Qed.
Lemma plain_cons x s : plain (String x s) <-> x <> "/"%char /\ plain s.
Proof.
  unfold plain. cbn [replace]. destruct (Ascii.eqb x "/") eqn:E.
  - apply Ascii.eqb_eq in E. subst. split; [intro H; discriminate|intros [H _]; congruence].
  - apply Ascii.eqb_neq in E. split; [intro H; injection H as H; tauto|intros [_ ->]; reflexivity].
Qed.
Lemma replace_plain s : plain (replace s).
Proof.
  induction s as [|x s IH]; [reflexivity|]. cbn [replace]. apply plain_cons. split; [|exact IH].
  destruct (Ascii.eqb x "/") eqn:E; [discriminate|apply Ascii.eqb_neq in E; exact E].
Qed.
Lemma plain_slash a r : ~ plain (a ++ String "/" r)%string.
Proof. induction a as [|x a IH]; cbn [String.append]; rewrite plain_cons; [tauto|]. intros [_ H]. exact (IH H). Qed.
Lemma split_inj a b r r' : plain a -> plain b -> (a ++ String "/" r = b ++ String "/" r')%string -> a = b /\ r = r'.
Proof.
  revert b. induction a as [|x a IH]; intros b PA PB H; destruct b as [|y b]; cbn [String.append] in H.
  - injection H as H. tauto.
  - injection H as <- H. apply plain_cons in PB. tauto.
  - injection H as -> H. apply plain_cons in PA. tauto.
  - injection H as -> H. apply plain_cons in PA. apply plain_cons in PB. destruct (IH b) as [-> ->]; tauto.
Qed.
Lemma tidy_inv n vs subs : tidy (Module A n vs subs) -> plain n /\ NoDup (map fst vs) /\ (forall k x, In (k, x) vs -> plain k) /\
  NoDup (map (requested A) subs) /\ (forall m, In m subs -> tidy m).
Proof. intro H. inversion H; subst. tauto. Qed.
Lemma entries_in m : forall prefix k x, In (k, x) (entries A prefix m) <->
  exists p v, variable_at m p v x /\ k = (prefix ++ joined (map replace (requested A m :: p)) v)%string.
Proof.
  induction m as [n vs subs IH] using module_rec'. intros prefix k x. cbn [entries requested map joined fold_right]. rewrite in_app_iff, in_map_iff, in_flat_map. split.
  - intros [([v y] & E & I)|(m & I & H)].
    + cbn [fst snd] in E. injection E as <- <-. exists [], v. split; [constructor; exact I|]. cbn [map fold_right]. rewrite !append_assoc. reflexivity.
    + apply (IH m I) in H. destruct H as (p & v & V & ->). exists (requested A m :: p), v. split; [apply va_sub; assumption|].
      unfold joined. cbn [map fold_right]. rewrite !append_assoc. reflexivity.
  - intros (p & v & V & ->). inversion V as [n' vs' subs' k' x' I|n' vs' subs' m p' k' x' I V']; subst.
    + left. exists (v, x). split; [|exact I]. cbn [fst snd map fold_right]. rewrite !append_assoc. reflexivity.
    + right. exists m. split; [exact I|]. apply (IH m I). exists p', v. split; [exact V'|]. unfold joined. cbn [map fold_right]. rewrite !append_assoc. reflexivity.
Qed.
Lemma tidy_requested m : tidy m -> replace (requested A m) = requested A m.
Proof. intro T. destruct T as [n vs subs P _ _ _ _]. exact P. Qed.
Lemma tidy_path m p v x : tidy m -> variable_at m p v x -> map replace (requested A m :: p) = requested A m :: p.
Proof.
  intros T V. revert T. induction V as [n vs subs k x I|n vs subs m p k x I V IH]; intro T.
  - cbn. f_equal. exact (tidy_requested _ T).
  - cbn [map]. f_equal; [exact (tidy_requested _ T)|]. apply tidy_inv in T. apply IH. apply T. exact I.
Qed.
Lemma NoDup_app_intro {X} (l r : list X) : NoDup l -> NoDup r -> (forall x, In x l -> ~ In x r) -> NoDup (l ++ r).
Proof.
  intros L R D. induction l as [|x l IH]; [exact R|]. apply NoDup_cons_iff in L. destruct L as [N L]. cbn. constructor.
  - rewrite in_app_iff. intros [H|H]; [exact (N H)|exact (D x (or_introl eq_refl) H)].
  - apply IH; [exact L|]. intros y I. apply D. right. exact I.
Qed.
Lemma entries_nodup m : tidy m -> forall prefix, NoDup (map fst (entries A prefix m)).
Proof.
  induction m as [n vs subs IH] using module_rec'. intros T prefix. apply tidy_inv in T. destruct T as (Pn & Nv & Pv & Ns & Ts). cbn [entries].
  rewrite map_app, map_map. cbn [fst]. apply NoDup_app_intro.
  - clear -Nv. induction vs as [|[k y] vs IHv]; [constructor|]. cbn [map fst] in *. apply NoDup_cons_iff in Nv. destruct Nv as [N1 N2]. constructor; [|exact (IHv N2)].
    rewrite in_map_iff. intros ([k' y'] & E & I). cbn [fst] in E. apply append_inj in E. apply (append_inj "/") in E. subst. apply N1. apply (in_map fst) in I. exact I.
  - clear -IH Ns Ts Pn. induction subs as [|m subs IHs]; [constructor|]. cbn [flat_map]. rewrite map_app. cbn [map] in Ns. apply NoDup_cons_iff in Ns. destruct Ns as [N1 N2].
    apply NoDup_app_intro.
    + apply IH; [left; reflexivity|apply Ts; left; reflexivity].
    + apply IHs; [intros m' I; apply IH; right; exact I|exact N2|intros m' I; apply Ts; right; exact I].
    + intros k K1 K2. apply in_map_iff in K1. destruct K1 as ([k1 x1] & <- & K1). apply in_map_iff in K2. destruct K2 as ([k2 x2] & E & K2). cbn [fst] in E. subst k2.
      apply entries_in in K1. destruct K1 as (p1 & v1 & _ & E1). apply in_flat_map in K2. destruct K2 as (m2 & I2 & K2). apply entries_in in K2. destruct K2 as (p2 & v2 & _ & E2).
      rewrite E1 in E2. apply append_inj in E2. unfold joined in E2. cbn [map fold_right] in E2.
      apply split_inj in E2; try apply replace_plain. destruct E2 as [E2 _].
      rewrite (tidy_requested m), (tidy_requested m2) in E2; [|apply Ts; right; exact I2|apply Ts; left; reflexivity]. apply N1. rewrite E2. apply in_map. exact I2.
  - intros k K1 K2. apply in_map_iff in K1. destruct K1 as ([v y] & <- & K1). cbn [fst] in K2. apply in_map_iff in K2. destruct K2 as ([k2 x2] & E & K2). cbn [fst] in E. subst k2.
    apply in_flat_map in K2. destruct K2 as (m2 & I2 & K2). apply entries_in in K2. destruct K2 as (p2 & v2 & _ & E2).
    rewrite !append_assoc in E2. do 3 apply append_inj in E2. unfold joined in E2. cbn [map fold_right] in E2.
    pose proof (Pv v y K1) as P. rewrite E2 in P. exact (plain_slash _ _ P).
Qed.
(** dictionaries *)
Lemma set_nodup k (v : A) d : NoDup (map fst d) -> NoDup (map fst (set A k v d)).
Proof.
  assert (K : forall x, In x (map fst (set A k v d)) -> x = k \/ In x (map fst d)).
  { induction d as [|[k' v'] d IH]; cbn [set]; intros x.
    - cbn [map fst In]. intros [H|[]]. left. congruence.
    - destruct (String.eqb k k'); cbn [map fst]; [tauto|]. intros [H|H]; [right; left; exact H|]. destruct (IH x H) as [X|X]; [left; exact X|right; right; exact X]. }
  revert K. induction d as [|[k' v'] d IH]; intros K N; cbn [set].
  - repeat constructor. intros [].
  - destruct (String.eqb k k') eqn:E; [exact N|]. cbn [map fst] in *. apply NoDup_cons_iff in N. destruct N as [N1 N2]. apply String.eqb_neq in E. constructor.
    + intro H. assert (X : k' = k \/ In k' (map fst d)).
      { clear -H. induction d as [|[a b] d IH]; cbn [set map fst In] in *; [destruct H as [H|[]]; left; congruence|].
        destruct (String.eqb k a); cbn [map fst] in H; [tauto|]. destruct H as [H|H]; [right; left; exact H|]. destruct (IH H); tauto. }
      destruct X as [X|X]; [congruence|exact (N1 X)].
    + apply IH; [|exact N2]. intros x H. clear -H. induction d as [|[a b] d IH]; cbn [set map fst In] in *; [destruct H as [H|[]]; left; congruence|].
      destruct (String.eqb k a); cbn [map fst] in H; [tauto|]. destruct H as [H|H]; [right; left; exact H|]. destruct (IH H); tauto.
Qed.
Lemma set_in k (v : A) d : NoDup (map fst d) -> forall k' v', In (k', v') (set A k v d) <-> (k' = k /\ v' = v) \/ (k' <> k /\ In (k', v') d).
Proof.
  induction d as [|[a b] d IH]; intros N k' v'; cbn [set].
  - cbn [In]. split; [intros [H|[]]; injection H as <- <-; tauto|]. intros [[-> ->]|[_ []]]. left. reflexivity.
  - cbn [map fst] in N. apply NoDup_cons_iff in N. destruct N as [N1 N2]. destruct (String.eqb k a) eqn:E.
    + apply String.eqb_eq in E. subst a. cbn [In]. split.
      * intros [H|H]; [injection H as <- <-; tauto|]. right. split; [|right; exact H]. intro X. subst. apply N1. apply (in_map fst) in H. exact H.
      * intros [[-> ->]|[X [H|H]]]; [left; reflexivity|congruence|right; exact H].
    + apply String.eqb_neq in E. cbn [In]. rewrite (IH N2). split.
      * intros [H|[H|H]]; [injection H as <- <-; right; split; [congruence|left; reflexivity]|left; exact H|right; tauto].
      * intros [H|[X [H|H]]]; [right; left; exact H|left; exact H|right; right; tauto].
Qed.
Lemma fold_set (es : list (string * A)) : forall d, NoDup (map fst d) ->
  NoDup (map fst (fold_left (fun d p => set A (fst p) (snd p) d) es d)) /\
  (forall k v, In (k, v) (fold_left (fun d p => set A (fst p) (snd p) d) es d) <->
     (exists a b, es = a ++ (k, v) :: b /\ ~ In k (map fst b)) \/ (In (k, v) d /\ ~ In k (map fst es))).
Proof.
  induction es as [|[k0 v0] es IH]; intros d N; cbn [fold_left fst snd].
  - split; [exact N|]. intros k v. split; [intro H; right; split; [exact H|intros []]|]. intros [(a & b & E & _)|[H _]]; [destruct a; discriminate|exact H].
  - destruct (IH (set A k0 v0 d) (set_nodup k0 v0 d N)) as [X Y]. split; [exact X|]. intros k v. rewrite Y, (set_in k0 v0 d N). cbn [map fst In]. split.
    + intros [(a & b & E & H)|[[[-> ->]|[K H]] L]].
      * left. exists ((k0, v0) :: a), b. split; [rewrite E; reflexivity|exact H].
      * left. exists [], es. split; [reflexivity|exact L].
      * right. split; [exact H|]. intros [H'|H']; [congruence|exact (L H')].
    + intros [(a & b & E & H)|[H L]].
      * destruct a as [|p a]; injection E as E1 E2.
        -- right. subst. split; [left; tauto|exact H].
        -- left. exists a, b. split; [exact E2|exact H].
      * right. split; [right; split; [|exact H]; intro X'; apply L; left; congruence|]. intro X'. apply L. right. exact X'.
Qed.
Lemma subs_ok_iff ns : forall taken, (forall n, In n ns -> plain n) -> (subs_ok taken ns = true <-> NoDup ns /\ forall n, In n ns -> ~ In n taken).
Proof.
  induction ns as [|n ns IH]; intros taken P; cbn [subs_ok].
  - split; [|reflexivity]. intros _. split; [constructor|intros n []].
  - destruct (existsb _ taken) eqn:E.
    + apply mem_iff in E. split; [discriminate|]. intros [_ H]. destruct (H n (or_introl eq_refl) E).
    + apply mem_not in E. rewrite IH; [|intros x I; apply P; right; exact I]. rewrite (P n (or_introl eq_refl)). split.
      * intros [N H]. split; [constructor; [|exact N]; intro I; exact (H n I (or_introl eq_refl))|]. intros x [<-|I]; [exact E|]. intro T. exact (H x I (or_intror T)).
      * intros [N H]. apply NoDup_cons_iff in N. destruct N as [N1 N2]. split; [exact N2|]. intros x I [<-|T]; [exact (N1 I)|exact (H x (or_intror I) T)].
Qed.
Lemma in_keys n (vs : list (string * A)) : existsb (fun p => String.eqb (fst p) n) vs = true <-> In n (map fst vs).
Proof.
  rewrite existsb_exists, in_map_iff. split.
  - intros (p & I & E). apply String.eqb_eq in E. exists p. tauto.
  - intros (p & E & I). exists p. split; [exact I|]. apply String.eqb_eq, E.
Qed.
Lemma set_keys k (v : A) d : In k (map fst d) -> map fst (set A k v d) = map fst d.
Proof.
  induction d as [|[a b] d IH]; cbn [set map fst]; [intros []|]. destruct (String.eqb k a) eqn:E; [reflexivity|]. intros [H|H]; [apply String.eqb_neq in E; congruence|].
  cbn [map fst]. rewrite (IH H). reflexivity.
Qed.
(** variables after calls of track *)
Lemma tracks_inv l cs : forall vs vs', NoDup (map fst vs) -> tracks A l cs vs = Ok vs' ->
  map fst vs' = map fst vs /\
  (forall k x, In (k, x) vs' <->
     (exists a la b, cs = a ++ (la, k, x) :: b /\ selected l la = true /\ (forall la' x', In (la', k, x') b -> selected l la' = false)) \/
     (In (k, x) vs /\ forall la x', In (la, k, x') cs -> selected l la = false)) /\
  (forall la k x, In (la, k, x) cs -> selected l la = true -> In k (map fst vs)).
Proof.
  induction cs as [|[[la k0] x0] cs IH]; intros vs vs' N H; cbn [tracks] in H.
  - injection H as <-. split; [reflexivity|]. split; [|intros ? ? ? []]. intros k x. split; [intro H; right; split; [exact H|intros ? ? []]|]. intros [(a & la & b & E & _)|[H _]]; [destruct a; discriminate|exact H].
  - apply bind_inv in H. destruct H as (v1 & H1 & H). unfold track in H1. destruct (selected l la) eqn:L.
    + destruct (existsb _ vs) eqn:E; [|discriminate]. injection H1 as <-. apply in_keys in E. pose proof (set_keys k0 x0 vs E) as K.
      destruct (IH (set A k0 x0 vs) vs') as (X & Y & Z); [rewrite K; exact N|exact H|]. split; [rewrite X, K; reflexivity|]. split.
      * intros k x. rewrite Y, (set_in k0 x0 vs N). split.
        -- intros [(a & la' & b & E' & S & F)|[[[-> ->]|[D I]] F]].
           ++ left. exists ((la, k0, x0) :: a), la', b. split; [rewrite E'; reflexivity|tauto].
           ++ left. exists [], la, cs. split; [reflexivity|]. split; [exact L|exact F].
           ++ right. split; [exact I|]. intros la' x' [Q|Q]; [injection Q as -> -> ->; congruence|exact (F la' x' Q)].
        -- intros [(a & la' & b & E' & S & F)|[I F]].
           ++ destruct a as [|p a]; injection E' as E1 E2.
              ** right. subst. split; [left; tauto|exact F].
              ** left. exists a, la', b. tauto.
           ++ right. split; [right; split; [|exact I]|intros la' x' Q; apply (F la' x'); right; exact Q].
              intros ->. rewrite (F la x0 (or_introl eq_refl)) in L. discriminate.
      * intros la' k x [Q|Q] S; [injection Q as <- <- <-; exact E|]. rewrite <- K. exact (Z la' k x Q S).
    + injection H1 as <-. destruct (IH vs vs' N H) as (X & Y & Z). split; [exact X|]. split.
      * intros k x. rewrite Y. split.
        -- intros [(a & la' & b & E' & S & F)|[I F]].
           ++ left. exists ((la, k0, x0) :: a), la', b. split; [rewrite E'; reflexivity|tauto].
           ++ right. split; [exact I|]. intros la' x' [Q|Q]; [injection Q as <- <- <-; exact L|exact (F la' x' Q)].
        -- intros [(a & la' & b & E' & S & F)|[I F]].
           ++ destruct a as [|p a]; injection E' as E1 E2; [congruence|]. left. exists a, la', b. tauto.
           ++ right. split; [exact I|]. intros la' x' Q. apply (F la' x'). right. exact Q.
      * intros la' k x [Q|Q] S; [injection Q as <- <- <-; congruence|exact (Z la' k x Q S)].
Qed.
Lemma track_registers_inv l zero rs : forall vs vs', track_registers A l zero rs vs = Ok vs' -> NoDup (map fst vs) ->
  NoDup (map fst vs') /\ forall k x, In (k, x) vs' <-> In (k, x) vs \/ (x = zero /\ exists la, In (la, k) rs /\ selected l la = true).
Proof.
  induction rs as [|[la n] rs IH]; intros vs vs' H N; cbn [track_registers] in H.
  - injection H as <-. split; [exact N|]. intros k x. split; [tauto|]. intros [H|(_ & la & [] & _)]. exact H.
  - apply bind_inv in H. destruct H as (v1 & H1 & H). unfold register_tracking in H1. destruct (existsb _ vs) eqn:E; [discriminate|]. injection H1 as <-.
    assert (NE : ~ In n (map fst vs)) by (rewrite <- in_keys; congruence). destruct (selected l la) eqn:L.
    + destruct (IH _ _ H) as [X Y].
      { rewrite map_app. apply NoDup_app_intro; [exact N|repeat constructor; intros []|]. intros y I [<-|[]]. exact (NE I). }
      split; [exact X|]. intros k x. rewrite Y, in_app_iff. cbn [In]. split.
      * intros [[I|[Q|[]]]|(Q & la' & I & S)]; [left; exact I|injection Q as <- <-; right; split; [reflexivity|]; exists la; tauto|right; split; [exact Q|]; exists la'; tauto].
      * intros [I|(Q & la' & [I|I] & S)]; [tauto| |right; split; [exact Q|]; exists la'; tauto]. injection I as <- <-. subst x. left. right. left. reflexivity.
    + destruct (IH _ _ H N) as [X Y]. split; [exact X|]. intros k x. rewrite Y. cbn [In]. split.
      * intros [I|(Q & la' & I & S)]; [left; exact I|right; split; [exact Q|]; exists la'; tauto].
      * intros [I|(Q & la' & [I|I] & S)]; [tauto|injection I as <- <-; congruence|right; split; [exact Q|]; exists la'; tauto].
Qed.
End Data.

(** * Directories of summaries *)
Lemma prune_single n d : single_files (firstn n d) -> prune n d = (skipn n d, Ok tt).
Proof.
  revert d. induction n as [|n IH]; intros d S; [reflexivity|]. destruct d as [|[t f] d]; [reflexivity|]. cbn [prune skipn].
  rewrite (S t f (or_introl eq_refl)). apply IH. intros t' f' I. apply (S t' f'). right. exact I.
Qed.
Lemma add_file_last t d : (forall t' f, In (t', f) d -> t' < t) -> add_file t d = d ++ [(t, 1)].
Proof.
  induction d as [|[t' f] d IH]; intro H; [reflexivity|]. cbn [add_file List.app]. pose proof (H t' f (or_introl eq_refl)) as L.
  replace (Nat.eqb t t') with false by (symmetry; apply Nat.eqb_neq; lia). replace (Nat.ltb t t') with false by (symmetry; apply Nat.ltb_ge; lia).
  rewrite IH; [reflexivity|]. intros t'' f'' I. apply (H t'' f''). right. exact I.
Qed.
Lemma skipn_in {X} n (l : list X) x : In x (skipn n l) -> In x l.
Proof. revert l. induction n as [|n IH]; intros [|y l] H; try exact H. right. exact (IH l H). Qed.
(** one agent *)
Lemma initialize_new m t d : 1 <= m -> single_files (firstn (S (length d) - m) d) -> (forall t' f, In (t', f) d -> t' < t) ->
  initialize (Some m) t d = (newest (m - 1) d ++ [(t, 1)], Ok tt).
Proof.
  intros M S H. unfold initialize, newest. replace (length d - (m - 1)) with (Datatypes.S (length d) - m) by lia. destruct (Nat.ltb (m - 1) (length d)) eqn:E.
  - rewrite (prune_single _ _ S). cbv beta iota. rewrite add_file_last; [reflexivity|]. intros t' f I. apply (H t' f), (skipn_in _ _ _ I).
  - apply Nat.ltb_ge in E. replace (Datatypes.S (length d) - m) with 0 by lia. cbv beta iota. rewrite add_file_last by exact H. reflexivity.
Qed.
Lemma newest_app {X} m (l : list X) x : 1 <= m -> newest (m - 1) l ++ [x] = newest m (l ++ [x]).
Proof.
  intro M. unfold newest. rewrite app_length. cbn [length]. replace (length l + 1 - m) with (length l - (m - 1)) by lia.
  rewrite skipn_app. replace (length l - (m - 1) - length l) with 0 by lia. reflexivity.
Qed.
Lemma skipn_skipn' {X} a b (l : list X) : skipn a (skipn b l) = skipn (b + a) l.
Proof. revert l. induction b as [|b IH]; intro l; [reflexivity|]. destruct l as [|x l]; [rewrite !skipn_nil; reflexivity|]. cbn. apply IH. Qed.
Lemma newest_newest {X} m (l r : list X) : newest m (newest m l ++ r) = newest m (l ++ r).
Proof.
  unfold newest at 1 3. rewrite !app_length. unfold newest. rewrite skipn_length, skipn_app, !skipn_app, !skipn_length, skipn_skipn'.
  destruct (le_lt_dec (length l) m) as [H|H].
  - replace (length l - m) with 0 by lia. rewrite Nat.sub_0_r. cbn [skipn Nat.add]. reflexivity.
  - replace (length l - (length l - m)) with m by lia. f_equal; [f_equal; lia|f_equal; lia].
Qed.
Lemma newest_all {X} m (l : list X) : length l <= m -> newest m l = l.
Proof. intro H. unfold newest. replace (length l - m) with 0 by lia. reflexivity. Qed.
Lemma newest_in {X} m (l : list X) x : In x (newest m l) -> In x l.
Proof. apply skipn_in. Qed.
Lemma firstn_in' {X} n (l : list X) x : In x (firstn n l) -> In x l.
Proof. revert l. induction n as [|n IH]; intros [|y l] H; [destruct H|destruct H|destruct H|]. destruct H as [H|H]; [left; exact H|right; exact (IH l H)]. Qed.
Lemma firstn_more {X} a b (l : list X) x : a <= b -> In x (firstn a l) -> In x (firstn b l).
Proof.
  revert b l. induction a as [|a IH]; intros b l L H; [destruct H|]. destruct b as [|b]; [lia|]. destruct l as [|y l]; [destruct H|].
  destruct H as [H|H]; [left; exact H|right; apply (IH b); [lia|exact H]].
Qed.
Lemma later_bound t0 ts t : later t0 ts -> In t ts -> t0 < t.
Proof. revert t0. induction ts as [|a ts IH]; intros t0 L I; [destruct I|]. destruct L as [L1 L2]. destruct I as [<-|I]; [exact L1|]. specialize (IH a L2 I). lia. Qed.
(** several agents, as long as the directories removed have one file *)
Lemma agents_new m ts : 1 <= m -> forall d t0, later t0 ts -> (forall t f, In (t, f) d -> t <= t0) ->
  single_files (firstn (length d + length ts - m) (d ++ map (fun t => (t, 1)) ts)) ->
  exists rs, agents (Some m) ts d = (if ts then d else newest m (d ++ map (fun t => (t, 1)) ts), rs) /\ length rs = length ts /\ (forall r, In r rs -> r = Ok tt).
Proof.
  intro M. induction ts as [|t ts IH]; intros d t0 L B S; cbn [agents].
  - exists []. split; [reflexivity|]. split; [reflexivity|intros r []].
  - destruct L as [L1 L2]. rewrite initialize_new; [|exact M| |intros t' f I; specialize (B t' f I); lia].
    + rewrite newest_app by exact M.
      assert (LEN : length (newest m (d ++ [(t, 1)])) = Nat.min m (Datatypes.S (length d))) by (unfold newest; rewrite skipn_length, app_length; cbn [length]; lia).
      destruct (IH (newest m (d ++ [(t, 1)])) t L2) as (rs & E & N & R).
      { intros t' f I. apply newest_in, in_app_or in I. destruct I as [I|[I|[]]]; [specialize (B t' f I); lia|]. injection I as <- _. lia. }
      { rewrite LEN. intros t' f I. apply (S t' f). cbn [map length] in *. unfold newest in I. rewrite app_length in I. cbn [length] in I.
        change ((t, 1) :: map (fun t => (t, 1)) ts) with ([(t, 1)] ++ map (fun t => (t, 1)) ts). rewrite app_assoc.
        destruct (le_lt_dec (length d + 1) m) as [Q|Q].
        - replace (length d + 1 - m) with 0 in I by lia. cbn [skipn] in I. replace (length d + Datatypes.S (length ts) - m) with (Nat.min m (Datatypes.S (length d)) + length ts - m) by lia. exact I.
        - replace (Nat.min m (Datatypes.S (length d)) + length ts - m) with (length ts) in I by lia.
          replace (length d + Datatypes.S (length ts) - m) with ((length d + 1 - m) + length ts) by lia.
          rewrite <- (firstn_skipn (length d + 1 - m) ((d ++ [(t, 1)]) ++ map (fun t => (t, 1)) ts)).
          rewrite firstn_app, firstn_length, app_length, app_length. cbn [length]. apply in_or_app. right.
          replace (length d + 1 - m + length ts - Nat.min (length d + 1 - m) (length d + 1 + length (map (fun t0 : nat => (t0, 1)) ts))) with (length ts) by lia.
          rewrite skipn_app. rewrite app_length. cbn [length]. replace (length d + 1 - m - (length d + 1)) with 0 by lia. exact I. }
      rewrite E. exists (Ok tt :: rs). split; [|split; [cbn; rewrite N; reflexivity|intros r [<-|I]; [reflexivity|exact (R r I)]]].
      f_equal. cbn [map]. change ((t, 1) :: map (fun t => (t, 1)) ts) with ([(t, 1)] ++ map (fun t => (t, 1)) ts). rewrite app_assoc.
      destruct ts as [|t1 ts]; [cbn [map]; rewrite app_nil_r; reflexivity|]. apply newest_newest.
    + intros t' f I. apply (S t' f). cbn [length map]. rewrite firstn_app. apply in_or_app. left.
      apply (firstn_more (Datatypes.S (length d) - m)); [lia|exact I].
Qed.
