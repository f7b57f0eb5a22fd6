From Coq Require Import String Ascii List Arith Bool ZArith QArith Lia.
From Verif Require Import Base ChkModel ChkSpec ChkProofs.
Import ListNotations.
Open Scope string_scope.
Open Scope list_scope.
Open Scope nat_scope.

Lemma bind_inv {X Y} (x : res X) (f : X -> res Y) y : bind x f = Ok y -> exists a, x = Ok a /\ f a = Ok y.
Proof. destruct x as [a|e]; cbn [bind]; [|discriminate]. intro H. exists a. split; [reflexivity|exact H]. Qed.

(** * Configuration *)
Lemma allowed_iff ks d : allowed ks d = true <-> forall k v, In (k, v) d -> In k ks.
Proof.
  unfold allowed. rewrite forallb_forall. split.
  - intros H k v I. apply mem_iff, (H (k, v) I).
  - intros H [k v] I. apply mem_iff, (H k v I).
Qed.
Lemma lookup_in k d : (exists v, lookup k d = Some v) <-> exists v, In (k, v) d.
Proof.
  induction d as [|[k' v'] d IH]; cbn [lookup].
  - split; intros [v H]; [discriminate|destruct H].
  - destruct (String.eqb k k') eqn:E.
    + apply String.eqb_eq in E. subst k'. split; intros _; [exists v'; left; reflexivity|exists v'; reflexivity].
    + apply String.eqb_neq in E. rewrite IH. split; intros [v H]; exists v; [right; exact H|]. destruct H as [H|H]; [injection H as <- <-; congruence|exact H].
Qed.
Lemma lookup_some k d v : lookup k d = Some v -> In (k, v) d.
Proof.
  induction d as [|[k' v'] d IH]; cbn [lookup]; [discriminate|]. destruct (String.eqb k k') eqn:E; intro H.
  - apply String.eqb_eq in E. subst. injection H as <-. left. reflexivity.
  - right. exact (IH H).
Qed.
Lemma lookup_iff k d v : NoDup (map fst d) -> (lookup k d = Some v <-> In (k, v) d).
Proof.
  intro N. split; [apply lookup_some|]. intro I. destruct (proj2 (lookup_in k d) (ex_intro _ v I)) as [w W]. rewrite W. apply lookup_some in W. f_equal.
  clear -N I W. induction d as [|[k' v'] d IH]; [destruct I|]. cbn [map fst] in N. apply NoDup_cons_iff in N. destruct N as [A B].
  destruct I as [I|I], W as [W|W].
  - congruence.
  - injection I as -> ->. destruct A. apply (in_map fst) in W. exact W.
  - injection W as -> ->. destruct A. apply (in_map fst) in I. exact I.
  - exact (IH B I W).
Qed.
Lemma prefix_iff x s : prefix x s = true <-> exists b, s = (x ++ b)%string.
Proof.
  revert s. induction x as [|a x IH]; intro s.
  - split; [intros _; exists s; reflexivity|intros _; destruct s; reflexivity].
  - destruct s as [|c s]; [split; [discriminate|intros [b H]; discriminate]|]. cbn [prefix String.append]. destruct (ascii_dec a c) as [E|E].
    + subst. rewrite IH. split; intros [b H]; exists b; congruence.
    + split; [discriminate|]. intros [b H]. congruence.
Qed.
Lemma substring_iff x s : substring_of x s = true <-> contains x s.
Proof.
  unfold substring_of. revert x. induction s as [|c s IH]; intro x.
  - destruct x as [|a x]; cbn [index].
    + split; [intros _; exists "", ""; reflexivity|reflexivity].
    + split; [discriminate|]. intros (p & q & H). destruct p; discriminate.
  - assert (E : match index 0 x (String c s) with Some _ => true | None => false end = (prefix x (String c s) || match index 0 x s with Some _ => true | None => false end)).
    { cbn [index]. destruct (prefix x (String c s)); [reflexivity|]. destruct (index 0 x s); reflexivity. }
    rewrite E, orb_true_iff, prefix_iff, IH. split.
    + intros [[b H]|(a & b & H)]; [exists "", b; exact H|exists (String c a), b; rewrite H; reflexivity].
    + intros (a & b & H). destruct a as [|y a]; [left; exists b; exact H|right]. injection H as _ H. exists a, b. exact H.
Qed.
Lemma checked_iff ks c : (exists r, checked ks c = Ok r) <-> proper_config ks c.
Proof.
  destruct c as [|s|d]; cbn [checked proper_config].
  - split; [trivial|]. intros _. eexists. reflexivity.
  - split; [trivial|]. intros _. eexists. reflexivity.
  - unfold proper_dict. rewrite <- allowed_iff, <- lookup_in. destruct (allowed ks d); cbn [negb].
    + destruct (lookup "directory" d) as [v|].
      * split; [intros _; split; [reflexivity|exists v; reflexivity]|intros _; eexists; reflexivity].
      * split; [intros [r H]; discriminate|intros [_ [v H]]; discriminate].
    + split; [intros [r H]; discriminate|intros [H _]; discriminate].
Qed.
Lemma checked_eq ks c r : checked ks c = Ok r -> match c with CNone => r = None | CPath s => r = Some [("directory", VStr s)] | CDict d => r = Some d end.
Proof.
  destruct c as [|s|d]; cbn [checked]; intro H; try (injection H as <-; reflexivity).
  destruct (negb _); [discriminate|]. destruct (lookup _ _); [injection H as <-; reflexivity|discriminate].
Qed.
Lemma proper_same ks ks' c : (forall k, In k ks <-> In k ks') -> (proper_config ks c <-> proper_config ks' c).
Proof.
  intro H. destruct c as [|s|d]; cbn [proper_config]; try tauto. unfold proper_dict. split; intros [A B]; (split; [intros k v I; apply H, (A k v I)|exact B]).
Qed.
Lemma saver_same k : In k saver_keys <-> In k saver_entries.
Proof. unfold saver_keys, saver_entries. cbn [In]. tauto. Qed.
Lemma summarizer_same k : In k summarizer_keys <-> In k summarizer_entries.
Proof. unfold summarizer_keys, summarizer_entries. cbn [In]. tauto. Qed.
Lemma units_same k : In k units <-> In k counters.
Proof. unfold units, counters. cbn [In]. tauto. Qed.
Lemma deprecated_iff c : deprecated c = true <-> match c with CNone => False | CPath s => contains "labels" s | CDict d => exists v, In ("labels", v) d end.
Proof.
  destruct c as [|s|d]; cbn [deprecated].
  - split; [discriminate|tauto].
  - apply substring_iff.
  - rewrite existsb_exists. split.
    + intros ([k v] & I & E). apply String.eqb_eq in E. cbn in E. subst. exists v. exact I.
    + intros [v I]. exists ("labels", v). split; [exact I|reflexivity].
Qed.
Lemma summaries_iff v : (exists l, summaries v = Ok l) <-> match v with None => True | Some v => label_list v end.
Proof.
  destruct v as [[|s|l|]|]; cbn [summaries label_list].
  - split; [trivial|]. intros _. eexists. reflexivity.
  - split; [trivial|]. intros _. destruct (String.eqb s "all"); eexists; reflexivity.
  - destruct (forallb _ l) eqn:E.
    + rewrite forallb_forall in E. split; [|intros _; eexists; reflexivity]. intros _ x I. specialize (E x I). destruct x as [s|]; [exists s; reflexivity|discriminate].
    + split; [intros [r H]; discriminate|]. intro H. exfalso. assert (X : forallb (fun x => match x with IStr _ => true | IOther => false end) l = true).
      { apply forallb_forall. intros x I. destruct (H x I) as [s ->]. reflexivity. }
      congruence.
  - split; [intros [r H]; discriminate|tauto].
  - split; [trivial|]. intros _. eexists. reflexivity.
Qed.
Lemma tracking_iff v : (exists l, tracking v = Ok l) <-> v <> VOther.
Proof.
  destruct v as [|s|l|]; cbn [tracking].
  - split; [discriminate|]. intros _. eexists. reflexivity.
  - split; [discriminate|]. intros _. destruct (String.eqb s "all"); eexists; reflexivity.
  - split; [discriminate|]. intros _. eexists. reflexivity.
  - split; [intros [r H]; discriminate|congruence].
Qed.
Lemma selected_only l n : selected (Only l) n = true <-> In (IStr n) l.
Proof.
  cbn [selected]. rewrite existsb_exists. split.
  - intros ([s|] & I & E); [|discriminate]. apply String.eqb_eq in E. subst. exact I.
  - intro I. exists (IStr n). split; [exact I|apply String.eqb_refl].
Qed.
Lemma letters_in s n : In (IStr n) (letters s) -> String.length n = 1.
Proof. induction s as [|a s IH]; cbn [letters In]; [tauto|]. intros [H|H]; [injection H as <-; reflexivity|exact (IH H)]. Qed.
Lemma configure_inv saver summarizer track s z l t : configure saver summarizer track = Ok (s, z, l, t) <->
  deprecated summarizer = false /\ checked saver_keys saver = Ok s /\ checked summarizer_keys summarizer = Ok z /\
  match z with None => Ok (Only []) | Some d => summaries (lookup "summaries" d) end = Ok l /\ tracking track = Ok t.
Proof.
  unfold configure. destruct (deprecated summarizer); [split; [discriminate|intros [H _]; discriminate]|]. split.
  - intro H. apply bind_inv in H. destruct H as (s' & S & H). apply bind_inv in H. destruct H as (z' & Z & H). apply bind_inv in H. destruct H as (l' & L & H).
    apply bind_inv in H. destruct H as (t' & T & H). injection H as <- <- <- <-. tauto.
  - intros (_ & -> & -> & L & T). cbn [bind]. rewrite L. cbn [bind]. rewrite T. reflexivity.
Qed.

(** * Summaries *)
Section Data.
Variable A : Type.
Implicit Types (c : scall A) (cs : list (scall A)).

Lemma step_assign k t k' st : step_of k' (assign k t st) = if String.eqb k' k then (match step_of k' st with Some _ => Some t | None => None end) else step_of k' st.
Proof.
  induction st as [|[x y] st IH]; cbn [assign step_of].
  - destruct (String.eqb k' k); reflexivity.
  - destruct (String.eqb k x) eqn:E.
    + apply String.eqb_eq in E. subst x. cbn [step_of]. destruct (String.eqb k' k) eqn:F; reflexivity.
    + cbn [step_of]. rewrite IH. destruct (String.eqb k' x) eqn:F; [|reflexivity]. apply String.eqb_eq in F. subst x.
      rewrite String.eqb_sym in E. rewrite E. reflexivity.
Qed.
Lemma summary_inv l c st st' w : summary A l c st = Ok (st', w) ->
  exists k ns, s_names _ c = k :: ns /\ In (s_unit _ c) units /\
  ((selected l (s_label _ c) = false /\ st' = st /\ w = []) \/
   (selected l (s_label _ c) = true /\ exists t, step_of k st = Some t /\
     (((t < s_time _ c)%Z /\ st' = assign k (s_time _ c) st /\ w = written c) \/ ((s_time _ c <= t)%Z /\ st' = st /\ w = [])))).
Proof.
  unfold summary. destruct (s_names A c) as [|k ns] eqn:N; [discriminate|]. intro H. exists k, ns. split; [reflexivity|].
  destruct (existsb _ units) eqn:U; cbn [negb] in H; [|discriminate]. apply mem_iff in U. split; [exact U|].
  destruct (selected l _); [right|left; injection H as <- <-; tauto]. split; [reflexivity|].
  destruct (step_of k st) as [t|]; [|discriminate]. exists t. split; [reflexivity|]. destruct (t <? s_time A c)%Z eqn:T.
  - left. injection H as <- <-. apply Z.ltb_lt in T. split; [exact T|]. split; [reflexivity|]. unfold written. rewrite N. reflexivity.
  - right. injection H as <- <-. apply Z.ltb_ge in T. tauto.
Qed.
Lemma calls_app l cs cs' st : calls A l (cs ++ cs') st = do r <- calls A l cs st; do r' <- calls A l cs' (fst r); Ok (fst r', snd r ++ snd r').
Proof.
  revert st. induction cs as [|c cs IH]; intro st; cbn [calls List.app].
  - cbn [bind fst snd List.app]. destruct (calls A l cs' st) as [[a b]|]; reflexivity.
  - destruct (summary A l c st) as [[a b]|]; cbn [bind fst snd]; [|reflexivity]. rewrite IH. destruct (calls A l cs a) as [[x y]|]; cbn [bind fst snd]; [|reflexivity].
    destruct (calls A l cs' x) as [[u v]|]; cbn [bind fst snd]; [|reflexivity]. rewrite app_assoc. reflexivity.
Qed.
(** the last steps after some calls *)
Lemma calls_steps l cs st st' w : calls A l cs st = Ok (st', w) ->
  forall k t, step_of k st = Some t -> exists t', step_of k st' = Some t' /\
  (t <= t')%Z /\ (t' = t \/ exists c, In c cs /\ selected l (s_label _ c) = true /\ hd_error (s_names _ c) = Some k /\ t' = s_time _ c) /\
  (forall c, In c cs -> selected l (s_label _ c) = true -> hd_error (s_names _ c) = Some k -> (s_time _ c <= t')%Z).
Proof.
  revert st w. induction cs as [|c cs IH]; intros st w H k t S; cbn [calls] in H.
  - injection H as <- <-. exists t. split; [exact S|]. split; [lia|]. split; [left; reflexivity|intros c []].
  - apply bind_inv in H. destruct H as ([st1 w1] & H1 & H). apply bind_inv in H. destruct H as ([st2 w2] & H2 & H). cbn [fst snd] in *. injection H as <- <-.
    apply summary_inv in H1. destruct H1 as (k0 & ns & N & U & H1).
    assert (X : exists t1, step_of k st1 = Some t1 /\ (t <= t1)%Z /\ (t1 = t \/ (selected l (s_label _ c) = true /\ k0 = k /\ t1 = s_time _ c)) /\
      (selected l (s_label _ c) = true -> k0 = k -> (s_time _ c <= t1)%Z)).
    { destruct H1 as [(L & -> & _)|(L & t0 & T0 & [(T & -> & _)|(T & -> & _)])].
      - exists t. split; [exact S|]. split; [lia|]. split; [left; reflexivity|congruence].
      - rewrite step_assign, S. destruct (String.eqb k k0) eqn:E.
        + apply String.eqb_eq in E. subst k0. rewrite S in T0. injection T0 as <-. exists (s_time _ c). split; [reflexivity|]. split; [lia|]. split; [right; tauto|lia].
        + apply String.eqb_neq in E. exists t. split; [reflexivity|]. split; [lia|]. split; [left; reflexivity|congruence].
      - exists t. split; [exact S|]. split; [lia|]. split; [left; reflexivity|]. intros _ ->. rewrite S in T0. injection T0 as <-. exact T. }
    destruct X as (t1 & S1 & Le & Or & Up). destruct (IH _ _ H2 k t1 S1) as (t2 & S2 & Le2 & Or2 & Up2).
    exists t2. split; [exact S2|]. split; [lia|]. split.
    + destruct Or2 as [->|(d & I & D)]; [|right; exists d; split; [right; exact I|exact D]].
      destruct Or as [->|(L & -> & ->)]; [left; reflexivity|right]. exists c. split; [left; reflexivity|]. rewrite N. tauto.
    + intros d [<-|I] L HD; [|exact (Up2 d I L HD)]. rewrite N in HD. cbn in HD. injection HD as ->. specialize (Up L eq_refl). lia.
Qed.
Lemma registers_steps l rs st st' : registers l rs st = Ok st' -> (forall k t, step_of k st = Some t -> t = (-1)%Z) -> forall k t, step_of k st' = Some t -> t = (-1)%Z.
Proof.
  revert st. induction rs as [|[label names] rs IH]; intros st H S k t; cbn [registers] in H; [injection H as <-; apply S|].
  apply bind_inv in H. destruct H as (st1 & H1 & H). apply (IH st1 H). unfold register in H1. destruct names as [|n ns]; [discriminate|].
  destruct (step_of n st) eqn:E; [discriminate|]. injection H1 as <-. intros k' t'. destruct (selected l label); [|apply S]. cbn [step_of].
  destruct (String.eqb k' n); [intro X; injection X as <-; reflexivity|apply S].
Qed.
Lemma registers_in l rs st st' : registers l rs st = Ok st' -> forall k, (exists t, step_of k st' = Some t) <->
  (exists t, step_of k st = Some t) \/ exists label ns, In (label, k :: ns) rs /\ selected l label = true.
Proof.
  revert st. induction rs as [|[label names] rs IH]; intros st H k; cbn [registers] in H.
  - injection H as <-. split; [tauto|]. intros [H|(x & y & [] & _)]. exact H.
  - apply bind_inv in H. destruct H as (st1 & H1 & H). rewrite (IH st1 H k). unfold register in H1. destruct names as [|n ns]; [discriminate|].
    destruct (step_of n st) eqn:E; [discriminate|]. injection H1 as <-. destruct (selected l label) eqn:L.
    + cbn [step_of]. destruct (String.eqb k n) eqn:F.
      * apply String.eqb_eq in F. subst n. split; intros _; [right; exists label, ns; split; [left; reflexivity|exact L]|left; eexists; reflexivity].
      * apply String.eqb_neq in F. split; (intros [X|(x & y & I & S)]; [left; exact X|right; exists x, y; split; [|exact S]]); [right; exact I|].
        destruct I as [I|I]; [congruence|exact I].
    + split; (intros [X|(x & y & I & S)]; [left; exact X|right; exists x, y; split; [|exact S]]); [right; exact I|].
      destruct I as [I|I]; [injection I as <- <- <-; congruence|exact I].
Qed.
Lemma registers_ok l rs st : (exists st', registers l rs st = Ok st') <->
  (forall label ns, In (label, ns) rs -> ns <> []) /\
  (forall label k ns, In (label, k :: ns) rs -> step_of k st = None) /\
  (forall a label k ns b label' ns' z, rs = a ++ (label, k :: ns) :: b ++ (label', k :: ns') :: z -> selected l label = false).
Proof.
  revert st. induction rs as [|[label names] rs IH]; intro st; cbn [registers].
  - split; [|intros _; exists st; reflexivity]. intros _. split; [intros ? ? []|]. split; [intros ? ? ? []|]. intros a ? ? ? b ? ? z H. destruct a; discriminate.
  - split.
    + intros [st' H]. apply bind_inv in H. destruct H as (st1 & H1 & H). destruct (proj1 (IH st1) (ex_intro _ st' H)) as (X & Y & Z).
      unfold register in H1. destruct names as [|n ns]; [discriminate|]. destruct (step_of n st) eqn:E; [discriminate|]. injection H1 as H1. split; [|split].
      * intros la x [I|I]; [injection I as <- <-; discriminate|exact (X la x I)].
      * intros la k x [I|I]; [injection I as <- <- <-; exact E|]. specialize (Y la k x I). subst st1. destruct (selected l label); [|exact Y].
        cbn [step_of] in Y. destruct (String.eqb k n); [discriminate|exact Y].
      * intros a la k x b la' x' z0 EQ. destruct a as [|y a]; injection EQ as EQ1 EQ2; [|exact (Z a la k x b la' x' z0 EQ2)].
        intros. subst. destruct (selected l la) eqn:L; [|reflexivity]. exfalso.
        assert (I : In (la', k :: x') (b ++ (la', k :: x') :: z0)) by (apply in_or_app; right; left; reflexivity).
        specialize (Y _ _ _ I). cbn [step_of] in Y. rewrite String.eqb_refl in Y. discriminate.
    + intros (X & Y & Z). destruct names as [|n ns]; [destruct (X label [] (or_introl eq_refl) eq_refl)|].
      unfold register. rewrite (Y label n ns (or_introl eq_refl)). cbn [bind]. apply IH. split; [|split].
      * intros la x I. apply (X la x). right. exact I.
      * intros la k x I. specialize (Y la k x (or_intror I)). destruct (selected l label) eqn:L; [|exact Y]. cbn [step_of].
        destruct (String.eqb k n) eqn:F; [|exact Y]. apply String.eqb_eq in F. subst k. destruct (in_split _ _ I) as (b & z0 & EQ).
        specialize (Z [] label n ns b la x z0). cbn [List.app] in Z. rewrite <- EQ in Z. specialize (Z eq_refl). congruence.
      * intros a la k x b la' x' z0 EQ. apply (Z ((label, n :: ns) :: a) la k x b la' x' z0). cbn [List.app]. f_equal. exact EQ.
Qed.
End Data.
