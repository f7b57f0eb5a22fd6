(** Lemmas on the recorder. *)

From Coq Require Import String List ZArith Bool Lia.
From Verif Require Import Base BaseFacts RecSpec RecModel.
Import ListNotations.
Open Scope nat_scope.
Open Scope list_scope.

Section Rec.
Context {S A R : Type}.
Notation event := (event S A R).
Notation state := (state S A R).

(** What a call adds to the history *)
Definition events (x : call S A R) : list event :=
  match x with
  | Act ps ss acts => map (fun y => Acted (fst (fst y)) (snd (fst y)) (snd y)) (combine (combine ps ss) acts)
  | Observe l => map (fun y => Observed (fst (fst y)) (snd (fst y)) (snd y)) l
  | Reset => [WasReset]
  end.
Definition history (l : list (call S A R)) : list event := flat_map events l.

(** Calls name a stream at most once; terminal is 0, 1 or 2 *)
Definition legal (x : call S A R) : Prop :=
  match x with
  | Act ps _ _ => NoDup ps
  | Observe l => NoDup (map (fun y => fst (fst y)) l) /\ Forall (fun y => (0 <= snd (fst y) <= 2)%Z) l
  | Reset => True
  end.

(** When recording begins, no stream is within an episode. *)
Definition clean_start (c : config) (l : list (call S A R)) : Prop :=
  forall pre x post, l = pre ++ x :: post -> length (episodes (history pre)) < start c ->
    start c <= length (episodes (history (pre ++ [x]))) ->
    length (episodes (history (pre ++ [x]))) = start c /\ forall p, unfinished p (history (pre ++ [x])) = [].

(** ** Histories *)
Lemma unfinished_snoc p h (e : event) : unfinished p (h ++ [e]) = extend p (unfinished p h) e.
Proof. unfold unfinished. rewrite fold_left_app. reflexivity. Qed.

Lemma unfinished_app p h (l : list event) : unfinished p (h ++ l) = fold_left (extend p) l (unfinished p h).
Proof. unfold unfinished. apply fold_left_app. Qed.

Definition ends (h : list event) (e : event) : list (list (step S A R)) :=
  match e with
  | Observed p t r => if Z.eqb t 0 then [] else [steps (unfinished p h ++ [e])]
  | _ => []
  end.

Lemma flat_map_ext_in {X Y} (f g : X -> list Y) l : (forall x, In x l -> f x = g x) -> flat_map f l = flat_map g l.
Proof. induction l as [|x l IH]; intro H; [reflexivity|]. cbn. rewrite (H x), IH; [reflexivity| |]; cbn in *; auto. Qed.

Lemma episodes_snoc (h : list event) e : episodes (h ++ [e]) = episodes h ++ ends h e.
Proof.
  unfold episodes. rewrite app_length. cbn [length]. rewrite Nat.add_1_r, seq_S, flat_map_app. f_equal.
  - apply flat_map_ext_in. intros i Hi. apply in_seq in Hi. unfold completes.
    rewrite nth_error_app1 by lia. destruct (nth_error h i) as [[| |]|]; try reflexivity.
    rewrite firstn_app. replace (i - length h) with 0 by lia. cbn [firstn]. rewrite app_nil_r. reflexivity.
  - cbn [flat_map plus]. rewrite app_nil_r. unfold completes. rewrite nth_error_app2 by lia.
    rewrite Nat.sub_diag. cbn [nth_error]. rewrite firstn_app, Nat.sub_diag, firstn_all. cbn [firstn]. rewrite app_nil_r.
    destruct e; reflexivity.
Qed.

Lemma acts_app (l m : list event) : acts (l ++ m) = acts l ++ acts m.
Proof. induction l as [|[| |] l IH]; cbn; rewrite ?IH; reflexivity. Qed.
Lemma observations_app (l m : list event) : observations (l ++ m) = observations l ++ observations m.
Proof. induction l as [|[| |] l IH]; cbn; rewrite ?IH; reflexivity. Qed.

(** ** The buffers *)
Definition buf (l : list event) : buffer S A R :=
  Buffer (map fst (acts l)) (map snd (acts l)) (map fst (observations l)) (map snd (observations l)).
Definition rec (l : list (list (step S A R))) : recorded S A R :=
  Recorded (map (map st_state) l) (map (map st_action) l) (map (map st_terminal) l) (map (map st_reward) l).

Lemma steps_columns (l : list event) : length (acts l) = length (observations l) ->
  map st_state (steps l) = map fst (acts l) /\ map st_action (steps l) = map snd (acts l) /\
  map st_terminal (steps l) = map fst (observations l) /\ map st_reward (steps l) = map snd (observations l).
Proof.
  unfold steps. generalize (acts l), (observations l). intros x. induction x as [|[s a] x IH]; intros [|[t r] y] H; try discriminate.
  - repeat split.
  - injection H as H. destruct (IH y H) as (E1 & E2 & E3 & E4). cbn. rewrite E1, E2, E3, E4. repeat split.
Qed.

(** ** Generic facts on lists *)
Lemma nth_update {T} (l : list T) n v p : nth_error (update_nth l n v) p =
  if Nat.eqb p n then (if Nat.ltb n (length l) then Some v else None) else nth_error l p.
Proof.
  revert n p. induction l as [|x l IH]; intros n p.
  - destruct n, p; reflexivity || (cbn; destruct (Nat.eqb p n); reflexivity).
  - destruct n, p; try reflexivity. cbn [update_nth nth_error Nat.eqb length]. rewrite IH. destruct (Nat.eqb p n); reflexivity.
Qed.
Lemma length_update {T} (l : list T) n v : length (update_nth l n v) = length l.
Proof. revert n. induction l; intros [|n]; cbn; auto. Qed.

Lemma length_set_all {T} ps (l : list T) v : length (set_all l ps v) = length l.
Proof. unfold set_all. revert l. induction ps as [|p ps IH]; intro l; [reflexivity|]. cbn. rewrite IH. apply length_update. Qed.
Lemma nth_set_all {T} ps (l : list T) v p : (forall q, In q ps -> q < length l) ->
  nth_error (set_all l ps v) p = if existsb (Nat.eqb p) ps then Some v else nth_error l p.
Proof.
  unfold set_all. revert l. induction ps as [|q ps IH]; intros l H; [reflexivity|]. cbn [fold_left existsb].
  rewrite IH by (intros; rewrite length_update; apply H; right; assumption). rewrite nth_update.
  destruct (existsb (Nat.eqb p) ps); [rewrite orb_true_r; reflexivity|]. rewrite orb_false_r.
  destruct (Nat.eqb p q) eqn:E; [|reflexivity]. replace (Nat.ltb q (length l)) with true; [reflexivity|].
  symmetry. apply Nat.ltb_lt, H. left; reflexivity.
Qed.

Lemma bind_inv {X Y} (x : res X) (f : X -> res Y) y : (do a <- x; f a) = Ok y -> exists a, x = Ok a /\ f a = Ok y.
Proof. destruct x; cbn; [eauto|discriminate]. Qed.
Lemma assert_inv b m u : assert_ b m = Ok u -> b = true.
Proof. destruct b; [reflexivity|discriminate]. Qed.

Lemma get_all_inv {T} (l : list T) ps r : get_all l ps = Ok r -> Forall2 (fun p x => nth_error l p = Some x) ps r.
Proof.
  unfold get_all. revert r. induction ps as [|p ps IH]; intros r H; cbn in H.
  - injection H as <-. constructor.
  - destruct (nth_error l p) as [x|] eqn:E; [|discriminate]. cbn in H. apply bind_inv in H. destruct H as (y & H1 & H2).
    injection H2 as <-. constructor; auto.
Qed.

(** ** Pushing on the buffers *)
Definition at_stream {X} (p : nat) (l : list (nat * X)) : list X := map snd (filter (fun y => Nat.eqb (fst y) p) l).

Lemma push_states_inv ps ss b b' : push_states ps ss b = Ok b' ->
  length ps = length ss /\ length b' = length b /\
  forall p x', nth_error b' p = Some x' -> exists x, nth_error b p = Some x /\
    x' = Buffer (b_states x ++ at_stream p (combine ps ss)) (b_actions x) (b_terminal x) (@b_reward S A R x).
Proof.
  revert ss b. induction ps as [|q ps IH]; intros [|s ss] b H; try discriminate; cbn [push_states] in H.
  - injection H as <-. split; [reflexivity|]. split; [reflexivity|]. intros p x Hx. exists x. split; [exact Hx|].
    destruct x; cbn. rewrite app_nil_r. reflexivity.
  - destruct (nth_error b q) as [y|] eqn:E; [|discriminate]. apply IH in H. destruct H as (H1 & H2 & H3).
    rewrite length_update in H2. split; [cbn; congruence|]. split; [exact H2|]. intros p x' Hx. apply H3 in Hx. destruct Hx as (x & Hx & ->).
    rewrite nth_update in Hx. unfold at_stream. cbn [combine filter fst]. rewrite (Nat.eqb_sym q p). destruct (Nat.eqb p q) eqn:Epq.
    + destruct (Nat.ltb _ _); [|discriminate]. injection Hx as <-. apply Nat.eqb_eq in Epq. subst p. exists y. split; [exact E|].
      cbn. rewrite <- app_assoc. reflexivity.
    + exists x. split; [exact Hx|reflexivity].
Qed.

Lemma push_actions_inv ps ss b b' : push_actions ps ss b = Ok b' ->
  length ps = length ss /\ length b' = length b /\
  forall p x', nth_error b' p = Some x' -> exists x, nth_error b p = Some x /\
    x' = Buffer (b_states x) (b_actions x ++ at_stream p (combine ps ss)) (b_terminal x) (@b_reward S A R x).
Proof.
  revert ss b. induction ps as [|q ps IH]; intros [|s ss] b H; try discriminate; cbn [push_actions] in H.
  - injection H as <-. split; [reflexivity|]. split; [reflexivity|]. intros p x Hx. exists x. split; [exact Hx|].
    destruct x; cbn. rewrite app_nil_r. reflexivity.
  - destruct (nth_error b q) as [y|] eqn:E; [|discriminate]. apply IH in H. destruct H as (H1 & H2 & H3).
    rewrite length_update in H2. split; [cbn; congruence|]. split; [exact H2|]. intros p x' Hx. apply H3 in Hx. destruct Hx as (x & Hx & ->).
    rewrite nth_update in Hx. unfold at_stream. cbn [combine filter fst]. rewrite (Nat.eqb_sym q p). destruct (Nat.eqb p q) eqn:Epq.
    + destruct (Nat.ltb _ _); [|discriminate]. injection Hx as <-. apply Nat.eqb_eq in Epq. subst p. exists y. split; [exact E|].
      cbn. rewrite <- app_assoc. reflexivity.
    + exists x. split; [exact Hx|reflexivity].
Qed.

(** The events of an act *)
Lemma act_events ps ss (l : list A) h p : length ps = length ss -> length ps = length l ->
  let h' := h ++ events (Act ps ss l) in
  episodes h' = episodes h /\
  acts (unfinished p h') = acts (unfinished p h) ++ combine (at_stream p (combine ps ss)) (at_stream p (combine ps l)) /\
  observations (unfinished p h') = observations (unfinished p h).
Proof.
  intros H1 H2. cbn [events]. revert ss l h H1 H2.
  induction ps as [|q ps IH]; intros [|s ss] [|a l] h H1 H2; try discriminate.
  - cbn. rewrite !app_nil_r. repeat split; reflexivity.
  - injection H1 as H1. injection H2 as H2. cbn [combine map fst snd].
    specialize (IH ss l (h ++ [Acted q s a]) H1 H2). cbn zeta in IH. rewrite <- app_assoc in IH. cbn [app] in IH.
    destruct IH as (E1 & E2 & E3). cbn zeta. rewrite E1, E2, E3, episodes_snoc, unfinished_snoc. cbn [ends extend]. rewrite app_nil_r.
    unfold at_stream. cbn [combine filter fst]. destruct (Nat.eqb q p); cbn [map snd combine].
    + rewrite acts_app, observations_app. cbn. rewrite <- app_assoc, app_nil_r. repeat split.
    + repeat split.
Qed.

Lemma at_stream_length {X Y} p ps (ss : list X) (l : list Y) : length ps = length ss -> length ps = length l ->
  length (at_stream p (combine ps ss)) = length (at_stream p (combine ps l)).
Proof.
  revert ss l. induction ps as [|q ps IH]; intros [|s ss] [|a l] H1 H2; try discriminate; [reflexivity|].
  injection H1 as H1. injection H2 as H2. specialize (IH ss l H1 H2). unfold at_stream in *. cbn [combine filter fst].
  destruct (Nat.eqb q p); cbn; congruence.
Qed.
Lemma map_fst_combine {X Y} (l : list X) (m : list Y) : length l = length m -> map fst (combine l m) = l.
Proof. revert m. induction l; intros [|y m] H; try discriminate; [reflexivity|]. cbn. f_equal. auto. Qed.
Lemma map_snd_combine {X Y} (l : list X) (m : list Y) : length l = length m -> map snd (combine l m) = m.
Proof. revert m. induction l; intros [|y m] H; try discriminate; [reflexivity|]. cbn. f_equal. auto. Qed.

Lemma at_stream_count {X} p ps (l : list X) : NoDup ps -> length ps = length l ->
  length (at_stream p (combine ps l)) = if existsb (Nat.eqb p) ps then 1 else 0.
Proof.
  intros H. revert l. induction H as [|q ps Hq H IH]; intros [|a l] E; try discriminate; [reflexivity|]. injection E as E.
  specialize (IH l E). unfold at_stream in *. cbn [combine filter fst existsb]. rewrite (Nat.eqb_sym q p). destruct (Nat.eqb p q) eqn:Epq; cbn.
  - rewrite IH. apply Nat.eqb_eq in Epq. subst q. destruct (existsb (Nat.eqb p) ps) eqn:Ex; [|reflexivity].
    apply existsb_exists in Ex. destruct Ex as (y & Hy & Ey). apply Nat.eqb_eq in Ey. subst y. contradiction.
  - exact IH.
Qed.

(** ** Acts and observations alternate *)
Definition aligned (h : list event) (comp : list bool) : Prop :=
  forall p b, nth_error comp p = Some b ->
    length (acts (unfinished p h)) = length (observations (unfinished p h)) + (if b then 0 else 1).

(** ** The invariant while recording *)
Variable c : config.
Variable d0 : files S A R.
Hypothesis Hf : 0 < frequency c.

Definition name (k : nat) : nat := start c + (k + 1) * frequency c - 1.
Definition written (n : nat) : nat := (n - start c) / frequency c.

(** A file [k] holds the last episodes of its chunk; all of them if never reset ([nr]) *)
Definition entry (nr : Prop) (eps : list (list (step S A R))) (f : nat * trace S A R) : Prop :=
  exists i, fst f + 1 - frequency c <= i <= fst f /\ start c <= i /\ fst f < length eps /\ (nr -> i = fst f + 1 - frequency c) /\
    snd f = columns (concat (firstn (fst f + 1 - i) (skipn i eps))).

Definition kept (log : files S A R) : files S A R :=
  match max_traces c with Some m => skipn (length log - m) log | None => log end.

Definition write_all (log d : files S A R) : files S A R := fold_left (fun d f => write (fst f) (snd f) d) log d.

Record inv (nr : Prop) (h : list event) (s : state) : Prop := {
  i_num : num_episodes s = length (episodes h);
  i_start : start c <= length (episodes h);
  i_len : length (buffers s) = streams c;
  i_bufs : forall p x, nth_error (buffers s) p = Some x -> x = buf (unfinished p h);
  i_rec : exists i, start c + written (length (episodes h)) * frequency c <= i <= length (episodes h) /\
            (nr -> i = start c + written (length (episodes h)) * frequency c) /\ record s = rec (skipn i (episodes h));
  i_dir : exists log, map fst log = map name (seq 0 (written (length (episodes h)))) /\ Forall (entry nr (episodes h)) log /\
            (forall f, In f (directory s) -> In f d0 \/ In f log) /\
            (d0 = [] -> max_traces c <> Some 0 -> max_traces c <> Some 1 -> directory s = kept log) /\
            (max_traces c = None -> directory s = write_all log d0) }.

Lemma written_lt m : (Datatypes.S m) mod frequency c <> 0 -> Datatypes.S m / frequency c = m / frequency c.
Proof.
  intro H. pose proof (Nat.div_mod (Datatypes.S m) (frequency c) ltac:(lia)) as E. pose proof (Nat.mod_upper_bound (Datatypes.S m) (frequency c) ltac:(lia)).
  apply (Nat.div_unique m (frequency c) (Datatypes.S m / frequency c) (Datatypes.S m mod frequency c - 1)); lia.
Qed.
Lemma written_eq m : (Datatypes.S m) mod frequency c = 0 ->
  Datatypes.S m / frequency c = Datatypes.S (m / frequency c) /\ (m / frequency c) * frequency c + frequency c = Datatypes.S m.
Proof.
  intro H. pose proof (Nat.div_mod (Datatypes.S m) (frequency c) ltac:(lia)) as E. rewrite H, Nat.add_0_r in E.
  assert (Datatypes.S m / frequency c <> 0) by (intro Z; rewrite Z in E; lia).
  assert (m / frequency c = Datatypes.S m / frequency c - 1).
  { symmetry. apply (Nat.div_unique m (frequency c) _ (frequency c - 1)); [lia|]. rewrite Nat.mul_sub_distr_l. nia. }
  split; nia.
Qed.

Lemma purge_in m (d : files S A R) f : In f (purge m d) -> In f d.
Proof.
  destruct m as [m|]; cbn; [|auto]. destruct (_ <? _)%Z; [|auto]. generalize (length (slice d 0 (- Z.of_nat m + 1))) as n.
  intro n. revert d. induction n; intros [|x d] H; cbn in *; auto.
Qed.
Lemma write_in n t (d : files S A R) f : In f (write n t d) -> f = (n, t) \/ In f d.
Proof.
  induction d as [|[m u] d IH]; cbn [write In]; [intros [<- | []]; auto|]. destruct (Nat.ltb n m); [cbn [In]; intros [<- | ?]; auto|].
  destruct (Nat.eqb n m); cbn [In]; [intros [<- | ?]; auto|]. intros [<- | H]; auto. destruct (IH H); auto.
Qed.
Lemma write_last n t (d : files S A R) : (forall f, In f d -> fst f < n) -> write n t d = d ++ [(n, t)].
Proof.
  induction d as [|[m u] d IH]; intro H; [reflexivity|]. cbn [write]. pose proof (H (m, u) (or_introl eq_refl)) as Hm. cbn [fst] in Hm.
  replace (Nat.ltb n m) with false by (symmetry; apply Nat.ltb_ge; lia).
  replace (Nat.eqb n m) with false by (symmetry; apply Nat.eqb_neq; lia). rewrite IH by (intros; apply H; right; assumption). reflexivity.
Qed.

Lemma skipn_skipn_add {X} a b (l : list X) : skipn a (skipn b l) = skipn (a + b) l.
Proof. revert l. induction b; intro l; [rewrite Nat.add_0_r; reflexivity|]. rewrite Nat.add_succ_r. destruct l; [rewrite !skipn_nil; reflexivity|]. cbn. apply IHb. Qed.

Lemma kept_snoc (log : files S A R) n t : max_traces c <> Some 0 -> max_traces c <> Some 1 -> (forall f, In f log -> fst f < n) ->
  write n t (purge (max_traces c) (kept log)) = kept (log ++ [(n, t)]).
Proof.
  unfold kept, purge. intros H0 H1 Hn. destruct (max_traces c) as [m|]; [|apply write_last; exact Hn].
  assert (2 <= m) by (destruct m as [|[|m]]; [congruence|congruence|lia]). clear H0 H1.
  set (L := length log). rewrite skipn_length, app_length. cbn [length]. fold L.
  assert (Hs : forall k f, In f (skipn k log) -> fst f < n).
  { intros k f Hin. apply Hn. rewrite <- (firstn_skipn k log). apply in_or_app. right; exact Hin. }
  destruct (Z.of_nat m - 1 <? Z.of_nat (L - (L - m)))%Z eqn:E.
  - apply Z.ltb_lt in E. replace (length (slice (skipn (L - m) log) 0 (- Z.of_nat m + 1))) with 1.
    2: { unfold slice, slice_bound. rewrite skipn_length. fold L. rewrite firstn_length, skipn_length, skipn_length. fold L.
         replace (0 <? 0)%Z with false by reflexivity. replace (- Z.of_nat m + 1 <? 0)%Z with true by (symmetry; apply Z.ltb_lt; lia). lia. }
    rewrite skipn_skipn_add. rewrite write_last by (intros f Hin; eapply Hs; exact Hin).
    replace (L + 1 - m) with (1 + (L - m)) by lia. rewrite (skipn_app (1 + (L - m))). fold L.
    replace (1 + (L - m) - L) with 0 by lia. reflexivity.
  - apply Z.ltb_ge in E. rewrite write_last by (intros f Hin; eapply Hs; exact Hin).
    rewrite (skipn_app (L + 1 - m)). fold L. replace (L - m) with 0 by lia. replace (L + 1 - m) with 0 by lia. replace (0 - L) with 0 by lia. reflexivity.
Qed.

Lemma rec_app l e : rec (l ++ [e]) =
  Recorded (r_states (rec l) ++ [map st_state e]) (r_actions (rec l) ++ [map st_action e])
           (r_terminal (rec l) ++ [map st_terminal e]) (@r_reward S A R (rec l) ++ [map st_reward e]).
Proof. unfold rec. rewrite !map_app. reflexivity. Qed.

Lemma concat_map {X Y} (f : X -> Y) l : concat (map (map f) l) = map f (concat l).
Proof. induction l; cbn; [reflexivity|]. rewrite map_app. congruence. Qed.

Lemma skipn_snoc {X} i (l : list X) e : i <= length l -> skipn i (l ++ [e]) = skipn i l ++ [e].
Proof. intro H. rewrite skipn_app. replace (i - length l) with 0 by lia. reflexivity. Qed.

Lemma entry_mono nr eps e f : entry nr eps f -> entry nr (eps ++ e) f.
Proof.
  intros (i & H1 & H2 & H3 & H4 & H5). exists i. split; [exact H1|]. split; [exact H2|]. split; [rewrite app_length; lia|].
  split; [exact H4|]. rewrite H5. do 2 f_equal. rewrite skipn_app, firstn_app. rewrite skipn_length.
  replace (fst f + 1 - i - (length eps - i)) with 0 by lia. cbn. rewrite app_nil_r. reflexivity.
Qed.

Lemma unfinished_other p q t r (h : list event) : q <> p -> unfinished q (h ++ [Observed p t r]) = unfinished q h.
Proof. intro H. rewrite unfinished_snoc. cbn. replace (Nat.eqb p q) with false by (symmetry; apply Nat.eqb_neq; congruence). reflexivity. Qed.
Lemma unfinished_same p t r (h : list event) : unfinished p (h ++ [Observed p t r]) = if Z.eqb t 0 then unfinished p h ++ [Observed p t r] else [].
Proof. rewrite unfinished_snoc. cbn. rewrite Nat.eqb_refl. reflexivity. Qed.

Lemma observe_one_inv nr h s p t r : inv nr h s -> p < streams c ->
  length (acts (unfinished p h)) = length (observations (unfinished p h)) + 1 ->
  exists s', observe_one c p t r s = Ok s' /\ inv nr (h ++ [Observed p t r]) s' /\ completed s' = completed s.
Proof.
  intros H Hp Hal. destruct H as [Hnum Hstart Hlen Hbufs (i & Hi & Hnr & Hrec) (log & Hlog1 & Hlog2 & Hlog3 & Hlog4 & Hlog5)].
  unfold observe_one. destruct (nth_error (buffers s) p) as [x|] eqn:Ex; [|apply nth_error_None in Ex; lia].
  apply Hbufs in Ex. subst x. set (u := unfinished p h) in *. cbn [b_states b_actions b_terminal b_reward buf].
  assert (Hb : forall q x v, nth_error (update_nth (buffers s) p v) q = Some x -> (q = p /\ x = v) \/ (q <> p /\ x = buf (unfinished q h))).
  { intros q x v Hq. rewrite nth_update in Hq. destruct (Nat.eqb q p) eqn:E.
    - apply Nat.eqb_eq in E. destruct (Nat.ltb _ _); [|discriminate]. injection Hq as <-. auto.
    - apply Nat.eqb_neq in E. right. auto. }
  assert (Ho : observations (u ++ [Observed p t r]) = observations u ++ [(t, r)]) by (rewrite observations_app; reflexivity).
  assert (Ha : acts (u ++ [Observed p t r]) = acts u) by (rewrite acts_app; cbn; apply app_nil_r).
  destruct (Z.eqb t 0) eqn:Et.
  - eexists. split; [reflexivity|]. split; [|reflexivity].
    assert (Ee : episodes (h ++ [Observed p t r]) = episodes h) by (rewrite episodes_snoc; cbn [ends]; rewrite Et, app_nil_r; reflexivity).
    constructor; cbn [num_episodes buffers record directory]; rewrite ?Ee; eauto 10.
    + rewrite length_update; exact Hlen.
    + intros q x Hq. apply Hb in Hq. destruct Hq as [[-> ->]|[Hq ->]]; [|rewrite unfinished_other by exact Hq; reflexivity].
      rewrite unfinished_same, Et. fold u. unfold buf. rewrite Ho, Ha, !map_app. reflexivity.
  - cbn zeta. assert (Hst : forall T (g : S * A -> T), stack (map g (acts u)) = Ok (map g (acts u))).
    { intros T g. destruct (acts u); [cbn in Hal; lia|reflexivity]. }
    rewrite !Hst. cbn [bind]. replace (negb (Nat.eqb (frequency c) 0)) with true by (destruct (frequency c); [lia|reflexivity]). cbn [assert_ bind].
    set (e := steps (u ++ [Observed p t r])).
    assert (Ee : episodes (h ++ [Observed p t r]) = episodes h ++ [e]) by (rewrite episodes_snoc; cbn [ends]; rewrite Et; reflexivity).
    destruct (steps_columns (u ++ [Observed p t r])) as (C1 & C2 & C3 & C4).
    { rewrite Ha, Ho, app_length. exact Hal. }
    fold e in C1, C2, C3, C4. rewrite Ha in C1, C2. rewrite Ho, map_app in C3, C4. cbn [map fst snd] in C3, C4.
    rewrite <- C1, <- C2, <- C3, <- C4, Hrec. rewrite <- rec_app, <- skipn_snoc, <- Ee by lia. rewrite Hnum.
    set (n := length (episodes h)) in *.
    assert (Hn' : length (episodes (h ++ [Observed p t r])) = Datatypes.S n) by (rewrite Ee, app_length; cbn; lia).
    assert (Hbuf' : forall q x, nth_error (update_nth (buffers s) p no_buffer) q = Some x -> x = buf (unfinished q (h ++ [Observed p t r]))).
    { intros q x Hq. apply Hb in Hq. destruct Hq as [[-> ->]|[Hq ->]]; [rewrite unfinished_same, Et; reflexivity|rewrite unfinished_other by exact Hq; reflexivity]. }
    replace (Datatypes.S n - start c) with (Datatypes.S (n - start c)) by lia.
    destruct (Nat.eqb (Datatypes.S (n - start c) mod frequency c) 0) eqn:Em; cbn [negb].
    + apply Nat.eqb_eq in Em. destruct (written_eq _ Em) as [Hw1 Hw2]. fold (written n) in Hw1, Hw2.
      assert (Hw' : written (Datatypes.S n) = Datatypes.S (written n)).
      { unfold written. replace (Datatypes.S n - start c) with (Datatypes.S (n - start c)) by lia. exact Hw1. }
      assert (Hname : name (written n) = n) by (unfold name; nia).
      set (tr := Trace (concat _) (concat _) (concat _) (concat _)).
      eexists. split; [reflexivity|]. split; [|reflexivity].
      constructor; cbn [num_episodes buffers record directory]; rewrite ?Hn', ?Hw'.
      * reflexivity.
      * lia.
      * rewrite length_update; exact Hlen.
      * exact Hbuf'.
      * exists (Datatypes.S n). split; [nia|]. split; [nia|]. rewrite skipn_all2 by (rewrite Hn'; lia). reflexivity.
      * replace (Datatypes.S n - 1) with n by lia. exists (log ++ [(n, tr)]).
        assert (Hentry : entry nr (episodes (h ++ [Observed p t r])) (n, tr)).
        { exists i. cbn [fst snd]. split; [nia|]. split; [nia|]. split; [lia|]. split; [intro N; rewrite (Hnr N); nia|].
          unfold tr, columns, rec. cbn [r_states r_actions r_terminal r_reward]. rewrite !concat_map.
          rewrite firstn_all2 by (rewrite skipn_length; lia). reflexivity. }
        split; [rewrite map_app, Hlog1, seq_S, map_app; cbn; rewrite Hname; reflexivity|].
        split; [apply Forall_app; split; [rewrite Ee; eapply Forall_impl; [|exact Hlog2]; intros; apply entry_mono; assumption|constructor; [exact Hentry|constructor]]|].
        split.
        -- intros f Hin. apply write_in in Hin. destruct Hin as [-> |Hin]; [right; apply in_or_app; right; left; reflexivity|].
           apply purge_in, Hlog3 in Hin. destruct Hin; [left; assumption|right; apply in_or_app; left; assumption].
        -- split.
           ++ intros D M0 M1. rewrite (Hlog4 D M0 M1). apply kept_snoc; auto. intros f Hin.
              rewrite Forall_forall in Hlog2. destruct (Hlog2 f Hin) as (j & _ & _ & Hj & _). exact Hj.
           ++ intro M. rewrite (Hlog5 M), M. unfold write_all. rewrite fold_left_app. reflexivity.
    + apply Nat.eqb_neq in Em. pose proof (written_lt _ Em) as Hw.
      assert (Hw' : written (Datatypes.S n) = written n).
      { unfold written. replace (Datatypes.S n - start c) with (Datatypes.S (n - start c)) by lia. exact Hw. }
      eexists. split; [reflexivity|]. split; [|reflexivity].
      constructor; cbn [num_episodes buffers record directory]; rewrite ?Hn', ?Hw'.
      * reflexivity.
      * lia.
      * rewrite length_update; exact Hlen.
      * exact Hbuf'.
      * exists i. split; [lia|]. split; [exact Hnr|reflexivity].
      * exists log. split; [exact Hlog1|]. split; [rewrite Ee; eapply Forall_impl; [|exact Hlog2]; intros; apply entry_mono; assumption|]. auto.
Qed.

Lemma observe_all_inv nr l : forall h s, inv nr h s -> NoDup (map (fun y => fst (fst y)) l) ->
  (forall y, In y l -> fst (fst y) < streams c /\
     length (acts (unfinished (fst (fst y)) h)) = length (observations (unfinished (fst (fst y)) h)) + 1) ->
  exists s', observe_all c l s = Ok s' /\ inv nr (h ++ events (Observe l)) s' /\ completed s' = completed s.
Proof.
  induction l as [|[[p t] r] l IH]; intros h s H Hd Hl.
  - exists s. cbn. rewrite app_nil_r. auto.
  - cbn [map fst snd] in Hd. inversion Hd as [|? ? Hp Hd']; subst. destruct (Hl (p, t, r) (or_introl eq_refl)) as [H1 H2]. cbn [fst] in H1, H2.
    destruct (observe_one_inv nr h s p t r H H1 H2) as (s1 & E1 & I1 & C1). cbn [observe_all]. rewrite E1. cbn [bind].
    destruct (IH (h ++ [Observed p t r]) s1 I1 Hd') as (s' & E' & I' & C').
    + intros y Hy. destruct (Hl y (or_intror Hy)) as [H3 H4]. split; [exact H3|]. rewrite unfinished_other; [exact H4|].
      intro E. apply Hp. rewrite <- E. apply in_map_iff. exists y. auto.
    + exists s'. split; [exact E'|]. split; [|congruence]. rewrite <- app_assoc in I'. exact I'.
Qed.

(** ** Before recording *)
Record waiting (h : list event) (s : state) : Prop := {
  w_num : num_episodes s = length (episodes h);
  w_start : length (episodes h) < start c;
  w_bufs : buffers s = repeat no_buffer (streams c);
  w_rec : record s = no_record;
  w_dir : directory s = d0 }.

Lemma observe_count (l : list (nat * Z * R)) (h : list event) : Forall (fun y => (0 <= snd (fst y) <= 2)%Z) l ->
  length (episodes (h ++ events (Observe l))) = length (episodes h) + length (filter (fun x => Z.ltb 0 (snd (fst x))) l).
Proof.
  intro H. revert h. induction H as [|[[p t] r] l Ht H IH]; intro h; [cbn; rewrite app_nil_r; lia|].
  cbn [events map fst snd] in *. specialize (IH (h ++ [Observed p t r])). rewrite <- app_assoc in IH. cbn [app] in IH. rewrite IH, episodes_snoc, app_length.
  cbn [ends filter fst snd]. destruct (Z.eqb t 0) eqn:E; [apply Z.eqb_eq in E; subst; cbn; lia|]. apply Z.eqb_neq in E.
  replace (0 <? t)%Z with true by (symmetry; apply Z.ltb_lt; lia). cbn [length]. lia.
Qed.

(** Whatever is observed, the flags and the history fit *)
Lemma aligned_act ps ss l h comp : length ps = length ss -> length ps = length l -> NoDup ps -> (forall q, In q ps -> nth_error comp q = Some true) ->
  aligned h comp -> aligned (h ++ events (Act ps ss l)) (set_all comp ps false).
Proof.
  intros H1 H2 Hd Hc Ha p b Hb. destruct (act_events ps ss l h p H1 H2) as (_ & E1 & E2). cbn zeta in E1, E2. rewrite E1, E2.
  rewrite app_length, combine_length, (at_stream_length p ps ss l H1 H2), Nat.min_id, at_stream_count by assumption.
  rewrite nth_set_all in Hb.
  2: { intros q Hq. apply nth_error_Some. rewrite (Hc q Hq). discriminate. }
  destruct (existsb (Nat.eqb p) ps) eqn:Ex.
  - injection Hb as <-. apply existsb_exists in Ex. destruct Ex as (q & Hq & Eq). apply Nat.eqb_eq in Eq. subst q.
    rewrite (Ha p true (Hc p Hq)). lia.
  - rewrite (Ha p b Hb). lia.
Qed.

Lemma aligned_observe l h comp : NoDup (map (fun y => fst (fst y)) l) -> (forall y, In y l -> nth_error comp (fst (fst y)) = Some false) ->
  aligned h comp -> aligned (h ++ events (Observe l)) (set_all comp (map (fun y => fst (fst y)) l) true).
Proof.
  revert h comp. induction l as [|[[p t] r] l IH]; intros h comp Hd Hc Ha; [cbn; rewrite app_nil_r; exact Ha|].
  cbn [map fst snd] in Hd. inversion Hd as [|? ? Hp Hd']; subst. cbn [events map fst snd]. cbn [events] in IH.
  replace (h ++ Observed p t r :: map (fun y => Observed (fst (fst y)) (snd (fst y)) (snd y)) l)
    with ((h ++ [Observed p t r]) ++ map (fun y => Observed (fst (fst y)) (snd (fst y)) (snd y)) l) by (rewrite <- app_assoc; reflexivity).
  change (set_all comp (p :: map (fun y => fst (fst y)) l) true) with (set_all (update_nth comp p true) (map (fun y => fst (fst y)) l) true).
  apply IH; [exact Hd'| |].
  - intros y Hy. rewrite nth_update. destruct (Nat.eqb (fst (fst y)) p) eqn:E; [|apply Hc; right; exact Hy].
    apply Nat.eqb_eq in E. exfalso. apply Hp. rewrite <- E. apply in_map_iff. exists y. auto.
  - pose proof (Hc (p, t, r) (or_introl eq_refl)) as Hcp. cbn [fst] in Hcp.
    intros q b Hb. rewrite nth_update in Hb. destruct (Nat.eqb q p) eqn:E.
    + apply Nat.eqb_eq in E. subst q. destruct (Nat.ltb _ _); [|discriminate]. injection Hb as <-. rewrite unfinished_same.
      destruct (Z.eqb t 0); [|reflexivity]. rewrite acts_app, observations_app, !app_length. cbn. rewrite (Ha p false Hcp). lia.
    + apply Nat.eqb_neq in E. rewrite unfinished_other by exact E. apply Ha; exact Hb.
Qed.

Lemma aligned_reset h (comp : list bool) : aligned (h ++ [WasReset]) (map (fun _ => true) comp).
Proof.
  intros p b Hb. rewrite unfinished_snoc. cbn. rewrite nth_error_map in Hb. destruct (nth_error comp p); [|discriminate]. injection Hb as <-. reflexivity.
Qed.

Lemma act_success c' ps ss (l : list A) (s s' : state) : act c' ps ss l s = Ok s' ->
  length ps = length ss /\ length ps = length l /\ (forall q, In q ps -> nth_error (completed s) q = Some true) /\
  completed s' = set_all (completed s) ps false /\ num_episodes s' = num_episodes s /\ record s' = record s /\ directory s' = directory s /\
  (if Nat.leb (start c') (num_episodes s) then exists b, push_states ps ss (buffers s) = Ok b /\ push_actions ps l b = Ok (buffers s')
   else buffers s' = buffers s).
Proof.
  unfold act. intro H. apply bind_inv in H. destruct H as (u1 & H1 & H). apply assert_inv, Nat.eqb_eq in H1.
  apply bind_inv in H. destruct H as (done & H2 & H). apply bind_inv in H. destruct H as (u2 & H3 & H). apply assert_inv in H3.
  apply bind_inv in H. destruct H as (u3 & H4 & H). apply assert_inv, Nat.eqb_eq in H4. apply bind_inv in H. destruct H as (b & H5 & H).
  injection H as <-. cbn. split; [exact H1|]. split; [exact H4|]. split.
  - apply get_all_inv in H2. rewrite forallb_forall in H3. clear - H2 H3. intros q Hq. induction H2 as [|p x ps done Hx H2 IH]; [destruct Hq|].
    destruct Hq as [-> |Hq]; [rewrite Hx; f_equal; apply H3; left; reflexivity|apply IH; [intros y Hy; apply H3; right; exact Hy|exact Hq]].
  - split; [reflexivity|]. split; [reflexivity|]. split; [reflexivity|]. split; [reflexivity|].
    destruct (Nat.leb _ _); [|injection H5 as <-; reflexivity]. apply bind_inv in H5. destruct H5 as (b' & H5 & H6). eauto.
Qed.

Lemma observe_success c' l (s s' : state) : observe c' l s = Ok s' ->
  (forall y, In y l -> nth_error (completed s) (fst (fst y)) = Some false) /\
  let s1 := State (set_all (completed s) (map (fun x => fst (fst x)) l) true) (num_episodes s) (buffers s) (record s) (directory s) in
  if Nat.ltb (num_episodes s) (start c')
  then s' = State (completed s1) (num_episodes s + length (filter (fun x => Z.ltb 0 (snd (fst x))) l)) (buffers s) (record s) (directory s)
  else observe_all c' l s1 = Ok s'.
Proof.
  unfold observe. intro H. apply bind_inv in H. destruct H as (u1 & H1 & H). apply bind_inv in H. destruct H as (done & H2 & H).
  apply bind_inv in H. destruct H as (u2 & H3 & H). apply assert_inv in H3. cbn [num_episodes completed buffers record directory] in H. split.
  - apply get_all_inv in H2. apply negb_true_iff in H3. clear - H2 H3. intros y Hy. revert done H2 H3.
    induction l as [|z l IH]; intros done H2 H3; [destruct Hy|]. cbn in H2. inversion H2 as [|? x ? done' Hx H2']; subst. cbn in H3.
    apply orb_false_iff in H3. destruct H3 as [-> H3]. destruct Hy as [-> |Hy]; [exact Hx|eapply IH; eauto].
  - cbn zeta. cbn [completed]. destruct (Nat.ltb _ _); [injection H as <-; reflexivity|exact H].
Qed.

(** ** Whole runs *)
Definition never_reset (l : list (call S A R)) : Prop := ~ In Reset l.

Lemma history_app l m : history (l ++ m) = history l ++ history m.
Proof. unfold history. apply flat_map_app. Qed.

Lemma run_app l m (s : state) : run c (l ++ m) s = (do s1 <- run c l s; run c m s1).
Proof. revert s. induction l as [|x l IH]; intro s; [reflexivity|]. cbn. destruct (run_call c x s); cbn; auto. Qed.

Definition good (l : list (call S A R)) (s : state) : Prop :=
  length (completed s) = streams c /\ aligned (history l) (completed s) /\
  (waiting (history l) s \/ inv (never_reset l) (history l) s).

Lemma nth_repeat_inv {X} (x y : X) n p : nth_error (repeat x n) p = Some y -> y = x.
Proof. intro H. apply nth_error_In, repeat_spec in H. exact H. Qed.

Lemma first_inv (h : list event) (s : state) nr : num_episodes s = length (episodes h) -> length (episodes h) = start c ->
  (forall p, unfinished p h = []) -> buffers s = repeat no_buffer (streams c) -> record s = no_record -> directory s = d0 -> inv nr h s.
Proof.
  intros H1 H2 H3 H4 H5 H6. assert (Hw : written (length (episodes h)) = 0) by (unfold written; rewrite H2, Nat.sub_diag; apply Nat.div_small; exact Hf).
  constructor; rewrite ?Hw.
  - exact H1.
  - lia.
  - rewrite H4. apply repeat_length.
  - intros p x Hx. rewrite H4 in Hx. apply nth_repeat_inv in Hx. rewrite H3. exact Hx.
  - exists (start c). split; [lia|]. split; [lia|]. rewrite H5. rewrite skipn_all2 by lia. reflexivity.
  - exists []. split; [reflexivity|]. split; [constructor|]. split; [rewrite H6; auto|]. split; [|intros _; exact H6]. intros -> _ _. rewrite H6. unfold kept. destruct (max_traces c); reflexivity.
Qed.

Lemma good_init : good [] (initialize c d0).
Proof.
  split; [apply repeat_length|]. split; [intros p b Hb; apply nth_repeat_inv in Hb; subst; reflexivity|].
  destruct (start c) as [|n] eqn:E.
  - right. apply first_inv; auto.
  - left. constructor; auto. cbn. lia.
Qed.

Lemma never_reset_snoc l x : never_reset (l ++ [x]) -> never_reset l.
Proof. unfold never_reset. intros H C. apply H, in_or_app. auto. Qed.

Lemma inv_weaken (nr nr' : Prop) h s : (nr' -> nr) -> inv nr h s -> inv nr' h s.
Proof.
  intros W [H1 H2 H3 H4 (i & Hi & Hnr & Hr) (log & L1 & L2 & L3 & L4)]. constructor; auto.
  - exists i. auto.
  - exists log. split; [exact L1|]. split; [|auto]. eapply Forall_impl; [|exact L2]. intros f (j & J1 & J2 & J3 & J4 & J5). exists j. auto 10.
Qed.

Lemma good_step l x s s' : good l s -> legal x -> clean_start c (l ++ [x]) -> run_call c x s = Ok s' -> good (l ++ [x]) s'.
Proof.
  intros (Hlen & Hal & Hphase) Hx Hclean Hrun.
  assert (Hh : history (l ++ [x]) = history l ++ events x) by (rewrite history_app; cbn; rewrite app_nil_r; reflexivity).
  specialize (Hclean l x [] eq_refl). unfold good. rewrite Hh in *. destruct x as [ps ss a|o|]; cbn [run_call] in Hrun.
  - apply act_success in Hrun. destruct Hrun as (L1 & L2 & Hc & C' & N' & R' & D' & B').
    split; [rewrite C', length_set_all; exact Hlen|]. split; [rewrite C'; apply aligned_act; auto|].
    assert (Ee : episodes (history l ++ events (Act ps ss a)) = episodes (history l)) by apply (act_events ps ss a (history l) 0 L1 L2).
    destruct Hphase as [[W1 W2 W3 W4 W5]|Hi].
    + left. rewrite W1 in B'. replace (Nat.leb (start c) _) with false in B' by (symmetry; apply Nat.leb_gt; exact W2).
      constructor; rewrite ?Ee; congruence || assumption.
    + right. apply (inv_weaken _ _ _ _ (never_reset_snoc l (Act ps ss a))) in Hi. destruct Hi as [I1 I2 I3 I4 I5 I6].
      rewrite I1 in B'. replace (Nat.leb (start c) _) with true in B' by (symmetry; apply Nat.leb_le; exact I2).
      destruct B' as (b & P1 & P2). apply push_states_inv in P1. destruct P1 as (_ & P1 & P3). apply push_actions_inv in P2. destruct P2 as (_ & P2 & P4).
      constructor; rewrite ?Ee, ?N', ?R', ?D'; auto; [congruence|].
      intros p y Hy. apply P4 in Hy. destruct Hy as (y1 & Hy & ->). apply P3 in Hy. destruct Hy as (y2 & Hy & ->). apply I4 in Hy. subst y2.
      destruct (act_events ps ss a (history l) p L1 L2) as (_ & E1 & E2). cbn zeta in E1, E2.
      unfold buf. rewrite E1, E2, !map_app. cbn [b_states b_actions b_terminal b_reward].
      pose proof (at_stream_length p ps ss a L1 L2) as E3. rewrite map_fst_combine, map_snd_combine by exact E3. reflexivity.
  - apply observe_success in Hrun. destruct Hrun as (Hc & Hrun). cbn zeta in Hrun. destruct Hx as [Hd Ht].
    destruct Hphase as [[W1 W2 W3 W4 W5]|Hi].
    + rewrite W1 in Hrun. replace (Nat.ltb _ _) with true in Hrun by (symmetry; apply Nat.ltb_lt; exact W2). subst s'. cbn [completed].
      split; [rewrite length_set_all; exact Hlen|]. split; [apply aligned_observe; auto|].
      pose proof (observe_count o (history l) Ht) as Ec. rewrite <- Ec.
      destruct (le_lt_dec (start c) (length (episodes (history l ++ events (Observe o))))) as [G|G].
      * right. destruct (Hclean W2 G) as [C1 C2]. apply first_inv; auto.
      * left. constructor; auto.
    + pose proof (i_num _ _ _ Hi) as I1. pose proof (i_start _ _ _ Hi) as I2. rewrite I1 in Hrun.
      replace (Nat.ltb _ _) with false in Hrun by (symmetry; apply Nat.ltb_ge; exact I2).
      apply (inv_weaken _ _ _ _ (never_reset_snoc l (Observe o))) in Hi.
      match type of Hrun with observe_all c o ?z = _ => set (s1 := z) in Hrun end.
      assert (Hi1 : inv (never_reset (l ++ [Observe o])) (history l) s1).
      { destruct Hi as [J1 J2 J3 J4 J5 J6]. constructor; cbn; auto. }
      destruct (observe_all_inv _ o (history l) s1 Hi1 Hd) as (s'' & E & I' & C').
      { intros y Hy. pose proof (Hc y Hy) as Hcy. split; [rewrite <- Hlen; apply nth_error_Some; rewrite Hcy; discriminate|]. rewrite (Hal _ _ Hcy). reflexivity. }
      rewrite E in Hrun. injection Hrun as <-. rewrite C'. cbn [completed s1].
      split; [rewrite length_set_all; exact Hlen|]. split; [apply aligned_observe; auto|]. right; exact I'.
  - injection Hrun as <-. cbn [events]. split; [cbn; rewrite map_length; exact Hlen|]. split; [apply aligned_reset|].
    assert (Ee : episodes (history l ++ [WasReset]) = episodes (history l)) by (rewrite episodes_snoc; cbn; apply app_nil_r).
    destruct Hphase as [[W1 W2 W3 W4 W5]|Hi].
    + left. constructor; cbn; rewrite ?Ee; auto. rewrite W3. clear. induction (streams c); cbn; congruence.
    + right. assert (N : never_reset (l ++ [Reset]) -> False) by (intro N; apply N, in_or_app; right; left; reflexivity).
      apply (inv_weaken _ _ _ _ (never_reset_snoc l Reset)) in Hi. destruct Hi as [I1 I2 I3 I4 (i & Hi & _ & _) I6].
      constructor; cbn [reset num_episodes buffers record directory]; rewrite ?Ee; auto.
      * rewrite map_length; exact I3.
      * intros p y Hy. rewrite nth_error_map in Hy. destruct (nth_error (buffers s) p); [|discriminate]. injection Hy as <-.
        rewrite unfinished_snoc. reflexivity.
      * exists (length (episodes (history l))). split; [lia|]. split; [intro C; destruct (N C)|]. rewrite skipn_all2 by lia. reflexivity.
Qed.

Lemma clean_prefix l m : clean_start c (l ++ m) -> clean_start c l.
Proof. intros H pre x post -> . apply (H pre x (post ++ m)). rewrite <- app_assoc. reflexivity. Qed.

Lemma good_run l s : Forall legal l -> clean_start c l -> run c l (initialize c d0) = Ok s -> good l s.
Proof.
  revert s. induction l as [|x l IH] using rev_ind; intros s Hl Hc Hr; [injection Hr as <-; apply good_init|].
  apply Forall_app in Hl. destruct Hl as [Hl Hx]. apply Forall_inv in Hx. rewrite run_app in Hr. apply bind_inv in Hr. destruct Hr as (s1 & H1 & H2).
  cbn in H2. apply bind_inv in H2. destruct H2 as (s2 & H2 & H3). injection H3 as <-.
  eapply good_step; eauto using clean_prefix.
Qed.

(** ** Calls fail only if they break the calling rules *)
Definition in_step (h : list event) (p : nat) : Prop := length (acts (unfinished p h)) = length (observations (unfinished p h)) + 1.
Definition proper (h : list event) (x : call S A R) : Prop :=
  match x with
  | Act ps ss a => length ss = length ps /\ length a = length ps /\ forall p, In p ps -> p < streams c /\ ~ in_step h p
  | Observe l => l <> [] /\ forall y, In y l -> fst (fst y) < streams c /\ in_step h (fst (fst y))
  | Reset => True
  end.

Lemma get_all_some {T} (l : list T) ps (v : T) : (forall p, In p ps -> nth_error l p = Some v) -> get_all l ps = Ok (map (fun _ => v) ps).
Proof.
  unfold get_all. induction ps as [|p ps IH]; intro H; [reflexivity|]. cbn. rewrite (H p (or_introl eq_refl)). cbn.
  rewrite IH by (intros; apply H; right; assumption). reflexivity.
Qed.
Lemma push_states_some ps ss (b : list (buffer S A R)) : length ss = length ps -> (forall p, In p ps -> p < length b) -> exists b', push_states ps ss b = Ok b'.
Proof.
  revert ss b. induction ps as [|p ps IH]; intros [|s ss] b H1 H2; try discriminate; [exists b; reflexivity|]. cbn.
  destruct (nth_error b p) eqn:E; [|apply nth_error_None in E; specialize (H2 p (or_introl eq_refl)); lia].
  apply IH; [injection H1; auto|]. intros q Hq. rewrite length_update. apply H2. right; exact Hq.
Qed.
Lemma push_actions_some ps ss (b : list (buffer S A R)) : length ss = length ps -> (forall p, In p ps -> p < length b) -> exists b', push_actions ps ss b = Ok b'.
Proof.
  revert ss b. induction ps as [|p ps IH]; intros [|s ss] b H1 H2; try discriminate; [exists b; reflexivity|]. cbn.
  destruct (nth_error b p) eqn:E; [|apply nth_error_None in E; specialize (H2 p (or_introl eq_refl)); lia].
  apply IH; [injection H1; auto|]. intros q Hq. rewrite length_update. apply H2. right; exact Hq.
Qed.

Lemma flag l s p : good l s -> p < streams c -> exists b, nth_error (completed s) p = Some b /\ (in_step (history l) p <-> b = false).
Proof.
  intros (Hlen & Hal & _) Hp. destruct (nth_error (completed s) p) as [b|] eqn:E; [|apply nth_error_None in E; lia].
  exists b. split; [reflexivity|]. unfold in_step. rewrite (Hal p b E). destruct b; split; intro; (discriminate || lia || reflexivity).
Qed.

Lemma bufs_length l s : good l s -> length (buffers s) = streams c.
Proof. intros (_ & _ & [W|I]); [rewrite (w_bufs _ _ W); apply repeat_length|exact (i_len _ _ _ I)]. Qed.

Lemma proper_succeeds l s x : good l s -> legal x -> proper (history l) x -> exists s', run_call c x s = Ok s'.
Proof.
  intros Hg Hx Hp. destruct x as [ps ss a|o|]; cbn [run_call]; [| |eauto].
  - destruct Hp as (L1 & L2 & Hp). unfold act. rewrite L1, Nat.eqb_refl. cbn [assert_ bind]. rewrite (get_all_some (completed s) ps true).
    2: { intros p Hin. destruct (Hp p Hin) as [P1 P2]. destruct (flag l s p Hg P1) as (b & Hb & F). rewrite Hb. destruct b; [reflexivity|exfalso; apply P2, F; reflexivity]. }
    cbn [bind]. replace (forallb (fun b => b) (map (fun _ => true) ps)) with true by (clear; induction ps; auto). cbn [assert_ bind]. rewrite L2, Nat.eqb_refl. cbn [assert_ bind].
    destruct (Nat.leb _ _); [|cbn; eauto].
    destruct (push_states_some ps ss (buffers s) L1) as (b1 & E1); [intros p Hin; rewrite (bufs_length l s Hg); apply Hp; exact Hin|].
    rewrite E1. cbn [bind]. destruct (push_actions_some ps a b1 L2) as (b2 & E2).
    + apply push_states_inv in E1. destruct E1 as (_ & E1 & _). intros p Hin. rewrite E1, (bufs_length l s Hg). apply Hp; exact Hin.
    + rewrite E2. cbn. eauto.
  - destruct Hp as (L & Hp). destruct Hx as [Hd Ht]. unfold observe.
    replace (negb (Nat.eqb (length o) 0)) with true by (destruct o; [congruence|reflexivity]). cbn [assert_ bind].
    rewrite (get_all_some (completed s) _ false).
    2: { intros p Hin. apply in_map_iff in Hin. destruct Hin as (y & <- & Hy). destruct (Hp y Hy) as [P1 P2]. destruct (flag l s _ Hg P1) as (b & Hb & F). rewrite Hb. f_equal. apply F; exact P2. }
    cbn [bind]. replace (negb (existsb (fun b => b) _)) with true by (clear; induction o; auto). cbn [assert_ bind num_episodes].
    destruct (Nat.ltb (num_episodes s) (start c)) eqn:E; [eauto|]. apply Nat.ltb_ge in E. destruct Hg as (Hlen & Hal & [W|Hi]).
    + pose proof (w_num _ _ W). pose proof (w_start _ _ W). lia.
    + match goal with |- exists s', observe_all c o ?z = _ => set (s1 := z) end.
      destruct (observe_all_inv (never_reset l) o (history l) s1) as (s' & E' & _); [|exact Hd| |eauto].
      * destruct Hi as [J1 J2 J3 J4 J5 J6]. constructor; cbn; auto.
      * intros y Hy. apply Hp. exact Hy.
Qed.

Lemma succeeds_proper l s s' x : good l s -> run_call c x s = Ok s' -> proper (history l) x.
Proof.
  intros Hg Hr. destruct x as [ps ss a|o|]; cbn [run_call] in Hr; [| |exact I].
  - apply act_success in Hr. destruct Hr as (L1 & L2 & Hc & _). split; [auto|]. split; [auto|]. intros p Hin. specialize (Hc p Hin).
    assert (p < streams c) by (destruct Hg as (Hlen & _); rewrite <- Hlen; apply nth_error_Some; rewrite Hc; discriminate).
    split; [assumption|]. intro Hs. destruct (flag l s p Hg ltac:(assumption)) as (b & Hb & F). rewrite Hc in Hb. injection Hb as <-. apply F in Hs. discriminate.
  - split; [intros ->; discriminate|]. apply observe_success in Hr. destruct Hr as (Hc & _). intros y Hin. specialize (Hc y Hin).
    assert (fst (fst y) < streams c) by (destruct Hg as (Hlen & _); rewrite <- Hlen; apply nth_error_Some; rewrite Hc; discriminate).
    split; [assumption|]. destruct (flag l s (fst (fst y)) Hg H) as (b & Hb & F). rewrite Hc in Hb. injection Hb as <-. apply F. reflexivity.
Qed.

(** ** With one stream recording always begins between episodes *)
Lemma observe_all_completed l : forall s s', observe_all c l s = Ok s' -> length (@completed S A R s') = length (completed s).
Proof.
  induction l as [|[[p t] r] l IH]; intros s s' H; [injection H as <-; reflexivity|]. cbn in H. apply bind_inv in H. destruct H as (s1 & H1 & H2).
  rewrite (IH _ _ H2). unfold observe_one in H1. destruct (nth_error _ _); [|discriminate]. destruct (Z.eqb t 0); [injection H1 as <-; reflexivity|].
  apply bind_inv in H1. destruct H1 as (a1 & _ & H1). apply bind_inv in H1. destruct H1 as (a2 & _ & H1). apply bind_inv in H1. destruct H1 as (a3 & _ & H1).
  destruct (negb _); injection H1 as <-; reflexivity.
Qed.
Lemma run_call_completed x s s' : run_call c x s = Ok s' -> length (@completed S A R s') = length (completed s).
Proof.
  destruct x as [ps ss a|o|]; cbn [run_call]; intro H.
  - apply act_success in H. destruct H as (_ & _ & _ & -> & _). apply length_set_all.
  - apply observe_success in H. destruct H as (_ & H). cbn zeta in H. destruct (Nat.ltb _ _); [subst; cbn; apply length_set_all|].
    rewrite (observe_all_completed _ _ _ H). cbn. apply length_set_all.
  - injection H as <-. cbn. apply map_length.
Qed.
Lemma run_completed l : forall s s', run c l s = Ok s' -> length (@completed S A R s') = length (completed s).
Proof.
  induction l as [|x l IH]; intros s s' H; [injection H as <-; reflexivity|]. cbn in H. apply bind_inv in H. destruct H as (s1 & H1 & H2).
  rewrite (IH _ _ H2). eapply run_call_completed; exact H1.
Qed.

(** Streams which are not mentioned have no history *)
Definition mentions (p : nat) (e : event) : bool := match e with Acted q _ _ | Observed q _ _ => Nat.eqb q p | WasReset => false end.
Lemma unmentioned p (h : list event) : existsb (mentions p) h = false -> unfinished p h = [].
Proof.
  induction h as [|e h IH] using rev_ind; intro H; [reflexivity|]. rewrite existsb_app in H. apply orb_false_iff in H. destruct H as [H1 H2].
  rewrite unfinished_snoc, (IH H1). cbn in H2. rewrite orb_false_r in H2. destruct e; cbn in *; rewrite ?H2; reflexivity.
Qed.

Lemma single_mentions x s s' p : length (@completed S A R s) = 1 -> run_call c x s = Ok s' -> 0 < p -> existsb (mentions p) (events x) = false.
Proof.
  intros Hl Hr Hp. apply Bool.not_true_is_false. intro C. apply existsb_exists in C. destruct C as (e & Hin & Hm).
  destruct x as [ps ss a|o|]; cbn [run_call] in Hr.
  - apply act_success in Hr. destruct Hr as (_ & _ & Hc & _). cbn [events] in Hin. apply in_map_iff in Hin. destruct Hin as ([[q y] z] & <- & Hin).
    cbn in Hm. apply Nat.eqb_eq in Hm. subst q. apply in_combine_l in Hin. apply in_combine_l in Hin. specialize (Hc p Hin).
    assert (p < length (completed s)) by (apply nth_error_Some; rewrite Hc; discriminate). lia.
  - apply observe_success in Hr. destruct Hr as (Hc & _). cbn [events] in Hin. apply in_map_iff in Hin. destruct Hin as ([[q y] z] & <- & Hin).
    cbn in Hm. apply Nat.eqb_eq in Hm. subst q. specialize (Hc _ Hin). cbn in Hc.
    assert (p < length (completed s)) by (apply nth_error_Some; rewrite Hc; discriminate). lia.
  - destruct Hin as [<- | []]. discriminate.
Qed.

Lemma single_run_mentions p : 0 < p -> forall l s s', length (@completed S A R s) = 1 -> run c l s = Ok s' -> existsb (mentions p) (history l) = false.
Proof.
  intro Hp. induction l as [|x l IH]; intros s s' Hl Hr; [reflexivity|]. cbn in Hr. apply bind_inv in Hr. destruct Hr as (s1 & H1 & H2).
  cbn. rewrite existsb_app, (single_mentions x s s1 p Hl H1 Hp). cbn. apply (IH s1 s'); [|exact H2]. rewrite (run_call_completed _ _ _ H1). exact Hl.
Qed.

Lemma single_clean l s : streams c = 1 -> Forall legal l -> run c l (initialize c d0) = Ok s -> clean_start c l.
Proof.
  intros Hs Hl Hr pre x post -> Hlt Hge. rewrite run_app in Hr. apply bind_inv in Hr. destruct Hr as (s1 & H1 & H2).
  cbn in H2. apply bind_inv in H2. destruct H2 as (s2 & H2 & _). apply Forall_app in Hl. destruct Hl as [_ Hx]. apply Forall_inv in Hx.
  assert (Hl0 : length (completed (initialize c d0)) = 1) by (cbn; rewrite repeat_length; exact Hs).
  pose proof (run_completed _ _ _ H1) as Hl1. rewrite Hl0 in Hl1.
  assert (Hn : forall p, 0 < p -> unfinished p (history (pre ++ [x])) = []).
  { intros p Hp. apply unmentioned. rewrite history_app, existsb_app. cbn. rewrite app_nil_r.
    rewrite (single_run_mentions p Hp pre _ _ Hl0 H1), (single_mentions x s1 s2 p Hl1 H2 Hp). reflexivity. }
  rewrite history_app in Hge |- *. cbn [history flat_map] in Hge |- *. rewrite app_nil_r in Hge |- *. fold (history pre) in *.
  destruct x as [ps ss a|o|]; cbn [run_call] in H2.
  - apply act_success in H2. destruct H2 as (L1 & L2 & _). destruct (act_events ps ss a (history pre) 0 L1 L2) as (E & _). cbn zeta in E. rewrite E in Hge. lia.
  - apply observe_success in H2. destruct H2 as (Hc & _). destruct Hx as [Hd Ht].
    assert (H0 : forall y, In y o -> fst (fst y) = 0).
    { intros y Hy. specialize (Hc y Hy). assert (fst (fst y) < length (completed s1)) by (apply nth_error_Some; rewrite Hc; discriminate). lia. }
    destruct o as [|[[q t] r] [|z o]].
    + cbn in Hge. rewrite app_nil_r in Hge. lia.
    + specialize (H0 _ (or_introl eq_refl)). cbn in H0. subst q. cbn [events map fst snd] in *. rewrite episodes_snoc, app_length in Hge |- *. cbn [ends] in *.
      rewrite history_app in Hn. cbn [history flat_map events map fst snd app] in Hn. fold (history pre) in Hn.
      destruct (Z.eqb t 0) eqn:Et; cbn [length] in Hge |- *; [lia|]. split; [lia|]. intro p. destruct p; [rewrite unfinished_same, Et; reflexivity|apply Hn; lia].
    + exfalso. cbn in Hd. inversion Hd as [|? ? Hni _]; subst. apply Hni. left. rewrite (H0 z) by (right; left; reflexivity). symmetry. exact (H0 (q, t, r) (or_introl eq_refl)).
  - cbn [events] in Hge. rewrite episodes_snoc, app_length in Hge. cbn in Hge. lia.
Qed.

End Rec.
