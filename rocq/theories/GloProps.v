(** Claims about several agents in one process (C158). *)
From Coq Require Import String List Arith Bool Lia.
From Verif Require Import Base GloModel GloSpec GloProofs.
Import ListNotations.
Open Scope string_scope.
Open Scope list_scope.
Open Scope nat_scope.

(** Whether it ends normally or with an exception, a call with any calls of modules in it leaves the
    stack as it was; it ends normally if none of them raises. *)
Theorem C158_stack : forall a c st, fst (exec a c st) = st /\ (snd (exec a c st) = None <-> quiet c) /\
  (~ quiet c -> snd (exec a c st) = Some "raised").
Proof. intros a c st. destruct (exec_ok a c st) as (A & B & C). split; [exact A|]. split; [exact B|]. intro Q. destruct C as [C|C]; [destruct (Q (proj1 B C))|exact C]. Qed.
Print Assumptions C158_stack.
Example C158_stack_example : exec 3 (Call 0 [Call 1 [] false; Call 2 [Call 1 [] true; Call 5 [] false] false] false) [(4, 0)] = ([(4, 0)], Some "raised").
Proof. reflexivity. Qed.

Section Claims.
Variable names : nat -> list string.
Variable targets : nat -> list string.
Variable valid : nat -> bool.
(** what happened, and the outcome of a further event *)
Definition happened (es : list event) : history := snd (run names targets valid es start).
Definition next (es : list event) (e : event) : outcome := snd (step names targets valid e (fst (run names targets valid es start))).
Lemma happened_next es e : happened (es ++ [e]) = happened es ++ [(e, next es e)].
Proof. unfold happened, next. rewrite run_app. reflexivity. Qed.

Lemma ready_status h p a : inv h p -> ready h a -> exists g, agents p a = Ready g /\ forall b ls, g b = Some ls <-> built h a b ls.
Proof.
  intros I [[ls R] K]. pose proof (i_agents _ _ I a) as S. destruct (agents p a) as [| | | |g|]; cbn [st] in S.
  - destruct (S _ _ R eq_refl).
  - destruct S as (_ & _ & S & _). destruct S. exists ls. exact R.
  - destruct S as (_ & S & _). destruct S. exists (Done ls). exact R.
  - destruct S as (_ & _ & S & _). destruct S. exists ls. exact R.
  - exists g. split; [reflexivity|]. apply S.
  - destruct S as (_ & [x S]). destruct (K x S).
Qed.
Lemma stack_some h p : inv h p -> (exists s, stack p = Some s) <-> exists c, current h c.
Proof.
  intro I. pose proof (i_stack _ _ I) as S. pose proof (i_owner _ _ I) as O. split.
  - intros [s E]. destruct (owner p) as [c|]; [|congruence]. exists c. apply O. reflexivity.
  - intros [c C]. apply O in C. rewrite C in S. destruct S as [[S _]|S]; eexists; exact S.
Qed.
Lemma quiet_calls a cs : snd (exec a (Call 0 cs false) []) = None <-> forall c, In c cs -> quiet c.
Proof.
  destruct (exec_ok a (Call 0 cs false) []) as (_ & B & _). rewrite B. split; [intro Q; inversion Q; assumption|]. intro Q. constructor. exact Q.
Qed.
Lemma resolve_owner p c ts : owner p = Some c -> (forall t, In t ts -> In t (names c)) -> map_res (resolve names p) ts = Ok (map (pair c) ts).
Proof.
  intros O H. induction ts as [|t r IH]; [reflexivity|]. cbn [map_res map]. unfold resolve at 1. rewrite O.
  assert (E : existsb (String.eqb t) (names c) = true) by (apply existsb_exists; exists t; split; [apply H; left; reflexivity|apply String.eqb_refl]). rewrite E. cbn [bind].
  rewrite IH by (intros x Hx; apply H; right; exact Hx). reflexivity.
Qed.
Lemma resolve_ok p c ts ls : owner p = Some c -> map_res (resolve names p) ts = Ok ls -> ls = map (pair c) ts /\ forall t, In t ts -> In t (names c).
Proof.
  intro O. revert ls. induction ts as [|t r IH]; intros ls H; cbn [map_res] in H; [injection H as <-; split; [reflexivity|intros ? []]|].
  unfold resolve at 1 in H. rewrite O in H. destruct (existsb (String.eqb t) (names c)) eqn:E; [|discriminate]. cbn [bind] in H.
  destruct (map_res (resolve names p) r) as [l|] eqn:E2; [|discriminate]. cbn [bind] in H. injection H as <-. destruct (IH l eq_refl) as [-> A]. split; [reflexivity|].
  intros x [<-|Hx]; [|apply A, Hx]. apply existsb_exists in E. destruct E as (y & Hy & E). apply String.eqb_eq in E. subst y. exact Hy.
Qed.
Lemma resolve_not p c ts : owner p = Some c -> (exists t, In t ts /\ ~ In t (names c)) -> exists e, map_res (resolve names p) ts = Err e.
Proof.
  intros O (t & H & N). destruct (map_res (resolve names p) ts) as [ls|e] eqn:E; [|exists e; reflexivity]. apply (resolve_ok p c) in E; [|exact O]. destruct (N (proj2 E t H)).
Qed.

(** A call which does not apply the network works if an agent has been constructed and none has
    been closed since. *)
Theorem C158_use : forall es a cs, proper es -> ready (happened es) a -> (forall c, In c cs -> quiet c) ->
  (next es (Use a None cs) = Done [] <-> exists c, current (happened es) c).
Proof.
  intros es a cs P R Q. pose proof (run_inv names targets valid es P) as I. fold (happened es) in I. rewrite <- (stack_some _ _ I).
  unfold next. cbn [step]. rewrite (use_eq names targets _ _ _ _ _ I). destruct (ready_status _ _ _ I R) as (g & -> & _).
  rewrite (proj2 (quiet_calls a cs) Q). destruct (stack _) as [s|]; cbn [snd]; split; try discriminate; try reflexivity.
  - intros _. exists s. reflexivity.
  - intros [s E]. discriminate.
Qed.
(** The first call which applies the network uses the layers of the agent constructed last. *)
Theorem C158_first : forall es a g cs c, proper es -> ready (happened es) a -> (forall c, In c cs -> quiet c) -> current (happened es) c ->
  (forall ls, ~ built (happened es) a g ls) ->
  ((forall t, In t (targets a) -> In t (names c)) -> next es (Use a (Some g) cs) = Done (map (pair c) (targets a))) /\
  ((exists t, In t (targets a) /\ ~ In t (names c)) -> exists e, next es (Use a (Some g) cs) = Raised e).
Proof.
  intros es a g cs c P R Q C NB. pose proof (run_inv names targets valid es P) as I. fold (happened es) in I.
  unfold next. cbn [step]. rewrite (use_eq names targets _ _ _ _ _ I). destruct (ready_status _ _ _ I R) as (gr & -> & G).
  destruct (proj2 (stack_some _ _ I) (ex_intro _ c C)) as [s ->]. cbn zeta. rewrite (proj2 (quiet_calls a cs) Q).
  destruct (gr g) as [ls|] eqn:E; [destruct (NB ls); apply G, E|]. apply (i_owner _ _ I) in C. unfold resolve_all. split; intro H.
  - rewrite (resolve_owner _ c _ C H). reflexivity.
  - destruct (resolve_not _ c _ C H) as [e ->]. exists e. reflexivity.
Qed.
(** Later calls use the same layers. *)
Theorem C158_kept : forall es a g cs c ls, proper es -> ready (happened es) a -> (forall c, In c cs -> quiet c) -> current (happened es) c ->
  built (happened es) a g ls -> next es (Use a (Some g) cs) = Done ls.
Proof.
  intros es a g cs c ls P R Q C B. pose proof (run_inv names targets valid es P) as I. fold (happened es) in I.
  unfold next. cbn [step]. rewrite (use_eq names targets _ _ _ _ _ I). destruct (ready_status _ _ _ I R) as (gr & -> & G).
  destruct (proj2 (stack_some _ _ I) (ex_intro _ c C)) as [s ->]. cbn zeta. rewrite (proj2 (quiet_calls a cs) Q).
  rewrite (proj2 (G g ls) B). reflexivity.
Qed.
(** An exception in a call is passed on and does not affect the process. *)
Theorem C158_exception : forall es a g cs, proper es -> (exists c, In c cs /\ ~ quiet c) ->
  (exists e, next es (Use a g cs) = Raised e) /\ fst (run names targets valid (es ++ [Use a g cs]) start) = fst (run names targets valid es start).
Proof.
  intros es a g cs P (c & Hc & Q). pose proof (run_inv names targets valid es P) as I. fold (happened es) in I.
  assert (X : exists e, snd (exec a (Call 0 cs false) []) = Some e).
  { destruct (snd (exec a (Call 0 cs false) [])) as [e|] eqn:E; [exists e; reflexivity|]. destruct Q. exact (proj1 (quiet_calls a cs) E c Hc). }
  destruct X as [e X]. rewrite run_app. unfold next. cbn [fst run step]. rewrite (use_eq names targets _ _ _ _ _ I), X.
  destruct (agents _ a); try (split; [eexists; reflexivity|reflexivity]). destruct (stack _); [|split; [eexists; reflexivity|reflexivity]].
  destruct g as [b|]; [|split; [eexists; reflexivity|reflexivity]]. cbn zeta. destruct (graphs b); [split; [eexists; reflexivity|reflexivity]|].
  destruct (resolve_all _ _ _ _); split; try reflexivity; eexists; reflexivity.
Qed.
(** The layers used are those of an agent which was the last when the graph was built. *)
Theorem C158_built : forall es a g ls, proper es -> built (happened es) a g ls -> exists before after c, es = before ++ after /\ current (happened before) c /\ ls = map (pair c) (targets a).
Proof.
  intros es a g ls P. induction P as [|es b P IH N|es e P IH Hin N]; intros [cs B].
  - destruct B.
  - rewrite happened_next in B. apply in_snoc in B. destruct B as [B|B]; [|discriminate]. destruct IH as (p & q & c & E & C & L); [exists cs; exact B|].
    exists p, (q ++ [Construct b]), c. split; [rewrite E, app_assoc; reflexivity|split; assumption].
  - rewrite happened_next in B. apply in_snoc in B. destruct B as [B|B].
    + destruct IH as (p & q & c & E & C & L); [exists cs; exact B|]. exists p, (q ++ [e]), c. split; [rewrite E, app_assoc; reflexivity|split; assumption].
    + injection B as <- B. pose proof (run_inv names targets valid es P) as I. fold (happened es) in I. unfold next in B. cbn [step] in B.
      rewrite (use_eq names targets _ _ _ _ _ I) in B. pose proof (i_agents _ _ I a) as S. pose proof (i_stack _ _ I) as T. pose proof (i_owner _ _ I) as O.
      destruct (agents _ a) as [| | | |gr|]; try discriminate. destruct (stack _) as [s|] eqn:ES; [|discriminate]. cbn zeta in B.
      destruct (gr g) as [l|] eqn:EG.
      * destruct (snd (exec _ _ _)); [discriminate|]. cbn [snd] in B. injection B as B. subst l. destruct IH as (p & q & c & E & C & L); [apply S, EG|].
        exists p, (q ++ [Use a (Some g) cs]), c. split; [rewrite E, app_assoc; reflexivity|split; assumption].
      * destruct (owner _) as [c|] eqn:EO; [|discriminate]. destruct (resolve_all _ _ _ _) as [l|] eqn:ER; [|discriminate].
        destruct (snd (exec _ _ _)); [discriminate|]. cbn [snd] in B. injection B as B. subst l. exists es, [Use a (Some g) cs], c. split; [reflexivity|]. split; [apply O; reflexivity|].
        apply (resolve_ok _ c _ _ EO ER).
Qed.
(** So an agent which is the only one in its process uses its own layers, in all calls until it is
    closed. *)
Theorem C158_alone : forall es a g cs, proper es -> (forall b, In (Construct b) es -> b = a) -> ready (happened es) a -> (forall c, In c cs -> quiet c) ->
  (forall t, In t (targets a) -> In t (names a)) -> next es (Use a (Some g) cs) = Done (map (pair a) (targets a)).
Proof.
  intros es a g cs P One R Q T. pose proof (run_inv names targets valid es P) as I. fold (happened es) in I.
  assert (C : current (happened es) a).
  { destruct (ready_status _ _ _ I R) as (gr & G & _). destruct R as [_ K].
    - assert (K' : forall b l, ~ In (Close b, Done l) (happened es)).
      { intros b l H. assert (b = a).
        { destruct (Nat.eq_dec b a) as [E|E]; [exact E|]. exfalso. pose proof (i_agents _ _ I b) as S.
          assert (X : forall o, ~ In (Construct b, o) (happened es)) by (intros o Ho; apply E, One, (run_in names targets valid es _ _ Ho)).
          destruct (agents _ b); cbn [st] in S; try (destruct S as [[o S] _]; exact (X _ S)). exact (S _ _ H eq_refl). }
        subst b. exact (K l H). }
      assert (H : exists o, In (Construct a, o) (happened es)).
      { pose proof (i_agents _ _ I a) as S. rewrite G in S. destruct S as [[o S] _]. exists (Done o). exact S. }
      clear I G. revert One K' H. clear -P. induction P as [|es b P IH N|es e P IH Hin N]; intros One K' [o H].
      + destruct H.
      + assert (b = a) by (apply One, in_or_app; right; left; reflexivity). subst b. rewrite happened_next. apply current_construct. reflexivity.
      + rewrite happened_next in *. apply current_other; [destruct e; try reflexivity; destruct (N a0 eq_refl)| |].
        * destruct e; try reflexivity. destruct (next es (Close a0)) eqn:E; [|reflexivity]. destruct (K' a0 ls). apply in_snoc. right. first [rewrite E; reflexivity|reflexivity|congruence].
        * apply IH.
          -- intros b Hb. apply One, in_or_app. left. exact Hb.
          -- intros b l Hb. apply (K' b l), in_snoc. left. exact Hb.
          -- apply in_snoc in H. destruct H as [H|H]; [exists o; exact H|]. destruct (N a). congruence. }
  assert (D : (exists ls, built (happened es) a g ls) \/ forall ls, ~ built (happened es) a g ls).
  { destruct (ready_status _ _ _ I R) as (gr & _ & G). destruct (gr g) as [ls|] eqn:E; [left; exists ls; apply G, E|right; intros ls B; apply G in B; congruence]. }
  destruct D as [[ls B]|B].
  - assert (L : ls = map (pair a) (targets a)).
    { destruct (C158_built es a g ls P B) as (p & q & c & E & Cc & ->). destruct (current_in _ _ Cc) as [o Ho]. apply (run_in names targets valid) in Ho.
      rewrite (One c); [reflexivity|]. rewrite E. apply in_or_app. left. exact Ho. }
    rewrite (C158_kept es a g cs a ls P R Q C B), L. reflexivity.
  - apply (C158_first es a g cs a P R Q C); [exact B|exact T].
Qed.

Lemma waiting_status h p a : inv h p -> waiting h a -> agents p a = Constructed.
Proof.
  intros I ([ls C] & A & K). pose proof (i_agents _ _ I a) as S. destruct (agents p a) as [| | | |g|]; cbn [st] in S; try reflexivity; exfalso.
  - exact (S _ _ C eq_refl).
  - destruct S as (_ & S & _). apply S. exists ls. exact C.
  - destruct S as (_ & [o S] & _). exact (A o S).
  - destruct S as (_ & [o S] & _). exact (A _ S).
  - destruct S as (_ & [o S]). exact (K o S).
Qed.
Lemma living_status h p a : inv h p -> living h a -> agents p a = Constructed \/ agents p a = Attempted \/ exists g, agents p a = Ready g.
Proof.
  intros I ([ls C] & K). pose proof (i_agents _ _ I a) as S. destruct (agents p a) as [| | | |g|]; cbn [st] in S.
  - destruct (S _ _ C eq_refl).
  - destruct S as (_ & S & _). destruct S. exists ls. exact C.
  - left. reflexivity.
  - right. left. reflexivity.
  - right. right. exists g. reflexivity.
  - destruct S as (_ & [o S]). destruct (K o S).
Qed.
(** An agent which was constructed can be initialized only before the next one is constructed or
    one is closed. *)
Theorem C158_initialize : forall es a, proper es -> waiting (happened es) a -> (next es (Initialize a) = Done [] <-> current (happened es) a).
Proof.
  intros es a P W. pose proof (run_inv names targets valid es P) as I. fold (happened es) in I. pose proof (waiting_status _ _ _ I W) as S.
  unfold next. cbn [step]. assert (NA : agents (fst (run names targets valid es start)) a <> Absent) by congruence.
  pose proof (i_stack _ _ I) as T. pose proof (i_owner _ _ I) as O.
  destruct (initialize_eq names targets _ a NA) as [[[C1 C2] ->]|[C [e ->]]]; cbn [snd].
  - split; [|reflexivity]. intros _. apply O. rewrite C2 in T. destruct (owner _) as [c|]; [|discriminate]. destruct T as [[T _]|T]; [discriminate|congruence].
  - split; [discriminate|]. intro X. destruct C. split; [exact S|]. apply O in X. rewrite X in T. destruct T as [[_ T]|T]; [congruence|exact T].
Qed.
(** The agent cannot be initialized otherwise. *)
Theorem C158_initialize_once : forall es a, proper es -> (exists o, In (Initialize a, o) (happened es)) -> exists e, next es (Initialize a) = Raised e.
Proof.
  intros es a P [o H]. pose proof (run_inv names targets valid es P) as I. fold (happened es) in I. pose proof (i_agents _ _ I a) as S.
  unfold next. cbn [step initialize]. unfold initialize. destruct (agents _ a); try (eexists; reflexivity). destruct S as (_ & S & _). destruct S. exists o. exact H.
Qed.
(** Closing works in the same cases as calls. *)
Theorem C158_close : forall es a, proper es -> living (happened es) a -> (next es (Close a) = Done [] <-> exists c, current (happened es) c).
Proof.
  intros es a P L. pose proof (run_inv names targets valid es P) as I. fold (happened es) in I. rewrite <- (stack_some _ _ I).
  unfold next. cbn [step]. unfold close.
  destruct (living_status _ _ _ I L) as [E|[E|[g E]]]; rewrite E; (destruct (stack _) as [s|]; cbn [snd]; split; try discriminate; try reflexivity; [intros _; exists s; reflexivity|intros [x X]; discriminate]).
Qed.
(** The architecture shows the layers of the agent constructed last. *)
Theorem C158_describe : forall es a c, proper es -> living (happened es) a -> current (happened es) c ->
  ((forall t, In t (targets a) -> In t (names c)) -> next es (Describe a) = Done (map (pair c) (targets a))) /\
  ((exists t, In t (targets a) /\ ~ In t (names c)) -> exists e, next es (Describe a) = Raised e).
Proof.
  intros es a c P L C. pose proof (run_inv names targets valid es P) as I. fold (happened es) in I. apply (i_owner _ _ I) in C.
  unfold next. cbn [step]. unfold describe, resolve_all. split; intro H.
  - rewrite (resolve_owner _ c _ C H). destruct (living_status _ _ _ I L) as [E|[E|[g E]]]; rewrite E; reflexivity.
  - destruct (resolve_not _ c _ C H) as [e ->]. exists e. destruct (living_status _ _ _ I L) as [E|[E|[g E]]]; rewrite E; reflexivity.
Qed.

(** Closing an agent makes all others unusable: every call, closing and showing reuse layers raise,
    until another agent is constructed. *)
Theorem C158_closed_refuted : forall es b, proper (es ++ [Close b]) -> next es (Close b) = Done [] ->
  forall later a, (forall c, ~ In (Construct c) later) -> proper (es ++ [Close b] ++ later) ->
  forall e, (exists g cs, e = Use a g cs) \/ e = Close a \/ e = Initialize a \/ (e = Describe a /\ targets a <> []) ->
  exists x, next (es ++ [Close b] ++ later) e = Raised x.
Proof.
  intros es b _ D later a NC P e He. pose proof (run_inv names targets valid _ P) as I. fold (happened (es ++ [Close b] ++ later)) in I.
  assert (N : forall c, ~ current (happened (es ++ [Close b] ++ later)) c).
  { clear - D NC. induction later as [|x later IH] using rev_ind.
    - rewrite app_nil_r, happened_next, D. intro c. apply current_close.
    - intro c. rewrite !app_assoc, happened_next. rewrite <- app_assoc. intro X. destruct (closing (x, next (es ++ [Close b] ++ later) x)) eqn:E.
      + destruct x; try discriminate. destruct (next _ (Close a)); [|discriminate]. exact (current_close _ _ _ _ X).
      + apply current_other in X; [|destruct x; try reflexivity; destruct (NC a); apply in_or_app; right; left; reflexivity|exact E].
        apply (IH (fun c' H => NC c' (in_or_app _ _ _ (or_introl H))) c). exact X. }
  assert (O : owner (fst (run names targets valid (es ++ [Close b] ++ later) start)) = None).
  { destruct (owner _) as [c|] eqn:E; [|reflexivity]. apply (i_owner _ _ I) in E. destruct (N c E). }
  pose proof (i_stack _ _ I) as S. rewrite O in S. unfold next. set (p := fst (run names targets valid (es ++ [Close b] ++ later) start)) in *.
  destruct He as [(g & cs & ->)|[->|[->|[-> T]]]]; cbn [step].
  - unfold use. rewrite S. destruct (agents p a); eexists; reflexivity.
  - unfold close. rewrite S. destruct (agents p a); eexists; reflexivity.
  - unfold initialize. rewrite S. destruct (agents p a); eexists; reflexivity.
  - unfold describe, resolve_all. destruct (targets a) as [|t r]; [congruence|]. cbn [map_res]. assert (X : resolve names p t = Err "AttributeError: _REGISTERED_LAYERS") by (unfold resolve; rewrite O; reflexivity). rewrite X. cbn [bind snd]. destruct (agents p a); eexists; reflexivity.
Qed.
(** An agent which has not applied its network yet uses the layers of an agent constructed later
    in place of its own. *)
Theorem C158_other_refuted : forall es a g cs c, proper es -> ready (happened es) a -> ~ In (Construct c) es -> (forall x, In x cs -> quiet x) ->
  (forall ls, ~ built (happened es) a g ls) ->
  ((forall t, In t (targets a) -> In t (names c)) -> next (es ++ [Construct c]) (Use a (Some g) cs) = Done (map (pair c) (targets a))) /\
  ((exists t, In t (targets a) /\ ~ In t (names c)) -> exists e, next (es ++ [Construct c]) (Use a (Some g) cs) = Raised e).
Proof.
  intros es a g cs c P R NC Q NB. apply C158_first; try assumption.
  - constructor; assumption.
  - rewrite happened_next. destruct R as [[ls R] K]. split; [exists ls; apply in_snoc; left; exact R|]. intros l H. apply in_snoc in H. destruct H as [H|H]; [exact (K l H)|discriminate].
  - rewrite happened_next. apply current_construct. reflexivity.
  - intros ls [x B]. rewrite happened_next in B. apply in_snoc in B. destruct B as [B|B]; [|discriminate]. apply (NB ls). exists x. exact B.
Qed.
(** Constructing two agents and initializing the first afterwards raises. *)
Theorem C158_interleaved_refuted : forall es a c, proper es -> waiting (happened es) a -> ~ In (Construct c) es -> exists e, next (es ++ [Construct c]) (Initialize a) = Raised e.
Proof.
  intros es a c P W NC.
  assert (P' : proper (es ++ [Construct c])) by (constructor; assumption).
  assert (W' : waiting (happened (es ++ [Construct c])) a).
  { rewrite happened_next. destruct W as ([ls W] & A & K). repeat split.
    - exists ls. apply in_snoc. left. exact W.
    - intros o H. apply in_snoc in H. destruct H as [H|H]; [exact (A o H)|discriminate].
    - intros o H. apply in_snoc in H. destruct H as [H|H]; [exact (K o H)|discriminate]. }
  destruct (next (es ++ [Construct c]) (Initialize a)) as [ls|e] eqn:E; [|exists e; reflexivity]. exfalso.
  assert (ls = []). { revert E. unfold next. cbn [step]. pose proof (run_inv names targets valid _ P') as I. pose proof (waiting_status _ _ _ I W') as S.
    assert (NA : agents (fst (run names targets valid (es ++ [Construct c]) start)) a <> Absent) by congruence.
    destruct (initialize_eq names targets _ a NA) as [[_ ->]|[_ [e ->]]]; cbn [snd]; congruence. }
  subst ls. apply (C158_initialize _ _ P' W') in E. rewrite happened_next in E. apply current_construct in E. subst c. destruct W as ([ls W] & _). apply NC, (run_in names targets valid _ _ _ W).
Qed.
End Claims.
Print Assumptions C158_use.
Print Assumptions C158_first.
Print Assumptions C158_kept.
Print Assumptions C158_exception.
Print Assumptions C158_built.
Print Assumptions C158_alone.
Print Assumptions C158_initialize.
Print Assumptions C158_initialize_once.
Print Assumptions C158_close.
Print Assumptions C158_describe.
Print Assumptions C158_closed_refuted.
Print Assumptions C158_other_refuted.
Print Assumptions C158_interleaved_refuted.

(** ** Examples: agents 0 and 1 have a layer dense0 and reuse it, agent 2 has no such layer *)
Definition ex_names (a : nat) : list string := match a with 0 | 1 => ["dense0"; "reuse0"] | _ => ["flatten0"] end.
Definition ex_targets (a : nat) : list string := match a with 0 | 1 => ["dense0"] | _ => [] end.
Definition ex_next := next ex_names ex_targets (fun _ => true).
(** One agent acts and learns with its own layer. *)
Example C158_alone_example : ex_next [Construct 0; Initialize 0; Use 0 (Some false) [Call 1 [] false]] (Use 0 (Some true) []) = Done [(0, "dense0")].
Proof. reflexivity. Qed.
(** After another agent is created, it acts with its own layer and learns with the other's. *)
Example C158_other_example : let es := [Construct 0; Initialize 0; Use 0 (Some false) []; Construct 1; Initialize 1] in
  ex_next es (Use 0 (Some false) []) = Done [(0, "dense0")] /\ ex_next es (Use 0 (Some true) []) = Done [(1, "dense0")] /\ ex_next es (Describe 0) = Done [(1, "dense0")].
Proof. repeat split. Qed.
(** If the other agent has no such layer, learning raises KeyError. *)
Example C158_key_example : ex_next [Construct 0; Initialize 0; Use 0 (Some false) []; Construct 2] (Use 0 (Some true) []) = Raised "KeyError".
Proof. reflexivity. Qed.
(** After closing the other agent, neither works; constructing a third makes it work again. *)
Example C158_closed_example : let es := [Construct 0; Initialize 0; Construct 2; Initialize 2; Close 2] in
  ex_next es (Use 0 None []) = Raised "AttributeError: _MODULE_STACK" /\ ex_next es (Close 0) = Raised "AttributeError: _MODULE_STACK" /\
  ex_next (es ++ [Construct 1]) (Use 0 None []) = Done [].
Proof. repeat split. Qed.
Example C158_proper_example : proper [Construct 0; Initialize 0; Construct 2; Initialize 2; Close 2] /\
  ready (happened ex_names ex_targets (fun _ => true) [Construct 0; Initialize 0; Construct 2; Initialize 2; Close 2]) 0 /\
  current (happened ex_names ex_targets (fun _ => true) [Construct 0; Initialize 0; Construct 2; Initialize 2]) 2.
Proof.
  split; [|split].
  - apply (proper_other [Construct 0; Initialize 0; Construct 2; Initialize 2]); [|cbn; tauto|discriminate].
    apply (proper_other [Construct 0; Initialize 0; Construct 2]); [|cbn; tauto|discriminate].
    apply (proper_construct [Construct 0; Initialize 0]); [|cbn; intuition discriminate].
    apply (proper_other [Construct 0]); [|cbn; tauto|discriminate]. apply (proper_construct []); [constructor|intros []].
  - split; [exists []; cbn; tauto|]. intros ls H. cbn in H. intuition discriminate.
  - apply (current_intro [(Construct 0, Done []); (Initialize 0, Done [])] 2 (Done []) [(Initialize 2, Done [])]); intros b x H; cbn in H; intuition discriminate.
Qed.
Example C158_interleaved_example : ex_next [Construct 0; Construct 2] (Initialize 0) = Raised "AssertionError" /\ ex_next [Construct 0; Construct 2] (Initialize 2) = Done [].
Proof. split; reflexivity. Qed.
