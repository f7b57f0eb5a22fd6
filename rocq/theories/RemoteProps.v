(** Theorems on remote environments (C35). *)

From Coq Require Import String List ZArith Bool Lia.
From Verif Require Import Base RemoteSpec RemoteModel.
Import ListNotations.
Open Scope string_scope.
Open Scope list_scope.

Section Remote.
Context {S A R K V E : Type}.
Variable none : V.
Variable is_none : V -> bool.
Variable no_args : K.
Variable value_args : V -> K.
Variable is_value : K -> option V.
Variable env : local S A R K V E.
Hypothesis none_is_none : is_none none = true.
Hypothesis value_args_value : forall v, is_value (value_args v) = Some v.
Notation state := (@state S A R K V E).
Notation serve := (serve none is_value env).
Notation work := (work none is_value env).
Notation receive := (receive none is_value env).
Notation ask := (ask none is_value env).
Notation continue := (continue none is_value env).
Notation perform := (perform none is_none no_args value_args is_value env).
Notation run := (run none is_none no_args value_args is_value env).

(** The user's side of the protocol: a started step is received before anything else is
    done (asking again as long as it is pending); attributes read are not None, attributes
    set are not methods, functions called are methods; the environment is not closed. *)
Definition trace := list (op A K V * res (result S R V)).
Definition pending (r : res (result S R V)) : bool := match r with Ok RPending => true | _ => false end.
Fixpoint follows (waiting : bool) (t : trace) : Prop :=
  match t with
  | [] => True
  | (o, r) :: t =>
    match o with
    | StartReset | StartExecute _ => waiting = false /\ follows true t
    | Receive => waiting = true /\ follows (pending r) t
    | Reset | Execute _ => waiting = false /\ follows false t
    | Get f => waiting = false /\ (forall e v, l_attr env f e = Value v -> is_none v = false) /\ f <> "close" /\ follows false t
    | Set_ f v => waiting = false /\ (forall e, l_attr env f e <> Method) /\ f <> "close" /\ follows false t
    | Call f k => waiting = false /\ (forall e, l_attr env f e = Method) /\ f <> "close" /\ follows false t
    | Close => False
    end
  end.

(** The results up to the first error, without the answers "not ready" *)
Fixpoint up_to_error (t : trace) : trace :=
  match t with
  | [] => []
  | (o, Ok x) :: t => (o, Ok x) :: up_to_error t
  | (o, Err m) :: t => [(o, Err m)]
  end.
Definition delivered (t : trace) : trace := filter (fun p => negb (pending (snd p))) (up_to_error t).
Definition agree {X} (a b : res X) : Prop := match a, b with Ok x, Ok y => x = y | Err _, Err _ => True | _, _ => False end.

(** ** States of the connection *)

Definition quiet (e : E) (s : state) : Prop := expect s = None /\ open s = true /\ requests s = [] /\ replies s = [] /\ worker s = Some e.
Definition outstanding (q : request) (e : E) (s : state) : Prop :=
  expect s = Some q /\ open s = true /\
  ((requests s = [q] /\ replies s = [] /\ worker s = Some e) \/
   requests s = [] /\ match serve q e with
                      | (e', Ok p) => replies s = [Ok p] /\ worker s = (if is_close q then None else Some e')
                      | (_, Err m) => replies s = [Err m; Err m] /\ worker s = None
                      end).

Lemma work_quiet e s : quiet e s -> work s = s.
Proof. intros (_ & _ & H & _). unfold RemoteModel.work. rewrite H. reflexivity. Qed.
Lemma work_outstanding q e s : outstanding q e s -> outstanding q e (work s) /\ thread (work s) = thread s /\ observation (work s) = observation s /\ replies (work s) <> [].
Proof.
  intros (H1 & H2 & [(H3 & H4 & H5)|[H3 H4]]); unfold RemoteModel.work; rewrite H3.
  - rewrite H5. unfold outstanding. destruct (serve q e) as [e' [p|m]] eqn:Eq; cbn; rewrite H4; cbn; (split; [split; [exact H1|split; [exact H2|right; auto]]|]); repeat split; discriminate.
  - split; [split; [exact H1|split; [exact H2|right; auto]]|]. destruct (serve q e) as [e' [p|m]]; destruct H4 as [-> _]; repeat split; discriminate.
Qed.
Lemma receive_outstanding q e s : outstanding q e s -> is_close q = false ->
  match serve q e with
  | (e', Ok p) => exists s', receive s = (s', Ok p) /\ quiet e' s' /\ thread s' = thread s /\ observation s' = observation s
  | (_, Err m) => exists s', receive s = (s', Err m) /\ open s' = false /\ thread s' = thread s /\ observation s' = observation s
  end.
Proof.
  intros H Hc. unfold RemoteModel.receive. set (s1 := match replies s with [] => work s | _ => s end).
  assert (H1 : outstanding q e s1 /\ thread s1 = thread s /\ observation s1 = observation s /\ replies s1 <> []).
  { subst s1. destruct (replies s) eqn:Er; [apply work_outstanding; exact H|]. split; [exact H|]. rewrite Er. repeat split; discriminate. }
  clearbody s1. destruct H1 as ((_ & Ho & [(_ & E1 & _)|[E1 E2]]) & Ht & Hob & Hr); [congruence|]. rewrite Ho. rewrite Hc in E2.
  destruct (serve q e) as [e' [p|m]]; destruct E2 as [-> Hw]; eexists; (split; [reflexivity|]); cbn; auto.
  repeat split; auto.
Qed.
Lemma send_quiet q e s : quiet e s -> exists s', send q s = (s', Ok tt) /\ outstanding q e s' /\ thread s' = thread s /\ observation s' = observation s.
Proof.
  intros (H1 & H2 & H3 & H4 & H5). unfold send. rewrite H1, H2, H3. eexists. split; [reflexivity|]. split; [|split; reflexivity].
  split; [reflexivity|]. split; [reflexivity|]. left. cbn. auto.
Qed.
Lemma ask_quiet q e s : quiet e s -> is_close q = false ->
  match serve q e with
  | (e', Ok p) => exists s', ask q s = (s', Ok p) /\ quiet e' s' /\ thread s' = thread s /\ observation s' = observation s
  | (_, Err m) => exists s', ask q s = (s', Err m) /\ open s' = false /\ thread s' = thread s /\ observation s' = observation s
  end.
Proof.
  intros H Hc. destruct (send_quiet q e s H) as (s1 & Es & Ho & <- & <-). unfold RemoteModel.ask. rewrite Es. apply (receive_outstanding _ _ _ Ho Hc).
Qed.

(** ** The relation with the environment used directly *)

Definition related (blocking : bool) (s : state) (st : E * option (started A)) : Prop :=
  let (e, p) := st in
  match p with
  | None => quiet e s /\ thread s = None /\ observation s = None
  | Some x =>
    if blocking then outstanding (request_of x) e s /\ thread s = None /\ observation s = None
    else
      (quiet e s /\ thread s = Some (x, Begin) /\ observation s = None) \/
      (outstanding (request_of x) e s /\ thread s = Some (x, Sent) /\ observation s = None) \/
      (exists e' p, serve (request_of x) e = (e', Ok p) /\ quiet e' s /\ thread s = None /\ observation s = Some (observed x p)) \/
      (exists e' m, serve (request_of x) e = (e', Err m) /\ thread s = Some (x, Died))
  end.

Lemma request_not_close x : is_close (@request_of A K x) = false.
Proof. destruct x; reflexivity. Qed.
Lemma related_work b s st : related b s st -> related b (work s) st.
Proof.
  destruct st as [e [x|]]; cbn [related].
  - destruct b.
    + intros (H & Ht & Ho). destruct (work_outstanding _ _ _ H) as (H' & -> & -> & _). auto.
    + intros [(H & Ht & Ho)|[(H & Ht & Ho)|[(e' & p & Es & H & Ht & Ho)|(e' & m & Es & Ht)]]].
      * left. rewrite (work_quiet _ _ H). auto.
      * right; left. destruct (work_outstanding _ _ _ H) as (H' & -> & -> & _). auto.
      * right; right; left. exists e', p. rewrite (work_quiet _ _ H). auto.
      * right; right; right. exists e', m. split; [exact Es|]. unfold RemoteModel.work. destruct (requests s), (worker s); try exact Ht.
        destruct (serve r e0) as [? [?|?]]; exact Ht.
  - intros (H & Ht & Ho). rewrite (work_quiet _ _ H). auto.
Qed.
Lemma related_continue b s st : related b s st -> related b (continue s) st.
Proof.
  destruct st as [e [x|]]; cbn [related].
  - destruct b.
    + intros (H & Ht & Ho). unfold RemoteModel.continue. rewrite Ht. auto.
    + intros [(H & Ht & Ho)|[(H & Ht & Ho)|[(e' & p & Es & H & Ht & Ho)|(e' & m & Es & Ht)]]].
      * right; left. unfold RemoteModel.continue. rewrite Ht. destruct (send_quiet (request_of x) e s H) as (s1 & -> & H1 & _ & Ho1).
        split; [exact H1|]. split; [reflexivity|]. cbn. congruence.
      * unfold RemoteModel.continue. rewrite Ht. pose proof (receive_outstanding _ _ _ H (request_not_close x)) as Hr.
        destruct (serve (request_of x) e) as [e' [p|m]] eqn:Es; destruct Hr as (s1 & -> & H1 & Ht1 & Ho1).
        -- right; right; left. exists e', p. split; [reflexivity|]. split; [exact H1|]. split; reflexivity.
        -- right; right; right. exists e', m. split; reflexivity.
      * right; right; left. exists e', p. unfold RemoteModel.continue. rewrite Ht. auto.
      * right; right; right. exists e', m. unfold RemoteModel.continue. rewrite Ht. auto.
  - intros (H & Ht & Ho). unfold RemoteModel.continue. rewrite Ht. auto.
Qed.

Lemma serve_local x e : local_op env Receive (e, Some x) =
  match serve (request_of x) e with (e', Ok p) => ((e', None), Ok (observed x p)) | (e', Err m) => ((e', None), Err m) end.
Proof.
  destruct x as [|a]; cbn; unfold with_result.
  - destruct (l_reset env e) as [e' [s|m]]; reflexivity.
  - destruct (l_execute env a e) as [e' [[[s t] r]|m]]; reflexivity.
Qed.

Lemma perform_related b o s st t : related b s st ->
  let (s', r) := perform b o s in
  follows (match snd st with Some _ => true | None => false end) ((o, r) :: t) ->
  if pending r then o = Receive /\ s' = s
  else let (st', r') := local_op env o st in
       agree r' r /\ (forall x, r = Ok x -> related b s' st' /\ follows (match snd st' with Some _ => true | None => false end) t) /\
       (forall m, r = Err m -> open s' = false).
Proof.
  intro H. destruct st as [e [x|]]; cbn [snd].
  - (* a step was started: only Receive *)
    destruct o; cbn [RemoteModel.perform]; try (destruct (answered _ _); intros [? _]; discriminate).
    + destruct b; [destruct (answered _ _)|]; intros [? _]; discriminate.
    + destruct b; [destruct (answered _ _); intros [? _]; discriminate|]. destruct (thread s), (observation s); intros [? _]; discriminate.
    + cbn [related] in H. destruct b.
      * destruct H as (H & Ht & Ho). pose proof (receive_outstanding _ _ _ H (request_not_close x)) as Hr. pose proof H as (He & _).
        assert (Hp : match expect s with Some QReset => answered (receive s) (fun p => Ok (observed SReset p))
                     | Some (QExecute a) => answered (receive s) (fun p => Ok (observed (SExecute a) p))
                     | _ => (State (expect s) (observation s) (thread s) false (requests s) (replies s) (worker s), Err "unexpected") end =
                     answered (receive s) (fun p => Ok (observed x p))) by (rewrite He; destruct x; reflexivity).
        rewrite Hp. clear Hp. rewrite serve_local. unfold answered.
        destruct (serve (request_of x) e) as [e' [p|m]]; destruct Hr as (s1 & -> & H1 & Ht1 & Ho1); cbn [fst snd bind].
        -- intros [_ Hf]. replace (pending (Ok (observed x p))) with false in * by (destruct x, p; reflexivity).
           split; [reflexivity|]. split; [|discriminate]. intros y _. split; [|exact Hf]. cbn. rewrite Ht1, Ho1. auto.
        -- intros [_ Hf]. cbn. split; [exact I|]. split; [discriminate|auto].
      * rewrite serve_local. destruct H as [(H & Ht & Ho)|[(H & Ht & Ho)|[(e' & p & Es & H & Ht & Ho)|(e' & m & Es & Ht)]]]; rewrite Ht.
        1, 2, 4: intros _; cbn; auto.
        rewrite Ho, Es. intros [_ Hf]. replace (pending (Ok (observed x p))) with false in * by (destruct x, p; reflexivity).
        split; [reflexivity|]. split; [|discriminate]. intros y _. split; [|exact Hf]. cbn. auto.
    + destruct (ask _ _); intros [].
  - destruct H as (H & Ht & Ho). destruct o; cbn [RemoteModel.perform].
    + pose proof (ask_quiet QReset e s H eq_refl) as Hr. cbn in Hr. cbn [local_op]. unfold answered, with_result.
      destruct (l_reset env e) as [e' [x|m]]; cbn in Hr; destruct Hr as (s1 & -> & H1 & Ht1 & Ho1); cbn; intros [_ Hf].
      * split; [reflexivity|]. split; [|discriminate]. intros _ _. rewrite Ht1, Ho1. auto.
      * split; [exact I|]. split; [discriminate|auto].
    + pose proof (ask_quiet (QExecute a) e s H eq_refl) as Hr. cbn in Hr. cbn [local_op]. unfold answered, with_result.
      destruct (l_execute env a e) as [e' [[[x z] y]|m]]; cbn in Hr; destruct Hr as (s1 & -> & H1 & Ht1 & Ho1); cbn; intros [_ Hf].
      * split; [reflexivity|]. split; [|discriminate]. intros _ _. rewrite Ht1, Ho1. auto.
      * split; [exact I|]. split; [discriminate|auto].
    + destruct b.
      * destruct (send_quiet QReset e s H) as (s1 & E1 & H1 & Ht1 & Ho1). unfold answered. rewrite E1. cbn. intros [_ Hf].
        split; [reflexivity|]. split; [|discriminate]. intros _ _. split; [|exact Hf]. rewrite Ht1, Ho1. auto.
      * assert (continue s = s) as Ec by (unfold RemoteModel.continue; rewrite Ht; reflexivity). rewrite !Ec. cbn. intros [_ Hf].
        split; [reflexivity|]. split; [|discriminate]. intros _ _. split; [|exact Hf]. left. auto.
    + destruct b.
      * destruct (send_quiet (QExecute a) e s H) as (s1 & E1 & H1 & Ht1 & Ho1). unfold answered. rewrite E1. cbn. intros [_ Hf].
        split; [reflexivity|]. split; [|discriminate]. intros _ _. split; [|exact Hf]. rewrite Ht1, Ho1. auto.
      * rewrite Ht, Ho. cbn. intros [_ Hf].
        split; [reflexivity|]. split; [|discriminate]. intros _ _. split; [|exact Hf]. left. auto.
    + destruct b; [|rewrite Ht, Ho; intros [? _]; discriminate]. destruct (expect s) as [[| |]|]; try (destruct (answered _ _)); intros [? _]; discriminate.
    + cbn [follows local_op]. unfold answered. destruct (ask (QCall f None) s) as [s1 r] eqn:Ea. cbn [fst snd].
      intros (_ & Hn & Hf & Hfo). apply String.eqb_neq in Hf. pose proof (ask_quiet (QCall f None) e s H Hf) as Hr. cbn [RemoteModel.serve] in Hr.
      destruct (l_attr env f e) as [| |v] eqn:El; rewrite Ea in Hr; destruct Hr as (s2 & E2 & H2 & Ht2 & Ho2); injection E2 as <- ->; cbn [bind].
      * cbn. split; [exact I|]. split; [discriminate|auto].
      * rewrite none_is_none. cbn. split; [reflexivity|]. split; [|discriminate]. intros _ _. rewrite Ht2, Ho2. auto.
      * rewrite (Hn _ _ El). cbn. split; [reflexivity|]. split; [|discriminate]. intros _ _. rewrite Ht2, Ho2. auto.
    + cbn [follows local_op]. unfold answered. destruct (ask (QCall f (Some (value_args v))) s) as [s1 r] eqn:Ea. cbn [fst snd].
      intros (_ & Hn & Hf & Hfo). apply String.eqb_neq in Hf. pose proof (ask_quiet (QCall f (Some (value_args v))) e s H Hf) as Hr. cbn [RemoteModel.serve] in Hr.
      rewrite value_args_value in Hr. specialize (Hn e).
      assert (Hr' : exists s', ask (QCall f (Some (value_args v))) s = (s', Ok (PValue none)) /\ quiet (l_set env f v e) s' /\ thread s' = thread s /\ observation s' = observation s)
        by (destruct (l_attr env f e); [exact Hr|congruence|exact Hr]).
      clear Hr. destruct Hr' as (s2 & E2 & H2 & Ht2 & Ho2). rewrite Ea in E2. injection E2 as <- ->. cbn [bind]. rewrite none_is_none. cbn.
      split; [reflexivity|]. split; [|discriminate]. intros _ _. rewrite Ht2, Ho2. auto.
    + cbn [follows local_op]. unfold answered, with_result. destruct (ask (QCall f (Some k)) s) as [s1 r] eqn:Ea. cbn [fst snd].
      intros (_ & Hn & Hf & Hfo). apply String.eqb_neq in Hf. pose proof (ask_quiet (QCall f (Some k)) e s H Hf) as Hr. cbn [RemoteModel.serve] in Hr.
      rewrite (Hn e) in *. destruct (l_invoke env f k e) as [e' [v|m]]; cbn [bind] in Hr; rewrite Ea in Hr; destruct Hr as (s2 & E2 & H2 & Ht2 & Ho2); injection E2 as <- ->; cbn.
      * split; [reflexivity|]. split; [|discriminate]. intros _ _. rewrite Ht2, Ho2. auto.
      * split; [exact I|]. split; [discriminate|auto].
    + destruct (ask _ _); intros [].
Qed.

Lemma run_related b : forall l s st, related b s st ->
  let (t, s') := run b l s in
  follows (match snd st with Some _ => true | None => false end) t ->
  Forall2 agree (local_run env (map fst (delivered t)) st) (map snd (delivered t)).
Proof.
  induction l as [|[o| |] l IH]; intros s st H; cbn [RemoteModel.run].
  - intros _. constructor.
  - pose proof (perform_related b o s st) as Hp. destruct (perform b o s) as [s1 r]. destruct (run b l s1) as [t s2] eqn:Er. specialize (Hp t H).
    intro Hf. specialize (Hp Hf). unfold delivered. cbn [up_to_error]. destruct r as [x|m]; [|].
    + cbn [filter snd]. destruct (pending (Ok x)) eqn:Epd; cbn [negb].
      * destruct Hp as [-> ->]. specialize (IH s st H). rewrite Er in IH. apply IH. cbn [follows] in Hf. destruct Hf as [-> Hf]. rewrite Epd in Hf. exact Hf.
      * cbn [map fst snd local_run]. destruct (local_op env o st) as [st' r']. destruct Hp as (Ha & Hx & _). destruct (Hx x eq_refl) as [Hrel Hfo].
        constructor; [exact Ha|]. specialize (IH s1 st' Hrel). rewrite Er in IH. apply IH. exact Hfo.
    + cbn. cbn in Hp. destruct (local_op env o st) as [st' r']. destruct Hp as [Ha _]. constructor; [exact Ha|constructor].
  - specialize (IH (work s) st (related_work _ _ _ H)). destruct (run b l (work s)). exact IH.
  - specialize (IH (continue s) st (related_continue _ _ _ H)). destruct (run b l (continue s)). exact IH.
Qed.
Lemma related_init b e : related b (init e) (e, None).
Proof. repeat split. Qed.

(** For every interleaving of the user's calls with the worker and the thread, blocking or
    not: the results delivered, up to the first error, are those of the environment used
    directly by the same calls. *)
Theorem C35_same_results_partial : forall b l (e : E), let t := fst (run b l (init e)) in
  follows false t -> Forall2 agree (local_run env (map fst (delivered t)) (e, None)) (map snd (delivered t)).
Proof.
  intros b l e t Hf. pose proof (run_related b l (init e) (e, None) (related_init b e)) as H. subst t.
  destruct (run b l (init e)) as [t s]. apply H. exact Hf.
Qed.

(** The result of a started step is available after two turns of the thread. *)
Fixpoint is_waiting (w : bool) (t : trace) : bool :=
  match t with
  | [] => w
  | (o, r) :: t => is_waiting (match o with StartReset | StartExecute _ => true | Receive => pending r | _ => false end) t
  end.
Fixpoint no_error (t : trace) : Prop := match t with [] => True | (_, Ok _) :: t => no_error t | _ => False end.
Lemma run_app b l1 l2 : forall s, run b (l1 ++ l2) s =
  let (t1, s1) := run b l1 s in let (t2, s2) := run b l2 s1 in (t1 ++ t2, s2).
Proof.
  induction l1 as [|[o| |] l1 IH]; intro s; cbn [RemoteModel.run app].
  - destruct (run b l2 s). reflexivity.
  - destruct (perform b o s) as [s1 r]. rewrite IH. destruct (run b l1 s1) as [t1 s2]. destruct (run b l2 s2). reflexivity.
  - apply IH.
  - apply IH.
Qed.
Definition waits (st : E * option (started A)) : bool := match snd st with Some _ => true | None => false end.
Lemma run_state b : forall l s st, related b s st ->
  let (t, s') := run b l s in
  follows (waits st) t -> no_error t ->
  exists st', related b s' st' /\ waits st' = is_waiting (waits st) t /\
    forall o, local_run env (map fst (delivered t) ++ [o]) st = map snd (delivered t) ++ [snd (local_op env o st')].
Proof.
  induction l as [|[o| |] l IH]; intros s st H; cbn [RemoteModel.run].
  - intros _ _. exists st. split; [exact H|]. split; [reflexivity|]. intro o. cbn. destruct (local_op env o st). reflexivity.
  - pose proof (perform_related b o s st) as Hp. destruct (perform b o s) as [s1 r]. destruct (run b l s1) as [t s2] eqn:Er. specialize (Hp t H).
    intros Hf Hne. specialize (Hp Hf). cbn [no_error] in Hne. destruct r as [x|m]; [|destruct Hne]. unfold delivered. cbn [up_to_error filter snd].
    destruct (pending (Ok x)) eqn:Epd; cbn [negb].
    + destruct Hp as [-> ->]. cbn [follows] in Hf. destruct Hf as [Hw Hf]. cbn [is_waiting]. rewrite Epd in *. specialize (IH s st H). rewrite Er in IH.
      destruct IH as (st' & I1 & I2 & I3); [unfold waits in *; rewrite Hw; exact Hf|exact Hne|]. exists st'. split; [exact I1|]. split; [|exact I3]. unfold waits in *. rewrite I2, Hw. reflexivity.
    + destruct (local_op env o st) as [st1 r1] eqn:El. destruct Hp as (Ha & Hx & _). destruct (Hx x eq_refl) as [Hrel Hfo]. specialize (IH s1 st1 Hrel). rewrite Er in IH.
      destruct (IH Hfo Hne) as (st' & I1 & I2 & I3). exists st'. split; [exact I1|]. split.
      * rewrite I2. cbn [is_waiting]. f_equal.
        clear - El Hf Ha Epd. destruct st as [e [p|]], o; cbn in *; try (injection El as <- <-; reflexivity); try (destruct Hf as [? _]; discriminate); try contradiction.
        -- rewrite Epd. destruct p; injection El as <- <-; reflexivity.
        -- destruct (l_attr env f e); injection El as <- <-; reflexivity.
        -- destruct (l_attr env f e); injection El as <- <-; reflexivity.
      * intro o'. cbn [map fst snd app local_run]. rewrite El, I3. destruct r1; cbn in Ha; [|contradiction]. rewrite Ha. reflexivity.
  - specialize (IH (work s) st (related_work _ _ _ H)). destruct (run b l (work s)). exact IH.
  - specialize (IH (continue s) st (related_continue _ _ _ H)). destruct (run b l (continue s)). exact IH.
Qed.

Theorem C35_step_completes : forall l (e : E) x, let t := fst (run false l (init e)) in
  follows false t -> no_error t -> is_waiting false t = true ->
  local_run env (map fst (delivered t) ++ [Receive]) (e, None) = map snd (delivered t) ++ [Ok x] ->
  fst (run false (l ++ [Thread; Thread; User Receive]) (init e)) = t ++ [(Receive, Ok x)].
Proof.
  intros l e x t Hf Hne Hw Hx. rewrite run_app. pose proof (run_state false l (init e) (e, None) (related_init false e)) as Hs.
  subst t. destruct (run false l (init e)) as [t s]. cbn [fst] in *. destruct (Hs Hf Hne) as ([e1 p1] & I1 & I2 & I3). cbn [waits snd] in I2. rewrite Hw in I2.
  destruct p1 as [y|]; [|discriminate]. rewrite I3 in Hx. apply app_inv_head in Hx. rewrite serve_local in Hx. injection Hx as Hx.
  cbn [RemoteModel.run]. set (s2 := continue (continue s)).
  assert (H2 : thread s2 = None /\ observation s2 = Some x).
  { cbn [related] in I1. destruct (serve (request_of y) e1) as [e' [p|m]] eqn:Es; [|discriminate]. injection Hx as <-.
    assert (Hsent : forall s, outstanding (request_of y) e1 s -> thread s = Some (y, Sent) -> thread (continue s) = None /\ observation (continue s) = Some (observed y p)).
    { intros s0 H0 Ht0. unfold RemoteModel.continue. rewrite Ht0. pose proof (receive_outstanding _ _ _ H0 (request_not_close y)) as Hr. rewrite Es in Hr.
      destruct Hr as (s1 & -> & _). split; reflexivity. }
    destruct I1 as [(H & Ht & Ho)|[(H & Ht & Ho)|[(e2 & p2 & Es2 & H & Ht & Ho)|(e2 & m & Es2 & Ht)]]].
    - unfold s2. apply Hsent; unfold RemoteModel.continue; rewrite Ht; destruct (send_quiet (request_of y) e1 s H) as (s1 & -> & H1 & _ & Ho1); [exact H1|reflexivity].
    - destruct (Hsent s H Ht) as [T1 T2]. unfold s2. assert (continue (continue s) = continue s) as -> by (unfold RemoteModel.continue at 1; rewrite T1; reflexivity). auto.
    - assert (continue s = s) as Ec by (unfold RemoteModel.continue; rewrite Ht; reflexivity). unfold s2. rewrite !Ec. injection Es2 as <- <-. auto.
    - discriminate. }
  destruct H2 as [T1 T2]. clearbody s2. cbn [RemoteModel.perform]. rewrite T1, T2. reflexivity.
Qed.

(** After an error every further call of a blocking remote environment raises, although
    the environment itself might continue. *)
Lemma closed_perform b o (s : state) : b = true -> o <> Close -> open s = false -> let (s', r) := perform b o s in open s' = false /\ exists m, r = Err m.
Proof.
  intros -> Hc Ho.
  assert (Hs : forall q, let (s', r) := send q s in open s' = false /\ exists m, r = Err m).
  { intro q. unfold send. destruct (expect s); [|rewrite Ho]; cbn; eauto. }
  assert (Hw : forall s : state, open (work s) = open s).
  { intro s0. unfold RemoteModel.work. destruct (requests s0), (worker s0); try reflexivity. destruct (serve r e) as [? [?|?]]; reflexivity. }
  assert (Hr : let (s', r) := receive s in open s' = false /\ exists m, r = Err m).
  { unfold RemoteModel.receive. set (s1 := match replies s with [] => work s | _ => s end). assert (open s1 = false) as -> by (subst s1; destruct (replies s); [rewrite Hw|]; exact Ho). cbn; eauto. }
  assert (Ha : forall q, let (s', r) := ask q s in open s' = false /\ exists m, r = Err m).
  { intro q. unfold RemoteModel.ask. specialize (Hs q). destruct (send q s) as [s1 r]. destruct Hs as [H1 [m ->]]. eauto. }
  destruct o; cbn [RemoteModel.perform]; unfold answered.
  - specialize (Ha QReset). destruct (ask QReset s) as [s1 r]. destruct Ha as [H1 [m ->]]. cbn; eauto.
  - specialize (Ha (QExecute a)). destruct (ask (QExecute a) s) as [s1 r]. destruct Ha as [H1 [m ->]]. cbn; eauto.
  - specialize (Hs QReset). destruct (send QReset s) as [s1 r]. destruct Hs as [H1 [m ->]]. cbn; eauto.
  - specialize (Hs (QExecute a)). destruct (send (QExecute a) s) as [s1 r]. destruct Hs as [H1 [m ->]]. cbn; eauto.
  - destruct (receive s) as [s1 r]. destruct Hr as [H1 [m ->]]. destruct (expect s) as [[| |]|]; cbn; eauto.
  - specialize (Ha (QCall f None)). destruct (ask (QCall f None) s) as [s1 r]. destruct Ha as [H1 [m ->]]. cbn; eauto.
  - specialize (Ha (QCall f (Some (value_args v)))). destruct (ask (QCall f (Some (value_args v))) s) as [s1 r]. destruct Ha as [H1 [m ->]]. cbn; eauto.
  - specialize (Ha (QCall f (Some k))). destruct (ask (QCall f (Some k)) s) as [s1 r]. destruct Ha as [H1 [m ->]]. cbn; eauto.
  - congruence.
Qed.
Lemma closed_run : forall l (s : state), open s = false -> let (t, s') := run true l s in
  Forall (fun p => fst p <> Close) t -> Forall (fun p => exists m, snd p = Err m) t.
Proof.
  assert (Hw : forall s : state, open (work s) = open s).
  { intro s0. unfold RemoteModel.work. destruct (requests s0), (worker s0); try reflexivity. destruct (serve r e) as [? [?|?]]; reflexivity. }
  assert (Hs : forall q (s : state), open s = false -> open (fst (send q s)) = false).
  { intros q s0 H0. unfold send. destruct (expect s0); [reflexivity|]. rewrite H0. reflexivity. }
  assert (Hr : forall s : state, open s = false -> open (fst (receive s)) = false).
  { intros s0 H0. unfold RemoteModel.receive. set (s1 := match replies s0 with [] => work s0 | _ => s0 end).
    assert (open s1 = false) as -> by (subst s1; destruct (replies s0); [rewrite Hw|]; exact H0). reflexivity. }
  assert (Hc : forall s : state, open s = false -> open (continue s) = false).
  { intros s0 H0. unfold RemoteModel.continue. destruct (thread s0) as [[x [| |]]|]; [| |exact H0|exact H0].
    - specialize (Hs (request_of x) s0 H0). destruct (send (request_of x) s0). exact Hs.
    - specialize (Hr s0 H0). destruct (receive s0) as [s1 [p|m]]; exact Hr. }
  induction l as [|[o| |] l IH]; intros s Ho; cbn [RemoteModel.run].
  - constructor.
  - pose proof (closed_perform true o s eq_refl) as Hp. destruct (perform true o s) as [s1 r]. specialize (IH s1). destruct (run true l s1) as [t s2].
    intro H. inversion H as [|? ? H1 H2]; subst. destruct (Hp H1 Ho) as [Ho1 [m ->]]. constructor; [eexists; reflexivity|]. apply IH; assumption.
  - specialize (IH (work s)). rewrite Hw in IH. destruct (run true l (work s)). auto.
  - specialize (IH (continue s) (Hc s Ho)). destruct (run true l (continue s)). auto.
Qed.
Lemma after_error : forall l s st, related true s st ->
  forall t1 o m t2, fst (run true l s) = t1 ++ (o, Err m) :: t2 -> no_error t1 -> follows (waits st) (t1 ++ [(o, Err m)]) -> Forall (fun p => fst p <> Close) t2 ->
  Forall (fun p => exists m, snd p = Err m) t2.
Proof.
  assert (Hfo : forall o r t w, follows w ((o, r) :: t) -> follows w [(o, r)]) by (intros o r t w; cbn; destruct o; intuition).
  induction l as [|[o1| |] l IH]; intros s st H t1 o m t2 Ht Hne Hf Hc; cbn [RemoteModel.run] in Ht.
  - destruct t1; discriminate.
  - pose proof (perform_related true o1 s st) as Hp. destruct (perform true o1 s) as [s1 r]. pose proof (closed_run l s1) as Hcl. specialize (IH s1).
    destruct (run true l s1) as [t s2]. cbn [fst] in *. destruct t1 as [|[o' r'] t1]; cbn [app] in Ht.
    + injection Ht as -> -> ->. specialize (Hp [] H). cbn [app] in Hf. specialize (Hp Hf). cbn in Hp. destruct (local_op env o st) as [st' r']. destruct Hp as (_ & _ & Hop).
      apply Hcl; [apply (Hop m eq_refl)|exact Hc].
    + injection Ht as <- <- Ht. cbn [no_error] in Hne. destruct r as [x|]; [|destruct Hne]. specialize (Hp (t1 ++ [(o, Err m)]) H Hf).
      destruct (pending (Ok x)) eqn:Epd.
      * destruct Hp as [-> ->]. cbn [app follows] in Hf. destruct Hf as [Hw Hf]. rewrite Epd in Hf. apply (IH st H t1 o m t2 Ht Hne); [rewrite Hw; exact Hf|exact Hc].
      * destruct (local_op env o1 st) as [st' r']. destruct Hp as (_ & Hx & _). destruct (Hx x eq_refl) as [Hrel Hfol]. apply (IH st' Hrel t1 o m t2 Ht Hne Hfol Hc).
  - apply (IH _ st (related_work _ _ _ H) t1 o m t2 Ht Hne Hf Hc).
  - apply (IH _ st (related_continue _ _ _ H) t1 o m t2 Ht Hne Hf Hc).
Qed.
Theorem C35_ends_at_error : forall l (e : E) t1 o m t2, fst (run true l (init e)) = t1 ++ (o, Err m) :: t2 ->
  no_error t1 -> follows false (t1 ++ [(o, Err m)]) -> Forall (fun p => fst p <> Close) t2 ->
  Forall (fun p => exists m, snd p = Err m) t2.
Proof. intros l e t1 o m t2 Ht Hne Hf Hc. exact (after_error l (init e) (e, None) (related_init true e) t1 o m t2 Ht Hne Hf Hc). Qed.

(** In non-blocking mode the error of a started step is never reported: receiving remains
    "not ready" for ever. *)
Theorem C35_lost_error_refuted : forall (e : E) a m, snd (l_execute env a e) = Err m ->
  forall n, let l := User (StartExecute a) :: concat (repeat [Thread; Work; User Receive] n) in
  fst (run false l (init e)) = (StartExecute a, Ok RDone) :: repeat (Receive, Ok RPending) n.
Proof.
  intros e a m Hm n l. subst l. cbn [RemoteModel.run RemoteModel.perform init thread observation]. f_equal.
  set (s0 := set_thread (init e) None (Some (SExecute a, Begin))).
  enough (H : forall n s, related false s (e, Some (SExecute a)) -> fst (run false (concat (repeat [Thread; Work; User Receive] n)) s) = repeat (Receive, Ok RPending) n).
  { specialize (H n s0). destruct (run false (concat (repeat [Thread; Work; User Receive] n)) s0) eqn:Er.
    cbn [fst] in *. f_equal. apply H. left. repeat split. }
  clear n s0. induction n as [|n IH]; intros s H; [reflexivity|]. cbn [repeat concat app RemoteModel.run].
  set (s1 := work (continue s)). assert (H1 : related false s1 (e, Some (SExecute a))) by (apply related_work, related_continue, H). clearbody s1.
  assert (Hp : perform false Receive s1 = (s1, Ok RPending)).
  { cbn [RemoteModel.perform]. destruct H1 as [(_ & Ht & _)|[(_ & Ht & _)|[(e' & p & Es & _)|(e' & m' & _ & Ht)]]]; try (rewrite Ht; reflexivity).
    exfalso. cbn in Es. destruct (l_execute env a e) as [? [?|?]]; cbn in *; discriminate. }
  rewrite Hp. specialize (IH s1 H1). destruct (run false (concat (repeat [Thread; Work; User Receive] n)) s1). cbn in *. rewrite IH. reflexivity.
Qed.

(** An attribute which is None is reported as a function; setting an attribute which is a
    method calls it. *)
Theorem C35_none_attribute_refuted : forall b f (e : E), f <> "close" -> l_attr env f e = Value none ->
  fst (run b [User (Get f)] (init e)) = [(Get f, Ok RFunction)] /\ local_run env [Get f] (e, None) = [Ok (RValue none)].
Proof.
  intros b f e Hf Ha. apply String.eqb_neq in Hf. pose proof (ask_quiet (QCall f None) e (init e)) as H. cbn [RemoteModel.serve] in H. rewrite Ha in H.
  destruct H as (s1 & E1 & _); [repeat split|exact Hf|]. cbn [RemoteModel.run RemoteModel.perform]. unfold answered. rewrite E1. cbn [fst snd bind].
  rewrite none_is_none. cbn. rewrite Ha. auto.
Qed.
Theorem C35_set_method_refuted : forall b f (e : E) v e', f <> "close" -> l_attr env f e = Method -> l_invoke env f (value_args v) e = (e', Ok none) ->
  let s := snd (run b [User (Set_ f v)] (init e)) in worker s = Some e' /\ fst (local_op env (Set_ f v) (e, None)) = (l_set env f v e, None).
Proof.
  intros b f e v e' Hf Ha Hi. apply String.eqb_neq in Hf. pose proof (ask_quiet (QCall f (Some (value_args v))) e (init e)) as H. cbn [RemoteModel.serve] in H. rewrite Ha, Hi in H. cbn [bind] in H.
  destruct H as (s1 & E1 & (_ & _ & _ & _ & Hw) & _); [repeat split|exact Hf|]. cbn [RemoteModel.run RemoteModel.perform]. unfold answered. rewrite E1. cbn. auto.
Qed.
End Remote.

Open Scope nat_scope.

(** ** Example: a counter whose fourth step fails *)
Definition counter : local nat unit nat unit (option nat) nat :=
  Local (fun _ => (0, Ok 0)) (fun _ e => (e + 1, if Nat.eqb e 3 then Err "failed" else Ok (e + 1, 0%Z, e)))
    (fun f _ => if String.eqb f "states" then Method else if String.eqb f "level" then Value (Some 7) else if String.eqb f "seed" then Value None else Missing)
    (fun _ _ e => (e, Ok (Some e))) (fun _ _ e => e).
Definition is_none_ (v : option nat) : bool := match v with None => true | _ => false end.
Definition run_counter (b : bool) l :=
  fst (@RemoteModel.run nat unit nat unit (option nat) nat None is_none_ tt (fun _ => tt) (fun _ => None) counter b l (init 0)).
Example ex_blocking : run_counter true [User Reset; User (StartExecute tt); Work; User Receive; User (Execute tt); User (Call "states" tt); User (Get "level")] =
  [(Reset, Ok (RStates 0)); (StartExecute tt, Ok RDone); (Receive, Ok (RStep 1 0%Z 0)); (Execute tt, Ok (RStep 2 0%Z 1)); (Call "states" tt, Ok (RValue (Some 2))); (Get "level", Ok (RValue (Some 7)))].
Proof. reflexivity. Qed.
Example ex_thread : run_counter false [User StartReset; User Receive; Thread; User Receive; Thread; User Receive; User (StartExecute tt); Thread; Work; Thread; User Receive] =
  [(StartReset, Ok RDone); (Receive, Ok RPending); (Receive, Ok RPending); (Receive, Ok (RStarted 0)); (StartExecute tt, Ok RDone); (Receive, Ok (RStep 1 0%Z 0))].
Proof. reflexivity. Qed.
Example ex_follows : follows is_none_ counter false
  (run_counter false [User StartReset; User Receive; Thread; User Receive; Thread; User Receive; User (StartExecute tt); Thread; Work; Thread; User Receive]).
Proof. cbn. repeat split. Qed.
Example ex_error : run_counter true (repeat (User (Execute tt)) 6) =
  [(Execute tt, Ok (RStep 1 0%Z 0)); (Execute tt, Ok (RStep 2 0%Z 1)); (Execute tt, Ok (RStep 3 0%Z 2)); (Execute tt, Err "failed"); (Execute tt, Err "closed"); (Execute tt, Err "unexpected")] /\
  local_run counter (repeat (Execute tt) 6) (0, None) =
  [Ok (RStep 1 0%Z 0); Ok (RStep 2 0%Z 1); Ok (RStep 3 0%Z 2); Err "failed"; Ok (RStep 5 0%Z 4); Ok (RStep 6 0%Z 5)].
Proof. split; reflexivity. Qed.

Print Assumptions C35_same_results_partial.
Print Assumptions C35_step_completes.
Print Assumptions C35_ends_at_error.
Print Assumptions C35_lost_error_refuted.
Print Assumptions C35_none_attribute_refuted.
Print Assumptions C35_set_method_refuted.
