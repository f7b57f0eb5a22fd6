(** Creating agents from arguments, specifications and files (C96 - C102). *)

From Coq Require Import String List ZArith Bool Lia Permutation.
From Verif Require Import Base AgtModel AgtProofs AgtProofs2.
Import ListNotations.
Open Scope string_scope.
Open Scope Z_scope.
Open Scope list_scope.

(** ** Specification *)
(** The arguments which agents do not keep in their specification. *)
Definition lost (c : class) : list string :=
  match c with
  | Constant | Random | Tensorforce => []
  | TRPO => ["linesearch_iterations"; "subsampling_fraction"; "reward_processing"]
  | _ => ["reward_processing"]
  end.
(** not given, or given with its default *)
Definition at_default (c : class) (kw : dict) (n : string) : Prop :=
  forall v, get n kw = Some v -> In (n, Some v) (class_signature c).
(** an argument of Agent.create: keyword arguments first, then the dictionary, then what the
    environment offers *)
Definition offer (e : option environment) (n : string) : option value :=
  match e with
  | None => None
  | Some e =>
      if String.eqb n "states" then Some (e_states e)
      else if String.eqb n "actions" then Some (e_actions e)
      else if String.eqb n "max_episode_timesteps" then
        (match e_max_episode_timesteps e with None_ => None | _ => Some (e_max_episode_timesteps e) end)
      else None
  end.
Definition first_of (a b : option value) : option value := match a with Some v => Some v | None => b end.
(** keyword arguments as Python passes them *)
Definition keywords (kw : dict) : Prop := NoDup (map fst kw).

Lemma put_keywords k0 v kw : keywords kw -> keywords (put k0 v kw).
Proof.
  unfold keywords. induction kw as [|[k w] l IH]; intros K; cbn [put map]; [repeat constructor; auto|].
  cbn [map fst] in K. inversion K as [|? ? K1 K2]; subst. destruct (String.eqb_spec k0 k) as [<-|N]; cbn [map fst]; [constructor; auto|]. constructor; [|now apply IH].
  intros I. apply K1. clear - I N. induction l as [|[k' w'] l IH]; cbn [put map fst] in *; [destruct I as [I|[]]; congruence|].
  destruct (String.eqb_spec k0 k') as [<-|]; cbn [map fst] in I; [exact I|]. destruct I as [I|I]; [left; exact I|right; auto].
Qed.

Lemma get_from_environment e kw n : get n (from_environment e kw) = first_of (get n kw) (offer e n).
Proof.
  unfold from_environment, offer, first_of. destruct e as [e|]; [|now destruct (get n kw)].
  set (k1 := if has "states" kw then kw else put "states" (e_states e) kw).
  assert (E1 : forall m, get m k1 = match get m kw with Some v => Some v | None => if String.eqb m "states" then Some (e_states e) else None end).
  { intros m. unfold k1, has. destruct (get "states" kw) eqn:S.
    - destruct (get m kw) eqn:M; [reflexivity|]. destruct (String.eqb_spec m "states"); [congruence|reflexivity].
    - rewrite get_put. destruct (String.eqb_spec m "states") as [->|]; [now rewrite S|now destruct (get m kw)]. }
  set (k2 := if has "actions" k1 then k1 else put "actions" (e_actions e) k1).
  assert (E2 : forall m, get m k2 = match get m k1 with Some v => Some v | None => if String.eqb m "actions" then Some (e_actions e) else None end).
  { intros m. unfold k2, has. destruct (get "actions" k1) eqn:S.
    - destruct (get m k1) eqn:M; [reflexivity|]. destruct (String.eqb_spec m "actions"); [congruence|reflexivity].
    - rewrite get_put. destruct (String.eqb_spec m "actions") as [->|]; [now rewrite S|now destruct (get m k1)]. }
  assert (E3 : forall v, (match v with None_ => None | _ => Some v end) = if is_none v then None else Some v) by (intros []; reflexivity).
  rewrite E3. unfold has. destruct (is_none (e_max_episode_timesteps e)) eqn:N; cbn [orb].
  - rewrite E2, E1. destruct (get n kw); [reflexivity|]. destruct (String.eqb n "states"); [reflexivity|]. destruct (String.eqb n "actions"); [reflexivity|].
    now destruct (String.eqb n "max_episode_timesteps").
  - destruct (get "max_episode_timesteps" k2) eqn:M; [rewrite E2, E1|rewrite get_put, E2, E1].
    + destruct (get n kw) eqn:G; [reflexivity|]. destruct (String.eqb n "states"); [reflexivity|]. destruct (String.eqb n "actions"); [reflexivity|].
      destruct (String.eqb_spec n "max_episode_timesteps") as [->|]; [|reflexivity]. rewrite E2, E1, G in M. cbn in M. discriminate M.
    + destruct (String.eqb_spec n "max_episode_timesteps") as [->|];
        [|destruct (get n kw); [reflexivity|]; destruct (String.eqb n "states"); reflexivity].
      rewrite E2, E1 in M. destruct (get "max_episode_timesteps" kw); [discriminate M|]. reflexivity.
Qed.

Lemma spec_covers c : forallb (fun p => existsb (String.eqb (fst p)) (class_spec c) || existsb (String.eqb (fst p)) (lost c)) (class_signature c) = true.
Proof. destruct c; vm_compute; reflexivity. Qed.
Lemma spec_known c : forallb (fun n => existsb (String.eqb n) (map fst (class_signature c)) && negb (String.eqb n "agent") && negb (String.eqb n "type") && negb (String.eqb n "environment")) (class_spec c) = true.
Proof. destruct c; vm_compute; reflexivity. Qed.
Lemma spec_environment c : existsb (String.eqb "states") (class_spec c) && existsb (String.eqb "actions") (class_spec c) && existsb (String.eqb "max_episode_timesteps") (class_spec c) = true.
Proof. destruct c; vm_compute; reflexivity. Qed.
Lemma lost_optional c : forallb (fun p => negb (existsb (String.eqb (fst p)) (lost c)) || match snd p with Some _ => true | None => false end) (class_signature c) = true.
Proof. destruct c; vm_compute; reflexivity. Qed.
Lemma class_table c : c <> DoubleDQN -> lookup (class_name c) agents = Some (Class c).
Proof. destruct c; intros N; try reflexivity. now destruct N. Qed.

(** the specification without its key agent *)
Definition arguments_of (c : class) (a : dict) : dict := map (fun n => (n, arg a n)) (class_spec c).

Lemma construct_again c c' kw a g :
  bind_args (class_signature c) kw = Ok a -> finish c a = Ok g ->
  class_signature c' = class_signature c ->
  (forall n, In n (lost c) -> at_default c kw n) ->
  bind_args (class_signature c') (arguments_of c a) = Ok a /\ rest (class_signature c') (arguments_of c a) = [].
Proof.
  intros B F S D. rewrite S. split.
  - apply (bind_again _ kw); [exact B|apply signatures_nodup|]. intros n d I.
    unfold arguments_of. rewrite get_spec. pose proof (spec_covers c) as C. rewrite forallb_forall in C. specialize (C _ I). cbn [fst] in C.
    assert (N : In n (map fst a)) by (rewrite (bind_names _ _ _ B); apply in_map_iff; exists (n, d); auto).
    destruct (existsb (String.eqb n) (class_spec c)) eqn:E; [left; symmetry; now apply arg_get|]. cbn [orb] in C. right. split; [reflexivity|].
    apply existsb_exists in C. destruct C as (m & C & M). apply String.eqb_eq in M. subst m.
    pose proof (lost_optional c) as O. rewrite forallb_forall in O. specialize (O _ I). cbn [fst snd] in O.
    replace (existsb (String.eqb n) (lost c)) with true in O by (symmetry; apply existsb_exists; exists n; split; [exact C|apply String.eqb_refl]).
    cbn [negb orb] in O. destruct d as [v|]; [|discriminate O]. split; [|discriminate].
    apply arg_get in N. rewrite N. f_equal. apply get_in in N. destruct (bind_chosen _ _ _ B _ _ N) as (d' & I' & CH).
    assert (U : forall x y, In (n, x) (class_signature c) -> In (n, y) (class_signature c) -> x = y).
    { intros x y. generalize (signatures_nodup c). generalize (class_signature c). intros l. clear. induction l as [|[k z] l IH]; cbn; [tauto|].
      intros ND [E|I1] [E'|I2]; inversion ND as [|? ? N1 N2]; subst.
      - congruence.
      - injection E as -> ->. destruct N1. apply in_map_iff. exists (n, y). auto.
      - injection E' as -> ->. destruct N1. apply in_map_iff. exists (n, x). auto.
      - auto. }
    destruct (get n kw) as [w|] eqn:G.
    + subst w. specialize (U _ _ I (D n C _ G)). congruence.
    + subst d'. specialize (U _ _ I I'). congruence.
  - unfold rest, arguments_of. pose proof (spec_known c) as K. rewrite forallb_forall in K.
    assert (G : forall l, (forall n, In n l -> In n (class_spec c)) ->
      filter (fun e => negb (has (fst e) (map (fun p : string * option value => (fst p, None_)) (class_signature c)))) (map (fun n => (n, arg a n)) l) = []).
    { induction l as [|n l IH]; intros H; [reflexivity|]. cbn [map filter fst]. rewrite has_sig. specialize (K n (H n (or_introl eq_refl))).
      rewrite !andb_true_iff in K. destruct K as [[[K _] _] _]. rewrite K. cbn [negb]. apply IH. intros m Hm. apply H. now right. }
    apply G. auto.
Qed.

Lemma make_spec_facts c a : 
  get "agent" (make_spec (class_name c) (class_spec c) a) = Some (Str (class_name c))
  /\ remove "agent" (remove "type" (make_spec (class_name c) (class_spec c) a)) = arguments_of c a
  /\ has "environment" (arguments_of c a) = false
  /\ forall e, from_environment e (arguments_of c a) = arguments_of c a.
Proof.
  pose proof (spec_known c) as K. rewrite forallb_forall in K.
  assert (K' : forall n, In n (class_spec c) -> n <> "agent" /\ n <> "type" /\ n <> "environment").
  { intros n I. specialize (K n I). rewrite !andb_true_iff, !negb_true_iff in K. destruct K as [[[_ K1] K2] K3].
    apply String.eqb_neq in K1, K2, K3. auto. }
  assert (R : forall k, (forall n, In n (class_spec c) -> n <> k) -> remove k (arguments_of c a) = arguments_of c a).
  { intros k H. unfold remove, arguments_of. induction (class_spec c) as [|n l IH]; [reflexivity|]. cbn [map filter fst].
    destruct (String.eqb_spec k n) as [->|]; [destruct (H n (or_introl eq_refl) eq_refl)|]. cbn [negb]. f_equal. apply IH.
    - intros m Hm. apply K. now right.
    - intros m Hm. apply K'. now right.
    - intros m Hm. apply H. now right. }
  split; [reflexivity|]. split; [|split].
  - change (make_spec (class_name c) (class_spec c) a) with (("agent", Str (class_name c)) :: arguments_of c a).
    change (remove "type" (("agent", Str (class_name c)) :: arguments_of c a)) with (("agent", Str (class_name c)) :: remove "type" (arguments_of c a)).
    rewrite R by (intros n I; apply K', I).
    change (remove "agent" (("agent", Str (class_name c)) :: arguments_of c a)) with (remove "agent" (arguments_of c a)).
    apply R. intros n I. apply K', I.
  - unfold has, arguments_of. rewrite get_spec. destruct (existsb (String.eqb "environment") (class_spec c)) eqn:E; [|reflexivity].
    apply existsb_exists in E. destruct E as (m & I & M). apply String.eqb_eq in M. subst m. now destruct (K' _ I) as (_ & _ & X).
  - intros [e|]; [|reflexivity]. unfold from_environment. pose proof (spec_environment c) as S. rewrite !andb_true_iff in S. destruct S as [[S1 S2] S3].
    assert (H : forall n, existsb (String.eqb n) (class_spec c) = true -> has n (arguments_of c a) = true).
    { intros n E. unfold has, arguments_of. rewrite get_spec, E. reflexivity. }
    rewrite (H _ S1), (H _ S2), (H _ S3), orb_true_r. reflexivity.
Qed.

Section Files.
Variable files : string -> option value.
Variable library : string -> option class.
Variables equal at_least : value -> value -> bool.
Notation create := (create files library equal at_least).
Notation load := (load files library equal at_least).
Hypothesis equal_refl : forall v, equal v v = true.

(** ** C96: an agent created from the specification of an agent is the same *)
(** provided that the arguments which are not kept have their default values, and the agent is not
    a DoubleDQN *)
Theorem C96_same_partial c kw g depth e :
  construct c kw = Ok g -> c <> DoubleDQN -> (forall n, In n (lost c) -> at_default c kw n) -> files (class_name c) = None ->
  create (S (S (S depth))) e (Value (Dict (g_spec g))) [] = Ok (New c g).
Proof.
  intros C N D F. apply construct_iff in C. destruct C as (a & B & R & FI). rewrite (finish_spec _ _ _ FI).
  destruct (make_spec_facts c a) as (M1 & M2 & M3 & M4).
  cbn [AgtModel.create]. cbv zeta. unfold update_. cbn [fold_left]. rewrite M1, M2, M3, F, (class_table c N), M4.
  replace (construct c (arguments_of c a)) with (Ok g); [reflexivity|]. symmetry. apply construct_iff. exists a.
  destruct (construct_again c c kw a g B FI eq_refl D). auto.
Qed.

(** DoubleDQN: the specification is the one of a DQN, which trains differently. *)
Theorem C96_double_dqn_refuted kw g depth e :
  construct DoubleDQN kw = Ok g -> at_default DoubleDQN kw "reward_processing" -> files "dqn" = None ->
  exists g', create (S (S (S depth))) e (Value (Dict (g_spec g))) [] = Ok (New DQN g') /\ g_model g' <> g_model g.
Proof.
  intros C D F. apply construct_iff in C. destruct C as (a & B & R & FI). rewrite (finish_spec _ _ _ FI).
  destruct (make_spec_facts DoubleDQN a) as (M1 & M2 & M3 & M4).
  destruct (construct_again DoubleDQN DQN kw a g B FI eq_refl) as [B' R'].
  { intros n [<-|[]]. exact D. }
  assert (X : exists g', finish DQN a = Ok g' /\ g_model g' <> g_model g).
  { rewrite finish_sub in FI |- * by reflexivity. cbn [class_body bind] in FI |- *. unfold double_dqn_body, dqn_body, dqn_parts in *. cbn [bind] in FI |- *.
    match type of FI with base_body ?s (base_args a ?p) [] = _ => set (p1 := p) in * end.
    match goal with |- exists g', base_body ?s (base_args a ?p) [] = _ /\ _ => set (p2 := p) in *; set (s2 := s) end.
    assert (E : exists g', base_body s2 (base_args a p2) [] = Ok g').
    { unfold base_body in FI |- *.
      change (arg (base_args a p2) "summarizer") with (arg (base_args a p1) "summarizer") in *.
      change (arg (base_args a p2) "config") with (arg (base_args a p1) "config") in *.
      change (arg (base_args a p2) "memory") with (arg (base_args a p1) "memory") in *.
      change (arg (base_args a p2) "update") with (arg (base_args a p1) "update") in *.
      change (contains "estimate_actions" (arg (base_args a p1) "reward_estimation")) with (@Ok bool false) in FI.
      change (contains "estimate_terminal" (arg (base_args a p1) "reward_estimation")) with (@Ok bool false) in FI.
      change (contains "estimate_actions" (arg (base_args a p2) "reward_estimation")) with (@Ok bool false).
      change (contains "estimate_terminal" (arg (base_args a p2) "reward_estimation")) with (@Ok bool false).
      cbn [bind assert_ negb] in FI |- *.
      destruct (if is_none (arg (base_args a p1) "summarizer") then Ok false else contains "labels" _) as [c3|]; [|discriminate FI]. cbn [bind] in FI |- *.
      destruct (assert_ (negb c3) _); [|discriminate FI]. cbn [bind] in FI |- *.
      destruct (filter _ _); [|discriminate FI]. cbv zeta in FI |- *.
      match type of FI with (do x <- ?o; _) = _ => destruct o as [config|]; [|discriminate FI] end. cbn [bind] in FI |- *.
      unfold buffer_observe in FI |- *.
      change (arg (base_args a p2) "parallel_interactions") with (arg (base_args a p1) "parallel_interactions").
      change (arg (base_args a p2) "max_episode_timesteps") with (arg (base_args a p1) "max_episode_timesteps").
      match type of FI with (do x <- ?o; _) = _ => destruct o as [config'|]; [|discriminate FI] end. cbn [bind]. eauto. }
    destruct E as [g' E]. exists g'. split; [exact E|].
    apply base_body_ok in E, FI. destruct E as (_ & c0 & c1 & _ & _ & ->), FI as (_ & c2 & c3 & _ & _ & ->).
    unfold model_args. intros H. 
    assert (Y : arg (base_args a p2) "reward_estimation" = arg (base_args a p1) "reward_estimation") by congruence.
    cbn in Y. unfold horizon_estimation in Y. discriminate Y. }
  destruct X as (g' & FI' & NE). exists g'. split; [|exact NE].
  cbn [AgtModel.create]. cbv zeta. unfold update_. cbn [fold_left]. rewrite M1, M2, M3. cbn [class_name]. rewrite F.
  change (lookup "dqn" agents) with (Some (Class DQN)). rewrite M4.
  replace (construct DQN (arguments_of DoubleDQN a)) with (Ok g'); [reflexivity|]. symmetry. apply construct_iff. exists a. auto.
Qed.

(** ** C99: how Agent.create puts the arguments together *)
(** Keyword arguments take precedence over the dictionary, and both over the environment. *)
Theorem C99_precedence c name d kw depth e :
  keywords kw -> get "agent" (update_ d kw) = Some (Str name) -> files name = None -> lookup name agents = Some (Class c) ->
  get "environment" d = None -> get "environment" kw = None ->
  exists args, create (S (S (S depth))) e (Value (Dict d)) kw = (do g <- construct c args; Ok (New c g))
  /\ forall n, n <> "agent" -> n <> "type" -> get n args = first_of (get n kw) (first_of (get n d) (offer e n)).
Proof.
  intros K A F L E1 E2. exists (from_environment e (remove "agent" (remove "type" (update_ d kw)))). split.
  - cbn [AgtModel.create]. cbv zeta. rewrite A.
    assert (H : has "environment" (remove "agent" (remove "type" (update_ d kw))) = false).
    { unfold has. rewrite !get_remove. cbn [String.eqb Ascii.eqb Bool.eqb]. rewrite get_update by exact K. now rewrite E2, E1. }
    rewrite H, F, L. reflexivity.
  - intros n N1 N2. rewrite get_from_environment, !get_remove, get_update by exact K.
    apply String.eqb_neq in N1, N2. rewrite N1, N2. unfold first_of. destruct (get n kw); [reflexivity|]. now destruct (get n d).
Qed.

(** ** C102: Agent.load *)
(** The arguments of a loaded agent: keyword arguments first, then what is stored, then the
    environment; the recurrent state's specification is not an argument. *)
Theorem C102_arguments c name stored kw depth e r :
  keywords kw -> get "agent" stored = Some (Str name) -> get "agent" kw = None -> files name = None -> lookup name agents = Some (Class c) ->
  get "environment" stored = None -> get "environment" kw = None ->
  load (S (S (S depth))) e (Some stored) kw = Ok r ->
  exists args g, construct c args = Ok g /\ fst r = New c g
  /\ forall n, ~ In n ["agent"; "type"; "internals"; "initial_internals"; "saver"; "max_episode_timesteps"] ->
     get n args = first_of (get n kw) (first_of (get n stored) (offer e n)).
Proof.
  intros K A AK F L E1 E2 H. unfold AgtModel.load in H.
  destruct (load_args equal at_least e (Some stored) kw) as [[[agent kw'] sr]|] eqn:LA; [|discriminate H]. cbn [bind] in H.
  assert (X : keywords kw' /\ (forall n, n <> "saver" -> get n kw' = get n kw)
    /\ forall n, ~ In n ["internals"; "initial_internals"; "saver"; "max_episode_timesteps"] ->
       get n agent = first_of (match get n kw with Some v => if String.eqb n "parallel_interactions" then match greater v 1 with Ok true => Some v | _ => None end else None | None => None end) (get n stored)).
  { unfold load_args in LA. rewrite AK in LA. cbn [bind] in LA.
    match type of LA with (do x <- ?o; _) = _ => destruct o as [a1|] eqn:A1; [|discriminate LA] end. cbn [bind] in LA.
    match type of LA with (do x <- ?o; _) = _ => destruct o as [a2|] eqn:A2; [|discriminate LA] end. cbn [bind] in LA. cbv zeta in LA.
    assert (G1 : forall n, n <> "max_episode_timesteps" -> get n a1 = get n stored).
    { intros n N. destruct e as [e|]; [|injection A1 as <-; reflexivity].
      destruct (is_none (arg stored "max_episode_timesteps") && negb (is_none (e_max_episode_timesteps e))); [|injection A1 as <-; reflexivity].
      destruct (get "max_episode_timesteps" kw) as [v|].
      - destruct (assert_ _ _); [|discriminate A1]. cbn [bind] in A1. injection A1 as <-. rewrite get_put. apply String.eqb_neq in N. now rewrite N.
      - injection A1 as <-. rewrite get_put. apply String.eqb_neq in N. now rewrite N. }
    assert (G2 : forall n, get n a2 = first_of (match get n kw with Some v => if String.eqb n "parallel_interactions" then match greater v 1 with Ok true => Some v | _ => None end else None | None => None end) (get n a1)).
    { intros n. destruct (get "parallel_interactions" kw) as [v|] eqn:P.
      - destruct (greater v 1) as [b|] eqn:GR; [|discriminate A2]. cbn [bind] in A2. injection A2 as <-. destruct b.
        + rewrite get_put. destruct (String.eqb_spec n "parallel_interactions") as [->|]; [rewrite P, GR; reflexivity|]. now destruct (get n kw).
        + destruct (String.eqb_spec n "parallel_interactions") as [->|]; [rewrite P, GR; reflexivity|]. now destruct (get n kw).
      - injection A2 as <-. destruct (String.eqb_spec n "parallel_interactions") as [->|]; [now rewrite P|]. now destruct (get n kw). }
    assert (G3 : forall n, n <> "internals" -> n <> "initial_internals" -> get n (remove "initial_internals" (remove "internals" a2)) = get n a2).
    { intros n N1 N2. rewrite !get_remove. apply String.eqb_neq in N1, N2. now rewrite N1, N2. }
    set (a3 := remove "initial_internals" (remove "internals" a2)) in *.
    assert (KP : forall v, keywords (put "saver" v kw)).
    { intros v. now apply put_keywords. }
    assert (FIN : (agent = a3 \/ exists v, agent = put "saver" v a3) /\ (kw' = kw \/ exists v, kw' = put "saver" v kw)).
    { destruct (get "saver" a3) as [[]|] eqn:SA; destruct (get "saver" kw) as [[]|] eqn:SK; cbn [bind] in LA;
        try (injection LA as <- <- <-; split; eauto; fail);
        match type of LA with context [assert_ ?x ?y] => destruct (assert_ x y); [|discriminate LA]; cbn [bind] in LA; injection LA as <- <- <-; split; eauto end. }
    destruct FIN as [FA FK]. split; [|split].
    - destruct FK as [->|[v ->]]; auto.
    - intros n N. destruct FK as [->|[v ->]]; [reflexivity|]. rewrite get_put. apply String.eqb_neq in N. now rewrite N.
    - intros n N. assert (NS : n <> "saver" /\ n <> "internals" /\ n <> "initial_internals" /\ n <> "max_episode_timesteps") by (repeat split; intros ->; apply N; cbn; auto).
      destruct NS as (NS1 & NS2 & NS3 & NS4).
      replace (get n agent) with (get n a3).
      + rewrite G3, G2, G1 by assumption. reflexivity.
      + destruct FA as [->|[v ->]]; [reflexivity|]. rewrite get_put. apply String.eqb_neq in NS1. now rewrite NS1. }
  destruct X as (X1 & X2 & X3).
  assert (AA : get "agent" agent = Some (Str name)).
  { rewrite X3 by (cbn; intuition discriminate). rewrite AK. exact A. }
  destruct (C99_precedence c name agent kw' depth e X1) as (args & CR & G).
  - rewrite get_update by exact X1. rewrite X2 by discriminate. now rewrite AK.
  - exact F.
  - exact L.
  - rewrite X3 by (cbn; intuition discriminate). now rewrite E2.
  - now rewrite X2 by discriminate.
  - rewrite CR in H. destruct (construct c args) as [g|] eqn:CO; [|discriminate H]. cbn [bind] in H. injection H as <-.
    exists args, g. split; [exact CO|split; [reflexivity|]]. intros n N.
    rewrite G by (intros ->; apply N; cbn; auto). rewrite X2 by (intros ->; apply N; cbn; tauto).
    destruct (get n kw) eqn:GK; [reflexivity|]. rewrite X3 by (cbn in N |- *; tauto). rewrite GK. reflexivity.
Qed.

(** Either the saver restores the agent or Agent.load does, never both; in the first case the saver
    is told to load. *)
Theorem C102_restored_once e stored kw agent kw' sr :
  load_args equal at_least e stored kw = Ok (agent, kw', sr) ->
  if sr : bool then exists s, (get "saver" agent = Some (Dict s) \/ get "saver" kw' = Some (Dict s)) /\ get "load" s = Some (Bool true)
  else forall s, get "saver" agent <> Some (Dict s) /\ get "saver" kw' <> Some (Dict s).
Proof.
  unfold load_args. intros LA.
  match type of LA with (do x <- ?o; _) = _ => destruct o as [[a0 k0]|]; [|discriminate LA] end. cbn [bind] in LA.
  match type of LA with (do x <- ?o; _) = _ => destruct o as [a1|]; [|discriminate LA] end. cbn [bind] in LA.
  match type of LA with (do x <- ?o; _) = _ => destruct o as [a2|]; [|discriminate LA] end. cbn [bind] in LA. cbv zeta in LA.
  set (a3 := remove "initial_internals" (remove "internals" a2)) in *. clearbody a3.
  destruct (get "saver" a3) as [[]|] eqn:SA; destruct (get "saver" k0) as [[]|] eqn:SK; cbn [bind] in LA;
    try (injection LA as <- <- <-; cbv iota; intros zz; rewrite SA, SK; split; discriminate);
    match type of LA with context [assert_ ?x ?y] => destruct (assert_ x y); [|discriminate LA]; cbn [bind] in LA; injection LA as <- <- <- end; cbv iota;
    match goal with
    | |- context [put "saver" (Dict (put "load" (Bool true) ?i)) ?d] => exists (put "load" (Bool true) i); split; [rewrite get_put, String.eqb_refl; auto|now rewrite get_put]
    end.
Qed.
End Files.

(** The values which are not kept: an agent with reward processing is restored without. *)
Definition required_args : dict := [("states", Dict [("shape", Int 1)]); ("actions", Dict [("type", Str "float")]); ("batch_size", Int 10); ("memory", Int 100); ("max_episode_timesteps", Int 20)].
Theorem C96_same_refuted : ~ (forall c kw g, construct c kw = Ok g -> c <> DoubleDQN ->
  exists g', construct c (remove "agent" (g_spec g)) = Ok g' /\ g_model g' = g_model g).
Proof.
  intros H. destruct (construct DQN (required_args ++ [("reward_processing", Str "clipping")])) as [g|] eqn:E; [|vm_compute in E; discriminate E].
  destruct (H DQN _ g E) as (g' & E' & M); [discriminate|].
  vm_compute in E. injection E as <-. vm_compute in E'. injection E' as <-. cbn [g_model] in M. discriminate M.
Qed.
Theorem C96_trpo_refuted : ~ (forall kw g, construct TRPO kw = Ok g -> get "reward_processing" kw = None ->
  exists g', construct TRPO (remove "agent" (g_spec g)) = Ok g' /\ g_model g' = g_model g).
Proof.
  intros H. destruct (construct TRPO (required_args ++ [("linesearch_iterations", Int 3)])) as [g|] eqn:E; [|vm_compute in E; discriminate E].
  destruct (H _ g E) as (g' & E' & M); [reflexivity|].
  vm_compute in E. injection E as <-. vm_compute in E'. injection E' as <-. cbn [g_model] in M. discriminate M.
Qed.

(** ** C97: which arguments are accepted *)
Theorem C97_accepted c kw g : construct c kw = Ok g ->
  (forall n, get n kw <> None -> In n (map fst (class_signature c)))
  /\ (forall n, In (n, None) (class_signature c) -> get n kw <> None).
Proof.
  intros C. apply construct_iff in C. destruct C as (a & B & R & F). split.
  - intros n G. destruct (existsb (String.eqb n) (map fst (class_signature c))) eqn:E.
    + apply existsb_exists in E. destruct E as (m & I & M). apply String.eqb_eq in M. now subst m.
    + pose proof (get_rest (class_signature c) kw n) as X. rewrite R, E in X. cbn in X. congruence.
  - intros n I G. clear F R. revert a B. induction (class_signature c) as [|[k d] s IH]; intros a B; [destruct I|]. cbn [bind_args] in B.
    destruct I as [I|I].
    + injection I as -> ->. rewrite G in B. discriminate B.
    + destruct (match get k kw with Some v => Ok v | None => match d with Some v => Ok v | None => _ end end) as [v|]; [|discriminate B]. cbn [bind] in B.
      destruct (bind_args s kw) as [r|] eqn:Br; [|discriminate B]. exact (IH I r eq_refl).
Qed.
(** Nor is every value accepted where it should be: a summary directory whose path contains
    "labels" is taken for a deprecated option. *)
Theorem C97_path_refuted : ~ (forall c kw g directory, construct c kw = Ok g -> is_ok (construct c (put "summarizer" (Str directory) kw))).
Proof.
  intros H. destruct (construct DQN required_args) as [g|] eqn:E; [|vm_compute in E; discriminate E].
  destruct (H DQN _ g "data/labels/run1" E) as [g' X]. vm_compute in X. discriminate X.
Qed.

(** ** C98: order of arguments, defaults *)
Theorem C98_order c kw kw' : keywords kw -> Permutation kw kw' -> construct c kw = construct c kw'.
Proof. intros K P. apply construct_same. intros n. now apply get_perm. Qed.
Theorem C98_default c kw n v : get n kw = None -> In (n, Some v) (class_signature c) -> construct c (put n v kw) = construct c kw.
Proof.
  intros G I.
  assert (B : bind_args (class_signature c) (put n v kw) = bind_args (class_signature c) kw).
  { generalize (signatures_nodup c). revert I. generalize (class_signature c) as s.
    assert (O : forall s, ~ In n (map fst s) -> bind_args s (put n v kw) = bind_args s kw).
    { intros s N. apply bind_same. intros m Hm. rewrite get_put. destruct (String.eqb_spec m n) as [->|]; [contradiction|reflexivity]. }
    induction s as [|[k d] s IH]; intros I N; [destruct I|]. cbn [map fst] in N. inversion N as [|? ? N1 N2]; subst. cbn [bind_args]. rewrite get_put.
    destruct I as [E|I].
    - injection E as -> ->. rewrite String.eqb_refl, G, O by exact N1. reflexivity.
    - rewrite (IH I N2). destruct (String.eqb_spec k n) as [->|]; [|reflexivity]. destruct N1. apply in_map_iff. exists (n, Some v). auto. }
  assert (R : same (rest (class_signature c) (put n v kw)) (rest (class_signature c) kw)).
  { intros m. rewrite !get_rest, get_put. destruct (String.eqb_spec m n) as [->|]; [|reflexivity].
    replace (existsb (String.eqb n) (map fst (class_signature c))) with true; [reflexivity|]. symmetry. apply existsb_exists.
    exists n. split; [apply in_map_iff; exists (n, Some v); auto|apply String.eqb_refl]. }
  destruct (construct c kw) as [g|e] eqn:E.
  - apply construct_iff in E. destruct E as (a & Ba & Ra & F). apply construct_iff. exists a. rewrite B. repeat split; [exact Ba| |exact F].
    apply same_empty. intros m. rewrite R, Ra. reflexivity.
  - destruct (built_on_base c) eqn:BB.
    + rewrite construct_sub in E |- * by exact BB. rewrite B. destruct (bind_args (class_signature c) kw) as [a|]; [|exact E]. cbn [bind] in E |- *. cbv zeta in E |- *.
      assert (F : filter (fun m => has m (rest (class_signature c) (put n v kw))) (class_deprecated c) = filter (fun m => has m (rest (class_signature c) kw)) (class_deprecated c)).
      { apply filter_ext. intros m. apply has_get, R. }
      rewrite F. destruct (filter (fun m => has m (rest (class_signature c) kw)) (class_deprecated c)); [|exact E].
      destruct (class_body c a) as [p|]; [|exact E]. cbn [bind] in E |- *. rewrite (existsb_keys (fun m => has m (super_args a p)) _ _ R).
      destruct (existsb _ _); [exact E|]. rewrite (base_init_same _ _ _ (same_app _ _ _ R)). exact E.
    + destruct c; try discriminate BB; cbn [construct] in E |- *.
      1,2: rewrite B; destruct (bind_args _ kw) as [a|]; [|exact E]; cbn [bind] in E |- *; rewrite (same_nil_match _ _ true false R); exact E.
      unfold base_init in E |- *. cbn [class_signature] in B, R. rewrite B. destruct (bind_args tensorforce_signature kw) as [a|]; [|exact E]. cbn [bind] in E |- *.
      rewrite (base_body_same _ _ _ _ R). exact E.
Qed.
Print Assumptions C96_same_partial.
Print Assumptions C96_double_dqn_refuted.
Print Assumptions C99_precedence.
Print Assumptions C102_arguments.
Print Assumptions C102_restored_once.
Print Assumptions C96_same_refuted.
Print Assumptions C96_trpo_refuted.
Print Assumptions C97_accepted.
Print Assumptions C97_path_refuted.
Print Assumptions C98_order.
Print Assumptions C98_default.
