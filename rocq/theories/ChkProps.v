(** Claims C159 to C163: names and bounds, configuration, summaries, tracked tensors, directories of
    summaries. *)
From Coq Require Import String Ascii List Arith Bool ZArith QArith Lia.
From Verif Require Import Base ChkModel ChkSpec ChkProofs ChkProofs2 ChkProofs3.
Import ListNotations.
Open Scope string_scope.
Open Scope list_scope.
Open Scope nat_scope.

(** * C159: names and bounds of states and actions *)

(** The constructor accepts exactly distinct names and actions whose bounds are not rejected. *)
Theorem C159_accepted : forall states actions internals,
  (exists names, snd (construct states actions internals) = Ok names) <->
  NoDup (all_names states actions internals) /\ (forall n s, In (n, s) (shown actions) -> ~ rejected s).
Proof.
  intros states actions internals. rewrite all_rev, <- items_shown. unfold construct. split.
  - intros [names H]. destruct (add_values "state" states _) as [ns|] eqn:E1; [|discriminate]. apply (add_values_ok _ _ _ start_nodup) in E1. destruct E1 as [N1 ->].
    destruct (rejected_dec (items actions)) as [R|R]; [|destruct (actions_err _ R) as (a & n & s & b & p & w & _ & _ & _ & _ & _ & E); rewrite E in H; discriminate].
    destruct (actions_ok _ R) as (w & E & _). rewrite E in H. cbn [snd] in H. apply bind_inv in H. destruct H as (ns & E2 & E3).
    apply (add_values_ok _ _ _ N1) in E2. destruct E2 as [N2 ->]. apply (add_names_ok _ _ N2) in E3. destruct E3 as [N3 _]. split; assumption.
  - intros [N R]. pose proof (NoDup_right _ _ N) as N2. pose proof (NoDup_right _ _ N2) as N1.
    rewrite (proj2 (add_values_ok "state" states _ start_nodup _) (conj N1 eq_refl)). destruct (actions_ok _ R) as (w & E & _). rewrite E. cbn [snd].
    rewrite (proj2 (add_values_ok "action" actions _ N1 _) (conj N2 eq_refl)). cbn [bind]. eexists. apply (proj2 (add_names_ok internals _ N2 _) (conj N eq_refl)).
Qed.
Print Assumptions C159_accepted.
(** The names of a model are all these names. *)
Theorem C159_names : forall states actions internals names, snd (construct states actions internals) = Ok names ->
  forall n, In n names <-> In n (all_names states actions internals).
Proof.
  intros states actions internals names H. unfold construct in H. destruct (add_values "state" states _) as [ns|] eqn:E1; [|discriminate].
  apply (add_values_ok _ _ _ start_nodup) in E1. destruct E1 as [N1 ->]. destruct (actions_check _) as [w [[]|]]; [|discriminate]. cbn [snd] in H.
  apply bind_inv in H. destruct H as (ns & E2 & E3). apply (add_values_ok _ _ _ N1) in E2. destruct E2 as [N2 ->]. apply (add_names_ok _ _ N2) in E3. destruct E3 as [N3 ->].
  intro n. unfold all_names, reserved. rewrite !in_app_iff, <- !in_rev. cbn [In]. tauto.
Qed.
Print Assumptions C159_names.
(** There is one warning for each state and action of type float whose bounds are missing or, for a
    state, infinite, in order. *)
Theorem C159_warnings : forall states actions internals names, snd (construct states actions internals) = Ok names ->
  exists ws wa, fst (construct states actions internals) = ws ++ wa /\ remarks state_text (shown states) ws /\ remarks action_text (shown actions) wa.
Proof.
  intros states actions internals names H. pose proof (proj1 (C159_accepted _ _ _) (ex_intro _ names H)) as [_ R].
  rewrite <- items_shown in R. destruct (actions_ok _ R) as (w & E & RM). revert H. unfold construct. destruct (add_values "state" states _) as [ns|]; [|discriminate]. rewrite E. intros _.
  cbn [fst]. exists (flat_map state_warning (items states)), w. split; [reflexivity|]. rewrite <- !items_shown. split; [apply states_remarks|exact RM].
Qed.
Print Assumptions C159_warnings.
(** What the warnings are is determined by the values. *)
Theorem C159_warnings_determined : forall text l ws ws', remarks text l ws -> remarks text l ws' -> ws = ws'.
Proof.
  intros text l ws ws' R. revert ws'. induction R as [|n s l ws F R IH|n s l ws p P R IH]; intros ws' R'; inversion R'; subst.
  - reflexivity.
  - apply IH. assumption.
  - destruct (faultless_not _ _ F H3).
  - destruct (faultless_not _ _ H3 P).
  - rewrite (problem_one _ _ _ P H3). f_equal. apply IH. assumption.
Qed.
Print Assumptions C159_warnings_determined.
(** The first action with infinite bounds is reported, unless names of states collide. *)
Theorem C159_bounds : forall states actions internals a n s b p,
  NoDup (reserved ++ own_names "state" states) -> shown actions = a ++ (n, s) :: b -> (forall n' s', In (n', s') a -> ~ rejected s') ->
  first_problem s p -> p = InfMin \/ p = InfMax ->
  snd (construct states actions internals) = Err (action_text p n).
Proof.
  intros states actions internals a n s b p N E A P Q. rewrite <- items_shown in E. unfold construct.
  rewrite <- (app_nil_r (reserved ++ _)), <- NoDup_rev_app, app_nil_r, rev_app_distr in N.
  rewrite (proj2 (add_values_ok "state" states _ start_nodup _) (conj N eq_refl)).
  destruct (actions_err (items actions)) as (a' & n' & s' & b' & p' & w & E' & A' & Q' & P' & _ & C).
  { exists n, s. split; [rewrite E; apply in_or_app; right; left; reflexivity|]. destruct Q as [Q|Q]; subst p; [left|right]; exact P. }
  rewrite C. cbn [snd]. rewrite E in E'. clear -E' A A' P P' Q Q'.
  assert (R : rejected s) by (destruct Q as [Q|Q]; subst p; [left|right]; exact P).
  assert (R' : rejected s') by (destruct Q' as [Q'|Q']; subst p'; [left|right]; exact P').
  assert (X : (n, s) = (n', s')).
  { revert a' E' A'. induction a as [|[x y] a IH]; intros a' E' A'; destruct a' as [|[x' y'] a']; cbn in E'; injection E'.
    - intros. congruence.
    - intros. subst. destruct (A' x' y' (or_introl eq_refl) R).
    - intros. subst. destruct (A n' s' (or_introl eq_refl) R').
    - intros. apply (IH (fun n0 s0 I => A n0 s0 (or_intror I)) a'); [assumption|]. intros n0 s0 I. apply (A' n0 s0). right. exact I. }
  injection X as <- <-. rewrite (problem_one _ _ _ P P'). reflexivity.
Qed.
Print Assumptions C159_bounds.
(** Otherwise the first name which was used before is reported, unless it is that of a single action. *)
Theorem C159_collision : forall states actions internals a n b,
  (forall n s, In (n, s) (shown actions) -> ~ rejected s) -> all_names states actions internals = a ++ n :: b -> NoDup a -> In n a ->
  ~ ((exists s, actions = Single s) /\ a = reserved ++ own_names "state" states) ->
  snd (construct states actions internals) = Err ("value name " ++ n)%string.
Proof.
  intros states actions internals a n b R E N I NS. rewrite <- items_shown in R. destruct (actions_ok _ R) as (w & EA & _). unfold construct. rewrite EA.
  set (t := ["deterministic"; "parallel"; "reward"; "terminal"]).
  assert (Ht : forall x, In x t <-> In x reserved) by (intro x; unfold t, reserved; cbn [In]; tauto).
  assert (ST : add_values "state" states t = add_names (own_names "state" states) t).
  { apply add_values_eq. destruct states; [|exact Logic.I]. unfold t. cbn [In]. intuition discriminate. }
  rewrite ST. unfold all_names in E.
  (* position of the collision *)
  assert (P0 : exists a0, a = reserved ++ a0 /\ own_names "state" states ++ own_names "action" actions ++ internals = a0 ++ n :: b).
  { assert (G : forall (r l a : list string) , NoDup r -> r ++ l = a ++ n :: b -> In n a -> NoDup a -> exists a0, a = r ++ a0 /\ l = a0 ++ n :: b).
    { clear. induction r as [|x r IH]; intros l a NR E I N; [exists a; split; [reflexivity|exact E]|]. destruct a as [|y a]; [destruct I|].
      cbn [List.app] in E. injection E as -> E. 
      apply NoDup_cons_iff in NR. destruct NR as [NR1 NR2]. apply NoDup_cons_iff in N. destruct N as [N1 N2].
      assert (G2 : forall (r l a : list string), r ++ l = a ++ n :: b -> ~ In n r -> exists a0, a = r ++ a0 /\ l = a0 ++ n :: b).
      { clear. induction r as [|x r IH]; intros l a E I; [exists a; split; [reflexivity|exact E]|]. destruct a as [|y a]; cbn in E; injection E as -> E.
        - destruct I. left. reflexivity.
        - destruct (IH l a E) as (a0 & -> & ->); [intro H; apply I; right; exact H|]. exists a0. split; reflexivity. }
      destruct I as [<-|I].
      - destruct (G2 r l a E NR1) as (a0 & -> & ->). exists a0. split; reflexivity.
      - destruct (IH l a NR2 E I N2) as (a0 & -> & ->). exists a0. split; reflexivity. }
    apply G; try assumption. repeat constructor; cbn; intuition discriminate. }
  destruct P0 as (a0 & -> & E0). clear E.
  assert (NA : NoDup (rev a0 ++ t)).
  { rewrite <- (app_nil_r (reserved ++ a0)), <- NoDup_rev_app, app_nil_r, rev_app_distr in N. exact N. }
  assert (IA : In n (a0 ++ t)) by (apply in_app_or in I; apply in_or_app; rewrite Ht; tauto).
  (* the three parts *)
  assert (SP : forall (r l a : list string), r ++ l = a ++ n :: b -> (exists c, r = a ++ n :: c) \/ (exists c, a = r ++ c /\ l = c ++ n :: b)).
  { clear. induction r as [|x r IH]; intros l a E; [right; exists a; split; [reflexivity|exact E]|]. destruct a as [|y a]; cbn in E; injection E as -> E.
    - left. exists r. reflexivity.
    - destruct (IH l a E) as [[c ->]|(c & -> & ->)]; [left; exists c; reflexivity|right; exists c; split; reflexivity]. }
  destruct (SP _ _ _ E0) as [[c C]|(a1 & A1 & E1)].
  { rewrite (add_names_err _ t start_nodup _ _ _ C NA IA). reflexivity. }
  subst a0. rewrite rev_app_distr, <- app_assoc in NA.
  assert (N1 : NoDup (rev (own_names "state" states) ++ t)) by (apply NoDup_right in NA; exact NA).
  rewrite (proj2 (add_names_ok (own_names "state" states) t start_nodup _) (conj N1 eq_refl)). cbn [snd].
  assert (I1 : In n (a1 ++ rev (own_names "state" states) ++ t)).
  { apply in_app_or in IA. rewrite !in_app_iff, <- in_rev. destruct IA as [IA|IA]; [apply in_app_or in IA; tauto|tauto]. }
  destruct (SP _ _ _ E1) as [[c C]|(a2 & A2 & E2)].
  { destruct actions as [s|l].
    - exfalso. cbn [own_names] in C. destruct a1 as [|y a1]; [|destruct a1; discriminate]. apply NS. split; [exists s; reflexivity|]. rewrite app_nil_r. reflexivity.
    - cbn [add_values]. cbn [own_names] in C. rewrite (add_names_err _ _ N1 _ _ _ C NA I1). reflexivity. }
  subst a1. rewrite rev_app_distr, <- app_assoc in NA. assert (N2 : NoDup (rev (own_names "action" actions) ++ rev (own_names "state" states) ++ t)) by (apply NoDup_right in NA; exact NA).
  rewrite (proj2 (add_values_ok "action" actions _ N1 _) (conj N2 eq_refl)). cbn [bind]. apply (add_names_err _ _ N2 a2 n b E2 NA).
  rewrite <- app_assoc, !in_app_iff, <- in_rev in I1. rewrite !in_app_iff, <- !in_rev. tauto.
Qed.
Print Assumptions C159_collision.
Example C159_example :
  construct (Named [("pos/x", TSpec "float" (Some [Fin 0]) (Some [Inf false])); ("id", TSpec "int" None None)]) (Single (TSpec "float" None (Some [Fin 1]))) ["policy/lstm"] =
    (["Infinite max_value bound for state pos/x"; "No min_value specified for action"], Ok ["policy/lstm"; "action"; "id"; "pos/x"; "deterministic"; "parallel"; "reward"; "terminal"]) /\
  snd (construct (Named [("a", TSpec "int" None None)]) (Named [("b", TSpec "int" None None); ("a", TSpec "bool" None None)]) []) = Err "value name a" /\
  construct (Named [("a", TSpec "int" None None)]) (Named [("b", TSpec "float" None None); ("c", TSpec "float" (Some [Fin 0; Inf true]) None)]) [] =
    (["No min_value specified for action b"], Err "Infinite min_value bound for action c").
Proof. repeat split. Qed.
(** An infinite upper bound of an action is accepted if there is no lower bound; only a missing lower
    bound is reported. *)
Theorem C159_infinite_refuted : exists s, first_problem s NoMin /\ (exists h, hi s = Some h /\ infinite h) /\
  forall states internals, NoDup (all_names states (Single s) internals) ->
  exists names, snd (construct states (Single s) internals) = Ok names.
Proof.
  exists (TSpec "float" None (Some [Inf false])). split; [split; reflexivity|]. split; [exists [Inf false]; split; [reflexivity|exists false; left; reflexivity]|].
  intros states internals N. apply C159_accepted. split; [exact N|]. intros n s [H|[]]. injection H as <- <-. intros [[_ (l & H & _)]|[_ [(l & H & _) _]]]; discriminate.
Qed.
Print Assumptions C159_infinite_refuted.
(** The error for a single action does not show its name. *)
Theorem C159_single_refuted : forall states s internals, NoDup (reserved ++ own_names "state" states) -> ~ rejected s ->
  In "action" (own_names "state" states) -> snd (construct states (Single s) internals) = Err "value name ".
Proof.
  intros states s internals N R I. unfold construct.
  rewrite <- (app_nil_r (reserved ++ _)), <- NoDup_rev_app, app_nil_r, rev_app_distr in N.
  rewrite (proj2 (add_values_ok "state" states _ start_nodup _) (conj N eq_refl)).
  destruct (actions_ok (items (Single s))) as (w & E & _); [intros n s' [H|[]]; injection H as <- <-; exact R|]. rewrite E. cbn [snd add_values].
  replace (existsb _ _) with true; [reflexivity|]. symmetry. apply mem_iff. apply in_or_app. left. rewrite <- in_rev. exact I.
Qed.
Print Assumptions C159_single_refuted.
Example C159_single_example : snd (construct (Named [("action", TSpec "int" None None)]) (Single (TSpec "int" None None)) []) = Err "value name ".
Proof. reflexivity. Qed.

(** * C160: saver, summarizer and tracking *)

(** Exactly such configurations are accepted. *)
Theorem C160_accepted : forall saver summarizer track, keyed summarizer ->
  ((exists r, configure saver summarizer track = Ok r) <->
   proper_config saver_entries saver /\ proper_config summarizer_entries summarizer /\
   (forall p, summarizer = CPath p -> ~ contains "labels" p) /\
   (forall d v, summarizer = CDict d -> In ("summaries", v) d -> label_list v) /\
   track <> VOther).
Proof.
  intros saver summarizer track K. rewrite <- (proper_same _ _ saver saver_same), <- (proper_same _ _ summarizer summarizer_same). split.
  - intros [[[[s z] l] t] H]. apply configure_inv in H. destruct H as (D & S & Z & L & T).
    split; [apply checked_iff; exists s; exact S|]. split; [apply checked_iff; exists z; exact Z|]. split; [|split].
    + intros p ->. intro C. assert (X : deprecated (CPath p) = true) by (apply deprecated_iff; exact C). congruence.
    + intros d v -> I. apply checked_eq in Z. subst z. apply (lookup_iff _ _ _ K) in I. rewrite I in L. exact (proj1 (summaries_iff (Some v)) (ex_intro _ l L)).
    + apply tracking_iff. exists t. exact T.
  - intros (S & Z & P & L & T). apply checked_iff in S. destruct S as [s S]. pose proof Z as Z'. apply checked_iff in Z. destruct Z as [z Z]. apply tracking_iff in T. destruct T as [t T].
    assert (X : exists l, match z with None => Ok (Only []) | Some d => summaries (lookup "summaries" d) end = Ok l).
    { apply checked_eq in Z. destruct summarizer as [|p|d]; subst z; [eexists; reflexivity|eexists; reflexivity|]. apply summaries_iff.
      destruct (lookup "summaries" d) as [v|] eqn:E; [|exact Logic.I]. apply (L d v eq_refl), (lookup_iff _ _ _ K), E. }
    destruct X as [l X]. exists (s, z, l, t). apply configure_inv. split; [|tauto]. destruct (deprecated summarizer) eqn:D; [|reflexivity]. exfalso.
    apply deprecated_iff in D. destruct summarizer as [|p|d]; [exact D|exact (P p eq_refl D)|]. destruct D as [v I]. destruct Z' as [Z' _]. specialize (Z' _ _ I).
    unfold summarizer_keys in Z'. cbn [In] in Z'. intuition discriminate.
Qed.
Print Assumptions C160_accepted.
(** The result has the given values; a path is the directory. *)
Theorem C160_result : forall saver summarizer track s z l t, configure saver summarizer track = Ok (s, z, l, t) ->
  (forall c r, (c = saver /\ r = s) \/ (c = summarizer /\ r = z) ->
     (c = CNone -> r = None) /\ (forall p, c = CPath p -> r = Some [("directory", VStr p)]) /\ (forall d, c = CDict d -> r = Some d)).
Proof.
  intros saver summarizer track s z l t H. apply configure_inv in H. destruct H as (_ & S & Z & _ & _). apply checked_eq in S. apply checked_eq in Z.
  intros c r [[-> ->]|[-> ->]]; (split; [intros ->; assumption|split; intros ? ->; assumption]).
Qed.
Print Assumptions C160_result.
(** Which labels are recorded: none without summarizer; all if nothing or 'all' is given; otherwise those
    listed. *)
Theorem C160_labels : forall saver summarizer track s z l t, keyed summarizer -> configure saver summarizer track = Ok (s, z, l, t) ->
  (summarizer = CNone -> forall x, selected l x = false) /\
  (forall p x, summarizer = CPath p -> selected l x = true) /\
  (forall d, summarizer = CDict d ->
     ((forall v, ~ In ("summaries", v) d) \/ In ("summaries", VNone) d \/ In ("summaries", VStr "all") d -> forall x, selected l x = true) /\
     (forall ls x, In ("summaries", VList ls) d -> (selected l x = true <-> In (IStr x) ls))).
Proof.
  intros saver summarizer track s z l t K H. apply configure_inv in H. destruct H as (_ & _ & Z & L & _). apply checked_eq in Z. split; [|split].
  - intros -> x. subst z. injection L as <-. reflexivity.
  - intros p x ->. subst z. injection L as <-. reflexivity.
  - intros d ->. subst z. split.
    + intros [N|[I|I]] x.
      * destruct (lookup "summaries" d) as [v|] eqn:E; [destruct (N v); apply (lookup_some _ _ _ E)|]. injection L as <-. reflexivity.
      * apply (lookup_iff _ _ _ K) in I. rewrite I in L. injection L as <-. reflexivity.
      * apply (lookup_iff _ _ _ K) in I. rewrite I in L. injection L as <-. reflexivity.
    + intros ls x I. apply (lookup_iff _ _ _ K) in I. rewrite I in L. cbn [summaries] in L. destruct (forallb _ ls); [|discriminate]. injection L as <-. apply selected_only.
Qed.
Print Assumptions C160_labels.
(** Which labels are tracked: none by default, all for 'all', otherwise those listed. *)
Theorem C160_tracking : forall saver summarizer track s z l t, configure saver summarizer track = Ok (s, z, l, t) ->
  (track = VNone -> forall x, selected t x = false) /\ (track = VStr "all" -> forall x, selected t x = true) /\
  (forall ls x, track = VList ls -> (selected t x = true <-> In (IStr x) ls)).
Proof.
  intros saver summarizer track s z l t H. apply configure_inv in H. destruct H as (_ & _ & _ & _ & T). split; [|split].
  - intros -> x. injection T as <-. reflexivity.
  - intros -> x. injection T as <-. reflexivity.
  - intros ls x ->. injection T as <-. apply selected_only.
Qed.
Print Assumptions C160_tracking.
(** Graphs are recorded only if 'graph' is listed, not for 'all'. *)
Theorem C160_graph : forall saver summarizer track s z l t, keyed summarizer -> configure saver summarizer track = Ok (s, z, l, t) ->
  (graph_traced l = true <-> exists d v, summarizer = CDict d /\ In ("summaries", v) d /\ exists ls, v = VList ls /\ In (IStr "graph") ls).
Proof.
  intros saver summarizer track s z l t K H. apply configure_inv in H. destruct H as (_ & _ & Z & L & _). apply checked_eq in Z. split.
  - intro G. destruct summarizer as [|p|d]; subst z; [injection L as <-; discriminate|injection L as <-; discriminate|].
    destruct (lookup "summaries" d) as [v|] eqn:E; [|injection L as <-; discriminate]. exists d, v. split; [reflexivity|]. apply (lookup_iff _ _ _ K) in E. split; [exact E|].
    destruct v as [|q|ls|]; cbn [summaries] in L; [injection L as <-; discriminate| | |discriminate].
    + destruct (String.eqb q "all"); injection L as <-; [discriminate|]. cbn [graph_traced] in G. apply selected_only, letters_in in G. discriminate.
    + destruct (forallb _ ls); [|discriminate]. injection L as <-. exists ls. split; [reflexivity|]. cbn [graph_traced] in G. apply selected_only in G. exact G.
  - intros (d & v & -> & I & ls & -> & G). subst z. apply (lookup_iff _ _ _ K) in I. rewrite I in L. cbn [summaries] in L. destruct (forallb _ ls); [|discriminate]. injection L as <-.
    cbn [graph_traced]. apply selected_only. exact G.
Qed.
Print Assumptions C160_graph.
Example C160_example :
  configure (CPath "models") (CDict [("directory", VStr "runs"); ("summaries", VList [IStr "reward"; IStr "graph"])]) (VStr "all") =
    Ok (Some [("directory", VStr "models")], Some [("directory", VStr "runs"); ("summaries", VList [IStr "reward"; IStr "graph"])], Only [IStr "reward"; IStr "graph"], All) /\
  configure (CDict [("dir", VStr "models")]) CNone VNone = Err "not from" /\ configure (CDict [("load", VStr "x")]) CNone VNone = Err "required".
Proof. repeat split. Qed.
(** A single label given as a string is accepted, but not recorded. *)
Theorem C160_string_refuted : forall label, label <> "all" -> String.length label <> 1 ->
  (forall saver directory, proper_config saver_entries saver ->
     exists r l, configure saver (CDict [("directory", directory); ("summaries", VStr label)]) VNone = Ok (r, l, Only []) /\ selected l label = false) /\
  (forall saver summarizer, (exists r, configure saver summarizer VNone = Ok r) ->
     exists r t, configure saver summarizer (VStr label) = Ok (r, t) /\ selected t label = false).
Proof.
  intros label NA N1. assert (X : String.eqb label "all" = false) by (apply String.eqb_neq; exact NA).
  assert (Y : selected (Only (letters label)) label = false).
  { destruct (selected (Only (letters label)) label) eqn:E; [|reflexivity]. apply selected_only, letters_in in E. congruence. }
  split.
  - intros saver directory S. apply (proper_same _ _ saver saver_same), checked_iff in S. destruct S as [s S]. exists (s, Some [("directory", directory); ("summaries", VStr label)]), (Only (letters label)).
    split; [|exact Y]. apply configure_inv. split; [reflexivity|]. split; [exact S|]. split; [reflexivity|]. split; [|reflexivity]. cbn. rewrite X. reflexivity.
  - intros saver summarizer [[[[s z] l] t] H]. apply configure_inv in H. destruct H as (D & S & Z & L & _). exists (s, z, l), (Only (letters label)). split; [|exact Y].
    apply configure_inv. split; [exact D|]. split; [exact S|]. split; [exact Z|]. split; [exact L|]. cbn [tracking]. rewrite X. reflexivity.
Qed.
Print Assumptions C160_string_refuted.
Example C160_string_example : configure CNone (CDict [("directory", VStr "runs"); ("summaries", VStr "loss")]) VNone =
  Ok (None, Some [("directory", VStr "runs"); ("summaries", VStr "loss")], Only [IStr "l"; IStr "o"; IStr "s"; IStr "s"], Only []).
Proof. reflexivity. Qed.
(** 'all' in a list records no other label. *)
Theorem C160_all_refuted : exists saver summarizer track s z l t, configure saver summarizer track = Ok (s, z, l, t) /\
  summarizer = CDict [("directory", VStr "runs"); ("summaries", VList [IStr "all"])] /\ track = VList [IStr "all"] /\
  forall x, x <> "all" -> selected l x = false /\ selected t x = false.
Proof.
  eexists CNone, _, _, _, _, _, _. split; [|split; [reflexivity|split; [reflexivity|]]]; [reflexivity|].
  intros x N. cbn. apply String.eqb_neq in N. rewrite N. split; reflexivity.
Qed.
Print Assumptions C160_all_refuted.
(** A path which contains 'labels' is rejected as summarizer. *)
Theorem C160_path_refuted : forall a b saver track, configure saver (CPath (a ++ "labels" ++ b)%string) track = Err "deprecated".
Proof.
  intros a b saver track. unfold configure. replace (deprecated _) with true; [reflexivity|]. symmetry. apply deprecated_iff. exists a, b. reflexivity.
Qed.
Print Assumptions C160_path_refuted.

(** * C161: summaries *)

Section Summaries.
Variable A : Type.
(** Registering works unless a name is registered twice with the first label recorded. *)
Theorem C161_register : forall l rs, (exists st, registers l rs [] = Ok st) <->
  (forall label ns, In (label, ns) rs -> ns <> []) /\
  (forall a label k ns b label' ns' c, rs = a ++ (label, k :: ns) :: b ++ (label', k :: ns') :: c -> selected l label = false).
Proof. intros l rs. rewrite registers_ok. split; [intros (X & _ & Z); tauto|intros [X Z]; split; [exact X|]; split; [intros; reflexivity|exact Z]]. Qed.
(** A further call of a registered summary writes its values exactly if its label is recorded and its
    step is later than those of all earlier calls. *)
Theorem C161_written : forall l rs st cs c st' w, registers l rs [] = Ok st -> (0 <= s_time A c)%Z ->
  calls A l (cs ++ [c]) st = Ok (st', w) ->
  exists st0 w0, calls A l cs st = Ok (st0, w0) /\
  ((selected l (s_label _ c) = true /\ fresh cs l c -> w = w0 ++ written c) /\ (selected l (s_label _ c) = false \/ ~ fresh cs l c -> w = w0)).
Proof.
  intros l rs st cs c st' w R T0 H. rewrite calls_app in H. apply bind_inv in H. destruct H as ([st0 w0] & H0 & H). exists st0, w0. split; [exact H0|]. cbn [fst snd] in H.
  apply bind_inv in H. destruct H as ([st1 w1] & H1 & H). cbn [fst snd] in H. injection H as <- <-. cbn [calls] in H1. apply bind_inv in H1. destruct H1 as ([st2 w2] & H1 & H2).
  cbn [fst snd bind calls] in H2. injection H2 as <- <-. apply summary_inv in H1. destruct H1 as (k & ns & N & _ & H1).
  destruct H1 as [(S & -> & ->)|(S & t & ST & D)].
  - rewrite !app_nil_r. split; [intros [X _]; congruence|reflexivity].
  - assert (SK : exists t0, step_of k st = Some t0).
    { destruct (step_of k st) as [t0|] eqn:E; [exists t0; reflexivity|]. exfalso. clear -H0 E ST.
      revert st w0 H0 E. induction cs as [|d cs IH]; intros st w0 H0 E; cbn [calls] in H0; [injection H0 as -> _; congruence|].
      apply bind_inv in H0. destruct H0 as ([a b] & H1 & H0). apply bind_inv in H0. destruct H0 as ([a' b'] & H2 & H0). cbn [fst snd] in *. injection H0 as <- <-.
      apply (IH a b' H2). apply summary_inv in H1. destruct H1 as (k0 & ns & _ & _ & [(_ & -> & _)|(_ & t0 & T0 & [(_ & -> & _)|(_ & -> & _)])]); try exact E.
      rewrite step_assign, E. destruct (String.eqb k k0); reflexivity. }
    destruct SK as [t0 SK]. pose proof (registers_steps l rs [] st R ltac:(discriminate) k t0 SK) as M. subst t0.
    destruct (calls_steps A l cs st st0 w0 H0 k _ SK) as (t' & ST' & _ & OR & UP). rewrite ST in ST'. injection ST' as <-.
    assert (F : fresh cs l c <-> (t < s_time _ c)%Z).
    { unfold fresh. rewrite N. cbn [hd_error]. split.
      - intro F. destruct OR as [->|(b & I & SB & HB & ->)]; [lia|]. exact (F b I SB HB).
      - intros LT b I SB HB. specialize (UP b I SB HB). lia. }
    destruct D as [(LT & -> & ->)|(LT & -> & ->)]; rewrite ?app_nil_r.
    + split; [reflexivity|]. intros [X|X]; [congruence|tauto].
    + split; [|reflexivity]. intros [_ X]. apply F in X. lia.
Qed.
(** Calls work exactly if the counter exists and, if the label is recorded, the name is registered. *)
Theorem C161_calls : forall l rs st cs, registers l rs [] = Ok st ->
  ((exists r, calls A l cs st = Ok r) <->
   forall c, In c cs -> In (s_unit _ c) counters /\ exists k ns, s_names _ c = k :: ns /\
     (selected l (s_label _ c) = true -> exists label ns', In (label, k :: ns') rs /\ selected l label = true)).
Proof.
  intros l rs st cs R.
  assert (G : forall cs st1, (forall k, (exists t, step_of k st1 = Some t) <-> (exists label ns', In (label, k :: ns') rs /\ selected l label = true)) ->
    ((exists r, calls A l cs st1 = Ok r) <-> forall c, In c cs -> In (s_unit _ c) units /\ exists k ns, s_names _ c = k :: ns /\
     (selected l (s_label _ c) = true -> exists label ns', In (label, k :: ns') rs /\ selected l label = true))).
  { clear. induction cs as [|c cs IH]; intros st1 K; cbn [calls]; [split; [intros _ c []|intros _; eexists; reflexivity]|]. split.
    - intros [r H]. apply bind_inv in H. destruct H as ([a b] & H1 & H). apply bind_inv in H. destruct H as (r' & H2 & _). cbn [fst] in H2.
      apply summary_inv in H1. destruct H1 as (k & ns & N & U & D). intros d [<-|I].
      + split; [exact U|]. exists k, ns. split; [exact N|]. intro S. apply K. destruct D as [(X & _)|(_ & t & T & _)]; [congruence|exists t; exact T].
      + refine (proj1 (IH a _) (ex_intro _ r' H2) d I). intro k'. rewrite <- K. destruct D as [(_ & -> & _)|(_ & t & T & [(_ & -> & _)|(_ & -> & _)])]; try reflexivity.
        rewrite step_assign. destruct (String.eqb k' k) eqn:E; [|reflexivity]. destruct (step_of k' st1); split; intros [t1 X]; try discriminate; eexists; reflexivity.
    - intro H. destruct (H c (or_introl eq_refl)) as (U & k & ns & N & S).
      assert (X : exists a b, summary A l c st1 = Ok (a, b)).
      { unfold summary. rewrite N. apply mem_iff in U. rewrite U. cbn [negb]. destruct (selected l (s_label A c)); [|eexists; eexists; reflexivity].
        destruct (proj2 (K k) (S eq_refl)) as [t ->]. destruct (_ <? _)%Z; eexists; eexists; reflexivity. }
      destruct X as (a & b & X). rewrite X. cbn [bind fst snd].
      assert (KA : forall k', (exists t, step_of k' a = Some t) <-> (exists label ns', In (label, k' :: ns') rs /\ selected l label = true)).
      { intro k'. rewrite <- K. apply summary_inv in X. destruct X as (k0 & ns0 & _ & _ & D). destruct D as [(_ & -> & _)|(_ & t & T & [(_ & -> & _)|(_ & -> & _)])]; try reflexivity.
        rewrite step_assign. destruct (String.eqb k' k0) eqn:E; [|reflexivity]. destruct (step_of k' st1); split; intros [t1 X]; try discriminate; eexists; reflexivity. }
      destruct (proj2 (IH a KA) (fun d I => H d (or_intror I))) as [r' E]. rewrite E. eexists. reflexivity. }
  rewrite (G cs st).
  - split; intros H c I; specialize (H c I); rewrite units_same in *; exact H.
  - intro k. rewrite (registers_in l rs [] st R k). split; [intros [[t H]|H]; [discriminate|exact H]|tauto].
Qed.
(** If the counters are set back, for instance by restoring an earlier checkpoint, nothing is written
    until they exceed their earlier values. *)
Theorem C161_restored_refuted : forall l rs st cs b later st0 w0 st' w, registers l rs [] = Ok st -> (0 <= s_time A b)%Z ->
  calls A l (cs ++ [b]) st = Ok (st0, w0) -> selected l (s_label _ b) = true ->
  (forall c, In c later -> (0 <= s_time A c <= s_time A b)%Z /\ hd_error (s_names _ c) = hd_error (s_names _ b)) ->
  calls A l ((cs ++ [b]) ++ later) st = Ok (st', w) -> w = w0.
Proof.
  intros l rs st cs b later st0 w0 st' w R B0 H0 SB L H. revert st' w H. induction later as [|c later IH] using rev_ind; intros st' w H.
  - rewrite app_nil_r, H0 in H. injection H as _ <-. reflexivity.
  - rewrite app_assoc in H. destruct (L c) as [T HD]; [apply in_or_app; right; left; reflexivity|].
    destruct (C161_written l rs st _ c st' w R (proj1 T) H) as (st1 & w1 & E1 & _ & X).
    rewrite <- (IH (fun c I => L c (in_or_app _ _ _ (or_introl I))) st1 w1 E1). apply X. right. intro F.
    assert (I : In b ((cs ++ [b]) ++ later)) by (apply in_or_app; left; apply in_or_app; right; left; reflexivity).
    specialize (F b I SB (eq_sym HD)). lia.
Qed.
End Summaries.
Print Assumptions C161_register.
Print Assumptions C161_written.
Print Assumptions C161_calls.
Print Assumptions C161_restored_refuted.
Example C161_example : exists st, registers All [("loss", ["losses/policy-loss"]); ("distribution", ["mean"; "stddev"])] [] = Ok st /\
  let call label ns xs t := SCall nat label ns xs "timesteps" t in
  exists st', calls nat All [call "loss" ["losses/policy-loss"] [5] 0%Z; call "distribution" ["mean"; "stddev"] [1; 2] 3%Z; call "loss" ["losses/policy-loss"] [6] 0%Z; call "loss" ["losses/policy-loss"] [7] 4%Z;
    call "distribution" ["mean"; "stddev"] [8; 9] 1%Z] st =
  Ok (st', [("losses/policy-loss", 0%Z, 5); ("mean", 3%Z, 1); ("stddev", 3%Z, 2); ("losses/policy-loss", 4%Z, 7)]).
Proof. eexists. split; [reflexivity|]. eexists. reflexivity. Qed.

(** * C162: tracked tensors *)

Section Tracking.
Variable A : Type.
(** A variable has the value given last, or zero, if its label is tracked; other labels have none. *)
Theorem C162_values : forall l zero rs cs vs vs', track_registers A l zero rs [] = Ok vs -> tracks A l cs vs = Ok vs' ->
  NoDup (map fst vs') /\
  forall k x, In (k, x) vs' <->
    (exists a la b, cs = a ++ (la, k, x) :: b /\ selected l la = true /\ (forall la' x', In (la', k, x') b -> selected l la' = false)) \/
    (x = zero /\ (exists la, In (la, k) rs /\ selected l la = true) /\ (forall la x', In (la, k, x') cs -> selected l la = false)).
Proof.
  intros l zero rs cs vs vs' R T. destruct (track_registers_inv A l zero rs [] vs R ltac:(constructor)) as [N I]. destruct (tracks_inv A l cs vs vs' N T) as (K & J & _).
  split; [rewrite K; exact N|]. intros k x. rewrite J, I. split.
  - intros [H|[[[]|(Z & L)] F]]; [left; exact H|right; tauto].
  - intros [H|(Z & L & F)]; [left; exact H|right; split; [right; tauto|exact F]].
Qed.
(** With names without '/' which are distinct, all variables are shown, by the names of their modules. *)
Theorem C162_shown : forall m, tidy m -> NoDup (map fst (tracked_tensors A m)) /\
  forall k x, In (k, x) (tracked_tensors A m) <-> exists p v, variable_at m p v x /\ k = joined (requested A m :: p) v.
Proof.
  intros m T. pose proof (entries_nodup A m T "") as N. destruct (fold_set A (entries A "" m) [] ltac:(constructor)) as [X Y]. split; [exact X|].
  intros k x. unfold tracked_tensors. rewrite Y. split.
  - intros [(a & b & E & _)|[[] _]]. assert (I : In (k, x) (entries A "" m)) by (rewrite E; apply in_or_app; right; left; reflexivity).
    apply entries_in in I. destruct I as (p & v & V & ->). exists p, v. split; [exact V|]. rewrite (tidy_path A m p v x T V). reflexivity.
  - intros (p & v & V & ->). left. assert (I : In (joined (requested A m :: p) v, x) (entries A "" m)).
    { apply entries_in. exists p, v. split; [exact V|]. rewrite (tidy_path A m p v x T V). reflexivity. }
    destruct (in_split _ _ I) as (a & b & E). exists a, b. split; [exact E|]. rewrite E, map_app in N. cbn [map fst] in N. apply NoDup_remove_2 in N.
    intro H. apply N, in_or_app. right. exact H.
Qed.
(** In general each variable's name is shown once, with the value of one of the variables of this name. *)
Theorem C162_general : forall m, NoDup (map fst (tracked_tensors A m)) /\
  (forall k x, In (k, x) (tracked_tensors A m) -> exists p v, variable_at m p v x /\ k = joined (map replace (requested A m :: p)) v) /\
  (forall p v x, variable_at m p v x -> In (joined (map replace (requested A m :: p)) v) (map fst (tracked_tensors A m))).
Proof.
  intro m. destruct (fold_set A (entries A "" m) [] ltac:(constructor)) as [X Y]. split; [exact X|]. split.
  - intros k x H. apply Y in H. destruct H as [(a & b & E & _)|[[] _]]. apply (entries_in A m ""). rewrite E. apply in_or_app. right. left. reflexivity.
  - intros p v x V. assert (I : In (joined (map replace (requested A m :: p)) v, x) (entries A "" m)) by (apply entries_in; exists p, v; split; [exact V|reflexivity]).
    revert I. generalize (joined (map replace (requested A m :: p)) v). intros k I. unfold tracked_tensors.
    assert (L : exists a y b, entries A "" m = a ++ (k, y) :: b /\ ~ In k (map fst b)).
    { clear -I. induction (entries A "" m) as [|[k' y] es IH]; [destruct I|].
      destruct (in_dec string_dec k (map fst es)) as [J|J].
      - apply in_map_iff in J. destruct J as ([k2 y2] & E & J). cbn in E. subst k2.
        assert (Z : exists x, In (k, x) es) by (exists y2; exact J). clear I J.
        assert (Q : exists a y b, es = a ++ (k, y) :: b /\ ~ In k (map fst b)).
        { destruct Z as [z Z]. clear IH. induction es as [|[k3 y3] es IHs]; [destruct Z|]. destruct (in_dec string_dec k (map fst es)) as [J|J].
          - apply in_map_iff in J. destruct J as ([k4 y4] & E & J). cbn in E. subst k4. clear Z. assert (W : exists a y b, es = a ++ (k, y) :: b /\ ~ In k (map fst b)).
            { clear IHs. revert y4 J. induction es as [|[k5 y5] es IHe]; intros y4 J; [destruct J|]. destruct (in_dec string_dec k (map fst es)) as [J'|J'].
              - apply in_map_iff in J'. destruct J' as ([k6 y6] & E & J'). cbn in E. subst k6. destruct (IHe y6 J') as (a & y' & b & -> & Nb). exists ((k5, y5) :: a), y', b. split; [reflexivity|exact Nb].
              - destruct J as [J|J]; [injection J as -> ->; exists [], y4, es; split; [reflexivity|exact J']|]. destruct J'. apply (in_map fst) in J. exact J. }
            destruct W as (a & y' & b & -> & Nb). exists ((k3, y3) :: a), y', b. split; [reflexivity|exact Nb].
          - destruct Z as [Z|Z]; [injection Z as -> ->; exists [], z, es; split; [reflexivity|exact J]|]. destruct J. apply (in_map fst) in Z. exact Z. }
        destruct Q as (a & y' & b & -> & Nb). exists ((k', y) :: a), y', b. split; [reflexivity|exact Nb].
      - destruct I as [I|I]; [injection I as -> ->; exists [], x, es; split; [reflexivity|exact J]|]. destruct J. apply (in_map fst) in I. exact I. }
    destruct L as (a & y & b & E & Nb). apply (in_map fst) with (x := (k, y)). apply Y. left. exists a, b. split; [exact E|exact Nb].
Qed.
(** With plain names a module is created exactly if the names of its submodules are distinct. *)
Theorem C162_created : forall n vs subs, (forall s, In s subs -> plain (requested A s)) ->
  (created A (Module A n vs subs) = true <-> NoDup (map (requested A) subs) /\ forall s, In s subs -> created A s = true).
Proof.
  intros n vs subs P. cbn [created]. rewrite andb_true_iff, forallb_forall, subs_ok_iff.
  - split; [intros [[N _] F]; split; [exact N|exact F]|intros [N F]; split; [split; [exact N|intros ? _ []]|exact F]].
  - intros x I. apply in_map_iff in I. destruct I as (s & <- & I). exact (P s I).
Qed.
(** The distributions of the actions 'a_b' and 'a/b' have the same name: only one of them is shown.
    In the other order they are rejected. *)
Theorem C162_nested_refuted : forall x y,
  let first := Module A "a_b_distribution" [("probabilities", x)] [] in
  let second := Module A "a/b_distribution" [("probabilities", y)] [] in
  created A (Module A "policy" [] [first; second]) = true /\
  tracked_tensors A (Module A "policy" [] [first; second]) = [("policy/a_b_distribution/probabilities", y)] /\
  created A (Module A "policy" [] [second; first]) = false.
Proof. intros x y. repeat split. Qed.
End Tracking.
Print Assumptions C162_values.
Print Assumptions C162_shown.
Print Assumptions C162_general.
Print Assumptions C162_created.
Print Assumptions C162_nested_refuted.
Example C162_values_example : exists vs, track_registers nat (Only [IStr "loss"]) 0 [("loss", "policy-loss"); ("loss", "baseline-loss"); ("entropy", "entropy")] [] = Ok vs /\
  tracks nat (Only [IStr "loss"]) [("loss", "policy-loss", 4); ("entropy", "entropy", 5); ("loss", "policy-loss", 6)] vs = Ok [("policy-loss", 6); ("baseline-loss", 0)].
Proof. eexists. split; reflexivity. Qed.
Example C162_shown_example : let m := Module nat "agent" [("policy-loss", 1)] [Module nat "policy" [] [Module nat "action_distribution" [("mean", 2); ("stddev", 3)] []]] in
  tidy m /\ tracked_tensors nat m = [("agent/policy-loss", 1); ("agent/policy/action_distribution/mean", 2); ("agent/policy/action_distribution/stddev", 3)].
Proof.
  split; [|reflexivity].
  assert (N : forall l : list string, (fix nodup (l : list string) : bool := match l with [] => true | x :: q => negb (existsb (String.eqb x) q) && nodup q end) l = true -> NoDup l).
  { induction l as [|x l IH]; intro H; [constructor|]. apply andb_true_iff in H. destruct H as [H1 H2]. constructor; [|exact (IH H2)]. apply mem_not. destruct (existsb _ l); [discriminate|reflexivity]. }
  apply tidy_module; [reflexivity|apply N; reflexivity|intros k x [H|[]]; injection H as <- <-; reflexivity|apply N; reflexivity|].
  intros m1 [<-|[]]. apply tidy_module; [reflexivity|apply N; reflexivity|intros k x []|apply N; reflexivity|].
  intros m2 [<-|[]]. apply tidy_module; [reflexivity|apply N; reflexivity|intros k x [H|[H|[]]]; injection H as <- <-; reflexivity|apply N; reflexivity|intros m3 []].
Qed.

(** * C163: directories of summaries *)

(** Of the directories, one for each agent, the newest ones remain: as many as max_summaries. *)
Theorem C163_newest : forall mo m d t0 ts, mo = Some m \/ (mo = None /\ m = 7) -> 1 <= m -> ts <> [] -> later t0 ts -> (forall t f, In (t, f) d -> t <= t0) -> single_files d ->
  exists rs, agents mo ts d = (newest m (d ++ map (fun t => (t, 1)) ts), rs) /\ length rs = length ts /\ forall r, In r rs -> r = Ok tt.
Proof.
  intros mo m d t0 ts MO M NE L B S.
  assert (EQ : agents mo ts d = agents (Some m) ts d).
  { destruct MO as [->|[-> ->]]; [reflexivity|]. clear. revert d. induction ts as [|t ts IH]; intro d; cbn [agents]; [reflexivity|].
    change (initialize None t d) with (initialize (Some 7) t d). destruct (initialize (Some 7) t d) as [d' r]. rewrite IH. reflexivity. }
  rewrite EQ. destruct (agents_new m ts M d t0 L B) as (rs & E & N & R).
  - intros t f I. apply firstn_in', in_app_or in I. destruct I as [I|I]; [exact (S t f I)|]. apply in_map_iff in I. destruct I as (x & H & _). congruence.
  - exists rs. destruct ts as [|t ts]; [congruence|]. split; [exact E|]. split; assumption.
Qed.
Print Assumptions C163_newest.
Example C163_example : agents (Some 3) [5; 6; 9] [(1, 1); (2, 1); (3, 1); (4, 1)] = ([(5, 1); (6, 1); (9, 1)], [Ok tt; Ok tt; Ok tt]).
Proof. reflexivity. Qed.
(** Two agents in the same second share a directory.  Then an agent as many agents later raises an
    error, and the next one does not. *)
Theorem C163_same_refuted : forall m d t0 t ts u v, 2 <= m -> single_files d -> (forall t f, In (t, f) d -> t <= t0) -> later t0 (t :: ts ++ [u; v]) -> length ts = m - 1 ->
  exists rs, agents (Some m) (t :: t :: ts ++ [u; v]) d = (map (fun t => (t, 1)) (ts ++ [v]), rs ++ [Err "OSError"; Ok tt]) /\ length rs = 2 + length ts /\ forall r, In r rs -> r = Ok tt.
Proof.
  intros m d t0 t ts u v M S B [L1 L2] LT. cbn [agents].
  assert (S' : single_files (firstn (Datatypes.S (length d) - m) d)) by (intros x f I; apply (S x f), (firstn_in' _ _ _ I)).
  rewrite (initialize_new m t d); [|lia|exact S'|intros x f I; specialize (B x f I); lia].
  (* second agent at the same time *)
  assert (D2 : initialize (Some m) t (newest (m - 1) d ++ [(t, 1)]) = (newest (m - 2) d ++ [(t, 2)], Ok tt)).
  { set (d1 := newest (m - 1) d). assert (B1 : forall x f, In (x, f) d1 -> x < t) by (intros x f I; apply newest_in in I; specialize (B x f I); lia).
    assert (S1 : single_files d1) by (intros x f I; apply (S x f), (newest_in _ _ _ I)).
    assert (LL : length d1 <= m - 1) by (unfold d1, newest; rewrite skipn_length; lia).
    assert (AF : forall e, (forall x f, In (x, f) e -> x < t) -> add_file t (e ++ [(t, 1)]) = e ++ [(t, 2)]).
    { clear. induction e as [|[x f] e IH]; intro H; cbn [add_file List.app]; [rewrite Nat.eqb_refl; reflexivity|]. pose proof (H x f (or_introl eq_refl)).
      replace (Nat.eqb t x) with false by (symmetry; apply Nat.eqb_neq; lia). replace (Nat.ltb t x) with false by (symmetry; apply Nat.ltb_ge; lia).
      rewrite IH; [reflexivity|]. intros y g I. apply (H y g). right. exact I. }
    assert (NN : newest (m - 2) d = newest (m - 2) d1).
    { unfold d1. pose proof (newest_newest (m - 2) d []) as E. rewrite !app_nil_r in E. unfold newest. rewrite skipn_length, skipn_skipn'. f_equal. lia. }
    rewrite NN. unfold initialize. rewrite app_length. cbn [length]. destruct (Nat.ltb (m - 1) (length d1 + 1)) eqn:E.
    - apply Nat.ltb_lt in E. replace (Datatypes.S (length d1 + 1) - m) with 1 by lia. clearbody d1. clear NN. destruct d1 as [|[x f] d1]; [cbn in *; lia|]. cbn [List.app prune].
      rewrite (S1 x f (or_introl eq_refl)). rewrite AF by (intros y g I; apply (B1 y g); right; exact I). f_equal. f_equal. unfold newest. cbn [length] in *.
      replace (Datatypes.S (length d1) - (m - 2)) with 1 by lia. reflexivity.
    - apply Nat.ltb_ge in E. rewrite (AF d1 B1). f_equal. f_equal. rewrite newest_all by lia. reflexivity. }
  rewrite D2. set (d2 := newest (m - 2) d ++ [(t, 2)]).
  assert (SA : forall a b e, agents (Some m) (a ++ b) e = let (e', r) := agents (Some m) a e in let (e'', r') := agents (Some m) b e' in (e'', r ++ r')).
  { clear. induction a as [|x a IH]; intros b e; cbn [agents List.app]; [destruct (agents (Some m) b e); reflexivity|]. destruct (initialize (Some m) x e) as [e1 r1]. rewrite IH.
    destruct (agents (Some m) a e1) as [e2 r2]. destruct (agents (Some m) b e2) as [e3 r3]. reflexivity. }
  assert (L3 : later t ts /\ later t (ts ++ [u; v])).
  { split; [|exact L2]. clear -L2. revert t L2. induction ts as [|x ts IH]; intros t L; [exact Logic.I|]. destruct L as [A1 A2]. split; [exact A1|exact (IH x A2)]. }
  assert (LD : length d2 <= m - 1) by (unfold d2; rewrite app_length; unfold newest; rewrite skipn_length; cbn [length]; lia).
  assert (B2 : forall x f, In (x, f) d2 -> x <= t).
  { intros x f I. unfold d2 in I. apply in_app_or in I. destruct I as [I|[I|[]]]; [apply newest_in in I; specialize (B x f I); lia|]. injection I as <- _. lia. }
  destruct (agents_new m ts ltac:(lia) d2 t (proj1 L3) B2) as (rs & E & N & R).
  { intros x f I. unfold d2 in I. rewrite <- app_assoc in I. rewrite firstn_app in I. apply in_app_or in I. destruct I as [I|I].
    - apply firstn_in', newest_in in I. exact (S x f I).
    - exfalso. unfold d2 in I. rewrite app_length in I. cbn [length] in I. replace (length (newest (m - 2) d) + 1 + length ts - m - length (newest (m - 2) d)) with 0 in I by lia. destruct I. }
  rewrite SA, E.
  assert (F : (if ts then d2 else newest m (d2 ++ map (fun t => (t, 1)) ts)) = (t, 2) :: map (fun t => (t, 1)) ts).
  { destruct ts as [|x ts']; [cbn in LT; lia|]. unfold newest, d2. rewrite app_length, map_length, LT, app_length. cbn [length]. rewrite <- app_assoc. rewrite skipn_app.
    replace (length (newest (m - 2) d) + 1 + (m - 1) - m) with (length (newest (m - 2) d)) by lia. rewrite skipn_all, Nat.sub_diag. reflexivity. }
  rewrite F. cbn [agents].
  assert (I1 : initialize (Some m) u ((t, 2) :: map (fun t => (t, 1)) ts) = ((t, 1) :: map (fun t => (t, 1)) ts, Err "OSError")).
  { unfold initialize. cbn [length]. rewrite map_length, LT. replace (Nat.ltb (m - 1) (Datatypes.S (m - 1))) with true by (symmetry; apply Nat.ltb_lt; lia).
    replace (Datatypes.S (Datatypes.S (m - 1)) - m) with 1 by lia. reflexivity. }
  assert (I2 : initialize (Some m) v ((t, 1) :: map (fun t => (t, 1)) ts) = (map (fun t => (t, 1)) (ts ++ [v]), Ok tt)).
  { assert (LV : forall x, In x (t :: ts) -> x < v).
    { clear -L2. revert t L2. induction ts as [|y ts IH]; intros t L x I.
      - cbn [List.app later] in L. destruct I as [<-|[]]. lia.
      - destruct L as [A1 A2]. specialize (IH y A2). destruct I as [<-|I]; [specialize (IH y (or_introl eq_refl)); lia|exact (IH x I)]. }
    rewrite initialize_new; [|lia| |].
    - f_equal. rewrite map_app. f_equal. unfold newest. cbn [length]. rewrite map_length, LT. replace (Datatypes.S (m - 1) - (m - 1)) with 1 by lia. reflexivity.
    - intros x f I. apply firstn_in' in I. destruct I as [I|I]; [congruence|]. apply in_map_iff in I. destruct I as (y & I & _). congruence.
    - intros x f [I|I]; [injection I as <- _; apply LV; left; reflexivity|]. apply in_map_iff in I. destruct I as (y & I & J). injection I as <- _. apply LV. right. exact J. }
  rewrite I1, I2. exists (Ok tt :: Ok tt :: rs). split; [reflexivity|]. split; [cbn; rewrite N; reflexivity|]. intros r [<-|[<-|I]]; [reflexivity|reflexivity|exact (R r I)].
Qed.
Print Assumptions C163_same_refuted.
Example C163_same_example : agents (Some 2) [5; 5; 6; 7; 8] [] = ([(6, 1); (8, 1)], [Ok tt; Ok tt; Ok tt; Err "OSError"; Ok tt]).
Proof. reflexivity. Qed.
(** If the oldest directory to be removed is empty, no further agent can be initialized. *)
Theorem C163_empty_refuted : forall m t0 d, m <= length ((t0, 0) :: d) -> forall ts, agents (Some m) ts ((t0, 0) :: d) = ((t0, 0) :: d, map (fun _ => Err "IndexError") ts).
Proof.
  intros m t0 d M ts. induction ts as [|t ts IH]; [reflexivity|]. cbn [agents map].
  assert (E : initialize (Some m) t ((t0, 0) :: d) = ((t0, 0) :: d, Err "IndexError")).
  { unfold initialize. cbn [length] in *. replace (Nat.ltb (m - 1) (Datatypes.S (length d))) with true by (symmetry; apply Nat.ltb_lt; lia).
    replace (Datatypes.S (Datatypes.S (length d)) - m) with (Datatypes.S (Datatypes.S (length d) - m)) by lia. reflexivity. }
  rewrite E, IH. reflexivity.
Qed.
Print Assumptions C163_empty_refuted.
Example C163_empty_example : agents (Some 2) [5; 6] [(1, 0); (2, 1)] = ([(1, 0); (2, 1)], [Err "IndexError"; Err "IndexError"]).
Proof. reflexivity. Qed.
