(** Claims about module specifications: C153 (forms), C154 (values and defaults), C155 (networks
    and regularization). *)
From Coq Require Import String List ZArith Bool Lia Arith.
From Verif Require Import Base SigModel ModModel ModSpec MergeProofs ModProofs ModTermProofs.
Import ListNotations.
Open Scope string_scope.
Open Scope list_scope.
Open Scope nat_scope.

(** ** Examples *)
Definition num (z : Z) : value := PAtom (ANum z).
Definition class (k : kind) (c : string) : value := PAtom (AClass k c).
(** Optimizers: two files, one class which can be imported. *)
Definition ex : world := World
  (fun s => if String.eqb s "spec.json" then Some (Ok (PDict [("type", str "adam"); ("learning_rate", num 3)])) else
            if String.eqb s "loop.json" then Some (Ok (str "loop.json")) else None)
  (fun s => if String.eqb s "lib.Opt" then Ok (Some (class KModule "Opt")) else Ok None).
Definition optimizers : dict := [("adam", class KModule "Adam"); ("plus", class KModule "Plus"); ("tf", PAtom (AFun 0)); ("default", class KModule "Adam")].
Definition kws : dict := [("arguments_spec", PAtom (AObj 7))].
Ltac plain_tac := intros ?k Hk; cbn in Hk |- *; intuition (subst; discriminate).
Ltac nodup := repeat (constructor; [cbn; intuition discriminate|]); constructor.

(** ** C153 *)
(** A class of modules or a function stands for itself, without positional arguments and with the
    given keyword arguments and the name. *)
Theorem C153_class : forall W name ms c d di kw, constructor_value c -> default_value ms d -> plain kw ->
  results W name ms (Args c d di kw) (Ok (c, [], kw ++ [("name", str name)])).
Proof.
  intros W name ms c d di kw Hc Hd Hp. apply done. rewrite step_constructor by assumption. apply constructor_plain, Hp.
Qed.
Print Assumptions C153_class.

(** The name of a JSON file stands for its content: the entries of an object, also a keyword. *)
Theorem C153_file : forall W name ms s v d di kw, default_value ms d -> plain kw -> m_file W s = Some (Ok v) ->
  same W name ms (Args (str s) d di kw) (Args v d true kw).
Proof.
  intros W name ms s v d di kw Hd Hp F. apply same_call. rewrite step_string by assumption. unfold from_string. rewrite F. apply call_plain, Hp.
Qed.
Print Assumptions C153_file.

(** A keyword stands for its class, unless there is a file of this name. *)
Theorem C153_keyword : forall W name l s c d di kw, default_value (Some l) d -> plain kw -> m_file W s = None ->
  NoDup (map fst l) -> In (s, c) l -> same W name (Some l) (Args (str s) d di kw) (Args c d true kw).
Proof.
  intros W name l s c d di kw Hd Hp F ND Hin. apply same_call. rewrite step_string by assumption. unfold from_string. rewrite F.
  assert (R : plook s l = Some c).
  { clear - ND Hin. induction l as [|[k x] r IH]; cbn in *; [tauto|]. inversion ND as [|? ? N1 N2]; subst. destruct Hin as [X|X].
    - injection X as -> ->. rewrite String.eqb_refl. reflexivity.
    - destruct (String.eqb_spec s k) as [->|]; [destruct N1; apply in_map_iff; exists (k, c); auto|apply IH; assumption]. }
  rewrite R. apply call_plain, Hp.
Qed.
Print Assumptions C153_keyword.

(** A dictionary stands for its type, or the default, with its other entries as keyword
    arguments. *)
Theorem C153_dictionary : forall W name ms es d di kw, default_value ms d -> NoDup (map fst es) -> disjoint es kw -> ~ In "type" (map fst kw) -> plain (kw ++ others es) ->
  same W name ms (Args (PDict es) d di kw) (Args (match plook "type" es with Some t => t | None => d end) d true (kw ++ others es)).
Proof. intros. apply same_call. apply step_dict; assumption. Qed.
Print Assumptions C153_dictionary.

(** Another string is a class which can be imported. *)
Theorem C153_import : forall W name l s c d di kw k0 c0 r, default_value (Some l) d -> plain kw -> m_file W s = None -> ~ In s (map fst l) ->
  l = (k0, PAtom (AClass c0 r)) :: tl l -> m_import W s = Ok (Some c) ->
  same W name (Some l) (Args (str s) d di kw) (Args c d true kw).
Proof.
  intros W name l s c d di kw k0 c0 r Hd Hp F N Hl Hi. apply same_call. rewrite step_string by assumption. unfold from_string. rewrite F.
  rewrite (proj2 (plook_none _ _) N). unfold from_library. rewrite Hl. cbn [parent_class]. rewrite Hi. apply call_plain, Hp.
Qed.
Print Assumptions C153_import.

Lemma kws_plain : plain kws.
Proof. plain_tac. Qed.
(** All of them: a file with a dictionary with a keyword. *)
Example C153_example : results ex "optimizer" (Some optimizers) (Args (str "spec.json") none false kws)
  (Ok (class KModule "Adam", [], kws ++ [("learning_rate", num 3); ("name", str "optimizer")])).
Proof.
  apply (C153_file _ _ _ "spec.json" (PDict [("type", str "adam"); ("learning_rate", num 3)])); [exact I|apply kws_plain|reflexivity|].
  apply C153_dictionary.
  - exact I.
  - nodup.
  - intros k Hk. cbn in *. intuition (subst; discriminate).
  - cbn. intuition discriminate.
  - plain_tac.
  - cbn [plook String.eqb Ascii.eqb Bool.eqb andb].
    apply (C153_keyword ex "optimizer" optimizers "adam" (class KModule "Adam")).
    + exact I.
    + plain_tac.
    + reflexivity.
    + nodup.
    + cbn. tauto.
    + apply (C153_class ex "optimizer" (Some optimizers) (class KModule "Adam") none true (kws ++ [("learning_rate", num 3)])); [exact I|exact I|plain_tac].
Qed.
Example C153_import_example : results ex "optimizer" (Some optimizers) (Args (str "lib.Opt") none false kws) (Ok (class KModule "Opt", [], kws ++ [("name", str "optimizer")])).
Proof.
  apply (C153_import ex "optimizer" optimizers "lib.Opt" (class KModule "Opt") none false kws "adam" KModule "Adam"); try reflexivity; try exact I.
  - apply kws_plain.
  - cbn. intuition discriminate.
  - apply C153_class; [exact I|exact I|apply kws_plain].
Qed.

(** Entries which contradict the arguments given by the parent are errors. *)
Theorem C153_conflict : forall W name ms es d di kw k a x, uniq atom (PDict es) ->
  plook k kw = Some (PAtom a) -> plook k es = Some x -> (forall b, x = PAtom b -> ~ equal_atoms a b) ->
  rejected W name ms (Args (PDict es) d di kw).
Proof.
  intros W name ms es d di kw k a x Hu Ha Hx Hn.
  destruct (check_default ms d) as [[]|e] eqn:C; [|apply (done_err W name ms _ e); unfold step; cbn [a_default a_module]; rewrite C; reflexivity].
  destruct (deep_disjoint_update atom_eqb kw (PDict es)) as [m|e] eqn:E.
  - exfalso. destruct (ddu_ok atom atom_eqb (PDict es) kw m Hu E) as (A & B & _).
    destruct (A [k] (PAtom a)) as (y & Y1 & Y2); [cbn; rewrite Ha; reflexivity|]. cbn in Y2. subst y.
    destruct (B [k] x) as (z & Z1 & Z2); [cbn; rewrite Hx; reflexivity|]. assert (z = PAtom a) by congruence. subst z.
    inversion Z2; subst; [exact (Hn a eq_refl (equal_same a))|].
    destruct x as [b|?|?]; try discriminate. apply (Hn b eq_refl), atom_eqb_equal. assumption.
  - apply (done_err W name ms _ e). unfold step. cbn [a_default a_module a_kwargs]. rewrite C, E. reflexivity.
Qed.
Print Assumptions C153_conflict.
Example C153_conflict_example : rejected ex "network" (Some optimizers) (Args (PDict [("type", str "adam"); ("inputs_spec", num 1)]) none false [("inputs_spec", PAtom (AObj 3))]).
Proof.
  apply (C153_conflict ex _ _ _ none false _ "inputs_spec" (AObj 3) (num 1)); try reflexivity; [cbn; split; [nodup|tauto]|].
  intros b H. injection H as <-. intro X. inversion X.
Qed.

(** An entry called name, module, modules, default_module or disable_first_arg is an error, also
    for modules with an argument of that name. *)
Theorem C153_reserved_refuted : forall W name ms es d di kw p, NoDup (map fst es) -> disjoint es kw -> In p parameters -> In p (map fst es) ->
  rejected W name ms (Args (PDict es) d di kw).
Proof.
  intros W name ms es d di kw p ND Dj Hp Hin.
  destruct (check_default ms d) as [[]|e] eqn:C; [|apply (done_err W name ms _ e); unfold step; cbn [a_default a_module]; rewrite C; reflexivity].
  eapply (done_err W name ms). unfold step. cbn [a_default a_module a_kwargs]. rewrite C, update_disjoint by assumption. unfold call.
  assert (E : existsb (fun q => has q (drop "type" (kw ++ es))) parameters = true).
  { apply existsb_exists. exists p. split; [exact Hp|]. apply has_in, in_drop. split; [rewrite map_app, in_app_iff; tauto|]. intros ->. cbn in Hp. intuition discriminate. }
  rewrite E. reflexivity.
Qed.
Print Assumptions C153_reserved_refuted.
Example C153_reserved_example : rejected ex "optimizer" (Some optimizers) (Args (PDict [("type", str "adam"); ("name", str "my-optimizer")]) none false kws).
Proof.
  apply (C153_reserved_refuted ex _ _ _ none false kws "name"); [nodup| |cbn; tauto|cbn; tauto]. intros k Hk. cbn in *. intuition (subst; discriminate).
Qed.

(** If files do not refer to each other in cycles, the default is not the name of a file and the
    modules are classes or functions, the resolution ends. *)
Theorem C153_ends : forall W name ms (cost : string -> nat) a,
  (forall l k v, ms = Some l -> plook k l = Some v -> constructor_value v) ->
  (forall s v, m_import W s = Ok (Some v) -> constructor_value v) ->
  (forall s v, m_file W s = Some (Ok v) -> vsize cost v < cost s) ->
  (forall s, a_default a = str s -> m_file W s = None) ->
  exists r, results W name ms a r.
Proof.
  intros W name ms cost a H1 H2 H3 H4. apply (total_all W name ms cost H1 H2 H3 (vsize cost (a_module a) + tsize cost (a_kwargs a))); [|lia].
  unfold no_file. destruct (a_default a) as [[]|?|?]; try exact I. apply H4. reflexivity.
Qed.
Print Assumptions C153_ends.
Example C153_ends_example : exists r, results (World (fun s => if String.eqb s "spec.json" then Some (Ok (PDict [("type", str "adam")])) else None) (fun _ => Ok None))
  "optimizer" (Some optimizers) (Args (PDict [("type", str "spec.json"); ("optimizer", str "spec.json")]) none false kws) r.
Proof.
  apply (C153_ends _ _ _ (fun s => if String.eqb s "spec.json" then 2 else 0)).
  - intros l k v Hl H. injection Hl as <-. apply plook_in in H. cbn in H. repeat destruct H as [H|H]; try injection H as <- <-; try exact I. contradiction.
  - discriminate.
  - cbn. intros s v. destruct (String.eqb s "spec.json"); [|discriminate]. intro H. injection H as <-. cbn. lia.
  - discriminate.
Qed.
(** A file which contains its own name never does. *)
Theorem C153_cycle_refuted : forall W name ms s d di kw r, default_value ms d -> plain kw -> m_file W s = Some (Ok (str s)) ->
  ~ results W name ms (Args (str s) d di kw) r.
Proof.
  intros W name ms s d di kw r Hd Hp F [n H]. revert di H. induction n as [|n IH]; intros di H; [discriminate|]. cbn [run] in H.
  rewrite step_string in H by assumption. unfold from_string in H. rewrite F in H. rewrite call_plain in H by assumption. exact (IH true H).
Qed.
Print Assumptions C153_cycle_refuted.
Example C153_cycle_example : ~ exists r, results ex "optimizer" (Some optimizers) (Args (str "loop.json") none false kws) r.
Proof. intros [r H]. revert H. apply C153_cycle_refuted; [exact I|apply kws_plain|reflexivity]. Qed.

(** ** C154 *)
(** A number, sequence, other object or Keras model is the first argument of the default. *)
Theorem C154_value : forall W name l v d c di kw, default_is W l d c -> plain kw -> first_argument v ->
  results W name (Some l) (Args v d di kw) (Ok (c, [v], kw ++ [("name", str name)])).
Proof.
  intros W name l v d c di kw Hd Hp Hv.
  assert (N : is_none v = false) by (destruct v as [[]|?|?]; cbn in *; tauto || reflexivity).
  destruct (use_default_first W name l v d c kw Hd Hp N) as [A B]. apply results_step.
  rewrite step_value; [|eapply default_checked; exact Hd|eapply default_has; exact Hd|left; exact Hv]. rewrite A. exact B.
Qed.
Print Assumptions C154_value.
(** None is the default without first argument. *)
Theorem C154_none : forall W name l d c di kw, default_is W l d c -> plain kw ->
  results W name (Some l) (Args none d di kw) (Ok (c, [], kw ++ [("name", str name)])).
Proof.
  intros W name l d c di kw Hd Hp. destruct (use_default_none W name l d c kw Hd Hp) as [A B]. apply results_step.
  rewrite step_value; [|eapply default_checked; exact Hd|eapply default_has; exact Hd|right; reflexivity]. rewrite A. exact B.
Qed.
Print Assumptions C154_none.
(** A string which is no file, keyword or class is the first argument of the default, if it is the
    whole specification. *)
Theorem C154_string : forall W name l s d c kw k0 c0 r, default_is W l d c -> plain kw -> m_file W s = None -> ~ In s (map fst l) ->
  l = (k0, PAtom (AClass c0 r)) :: tl l -> m_import W s = Ok None ->
  results W name (Some l) (Args (str s) d false kw) (Ok (c, [str s], kw ++ [("name", str name)])).
Proof.
  intros W name l s d c kw k0 c0 r Hd Hp F N Hl Hi. destruct (use_default_first W name l (str s) d c kw Hd Hp eq_refl) as [A B]. apply results_step.
  rewrite step_string by (eapply default_checked; exact Hd). unfold from_string. rewrite F, (proj2 (plook_none _ _) N). unfold from_library.
  assert (P : parent_class (Some l) = Ok tt) by (rewrite Hl; reflexivity). rewrite P, Hi, (default_has W l d c Hd), (proj2 (has_not _ _) (plain_first _ Hp)), A. exact B.
Qed.
Print Assumptions C154_string.
Example C154_example :
  results ex "learning_rate" (Some parameter_modules) (Args (num 3) none false kws) (Ok (class KModule "Constant", [num 3], kws ++ [("name", str "learning_rate")])) /\
  results ex "policy" (Some optimizers) (Args (PSeq false [num 1; num 2]) (str "plus") false kws) (Ok (class KModule "Plus", [PSeq false [num 1; num 2]], kws ++ [("name", str "policy")])) /\
  results ex "policy" (Some optimizers) (Args (str "auto") (str "plus") false kws) (Ok (class KModule "Plus", [str "auto"], kws ++ [("name", str "policy")])) /\
  results ex "policy" (Some optimizers) (Args none (str "plus") false kws) (Ok (class KModule "Plus", [], kws ++ [("name", str "policy")])).
Proof.
  assert (D : default_is ex optimizers (str "plus") (class KModule "Plus")) by (apply DKey; [reflexivity|reflexivity|exact I]).
  split; [|split; [|split]].
  - apply C154_value; [apply DEntry; [reflexivity|exact I]|apply kws_plain|exact I].
  - apply C154_value; [exact D|apply kws_plain|exact I].
  - apply (C154_string _ _ _ _ _ _ _ "adam" KModule "Adam"); [exact D|apply kws_plain|reflexivity| |reflexivity|reflexivity]. cbn. intuition discriminate.
  - apply C154_none; [exact D|apply kws_plain].
Qed.

(** Such a string as the type of a dictionary is an error. *)
Theorem C154_unknown : forall W name l es s d di kw, default_value (Some l) d -> NoDup (map fst es) -> disjoint es kw -> ~ In "type" (map fst kw) -> plain (kw ++ others es) ->
  plook "type" es = Some (str s) -> m_file W s = None -> ~ In s (map fst l) -> m_import W s = Ok None ->
  rejected W name (Some l) (Args (PDict es) d di kw).
Proof.
  intros W name l es s d di kw Hd ND Dj Nt Hp Ht F N Hi.
  assert (K : same W name (Some l) (Args (PDict es) d di kw) (Args (str s) d true (kw ++ others es))).
  { apply same_call. rewrite step_dict by assumption. rewrite Ht. reflexivity. }
  assert (G : exists e, step W name (Some l) (Args (str s) d true (kw ++ others es)) = Done (Err e)).
  { rewrite step_string by assumption. unfold from_string. rewrite F, (proj2 (plook_none _ _) N). unfold from_library. destruct (parent_class (Some l)); [|eexists; reflexivity].
    rewrite Hi. destruct (has_default (Some l) d) as [[]|]; [|eexists; reflexivity|eexists; reflexivity]. destruct (has _ _); eexists; reflexivity. }
  destruct G as [e G]. exists e. apply K. apply done, G.
Qed.
Print Assumptions C154_unknown.
Example C154_unknown_example : rejected ex "optimizer" (Some optimizers) (Args (PDict [("type", str "unknown"); ("learning_rate", num 3)]) none false kws).
Proof.
  eapply C154_unknown; try reflexivity; try exact I.
  - nodup.
  - intros k Hk. cbn in *. intuition (subst; discriminate).
  - cbn. intuition discriminate.
  - plain_tac.
  - cbn. intuition discriminate.
Qed.
(** A number or sequence as the type is none: it is the first argument of the default. *)
Theorem C154_type_refuted : forall W name l es v d c di kw, default_is W l d c -> NoDup (map fst es) -> disjoint es kw -> ~ In "type" (map fst kw) -> plain (kw ++ others es) ->
  plook "type" es = Some v -> first_argument v ->
  results W name (Some l) (Args (PDict es) d di kw) (Ok (c, [v], (kw ++ others es) ++ [("name", str name)])).
Proof.
  intros W name l es v d c di kw Hd ND Dj Nt Hp Ht Hv. apply results_step. rewrite step_dict; try assumption; [|eapply default_checked; exact Hd].
  rewrite Ht. apply C154_value; assumption.
Qed.
Print Assumptions C154_type_refuted.
Example C154_type_example : results ex "learning_rate" (Some parameter_modules) (Args (PDict [("type", num 3)]) none false kws) (Ok (class KModule "Constant", [num 3], kws ++ [("name", str "learning_rate")])).
Proof.
  apply (C154_type_refuted ex "learning_rate" parameter_modules [("type", num 3)] (num 3) none (class KModule "Constant") false kws); try reflexivity; try exact I.
  - apply DEntry; [reflexivity|exact I].
  - nodup.
  - intros k Hk. cbn in *. intuition (subst; discriminate).
  - cbn. intuition discriminate.
  - plain_tac.
Qed.
(** Without default these values are errors, except Keras models. *)
Theorem C154_required : forall W name l v di kw, ~ In "default" (map fst l) -> (first_argument v \/ v = none) -> callable v = false ->
  rejected W name (Some l) (Args v none di kw).
Proof.
  intros W name l v di kw N Hv Hc. apply (done_err W name (Some l) _ "TensorforceError: module").
  assert (E : has_default (Some l) none = Ok false) by (cbn; rewrite (proj2 (has_not _ _) N); reflexivity).
  unfold step. cbn [a_default a_module a_kwargs a_disable]. rewrite check_none.
  destruct v as [[]|?|?]; try discriminate; try (destruct Hv as [[]|Hv]; discriminate); unfold from_object; rewrite Hc; cbn [negb orb]; rewrite E; reflexivity.
Qed.
Print Assumptions C154_required.
Example C154_required_example : rejected ex "layer" (Some [("dense", class KLayer "Dense")]) (Args (num 3) none false []) /\ rejected ex "layer" (Some [("dense", class KLayer "Dense")]) (Args none none false []).
Proof. split; apply C154_required; try reflexivity; try (cbn; intuition discriminate). Qed.
(** If the first of the modules is a function, as for objectives, another string raises
    AttributeError, also the name of a class which could be imported. *)
Theorem C154_first_refuted : forall W name l s d di kw k0 f, default_value (Some l) d -> m_file W s = None -> ~ In s (map fst l) ->
  l = (k0, PAtom (AFun f)) :: tl l -> results W name (Some l) (Args (str s) d di kw) (Err "AttributeError: mro").
Proof.
  intros W name l s d di kw k0 f Hd F N Hl. apply done. rewrite step_string by assumption. unfold from_string. rewrite F, (proj2 (plook_none _ _) N). unfold from_library.
  assert (P : parent_class (Some l) = Err "AttributeError: mro") by (rewrite Hl; reflexivity). rewrite P. reflexivity.
Qed.
Print Assumptions C154_first_refuted.
Example C154_first_example : results ex "objective" (Some [("action_value", PAtom (AFun 0)); ("plus", class KModule "Plus")]) (Args (str "lib.Opt") none false kws) (Err "AttributeError: mro").
Proof. apply (C154_first_refuted ex _ _ _ none false kws "action_value" 0); [exact I|reflexivity| |reflexivity]. cbn. intuition discriminate. Qed.

(** ** C155 *)
(** What a layer-based network calls for a specification. *)
Definition network_results W name l registered output a r : Prop := exists n, network_submodule W name l registered output n a = Some r.
(** None of the keyword arguments is one which the network passes itself. *)
Definition layer_plain (kw : dict) : Prop := plain kw /\ ~ In "is_trainable" (map fst kw) /\ ~ In "is_saved" (map fst kw).

Lemma network_first : forall W name l registered output a r e, results W name (Some l) a (Ok r) -> network_arguments registered output r = Err e ->
  network_results W name l registered output a (Err e).
Proof. intros W name l registered output a r e [n H] E. exists n. unfold network_submodule. rewrite H, E. reflexivity. Qed.
Lemma network_second : forall W name l registered output a r cls kw, results W name (Some l) a (Ok r) -> network_arguments registered output r = Ok (cls, kw) ->
  default_value (Some l) (a_default a) -> constructor_value cls -> layer_plain (drop "name" kw) ->
  network_results W name l registered output a (Ok (cls, [], drop "name" kw ++ [("name", str name)])).
Proof.
  intros W name l registered output a r cls kw [n H] E Hd Hc (P1 & P2 & P3).
  destruct (C153_class W name (Some l) cls (a_default a) false (drop "name" kw) Hc Hd P1) as [m Hm].
  exists (max n m). unfold network_submodule. rewrite (run_mono W name (Some l) n (max n m) _ _ H) by lia. rewrite E.
  assert (X : existsb (fun p => has p kw) passed = false).
  { destruct (existsb _ _) eqn:X; [|reflexivity]. apply existsb_exists in X. destruct X as (p & Hp & X). apply has_in in X.
    assert (Y : In p (map fst (drop "name" kw))) by (apply in_drop; split; [exact X|]; intros ->; cbn in Hp; intuition discriminate).
    cbn in Hp. decompose [or] Hp; subst; try contradiction; try (destruct (P1 _ Y); cbn; tauto). }
  rewrite X. apply (run_mono W name (Some l) m); [exact Hm|lia].
Qed.
Lemma plook_name : forall k name (kw : dict), k <> "name" -> plook k (kw ++ [("name", str name)]) = plook k kw.
Proof. intros k name kw N. rewrite plook_app. destruct (plook k kw); [reflexivity|]. cbn. destruct (String.eqb_spec k "name"); [contradiction|reflexivity]. Qed.
Lemma drop_name : forall name kw, plain kw -> drop "name" (kw ++ [("name", str name)]) = kw.
Proof. intros name kw H. rewrite drop_app, drop_none by (apply plain_name, H). cbn. apply app_nil_r. Qed.
Lemma put_spec : forall name kw v, plain kw -> ~ In "input_spec" (map fst kw) ->
  drop "name" (pput "input_spec" v (kw ++ [("name", str name)])) = kw ++ [("input_spec", v)].
Proof.
  intros name kw v H N. rewrite pput_new by (rewrite map_app, in_app_iff; cbn; intuition discriminate). rewrite <- app_assoc. rewrite drop_app, drop_none by (apply plain_name, H). reflexivity.
Qed.
Lemma layer_plain_spec : forall kw v, layer_plain kw -> layer_plain (kw ++ [("input_spec", v)]).
Proof.
  intros kw v (A & B & C). split; [|split].
  - apply plain_app; [exact A|]. plain_tac.
  - rewrite map_app, in_app_iff. cbn. intuition discriminate.
  - rewrite map_app, in_app_iff. cbn. intuition discriminate.
Qed.

(** In a network a layer gets the output of the layer before as its input, *)
Theorem C155_layer : forall W name l c registered output a kw, default_value (Some l) (a_default a) -> layer_plain kw ->
  results W name (Some l) a (Ok (class KLayer c, [], kw ++ [("name", str name)])) ->
  is_none output = false -> ~ In "input_spec" (map fst kw) ->
  network_results W name l registered output a (Ok (class KLayer c, [], kw ++ [("input_spec", output); ("name", str name)])).
Proof.
  intros W name l c registered output a kw Hd Hp H Ho Hi. pose proof (put_spec name kw output (proj1 Hp) Hi) as E.
  assert (G : network_results W name l registered output a (Ok (class KLayer c, [], drop "name" (pput "input_spec" output (kw ++ [("name", str name)])) ++ [("name", str name)]))); [|rewrite E, <- app_assoc in G; exact G].
  eapply network_second; [exact H| |exact Hd|exact I|rewrite put_spec; [apply layer_plain_spec, Hp|apply Hp|exact Hi]].
  cbn [network_arguments layer_kind bind]. rewrite plook_name by discriminate. rewrite (proj2 (plook_none _ _) Hi), Ho. reflexivity.
Qed.
Print Assumptions C155_layer.
(** unless the specification says what its input is, *)
Theorem C155_given : forall W name l c registered output a kw v, default_value (Some l) (a_default a) -> layer_plain kw ->
  results W name (Some l) a (Ok (class KLayer c, [], kw ++ [("name", str name)])) ->
  plook "input_spec" kw = Some v -> is_none v = false ->
  network_results W name l registered output a (Ok (class KLayer c, [], kw ++ [("name", str name)])).
Proof.
  intros W name l c registered output a kw v Hd Hp H Hv Hn. rewrite <- (drop_name name kw (proj1 Hp)) at 1.
  eapply network_second; [exact H| |exact Hd|exact I|rewrite drop_name by apply Hp; exact Hp].
  cbn [network_arguments layer_kind bind]. rewrite plook_name by discriminate. rewrite Hv. destruct v as [[]|?|?]; try reflexivity. discriminate.
Qed.
Print Assumptions C155_given.
(** and there has to be one output before it. *)
Theorem C155_several : forall W name l c registered a kw,
  results W name (Some l) a (Ok (class KLayer c, [], kw ++ [("name", str name)])) -> ~ In "input_spec" (map fst kw) ->
  network_results W name l registered none a (Err "TensorforceError: first layer").
Proof.
  intros W name l c registered a kw H Hi. eapply network_first; [exact H|]. cbn [network_arguments layer_kind bind]. rewrite plook_name by discriminate.
  rewrite (proj2 (plook_none _ _) Hi). reflexivity.
Qed.
Print Assumptions C155_several.
(** A layer with several inputs gets the registered tensors which it names: all have to be
    registered. *)
Theorem C155_tensors : forall W name l c registered output a kw ts t, default_value (Some l) (a_default a) -> layer_plain kw ->
  results W name (Some l) a (Ok (class KMulti c, [], kw ++ [("name", str name)])) -> ~ In "input_spec" (map fst kw) ->
  plook "tensors" kw = Some t -> (t = PSeq false (map str ts) \/ t = PSeq true (map str ts) \/ exists s, t = str s /\ ts = [s]) ->
  ((forall s, In s ts -> In s registered) ->
   network_results W name l registered output a (Ok (class KMulti c, [], kw ++ [("input_spec", PSeq true (map str ts)); ("name", str name)]))) /\
  ((exists s, In s ts /\ ~ In s registered) ->
   network_results W name l registered output a (Err "TensorforceError: registered tensor")).
Proof.
  intros W name l c registered output a kw ts t Hd Hp H Hi Ht Hts.
  assert (T : tensors_of t = Ok (map str ts)) by (destruct Hts as [->|[->|(s & -> & ->)]]; reflexivity).
  assert (K : known registered (map str ts) = true <-> forall s, In s ts -> In s registered).
  { unfold known. rewrite forallb_forall. split.
    - intros K s Hs. specialize (K (str s) (in_map str _ _ Hs)). cbn in K. apply existsb_exists in K. destruct K as (x & Hx & E). apply String.eqb_eq in E. congruence.
    - intros K v Hv. apply in_map_iff in Hv. destruct Hv as (s & <- & Hs). apply existsb_exists. exists s. split; [apply K, Hs|apply String.eqb_refl]. }
  split.
  - intro A. pose proof (put_spec name kw (PSeq true (map str ts)) (proj1 Hp) Hi) as E.
  assert (G : network_results W name l registered output a (Ok (class KMulti c, [], drop "name" (pput "input_spec" (PSeq true (map str ts)) (kw ++ [("name", str name)])) ++ [("name", str name)]))); [|rewrite E, <- app_assoc in G; exact G].
    eapply network_second; [exact H| |exact Hd|exact I|rewrite put_spec; [apply layer_plain_spec, Hp|apply Hp|exact Hi]].
    cbn [network_arguments layer_kind bind]. rewrite !plook_name by discriminate. rewrite (proj2 (plook_none _ _) Hi), Ht, T. cbn [bind]. rewrite (proj2 K A). reflexivity.
  - intros (s & Hs & Hn). eapply network_first; [exact H|]. cbn [network_arguments layer_kind bind]. rewrite !plook_name by discriminate. rewrite (proj2 (plook_none _ _) Hi), Ht, T. cbn [bind].
    destruct (known registered (map str ts)) eqn:E; [|reflexivity]. destruct Hn. apply (proj1 K eq_refl), Hs.
Qed.
Print Assumptions C155_tensors.

Definition layers : dict := [("dense", class KLayer "Dense"); ("retrieve", class KMulti "Retrieve"); ("default", class KLayer "Function")].
Example C155_example : network_results ex "dense0" layers ["state"] (PAtom (AObj 1)) (Args (PDict [("type", str "dense"); ("size", num 8)]) none false [])
    (Ok (class KLayer "Dense", [], [("size", num 8); ("input_spec", PAtom (AObj 1)); ("name", str "dense0")])) /\
  network_results ex "retrieve0" layers ["state"] none (Args (PDict [("type", str "retrieve"); ("tensors", str "state")]) none false [])
    (Ok (class KMulti "Retrieve", [], [("tensors", str "state"); ("input_spec", PSeq true [str "state"]); ("name", str "retrieve0")])) /\
  network_results ex "retrieve0" layers ["state"] none (Args (PDict [("type", str "retrieve"); ("tensors", PSeq false [str "state"; str "other"])]) none false []) (Err "TensorforceError: registered tensor") /\
  network_results ex "dense0" layers ["state"] none (Args (PDict [("type", str "dense"); ("size", num 8)]) none false []) (Err "TensorforceError: first layer") /\
  network_results ex "dense0" layers ["state"] none (Args (PDict [("type", str "dense"); ("input_spec", num 8)]) none false []) (Ok (class KLayer "Dense", [], [("input_spec", num 8); ("name", str "dense0")])).
Proof.
  split; [|split; [|split; [|split]]].
  - apply (C155_layer ex "dense0" layers "Dense" ["state"] (PAtom (AObj 1)) _ [("size", num 8)]); try reflexivity; try exact I.
    + split; [plain_tac|cbn; intuition discriminate].
    + exists 4. reflexivity.
    + cbn. intuition discriminate.
  - apply (C155_tensors ex "retrieve0" layers "Retrieve" ["state"] none (Args (PDict [("type", str "retrieve"); ("tensors", str "state")]) none false []) [("tensors", str "state")] ["state"] (str "state")); try reflexivity; try exact I.
    + split; [plain_tac|cbn; intuition discriminate].
    + exists 4. reflexivity.
    + cbn. intuition discriminate.
    + right. right. exists "state". split; reflexivity.
    + intros s [<-|[]]. left. reflexivity.
  - apply (C155_tensors ex "retrieve0" layers "Retrieve" ["state"] none _ [("tensors", PSeq false [str "state"; str "other"])] ["state"; "other"] (PSeq false (map str ["state"; "other"]))); try reflexivity; try exact I.
    + split; [plain_tac|cbn; intuition discriminate].
    + exists 4. reflexivity.
    + cbn. intuition discriminate.
    + left. reflexivity.
    + exists "other". cbn. intuition discriminate.
  - apply (C155_several ex "dense0" layers "Dense" ["state"] _ [("size", num 8)]); [exists 4; reflexivity|cbn; intuition discriminate].
  - apply (C155_given ex "dense0" layers "Dense" ["state"] none _ [("input_spec", num 8)] (num 8)); try reflexivity; try exact I.
    + split; [plain_tac|cbn; intuition discriminate].
    + exists 4. reflexivity.
Qed.

(** It has to name them, and cannot be given its input. *)
Theorem C155_named : forall W name l c registered output a kw, plain kw ->
  results W name (Some l) a (Ok (class KMulti c, [], kw ++ [("name", str name)])) ->
  ~ In "tensors" (map fst kw) \/ (exists v, plook "input_spec" kw = Some v /\ is_none v = false) ->
  exists e, network_results W name l registered output a (Err e).
Proof.
  intros W name l c registered output a kw Hp H Hc.
  assert (E : exists e, network_arguments registered output (class KMulti c, [], kw ++ [("name", str name)]) = Err e).
  { cbn [network_arguments layer_kind bind class]. rewrite !plook_name by discriminate. destruct (plook "input_spec" kw) as [v|] eqn:Ev.
    - destruct (is_none v) eqn:N.
      + destruct v as [[]|?|?]; try discriminate. destruct Hc as [Hc|(v & X & Y)]; [|injection X as <-; discriminate]. rewrite (proj2 (plook_none _ _) Hc). eexists. reflexivity.
      + destruct v as [[]|?|?]; try discriminate; eexists; reflexivity.
    - destruct Hc as [Hc|(v & X & Y)]; [|discriminate]. rewrite (proj2 (plook_none _ _) Hc). eexists. reflexivity. }
  destruct E as [e E]. exists e. eapply network_first; [exact H|exact E].
Qed.
Print Assumptions C155_named.
Example C155_named_example : (exists e, network_results ex "retrieve0" layers ["state"] none (Args (PDict [("type", str "retrieve")]) none false []) (Err e)) /\
  (exists e, network_results ex "retrieve0" layers ["state"] none (Args (PDict [("type", str "retrieve"); ("tensors", str "state"); ("input_spec", num 1)]) none false []) (Err e)).
Proof.
  split.
  - apply (C155_named ex "retrieve0" layers "Retrieve" ["state"] none _ []); [plain_tac|exists 4; reflexivity|left; cbn; tauto].
  - apply (C155_named ex "retrieve0" layers "Retrieve" ["state"] none _ [("tensors", str "state"); ("input_spec", num 1)]); [plain_tac|exists 4; reflexivity|].
    right. exists (num 1). split; reflexivity.
Qed.
(** A specification which leads to a first argument is always an error in a network. *)
Theorem C155_value_refuted : forall W name l registered output a c v vs kw, results W name (Some l) a (Ok (c, v :: vs, kw ++ [("name", str name)])) ->
  network_results W name l registered output a (Err "AssertionError").
Proof.
  intros W name l registered output a c v vs kw H. eapply network_first; [exact H|]. cbn [network_arguments]. destruct kw; reflexivity.
Qed.
Print Assumptions C155_value_refuted.
(** A number as regularization of another module is a constant parameter, None is no parameter, *)
Theorem C155_l2 : forall W registered output zero v,
  (first_argument v -> exists n, regularization W false registered output zero v n
    = Some (Ok (Some (class KModule "Constant", [v], [("dtype", str "float"); ("min_value", zero); ("name", str "l2_regularization")])))) /\
  (v = none -> forall network n, regularization W network registered output zero v n = Some (Ok None)).
Proof.
  intros W registered output zero v. split; [|intros -> network n; reflexivity]. intro Hv.
  destruct (C154_value W "l2_regularization" parameter_modules v none (class KModule "Constant") false [("dtype", str "float"); ("min_value", zero)]) as [n H];
    [apply DEntry; [reflexivity|exact I]|plain_tac|exact Hv|].
  exists n. unfold regularization. destruct (is_none v) eqn:N; [destruct v as [[]|?|?]; try discriminate; destruct Hv|]. unfold l2_arguments. rewrite H. reflexivity.
Qed.
Print Assumptions C155_l2.
(** but of a layered or automatic network it is an error, whatever the number is. *)
Theorem C155_l2_refuted : forall W registered output zero v, first_argument v ->
  exists n, regularization W true registered output zero v n = Some (Err "AssertionError").
Proof.
  intros W registered output zero v Hv.
  destruct (C155_value_refuted W "l2_regularization" parameter_modules registered output (l2_arguments zero v) (class KModule "Constant") v [] [("dtype", str "float"); ("min_value", zero)]) as [n H].
  { apply C154_value; [apply DEntry; [reflexivity|exact I]|plain_tac|exact Hv]. }
  exists n. unfold regularization. destruct (is_none v) eqn:N; [destruct v as [[]|?|?]; try discriminate; destruct Hv|]. rewrite H. reflexivity.
Qed.
Print Assumptions C155_l2_refuted.
Example C155_l2_example : regularization ex true ["state"] (PAtom (AObj 1)) (num 0) (num 1) 5 = Some (Err "AssertionError") /\
  (exists n, regularization ex true ["state"] (PAtom (AObj 1)) (num 0) (num 1) n = Some (Err "AssertionError")) /\
  (exists n, regularization ex false ["state"] (PAtom (AObj 1)) (num 0) (num 1) n = Some (Ok (Some (class KModule "Constant", [num 1], [("dtype", str "float"); ("min_value", num 0); ("name", str "l2_regularization")])))) /\
  first_argument (num 1).
Proof. split; [reflexivity|]. split; [apply C155_l2_refuted; exact I|]. split; [apply C155_l2; exact I|exact I]. Qed.
(** A dictionary with a type works in both, if its type is a class, *)
Theorem C155_l2_dictionary : forall W network registered output zero t c es, m_file W t = None -> plook t parameter_modules = Some (class KModule c) ->
  NoDup (map fst es) -> disjoint es [("type", none); ("dtype", none); ("min_value", none)] -> layer_plain es ->
  exists n, regularization W network registered output zero (PDict (("type", str t) :: es)) n
    = Some (Ok (Some (class KModule c, [], [("dtype", str "float"); ("min_value", zero)] ++ es ++ [("name", str "l2_regularization")]))).
Proof.
  intros W network registered output zero t c es F Ht ND Dj Hp. set (kw0 := [("dtype", str "float"); ("min_value", zero)]).
  assert (O : others (("type", str t) :: es) = es).
  { change (drop "type" (("type", str t) :: es) = es). transitivity (drop "type" es); [reflexivity|]. apply drop_none. intro X. apply (Dj _ X). left. reflexivity. }
  assert (P0 : plain kw0) by plain_tac.
  assert (R : results W "l2_regularization" (Some parameter_modules) (l2_arguments zero (PDict (("type", str t) :: es))) (Ok (class KModule c, [], (kw0 ++ es) ++ [("name", str "l2_regularization")]))).
  { apply C153_dictionary.
    - exact I.
    - cbn. constructor; [|exact ND]. intro X. apply (Dj _ X). left. reflexivity.
    - intros k [X|X]; [cbn in X; subst k; cbn; intuition discriminate|]. intro Y. apply (Dj k X). cbn in *. tauto.
    - cbn. intuition discriminate.
    - rewrite O. apply plain_app; [exact P0|apply Hp].
    - rewrite O. cbn [plook String.eqb Ascii.eqb Bool.eqb andb].
      apply results_step. rewrite step_string by exact I. unfold from_string. rewrite F, Ht. rewrite call_plain by (apply plain_app; [exact P0|apply Hp]).
      apply C153_class; [exact I|exact I|apply plain_app; [exact P0|apply Hp]]. }
  destruct network.
  - destruct (network_second W "l2_regularization" parameter_modules registered output _ _ (class KModule c) ((kw0 ++ es) ++ [("name", str "l2_regularization")]) R) as [n H]; try reflexivity; try exact I.
    + rewrite drop_name by (apply plain_app; [exact P0|apply Hp]). destruct Hp as (A & B & C). split; [apply plain_app; assumption|]. rewrite !map_app, !in_app_iff. cbn. intuition discriminate.
    + rewrite drop_name in H by (apply plain_app; [exact P0|apply Hp]). exists n. unfold regularization. cbn [is_none]. rewrite H, <- app_assoc. reflexivity.
  - destruct R as [n H]. exists n. unfold regularization. cbn [is_none]. rewrite H, <- app_assoc. reflexivity.
Qed.
Print Assumptions C155_l2_dictionary.
Example C155_l2_dictionary_example : exists n, regularization ex true ["state"] (PAtom (AObj 1)) (num 0) (PDict [("type", str "constant"); ("value", num 1)]) n
    = Some (Ok (Some (class KModule "Constant", [], [("dtype", str "float"); ("min_value", num 0); ("value", num 1); ("name", str "l2_regularization")]))).
Proof.
  apply (C155_l2_dictionary ex true ["state"] (PAtom (AObj 1)) (num 0) "constant" "Constant" [("value", num 1)]); try reflexivity.
  - nodup.
  - intros k Hk. cbn in *. intuition (subst; discriminate).
  - split; [plain_tac|cbn; intuition discriminate].
Qed.
(** but in a network not one of the decays which are partial objects. *)
Theorem C155_l2_decay_refuted : forall W registered output zero t f es, m_file W t = None -> plook t parameter_modules = Some (PAtom (AFun f)) ->
  NoDup (map fst es) -> disjoint es [("type", none); ("dtype", none); ("min_value", none)] -> plain es ->
  exists n, regularization W true registered output zero (PDict (("type", str t) :: es)) n = Some (Err "TypeError: issubclass").
Proof.
  intros W registered output zero t f es F Ht ND Dj Hp. set (kw0 := [("dtype", str "float"); ("min_value", zero)]).
  assert (O : others (("type", str t) :: es) = es).
  { change (drop "type" (("type", str t) :: es) = es). transitivity (drop "type" es); [reflexivity|]. apply drop_none. intro X. apply (Dj _ X). left. reflexivity. }
  assert (P0 : plain kw0) by plain_tac.
  assert (R : results W "l2_regularization" (Some parameter_modules) (l2_arguments zero (PDict (("type", str t) :: es))) (Ok (PAtom (AFun f), [], (kw0 ++ es) ++ [("name", str "l2_regularization")]))).
  { apply C153_dictionary.
    - exact I.
    - cbn. constructor; [|exact ND]. intro X. apply (Dj _ X). left. reflexivity.
    - intros k [X|X]; [cbn in X; subst k; cbn; intuition discriminate|]. intro Y. apply (Dj k X). cbn in *. tauto.
    - cbn. intuition discriminate.
    - rewrite O. apply plain_app; [exact P0|apply Hp].
    - rewrite O. cbn [plook String.eqb Ascii.eqb Bool.eqb andb].
      apply results_step. rewrite step_string by exact I. unfold from_string. rewrite F, Ht. rewrite call_plain by (apply plain_app; [exact P0|apply Hp]).
      apply C153_class; [exact I|exact I|apply plain_app; [exact P0|apply Hp]]. }
  destruct (network_first W "l2_regularization" parameter_modules registered output _ _ "TypeError: issubclass" R) as [n H]; [reflexivity|].
  exists n. unfold regularization. cbn [is_none]. rewrite H. reflexivity.
Qed.
Print Assumptions C155_l2_decay_refuted.
Example C155_l2_decay_example : exists n, regularization ex true ["state"] (PAtom (AObj 1)) (num 0) (PDict [("type", str "polynomial"); ("power", num 2)]) n = Some (Err "TypeError: issubclass").
Proof.
  apply (C155_l2_decay_refuted ex ["state"] (PAtom (AObj 1)) (num 0) "polynomial" 0 [("power", num 2)]); try reflexivity.
  - nodup.
  - intros k Hk. cbn in *. intuition (subst; discriminate).
  - plain_tac.
Qed.
