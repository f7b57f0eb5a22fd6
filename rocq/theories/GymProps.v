(** OpenAIGym: names and bounds of tensors, states, actions, ends of episodes and levels. *)

From Coq Require Import String Ascii List ZArith Reals Bool Lia Lra Permutation.
From Verif Require Import Base ParModel ParProofs GymModel GymEnvModel GymSpec GymProofs GymFitProofs GymStateProofs GymEnvProofs.
Import ListNotations.
Open Scope string_scope.

(** * C128: every value of a space agrees with the declared specification *)

Theorem C128_declared : forall allow s v sp, clean s = true -> member s v -> specs_from allow None None s = Ok sp ->
  exists t, named R s v = Some t /\ fits_all sp t /\ declared sp = tensor_names t.
Proof.
  intros allow s v sp C M E. destruct (member_named s v M) as [t N]. exists t. split; [exact N |].
  assert (F : fits_all sp t).
  { eapply all_fits; eauto. pose proof (clean_nodup R s C v t N) as U. destruct t; exact U. }
  split; [exact F |]. destruct sp as [l | d], t as [sh data | ts]; cbn in *; try contradiction; [reflexivity |].
  rewrite (fits_names _ _ F). reflexivity.
Qed.

Definition C128_space : space :=
  Dct [("pos", Box [2%nat] [Fin 0; NInf] [Fin 1; Fin 5]); ("kind", MultiDiscrete [2%nat] [2; 3]%Z);
       ("both", Tup [Discrete 4; Dct [("on", MultiBinary [1%nat])]])].
Example C128_declared_case : clean C128_space = true /\
  member C128_space (GDict R [("pos", GArr R [2%nat] [1; -7]%R); ("kind", GArr R [2%nat] [1; 2]%R);
                              ("both", GTup R [GArr R [] [3%R]; GDict R [("on", GArr R [1%nat] [1%R])]])]) /\
  exists sp, specs_from true None None C128_space = Ok sp /\
    declared sp = Some ["pos"; "kind_gymmdc0_2"; "kind_gymmdc1_2"; "both_gymtpl0"; "both_gymtpl1_on"].
Proof.
  split; [reflexivity |]. split.
  - cbn. repeat split; try discriminate; auto.
    + destruct i as [| [| [|]]]; cbn in *; try discriminate; injection H as <-; cbn; try exact I; lra.
    + destruct i as [| [| [|]]]; cbn in *; try discriminate; injection H as <-; cbn; try exact I; lra.
    + repeat constructor; [exists 1%Z | exists 2%Z]; (split; [reflexivity | lia]).
    + exists 3%R. split; [reflexivity |]. exists 3%Z. split; [reflexivity | lia].
  - cbn [specs_from C128_space dict_specs simple_specs]. unfold box_min, box_max. cbn [forallb ext_eqb].
    replace (Reqb 1 1) with true by (symmetry; apply Reqb_true; reflexivity).
    replace (Reqb 5 1) with false by (symmetry; apply not_true_is_false; rewrite Reqb_true; lra).
    rewrite !andb_false_r. cbn. eexists. split; reflexivity.
Qed.

(** Names with an underscore can clash: one of the two tensors is lost. *)
Theorem C128_clash_refuted : exists s v sp t, member s v /\ specs_from true None None s = Ok sp /\ named R s v = Some t /\
  exists d l, sp = SDict d /\ t = TDict R l /\ (length d < length l)%nat.
Proof.
  exists (Dct [("a_b", Discrete 2); ("a", Dct [("b", Discrete 3)])]),
         (GDict R [("a_b", GArr R [] [1%R]); ("a", GDict R [("b", GArr R [] [2%R])])]).
  eexists. eexists. split; [| split; [reflexivity |]; split; [reflexivity |]; eexists; eexists; split; [reflexivity |]; split; [reflexivity |]; cbn; lia].
  cbn. repeat split; [exists 1%R | exists 2%R]; (split; [reflexivity |]); [exists 1%Z | exists 2%Z]; (split; [reflexivity | lia]).
Qed.

(** * C129: actions are rebuilt *)

Theorem C129_actions : forall V (finite : V -> bool) s v t n, rebuildable s = true -> named V s v = Some t -> finite_value V finite v = true ->
  (depth s <= n)%nat -> unflatten V finite n t = Ok v.
Proof. intros V finite s v t n H N F D. exact (proj2 (rebuild V finite s H v t N) F n D). Qed.

Example C129_actions_case :
  let s := Dct [("move", Dct [("x", Discrete 3); ("y", MultiDiscrete [2%nat; 1%nat] [2; 3]%Z)]); ("pair", Tup [Discrete 2; Box [1%nat] [Fin 0] [Fin 1]])] in
  let v := GDict Z [("move", GDict Z [("x", GArr Z [] [2%Z]); ("y", GArr Z [2%nat; 1%nat] [1; 2]%Z)]); ("pair", GTup Z [GArr Z [] [1%Z]; GArr Z [1%nat] [7%Z]])] in
  rebuildable s = true /\ depth s = 4%nat /\ exists t, named Z s v = Some t /\ tensor_names t = Some ["move_x"; "move_y_gymmdc0_2_1"; "move_y_gymmdc1_2_1"; "pair_gymtpl0"; "pair_gymtpl1"]
  /\ unflatten Z (fun _ => true) 4 t = Ok v.
Proof. cbn zeta. split; [reflexivity |]. split; [reflexivity |]. eexists. split; [reflexivity |]. split; reflexivity. Qed.

(** Arrays of eleven or more different numbers of values are never rebuilt: 'gymmdc1' also begins 'gymmdc10'. *)
Theorem C129_many_refuted : forall V (finite : V -> bool) shape nvec v t n, (11 <= length nvec)%nat -> uniform nvec = false ->
  named V (MultiDiscrete shape nvec) v = Some t -> exists e, unflatten V finite n t = Err e.
Proof.
  intros V finite shape nvec v t n L U N. destruct v as [sh data | |]; try discriminate. cbn [named] in N.
  destruct (list_eq_dec Nat.eq_dec shape sh); [| discriminate]. destruct (_ && _ && _) eqn:C; [| discriminate]. rewrite U in N. apply some_inj in N. subst t.
  rewrite !andb_true_iff in C. destruct C as [[C _] _]. apply Nat.eqb_eq in C. apply many_fails. lia.
Qed.

Example C129_many_case : exists t, named Z (MultiDiscrete [11%nat] [2; 3; 2; 2; 2; 2; 2; 2; 2; 2; 2]%Z) (GArr Z [11%nat] [0; 1; 0; 1; 0; 1; 0; 1; 0; 1; 0]%Z) = Some t /\
  unflatten Z (fun _ => true) 5 t = Err "AssertionError".
Proof. eexists. split; [reflexivity | reflexivity]. Qed.

(** Names with an underscore, and tuples of anything but single tensors, are not rebuilt. *)
Theorem C129_underscore_refuted : exists s v t w, named Z s v = Some t /\ s = Dct [("a_b", Discrete 2)] /\ unflatten Z (fun _ => true) 9 t = Ok w /\ w <> v.
Proof.
  exists (Dct [("a_b", Discrete 2)]), (GDict Z [("a_b", GArr Z [] [1%Z])]). eexists. eexists.
  split; [reflexivity |]. split; [reflexivity |]. split; [reflexivity |]. discriminate.
Qed.
Theorem C129_tuple_refuted :
  (exists v t, named Z (Tup [MultiDiscrete [2%nat] [2; 3]%Z]) v = Some t /\ unflatten Z (fun _ => true) 9 t = Err "AssertionError") /\
  (exists v t w, named Z (Tup [Dct [("x", Discrete 2)]]) v = Some t /\ unflatten Z (fun _ => true) 9 t = Ok w /\ w <> v) /\
  (exists v t w, named Z (Tup [Tup [Discrete 2]]) v = Some t /\ unflatten Z (fun _ => true) 9 t = Ok w /\ w <> v).
Proof.
  split; [| split].
  - exists (GTup Z [GArr Z [2%nat] [1; 2]%Z]). eexists. split; reflexivity.
  - exists (GTup Z [GDict Z [("x", GArr Z [] [1%Z])]]). eexists. eexists. split; [reflexivity |]. split; [reflexivity |]. discriminate.
  - exists (GTup Z [GTup Z [GArr Z [] [1%Z]]]). eexists. eexists. split; [reflexivity |]. split; [reflexivity |]. discriminate.
Qed.

(** * C130: states *)

Theorem C130_states : forall V (finite : V -> bool) allow mn mx s sp actions v t,
  flat s = true -> specs_from allow mn mx s = Ok sp -> named V s v = Some t -> finite_value V finite v = true ->
  match t with TArr _ _ _ => True | TDict _ l => NoDup (map fst l) end ->
  exists t', flatten_state V finite sp actions v = Ok t' /\
    match t, t' with TArr _ _ _, _ => t' = t | TDict _ l, TDict _ l' => Permutation l' l | _, _ => False end /\
    ((forall l, v = GDict V l -> forall k, In k (mask_names actions) -> ~ In k (map fst l)) -> t' = t).
Proof. exact states_flat. Qed.

Example C130_states_case :
  let s := Dct [("obs", Discrete 3); ("action_mask", MultiBinary [2%nat])] in
  let v := GDict Z [("obs", GArr Z [] [2%Z]); ("action_mask", GArr Z [2%nat] [1; 0]%Z)] in
  exists sp, specs_from true None None s = Ok sp /\ flat s = true /\
    flatten_state Z (fun _ => true) sp (SLeaf (mkLeaf "int" [] (Some 2%Z) Free Free)) v =
    Ok (TDict Z [("action_mask", TArr Z [2%nat] [1; 0]%Z); ("obs", TArr Z [] [2%Z])]).
Proof. eexists. split; [reflexivity |]. split; reflexivity. Qed.
Example C130_masks_case :
  let s := Dct [("obs", Discrete 3); ("move", Discrete 4); ("move_mask", MultiBinary [2%nat])] in
  let v := GDict Z [("obs", GArr Z [] [2%Z]); ("move", GArr Z [] [1%Z]); ("move_mask", GArr Z [2%nat] [1; 0]%Z)] in
  exists sp, specs_from true None None s = Ok sp /\ flat s = true /\
    flatten_state Z (fun _ => true) sp (SDict [("move", mkLeaf "int" [] (Some 2%Z) Free Free)]) v =
    Ok (TDict Z [("move_mask", TArr Z [2%nat] [1; 0]%Z); ("obs", TArr Z [] [2%Z]); ("move", TArr Z [] [1%Z])]).
Proof. eexists. split; [reflexivity |]. split; reflexivity. Qed.

(** A state of a handled space is within the declared specification. *)
Theorem C130_declared : forall (finite : R -> bool) allow s sp actions v,
  flat s = true -> clean s = true -> specs_from allow None None s = Ok sp -> member s v -> finite_value R finite v = true ->
  (forall l, v = GDict R l -> forall k, In k (mask_names actions) -> ~ In k (map fst l)) ->
  exists t, flatten_state R finite sp actions v = Ok t /\ fits_all sp t.
Proof.
  intros finite allow s sp actions v Hf C E M F K. destruct (C128_declared allow s v sp C M E) as (t & N & Fi & _).
  destruct (states_flat R finite allow None None s sp actions v t Hf E N F) as (t' & E' & _ & Q).
  - exact (clean_nodup R s C v t N).
  - exists t'. rewrite (Q K) in *. auto.
Qed.

(** A number that is infinite or no number is an error. *)
Theorem C130_infinite : forall V (finite : V -> bool) sp actions shape data, forallb finite data = false ->
  flatten_state V finite sp actions (GArr V shape data) = Err "TensorforceError: State contains inf or nan.".
Proof. intros V finite sp actions shape data H. cbn [flatten_state flatten]. unfold flatten_array, all_finite. rewrite H. reflexivity. Qed.
Example C130_infinite_case : forallb (fun x : Z => Z.eqb x 0) [0; 1]%Z = false.
Proof. reflexivity. Qed.

(** A state that is an array of different numbers of values is not split, though its specification is. *)
Theorem C130_multi_refuted : forall V (finite : V -> bool) allow mn mx shape nvec sp actions data, uniform nvec = false ->
  specs_from allow mn mx (MultiDiscrete shape nvec) = Ok sp -> forallb finite data = true ->
  flatten_state V finite sp actions (GArr V shape data) = Ok (TArr V shape data) /\ declared sp = Some (map (fun i => "gymmdc" ++ str i ++ "_" ++ join (map str shape)) (seq 0 (length nvec))).
Proof.
  intros V finite allow mn mx shape nvec sp actions data U E F. cbn [specs_from simple_specs] in E. destruct nvec as [| k nvec]; [discriminate |].
  rewrite uniform_all, U in E. apply ok_inj in E. subst sp. cbn [flatten_state flatten]. unfold flatten_array, all_finite. rewrite F. cbn [negb].
  rewrite !mdc_unnamed by reflexivity. split; [reflexivity |].
  unfold declared. rewrite mdc_specs_fresh by apply mdc_names_nodup. cbn [List.app]. f_equal. rewrite map_map. cbn [fst].
  remember (k :: nvec) as l eqn:Hl. clear. generalize 0%nat. induction l as [| z l IH]; intro n; [reflexivity |]. cbn [length seq combine map fst]. f_equal. apply IH.
Qed.
Example C130_multi_case : uniform [2; 3]%Z = false /\ exists sp, specs_from true None None (MultiDiscrete [2%nat] [2; 3]%Z) = Ok sp.
Proof. split; [reflexivity |]. eexists. reflexivity. Qed.

(** States of nested tuples and dictionaries always fail, whatever the specification. *)
Theorem C130_nested_refuted : forall V (finite : V -> bool) sp actions,
  (forall vs v, In v vs -> nested V v = true -> exists e, flatten_state V finite sp actions (GTup V vs) = Err e) /\
  (forall vs kv, In kv vs -> nested V (snd kv) = true -> (forall k, In k (mask_names actions) -> ~ In k (map fst vs)) ->
     exists e, flatten_state V finite sp actions (GDict V vs) = Err e).
Proof.
  intros V finite sp actions. split.
  - intros vs v I N. cbn [flatten_state flatten]. destruct (tuple_nested V finite sp vs 0 [] v I N) as [e ->]. cbn. eauto.
  - intros vs kv I N K. cbn [flatten_state]. rewrite pop_none by exact K. destruct (dict_nested V finite sp vs [] kv I N) as [e ->]. cbn. eauto.
Qed.
Example C130_nested_case : exists s v sp, member s v /\ specs_from true None None s = Ok sp /\
  flatten_state R (fun _ => true) sp (SLeaf (mkLeaf "int" [] (Some 2%Z) Free Free)) v = Err "AssertionError".
Proof.
  exists (Tup [Tup [Discrete 2]]), (GTup R [GTup R [GArr R [] [1%R]]]). eexists. split; [| split; reflexivity].
  cbn. repeat split. exists 1%R. split; [reflexivity |]. exists 1%Z. split; [reflexivity | lia].
Qed.

(** * C131: bounds *)

(** For bounds below a million in size, or infinite, the actions declared are those of the space. *)
Theorem C131_actions : forall shape low high l data, specs_from false None None (Box shape low high) = Ok (SLeaf l) ->
  Forall small_low low -> Forall small_high high -> length low = size shape -> length high = size shape ->
  (fits l (TArr R shape data) <-> member (Box shape low high) (GArr R shape data)).
Proof.
  intros shape low high l data E S1 S2 L1 L2. cbn [specs_from simple_specs] in E.
  destruct (box_min false None low) as [mn |] eqn:E1; [| discriminate]. cbn [bind] in E.
  destruct (box_max false None high) as [mx |] eqn:E2; [| discriminate]. cbn [bind] in E. injection E as <-.
  cbn [fits member l_shape l_type l_min l_max]. change (String.eqb "float" "int") with false. change (String.eqb "float" "bool") with false. cbv iota. split.
  - intros (_ & L & _ & H). repeat split; auto.
    + eapply action_lower; [exact E1 | exact S1 | | apply H; assumption]. rewrite L1, <- L. apply nth_error_Some. congruence.
    + eapply action_upper; [exact E2 | exact S2 | | apply H; assumption]. rewrite L2, <- L. apply nth_error_Some. congruence.
  - intros (_ & L & _ & _ & H). repeat split; auto.
    + eapply box_lower; [exact E1 | | apply H; assumption]. rewrite L1, <- L. apply nth_error_Some. congruence.
    + eapply box_upper; [exact E2 | | apply H; assumption]. rewrite L2, <- L. apply nth_error_Some. congruence.
Qed.
Example C131_actions_case : exists l, specs_from false None None (Box [2%nat] [NInf; NInf] [Fin 1; Fin 2]) = Ok (SLeaf l) /\
  Forall small_low [NInf; NInf] /\ Forall small_high [Fin 1; Fin 2] /\ l_min l = Free /\ l_max l = Each [Fin 1; Fin 2].
Proof.
  cbn [specs_from simple_specs]. unfold box_min, box_max. cbn [forallb ext_eqb above below].
  replace (Reqb 1 1) with true by (symmetry; apply Reqb_true; reflexivity).
  replace (Reqb 2 1) with false by (symmetry; apply not_true_is_false; rewrite Reqb_true; lra).
  replace (Rltb 1 1000000) with true by (symmetry; apply Rltb_true; lra). replace (Rltb 2 1000000) with true by (symmetry; apply Rltb_true; lra).
  cbn. eexists. split; [reflexivity |]. repeat split; repeat constructor; cbn; lra.
Qed.

(** A finite bound of a million or more is forgotten: actions outside the space are declared. *)
Theorem C131_million_refuted : forall a, (a <= -1000000)%R -> exists l, specs_from false None None (Box [1%nat] [Fin a] [PInf]) = Ok (SLeaf l) /\
  fits l (TArr R [1%nat] [(a - 1)%R]) /\ ~ member (Box [1%nat] [Fin a] [PInf]) (GArr R [1%nat] [(a - 1)%R]).
Proof.
  intros a H. cbn [specs_from simple_specs]. unfold box_min, box_max. cbn [forallb ext_eqb above below].
  replace (Reqb a a) with true by (symmetry; apply Reqb_true; reflexivity).
  replace (Rltb (-1000000) a) with false by (symmetry; apply not_true_is_false; rewrite Rltb_true; lra). cbn [andb bind].
  eexists. split; [reflexivity |]. split.
  - cbn. repeat split. all: destruct i as [| [|]]; cbn in *; try discriminate; exact I.
  - cbn. intros (_ & _ & _ & _ & B). destruct (B 0%nat (a - 1)%R eq_refl) as [B1 _]. cbn in B1. lra.
Qed.
Example C131_million_case : (-2000000 <= -1000000)%R.
Proof. lra. Qed.

(** Unbounded actions are accepted only if all entries are unbounded. *)
Theorem C131_mixed_refuted : (exists sp, specs_from false None None (Box [2%nat] [NInf; NInf] [PInf; PInf]) = Ok sp) /\
  specs_from false None None (Box [2%nat] [NInf; Fin 0] [PInf; PInf]) = Err "TensorforceError: Invalid infinite box bounds".
Proof. split; [eexists; reflexivity | reflexivity]. Qed.

(** Clipped states are within the declared bounds; numbers within them are kept. *)
Theorem C131_clipped : forall shape low high m M l flag, make_states (Box shape low high) (Some m) (Some M) None = Ok (SLeaf l, flag, None) ->
  forall data, (forall i, (i < length data)%nat -> ext_le (lower (l_min l) i) (upper (l_max l) i)) ->
  exists data', process (SLeaf l) flag None (TArr ext shape data) = Ok (TArr ext shape data') /\ length data' = length data /\
    forall i y, nth_error data' i = Some y -> exists x, nth_error data i = Some x /\
      ext_le (lower (l_min l) i) y /\ ext_le y (upper (l_max l) i) /\ (ext_le (lower (l_min l) i) x -> ext_le x (upper (l_max l) i) -> y = x).
Proof.
  intros shape low high m M l flag E data B. unfold make_states in E. cbn [specs_from simple_specs] in E.
  destruct (box_min false (Some m) low) as [mn |]; [| discriminate]. cbn [bind] in E.
  destruct (box_max false (Some M) high) as [mx |]; [| discriminate]. cbn [bind] in E. injection E as <- <-.
  cbn [process l_type l_min l_max bind] in *. eexists. split; [reflexivity |]. split; [apply clip_length |].
  intros i y H. cbn [l_min l_max] in H. assert (L : (i < length data)%nat) by (rewrite <- (clip_length mn mx data 0); apply nth_error_Some; congruence).
  apply clip_nth in H. destruct H as (x & Hx & H1 & H2 & H3). rewrite Nat.add_0_l in *. exists x. auto.
Qed.
Example C131_clipped_case : exists l flag, make_states (Box [2%nat] [NInf; NInf] [PInf; PInf]) (Some (-3)%R) (Some 3%R) None = Ok (SLeaf l, flag, None) /\
  ext_le (lower (l_min l) 1) (upper (l_max l) 1) /\
  process (SLeaf l) flag None (TArr ext [2%nat] [Fin 5; Fin 1]) = Ok (TArr ext [2%nat] [Fin 3; Fin 1]).
Proof.
  eexists. eexists. split; [reflexivity |]. split; [cbn; lra |]. cbn.
  replace (Rltb 5 (-3)) with false by (symmetry; apply not_true_is_false; rewrite Rltb_true; lra).
  replace (Rltb 1 (-3)) with false by (symmetry; apply not_true_is_false; rewrite Rltb_true; lra).
  cbn. replace (Rltb 3 5) with true by (symmetry; apply Rltb_true; lra).
  replace (Rltb 3 1) with false by (symmetry; apply not_true_is_false; rewrite Rltb_true; lra). reflexivity.
Qed.

(** Declared with min_value and max_value: the bounds of the space below a million in size, and else min_value and max_value. *)
Theorem C131_replaced : forall shape low high m M l flag, make_states (Box shape low high) (Some m) (Some M) None = Ok (SLeaf l, flag, None) ->
  (forall i x, nth_error low i = Some (Fin x) -> lower (l_min l) i = if Rltb (-1000000) x then Fin x else Fin m) /\
  (forall i, nth_error low i = Some NInf -> lower (l_min l) i = Fin m) /\
  (forall i x, nth_error high i = Some (Fin x) -> upper (l_max l) i = if Rltb x 1000000 then Fin x else Fin M) /\
  (forall i, nth_error high i = Some PInf -> upper (l_max l) i = Fin M).
Proof.
  intros shape low high m M l flag E. unfold make_states in E. cbn [specs_from simple_specs] in E.
  destruct (box_min false (Some m) low) as [mn |] eqn:E1; [| discriminate]. cbn [bind] in E.
  destruct (box_max false (Some M) high) as [mx |] eqn:E2; [| discriminate]. cbn [bind] in E. injection E as <- <-. cbn [l_min l_max].
  assert (L : forall i y, nth_error low i = Some y -> lower mn i = if above y then y else Fin m).
  { intros i y H. unfold box_min in E1. destruct low as [| x low']; [discriminate |]. remember (x :: low') as low eqn:El.
    destruct (forallb (fun y => ext_eqb y x) low) eqn:A; [| destruct (forallb above low) eqn:B].
    - rewrite forallb_forall in A. apply nth_error_In in H. apply A in H. apply ext_eqb_eq in H. subst y.
      injection E1 as <-. destruct (above x); reflexivity.
    - injection E1 as <-. cbn [lower]. rewrite forallb_forall in B. rewrite (B y (nth_error_In _ _ H)). apply nth_error_nth. exact H.
    - injection E1 as <-. cbn [lower]. apply nth_error_nth. rewrite nth_error_map, H. reflexivity. }
  assert (U : forall i y, nth_error high i = Some y -> upper mx i = if below y then y else Fin M).
  { intros i y H. unfold box_max in E2. destruct high as [| x high']; [discriminate |]. remember (x :: high') as high eqn:El.
    destruct (forallb (fun y => ext_eqb y x) high) eqn:A; [| destruct (forallb below high) eqn:B].
    - rewrite forallb_forall in A. apply nth_error_In in H. apply A in H. apply ext_eqb_eq in H. subst y.
      injection E2 as <-. destruct (below x); reflexivity.
    - injection E2 as <-. cbn [upper]. rewrite forallb_forall in B. rewrite (B y (nth_error_In _ _ H)). apply nth_error_nth. exact H.
    - injection E2 as <-. cbn [upper]. apply nth_error_nth. rewrite nth_error_map, H. reflexivity. }
  repeat split; intros; [rewrite (L _ _ H) | rewrite (L _ _ H) | rewrite (U _ _ H) | rewrite (U _ _ H)]; reflexivity.
Qed.
Example C131_replaced_case : exists l flag, make_states (Box [2%nat] [NInf; Fin 0] [PInf; PInf]) (Some (-3)%R) (Some 3%R) None = Ok (SLeaf l, flag, None).
Proof.
  unfold make_states. cbn [specs_from simple_specs]. unfold box_min, box_max. cbn [forallb ext_eqb above below andb]. eexists. eexists. reflexivity.
Qed.

(** Without min_value and max_value, states may be unbounded in some entries only (actions may not, see C131_mixed_refuted). *)
Theorem C131_states : forall shape low high, low <> [] -> high <> [] ->
  exists l, make_states (Box shape low high) None None None = Ok (SLeaf l, false, None) /\ l_shape l = shape.
Proof.
  intros shape low high H1 H2. destruct low as [| x low]; [congruence |]. destruct high as [| y high]; [congruence |].
  unfold make_states. cbn [specs_from simple_specs]. unfold box_min, box_max.
  destruct (forallb (fun z => ext_eqb z x) (x :: low)), (forallb (fun z => ext_eqb z y) (y :: high)); cbn [bind]; eexists; split; reflexivity.
Qed.
Example C131_states_case : [NInf; Fin 0] <> [] /\ [PInf; PInf] <> [].
Proof. split; discriminate. Qed.

(** min_value above the bound of the space makes the declared bounds contradict each other: no number is within. *)
Theorem C131_contradiction_refuted : exists shape low high m M l flag, (m <= M)%R /\ make_states (Box shape low high) (Some m) (Some M) None = Ok (SLeaf l, flag, None) /\
  forall data, length data = size shape -> ~ fits l (TArr R shape data).
Proof.
  exists [1%nat], [NInf], [Fin (-5)], 0%R, 1%R. eexists. eexists. split; [lra |]. split.
  - unfold make_states. cbn [specs_from simple_specs]. unfold box_min, box_max. cbn [forallb ext_eqb above below].
    replace (Reqb (-5) (-5)) with true by (symmetry; apply Reqb_true; reflexivity).
    replace (Rltb (-5) 1000000) with true by (symmetry; apply Rltb_true; lra). reflexivity.
  - intros data L (_ & _ & _ & H). destruct data as [| x data]; [discriminate |]. destruct (H 0%nat x eq_refl) as [H1 H2]. cbn in H1, H2. lra.
Qed.

(** min_value and max_value make every other space of states unusable. *)
Theorem C131_other_refuted : forall n m M sp flag x, make_states (Discrete n) (Some m) (Some M) None = Ok (sp, flag, None) ->
  process sp flag None x = Err "KeyError: min_value".
Proof. intros n m M sp flag x E. cbn in E. injection E as <- <-. destruct x; reflexivity. Qed.
Example C131_other_case : exists sp flag, make_states (Discrete 4) (Some 0%R) (Some 1%R) None = Ok (sp, flag, None).
Proof. eexists. eexists. reflexivity. Qed.

(** * C132: dropped entries of states *)

Theorem C132_drop : forall s mn mx ix sp flag dropped x shape data sp0 flag0 n l0,
  make_states s mn mx None = Ok (sp0, flag0, None) -> sp0 = SLeaf l0 -> l_shape l0 = [n] ->
  NoDup ix -> Forall (fun z => (0 <= z < Z.of_nat n)%Z) ix -> length data = n ->
  make_states s mn mx (Some ix) = Ok (sp, flag, dropped) -> process sp0 flag0 None x = Ok (TArr ext shape data) ->
  exists l, sp = SLeaf l /\ process sp flag dropped x = Ok (TArr ext (l_shape l) (keep ix 0 data)) /\ size (l_shape l) = length (keep ix 0 data).
Proof.
  intros s mn mx ix sp flag dropped x shape data sp0 flag0 n l0 E0 -> Hs N B L E P. unfold make_states in *.
  destruct (match mn with Some _ => match mx with Some _ => specs_from false mn mx s | None => _ end | None => _ end) as [spec |]; [| discriminate].
  cbn [bind] in *. injection E0 as -> <-. rewrite Hs in E. injection E as <- <- <-.
  exists (mkLeaf (l_type l0) [(n - length ix)%nat] (l_num l0) (l_min l0) (l_max l0)). split; [reflexivity |].
  assert (K : length (keep ix 0 data) = (n - length ix)%nat).
  { pose proof (keep_length _ ix data N) as K. rewrite L in K. specialize (K B). lia. }
  assert (D : drop (sorted ix) data = keep ix 0 data) by (apply drop_sorted; [exact N | rewrite L; exact B]).
  split; [| cbn; rewrite K, Nat.add_0_r; reflexivity].
  cbn [l_shape]. unfold process in *. cbn [l_type l_min l_max] in *.
  destruct mn; [destruct x; [destruct (String.eqb (l_type l0) "float"); [| discriminate] | discriminate] |]; cbn [bind] in *; apply ok_inj in P.
  - injection P as -> P. rewrite P, D, K. reflexivity.
  - subst x. rewrite D, K. reflexivity.
Qed.
Example C132_drop_case : NoDup [2; 0]%Z /\ Forall (fun z => (0 <= z < 3)%Z) [2; 0]%Z /\
  (exists sp flag dropped, make_states (Box [3%nat] [NInf; NInf; NInf] [PInf; PInf; PInf]) None None (Some [2; 0]%Z) = Ok (sp, flag, dropped) /\
    process sp flag dropped (TArr ext [3%nat] [Fin 5; Fin 6; Fin 7]) = Ok (TArr ext [1%nat] [Fin 6])).
Proof.
  split; [repeat constructor; cbn; intuition discriminate |]. split; [repeat constructor; lia |].
  eexists. eexists. eexists. split; reflexivity.
Qed.

(** A negative index repeats the entries instead of removing one; bounds of single entries are not removed. *)
Theorem C132_negative_refuted : forall (l : list Z), l <> [] -> drop [(-1)%Z] l = (removelast l ++ l)%list.
Proof.
  intros l N. unfold drop, drop_one, slice_pos. cbn [List.rev fold_left List.app Z.ltb Z.compare]. change (-1 + 1)%Z with 0%Z. cbn [Z.ltb Z.compare].
  rewrite Nat.min_0_r. cbn [skipn]. f_equal. rewrite removelast_firstn_len. f_equal. lia.
Qed.
Example C132_negative_case : drop [(-1)%Z] [5; 6]%Z = [5; 5; 6]%Z.
Proof. reflexivity. Qed.
Theorem C132_bounds_refuted : exists l flag dropped, make_states (Box [2%nat] [Fin 0; Fin 1] [Fin 2; Fin 3]) None None (Some [0]%Z) = Ok (SLeaf l, flag, dropped) /\
  l_shape l = [1%nat] /\ l_min l = Each [Fin 0; Fin 1] /\ l_max l = Each [Fin 2; Fin 3].
Proof.
  unfold make_states. cbn [specs_from simple_specs]. unfold box_min, box_max. cbn [forallb ext_eqb above below map].
  replace (Reqb 0 0) with true by (symmetry; apply Reqb_true; reflexivity). replace (Reqb 2 2) with true by (symmetry; apply Reqb_true; reflexivity).
  replace (Reqb 1 0) with false by (symmetry; apply not_true_is_false; rewrite Reqb_true; lra). replace (Reqb 3 2) with false by (symmetry; apply not_true_is_false; rewrite Reqb_true; lra).
  replace (Rltb (-1000000) 0) with true by (symmetry; apply Rltb_true; lra). replace (Rltb (-1000000) 1) with true by (symmetry; apply Rltb_true; lra).
  replace (Rltb 2 1000000) with true by (symmetry; apply Rltb_true; lra). replace (Rltb 3 1000000) with true by (symmetry; apply Rltb_true; lra).
  cbn. eexists. eexists. eexists. split; [reflexivity |]. auto.
Qed.

(** * C133: ends of episodes *)

Theorem C133_episode : forall limit tr rewards last, match limit with Some n => (length rewards < n)%nat | None => True end ->
  codes limit tr 0 (map (fun r => (r, false)) rewards ++ [(last, true)])%list =
  Ok (map (fun r => (0%nat, r)) rewards ++
      [if match limit with Some n => Nat.eqb (S (length rewards)) n | None => false end then (2%nat, last) else (1%nat, (last + tr)%R)])%list.
Proof.
  intros limit tr rewards last H. rewrite codes_before by exact H. cbn [codes Nat.add]. unfold finish_step. destruct limit as [n |].
  - destruct (Nat.eqb_spec (S (length rewards)) n) as [E | N]; cbn [assert_ bind]; [reflexivity |].
    replace (Nat.ltb (S (length rewards)) n) with true by (symmetry; apply Nat.ltb_lt; lia). reflexivity.
  - reflexivity.
Qed.
Example C133_episode_case : codes (Some 3%nat) 5 0 [(1%R, false); (2%R, false); (3%R, true)] = Ok [(0%nat, 1%R); (0%nat, 2%R); (2%nat, 3%R)] /\
  codes (Some 4%nat) 5 0 [(1%R, false); (2%R, false); (3%R, true)] = Ok [(0%nat, 1%R); (0%nat, 2%R); (1%nat, (3 + 5)%R)].
Proof. split; reflexivity. Qed.

(** An environment that does not end at the limit fails there. *)
Theorem C133_overrun : forall n tr rewards, length rewards = S n -> codes (Some (S n)) tr 0 (map (fun r => (r, false)) rewards) = Err "AssertionError".
Proof.
  intros n tr rewards L. destruct (exists_last (l := rewards)) as (rs & last & ->); [intro Q; subst; discriminate |].
  rewrite app_length in L. cbn in L. rewrite map_app, codes_before by lia. cbn [map codes Nat.add]. unfold finish_step.
  replace (S (length rs)) with (S n) by lia. rewrite Nat.eqb_refl. reflexivity.
Qed.
Example C133_overrun_case : codes (Some 2%nat) 0 0 [(1%R, false); (1%R, false)] = Err "AssertionError".
Proof. reflexivity. Qed.

(** A failure in the step at the limit is reported as the limit, without the terminal reward: the results of step do not tell. *)
Theorem C133_limit_refuted : forall n tr reward, (tr <> 0)%R ->
  finish_step (Some (S n)) tr n reward true = Ok (S n, 2%nat, reward) /\ finish_step None tr n reward true = Ok (S n, 1%nat, (reward + tr)%R) /\
  (reward + tr)%R <> reward.
Proof. intros n tr reward H. unfold finish_step. rewrite Nat.eqb_refl. repeat split. lra. Qed.
Example C133_limit_case : (-1 <> 0)%R.
Proof. lra. Qed.

(** * C134: levels *)

Theorem C134_registry : forall reg level m threshold reg' level' limit,
  (forall k e, dget reg k = Some e -> en_steps e <> Some 0%nat) ->
  create_level reg level m threshold = Ok (reg', level', limit) ->
  (exists e, dget reg' level' = Some e /\ en_steps e = limit /\ (forall t, threshold = Some t -> en_threshold e = Some t)) /\
  (reg' = reg \/ exists e, dget reg level' = None /\ reg' = (reg ++ [(level', e)])%list) /\
  (forall k e, dget reg k = Some e -> dget reg' k = Some e) /\
  match m with Limit n => limit = Some n | Unlimited => limit = None | Unset => True end.
Proof.
  intros reg level m threshold reg' level' limit Z0 E. unfold create_level in E.
  destruct (find_level reg level m) as [[lv m'] |] eqn:F; [| discriminate]. cbn [bind] in E.
  assert (Hm : m' = m \/ (m = Unset /\ m' = Unlimited)).
  { unfold find_level in F. destruct (dget reg level); [injection F as _ <-; auto |].
    destruct (search _ _ _ _ _); [| discriminate]. cbn [bind] in F. injection F as _ <-. destruct m; auto. }
  destruct (dget reg lv) as [e |] eqn:D; [| discriminate].
  set (lr := match m' with Unset => (en_steps e, false) | Unlimited => (None, differs m' (en_steps e) && match en_steps e with None => false | Some _ => true end)
                  | Limit n => (Some n, differs m' (en_steps e)) end) in E.
  set (tr := match threshold with None => (en_threshold e, false) | Some t => (Some t, match en_threshold e with Some t' => negb (Z.eqb t t') | None => true end) end) in E.
  assert (L1 : snd lr = false -> en_steps e = fst lr).
  { unfold lr. destruct m' as [| | n]; cbn [fst snd]; auto.
    - unfold differs. destruct (en_steps e) as [[| k] |] eqn:Q; cbn; try discriminate; auto. intros _. exfalso. apply (Z0 lv e D). exact Q.
    - unfold differs. destruct (en_steps e) as [k |]; [| discriminate]. destruct (Nat.eqb_spec n k) as [-> |]; [auto | discriminate]. }
  assert (T1 : forall t, threshold = Some t -> fst tr = Some t /\ (snd tr = false -> en_threshold e = Some t)).
  { intros t ->. unfold tr. cbn [fst snd]. split; [reflexivity |]. destruct (en_threshold e) as [t' |]; [| discriminate].
    destruct (Z.eqb_spec t t') as [-> |]; [auto | discriminate]. }
  assert (M1 : match m with Limit n => fst lr = Some n | Unlimited => fst lr = None | Unset => True end).
  { unfold lr. destruct Hm as [-> | [-> ->]]; [destruct m; cbn; auto | exact I]. }
  destruct lr as [lim r1]. destruct tr as [thr r2]. cbn [fst snd] in *.
  destruct (r1 || r2) eqn:R.
  - injection E as <- <- <-. pose proof (new_name_new reg lv) as NN.
    split; [| split; [| split]].
    + exists (mkEntry lim thr). rewrite dget_app, NN. cbn [dget]. rewrite String.eqb_refl. split; [reflexivity |]. split; [reflexivity |].
      intros t Ht. apply (T1 t Ht).
    + right. eauto.
    + intros k e' H. rewrite dget_app, H. reflexivity.
    + exact M1.
  - apply orb_false_iff in R. destruct R as [-> ->]. injection E as <- <- <-.
    split; [| split; [| split]]; auto.
    exists e. split; [exact D |]. split; [apply L1; reflexivity |]. intros t Ht. apply (T1 t Ht). reflexivity.
Qed.
Definition C134_reg : list (string * entry) := [("Cart-v0", mkEntry (Some 200%nat) (Some 195%Z)); ("Cart-v1", mkEntry (Some 500%nat) (Some 475%Z))].
Example C134_registry_case : (forall k e, dget C134_reg k = Some e -> en_steps e <> Some 0%nat) /\
  create_level C134_reg "Cart" (Limit 500) None = Ok (C134_reg, "Cart-v1", Some 500%nat) /\
  create_level C134_reg "Cart-v1" (Limit 7) (Some 3%Z) = Ok ((C134_reg ++ [("Cart-v2", mkEntry (Some 7%nat) (Some 3%Z))])%list, "Cart-v2", Some 7%nat).
Proof.
  split; [| split; reflexivity]. intros k e H. cbn in H.
  destruct (String.eqb k "Cart-v0"); [injection H as <-; discriminate |]. destruct (String.eqb k "Cart-v1"); [injection H as <-; discriminate | discriminate].
Qed.

(** A level with a version is changed by registering it with a later version. *)
Theorem C134_version : forall reg base v m threshold reg' level' limit, dget reg (base ++ "-v" ++ str v) <> None ->
  create_level reg (base ++ "-v" ++ str v) m threshold = Ok (reg', level', limit) -> reg' <> reg ->
  exists w, (v < w)%nat /\ level' = base ++ "-v" ++ str w.
Proof.
  intros reg base v m threshold reg' level' limit D E N. unfold create_level, find_level in E.
  destruct (dget reg (base ++ "-v" ++ str v)) as [e |] eqn:De; [| congruence]. cbn [bind] in E. rewrite De in E.
  destruct (match m with Unset => _ | _ => _ end) as [lim r1]. destruct (match threshold with None => _ | _ => _ end) as [thr r2].
  destruct (r1 || r2); injection E as <- <- <-; [apply new_name_version | congruence].
Qed.
Example C134_version_case : dget C134_reg ("Cart" ++ "-v" ++ str 0) <> None /\
  create_level C134_reg ("Cart" ++ "-v" ++ str 0) (Limit 7) None = Ok ((C134_reg ++ [("Cart-v2", mkEntry (Some 7%nat) (Some 195%Z))])%list, "Cart-v2", Some 7%nat).
Proof. split; [discriminate | reflexivity]. Qed.

(** A registered name is used as it is. *)
Theorem C134_exact : forall reg level e, dget reg level = Some e -> create_level reg level Unset None = Ok (reg, level, en_steps e).
Proof. intros reg level e H. unfold create_level, find_level. rewrite H. cbn [bind]. rewrite H. reflexivity. Qed.
Example C134_exact_case : dget C134_reg "Cart-v0" = Some (mkEntry (Some 200%nat) (Some 195%Z)).
Proof. reflexivity. Qed.

(** A version with the limit asked for is found, if there is one. *)
Theorem C134_limit : forall reg level n, dget reg level = None ->
  (forall name e, In (name, e) reg -> exists base, version_of base name) ->
  (exists name e, version_of level name /\ dget reg name = Some e /\ en_steps e = Some n) ->
  exists name, create_level reg level (Limit n) None = Ok (reg, name, Some n) /\ version_of level name /\ exists e, dget reg name = Some e /\ en_steps e = Some n.
Proof.
  intros reg level n D W (nm & e & Vn & De & Es).
  assert (Names : forall nm, In nm (map fst reg) -> vsplit nm <> None /\ dget reg nm <> None).
  { intros x I. split.
    - apply in_map_iff in I. destruct I as ((x', y) & <- & I). destruct (W _ _ I) as [base B]. apply version_iff in B. destruct B as [v B]. cbn [fst]. congruence.
    - intro Q. revert I Q. clear. induction reg as [| (k, y) reg IH]; intros I Q; [destruct I |]. cbn [dget map fst] in *.
      destruct (String.eqb_spec x k) as [-> | N]; [discriminate |]. destruct I as [E | I]; [congruence |]. auto. }
  edestruct (search_limit reg level n ((match dget reg (level ++ "-v0")%string with Some _ => [(level ++ "-v0")%string] | None => [] end) ++ map fst reg)%list None) as (name & e' & S & V' & D' & E').
  { apply Forall_app. split; [| apply Forall_forall; exact Names].
    destruct (dget reg (level ++ "-v0")) as [e0 |] eqn:D0; [| constructor]. constructor; [| constructor]. apply Names. apply dget_name. congruence. }
  { exists nm, e. split; [apply in_or_app; right; apply dget_name; congruence | auto]. }
  exists name. split; [| eauto]. unfold create_level, find_level. rewrite D, S. cbn [bind]. rewrite D'. cbn [differs]. unfold differs. rewrite E', Nat.eqb_refl. reflexivity.
Qed.
Example C134_limit_case : dget C134_reg "Cart" = None /\ version_of "Cart" "Cart-v1" /\ (forall name e, In (name, e) C134_reg -> exists base, version_of base name).
Proof.
  split; [reflexivity |]. split; [apply version_iff; eexists; reflexivity |].
  intros name e [H | [H | []]]; injection H as <- <-; exists "Cart"; apply version_iff; eexists; reflexivity.
Qed.

(** A name without version stands for one of its versions. *)
Theorem C134_found : forall reg level m level' limit, dget reg level = None ->
  create_level reg level m None = Ok (reg, level', limit) -> version_of level level' /\ exists e, dget reg level' = Some e.
Proof.
  intros reg level m level' limit D E. unfold create_level, find_level in E. rewrite D in E.
  destruct (search _ _ _ _ _) as [l |] eqn:S; [| discriminate]. cbn [bind] in E. apply search_found in S. destruct S as [S | [_ S]]; [discriminate |].
  destruct (dget reg l) as [e |] eqn:De; [| discriminate]. destruct (match match m with Unset => _ | _ => _ end with Unset => _ | _ => _ end) as [lim r1].
  destruct (r1 || false); injection E as E <-; [| intros; subst; eauto].
  exfalso. apply (f_equal (@length _)) in E. rewrite app_length in E. cbn in E. lia.
Qed.
Example C134_found_case : dget C134_reg "Cart" = None /\ create_level C134_reg "Cart" (Limit 500) None = Ok (C134_reg, "Cart-v1", Some 500%nat).
Proof. split; reflexivity. Qed.

(** Without a limit, the first version is taken even if another one is unlimited, and it is registered again without limit. *)
Theorem C134_unlimited_refuted : forall reg level v0 rest e, dget reg level = None -> reg = (v0, e) :: rest -> version_of level v0 -> dget reg (level ++ "-v0") = None \/ v0 = level ++ "-v0" ->
  (forall name e, In (name, e) reg -> exists base, version_of base name) -> (forall k e, dget reg k = Some e -> en_steps e <> Some 0%nat) ->
  en_steps e <> None ->
  exists name, create_level reg level Unset None = Ok ((reg ++ [(name, mkEntry None (en_threshold e))])%list, name, None) /\ dget reg name = None.
Proof.
  intros reg level v0 rest e D R V0 H0 W Z0 Ne.
  assert (Names : Forall (fun nm => vsplit nm <> None /\ exists e, dget reg nm = Some e /\ en_steps e <> Some 0%nat) (map fst reg)).
  { apply Forall_forall. intros x I. split.
    - apply in_map_iff in I. destruct I as ((x', y) & <- & I). destruct (W _ _ I) as [base B]. apply version_iff in B. destruct B as [v B]. cbn [fst]. congruence.
    - destruct (dget reg x) as [y |] eqn:Dx; [exists y; split; [reflexivity | eapply Z0; exact Dx] |]. exfalso. clear - I Dx.
      induction reg as [| (k, y) reg IH]; [destruct I |]. cbn [dget map fst] in *.
      destruct (String.eqb_spec x k) as [-> | N]; [discriminate |]. destruct I as [E | I]; [congruence |]. auto. }
  assert (Dv : dget reg v0 = Some e) by (rewrite R; cbn; rewrite String.eqb_refl; reflexivity).
  assert (S : search reg level Unlimited ((match dget reg (level ++ "-v0")%string with Some _ => [(level ++ "-v0")%string] | None => [] end) ++ map fst reg)%list None = Ok v0).
  { destruct H0 as [H0 | H0].
    - rewrite H0. cbn [List.app]. eapply (search_first reg level (map fst reg) Names v0 (map fst rest) []); [rewrite R; reflexivity | exact V0 | constructor].
    - rewrite <- H0, Dv. eapply (search_first reg level _ _ v0 (map fst reg) []); [reflexivity | exact V0 | constructor].
      Unshelve. constructor; [| exact Names]. rewrite Forall_forall in Names. apply Names. rewrite R. left. reflexivity. }
  exists (new_name reg v0). split; [| apply new_name_new].
  unfold create_level, find_level. rewrite D, S. cbn [bind]. rewrite Dv. unfold differs. destruct (en_steps e) as [[| k] |] eqn:Q; [exfalso; eapply Z0; eauto | reflexivity | congruence].
Qed.
Example C134_unlimited_case : exists reg1 reg2,
  create_level [("A-v0", mkEntry (Some 200%nat) None); ("A-v1", mkEntry None None)] "A" Unset None = Ok (reg1, "A-v2", None) /\
  create_level reg1 "A" Unset None = Ok (reg2, "A-v3", None).
Proof. eexists. eexists. split; reflexivity. Qed.

Print Assumptions C128_declared.
Print Assumptions C128_clash_refuted.
Print Assumptions C129_actions.
Print Assumptions C129_many_refuted.
Print Assumptions C129_underscore_refuted.
Print Assumptions C129_tuple_refuted.
Print Assumptions C130_states.
Print Assumptions C130_declared.
Print Assumptions C130_infinite.
Print Assumptions C130_multi_refuted.
Print Assumptions C130_nested_refuted.
Print Assumptions C131_actions.
Print Assumptions C131_million_refuted.
Print Assumptions C131_mixed_refuted.
Print Assumptions C131_clipped.
Print Assumptions C131_contradiction_refuted.
Print Assumptions C131_other_refuted.
Print Assumptions C132_drop.
Print Assumptions C132_negative_refuted.
Print Assumptions C132_bounds_refuted.
Print Assumptions C133_episode.
Print Assumptions C133_overrun.
Print Assumptions C133_limit_refuted.
Print Assumptions C134_registry.
Print Assumptions C134_exact.
Print Assumptions C134_limit.
Print Assumptions C134_unlimited_refuted.
Print Assumptions C131_replaced.
Print Assumptions C131_states.
Print Assumptions C134_version.
Print Assumptions C134_found.
