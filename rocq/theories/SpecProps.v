(** Theorems on value specifications: conversion (C39) and unification (C40, C61). *)

From Coq Require Import String List ZArith QArith Bool Lia.
From Verif Require Import Base SpecSpec SpecModel SpecProofs.
Import ListNotations.
Open Scope string_scope.
Open Scope list_scope.

(** ** C39 *)
Section C39.
Variable junk : num -> res Z.

(** A value of the right type is converted iff it is described by the specification, and
    then into itself.  Array bounds have the full shape; a batch has a batch axis. *)
Theorem C39_accepts_partial : forall s t sh batched v r, constructible junk s -> fixed s t sh -> plain_bounds s sh ->
  arr_type v = t -> (batched = true -> arr_shape v <> []) ->
  (to_tensor junk s batched v = Ok r <-> r = v /\ describes s batched v).
Proof. intros. eapply to_tensor_typed; eauto using constructible_valid. Qed.

(** Whatever is converted has the type of the specification, the shape of the input, and
    is described. *)
Theorem C39_result_partial : forall s batched v r, constructible junk s -> to_tensor junk s batched v = Ok r ->
  (batched = true -> arr_shape v <> []) ->
  exists t sh, fixed s t sh /\ arr_type r = t /\ arr_shape r = arr_shape v /\ (plain_bounds s sh -> describes s batched r).
Proof. intros. eapply to_tensor_sound; eauto using constructible_valid. Qed.

(** Specifications with open type, shape or number of values accept nothing. *)
Theorem C39_open_rejected : forall s batched v, constructible junk s -> (forall t sh, ~ fixed s t sh) ->
  (exists e, to_tensor junk s batched v = Err e) /\ exists e, from_tensor s batched v = Err e.
Proof. intros. eapply under_err; eauto using constructible_valid. Qed.

(** Tensors are handed out only if described, unchanged; what went in comes out. *)
Theorem C39_from_tensor : forall s t sh batched v r, constructible junk s -> fixed s t sh -> plain_bounds s sh ->
  (batched = true -> arr_shape v <> []) ->
  (from_tensor s batched v = Ok r <-> r = v /\ describes s batched v).
Proof. intros. eapply from_tensor_iff; eauto using constructible_valid. Qed.

Theorem C39_in_out : forall s t sh batched v r, constructible junk s -> fixed s t sh -> plain_bounds s sh ->
  (batched = true -> arr_shape v <> []) -> to_tensor junk s batched v = Ok r -> from_tensor s batched r = Ok r.
Proof.
  intros s t sh batched v r Hc Hf Hp Hb H. destruct (to_tensor_sound junk s batched v r) as (t' & sh' & Hf' & Ht & Hs & Hd); auto.
  { eapply constructible_valid; eassumption. }
  apply (from_tensor_iff s batched r) with (t := t) (sh := sh); auto.
  - eapply constructible_valid; eassumption.
  - rewrite Hs. exact Hb.
  - split; [reflexivity|]. apply Hd. destruct Hf as (E1 & E2 & E3 & _), Hf' as (F1 & F2 & F3 & _).
    rewrite E2 in F2. injection F2 as F2.
    assert (sh = sh') by (apply (shape_fits_fixed sh' sh F3); rewrite <- F2; apply shape_fits_fixed; auto). subst sh'. exact Hp.
Qed.

(** np_assert accepts every described array, and nothing of another shape. *)
Theorem C39_np_assert_partial : forall s t sh batched a, constructible junk s -> fixed s t sh -> (batched = true -> arr_shape a <> []) ->
  (np_assert s batched (NpArray a) = Ok tt -> exists lead, arr_shape a = lead ++ sh /\ length lead = (if batched then 1 else 0)%nat) /\
  (np_assert s batched (NpArray a) = Ok tt -> t = TBool -> arr_type a = TBool) /\
  (np_assert s batched (NpArray a) = Ok tt -> t = TFloat -> arr_type a <> TBool) /\
  (describes s batched a -> np_assert s batched (NpArray a) = Ok tt).
Proof.
  intros s t sh batched a Hc Hf Hb. destruct (batch_shape batched a Hb) as (lead & Hl & Hs). destruct Hf as (Ht & Hsh & Hp & Hn).
  assert (E : np_assert s batched (NpArray a) =
    if negb (dtype_eqb (arr_type a) t) && (negb (dtype_eqb t TFloat) || negb (dtype_eqb (arr_type a) TInt)) &&
       (negb (dtype_eqb t TInt) || (dtype_eqb (arr_type a) TBool && negb (match sp_num s with Some k => Z.eqb k 2 | None => false end)))
    then Err "type"
    else if dims_eqb (if batched then tl (arr_shape a) else arr_shape a) (fixed_shape s) then Ok tt else Err "shape").
  { unfold np_assert. rewrite Ht. destruct (batched || _); reflexivity. }
  rewrite E. clear E. unfold fixed_shape. rewrite Hsh.
  assert (Hd : dims_eqb (if batched then tl (arr_shape a) else arr_shape a) (map (fun n => Some (Z.of_nat n)) sh) = true <->
               (if batched then tl (arr_shape a) else arr_shape a) = sh).
  { rewrite dims_eqb_iff. split; [|intros ->; reflexivity]. intro E. apply (shape_fits_fixed sh); [exact Hp|].
    rewrite E. clear. destruct (if batched then _ else _) as [|n l]; [constructor|].
    cbn [map shape_fits]. revert n. induction l as [|m l IH]; intro n; (constructor; [cbn; auto|]); [constructor|apply IH]. }
  split; [|split; [|split]].
  - destruct (_ && _); [discriminate|]. destruct (dims_eqb _ _); [|discriminate]. intros _. exists lead.
    destruct Hd as [Hd _]. rewrite (Hd eq_refl) in Hs. auto.
  - intros H ->. destruct (arr_type a); [reflexivity|discriminate|discriminate].
  - intros H -> E. rewrite E in H. discriminate.
  - intros (Hty & lead' & sh' & Hs' & Hl' & Hf' & _). rewrite Ht in Hty. cbn in Hty. rewrite Hsh in Hf'. apply shape_fits_fixed in Hf'; [|exact Hp]. subst sh'.
    replace (dtype_eqb (arr_type a) t) with true by (rewrite Hty; destruct t; reflexivity). cbn [negb andb].
    destruct Hd as [_ Hd]. rewrite Hd; [reflexivity|]. rewrite Hs'. destruct batched.
    + destruct lead' as [|x [|]]; try discriminate. reflexivity.
    + destruct lead'; [reflexivity|discriminate].
Qed.

End C39.

(** What the claim does not extend to.  [no_junk]: converting an infinite number to an
    integer raises. *)
Definition no_junk (x : num) : res Z := Err "OverflowError".
Definition vec (l : list num) : arr := AFloat (Nd [length l] (fun i => nth (hd 0%nat i) l NaN)).
Definition fin (z : Z) : num := Fin (inject_Z z).

(** Types are converted silently: 1.7 is accepted as the integer 1, both for a number and,
    by np_assert, for an array given as integer state. *)
Definition int3 : spec := Spec (TyOne TInt) (Some [Some 1%Z]) (Some (Scalar (fin 0))) (Some (Scalar (fin 2))) (Some 3%Z).
Theorem C39_conversion_refuted : exists s v r, constructible no_junk s /\
  np_assert s false (NpArray v) = Ok tt /\ to_tensor no_junk s false v = Ok r /\ arr_type v <> arr_type r /\
  arr_entry v [0%nat] = Some (Fin (17 # 10)) /\ arr_entry r [0%nat] = Some (Fin 1).
Proof.
  exists int3, (vec [Fin (17 # 10)]). eexists. repeat split; [|discriminate].
  eapply (make_constructible no_junk (TyOne TInt) (Some [Some 1%Z]) None None (Some 3%Z)). reflexivity.
Qed.

(** An array of bounds for the leading axis is compared along the last axis: for shape
    (2, 2) and min_value [0, 10] a value below its bound 10 is accepted and one above its
    bound 0 rejected. *)
Definition mat (f : nat -> nat -> num) : arr := AFloat (Nd [2; 2]%nat (fun i => f (nth 0 i 0) (nth 1 i 0))%nat).
Definition low : nd num := Nd [2]%nat (fun i => match i with [0%nat] => fin 0 | _ => fin 10 end).
Definition rows : spec := Spec (TyOne TFloat) (Some [Some 2; Some 2]%Z) (Some (Array low)) None None.
Theorem C39_bounds_refuted : constructible no_junk rows /\
  exists v w, to_tensor no_junk rows false v = Ok v /\ ~ describes rows false v /\
              describes rows false w /\ exists e, to_tensor no_junk rows false w = Err e.
Proof.
  split.
  { eapply (make_constructible no_junk (TyOne TFloat) (Some [Some 2; Some 2]%Z) (Some (Array low)) None None). reflexivity. }
  exists (mat (fun i j => match j with O => fin 5 | _ => fin 12 end)), (mat (fun i j => match i with O => fin 5 | _ => fin 12 end)).
  split; [reflexivity|]. split; [|split].
  - intros (_ & lead & sh & Hs & Hl & _ & He). destruct lead; [|discriminate].
    assert (Hr : in_range [1; 0]%nat [2; 2]%nat) by (repeat constructor; lia).
    destruct (He [1; 0]%nat (fin 5) Hr eq_refl) as (_ & H & _). apply (H (Array low) eq_refl). reflexivity.
  - split; [reflexivity|]. exists [], [2; 2]%nat. split; [reflexivity|]. split; [reflexivity|]. split.
    + repeat constructor; right; reflexivity.
    + intros i x Hi Hx. cbn [arr_shape mat nd_shape] in Hi. unfold in_range in Hi.
      inversion Hi as [|a n i' r' Ha Hi']; subst. inversion Hi' as [|b n' i'' r'' Hb Hi'']; subst. inversion Hi''; subst.
      cbn in Hx. injection Hx as <-. split; [destruct a; exact I|]. split; [|split].
      * intros b0 E. injection E as <-. destruct a as [|[|a]]; cbn; [|intro C; discriminate|lia]. intro C. discriminate.
      * intros b0 E. discriminate.
      * intros n E. discriminate.
  - eexists. reflexivity.
Qed.

(** A fractional bound of an integer specification is rounded towards zero. *)
Theorem C39_rounded_bound_refuted : exists s,
  make no_junk (TyOne TInt) (Some []) (Some (Scalar (Fin (1 # 2)))) None None = Ok s /\
  to_tensor no_junk s false (AInt (Nd [] (fun _ => 0%Z))) = Ok (AInt (Nd [] (fun _ => 0%Z))).
Proof. eexists. split; reflexivity. Qed.

(** A number is accepted where a batch of numbers is expected. *)
Definition real : spec := Spec (TyOne TFloat) (Some []) None None None.
Theorem C39_batch_axis_refuted : constructible no_junk real /\
  let v := AFloat (Nd [] (fun _ => fin 5)) in to_tensor no_junk real true v = Ok v /\ ~ describes real true v.
Proof.
  split; [eapply (make_constructible no_junk (TyOne TFloat) (Some []) None None None); reflexivity|]. split; [reflexivity|].
  intros (_ & lead & sh & Hs & Hl & _). destruct lead; discriminate.
Qed.

(** Example: float, shape (2,), between 0 and (1, 3). *)
Definition upper : nd num := Nd [2]%nat (fun i => match i with [0%nat] => fin 1 | _ => fin 3 end).
Definition box : spec := Spec (TyOne TFloat) (Some [Some 2%Z]) (Some (Scalar (fin 0))) (Some (Array upper)) None.
Example box_constructible : constructible no_junk box.
Proof. eapply (make_constructible no_junk (TyOne TFloat) (Some [Some 2%Z]) (Some (Scalar (fin 0))) (Some (Array upper)) None). reflexivity. Qed.
Example box_fixed : fixed box TFloat [2%nat] /\ plain_bounds box [2%nat].
Proof.
  split; [repeat split; [repeat constructor|discriminate]|]. intros b [E|E]; injection E as <-; cbn; auto.
Qed.
Example box_accepts : to_tensor no_junk box false (vec [Fin (1 # 2); fin 3]) = Ok (vec [Fin (1 # 2); fin 3]). Proof. reflexivity. Qed.
Example box_rejects :
  (exists e, to_tensor no_junk box false (vec [fin 2; fin 2]) = Err e) /\ (exists e, to_tensor no_junk box false (vec [fin (-1); fin 2]) = Err e) /\
  (exists e, to_tensor no_junk box false (vec [NaN; fin 2]) = Err e) /\ (exists e, to_tensor no_junk box false (vec [fin 1]) = Err e).
Proof. repeat split; eexists; reflexivity. Qed.
Example int3_fixed : constructible no_junk int3 /\ fixed int3 TInt [1%nat] /\ plain_bounds int3 [1%nat].
Proof.
  split; [eapply (make_constructible no_junk (TyOne TInt) (Some [Some 1%Z]) None None (Some 3%Z)); reflexivity|].
  split; [repeat split; [repeat constructor|discriminate]|]. intros b [E|E]; injection E as <-; exact I.
Qed.
Example int3_batch : let v := AInt (Nd [2; 1]%nat (fun i => match i with [0; 0]%nat => 2%Z | _ => 0%Z end)) in
  to_tensor no_junk int3 true v = Ok v /\ from_tensor int3 true v = Ok v /\ np_assert int3 true (NpArray v) = Ok tt.
Proof. repeat split. Qed.
Example open_spec : constructible no_junk (Spec (TyOne TFloat) (Some [Some 0%Z]) None None None) /\
  forall t sh, ~ fixed (Spec (TyOne TFloat) (Some [Some 0%Z]) None None None) t sh.
Proof.
  split; [eapply (make_constructible no_junk (TyOne TFloat) (Some [Some 0%Z]) None None None); reflexivity|].
  intros t sh (_ & H & Hp & _). destruct Hp as [|n sh Hn]; [discriminate|]. cbn in H. injection H as H _. lia.
Qed.

(** ** C40 *)
Section C40.
Variable junk : num -> res Z.

(** A value described by the unified specification is described by both, unless a bound is
    lost ([no_loss]); for bounds which are numbers and shapes of known rank ([plain]). *)
Theorem C40_unify_partial : forall a b c batched v, constructible junk a -> constructible junk b -> plain a -> plain b ->
  unify junk a b = Ok c -> no_loss a b c -> describes c batched v -> describes a batched v /\ describes b batched v.
Proof. intros. eapply (unify_sound junk); eauto using constructible_valid. Qed.

(** ** C61: and conversely *)
Theorem C61_common_values_partial : forall a b c batched v, constructible junk a -> constructible junk b -> plain a -> plain b ->
  unify junk a b = Ok c -> describes a batched v -> describes b batched v -> describes c batched v.
Proof. intros. eapply (unify_complete junk) with (a := a) (b := b); eauto using constructible_valid. Qed.
End C40.

Definition ivec (l : list Z) : arr := AInt (Nd [length l] (fun i => nth (hd 0%nat i) l 0%Z)).

(** Of two upper bounds the larger is kept. *)
Theorem C40_max_refuted : exists a b c v, constructible no_junk a /\ constructible no_junk b /\ plain a /\ plain b /\
  unify no_junk a b = Ok c /\ describes c false v /\ ~ describes a false v.
Proof.
  exists (Spec (TyOne TFloat) (Some [Some 1%Z]) None (Some (Scalar (fin 1))) None), (Spec (TyOne TFloat) (Some [Some 1%Z]) None (Some (Scalar (fin 2))) None).
  eexists. exists (vec [fin 2]).
  split; [eapply (make_constructible no_junk (TyOne TFloat) (Some [Some 1%Z]) None (Some (Scalar (fin 1))) None); reflexivity|].
  split; [eapply (make_constructible no_junk (TyOne TFloat) (Some [Some 1%Z]) None (Some (Scalar (fin 2))) None); reflexivity|].
  assert (P : forall z, plain (Spec (TyOne TFloat) (Some [Some 1%Z]) None (Some (Scalar (fin z))) None)).
  { intro z. split; [intros b [E|E]; [discriminate|injection E as <-; eauto]|intros [r E]; discriminate|intros n E; discriminate]. }
  split; [apply P|]. split; [apply P|]. split; [reflexivity|]. split.
  - split; [reflexivity|]. exists [], [1%nat]. split; [reflexivity|]. split; [reflexivity|]. split; [repeat constructor; right; reflexivity|].
    intros i x Hi Hx. inversion Hi as [|k n i' r Hk Hi']; subst. inversion Hi'; subst. assert (k = 0%nat) by lia. subst k. injection Hx as <-.
    split; [exact I|]. split; [intros b E; discriminate|]. split; [|intros n E; discriminate]. intros b E. injection E as <-. intro C; discriminate.
  - intros (_ & lead & sh & Hs & Hl & _ & He). destruct lead; [|discriminate].
    assert (Hr : in_range [0%nat] [1%nat]) by (repeat constructor).
    destruct (He [0%nat] (fin 2) Hr eq_refl) as (_ & _ & H & _). apply (H (Scalar (fin 1)) eq_refl). reflexivity.
Qed.

(** Bounds are dropped when the other side gives a number of values. *)
Theorem C40_num_refuted : exists a b c v, constructible no_junk a /\ constructible no_junk b /\ plain a /\ plain b /\
  unify no_junk a b = Ok c /\ describes c false v /\ ~ describes a false v.
Proof.
  exists (Spec (TyOne TInt) (Some [Some 1%Z]) (Some (Scalar (fin 2))) None None),
    (Spec (TyOne TInt) (Some [Some 1%Z]) (Some (Scalar (Fin 0))) (Some (Scalar (fin 4))) (Some 5%Z)).
  eexists. exists (ivec [0%Z]).
  split; [eapply (make_constructible no_junk (TyOne TInt) (Some [Some 1%Z]) (Some (Scalar (fin 2))) None None); reflexivity|].
  split; [eapply (make_constructible no_junk (TyOne TInt) (Some [Some 1%Z]) None None (Some 5%Z)); reflexivity|].
  split; [split; [intros b [E|E]; [injection E as <-; eauto|discriminate]|intros [r E]; discriminate|intros n E; discriminate]|].
  split; [split; [intros b [E|E]; injection E as <-; eauto|intros [r E]; discriminate|reflexivity]|].
  split; [reflexivity|]. split.
  - split; [reflexivity|]. exists [], [1%nat]. split; [reflexivity|]. split; [reflexivity|]. split; [repeat constructor; right; reflexivity|].
    intros i x Hi Hx. inversion Hi as [|k n i' r Hk Hi']; subst. inversion Hi'; subst. assert (k = 0%nat) by lia. subst k. injection Hx as <-.
    split; [exact I|]. split; [intros b E; injection E as <-; intro C; discriminate|]. split; [intros b E; injection E as <-; intro C; discriminate|].
    intros n E _. injection E as <-. split; [intro C; discriminate|reflexivity].
  - intros (_ & lead & sh & Hs & Hl & _ & He). destruct lead; [|discriminate].
    assert (Hr : in_range [0%nat] [1%nat]) by (repeat constructor).
    destruct (He [0%nat] (fin 0) Hr eq_refl) as (_ & H & _). apply (H (Scalar (fin 2)) eq_refl). reflexivity.
Qed.

(** With an open rank the dimensions of the other shape are reversed: (None,) and (2, 3)
    give (3, 2). *)
Theorem C40_rank_refuted : exists a b c, constructible no_junk a /\ constructible no_junk b /\
  unify no_junk a b = Ok c /\ sp_shape b = Some [Some 2; Some 3]%Z /\ sp_shape c = Some [Some 3; Some 2]%Z.
Proof.
  exists (Spec (TyOne TFloat) (Some [None]) None None None), (Spec (TyOne TFloat) (Some [Some 2; Some 3]%Z) None None None). eexists.
  split; [eapply (make_constructible no_junk (TyOne TFloat) (Some [None]) None None None); reflexivity|].
  split; [eapply (make_constructible no_junk (TyOne TFloat) (Some [Some 2; Some 3]%Z) None None None); reflexivity|].
  repeat split.
Qed.

(** A scalar specification cannot even be unified with itself. *)
Theorem C61_scalar_refuted : constructible no_junk real /\ plain real /\
  (exists v, describes real false v) /\ exists e, unify no_junk real real = Err e.
Proof.
  split; [eapply (make_constructible no_junk (TyOne TFloat) (Some []) None None None); reflexivity|].
  split; [split; [intros b [E|E]; discriminate|intros [r E]; discriminate|intros n E; discriminate]|].
  split; [|eexists; reflexivity].
  exists (AFloat (Nd [] (fun _ => fin 5))). split; [reflexivity|]. exists [], []. repeat split; try constructor; intros; discriminate || (cbn in *; subst; auto).
  injection H0 as <-. exact I.
Qed.

(** Example: (float, shape (0, 3), >= 0) with (float or int, shape (-1, 0), <= 5). *)
Definition ex_a : spec := Spec (TyOne TFloat) (Some [Some 0; Some 3]%Z) (Some (Scalar (fin 0))) None None.
Definition ex_b : spec := Spec (TyMany [TFloat; TInt]) (Some [Some (-1); Some 0]%Z) None None None.
Definition ex_d : spec := Spec (TyOne TFloat) (Some [Some 4; Some 3]%Z) (Some (Scalar (fin (-1)))) (Some (Scalar (fin 5))) None.
Example ex_constructible : constructible no_junk ex_a /\ constructible no_junk ex_b /\ constructible no_junk ex_d.
Proof.
  split; [eapply (make_constructible no_junk (TyOne TFloat) (Some [Some 0; Some 3]%Z) (Some (Scalar (fin 0))) None None); reflexivity|].
  split; [eapply (make_constructible no_junk (TyMany [TFloat; TInt]) (Some [Some (-1); Some 0]%Z) None None None); reflexivity|].
  eapply (make_constructible no_junk (TyOne TFloat) (Some [Some 4; Some 3]%Z) (Some (Scalar (fin (-1)))) (Some (Scalar (fin 5))) None); reflexivity.
Qed.
Example ex_unify : unify no_junk ex_a ex_b = Ok (Spec (TyOne TFloat) (Some [Some (-1); Some 3]%Z) (Some (Scalar (fin 0))) None None) /\
  unify no_junk ex_a ex_d = Ok (Spec (TyOne TFloat) (Some [Some 4; Some 3]%Z) (Some (Scalar (fin 0))) (Some (Scalar (fin 5))) None).
Proof. split; reflexivity. Qed.
Example ex_plain : plain ex_a /\ plain ex_d /\ no_loss ex_a ex_d (Spec (TyOne TFloat) (Some [Some 4; Some 3]%Z) (Some (Scalar (fin 0))) (Some (Scalar (fin 5))) None).
Proof.
  split; [split; [intros b [E|E]; [injection E as <-; eauto|discriminate]|intros [r E]; discriminate|intros n E; discriminate]|].
  split; [split; [intros b [E|E]; injection E as <-; eauto|intros [r E]; discriminate|intros n E; discriminate]|].
  split; [left; reflexivity|]. split; [intros s [-> | ->]; discriminate|]. intros H; exfalso; apply H; reflexivity.
Qed.

Print Assumptions C39_accepts_partial.
Print Assumptions C39_result_partial.
Print Assumptions C39_open_rejected.
Print Assumptions C39_from_tensor.
Print Assumptions C39_in_out.
Print Assumptions C39_np_assert_partial.
Print Assumptions C39_conversion_refuted.
Print Assumptions C39_bounds_refuted.
Print Assumptions C39_rounded_bound_refuted.
Print Assumptions C39_batch_axis_refuted.
Print Assumptions C40_unify_partial.
Print Assumptions C40_max_refuted.
Print Assumptions C40_num_refuted.
Print Assumptions C40_rank_refuted.
Print Assumptions C61_common_values_partial.
Print Assumptions C61_scalar_refuted.
