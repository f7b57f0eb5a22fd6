(** Lemmas: what AgentModel.v does to the rows of its buffers. *)

From Coq Require Import String List ZArith Lia Bool Field.
From Coq Require Import ZifyBool ZifyNat.
From Verif Require Import Base BaseFacts Field MemSpec MemModel MemProofs MemQueries
  RetSpec RetModel RetProofs AgentSpec AgentModel.
Import ListNotations.
Open Scope Z_scope.

Notation len l := (Z.of_nat (length l)).

(** ** Rows *)

Lemma gather_ext {A} (l l' : list A) : length l = length l' ->
  (forall i, 0 <= i < len l -> gather l i = gather l' i) -> l = l'.
Proof.
  intros HL H. apply nth_error_ext. intros k.
  destruct (Nat.lt_ge_cases k (length l)) as [Hk|Hk].
  - specialize (H (Z.of_nat k) ltac:(lia)). unfold gather in H.
    destruct (Z.ltb_spec (Z.of_nat k) 0); [lia|]. rewrite Nat2Z.id in H.
    destruct (nth_error l k) eqn:E1, (nth_error l' k) eqn:E2; try discriminate; congruence.
  - assert (nth_error l k = None) as -> by (apply nth_error_None; lia).
    symmetry. apply nth_error_None. lia.
Qed.

Lemma gather_repeat {A} (a : A) n i : 0 <= i < Z.of_nat n -> gather (repeat a n) i = Ok a.
Proof.
  intros H. destruct (gather_total (repeat a n) i) as (b & E); [rewrite repeat_length; lia|].
  pose proof E as E'. apply gather_nth_error in E' as [_ E'].
  apply nth_error_In, repeat_spec in E'. now subst.
Qed.

Lemma gather_map_ok {A B} (f : A -> B) l i : 0 <= i < len l ->
  exists a, gather l i = Ok a /\ gather (map f l) i = Ok (f a).
Proof. intros H. destruct (gather_total l i H) as (a & E). exists a. split; [auto|now apply gather_map]. Qed.

Lemma gathers_ok {A} (l : list A) is (f : Z -> A) :
  (forall i, In i is -> gather l i = Ok (f i)) -> gathers l is = Ok (map f is).
Proof. intros H. unfold gathers. now apply map_res_ok. Qed.

Lemma scatter_const {A} (l : list A) is (v : A) :
  Forall (fun i => 0 <= i < len l) is ->
  exists l', scatter l is (map (fun _ => v) is) = Ok l' /\ length l' = length l /\
    forall j, gather l' j = if existsb (Z.eqb j) is then Ok v else gather l j.
Proof.
  revert l. induction is as [|i is IH]; intros l H.
  - exists l. cbn. auto.
  - pose proof (Forall_inv H) as Hi. pose proof (Forall_inv_tail H) as Ht. cbn beta in Hi.
    destruct (IH (update_nth l (Z.to_nat i) v)) as (l' & E & HL & G).
    { rewrite update_nth_length. exact Ht. }
    exists l'. cbn [map scatter existsb]. rewrite update_nth_length in HL.
    destruct (Z.ltb_spec i 0); [lia|]. destruct (Z.leb_spec (len l) i); [lia|]. cbn [orb].
    split; [exact E|]. split; [exact HL|]. intros j. rewrite G.
    destruct (existsb (Z.eqb j) is); [now rewrite orb_true_r|]. rewrite orb_false_r.
    destruct (Z.eqb_spec j i) as [->|N].
    + apply gather_update_same. lia.
    + apply gather_update_other; lia.
Qed.

Lemma scatter_map {A B} (l : list A) (items : list B) (p : B -> Z) (v : B -> A) :
  NoDup (map p items) -> Forall (fun it => 0 <= p it < len l) items ->
  exists l', scatter l (map p items) (map v items) = Ok l' /\ length l' = length l /\
    (forall it, In it items -> gather l' (p it) = Ok (v it)) /\
    (forall j, ~ In j (map p items) -> gather l' j = gather l j).
Proof.
  intros ND HF. destruct (scatter_ok (map p items) l (map v items)) as (l' & E & HL & H1 & H2).
  { now rewrite !map_length. }
  { rewrite Forall_map. exact HF. }
  exists l'. split; [exact E|]. split; [exact HL|]. split; [|exact H1].
  intros it Hin. apply In_nth_error in Hin as (k & Hk).
  apply (H2 ND k); now apply map_nth_error.
Qed.

Lemma scatter_add_ok {A B} (add : A -> A) (items : list B) (p : B -> Z) : forall (l : list A),
  NoDup (map p items) -> Forall (fun it => 0 <= p it < len l) items ->
  exists l', scatter_add add l (map p items) = Ok l' /\ length l' = length l /\
    (forall it a, In it items -> gather l (p it) = Ok a -> gather l' (p it) = Ok (add a)) /\
    (forall j, ~ In j (map p items) -> gather l' j = gather l j).
Proof.
  induction items as [|it items IH]; intros l ND HF.
  - exists l. cbn. repeat split; auto. intros ? ? [].
  - pose proof (Forall_inv HF) as Hi. pose proof (Forall_inv_tail HF) as Ht. cbn beta in Hi.
    cbn [map] in ND. apply NoDup_cons_iff in ND as [Hni ND].
    destruct (gather_total l (p it) Hi) as (a & Ea).
    destruct (IH (update_nth l (Z.to_nat (p it)) (add a)) ND) as (l' & E & HL & H1 & H2).
    { rewrite update_nth_length. exact Ht. }
    exists l'. cbn [map scatter_add]. rewrite Ea. cbn [bind]. rewrite scatter_one by lia. cbn [bind].
    rewrite update_nth_length in HL. split; [exact E|]. split; [exact HL|]. split.
    + intros it' a' [->|Hin] Ha'.
      * rewrite H2 by auto. assert (a' = a) as -> by congruence. apply gather_update_same. lia.
      * apply H1; [exact Hin|]. rewrite gather_update_other; [exact Ha'|lia|].
        intros C. apply Hni. rewrite C. now apply in_map.
    + intros j Hj. rewrite H2 by (intros C; apply Hj; now right).
      apply gather_update_other; [lia|]. intros C. apply Hj. now left.
Qed.

Lemma scatter2_ok {A B} (items : list B) (p i : B -> Z) (v : B -> A) : forall (t : list (list A)),
  NoDup (map p items) ->
  (forall it, In it items -> exists row, gather t (p it) = Ok row /\ 0 <= i it < len row) ->
  exists t', scatter2 t (map (fun it => (p it, i it)) items) (map v items) = Ok t' /\ length t' = length t /\
    (forall it row, In it items -> gather t (p it) = Ok row ->
       gather t' (p it) = Ok (update_nth row (Z.to_nat (i it)) (v it))) /\
    (forall j, ~ In j (map p items) -> gather t' j = gather t j).
Proof.
  induction items as [|it items IH]; intros t ND HF.
  - exists t. cbn. repeat split; auto. intros ? ? [].
  - cbn [map] in ND. apply NoDup_cons_iff in ND as [Hni ND].
    destruct (HF it (or_introl eq_refl)) as (row & Er & Hi).
    pose proof (gather_range _ _ _ Er) as Hp.
    assert (forall it', In it' items -> gather (update_nth t (Z.to_nat (p it)) (update_nth row (Z.to_nat (i it)) (v it))) (p it') = gather t (p it')) as G.
    { intros it' Hin. apply gather_update_other; [|].
      - lia.
      - intros C. apply Hni. rewrite C. now apply in_map. }
    destruct (IH (update_nth t (Z.to_nat (p it)) (update_nth row (Z.to_nat (i it)) (v it))) ND) as (t' & E & HL & H1 & H2).
    { intros it' Hin. rewrite G by exact Hin. apply HF. now right. }
    exists t'. cbn [map scatter2]. rewrite Er. cbn [bind]. rewrite scatter_one by lia. cbn [bind].
    rewrite scatter_one by lia. cbn [bind].
    rewrite update_nth_length in HL. split; [exact E|]. split; [exact HL|]. split.
    + intros it' row' [->|Hin] Ha'.
      * rewrite H2 by auto. assert (row' = row) as -> by congruence. apply gather_update_same. lia.
      * apply H1; [exact Hin|]. now rewrite G.
    + intros j Hj. rewrite H2 by (intros C; apply Hj; now right).
      apply gather_update_other; [lia|]. intros C. apply Hj. now left.
Qed.

(** Several writes into one row. *)
Lemma scatter2_row {A} p (is : list Z) : forall (t : list (list A)) us row row',
  gather t p = Ok row -> scatter row is us = Ok row' ->
  exists t', scatter2 t (map (fun i => (p, i)) is) us = Ok t' /\ length t' = length t /\
    gather t' p = Ok row' /\ (forall q, q <> p -> gather t' q = gather t q).
Proof.
  induction is as [|i is IH]; intros t us row row' G E.
  - destruct us; [|discriminate]. injection E as <-. exists t. cbn. auto.
  - destruct us as [|u us]; [discriminate|]. pose proof (gather_range _ _ _ G) as Hp.
    cbn [scatter] in E. destruct (Z.ltb_spec i 0); [discriminate|].
    destruct (Z.leb_spec (len row) i); [discriminate|]. cbn [orb] in E.
    assert (gather (update_nth t (Z.to_nat p) (update_nth row (Z.to_nat i) u)) p = Ok (update_nth row (Z.to_nat i) u)) as G0
      by (apply gather_update_same; lia).
    destruct (IH _ us _ _ G0 E)
      as (t' & E' & HL & G1 & G2).
    exists t'. cbn [map scatter2]. rewrite G. cbn [bind]. rewrite scatter_one by lia. cbn [bind].
    rewrite scatter_one by lia. cbn [bind]. rewrite update_nth_length in HL.
    split; [exact E'|]. split; [exact HL|]. split; [exact G1|].
    intros q Hq. rewrite G2 by exact Hq. apply gather_update_other; lia.
Qed.

Lemma vec2_maps {A B C D} (f : A -> B -> C) (p : D -> A) (q : D -> B) l :
  vec2 f (map p l) (map q l) = Ok (map (fun d => f (p d) (q d)) l).
Proof. induction l as [|d l IH]; [reflexivity|]. cbn [map vec2]. now rewrite IH. Qed.

Lemma combine_map {A B C} (f : A -> B) (g : A -> C) l : combine (map f l) (map g l) = map (fun a => (f a, g a)) l.
Proof. induction l as [|a l IH]; [reflexivity|]. cbn. now rewrite IH. Qed.

Lemma count_nonzero_repeat0 l : Forall (fun t => t = 0) l -> count_nonzero l = 0.
Proof. apply count_nonzero_zeros. Qed.
