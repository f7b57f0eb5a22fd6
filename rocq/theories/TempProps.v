(** C105-C110: recurrent layers. *)
From Coq Require Import String List ZArith Lia Bool.
From Verif Require Import Base BaseFacts MemSpec MemModel MemProps TempModel TempSpec TempProofs.
Import ListNotations.
Open Scope Z_scope.

(** What bias and activation make of an output, applied once. *)
Definition once {Y} (t : trans Y) (y : Y) : Y :=
  match tb_bias t, tb_act t with
  | None, None => y
  | Some b, None => b y
  | None, Some f => f y
  | Some b, Some f => f (b y)
  end.

(** A layer without dropout whose size is not 0 (the other ones fail, see C110). *)
Definition usable {X Y S} (r : rnn X Y S) : Prop :=
  r_size r <> 0 /\ tb_squeeze (r_trans r) = None /\ tb_dropout (r_trans r) = false.

Lemma trans_apply_once {Y} (t : trans Y) y : tb_squeeze t = None -> tb_dropout t = false -> trans_apply t y = Ok (once t y).
Proof. intros E1 E2. unfold trans_apply, once. rewrite E1, E2. cbn [bind]. destruct (tb_bias t), (tb_act t); reflexivity. Qed.

Lemma super_apply_once {Y} (t : trans Y) y : tb_squeeze t = None -> tb_dropout t = false -> super_apply t y = Ok (once t y).
Proof. intros. change (super_apply t y) with (trans_apply t y). now apply trans_apply_once. Qed.

(** Everything [rnn_apply] does for a horizon that is not the constant 0. *)
Lemma apply_general : forall X Y S (r : rnn X Y S) qs ss n,
  usable r -> is_const0 (r_horizon r) = false -> hvalue (r_horizon r) = Z.of_nat n -> length qs = length ss ->
  let qs' := map (restrict n) qs in
  rnn_apply r (flat qs) (places qs) ss =
  if r_assert r && negb (forallb (fun q => Nat.leb (seq_length q) (Datatypes.S n)) qs)
  then Err "assert_equal: final_indices"
  else Ok (map (fun d => once (r_trans r) (once (r_trans r) (row_output r (longest qs') (fst d) (snd d)))) (combine qs' ss),
           map (fun d => state_after (r_cell r) (snd d) (inputs (fst d))) (combine qs' ss)).
Proof.
  intros X Y S r qs ss n (Hs & Hq & Hd) Hc Hv Hl qs'. unfold rnn_apply, temporal_apply. rewrite Hc, Hv. cbv zeta.
  replace (Z.to_nat (Z.min (Z.of_nat n + 1) (reduce_max (trim_lengths (Z.of_nat n + 1) (places qs))))) with (longest qs')
    by (symmetry; apply iterations).
  destruct (loop_ok r Hs qs ss n Hl) as (rows & E1 & E2). rewrite E1. cbn [bind]. fold qs' in E2. rewrite E2. cbn [bind].
  set (ds := combine (placed 0 n qs) ss) in *.
  assert (Eds : map (fun d => (snd (fst d), snd d)) ds = combine qs' ss).
  { subst ds qs'. rewrite <- (placed_snd qs 0 n). generalize (placed 0 n qs). clear.
    intros ps. revert ss. induction ps as [|p ps IH]; intros [|s ss]; cbn; try reflexivity. f_equal. apply IH. }
  rewrite !map_map. cbn [t_idx t_rem t_x t_int].
  assert (Esum : fold_right Z.add 0 (map (fun _ : Z * sequence * S => 0) ds) = 0).
  { clear. induction ds; cbn [map fold_right]; lia. }
  rewrite Esum.
  pose proof (idx_check qs ss n 0 0 Hl ltac:(lia)) as HC. fold ds in HC.
  unfold places. destruct (placed_trim qs 0 n) as [_ ->]. fold (cumsum (map (fun p => Z.of_nat (seq_length (snd p))) (placed 0 n qs))) in HC.
  assert (HB : forallb (fun p => fst p =? snd p)
    (combine (map (fun x => fst (fst x) + Z.of_nat (seq_length (snd (fst x))) - 1) ds)
       (map (fun c => c - 1) (cumsum (map (fun p => Z.of_nat (seq_length (snd p))) (placed 0 n qs)))))
    = forallb (fun q => Nat.leb (seq_length q) (Datatypes.S n)) qs).
  { apply Bool.eq_iff_eq_true. rewrite HC, forallb_forall. split.
    - intros [->|[_ E]] q Hin; [destruct Hin|]. rewrite Forall_forall in E. apply Nat.leb_le. now apply E.
    - intros E. right. split; [reflexivity|]. apply Forall_forall. intros q Hin. apply Nat.leb_le. now apply E. }
  assert (Erest :
    (do out <- map_res (super_apply (r_trans r)) (map (fun x => row_output r (longest qs') (snd (fst x)) (snd x)) ds);
     Ok (out, map (fun x => state_after (r_cell r) (snd x) (inputs (snd (fst x)))) ds)) =
    Ok (map (fun d => once (r_trans r) (row_output r (longest qs') (fst d) (snd d))) (combine qs' ss),
        map (fun d => state_after (r_cell r) (snd d) (inputs (fst d))) (combine qs' ss))).
  { rewrite (map_res_map_ok _ _ _ (once (r_trans r))) by (intros; now apply super_apply_once).
    cbn [bind]. rewrite <- Eds, !map_map. reflexivity. }
  destruct (r_assert r); cbn [andb].
  - unfold assert_ at 1. rewrite HB. destruct (forallb _ qs); cbn [bind negb]; [|reflexivity].
    unfold assert_. rewrite Z.eqb_refl. cbn [bind]. rewrite Erest. cbn [bind fst snd].
    rewrite (map_res_map_ok _ _ _ (once (r_trans r))) by (intros; now apply trans_apply_once).
    cbn [bind]. now rewrite map_map.
  - cbn [bind]. rewrite Erest. cbn [bind fst snd].
    rewrite (map_res_map_ok _ _ _ (once (r_trans r))) by (intros; now apply trans_apply_once).
    cbn [bind]. now rewrite map_map.
Qed.

Lemma restrict_all : forall X (qs : list (@sequence X)) n,
  Forall (fun q => (seq_length q <= Datatypes.S n)%nat) qs -> map (restrict n) qs = qs.
Proof.
  intros X qs n H. rewrite <- map_id. apply map_ext_in. intros q Hin. rewrite Forall_forall in H.
  apply restrict_id. specialize (H q Hin). unfold seq_length in H. lia.
Qed.

Lemma leb_all : forall X (qs : list (@sequence X)) n,
  Forall (fun q => (seq_length q <= Datatypes.S n)%nat) qs ->
  forallb (fun q => Nat.leb (seq_length q) (Datatypes.S n)) qs = true.
Proof. intros X qs n H. rewrite forallb_forall. rewrite Forall_forall in H. intros q Hin. apply Nat.leb_le. auto. Qed.

(** ** C105 *)
(** For sequences no longer than the horizon allows, the layer returns: the state
    after reading the sequence, for every row; the output for the last input, for
    the rows whose sequence is the longest of the batch; and for the others the
    output of the cell for the last input read once more. *)
Theorem C105_sequences : forall X Y S (r : rnn X Y S) qs ss n,
  usable r -> is_const0 (r_horizon r) = false -> hvalue (r_horizon r) = Z.of_nat n -> length qs = length ss ->
  Forall (fun q => (seq_length q <= Datatypes.S n)%nat) qs ->
  exists ys, rnn_apply r (flat qs) (places qs) ss =
    Ok (ys, map (fun d => state_after (r_cell r) (snd d) (inputs (fst d))) (combine qs ss)) /\
  length ys = length qs /\
  forall i q s, nth_error qs i = Some q -> nth_error ss i = Some s ->
    (seq_length q = longest qs ->
     nth_error ys i = Some (once (r_trans r) (once (r_trans r) (output_after (r_cell r) s (fst q) (snd q))))) /\
    (seq_length q <> longest qs ->
     nth_error ys i = Some (once (r_trans r) (once (r_trans r) (output_after (r_cell r) s (fst q ++ [snd q]) (snd q))))).
Proof.
  intros X Y S r qs ss n Hu Hc Hv Hl Hb. rewrite (apply_general _ _ _ r qs ss n Hu Hc Hv Hl).
  rewrite (leb_all _ _ _ Hb), (restrict_all _ _ _ Hb). rewrite Bool.andb_false_r.
  eexists. split; [reflexivity|]. split; [rewrite map_length, combine_length; lia|].
  intros i q s Hq Hs.
  assert (E : nth_error (combine qs ss) i = Some (q, s)).
  { clear -Hq Hs. revert ss i Hq Hs. induction qs as [|a qs IH]; intros [|b ss] [|i] Hq Hs; cbn in *; try discriminate.
    - now inversion Hq; inversion Hs. - now apply IH. }
  split; intros EL; rewrite nth_error_map, E; cbn [option_map fst snd]; unfold row_output.
  - apply Nat.eqb_eq in EL. now rewrite EL.
  - apply Nat.eqb_neq in EL. now rewrite EL.
Qed.
Print Assumptions C105_sequences.

(** If all sequences of the batch have the same length, every row is right. *)
Theorem C105_equal_lengths_partial : forall X Y S (r : rnn X Y S) qs ss n k,
  usable r -> is_const0 (r_horizon r) = false -> hvalue (r_horizon r) = Z.of_nat n -> length qs = length ss ->
  (k <= Datatypes.S n)%nat -> Forall (fun q => seq_length q = k) qs ->
  rnn_apply r (flat qs) (places qs) ss =
    Ok (map (fun d => once (r_trans r) (once (r_trans r) (output_after (r_cell r) (snd d) (fst (fst d)) (snd (fst d))))) (combine qs ss),
        map (fun d => state_after (r_cell r) (snd d) (fst (fst d) ++ [snd (fst d)])) (combine qs ss)).
Proof.
  intros X Y S r qs ss n k Hu Hc Hv Hl Hk Hb.
  assert (Hb' : Forall (fun q => (seq_length q <= Datatypes.S n)%nat) qs) by (eapply Forall_impl; [|exact Hb]; cbn; lia).
  rewrite (apply_general _ _ _ r qs ss n Hu Hc Hv Hl).
  rewrite (leb_all _ _ _ Hb'), (restrict_all _ _ _ Hb'), Bool.andb_false_r.
  assert (EN : qs = [] \/ longest qs = k).
  { clear -Hb. induction Hb as [|q qs E _ IH]; [now left|right]. unfold longest in *. cbn [map fold_right].
    destruct IH as [->|IH]; cbn [map fold_right]; lia. }
  f_equal. f_equal. apply map_ext_in. intros [q s] Hin. cbn [fst snd]. apply in_combine_l in Hin.
  rewrite Forall_forall in Hb. destruct EN as [->|EN]; [destruct Hin|]. unfold row_output.
  rewrite EN, (Hb q Hin), Nat.eqb_refl. reflexivity.
Qed.
Print Assumptions C105_equal_lengths_partial.

(** A cell whose output and state are the sum of everything read so far, in a
    layer without bias and activation. *)
Definition summing (h : hparam) (asserts : bool) : rnn Z Z Z :=
  mkRnn (fun x s => (x + s, x + s)) 1 h (mkTrans None None None false) 0 asserts.

Example C105_example :
  usable (summing (HConst 2) true) /\
  rnn_apply (summing (HConst 2) true) (flat [([1; 2], 3); ([], 7); ([4], 5)])
    (places [([1; 2], 3); ([], 7); ([4], 5)]) [10; 20; 30] = Ok ([16; 34; 44], [16; 27; 39]).
Proof. split; [repeat split; discriminate|vm_compute; reflexivity]. Qed.

(** The output of a row is not, in general, the output of the cell for the last
    input of its sequence: a row whose sequence is shorter than another one of
    the batch reads its last input twice. *)
Theorem C105_output_refuted : exists (r : rnn Z Z Z) qs ss ys ss' n,
  usable r /\ is_const0 (r_horizon r) = false /\ hvalue (r_horizon r) = Z.of_nat n /\ length qs = length ss /\
  Forall (fun q => (seq_length q <= Datatypes.S n)%nat) qs /\
  (forall y, once (r_trans r) y = y) /\
  rnn_apply r (flat qs) (places qs) ss = Ok (ys, ss') /\
  exists i q s, nth_error qs i = Some q /\ nth_error ss i = Some s /\
    nth_error ys i <> Some (output_after (r_cell r) s (fst q) (snd q)).
Proof.
  exists (summing (HConst 1) true), [([1], 2); ([], 5)], [0; 0], [3; 10], [3; 5], 1%nat.
  split; [repeat split; discriminate|]. split; [reflexivity|]. split; [reflexivity|]. split; [reflexivity|].
  split; [repeat constructor|]. split; [reflexivity|]. split; [vm_compute; reflexivity|].
  exists 1%nat, ([], 5), 0. split; [reflexivity|]. split; [reflexivity|]. discriminate.
Qed.
Print Assumptions C105_output_refuted.

Lemma Forall2_length : forall A B (P : A -> B -> Prop) a b, Forall2 P a b -> length a = length b.
Proof. induction 1; cbn; congruence. Qed.

Lemma nth_error_combine : forall A B (l : list A) (m : list B) i a b,
  nth_error l i = Some a -> nth_error m i = Some b -> nth_error (combine l m) i = Some (a, b).
Proof.
  induction l as [|x l IH]; intros [|y m] [|i] a b H1 H2; cbn in *; try discriminate.
  - now inversion H1; inversion H2. - now apply IH.
Qed.

(** ** C106 *)
(** Acting on one timestep: one input, one sequence of length one. *)
Definition act_step {X Y S} (r : rnn X Y S) (x : X) (s : S) : res (list Y * list S) :=
  rnn_apply r [x] [(0, 1)] [s].

Lemma act_step_ok : forall X Y S (r : rnn X Y S) n x s,
  usable r -> is_const0 (r_horizon r) = false -> hvalue (r_horizon r) = Z.of_nat n ->
  act_step r x s = Ok ([once (r_trans r) (once (r_trans r) (fst (r_cell r x s)))], [snd (r_cell r x s)]).
Proof.
  intros X Y S r n x s Hu Hc Hv.
  assert (Hk : (1 <= Datatypes.S n)%nat) by lia.
  exact (C105_equal_lengths_partial X Y S r [([], x)] [s] n 1 Hu Hc Hv eq_refl Hk
    (Forall_cons _ (eq_refl : seq_length ([], x) = 1%nat) (Forall_nil _))).
Qed.

(** The memory holds what acting produced: the state recorded with a timestep is
    the one acting returned for the timestep before, within an episode. *)
Definition acted {X Y S} (r : rnn X Y S) (l : log (X * S)) : Prop :=
  forall p x s t x' s' t', nth_error l p = Some ((x, s), t) -> ends ((x, s), t) = false ->
    nth_error l (Datatypes.S p) = Some ((x', s'), t') ->
    exists y, act_step r x s = Ok ([y], [s']).

Lemma view_fst : forall A (l : log A), map fst (view l) = map fst l.
Proof.
  intros A l. unfold view. destruct (rev l) as [|[a t] u] eqn:E.
  - apply (f_equal (@rev _)) in E. rewrite rev_involutive in E. now rewrite E.
  - apply (f_equal (@rev _)) in E. rewrite rev_involutive in E. cbn [rev] in E. rewrite E, !map_app. reflexivity.
Qed.

Lemma places_combine : forall X (qs : list (@sequence X)) Ls a,
  map seq_length qs = Ls ->
  combine (cumsum_excl_from a (map Z.of_nat Ls)) (map Z.of_nat Ls) = places_from a qs.
Proof.
  intros X qs Ls a <-. revert a. induction qs as [|q qs IH]; intros a; cbn [map cumsum_excl_from combine places_from]; [reflexivity|].
  f_equal. apply IH.
Qed.

(** Reading the recorded states along a stretch of an episode. *)
Lemma states_chain : forall X Y S (r : rnn X Y S) (l : log (X * S)) n L a,
  usable r -> is_const0 (r_horizon r) = false -> hvalue (r_horizon r) = Z.of_nat n -> acted r l ->
  (forall p e, (a <= p)%nat -> (p < a + L)%nat -> nth_error l p = Some e -> ends e = false) ->
  forall x0 s0 t0 x s t, nth_error l a = Some ((x0, s0), t0) -> nth_error l (a + L) = Some ((x, s), t) ->
  state_after (r_cell r) s0 (map (fun e => fst (fst e)) (segment a L l)) = s.
Proof.
  intros X Y S r l n L. induction L as [|L IH]; intros a Hu Hc Hv HA HE x0 s0 t0 x s t H0 H1.
  - rewrite Nat.add_0_r in H1. rewrite H0 in H1. unfold segment. cbn [firstn map state_after fold_left].
    unfold state_after. cbn. congruence.
  - unfold segment.
    assert (Hs : skipn a l = ((x0, s0), t0) :: skipn (Datatypes.S a) l).
    { clear -H0. revert a H0. induction l as [|e l IHl]; intros [|a] H0; cbn in *; try discriminate; [now inversion H0|].
      destruct l; [destruct a; discriminate|]. now apply IHl. }
    rewrite Hs. cbn [firstn map]. unfold state_after. cbn [fold_left fst].
    assert (H2 : exists e, nth_error l (Datatypes.S a) = Some e).
    { destruct (nth_error l (Datatypes.S a)) as [e|] eqn:E; [eauto|]. apply nth_error_None in E.
      assert (nth_error l (a + Datatypes.S L) <> None) by congruence. apply nth_error_Some in H. lia. }
    destruct H2 as ([[x1 s1] t1] & H2).
    destruct (HA a x0 s0 t0 x1 s1 t1 H0) as (y & Ey); [apply (HE a); [lia|lia|exact H0]|exact H2|].
    rewrite (act_step_ok _ _ _ r n x0 s0 Hu Hc Hv) in Ey. inversion Ey as [[E1 E2]]. clear Ey E1.
    rewrite E2. replace (a + Datatypes.S L)%nat with (Datatypes.S a + L)%nat in H1 by lia.
    apply (IH (Datatypes.S a) Hu Hc Hv HA) with (x0 := x1) (t0 := t1) (x := x) (t := t); [|exact H2|exact H1].
    intros p e Hp1 Hp2. apply HE; lia.
Qed.

Lemma segment_map : forall A B (f : A -> B) a n l, map f (segment a n l) = segment a n (map f l).
Proof. intros. unfold segment. rewrite skipn_map, firstn_map. reflexivity. Qed.

Lemma segment_snoc : forall A a n (l : list A) e, nth_error l (a + n) = Some e ->
  segment a (Datatypes.S n) l = segment a n l ++ [e].
Proof.
  intros A a n l e H. unfold segment.
  assert (H' : nth_error (skipn a l) n = Some e).
  { clear -H. revert a H. induction l as [|x l IH]; intros a H; [destruct (a + n)%nat; discriminate|].
    destruct a; [exact H|]. cbn [skipn]. apply IH. exact H. }
  revert H'. generalize (skipn a l). clear. intros l. revert l. induction n; intros [|x l] H; cbn in *; try discriminate.
  - now inversion H. - f_equal. now apply IHn.
Qed.

Lemma segment_length : forall A a n (l : list A), (a + n <= length l)%nat -> length (segment a n l) = n.
Proof. intros. unfold segment. rewrite firstn_length, skipn_length. lia. Qed.

Lemma nth_error_view : forall A (l : log A) p e, nth_error (view l) p = Some e ->
  exists t, nth_error l p = Some (fst e, t).
Proof.
  intros A l p e H. assert (E : nth_error (map fst (view l)) p = Some (fst e)) by (rewrite nth_error_map, H; reflexivity).
  rewrite view_fst, nth_error_map in E. destruct (nth_error l p) as [[b t]|]; [|discriminate].
  exists t. inversion E as [E']. cbn. reflexivity.
Qed.

Lemma longest_max : forall X (qs : list (@sequence X)),
  Z.of_nat (longest qs) = fold_right Z.max 0 (map Z.of_nat (map seq_length qs)).
Proof. intros. unfold longest. induction qs; cbn [map fold_right]; lia. Qed.

(** What an update recomputes for the timesteps [is] of a memory filled by acting:
    the state it arrives at is the one acting arrived at; the output is the one
    acting gave wherever the sequence is the longest of the batch, and otherwise
    the one acting would give for the same input a second time. *)
Theorem C106_update : forall X Y S (r : rnn X Y S) (zero : X * S) cap cs m is h n,
  usable r -> is_const0 (r_horizon r) = false -> hvalue (r_horizon r) = Z.of_nat n -> (h <= n)%nat ->
  1 <= cap -> Forall (legal_call cap) cs -> qrun zero cap cs = Ok m ->
  acted r (log_of cs) -> Forall (retained cap (log_of cs)) is ->
  exists starts lengths seqv initv ys ss,
    queue_predecessors m (map (fun i => Z.of_nat i mod cap) is) (Z.of_nat h) = Ok (starts, lengths, seqv, initv) /\
    rnn_apply r (map (fun e => fst (fst e)) seqv) (combine starts lengths) (map (fun e => snd (fst e)) initv) = Ok (ys, ss) /\
    forall k i x s t, nth_error is k = Some i -> nth_error (log_of cs) i = Some ((x, s), t) ->
      exists y s' y' s'', act_step r x s = Ok ([y], [s']) /\ act_step r x s' = Ok ([y'], [s'']) /\
        nth_error ss k = Some s' /\
        (nth_error lengths k = Some (fold_right Z.max 0 lengths) -> nth_error ys k = Some y) /\
        (nth_error lengths k <> Some (fold_right Z.max 0 lengths) -> nth_error ys k = Some y').
Proof.
  intros X Y S r zero cap cs m is h n Hu Hc Hv Hh Hcap HL Hr HA HR.
  destruct (C07_predecessors _ zero cap cs m is h Hcap HL Hr HR) as (Ls & firsts & HB & HF & EP).
  set (l := log_of cs) in *. set (xof := fun e : X * S * Z => fst (fst e)).
  (* the sequences *)
  assert (HQ : exists qs, Forall2 (fun iL q => seq_length q = snd iL /\
      inputs q = map xof (segment (fst iL + 1 - snd iL) (snd iL) (view l))) (combine is Ls) qs).
  { clear -HB HR. induction HB as [|i L is Ls HiL HB IH]; [exists []; constructor|].
    inversion_clear HR as [|? ? Hri HR']. destruct (IH HR') as (qs & HQ).
    destruct HiL as ([HL1 HL2] & HL3 & _). destruct Hri as [Hi _].
    assert (Hlen : length (segment (i + 1 - L) L (view l)) = L).
    { apply segment_length. rewrite <- (map_length fst), view_fst, map_length. lia. }
    destruct (@exists_last _ (map xof (segment (i + 1 - L) L (view l)))) as (hist & cur & E).
    { intros E. apply (f_equal (@length _)) in E. rewrite map_length, Hlen in E. cbn in E. lia. }
    exists ((hist, cur) :: qs). cbn [combine]. constructor; [|exact HQ]. cbn [fst snd]. split.
    - apply (f_equal (@length _)) in E. rewrite map_length, Hlen, app_length in E. unfold seq_length. cbn in *. lia.
    - unfold inputs. cbn [fst snd]. now rewrite E. }
  destruct HQ as (qs & HQ).
  assert (Hlen1 : length is = length Ls) by exact (Forall2_length _ _ _ _ _ HB).
  assert (EL : map seq_length qs = Ls).
  { clear -HQ Hlen1. revert is Hlen1 qs HQ. induction Ls as [|L Ls IH]; intros [|i is] Hl qs HQ; cbn in Hl; try lia; cbn [combine] in HQ.
    - inversion HQ. reflexivity.
    - inversion HQ as [|? q ? qs' [E _] HQ']; subst. cbn [map snd] in *. f_equal; [exact E|]. eapply IH; [|exact HQ']. lia. }
  assert (Eflat : map xof (concat (map (fun iL => segment (fst iL + 1 - snd iL) (snd iL) (view l)) (combine is Ls))) = flat qs).
  { clear -HQ. induction HQ as [|iL q a b [_ E] _ IH]; [reflexivity|]. unfold flat in *. cbn [map concat].
    rewrite map_app, IH, E. reflexivity. }
  set (inits := map (fun e : X * S * Z => snd (fst e)) firsts).
  assert (Hlen2 : length qs = length inits).
  { unfold inits. rewrite map_length. rewrite <- (Forall2_length _ _ _ _ _ HF), <- (Forall2_length _ _ _ _ _ HQ). reflexivity. }
  assert (Hbound : Forall (fun q => (seq_length q <= Datatypes.S n)%nat) qs).
  { apply Forall_forall. intros q Hin. apply (in_map seq_length) in Hin. rewrite EL in Hin.
    assert (Forall (fun L => (L <= Datatypes.S h)%nat) Ls).
    { clear -HB. induction HB as [|i L is Ls ([_ H1] & _) _ IH]; constructor; [exact H1|exact IH]. }
    rewrite Forall_forall in H. specialize (H _ Hin). lia. }
  destruct (C105_sequences _ _ _ r qs inits n Hu Hc Hv Hlen2 Hbound) as (ys & EA & Hly & HY).
  do 4 eexists. exists ys. eexists. split; [exact EP|]. split.
  { fold xof. rewrite Eflat. fold inits.
    replace (combine (cumsum_excl (map Z.of_nat Ls)) (map Z.of_nat Ls)) with (places qs)
      by (symmetry; apply places_combine; exact EL). exact EA. }
  intros k i x s t Hi Hx.
  assert (HkL : exists L q s0, nth_error Ls k = Some L /\ nth_error qs k = Some q /\ nth_error inits k = Some s0 /\
     longest_back cap l h i L /\ seq_length q = L /\
     inputs q = map xof (segment (i + 1 - L) L (view l)) /\
     exists e, nth_error (view l) (i + 1 - L) = Some e /\ snd (fst e) = s0).
  { clear -Hi HB HQ HF. unfold inits. clear inits. revert is firsts qs k HB HQ HF Hi.
    induction Ls as [|L Ls IH]; intros is firsts qs k HB HQ HF Hi; inversion HB as [|i0 L0 is' Ls' HiL HB']; subst.
    - destruct k; discriminate.
    - cbn [combine] in HQ, HF. inversion HQ as [|? q ? qs' [EQ1 EQ2] HQ']; subst. inversion HF as [|? e ? fs HE HF']; subst.
      destruct k as [|k].
      + cbn in Hi. inversion Hi; subst. exists (seq_length q), q, (snd (fst e)). cbn [nth_error map snd fst] in *. rewrite <- EQ1 in *. eauto 10.
      + cbn [nth_error map] in *. exact (IH is' fs qs' k HB' HQ' HF' Hi). }
  destruct HkL as (L & q & s0 & HkL & Hkq & Hks & HLB & ELq & EI & e & He & Es0).
  destruct HLB as ([HL1 HL2] & HL3 & _ & HLE & _).
  destruct (nth_error_view _ _ _ _ He) as (t0 & He').
  destruct e as [[x0 s0'] t1]. cbn [fst snd] in *. subst s0'.
  assert (Ext : inputs q = map xof (segment (i + 1 - L) (L - 1) l) ++ [x]).
  { rewrite EI. rewrite segment_map. replace (map xof (view l)) with (map xof l).
    2:{ unfold xof. rewrite <- !(map_map fst fst). now rewrite view_fst. }
    rewrite <- segment_map. replace L with (Datatypes.S (L - 1)) at 2 by lia.
    rewrite (segment_snoc _ (i + 1 - L) (L - 1) l ((x, s), t)).
    - rewrite map_app. reflexivity.
    - replace (i + 1 - L + (L - 1))%nat with i by lia. exact Hx. }
  destruct q as [hist cur]. unfold inputs in Ext. cbn [fst snd] in Ext. apply app_inj_tail in Ext. destruct Ext as [Eh Ecur]. subst cur.
  assert (Est : state_after (r_cell r) s0 hist = s).
  { rewrite Eh. unfold xof.
    apply (states_chain _ _ _ r l n (L - 1) (i + 1 - L) Hu Hc Hv HA) with (x0 := x0) (t0 := t0) (x := x) (t := t).
    - intros p e' Hp1 Hp2. apply HLE; lia.
    - exact He'.
    - replace (i + 1 - L + (L - 1))%nat with i by lia. exact Hx. }
  exists (once (r_trans r) (once (r_trans r) (fst (r_cell r x s)))), (snd (r_cell r x s)).
  exists (once (r_trans r) (once (r_trans r) (fst (r_cell r x (snd (r_cell r x s)))))), (snd (r_cell r x (snd (r_cell r x s)))).
  split; [exact (act_step_ok _ _ _ r n x s Hu Hc Hv)|]. split; [exact (act_step_ok _ _ _ r n x _ Hu Hc Hv)|].
  assert (Eall : state_after (r_cell r) s0 (hist ++ [x]) = snd (r_cell r x s)).
  { unfold state_after in *. rewrite fold_left_app, Est. reflexivity. }
  split.
  { rewrite nth_error_map.
    assert (E : nth_error (combine qs inits) k = Some ((hist, x), s0)).
    { now apply nth_error_combine. }
    rewrite E. cbn [option_map fst snd]. unfold inputs. cbn [fst snd]. now rewrite Eall. }
  destruct (HY k (hist, x) s0 Hkq Hks) as [HY1 HY2]. cbn [fst snd] in HY1, HY2.
  replace (fold_right Z.max 0 (map Z.of_nat Ls)) with (Z.of_nat (longest qs)) by (rewrite longest_max, EL; reflexivity).
  rewrite nth_error_map, HkL. cbn [option_map].
  unfold output_after in *. rewrite Est in HY1. rewrite Eall in HY2.
  split; intros HH.
  - apply HY1. rewrite ELq. inversion HH as [HH']. lia.
  - apply HY2. rewrite ELq. intros E. apply HH. rewrite E. reflexivity.
Qed.
Print Assumptions C106_update.

Definition episode_log : list (call (Z * Z)) := [Store [((1, 0), 0); ((2, 1), 0); ((5, 3), 1)]].

Lemma episode_log_acted : acted (summing (HConst 2) true) (log_of episode_log).
Proof.
  intros p x s t x' s' t' H1 _ H2.
  destruct p as [|[|[|p]]]; cbn in H1, H2; try discriminate; inversion H1; inversion H2; subst; eexists; vm_compute; reflexivity.
Qed.

Example C106_example :
  Forall (legal_call (A:=Z * Z) 5) episode_log /\ acted (summing (HConst 2) true) (log_of episode_log) /\
  Forall (retained 5 (log_of episode_log)) [2%nat; 0%nat].
Proof.
  split; [|split; [exact episode_log_acted|]].
  - constructor; [|constructor]. exists [((1, 0), 0); ((2, 1), 0)], ((5, 3), 1). repeat split; cbn; try lia. repeat constructor.
  - repeat constructor; cbn; lia.
Qed.

(** The output an update recomputes for a recorded timestep is not, in general,
    the output acting gave for it. *)
Theorem C106_output_refuted : exists (r : rnn Z Z Z) cap cs m is h n,
  usable r /\ is_const0 (r_horizon r) = false /\ hvalue (r_horizon r) = Z.of_nat n /\ (h <= n)%nat /\
  Forall (legal_call cap) cs /\ qrun (0, 0) cap cs = Ok m /\ acted r (log_of cs) /\ Forall (retained cap (log_of cs)) is /\
  exists starts lengths seqv initv ys ss,
    queue_predecessors m (map (fun i => Z.of_nat i mod cap) is) (Z.of_nat h) = Ok (starts, lengths, seqv, initv) /\
    rnn_apply r (map (fun e => fst (fst e)) seqv) (combine starts lengths) (map (fun e => snd (fst e)) initv) = Ok (ys, ss) /\
    exists k i x s t y s', nth_error is k = Some i /\ nth_error (log_of cs) i = Some ((x, s), t) /\
      act_step r x s = Ok ([y], [s']) /\ nth_error ys k <> Some y.
Proof.
  destruct C106_example as (H1 & H2 & H3).
  exists (summing (HConst 2) true), 5, episode_log. eexists. exists [2%nat; 0%nat], 2%nat, 2%nat.
  split; [repeat split; discriminate|]. split; [reflexivity|]. split; [reflexivity|]. split; [lia|].
  split; [exact H1|]. split; [vm_compute; reflexivity|]. split; [exact H2|]. split; [exact H3|].
  do 6 eexists. split; [vm_compute; reflexivity|]. split; [vm_compute; reflexivity|].
  exists 1%nat, 0%nat, 1, 0, 0, 1, 1. split; [reflexivity|]. split; [reflexivity|]. split; [vm_compute; reflexivity|]. discriminate.
Qed.
Print Assumptions C106_output_refuted.

(** ** C107 *)
(** The state a row arrives at depends on that row only. *)
Theorem C107_states : forall X Y S (r : rnn X Y S) qs ss n i q s,
  usable r -> is_const0 (r_horizon r) = false -> hvalue (r_horizon r) = Z.of_nat n -> length qs = length ss ->
  Forall (fun q => (seq_length q <= Datatypes.S n)%nat) qs ->
  nth_error qs i = Some q -> nth_error ss i = Some s ->
  exists ys ss' y s', rnn_apply r (flat qs) (places qs) ss = Ok (ys, ss') /\
    rnn_apply r (flat [q]) (places [q]) [s] = Ok ([y], [s']) /\ nth_error ss' i = Some s'.
Proof.
  intros X Y S r qs ss n i q s Hu Hc Hv Hl Hb Hq Hs.
  destruct (C105_sequences _ _ _ r qs ss n Hu Hc Hv Hl Hb) as (ys & E & _ & _).
  assert (Hq1 : Forall (fun q => (seq_length q <= Datatypes.S n)%nat) [q]).
  { constructor; [|constructor]. rewrite Forall_forall in Hb. apply Hb. eapply nth_error_In. exact Hq. }
  destruct (C105_sequences _ _ _ r [q] [s] n Hu Hc Hv eq_refl Hq1) as (ys1 & E1 & Hl1 & _).
  destruct ys1 as [|y [|? ?]]; try discriminate.
  exists ys. eexists. exists y. eexists. split; [exact E|]. split; [exact E1|].
  rewrite nth_error_map, (nth_error_combine _ _ qs ss i q s Hq Hs). reflexivity.
Qed.
Print Assumptions C107_states.

Example C107_example :
  rnn_apply (summing (HConst 2) true) (flat [([1; 2], 3); ([4], 5)]) (places [([1; 2], 3); ([4], 5)]) [0; 0] = Ok ([6; 14], [6; 9]) /\
  rnn_apply (summing (HConst 2) true) (flat [([4], 5)]) (places [([4], 5)]) [0] = Ok ([9], [9]).
Proof. split; vm_compute; reflexivity. Qed.

(** The output of a row depends on which other rows are in the batch. *)
Theorem C107_output_refuted : exists (r : rnn Z Z Z) q q' s s' y y1 y2 t t1 t2 n,
  usable r /\ is_const0 (r_horizon r) = false /\ hvalue (r_horizon r) = Z.of_nat n /\
  (seq_length q <= Datatypes.S n)%nat /\ (seq_length q' <= Datatypes.S n)%nat /\
  rnn_apply r (flat [q]) (places [q]) [s] = Ok ([y], [t]) /\
  rnn_apply r (flat [q; q']) (places [q; q']) [s; s'] = Ok ([y1; y2], [t1; t2]) /\ y1 <> y.
Proof.
  exists (summing (HConst 1) true), ([], 5), ([1], 2), 0, 0, 5, 10, 3, 5, 5, 3, 1%nat.
  split; [repeat split; discriminate|]. split; [reflexivity|]. split; [reflexivity|]. split; [vm_compute; repeat constructor|]. split; [vm_compute; repeat constructor|].
  split; [vm_compute; reflexivity|]. split; [vm_compute; reflexivity|]. discriminate.
Qed.
Print Assumptions C107_output_refuted.

(** ** C108 *)
Lemma cells_ok : forall X Y S (r : rnn X Y S) xs ss, r_size r <> 0 -> length xs = length ss ->
  cells r xs ss = Ok (map (fun d => r_cell r (fst d) (snd d)) (combine xs ss)).
Proof.
  intros X Y S r xs. induction xs as [|x xs IH]; intros [|s ss] Hs Hl; cbn in Hl; try lia; [reflexivity|].
  cbn [cells combine map fst snd]. unfold cell_apply. destruct (Z.eqb_spec (r_size r) 0); [contradiction|]. cbn [bind].
  rewrite IH by (auto; lia). reflexivity.
Qed.

(** With a constant horizon of 0 and the library's assertions enabled (the
    default) the layer can never be applied. *)
Theorem C108_zero_horizon_refuted : forall X Y S (r : rnn X Y S) xs horizons ss,
  r_horizon r = HConst 0 -> r_assert r = true -> exists e, rnn_apply r xs horizons ss = Err e.
Proof.
  intros X Y S r xs hs ss Hh Ha. unfold rnn_apply, temporal_apply. rewrite Hh, Ha. cbn [is_const0 Z.eqb].
  destruct (cells r xs ss) as [ys|e]; cbn [bind]; eexists; reflexivity.
Qed.
Print Assumptions C108_zero_horizon_refuted.

(** With the assertions disabled, it can, but the states are returned unchanged:
    the layer has no memory. *)
Theorem C108_zero_horizon_state_refuted : forall X Y S (r : rnn X Y S) xs horizons ss,
  usable r -> r_horizon r = HConst 0 -> r_assert r = false -> length xs = length ss ->
  rnn_apply r xs horizons ss =
  Ok (map (fun d => once (r_trans r) (once (r_trans r) (fst (r_cell r (fst d) (snd d))))) (combine xs ss), ss).
Proof.
  intros X Y S r xs hs ss (Hs & Hq & Hd) Hh Ha Hl. unfold rnn_apply, temporal_apply. rewrite Hh, Ha. cbn [is_const0 Z.eqb].
  rewrite cells_ok by assumption. cbn [bind].
  rewrite (map_res_map_ok _ _ _ (once (r_trans r))) by (intros; now apply super_apply_once). cbn [bind fst snd].
  rewrite (map_res_map_ok _ _ _ (once (r_trans r))) by (intros; now apply trans_apply_once). cbn [bind].
  now rewrite !map_map.
Qed.
Print Assumptions C108_zero_horizon_state_refuted.

(** A horizon parameter that is 0 at the moment but not constantly does what is
    expected: output for the current input, and the next state. *)
Example C108_example :
  rnn_apply (summing (HConst 0) true) [3; 4] [(0, 1); (1, 1)] [1; 1] = Err "UnboundLocalError: final_indices" /\
  rnn_apply (summing (HConst 0) false) [3; 4] [(0, 1); (1, 1)] [1; 1] = Ok ([4; 5], [1; 1]) /\
  rnn_apply (summing (HVar 0) true) [3; 4] [(0, 1); (1, 1)] [1; 1] = Ok ([4; 5], [4; 5]).
Proof. split; [|split]; vm_compute; reflexivity. Qed.

(** ** C109 *)
(** If a sequence is longer than the horizon of the layer (as when another layer
    or the baseline has a longer horizon), the assertion on the final positions
    fails, on every input. *)
Theorem C109_longer_refuted : forall X Y S (r : rnn X Y S) qs ss n,
  usable r -> is_const0 (r_horizon r) = false -> hvalue (r_horizon r) = Z.of_nat n -> length qs = length ss ->
  Exists (fun q => (seq_length q > Datatypes.S n)%nat) qs -> r_assert r = true ->
  rnn_apply r (flat qs) (places qs) ss = Err "assert_equal: final_indices".
Proof.
  intros X Y S r qs ss n Hu Hc Hv Hl He Ha. rewrite (apply_general _ _ _ r qs ss n Hu Hc Hv Hl), Ha.
  replace (forallb (fun q => Nat.leb (seq_length q) (Datatypes.S n)) qs) with false; [reflexivity|].
  symmetry. apply Bool.not_true_iff_false. rewrite forallb_forall. intros H. apply Exists_exists in He.
  destruct He as (q & Hin & Hgt). specialize (H q Hin). apply Nat.leb_le in H. lia.
Qed.
Print Assumptions C109_longer_refuted.

(** With the assertions disabled, the last n + 1 inputs of each sequence are read,
    but starting from the state that belongs to the first input of the whole sequence. *)
Theorem C109_longer_states : forall X Y S (r : rnn X Y S) qs ss n,
  usable r -> is_const0 (r_horizon r) = false -> hvalue (r_horizon r) = Z.of_nat n -> length qs = length ss ->
  r_assert r = false ->
  exists ys ss', rnn_apply r (flat qs) (places qs) ss = Ok (ys, ss') /\
  rnn_apply r (flat (map (restrict n) qs)) (places (map (restrict n) qs)) ss = Ok (ys, ss') /\
  ss' = map (fun d => state_after (r_cell r) (snd d) (inputs (restrict n (fst d)))) (combine qs ss).
Proof.
  intros X Y S r qs ss n Hu Hc Hv Hl Ha.
  assert (Hl' : length (map (restrict n) qs) = length ss) by (rewrite map_length; exact Hl).
  rewrite (apply_general _ _ _ r qs ss n Hu Hc Hv Hl), (apply_general _ _ _ r _ ss n Hu Hc Hv Hl'), Ha. cbn [andb].
  replace (map (restrict n) (map (restrict n) qs)) with (map (restrict n) qs).
  2:{ rewrite map_map. apply map_ext. intros q. unfold restrict. cbn [fst snd]. rewrite skipn_length.
      replace (length (fst q) - (length (fst q) - n) - n)%nat with 0%nat by lia. reflexivity. }
  do 2 eexists. split; [reflexivity|]. split; [reflexivity|].
  clear. revert ss. induction qs as [|q qs IH]; intros [|s ss]; cbn [map combine fst snd]; try reflexivity. f_equal. apply IH.
Qed.
Print Assumptions C109_longer_states.

Example C109_example :
  rnn_apply (summing (HConst 1) true) (flat [([1; 2; 3], 4)]) (places [([1; 2; 3], 4)]) [10] = Err "assert_equal: final_indices" /\
  rnn_apply (summing (HConst 1) false) (flat [([1; 2; 3], 4)]) (places [([1; 2; 3], 4)]) [10] = Ok ([17], [17]) /\
  output_after (r_cell (summing (HConst 1) false)) 10 [1; 2; 3] 4 = 20.
Proof. split; [|split]; vm_compute; reflexivity. Qed.

(** ** C110 *)
(** Bias and activation are applied twice. *)
Theorem C110_once_refuted : exists (r : rnn Z Z Z) x s y s' n,
  usable r /\ is_const0 (r_horizon r) = false /\ hvalue (r_horizon r) = Z.of_nat n /\
  act_step r x s = Ok ([y], [s']) /\ y <> once (r_trans r) (fst (r_cell r x s)).
Proof.
  exists (mkRnn (fun x s => (x + s, x + s)) 1 (HConst 3) (mkTrans (Some (fun y => y + 1)) None (Some (fun y => 2 * y)) false) 0 true).
  exists 1, 2, 18, 3, 3%nat. split; [repeat split; discriminate|]. split; [reflexivity|]. split; [reflexivity|].
  split; [vm_compute; reflexivity|]. discriminate.
Qed.
Print Assumptions C110_once_refuted.

(** A layer with dropout, or of size 0, fails on every non-empty batch. *)
Theorem C110_dropout_refuted : forall X Y S (r : rnn X Y S) xs horizons ss,
  tb_dropout (r_trans r) = true -> horizons <> [] -> xs <> [] ->
  exists e, rnn_apply r xs horizons ss = Err e.
Proof.
  intros X Y S r xs hs ss Hd Hh Hx. unfold rnn_apply.
  destruct (temporal_apply r xs hs ss) as [[ys ss']|e] eqn:E; cbn [bind]; [|eexists; reflexivity].
  assert (Hm : forall (y : Y) ys, exists e, map_res (super_apply (r_trans r)) (y :: ys) = Err e).
  { intros y ys0. cbn [map_res]. change (super_apply (r_trans r) y) with (trans_apply (r_trans r) y).
    unfold trans_apply. rewrite Hd. destruct (tb_squeeze (r_trans r)) as [f|]; cbn [bind].
    - destruct (f (opt_apply (tb_bias (r_trans r)) y)); cbn [bind]; eexists; reflexivity.
    - eexists; reflexivity. }
  exfalso. revert E. unfold temporal_apply. destruct (is_const0 (r_horizon r)).
  - destruct (cells r xs ss) as [zs|] eqn:Ec; cbn [bind]; [|discriminate].
    destruct (r_assert r); [discriminate|].
    destruct xs as [|x xs]; [congruence|]. destruct ss as [|s ss]; [discriminate|]. cbn [cells] in Ec.
    destruct (cell_apply r x s) as [z|]; [|discriminate]. cbn [bind] in Ec. destruct (cells r xs ss) as [zr|]; [|discriminate].
    cbn [bind] in Ec. inversion Ec; subst. cbn [map]. destruct (Hm (fst z) (map fst zr)) as (e & ->). discriminate.
  - destruct hs as [|h hs]; [congruence|].
    destruct (init_rows r _ _ ss) as [rows0|] eqn:E0; cbn [bind]; [|discriminate].
    assert (L0 : (1 <= length rows0)%nat).
    { destruct ss as [|s ss]; [discriminate|]. cbn [trim_starts trim_lengths map init_rows] in E0.
      destruct (init_rows r _ _ ss) in E0; [|discriminate]. inversion E0; subst. cbn. lia. }
    destruct (iterate_res _ _ rows0) as [rows|] eqn:E1; cbn [bind]; [|discriminate].
    assert (L1 : length rows = length rows0).
    { clear -E1. revert rows0 rows E1. generalize (Z.to_nat (Z.min (hvalue (r_horizon r) + 1) (reduce_max (trim_lengths (hvalue (r_horizon r) + 1) (h :: hs))))).
      induction n as [|n IH]; intros rows0 rows E1; cbn [iterate_res] in E1; [now inversion E1|].
      destruct (map_res (row_body r xs) rows0) as [rows1|] eqn:Em; cbn [bind] in E1; [|discriminate].
      rewrite (IH _ _ E1). clear -Em. revert rows1 Em. induction rows0 as [|w rows0 IH]; intros rows1 Em; cbn [map_res] in Em; [now inversion Em|].
      destruct (row_body r xs w); cbn [bind] in Em; [|discriminate]. destruct (map_res (row_body r xs) rows0); cbn [bind] in Em; [|discriminate].
      inversion Em; subst. cbn [length]. now rewrite (IH _ eq_refl). }
    destruct rows as [|w rows]; [cbn in L1; lia|].
    match goal with |- (do _ <- ?c; _) = _ -> _ => destruct c; cbn [bind]; [|discriminate] end.
    cbn [map]. destruct (Hm (t_x w) (map t_x rows)) as (e & ->). discriminate.
Qed.
Print Assumptions C110_dropout_refuted.

Theorem C110_size_zero_refuted : forall X Y S (r : rnn X Y S) qs ss n,
  r_size r = 0 -> hvalue (r_horizon r) = Z.of_nat n -> qs <> [] ->
  exists e, rnn_apply r (flat qs) (places qs) ss = Err e.
Proof.
  intros X Y S r qs ss n Hs Hv Hq.
  assert (HC : forall x s, cell_apply r x s = Err "AssertionError: signature of iterative_apply").
  { intros. unfold cell_apply. rewrite Hs. reflexivity. }
  unfold rnn_apply, temporal_apply. rewrite Hv. cbv zeta. destruct (is_const0 (r_horizon r)).
  - destruct qs as [|q qs]; [congruence|]. unfold flat. cbn [map concat inputs].
    assert (E : exists x xs, inputs q ++ concat (map inputs qs) = x :: xs).
    { unfold inputs at 1. destruct (fst q); eexists; eexists; reflexivity. }
    destruct E as (x & xs & ->). destruct ss as [|s ss]; cbn [cells bind]; [eexists; reflexivity|].
    rewrite HC. eexists; reflexivity.
  - destruct (init_rows r _ _ ss) as [rows|e] eqn:E0; cbn [bind]; [|eexists; reflexivity].
    unfold places at 1. rewrite iterations.
    assert (HN : exists N, longest (map (restrict n) qs) = Datatypes.S N).
    { destruct qs as [|q qs]; [congruence|]. unfold longest. cbn [map fold_right].
      pose proof (seq_length_pos (restrict n q)). destruct (seq_length (restrict n q)); [lia|].
      destruct (fold_right Nat.max 0%nat (map seq_length (map (restrict n) qs))); eexists; reflexivity. }
    destruct HN as (N & ->). cbn [iterate_res].
    assert (HR : exists w rows', rows = w :: rows').
    { destruct qs as [|q qs]; [congruence|]. destruct ss as [|s ss]; [discriminate|].
      cbn [places places_from trim_starts trim_lengths map init_rows] in E0. unfold places in E0. cbn [places_from trim_starts trim_lengths map init_rows] in E0.
      destruct (init_rows r _ _ ss) in E0; [|discriminate]. inversion E0. eexists; eexists; reflexivity. }
    destruct HR as (w & rows' & ->). cbn [map_res]. unfold row_body at 1.
    destruct (gather (flat qs) (t_idx w)); cbn [bind]; [|eexists; reflexivity].
    rewrite HC. eexists; reflexivity.
Qed.
Print Assumptions C110_size_zero_refuted.

Example C110_example :
  rnn_apply (mkRnn (fun x s => (x + s, x + s)) 1 (HConst 1) (mkTrans None None None true) 0 true) [1] [(0, 1)] [2]
    = Err "AssertionError: signature of Dropout.apply" /\
  rnn_apply (mkRnn (fun x s => (x + s, x + s)) 0 (HConst 1) (mkTrans None None None false) 0 true) [1] [(0, 1)] [2]
    = Err "AssertionError: signature of iterative_apply".
Proof. split; vm_compute; reflexivity. Qed.
