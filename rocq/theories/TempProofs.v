(** Lemmas on the loop of temporal layers. *)
From Coq Require Import String List ZArith Lia Bool.
From Verif Require Import Base TempModel TempSpec.
Import ListNotations.
Open Scope Z_scope.

(** ** Lists *)
Lemma map_res_ok : forall A B (f : A -> res B) (g : A -> B) l,
  (forall a, In a l -> f a = Ok (g a)) -> map_res f l = Ok (map g l).
Proof.
  induction l as [|a l IH]; intros H; cbn [map_res map]; [reflexivity|].
  rewrite (H a) by now left. cbn [bind]. rewrite IH by (intros; apply H; now right). reflexivity.
Qed.

Lemma iterate_map_res : forall A D (f : A -> res A) (g : D -> nat -> A) ds,
  (forall d n, In d ds -> f (g d n) = Ok (g d (S n))) ->
  forall n k, iterate_res n (map_res f) (map (fun d => g d k) ds) = Ok (map (fun d => g d (k + n)%nat) ds).
Proof.
  intros A D f g ds H. induction n; intros k; cbn [iterate_res].
  - f_equal. apply map_ext. intros. f_equal. lia.
  - replace (map_res f (map (fun d => g d k) ds)) with (Ok (map (fun d => g d (S k)) ds)).
    2:{ clear IHn n. induction ds as [|d ds IH]; cbn [map map_res]; [reflexivity|].
        rewrite H by now left. cbn [bind]. rewrite <- IH by (intros; apply H; now right). reflexivity. }
    cbn [bind]. rewrite IHn. f_equal. apply map_ext. intros. f_equal. lia.
Qed.

Lemma gather_app_mid : forall A (p l q : list A) k x,
  nth_error l k = Some x -> gather (p ++ l ++ q) (Z.of_nat (length p) + Z.of_nat k) = Ok x.
Proof.
  intros A p l q k x H. unfold gather.
  destruct (Z.ltb_spec (Z.of_nat (length p) + Z.of_nat k) 0); [lia|].
  replace (Z.to_nat (Z.of_nat (length p) + Z.of_nat k)) with (length p + k)%nat by lia.
  rewrite nth_error_app2 by lia. replace (length p + k - length p)%nat with k by lia.
  rewrite nth_error_app1 by (apply nth_error_Some; congruence). now rewrite H.
Qed.

Section Loop.
Context {X Y S : Type}.
Variable r : rnn X Y S.
Hypothesis Hsize : r_size r <> 0.
Let cell := r_cell r.

Lemma state_after_app s xs ys : state_after cell s (xs ++ ys) = state_after cell (state_after cell s xs) ys.
Proof. unfold state_after. apply fold_left_app. Qed.

(** Where a row of the loop stands after [n] iterations: [a] is the position of
    the sequence [l] (with last element [d]) in the input. *)
Definition row_after (a : Z) (l : list X) (d : X) (s : S) (n : nat) : trow Y S :=
  mkTrow (a + Z.of_nat (Nat.min n (length l - 1))) (Z.of_nat (length l - n))
    (match n with
     | O => r_zero r
     | Datatypes.S m => fst (cell (nth (Nat.min m (length l - 1)) l d) (state_after cell s (firstn m l)))
     end)
    (state_after cell s (firstn n l)).

Lemma firstn_S_nth : forall (l : list X) n d, (n < length l)%nat ->
  firstn (Datatypes.S n) l = firstn n l ++ [nth n l d].
Proof.
  induction l as [|x l IH]; intros n d H; cbn in H; [lia|].
  destruct n; [reflexivity|]. cbn [firstn nth app]. f_equal. apply IH. lia.
Qed.

Lemma row_step : forall p l q d s n, l <> [] ->
  row_body r (p ++ l ++ q) (row_after (Z.of_nat (length p)) l d s n) =
  Ok (row_after (Z.of_nat (length p)) l d s (Datatypes.S n)).
Proof.
  intros p l q d s n Hl. destruct l as [|x0 l0]; [congruence|]. set (l := x0 :: l0) in *.
  assert (Hlen : (1 <= length l)%nat) by (cbn; lia).
  unfold row_body, row_after. cbn [t_idx t_rem t_int].
  assert (E : nth_error l (Nat.min n (length l - 1)) = Some (nth (Nat.min n (length l - 1)) l d)).
  { apply nth_error_nth'. lia. }
  rewrite (gather_app_mid _ p l q _ _ E). cbn [bind].
  unfold cell_apply. destruct (Z.eqb_spec (r_size r) 0) as [E0|_]; [contradiction|]. cbn [bind].
  fold cell. destruct (cell (nth (Nat.min n (length l - 1)) l d) (state_after cell s (firstn n l))) as [y t] eqn:Ec.
  cbn zeta. cbn [fst]. f_equal.
  destruct (Z.eqb_spec (Z.of_nat (length l - n)) 0) as [E1|E1].
  - (* finished *)
    assert (Hn : (length l <= n)%nat) by lia.
    f_equal.
    + destruct (Z.eqb_spec (Z.of_nat (length l - n) - 0) 0); lia.
    + lia.
    + rewrite !firstn_all2 by lia. reflexivity.
  - assert (Hn : (n < length l)%nat) by lia.
    f_equal.
    + destruct (Z.eqb_spec (Z.of_nat (length l - n) - 1) 0); lia.
    + lia.
    + rewrite (firstn_S_nth l n d) by lia. rewrite state_after_app.
      change (t = snd (cell (nth n l d) (state_after cell s (firstn n l)))).
      replace (Nat.min n (length l - 1)) with n in Ec by lia. rewrite Ec. reflexivity.
Qed.

(** A placed sequence: what precedes it, the sequence, what follows it. *)
Lemma row_step_at : forall xs (a : Z) l d s n p q, l <> [] ->
  xs = p ++ l ++ q -> a = Z.of_nat (length p) ->
  row_body r xs (row_after a l d s n) = Ok (row_after a l d s (Datatypes.S n)).
Proof. intros. subst. now apply row_step. Qed.
End Loop.

(** ** Sequences *)
Section Seqs.
Context {X : Type}.
Implicit Types q : @sequence X.

Lemma inputs_length q : length (inputs q) = seq_length q.
Proof. unfold inputs, seq_length. rewrite app_length. cbn. lia. Qed.

Lemma seq_length_pos q : (1 <= seq_length q)%nat.
Proof. unfold seq_length. lia. Qed.

Lemma restrict_length n q : seq_length (restrict n q) = Nat.min (seq_length q) (Datatypes.S n).
Proof. unfold seq_length, restrict. cbn [fst]. rewrite skipn_length. lia. Qed.

Lemma inputs_restrict n q : exists p, inputs q = p ++ inputs (restrict n q) /\
  length p = (seq_length q - seq_length (restrict n q))%nat.
Proof.
  exists (firstn (length (fst q) - n) (fst q)). unfold inputs, restrict. cbn [fst snd]. split.
  - rewrite app_assoc. now rewrite firstn_skipn.
  - unfold seq_length. cbn [fst]. rewrite firstn_length, skipn_length. lia.
Qed.

Lemma restrict_id n q : (length (fst q) <= n)%nat -> restrict n q = q.
Proof.
  intros H. unfold restrict. destruct q as [h c]. cbn [fst snd] in *.
  replace (length h - n)%nat with 0%nat by lia. reflexivity.
Qed.

(** The restricted sequences with their positions. *)
Fixpoint placed (a : Z) (n : nat) (qs : list (@sequence X)) : list (Z * @sequence X) :=
  match qs with
  | [] => []
  | q :: r => (a + Z.of_nat (seq_length q - seq_length (restrict n q)), restrict n q)
              :: placed (a + Z.of_nat (seq_length q)) n r
  end.

Lemma placed_trim : forall qs a n,
  trim_starts (Z.of_nat n + 1) (places_from a qs) = map fst (placed a n qs) /\
  trim_lengths (Z.of_nat n + 1) (places_from a qs) = map (fun p => Z.of_nat (seq_length (snd p))) (placed a n qs).
Proof.
  induction qs as [|q qs IH]; intros a n; [split; reflexivity|].
  destruct (IH (a + Z.of_nat (seq_length q)) n) as [H1 H2].
  cbn [places_from placed trim_starts trim_lengths map fst snd] in *.
  unfold trim_starts, trim_lengths in *. cbn [map fst snd].
  rewrite H1, H2. pose proof (restrict_length n q). split; f_equal; lia.
Qed.

Lemma placed_split : forall qs pre n,
  Forall (fun p => exists u v, flat (X:=X) [] ++ pre ++ flat qs = u ++ inputs (snd p) ++ v /\ fst p = Z.of_nat (length u))
    (placed (Z.of_nat (length pre)) n qs).
Proof.
  induction qs as [|q qs IH]; intros pre n; cbn [placed]; [constructor|].
  constructor.
  - destruct (inputs_restrict n q) as (p & E & Ep). exists (pre ++ p), (flat qs). cbn [fst snd]. split.
    + unfold flat at 2. cbn [map concat]. fold (flat qs). cbn [flat map concat app]. rewrite E. now rewrite <- !app_assoc.
    + rewrite app_length. lia.
  - specialize (IH (pre ++ inputs q) n). rewrite app_length, inputs_length, Nat2Z.inj_add in IH.
    eapply Forall_impl; [|exact IH]. intros p (u & v & E & Eu). exists u, v. split; [|exact Eu].
    rewrite <- E. unfold flat at 2 4. cbn [map concat]. now rewrite <- !app_assoc.
Qed.

Lemma placed_length : forall qs a n, length (placed a n qs) = length qs.
Proof. induction qs; intros; cbn; auto. Qed.

Lemma placed_snd : forall qs a n, map snd (placed a n qs) = map (restrict n) qs.
Proof. induction qs; intros; cbn; f_equal; auto. Qed.
End Seqs.

(** ** The whole loop *)
Lemma reduce_max_nat : forall ls : list nat, ls <> [] ->
  reduce_max (map Z.of_nat ls) = Z.of_nat (fold_right Nat.max 0%nat ls).
Proof.
  induction ls as [|x ls IH]; intros H; [congruence|].
  cbn [map fold_right]. unfold reduce_max in *. cbn [fold_right].
  destruct ls as [|y ls]; [cbn; lia|]. rewrite IH by congruence. lia.
Qed.

Lemma max_bound : forall (ls : list nat) b, Forall (fun x => (x <= b)%nat) ls -> (fold_right Nat.max 0 ls <= b)%nat.
Proof. induction 1; cbn [fold_right]; lia. Qed.

Lemma max_ge : forall (ls : list nat) x, In x ls -> (x <= fold_right Nat.max 0 ls)%nat.
Proof.
  induction ls as [|y ls IH]; intros x H; [destruct H|]. cbn [fold_right].
  destruct H as [<-|H]; [lia|]. specialize (IH x H). lia.
Qed.

Section Whole.
Context {X Y S : Type}.
Variable r : rnn X Y S.
Hypothesis Hsize : r_size r <> 0.
Let cell := r_cell r.

Lemma iterations : forall (qs : list (@sequence X)) a n,
  Z.to_nat (Z.min (Z.of_nat n + 1) (reduce_max (trim_lengths (Z.of_nat n + 1) (places_from a qs)))) =
  longest (map (restrict n) qs).
Proof.
  intros qs a n. destruct (placed_trim qs a n) as [_ ->].
  replace (map (fun p => Z.of_nat (seq_length (snd p))) (placed a n qs))
    with (map Z.of_nat (map seq_length (map (restrict n) qs))).
  2:{ rewrite <- (placed_snd qs a n), !map_map. reflexivity. }
  unfold longest. destruct qs as [|q qs]; [cbn; lia|].
  rewrite reduce_max_nat by discriminate.
  set (ls := map seq_length (map (restrict n) (q :: qs))).
  assert (fold_right Nat.max 0%nat ls <= Datatypes.S n)%nat.
  { apply max_bound. subst ls. rewrite map_map. apply Forall_forall. intros x Hx.
    apply in_map_iff in Hx. destruct Hx as (q' & <- & _). rewrite restrict_length. lia. }
  lia.
Qed.

Lemma init_rows_ok : forall (ps : list (Z * @sequence X)) (ss : list S), length ps = length ss ->
  init_rows r (map fst ps) (map (fun p => Z.of_nat (seq_length (snd p))) ps) ss =
  Ok (map (fun d => row_after r (fst (fst d)) (inputs (snd (fst d))) (snd (snd (fst d))) (snd d) 0)
        (combine ps ss)).
Proof.
  induction ps as [|p ps IH]; intros [|s ss] H; cbn in H; try lia; [reflexivity|].
  cbn [map init_rows combine]. rewrite IH by lia. cbn [bind]. do 2 f_equal.
  unfold row_after. cbn [fst snd]. rewrite inputs_length, Nat.min_0_l.
  replace (seq_length (snd p) - 0)%nat with (seq_length (snd p)) by lia. f_equal. cbn. lia.
Qed.

(** The output of a row after [N] iterations. *)
Definition row_output (N : nat) (q : @sequence X) (s : S) : Y :=
  if Nat.eqb (seq_length q) N then output_after cell s (fst q) (snd q)
  else output_after cell s (inputs q) (snd q).

Lemma last_input q d : nth (seq_length q - 1) (inputs (X:=X) q) d = snd q.
Proof.
  unfold inputs, seq_length. rewrite app_nth2 by (cbn; lia).
  replace (Datatypes.S (length (fst q)) - 1 - length (fst q))%nat with 0%nat by lia. reflexivity.
Qed.

Lemma row_done : forall a q s N, (seq_length q <= N)%nat ->
  row_after r a (inputs q) (snd q) s N =
  mkTrow (a + Z.of_nat (seq_length q) - 1) 0 (row_output N q s) (state_after cell s (inputs q)).
Proof.
  intros a q s N H. pose proof (seq_length_pos q). unfold row_after. rewrite inputs_length. f_equal; try lia.
  - destruct N as [|m]; [lia|]. fold cell.
    replace (Nat.min m (seq_length q - 1)) with (seq_length q - 1)%nat by lia. rewrite last_input.
    unfold row_output, output_after. destruct (Nat.eqb_spec (seq_length q) (Datatypes.S m)) as [E|E].
    + do 3 f_equal. unfold inputs. unfold seq_length in E. rewrite firstn_app, firstn_all2 by lia.
      replace (m - length (fst q))%nat with 0%nat by lia. apply app_nil_r.
    + rewrite firstn_all2 by (rewrite inputs_length; lia). reflexivity.
  - rewrite firstn_all2 by (rewrite inputs_length; lia). reflexivity.
Qed.

Lemma loop_ok : forall (qs : list (@sequence X)) (ss : list S) n, length qs = length ss ->
  let N := longest (map (restrict n) qs) in
  exists rows,
  init_rows r (trim_starts (Z.of_nat n + 1) (places qs)) (trim_lengths (Z.of_nat n + 1) (places qs)) ss = Ok rows /\
  iterate_res N (map_res (row_body r (flat qs))) rows =
  Ok (map (fun d => mkTrow (fst (fst d) + Z.of_nat (seq_length (snd (fst d))) - 1) 0
                      (row_output N (snd (fst d)) (snd d))
                      (state_after cell (snd d) (inputs (snd (fst d)))))
        (combine (placed 0 n qs) ss)).
Proof.
  intros qs ss n Hlen N. unfold places. destruct (placed_trim qs 0 n) as [-> ->].
  rewrite init_rows_ok by (rewrite placed_length; exact Hlen). eexists. split; [reflexivity|].
  pose proof (placed_split qs [] n) as HP. cbn [flat map concat app length Z.of_nat] in HP.
  rewrite Forall_forall in HP.
  rewrite (iterate_map_res _ _ (row_body r (flat qs))
             (fun d k => row_after r (fst (fst d)) (inputs (snd (fst d))) (snd (snd (fst d))) (snd d) k)).
  - f_equal. apply map_ext_in. intros [p s] Hin. cbn [fst snd]. rewrite Nat.add_0_l. apply row_done.
    apply in_combine_l in Hin. unfold N, longest. apply max_ge. apply in_map.
    rewrite <- (placed_snd qs 0 n). now apply in_map.
  - intros [p s] k Hin. cbn [fst snd]. apply in_combine_l in Hin. destruct (HP p Hin) as (u & v & E & Ea).
    eapply row_step_at; [exact Hsize| |exact E|exact Ea].
    unfold inputs. destruct (fst (snd p)); discriminate.
Qed.

Lemma idx_check : forall (qs : list (@sequence X)) (ss : list S) n a acc, length qs = length ss -> acc <= a ->
  forallb (fun p => fst p =? snd p)
    (combine (map (fun d => fst (fst d) + Z.of_nat (seq_length (snd (fst d))) - 1) (combine (placed a n qs) ss))
       (map (fun c => c - 1) (cumsum_from acc (map (fun p => Z.of_nat (seq_length (snd p))) (placed a n qs))))) = true
  <-> (qs = [] \/ acc = a /\ Forall (fun q => (seq_length q <= Datatypes.S n)%nat) qs).
Proof.
  induction qs as [|q qs IH]; intros ss n a acc Hl Ha.
  { cbn. split; auto. }
  destruct ss as [|s ss]; [discriminate|]. cbn [length] in Hl.
  cbn [placed combine map cumsum_from forallb fst snd].
  pose proof (restrict_length n q) as RL.
  rewrite Bool.andb_true_iff, Z.eqb_eq.
  specialize (IH ss n (a + Z.of_nat (seq_length q)) (acc + Z.of_nat (seq_length (restrict n q))) ltac:(lia) ltac:(lia)).
  rewrite IH. split.
  - intros [E1 E2]. right. split; [lia|]. constructor; [lia|].
    destruct E2 as [->|[_ E2]]; [constructor|exact E2].
  - intros [E|[-> E]]; [discriminate|]. inversion_clear E. split; [lia|]. right. split; [lia|assumption].
Qed.

Lemma map_res_map_ok : forall A B (f : A -> res B) (g : A -> B) l,
  (forall a, f a = Ok (g a)) -> map_res f l = Ok (map g l).
Proof. intros. apply map_res_ok. auto. Qed.
End Whole.
