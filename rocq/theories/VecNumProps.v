(** Theorems C180: the number of episodes with a vectorized environment. *)

From Coq Require Import List Arith Bool Lia.
From Verif Require Import VecNumModel.
Import ListNotations.

(** With instances of one vectorizable environment: as many episodes as asked for, but at least one of every instance *)
Theorem C180_vectorizable : forall n num k, 0 < n -> num <= k -> list_sum (started k true n (Some num)) = Nat.max n num.
Proof.
  intros n num k N K. unfold started, first_reset. change (list_sum (n :: further k true n (Some num) n)) with (n + list_sum (further k true n (Some num) n)).
  assert (G : forall k e, num <= k + e -> list_sum (further k true n (Some num) e) = num - e).
  { clear k K. induction k as [|k IH]; intros e H; [cbn; lia|]. cbn [further episodes_left option_map continues next_reset].
    destruct (Nat.ltb_spec 0 (num - e)); [|cbn; lia].
    match goal with |- list_sum (?x :: ?l) = _ => change (list_sum (x :: l)) with (x + list_sum l) end. rewrite IH by lia. lia. }
  rewrite G by lia. lia.
Qed.
(** With actors of one environment: the next multiple of their number *)
Theorem C180_actors : forall n num k, 0 < n -> num <= k ->
  exists j, list_sum (started k false n (Some num)) = n * j /\ 0 < j /\ num <= n * j /\ (1 < j -> n * (j - 1) < num).
Proof.
  intros n num k N K.
  assert (G : forall k i, 0 < i -> num <= k + n * i -> (1 < i -> n * (i - 1) < num) ->
     exists j, n * i + list_sum (further k false n (Some num) (n * i)) = n * j /\ 0 < j /\ num <= n * j /\ (1 < j -> n * (j - 1) < num)).
  { clear k K. induction k as [|k IH]; intros i I H L; [exists i; cbn; repeat split; auto; lia|]. cbn [further episodes_left option_map continues next_reset].
    destruct (Nat.ltb_spec 0 (num - n * i)); [|exists i; cbn; repeat split; auto; lia].
    destruct (IH (S i)) as (j & E & J); [lia|nia|intros _; replace (S i - 1) with i by lia; lia|]. exists j. split; [|exact J].
    match goal with |- _ + list_sum (?x :: ?l) = _ => change (list_sum (x :: l)) with (x + list_sum l) end. replace (n * i + n) with (n * S i) by lia. lia. }
  destruct (G k 1) as (j & E & J); [lia|lia|lia|]. rewrite Nat.mul_1_r in E. exists j. split; [exact E|exact J].
Qed.
(** No reset starts no episode, or more than there are instances *)
Theorem C180_rounds : forall v n num k, 0 < n -> Forall (fun s => 0 < s <= n) (started k v n num).
Proof.
  intros v n num k N. unfold started, first_reset. constructor; [lia|].
  assert (G : forall e, Forall (fun s => 0 < s <= n) (further k v n num e)); [|apply G]. induction k as [|k IH]; intros e; [constructor|]. cbn [further].
  destruct (continues (episodes_left num e)) eqn:C; constructor; [|apply IH]. unfold next_reset. destruct v; [|lia]. destruct (episodes_left num e); [|lia].
  cbn [continues] in C. apply Nat.ltb_lt in C. lia.
Qed.
(** Without a number of episodes there is always a further reset, whatever other limit is given *)
Theorem C180_other_limits_refuted : forall v n k, length (started k v n None) = S k.
Proof. intros v n k. unfold started. cbn [length]. f_equal. generalize (first_reset n). induction k as [|k IH]; intros e; [reflexivity|]. cbn. f_equal. apply IH. Qed.
(** The number asked for is not always kept *)
Theorem C180_exact_refuted : forall v n num k, 0 < num < n -> list_sum (started k v n (Some num)) = n.
Proof.
  intros v n num k H. unfold started, first_reset. assert (E : further k v n (Some num) n = []).
  { destruct k; [reflexivity|]. cbn [further episodes_left option_map continues]. replace (num - n) with 0 by lia. reflexivity. }
  rewrite E. cbn. lia.
Qed.
Print Assumptions C180_vectorizable.
Print Assumptions C180_actors.
Print Assumptions C180_rounds.
Print Assumptions C180_other_limits_refuted.
Print Assumptions C180_exact_refuted.

Example C180_case : started 10 true 4 (Some 10) = [4; 4; 2] /\ started 10 false 4 (Some 10) = [4; 4; 4] /\ started 10 true 4 (Some 1) = [4] /\ started 3 true 4 None = [4; 4; 4; 4].
Proof. repeat split. Qed.
