(** Theorems C179: the runner with a vectorized environment. *)

From Coq Require Import String List ZArith Bool Arith Lia.
From Verif Require Import Base VecModel VecSpec VecProofs.
Import ListNotations.
Open Scope string_scope.
Open Scope list_scope.
Open Scope Z_scope.

Section Instances.
Variables (S A R E : Type) (one : E -> A -> E * S * Z * R) (policy : nat -> S -> A) (act : list nat -> list S -> list A).
Local Notation pass := (pass S A R (list (option E)) (vector S A R E one) act).
Local Notation passes := (passes S A R (list (option E)) (vector S A R E one) act).
Local Notation alone := (alone S A R E one policy).
(** The agent acts for each number and state *)
Definition for_each : Prop := forall l : list (nat * S), act (map fst l) (map snd l) = map (fun ns => policy (fst ns) (snd ns)) l.
(** Terminals are not negative *)
Definition terminals : Prop := forall e a, 0 <= snd (fst (one e a)).

(** The first instances are reset, the others stay as they are *)
Theorem C179_reset : forall (ss : list S) prev old, (length ss <= length prev)%nat -> length old = length prev ->
  mark S (seq 0 (length ss)) ss prev old = Ok (repeat (-2) (length ss) ++ skipn (length ss) prev, map Some ss ++ skipn (length ss) old).
Proof. intros ss prev old L1 L2. exact (mark_from S 0 ss [] prev [] old eq_refl eq_refl L1 L2). Qed.

(** Any number of passes: every instance has the states, terminals, rewards and observations as if it were alone *)
Theorem C179_alone : for_each -> terminals -> forall k xs s, Forall (well S E) xs -> at_episodes S A E policy xs s ->
  exists os s' ys, passes k s = Ok (os, s') /\ at_episodes S A E policy ys s' /\ length ys = length xs /\
    forall n x, nth_error xs n = Some x -> of_number R n os = map (fun o => (fst o, Some (snd o))) (fst (alone k n x)) /\ nth_error ys n = Some (snd (alone k n x)).
Proof.
  intros H1 H2 k xs s F At. destruct (passes_ok S A R E one policy act H1 H2 k xs s F At) as (os & s' & P & At' & G). exists os, s', (iterate S A R E one policy k xs).
  split; auto. split; auto. split; [|exact G]. clear. revert xs. induction k as [|k IH]; intros xs; cbn; auto. rewrite IH. generalize 0%nat. induction xs; intros i; cbn; auto.
Qed.

(** After a reset: the first pass executes and observes nothing, and all which are reset act *)
Theorem C179_begin : for_each -> terminals -> forall l rest a, l <> [] -> Forall (fun p => 0 < p) rest ->
  let xs := map (fun x => Running (fst x) (snd x) (-1)) l ++ map Over rest in
  exists s', pass {| previous := repeat (-2) (length l) ++ rest; kept := map Some (map snd l) ++ repeat None (length rest); chosen := a;
                     env := map Some (map fst l) ++ repeat None (length rest) |} = Ok ([], s') /\ at_episodes S A E policy xs s' /\ Forall (well S E) xs.
Proof. intros H1 H2 l rest a N F. exact (begin_pass S A R E one policy act H1 l rest a N F). Qed.

(** From a reset on, up to the end of all episodes *)
Theorem C179_episodes : for_each -> terminals -> forall k l rest a, l <> [] -> Forall (fun p => 0 < p) rest ->
  exists os s', passes (Datatypes.S k) {| previous := repeat (-2) (length l) ++ rest; kept := map Some (map snd l) ++ repeat None (length rest); chosen := a;
                                           env := map Some (map fst l) ++ repeat None (length rest) |} = Ok (os, s') /\
    (forall n e x, nth_error l n = Some (e, x) -> of_number R n os = map (fun o => (fst o, Some (snd o))) (fst (alone k n (Running e x (-1))))) /\
    (forall n, (length l <= n < length l + length rest)%nat -> of_number R n os = []).
Proof.
  intros H1 H2 k l rest a N F. destruct (C179_begin H1 H2 l rest a N F) as (s1 & P & At & W). destruct (C179_alone H1 H2 k _ s1 W At) as (os & s2 & ys & Q & _ & _ & G).
  exists ([] :: os), s2. split; [|split].
  - cbn [VecModel.passes previous]. assert (Ex : existsb (fun t => t <=? 0) (repeat (-2) (length l) ++ rest) = true). { destruct l; [congruence|reflexivity]. }
    rewrite Ex, P. cbn [bind snd fst]. rewrite Q. reflexivity.
  - intros n e x Hn. destruct (G n (Running e x (-1))) as (G1 & _); [|exact G1]. rewrite nth_error_app1.
    + rewrite nth_error_map, Hn. reflexivity.
    + rewrite map_length. apply nth_error_Some. congruence.
  - intros n L. destruct (nth_error (map Over rest : list (episode S E)) (n - length l)) as [x|] eqn:Hx.
    + assert (Hx' := Hx). rewrite nth_error_map in Hx. destruct (nth_error rest (n - length l)) as [p|]; [|discriminate]. injection Hx as <-.
      destruct (G n (Over p)) as (G1 & _). { rewrite nth_error_app2 by (rewrite map_length; lia). rewrite map_length. exact Hx'. }
      rewrite (alone_over S A R E one policy) in G1. exact G1.
    + apply nth_error_None in Hx. rewrite map_length in Hx. lia.
Qed.
End Instances.
Print Assumptions C179_reset.
Print Assumptions C179_alone.
Print Assumptions C179_begin.
Print Assumptions C179_episodes.

(** The state of a terminated instance is rejected, but that of an aborted one is not *)
Theorem C179_rejected : forall S R (l : list (slot S R)) parallel states n x, In n parallel -> nth_error l n = Some x ->
  0 < s_terminal S R x -> s_terminal S R x <> 2 -> exists e, assign S R l parallel states = Err e.
Proof.
  intros S R l parallel states n x I N T1 T2.
  assert (P : forall m y (q : list (slot S R)) z, nth_error q m = Some z -> s_terminal S R y = s_terminal S R z ->
     forall k w, nth_error q k = Some w -> exists w', nth_error (put m y q) k = Some w' /\ s_terminal S R w' = s_terminal S R w).
  { intros m y. induction m as [|m IH]; intros [|u q] z Z1 Z2 [|k] w Hw; cbn in *; try discriminate; eauto.
    injection Z1 as ->. injection Hw as ->. eauto. }
  revert l states x I N T1 T2. induction parallel as [|m ps IH]; intros l states x I N T1 T2; [destruct I|]. cbn [assign].
  destruct (nth_error l m) as [y|] eqn:Hm; [|eauto]. destruct states as [|s states]; [eauto|]. destruct (Nat.eq_dec m n) as [->|D].
  - rewrite N in Hm. injection Hm as <-. replace (s_terminal S R x <=? 0) with false by (symmetry; apply Z.leb_gt; lia).
    replace (s_terminal S R x =? 2) with false by (symmetry; apply Z.eqb_neq; lia). cbn. eauto.
  - destruct I as [I|I]; [congruence|]. destruct ((s_terminal S R y <=? 0) || (s_terminal S R y =? 2)); cbn [assert_ bind]; [|eauto].
    destruct (P m {| s_state := Some s; s_terminal := s_terminal S R y; s_reward := s_reward S R y |} l y Hm eq_refl n x N) as (x' & N' & T').
    apply IH with x'; auto; rewrite T'; auto.
Qed.
Print Assumptions C179_rejected.

(** A running instance without a state cannot act *)
Theorem C179_missing : forall S A R act (l : list (slot S R)) (old : list A) x, In x l -> s_terminal S R x <= 0 -> s_state S R x = None ->
  exists e, act_joint S A R act l old = Err e.
Proof.
  intros S A R act l old x I T N.
  assert (E : exists e, acting_states S R l = Err e).
  { clear act old. induction l as [|y l IH]; [destruct I|]. cbn [acting_states]. destruct I as [->|I].
    - replace (s_terminal S R x <=? 0) with true by (symmetry; apply Z.leb_le; exact T). rewrite N. eauto.
    - destruct (IH I) as (e & E). rewrite E. destruct (s_terminal S R y <=? 0); eauto. destruct (s_state S R y); cbn; eauto. }
  destruct E as (e & E). unfold act_joint.
  assert (M : numbers (fun x => s_terminal S R x <=? 0) l <> []).
  { unfold numbers. generalize 0%nat. clear E. induction l as [|y l IH]; intros i; [destruct I|]. cbn [length seq combine filter snd].
    destruct (s_terminal S R y <=? 0) eqn:L; [discriminate|]. destruct I as [->|I]; [apply Z.leb_gt in L; lia|]. apply IH. exact I. }
  destruct (numbers _ l); [congruence|]. rewrite E. cbn. eauto.
Qed.
Print Assumptions C179_missing.

(** Counters which end at their action's sum above 3 *)
Definition count (e : Z) (a : Z) : Z * Z * Z * Z := (e + a, e + a, if 3 <? e + a then 1 else 0, a).
Definition count_act (ps : list nat) (ss : list Z) : list Z := map (fun ns => Z.of_nat (fst ns) + 1) (combine ps ss).
Example C179_hypotheses : for_each Z Z (fun n _ => Z.of_nat n + 1) count_act /\ terminals Z Z Z Z count.
Proof.
  split.
  - intros l. unfold count_act. f_equal. induction l as [|(n, s) l IH]; cbn; congruence.
  - intros e a. cbn. destruct (3 <? e + a); lia.
Qed.
Example C179_case : exists os s, passes Z Z Z (list (option Z)) (vector Z Z Z Z count) count_act 9
  {| previous := [-2; -2; 1]; kept := [Some 0; Some 0; None]; chosen := []; env := [Some 0; Some 0; None] |} = Ok (os, s) /\
  os = [[]; [(0%nat, 0, Some 1); (1%nat, 0, Some 2)]; [(0%nat, 0, Some 1); (1%nat, 1, Some 2)]; [(0%nat, 0, Some 1)]; [(0%nat, 1, Some 1)]] /\ previous _ _ _ s = [1; 1; 1].
Proof. eexists; eexists. split; [vm_compute; reflexivity|]. split; reflexivity. Qed.
Example C179_rejected_case : assign Z Z [{| s_state := None; s_terminal := 1; s_reward := Some 0 |}] [0%nat] [5] = Err "AssertionError" /\
  assign Z Z [{| s_state := None; s_terminal := 2; s_reward := Some 0 |}] [0%nat] [5] = Ok [{| s_state := Some 5; s_terminal := 2; s_reward := Some 0 |}].
Proof. split; reflexivity. Qed.
Example C179_reset_case : mark Z [0%nat; 1%nat] [7; 8] [1; 1; 2] [None; None; None] = Ok ([-2; -2; 2], [Some 7; Some 8; None]).
Proof. reflexivity. Qed.
Example C179_missing_case : act_joint Z Z Z count_act [{| s_state := Some 4; s_terminal := 0; s_reward := Some 0 |}; {| s_state := None; s_terminal := 0; s_reward := Some 0 |}] [] = Err "no state" /\
  act_joint Z Z Z count_act [{| s_state := Some 4; s_terminal := 0; s_reward := Some 0 |}; {| s_state := None; s_terminal := 1; s_reward := Some 0 |}] [] = Ok [1].
Proof. split; reflexivity. Qed.
