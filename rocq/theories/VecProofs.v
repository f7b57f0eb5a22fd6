(** Proofs for C179. *)

From Coq Require Import String List ZArith Bool Arith Lia.
From Verif Require Import Base VecModel VecSpec.
Import ListNotations.
Open Scope list_scope.
Open Scope Z_scope.

Section Instances.
Variables (S A R E : Type) (one : E -> A -> E * S * Z * R) (policy : nat -> S -> A) (act : list nat -> list S -> list A).
Hypothesis pointwise : forall l : list (nat * S), act (map fst l) (map snd l) = map (fun ns => policy (fst ns) (snd ns)) l.
Hypothesis positive : forall e a, 0 <= snd (fst (one e a)).
Local Notation episode := (episode S E).
Local Notation next := (next S A R E one policy).
Local Notation well := (well S E).
Local Notation choices := (choices S A E policy).
Local Notation slot := (slot S R).

Fixpoint nexts (i : nat) (xs : list episode) : list episode :=
  match xs with [] => [] | x :: q => fst (next i x) :: nexts (Datatypes.S i) q end.
Fixpoint survivors (i : nat) (xs : list episode) : list (nat * S) :=
  match xs with
  | [] => []
  | x :: q => match x, fst (next i x) with Running _ _ _, Running _ s _ => [(i, s)] | _, _ => [] end ++ survivors (Datatypes.S i) q
  end.
Fixpoint results (i : nat) (xs : list episode) : list (nat * (Z * R)) :=
  match xs with [] => [] | x :: q => match snd (next i x) with Some o => [(i, o)] | None => [] end ++ results (Datatypes.S i) q end.
Fixpoint mids (i : nat) (xs : list episode) : list slot :=
  match xs with
  | [] => []
  | x :: q => match x, snd (next i x) with
              | Running _ s _, Some (t, r) => {| s_state := if 0 <? t then None else Some s; s_terminal := t; s_reward := Some r |}
              | _, _ => {| s_state := None; s_terminal := terminal_of _ _ x; s_reward := None |}
              end :: mids (Datatypes.S i) q
  end.
Fixpoint finals (i : nat) (xs : list episode) : list slot :=
  match xs with
  | [] => []
  | x :: q => {| s_state := state_of _ _ (fst (next i x)); s_terminal := terminal_of _ _ (fst (next i x)); s_reward := option_map snd (snd (next i x)) |} :: finals (Datatypes.S i) q
  end.

Ltac stepone e s i := let e' := fresh "e'" in let s' := fresh "s'" in let t := fresh "t" in let r := fresh "r" in let O := fresh "O" in
  destruct (one e (policy i s)) as (((e', s'), t), r) eqn:O.

Lemma together_ok i xs : together S A R E one i (map (world_of S E) xs) (choices i xs) =
  (map fst (survivors i xs), map snd (survivors i xs), map (fun x => fst (snd x)) (results i xs), map (fun x => snd (snd x)) (results i xs), map (world_of S E) (nexts i xs)).
Proof.
  revert i. induction xs as [|x xs IH]; intros i; [reflexivity|]. destruct x as [e s p|p]; cbn.
  - stepone e s i. rewrite IH. destruct (0 <? t); reflexivity.
  - rewrite IH. reflexivity.
Qed.
Lemma spread_ok i xs : Forall well xs -> spread S R (map (terminal_of S E) xs) (map (state_of S E) xs) (map (fun x => fst (snd x)) (results i xs)) (map (fun x => snd (snd x)) (results i xs)) = Ok (mids i xs).
Proof.
  intros F. revert i. induction F as [|x xs H F IH]; intros i; [reflexivity|]. destruct x as [e s p|p]; cbn in *.
  - replace (p <=? 0) with true by (symmetry; apply Z.leb_le; lia). stepone e s i. cbn. rewrite IH. reflexivity.
  - replace (p <=? 0) with false by (symmetry; apply Z.leb_gt; lia). rewrite IH. reflexivity.
Qed.
Lemma put_app {X} (a : list X) x y b : put (length a) x (a ++ y :: b) = a ++ x :: b.
Proof. induction a; cbn; congruence. Qed.
Lemma assign_ok i xs pre : length pre = i -> assign S R (pre ++ mids i xs) (map fst (survivors i xs)) (map snd (survivors i xs)) = Ok (pre ++ finals i xs).
Proof.
  revert i pre. induction xs as [|x xs IH]; intros i pre L; [reflexivity|].
  assert (Go : forall y, assign S R (pre ++ y :: mids (Datatypes.S i) xs) (map fst (survivors (Datatypes.S i) xs)) (map snd (survivors (Datatypes.S i) xs)) = Ok (pre ++ y :: finals (Datatypes.S i) xs)).
  { intros y. specialize (IH (Datatypes.S i) (pre ++ [y])). rewrite <- !app_assoc in IH. apply IH. rewrite app_length. cbn. lia. }
  destruct x as [e s p|p]; cbn.
  - assert (P := positive e (policy i s)). stepone e s i. cbn in *. destruct (0 <? t) eqn:T; cbn [app map fst snd assign].
    + apply Go.
    + apply Z.ltb_ge in T. rewrite nth_error_app2 by lia. replace (i - length pre)%nat with 0%nat by lia. cbn [nth_error s_terminal s_reward s_state].
      replace (t <=? 0) with true by (symmetry; apply Z.leb_le; lia). cbn [orb assert_ bind]. rewrite <- L at 1. rewrite put_app. apply Go.
  - apply Go.
Qed.
Lemma numbers_from i (xs : list episode) : Forall well xs ->
  map fst (filter (fun nx : nat * slot => s_terminal S R (snd nx) <=? 0) (combine (seq i (length (finals i xs))) (finals i xs))) = map fst (survivors i xs).
Proof.
  intros F. revert i. induction F as [|x xs H F IH]; intros i; [reflexivity|]. destruct x as [e s p|p]; cbn in *.
  - assert (P := positive e (policy i s)). stepone e s i. cbn in *. destruct (0 <? t) eqn:T; cbn.
    + apply Z.ltb_lt in T. replace (t <=? 0) with false by (symmetry; apply Z.leb_gt; lia). apply IH.
    + apply Z.ltb_ge in T. replace (t <=? 0) with true by (symmetry; apply Z.leb_le; lia). cbn. f_equal. apply IH.
  - replace (p <=? 0) with false by (symmetry; apply Z.leb_gt; lia). apply IH.
Qed.
Lemma acting_ok i xs : Forall well xs -> acting_states S R (finals i xs) = Ok (map snd (survivors i xs)).
Proof.
  intros F. revert i. induction F as [|x xs H F IH]; intros i; [reflexivity|]. destruct x as [e s p|p]; cbn in *.
  - stepone e s i. cbn in *. destruct (0 <? t) eqn:T; cbn.
    + apply Z.ltb_lt in T. replace (t <=? 0) with false by (symmetry; apply Z.leb_gt; lia). apply IH.
    + apply Z.ltb_ge in T. replace (t <=? 0) with true by (symmetry; apply Z.leb_le; lia). rewrite IH. reflexivity.
  - replace (p <=? 0) with false by (symmetry; apply Z.leb_gt; lia). apply IH.
Qed.
Lemma choices_ok i xs : choices i (nexts i xs) = map (fun ns => policy (fst ns) (snd ns)) (survivors i xs).
Proof.
  revert i. induction xs as [|x xs IH]; intros i; [reflexivity|]. destruct x as [e s p|p]; cbn.
  - stepone e s i. cbn. destruct (0 <? t); cbn; rewrite IH; reflexivity.
  - apply IH.
Qed.
Lemma running_ok i xs : existsb (running S E) (nexts i xs) = match survivors i xs with [] => false | _ => true end.
Proof.
  revert i. induction xs as [|x xs IH]; intros i; [reflexivity|]. destruct x as [e s p|p]; cbn.
  - stepone e s i. cbn. destruct (0 <? t); cbn; [apply IH|reflexivity].
  - apply IH.
Qed.
Lemma observed_from i xs : Forall well xs ->
  map (fun nx : nat * (Z * slot) => (fst nx, s_terminal S R (snd (snd nx)), s_reward S R (snd (snd nx))))
    (filter (fun nx => (fst (snd nx) <=? 0) && (0 <=? s_terminal S R (snd (snd nx)))) (combine (seq i (length (finals i xs))) (combine (map (terminal_of S E) xs) (finals i xs)))) =
  map (fun x => (fst x, fst (snd x), Some (snd (snd x)))) (results i xs).
Proof.
  intros F. revert i. induction F as [|x xs H F IH]; intros i; [reflexivity|]. destruct x as [e s p|p]; cbn in *.
  - replace (p <=? 0) with true by (symmetry; apply Z.leb_le; lia). assert (P := positive e (policy i s)). stepone e s i. cbn in *. destruct (0 <? t) eqn:T; cbn;
    (replace (0 <=? t) with true by (symmetry; apply Z.leb_le; lia)); cbn; f_equal; apply IH.
  - replace (p <=? 0) with false by (symmetry; apply Z.leb_gt; lia). cbn. apply IH.
Qed.
Lemma nexts_well i xs : Forall well xs -> Forall well (nexts i xs).
Proof.
  intros F. revert i. induction F as [|x xs H F IH]; intros i; cbn; constructor; auto. destruct x as [e s p|p]; cbn; auto.
  assert (P := positive e (policy i s)). stepone e s i. cbn in *. destruct (0 <? t) eqn:T; cbn; [apply Z.ltb_lt in T|apply Z.ltb_ge in T]; lia.
Qed.
Lemma finals_terminal i xs : map (s_terminal S R) (finals i xs) = map (terminal_of S E) (nexts i xs) /\ map (s_state S R) (finals i xs) = map (state_of S E) (nexts i xs).
Proof. revert i. induction xs as [|x xs IH]; intros i; cbn; [auto|]. destruct (IH (Datatypes.S i)) as (-> & ->). auto. Qed.
Lemma not_begin xs : Forall well xs -> forallb (fun t => -1 <=? t) (map (terminal_of S E) xs) = true.
Proof. induction 1 as [|x xs H F IH]; cbn; auto. rewrite IH, andb_true_r. apply Z.leb_le. destruct x; cbn in *; lia. Qed.
Lemma some_running xs : Forall well xs -> existsb (fun t => t <=? 0) (map (terminal_of S E) xs) = existsb (running S E) xs.
Proof.
  induction 1 as [|x xs H F IH]; cbn; auto. rewrite IH. f_equal. destruct x; cbn in *; [apply Z.leb_le|apply Z.leb_gt]; lia.
Qed.

Local Notation pass := (pass S A R (list (option E)) (vector S A R E one) act).
Local Notation passes := (passes S A R (list (option E)) (vector S A R E one) act).
Local Notation at_episodes := (at_episodes S A E policy).

Definition observation (x : nat * (Z * R)) : nat * Z * option R := (fst x, fst (snd x), Some (snd (snd x))).

Lemma pass_ok xs s : Forall well xs -> existsb (running S E) xs = true -> at_episodes xs s ->
  exists s', pass s = Ok (map observation (results 0 xs), s') /\ at_episodes (nexts 0 xs) s'.
Proof.
  intros F Ru (P & K & W & C). specialize (C Ru). unfold VecModel.pass, advance. rewrite P, K, W, C, not_begin by auto. unfold vector. rewrite together_ok. cbn [bind].
  rewrite spread_ok by auto. cbn [bind]. assert (As := assign_ok 0 xs [] eq_refl). cbn [app] in As. rewrite As. cbn [bind].
  unfold act_joint, numbers. rewrite numbers_from, acting_ok by auto. cbn [bind].
  destruct (finals_terminal 0 xs) as (Ft & Fs).
  set (a := match map fst (survivors 0 xs) with [] => Ok (choices 0 xs) | n :: l => Ok (act (n :: l) (map snd (survivors 0 xs))) end).
  assert (Ha : exists b, a = Ok b /\ (existsb (running S E) (nexts 0 xs) = true -> b = choices 0 (nexts 0 xs))).
  { unfold a. rewrite running_ok, choices_ok. destruct (survivors 0 xs) as [|ns l] eqn:Sv; [eexists; split; [reflexivity|discriminate]|].
    cbn [map]. eexists. split; [reflexivity|]. intros _. exact (pointwise (ns :: l)). }
  destruct Ha as (b & -> & Hb). cbn [bind]. eexists. split.
  - unfold observe_joint. rewrite observed_from by auto. reflexivity.
  - unfold VecSpec.at_episodes. cbn. rewrite Ft, Fs. auto.
Qed.

Fixpoint iterate (k : nat) (xs : list episode) : list episode := match k with O => xs | Datatypes.S k => iterate k (nexts 0 xs) end.
Lemma over_next i xs : existsb (running S E) xs = false -> nexts i xs = xs /\ results i xs = [].
Proof.
  revert i. induction xs as [|x xs IH]; intros i; cbn; [auto|]. destruct x as [e s p|p]; cbn; [discriminate|]. intros H. destruct (IH (Datatypes.S i) H) as (-> & ->). auto.
Qed.
Lemma over_iterate k xs : existsb (running S E) xs = false -> iterate k xs = xs.
Proof. induction k as [|k IH]; cbn; intros H; auto. rewrite (proj1 (over_next 0 xs H)). auto. Qed.

Lemma nexts_nth i xs n x : nth_error xs n = Some x -> nth_error (nexts i xs) n = Some (fst (next (i + n) x)).
Proof.
  revert i n. induction xs as [|y xs IH]; intros i [|n]; cbn; try discriminate.
  - intros [= ->]. rewrite Nat.add_0_r. auto.
  - intros H. rewrite (IH (Datatypes.S i) n H). do 2 f_equal. f_equal. lia.
Qed.
Lemma results_low i xs n : (n < i)%nat -> filter (fun x : nat * (Z * R) => Nat.eqb (fst x) n) (results i xs) = [].
Proof.
  revert i. induction xs as [|y xs IH]; intros i L; cbn; [auto|]. destruct (snd (next i y)) as [o|]; cbn; [|apply IH; lia].
  replace (Nat.eqb i n) with false by (symmetry; apply Nat.eqb_neq; lia). apply IH; lia.
Qed.
Lemma results_nth i xs n x : nth_error xs n = Some x ->
  map snd (filter (fun x : nat * (Z * R) => Nat.eqb (fst x) (i + n)) (results i xs)) = match snd (next (i + n) x) with Some o => [o] | None => [] end.
Proof.
  revert i n. induction xs as [|y xs IH]; intros i [|n]; cbn [nth_error]; try discriminate.
  - intros [= ->]. rewrite Nat.add_0_r. cbn [results]. rewrite filter_app, map_app, results_low by lia. destruct (snd (next i x)) as [o|]; cbn; [rewrite Nat.eqb_refl|]; reflexivity.
  - intros H. cbn [results]. rewrite filter_app, map_app. replace (i + Datatypes.S n)%nat with (Datatypes.S i + n)%nat by lia. rewrite (IH (Datatypes.S i) n H).
    destruct (snd (next i y)) as [o|]; cbn; [|reflexivity]. replace (Nat.eqb i (Datatypes.S (i + n))) with false by (symmetry; apply Nat.eqb_neq; lia). reflexivity.
Qed.

Local Notation alone := (alone S A R E one policy).
Definition given (o : Z * R) : Z * option R := (fst o, Some (snd o)).

Lemma alone_over k n p : alone k n (Over p) = ([], Over p).
Proof. induction k as [|k IH]; cbn; [auto|]. rewrite IH. auto. Qed.
Lemma over_nth (xs : list episode) n x : existsb (running S E) xs = false -> nth_error xs n = Some x -> exists p, x = Over p.
Proof.
  intros H N. apply nth_error_In in N. destruct x as [e s p|p]; [|eauto]. assert (T : existsb (running S E) xs = true) by (apply existsb_exists; exists (Running e s p); auto). congruence.
Qed.

Lemma passes_ok k xs s : Forall well xs -> at_episodes xs s ->
  exists os s', passes k s = Ok (os, s') /\ at_episodes (iterate k xs) s' /\
    forall n x, nth_error xs n = Some x -> of_number R n os = map given (fst (alone k n x)) /\ nth_error (iterate k xs) n = Some (snd (alone k n x)).
Proof.
  revert xs s. induction k as [|k IH]; intros xs s F At.
  - exists [], s. split; [reflexivity|]. split; auto.
  - cbn [VecModel.passes]. rewrite (proj1 At), some_running by auto. destruct (existsb (running S E) xs) eqn:Ru.
    + destruct (pass_ok xs s F Ru At) as (s1 & -> & At1). cbn [bind snd fst]. destruct (IH (nexts 0 xs) s1 (nexts_well 0 xs F) At1) as (os & s2 & -> & At2 & G). cbn [bind snd fst].
      eexists; eexists. split; [reflexivity|]. split; [exact At2|]. intros n x N. assert (N1 := nexts_nth 0 xs n x N). cbn [Nat.add] in N1. destruct (G n _ N1) as (G1 & G2).
      assert (R1 := results_nth 0 xs n x N). cbn [Nat.add] in R1. cbn [VecSpec.alone iterate]. destruct (next n x) as (x', o) eqn:Nx. cbn [fst snd] in *.
      destruct (alone k n x') as (ol, y) eqn:Al. cbn [fst snd] in *. split; auto. unfold of_number. cbn [flat_map]. unfold of_number in G1. rewrite G1, map_app. f_equal.
      transitivity (map given (map snd (filter (fun x : nat * (Z * R) => Nat.eqb (fst x) n) (results 0 xs)))); [|rewrite R1; auto].
      clear. induction (results 0 xs) as [|z l IH]; cbn; auto. destruct (Nat.eqb (fst z) n); cbn; rewrite IH; auto.
    + exists [], s. split; [reflexivity|]. rewrite over_iterate by auto. split; auto. intros n x N. destruct (over_nth _ _ _ Ru N) as (p & ->). rewrite alone_over. auto.
Qed.

(** After a reset *)
Lemma put_mid {X} (a : list X) x y b n : n = length a -> put n x (a ++ y :: b) = a ++ x :: b.
Proof. intros ->. apply put_app. Qed.
Lemma mark_from i (ss : list S) pre prev opre old : length pre = i -> length opre = i -> (length ss <= length prev)%nat -> length old = length prev ->
  mark S (seq i (length ss)) ss (pre ++ prev) (opre ++ old) = Ok (pre ++ repeat (-2) (length ss) ++ skipn (length ss) prev, opre ++ map Some ss ++ skipn (length ss) old).
Proof.
  revert i pre prev opre old. induction ss as [|s ss IH]; intros i pre prev opre old L1 L2 L3 L4; [reflexivity|]. destruct prev as [|p prev]; [cbn in L3; lia|].
  destruct old as [|o old]; [cbn in L4; lia|]. cbn [length seq mark]. rewrite nth_error_app2 by lia. rewrite L1, Nat.sub_diag. cbn [nth_error].
  rewrite !put_mid by auto. specialize (IH (Datatypes.S i) (pre ++ [-2]) prev (opre ++ [Some s]) old). rewrite <- !app_assoc in IH. cbn [app] in IH. rewrite IH.
  - reflexivity.
  - rewrite app_length. cbn. lia.
  - rewrite app_length. cbn. lia.
  - cbn in L3. lia.
  - cbn in L4. lia.
Qed.

Definition fresh (l : list (E * S)) (rest : list Z) : list episode := map (fun x => Running (fst x) (snd x) (-1)) l ++ map Over rest.
Definition first_slots (l : list (E * S)) (rest : list Z) : list slot :=
  map (fun x => {| s_state := Some (snd x); s_terminal := -1; s_reward := None |}) l ++ map (fun p => {| s_state := None; s_terminal := p; s_reward := None |}) rest.
Lemma begin_ok l rest : Forall (fun p => 0 < p) rest ->
  begin S R (repeat (-2) (length l) ++ rest) (map Some (map snd l) ++ repeat None (length rest)) = first_slots l rest.
Proof.
  intros F. unfold begin, first_slots. induction l as [|x l IH]; cbn.
  - induction F as [|p rest P F IHr]; cbn; [auto|]. replace (p <? -1) with false by (symmetry; apply Z.ltb_ge; lia). f_equal. apply IHr.
  - f_equal. apply IH.
Qed.
Lemma first_none i rest : Forall (fun p => 0 < p) rest ->
  filter (fun nx : nat * slot => s_terminal S R (snd nx) <=? 0) (combine (seq i (length rest)) (map (fun p => {| s_state := None; s_terminal := p; s_reward := None |}) rest)) = [].
Proof.
  intros F. revert i. induction F as [|p rest P F IH]; intros i; cbn; [auto|]. replace (p <=? 0) with false by (symmetry; apply Z.leb_gt; lia). apply IH.
Qed.
Lemma first_numbers i l rest : Forall (fun p => 0 < p) rest ->
  map fst (filter (fun nx : nat * slot => s_terminal S R (snd nx) <=? 0) (combine (seq i (length (first_slots l rest))) (first_slots l rest))) = seq i (length l).
Proof.
  intros F. revert i. induction l as [|x l IH]; intros i; cbn.
  - unfold first_slots. cbn. rewrite map_length. rewrite first_none by auto. reflexivity.
  - f_equal. apply IH.
Qed.
Lemma first_acting l rest : Forall (fun p => 0 < p) rest -> acting_states S R (first_slots l rest) = Ok (map snd l).
Proof.
  intros F. induction l as [|x l IH]; cbn.
  - induction F as [|p rest P F IHr]; cbn; [auto|]. replace (p <=? 0) with false by (symmetry; apply Z.leb_gt; lia). apply IHr.
  - unfold first_slots in IH. rewrite IH. reflexivity.
Qed.
Lemma first_observed i l rest : Forall (fun p => 0 < p) rest ->
  filter (fun nx : nat * (Z * slot) => (fst (snd nx) <=? 0) && (0 <=? s_terminal S R (snd (snd nx))))
    (combine (seq i (length (first_slots l rest))) (combine (repeat (-2) (length l) ++ rest) (first_slots l rest))) = [].
Proof.
  intros F. revert i. induction l as [|x l IH]; intros i; cbn.
  - revert i. induction F as [|p rest P F IHr]; intros i; cbn; [auto|]. replace (p <=? 0) with false by (symmetry; apply Z.leb_gt; lia). cbn. apply IHr.
  - apply IH.
Qed.
Lemma first_choices i l rest : choices i (fresh l rest) = map (fun ns => policy (fst ns) (snd ns)) (combine (seq i (length l)) (map snd l)).
Proof.
  revert i. induction l as [|x l IH]; intros i; cbn.
  - unfold fresh. cbn. revert i. induction rest as [|p rest IH]; intros i; cbn; auto.
  - f_equal. apply IH.
Qed.
Lemma combine_fst {X Y} (a : list X) (b : list Y) : length a = length b -> map fst (combine a b) = a /\ map snd (combine a b) = b.
Proof. revert b. induction a as [|x a IH]; intros [|y b] L; cbn in *; try discriminate; auto. destruct (IH b) as (-> & ->); auto. Qed.
Lemma first_fields l rest : map (s_terminal S R) (first_slots l rest) = map (terminal_of S E) (fresh l rest) /\ map (s_state S R) (first_slots l rest) = map (state_of S E) (fresh l rest).
Proof. unfold first_slots, fresh. rewrite !map_app, !map_map. cbn. auto. Qed.
Lemma begin_pass l rest a : l <> [] -> Forall (fun p => 0 < p) rest ->
  exists s', pass {| previous := repeat (-2) (length l) ++ rest; kept := map Some (map snd l) ++ repeat None (length rest); chosen := a;
                     env := map Some (map fst l) ++ repeat None (length rest) |} = Ok ([], s') /\ at_episodes (fresh l rest) s' /\ Forall well (fresh l rest).
Proof.
  intros N F. unfold VecModel.pass, advance. cbn [previous kept chosen env].
  assert (B : forallb (fun t => -1 <=? t) (repeat (-2) (length l) ++ rest) = false). { destruct l; [congruence|]. reflexivity. }
  rewrite B. cbn [bind]. rewrite begin_ok by auto. cbn [bind]. unfold act_joint, numbers. rewrite first_numbers, first_acting by auto. cbn [bind].
  assert (Ac : match seq 0 (length l) with [] => Ok a | n :: q => Ok (act (n :: q) (map snd l)) end = Ok (choices 0 (fresh l rest))).
  { rewrite first_choices. destruct (combine_fst (seq 0 (length l)) (map snd l)) as (C1 & C2); [rewrite seq_length, map_length; auto|].
    rewrite <- pointwise, C1, C2. destruct l; [congruence|]. reflexivity. }
  rewrite Ac. cbn [bind]. destruct (first_fields l rest) as (F1 & F2). eexists. split; [|split].
  - unfold observe_joint. rewrite first_observed by auto. reflexivity.
  - unfold VecSpec.at_episodes. cbn [previous kept chosen env]. rewrite F1, F2. split; auto. split; auto. split; auto. unfold fresh. rewrite map_app, !map_map. cbn. f_equal.
    clear. induction rest; cbn; congruence.
  - unfold fresh. apply Forall_app. split; apply Forall_forall; intros x I; apply in_map_iff in I; destruct I as (y & <- & I); cbn; [lia|]. rewrite Forall_forall in F. auto.
Qed.
End Instances.
