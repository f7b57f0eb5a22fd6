(** Theorems about the experience memory (C01-C10). *)

From Coq Require Import String List ZArith Lia Bool Permutation.
From Coq Require Import ZifyBool ZifyNat.
From Verif Require Import Base BaseFacts MemSpec MemModel MemProofs MemQueries.
Import ListNotations.
Open Scope Z_scope.

Notation len l := (Z.of_nat (length l)).

(** A history used by the examples: capacity 4, payloads are numbers. *)
Definition ex_calls : list (call Z) :=
  [Store [(1, 0); (2, 0)]; Store [(3, 1)]; Store [(4, 0)]; Reset; Store [(5, 1)]; Store [(6, 0)]].

Lemma ex_legal : Forall (legal_call 4) ex_calls.
Proof.
  repeat constructor.
  - exists [(1, 0)], (2, 0). repeat split; cbn; try lia. repeat constructor.
  - exists [], (3, 1). repeat split; cbn; try lia. constructor.
  - exists [], (4, 0). repeat split; cbn; try lia. constructor.
  - exists [], (5, 1). repeat split; cbn; try lia. constructor.
  - exists [], (6, 0). repeat split; cbn; try lia. constructor.
Qed.

(** ** C01 *)
Lemma window_read {A} (zero : A) cap l s : Inv zero cap l s ->
  queue_retrieve s (map (fun p => p mod cap) (zrange (len l - Z.min cap (len l)) (len l)))
  = Ok (lastn (Z.to_nat (Z.min cap (len l))) (view l)).
Proof.
  intros I. pose proof (inv_cap1 _ _ _ _ I).
  set (n := Z.to_nat (Z.min cap (len l))).
  replace (len l - Z.min cap (len l)) with (Z.of_nat (length l - n)) by lia.
  replace (zrange (Z.of_nat (length l - n)) (len l)) with (zrange (Z.of_nat (length l - n)) (Z.of_nat (length l - n) + Z.of_nat n))
    by (f_equal; lia).
  rewrite (retrieve_run zero cap l) by (auto; lia). f_equal. unfold segment, lastn. rewrite view_length.
  apply firstn_all2. rewrite skipn_length, view_length. lia.
Qed.

(** After any legal history the memory holds exactly the newest
    min(cap, number ever stored) timesteps, in order: timestep number [i] of
    the log is in slot [i mod cap], and different retained timesteps are in
    different slots. *)
Theorem C01_memory_newest : forall A (zero : A) cap cs s,
  1 <= cap -> Forall (legal_call cap) cs -> qrun zero cap cs = Ok s ->
  let l := log_of cs in
  let n := Z.min cap (len l) in
  queue_retrieve s (map (fun p => p mod cap) (zrange (len l - n) (len l)))
    = Ok (lastn (Z.to_nat n) (view l)) /\
  (forall i e, retained cap l i -> nth_error (view l) i = Some e ->
     queue_retrieve s [Z.of_nat i mod cap] = Ok [e]) /\
  (forall i j, retained cap l i -> retained cap l j ->
     Z.of_nat i mod cap = Z.of_nat j mod cap -> i = j) /\
  q_bidx s = len l.
Proof.
  intros A zero cap cs s Hc HL Hr l n. pose proof (run_inv' _ _ _ _ Hc HL Hr) as I. split; [|split; [|split]].
  - now apply (window_read zero).
  - intros i e. now apply (retrieve_at zero).
  - intros i j [H1 H2] [H3 H4] E. pose proof (Zmod_window_inj cap (Z.of_nat i) (Z.of_nat j) (len l - cap)) as W.
    apply Nat2Z.inj. apply W; auto; lia.
  - now apply (inv_bidx _ _ _ _ I).
Qed.
Print Assumptions C01_memory_newest.

Example C01_example : exists s, qrun 0 4 ex_calls = Ok s /\
  log_of ex_calls = [(1, 0); (2, 0); (3, 1); (4, 2); (5, 1); (6, 0)] /\
  queue_retrieve s [2; 3; 0; 1] = Ok [(3, 1); (4, 2); (5, 1); (6, 3)].
Proof. eexists. split; [vm_compute; reflexivity|]. vm_compute. repeat split. Qed.

(** ** C02 *)
Theorem C02_legal_accepted : forall A (zero : A) cap cs,
  1 <= cap -> Forall (legal_call cap) cs -> is_ok (qrun zero cap cs).
Proof. intros A zero cap cs Hc HL. destruct (run_inv zero cap cs Hc HL) as (s & H & _). exists s. exact H. Qed.
Print Assumptions C02_legal_accepted.

Lemma enqueue_errors {A} (zero : A) cap l s b :
  Inv zero cap l s -> Forall (fun e => 0 <= snd e <= 2) b ->
  (cap < len b -> queue_enqueue s b = Err "Memory does not have enough capacity.") /\
  (len b <= cap -> (exists p q r x y, b = p ++ x :: q ++ y :: r /\ ends x = true /\ ends y = true) ->
     queue_enqueue s b = Err "Timesteps contain more than one terminal.") /\
  (len b <= cap -> (exists p q x, b = p ++ x :: q /\ q <> [] /\ ends x = true /\ Forall (fun e => ends e = false) (p ++ q)) ->
     queue_enqueue s b = Err "Terminal is not the last timestep.") /\
  (b = [] -> exists e, queue_enqueue s b = Err e).
Proof.
  intros I Hf. destruct (unmark_ok zero cap l s I) as (lt & term1 & G1 & G2 & G3 & G4 & G5).
  pose proof (inv_cap1 _ _ _ _ I) as Hc.
  assert (forall c : bool, ends (A := A) = fun e => negb (snd e =? 0)) as _ by reflexivity.
  unfold queue_enqueue. rewrite G1. cbn [bind]. rewrite G2. cbn [bind]. rewrite (inv_cap _ _ _ _ I).
  assert (forall b : list (A * Z), count_nonzero (map snd b) = len (filter ends b)) as Hcn by (intros; apply count_nonzero_map).
  split; [|split; [|split]].
  - intros H. destruct (Z.leb_spec (len b) cap); [lia|]. reflexivity.
  - intros H (p & q & r & x & y & -> & Hx & Hy).
    destruct (Z.leb_spec (len (p ++ x :: q ++ y :: r)) cap); [|lia]. cbn [assert_ bind]. rewrite Hcn.
    rewrite filter_app. cbn [filter]. rewrite Hx, filter_app. cbn [filter]. rewrite Hy.
    rewrite !app_length. cbn [length]. rewrite app_length. cbn [length].
    match goal with |- context [?a <=? 1] => destruct (Z.leb_spec a 1); [lia|] end. reflexivity.
  - intros H (p & q & x & -> & Hq & Hx & Hz).
    destruct (Z.leb_spec (len (p ++ x :: q)) cap); [|lia]. cbn [assert_ bind]. rewrite Hcn.
    apply Forall_app in Hz as [Hz1 Hz2].
    rewrite filter_app. cbn [filter]. rewrite Hx.
    rewrite (filter_none _ p) by (intros e He; rewrite Forall_forall in Hz1; auto).
    rewrite (filter_none _ q) by (intros e He; rewrite Forall_forall in Hz2; auto).
    cbn [app length]. change (Z.of_nat 1 <=? 1) with true. cbn [assert_ bind].
    destruct (Z.eqb_spec (len (p ++ x :: q)) 0) as [E0|E0]; [rewrite app_length in E0; cbn [length] in E0; lia|].
    cbn [negb assert_ bind].
    assert (existsb (fun t => 0 <? t) (map snd (p ++ x :: q)) = true) as ->.
    { apply existsb_exists. exists (snd x). split; [apply in_map; apply in_elt|].
      apply Forall_app in Hf as [_ Hf]. inversion_clear Hf as [|? ? Hr _]. unfold ends in Hx. lia. }
    assert (0 <? last (map snd (p ++ x :: q)) 0 = false) as ->; [|reflexivity].
    destruct (list_rev_destruct q) as [->|(q0 & y & ->)]; [congruence|].
    rewrite map_app. cbn [map]. rewrite map_app. cbn [map].
    rewrite (app_comm_cons (map snd q0)), app_assoc, last_last.
    apply Forall_app in Hz2 as [_ Hz2]. inversion_clear Hz2 as [|? ? Hy _]. unfold ends in Hy. lia.
  - intros ->. cbn. destruct (Z.leb_spec 0 cap); [|lia]. cbn. eauto.
Qed.

(** Every batch that is not legal is rejected; too long a batch, a second
    terminal and a terminal that is not last with their own messages. *)
Theorem C02_malformed_rejected : forall A (zero : A) cap cs b,
  1 <= cap -> Forall (legal_call cap) cs -> flags_ok (Store b) ->
  (~ legal_batch cap b -> exists e, qrun zero cap (cs ++ [Store b]) = Err e) /\
  (cap < len b -> qrun zero cap (cs ++ [Store b]) = Err "Memory does not have enough capacity.") /\
  (len b <= cap -> (exists p q r x y, b = p ++ x :: q ++ y :: r /\ ends x = true /\ ends y = true) ->
     qrun zero cap (cs ++ [Store b]) = Err "Timesteps contain more than one terminal.") /\
  (len b <= cap -> (exists p q x, b = p ++ x :: q /\ q <> [] /\ ends x = true /\ Forall (fun e => ends e = false) (p ++ q)) ->
     qrun zero cap (cs ++ [Store b]) = Err "Terminal is not the last timestep.").
Proof.
  intros A zero cap cs b Hc HL Hf. destruct (run_inv zero cap cs Hc HL) as (s & H & I).
  rewrite qrun_snoc, H. cbn [bind qstep].
  destruct (enqueue_errors zero cap _ s b I Hf) as (E1 & E2 & E3 & _).
  split; [|auto]. intros HN. eapply enqueue_rejects; eauto.
Qed.
Print Assumptions C02_malformed_rejected.

Example C02_example :
  is_ok (qrun 0 4 ex_calls) /\
  qrun 0 4 (ex_calls ++ [Store [(7, 1); (8, 0)]]) = Err "Terminal is not the last timestep." /\
  qrun 0 4 (ex_calls ++ [Store [(7, 1); (8, 2)]]) = Err "Timesteps contain more than one terminal." /\
  qrun 0 4 (ex_calls ++ [Store [(7, 0); (8, 0); (9, 0); (10, 0); (11, 0)]]) = Err "Memory does not have enough capacity.".
Proof. split; [eexists; vm_compute; reflexivity|]. vm_compute. repeat split. Qed.

(** ** C03 *)
(** Log position of the end of the [k]-th complete episode; -1, the position
    before the first timestep, for [k = 0]. *)
Definition episode_end {A} (l : log A) (k : nat) : Z := len (concat (firstn k (complete_episodes l))) - 1.

(** The episode count is the largest [k] such that the last [k] complete
    episodes, the unfinished rest and one more timestep (the preceding episode
    end) fit the capacity (-1 if not even the unfinished rest does), and the
    recorded end positions are those of these episodes preceded by the end
    before them. *)
Theorem C03_episode_index : forall A (zero : A) cap cs s,
  1 <= cap -> Forall (legal_call cap) cs -> qrun zero cap cs = Ok s ->
  let l := log_of cs in
  let eps := complete_episodes l in
  -1 <= q_ecount s <= len eps /\
  (forall k, (k <= length eps)%nat ->
     (Z.of_nat k <= q_ecount s <-> len (concat (lastn k eps)) + len (open_rest l) + 1 <= cap)) /\
  (forall r, 0 <= r <= q_ecount s ->
     gather (q_tind s) r = Ok (episode_end l (Z.to_nat (len eps - q_ecount s + r)) mod cap)).
Proof.
  intros A zero cap cs s Hc HL Hr l eps. pose proof (run_inv' _ _ _ _ Hc HL Hr) as I.
  destruct (ecount_spec _ _ _ _ I) as (H1 & H2 & H3 & _). split; [exact H1|]. split.
  - intros k Hk. specialize (H2 k Hk). unfold total in H2. fold l eps in H2. lia.
  - exact H3.
Qed.
Print Assumptions C03_episode_index.

Example C03_example : exists s, qrun 0 4 ex_calls = Ok s /\
  complete_episodes (log_of ex_calls) = [[(1, 0); (2, 0); (3, 1)]; [(4, 2)]; [(5, 1)]] /\
  open_rest (log_of ex_calls) = [(6, 0)] /\
  q_ecount s = 2 /\ slice (q_tind s) 0 3 = [2; 3; 0].
Proof. eexists. split; [vm_compute; reflexivity|]. vm_compute. repeat split. Qed.

(** ** C04 *)
Theorem C04_recent_episodes : forall A (zero : A) cap cs s n,
  1 <= cap -> Forall (legal_call cap) cs -> qrun zero cap cs = Ok s ->
  1 <= q_ecount s -> 0 <= n ->
  exists idx, recent_episodes s n = Ok idx /\
  queue_retrieve s idx =
  Ok (concat (lastn (Z.to_nat (Z.min n (q_ecount s))) (complete_episodes (log_of cs)))).
Proof.
  intros A zero cap cs s n Hc HL Hr. pose proof (run_inv' _ _ _ _ Hc HL Hr) as I.
  apply (recent_episodes_ok zero cap _ s n I).
Qed.
Print Assumptions C04_recent_episodes.

Example C04_example : exists s idx, qrun 0 4 ex_calls = Ok s /\ recent_episodes s 2 = Ok idx /\
  idx = [3; 0] /\ queue_retrieve s idx = Ok [(4, 2); (5, 1)].
Proof. eexists. eexists. split; [vm_compute; reflexivity|]. split; [vm_compute; reflexivity|]. vm_compute. repeat split. Qed.

(** ** C05 *)
(** [draws] is any outcome of the random draw of min(n, episode count) values. *)
Theorem C05_replay_episodes : forall A (zero : A) cap cs s n draws,
  1 <= cap -> Forall (legal_call cap) cs -> qrun zero cap cs = Ok s ->
  1 <= q_ecount s -> 0 <= n ->
  length draws = Z.to_nat (Z.min n (q_ecount s)) ->
  Forall (fun d => 0 <= d < q_ecount s) draws ->
  exists idx eps, replay_episodes s n draws = Ok idx /\
  queue_retrieve s idx = Ok (concat eps) /\
  Forall2 (fun d ep => nth_error (lastn (Z.to_nat (q_ecount s)) (complete_episodes (log_of cs))) (Z.to_nat d) = Some ep) draws eps /\
  length eps = Z.to_nat (Z.min n (q_ecount s)).
Proof.
  intros A zero cap cs s n draws Hc HL Hr He Hn Hlen Hd. pose proof (run_inv' _ _ _ _ Hc HL Hr) as I.
  destruct (replay_episodes_ok zero cap _ s n draws I He Hd) as (idx & E1 & E2).
  exists idx. eexists. split; [exact E1|]. split; [exact E2|].
  pose proof (ecount_spec _ _ _ _ I) as (H1 & _). split.
  - clear -Hd H1. induction Hd as [|d draws Hd0 Hd IH]; cbn; constructor; auto.
    unfold lastn. rewrite nth_error_skipn.
    replace (length (complete_episodes (log_of cs)) - Z.to_nat (q_ecount s) + Z.to_nat d)%nat
      with (Z.to_nat (len (complete_episodes (log_of cs)) - q_ecount s + d)) by lia.
    apply nth_error_nth'. lia.
  - now rewrite map_length.
Qed.
Print Assumptions C05_replay_episodes.

Example C05_example : exists s idx, qrun 0 4 ex_calls = Ok s /\ replay_episodes s 5 [1; 1] = Ok idx /\
  queue_retrieve s idx = Ok [(5, 1); (5, 1)].
Proof. eexists. eexists. split; [vm_compute; reflexivity|]. split; [vm_compute; reflexivity|]. vm_compute. repeat split. Qed.

(** ** C06 *)
(** Holds while the episode count does not exceed the number of timesteps with
    full context (what is missing: the other case, refuted below).  [avail] is
    that number; the returned positions are the newest ones with [future]
    later timesteps. *)
Definition avail cap N past future : Z := Z.min N cap - (past + future).

Theorem C06_recent_timesteps_partial : forall A (zero : A) cap cs s n past future,
  1 <= cap -> Forall (legal_call cap) cs -> qrun zero cap cs = Ok s ->
  0 <= past -> 0 <= future -> 1 <= n ->
  let l := log_of cs in
  1 <= avail cap (len l) past future -> q_ecount s <= avail cap (len l) past future ->
  exists idx (is : list nat), recent_timesteps s n past future = Ok idx /\
    idx = map (fun i => Z.of_nat i mod cap) is /\
    let m := Z.to_nat (Z.min n (avail cap (len l) past future)) in
    is = seq (length l - Z.to_nat future - m) m /\
    Forall (fun i => retained cap l i /\ Z.of_nat i + future < len l /\
                     Z.max 0 (len l - cap) <= Z.of_nat i - past) is.
Proof.
  intros A zero cap cs s n past future Hc HL Hr Hp Hf Hn l Ha He.
  pose proof (run_inv' _ _ _ _ Hc HL Hr) as I. unfold avail in *.
  unfold recent_timesteps, num_eligible. rewrite (inv_bidx _ _ _ _ I), (inv_cap _ _ _ _ I). fold l.
  rewrite Z.max_l by lia.
  destruct (Z.leb_spec 1 (Z.min (len l) cap - (past + future))); [|lia]. cbn [assert_ bind].
  set (m := Z.to_nat (Z.min n (Z.min (len l) cap - (past + future)))).
  eexists. exists (seq (length l - Z.to_nat future - m) m). split; [reflexivity|]. split; [|split; [reflexivity|]].
  - rewrite <- map_map with (f := Z.of_nat) (g := fun p => p mod cap). rewrite <- zrange_seq.
    replace (zrange (len l - Z.min n (Z.min (len l) cap - (past + future))) (len l))
      with (map (fun x => x + future) (zrange (Z.of_nat (length l - Z.to_nat future - m)) (Z.of_nat (length l - Z.to_nat future - m) + Z.of_nat m))).
    + rewrite map_map. apply map_ext. intros x. f_equal. lia.
    + rewrite zrange_shift. f_equal; lia.
  - apply Forall_forall. intros i Hi. apply in_seq in Hi. unfold retained. lia.
Qed.
Print Assumptions C06_recent_timesteps_partial.

Theorem C06_replay_timesteps_partial : forall A (zero : A) cap cs s n past future draws,
  1 <= cap -> Forall (legal_call cap) cs -> qrun zero cap cs = Ok s ->
  0 <= past -> 0 <= future -> 1 <= n ->
  let l := log_of cs in
  1 <= avail cap (len l) past future -> q_ecount s <= avail cap (len l) past future ->
  length draws = Z.to_nat (Z.min n (num_eligible s past future)) ->
  Forall (fun d => 0 <= d < num_eligible s past future) draws ->
  exists idx (is : list nat), replay_timesteps s n past future draws = Ok idx /\
    idx = map (fun i => Z.of_nat i mod cap) is /\
    length is = Z.to_nat (Z.min n (avail cap (len l) past future)) /\
    Forall (fun i => retained cap l i /\ Z.of_nat i + future < len l /\
                     Z.max 0 (len l - cap) <= Z.of_nat i - past) is.
Proof.
  intros A zero cap cs s n past future draws Hc HL Hr Hp Hf Hn l Ha He Hlen Hd.
  pose proof (run_inv' _ _ _ _ Hc HL Hr) as I. unfold avail in *.
  unfold replay_timesteps. unfold num_eligible in *. rewrite (inv_bidx _ _ _ _ I), (inv_cap _ _ _ _ I) in *. fold l in Hlen, Hd |- *.
  rewrite Z.max_l in Hlen, Hd |- * by lia.
  destruct (Z.leb_spec 1 (Z.min (len l) cap - (past + future))); [|lia]. cbn [assert_ bind].
  eexists. exists (map (fun d => Z.to_nat (len l - 1 - d - future)) draws). split; [reflexivity|]. split; [|split].
  - rewrite map_map. apply map_ext_in. intros d Hin. rewrite Forall_forall in Hd. specialize (Hd _ Hin).
    f_equal. lia.
  - now rewrite map_length.
  - apply Forall_forall. intros i Hi. apply in_map_iff in Hi as (d & <- & Hin). rewrite Forall_forall in Hd. specialize (Hd _ Hin).
    unfold retained. lia.
Qed.
Print Assumptions C06_replay_timesteps_partial.

Example C06_example : exists s, qrun 0 4 ex_calls = Ok s /\ q_ecount s = 2 /\ avail 4 6 1 1 = 2 /\
  recent_timesteps s 5 1 1 = Ok [3; 0] /\ replay_timesteps s 5 1 1 [1; 0] = Ok [3; 0].
Proof. eexists. split; [vm_compute; reflexivity|]. vm_compute. repeat split. Qed.

(** The full claim is false of the code: with two one-step episodes stored and
    a future horizon of 2 both memories return slots that were never written. *)
Theorem C06_timesteps_refuted : exists cs s,
  Forall (legal_call 5) cs /\ qrun (A := Z) 7 5 cs = Ok s /\
  (exists idx, recent_timesteps s 2 0 2 = Ok idx /\
     exists j, In j idx /\ ~ exists i, retained 5 (log_of cs) i /\ j = Z.of_nat i mod 5) /\
  (exists idx, replay_timesteps s 2 0 2 [0; 1] = Ok idx /\
     Forall (fun d => 0 <= d < num_eligible s 0 2) [0; 1] /\
     exists j, In j idx /\ ~ exists i, retained 5 (log_of cs) i /\ j = Z.of_nat i mod 5).
Proof.
  exists [Store [(1, 1)]; Store [(2, 1)]]. eexists. split; [|split; [vm_compute; reflexivity|]].
  { repeat constructor.
    - exists [], (1, 1). repeat split; cbn; try lia. constructor.
    - exists [], (2, 1). repeat split; cbn; try lia. constructor. }
  split.
  - exists [3; 4]. split; [reflexivity|]. exists 3. split; [now left|].
    intros (i & [H1 _] & E). cbn in H1. destruct i as [|[|i]]; [discriminate E..|lia].
  - exists [4; 3]. split; [reflexivity|]. split; [repeat constructor; cbn; lia|]. exists 3. split; [now right; left|].
    intros (i & [H1 _] & E). cbn in H1. destruct i as [|[|i]]; [discriminate E..|lia].
Qed.
Print Assumptions C06_timesteps_refuted.

(** ** C07 *)
Theorem C07_predecessors : forall A (zero : A) cap cs s is h,
  1 <= cap -> Forall (legal_call cap) cs -> qrun zero cap cs = Ok s ->
  let l := log_of cs in
  Forall (retained cap l) is ->
  exists Ls firsts, Forall2 (longest_back cap l h) is Ls /\
    Forall2 (fun iL e => nth_error (view l) (fst iL + 1 - snd iL) = Some e) (combine is Ls) firsts /\
    queue_predecessors s (map (fun i => Z.of_nat i mod cap) is) (Z.of_nat h) =
    Ok (cumsum_excl (map Z.of_nat Ls), map Z.of_nat Ls,
        concat (map (fun iL => segment (fst iL + 1 - snd iL) (snd iL) (view l)) (combine is Ls)), firsts).
Proof.
  intros A zero cap cs s is h Hc HL Hr l HR. pose proof (run_inv' _ _ _ _ Hc HL Hr) as I.
  destruct (predecessors_ok zero cap l s is h I HR) as (Ls & H1 & firsts & H2 & H3). exists Ls, firsts. auto.
Qed.
Print Assumptions C07_predecessors.

Example C07_example : exists s, qrun 0 6 [Store [(1, 0); (2, 0); (3, 1)]; Store [(4, 0); (5, 0)]] = Ok s /\
  queue_predecessors s [2; 4; 0] 5 =
  Ok ([0; 3; 5], [3; 2; 1], [(1, 0); (2, 0); (3, 1); (4, 0); (5, 3); (1, 0)], [(1, 0); (4, 0); (1, 0)]).
Proof. eexists. split; [vm_compute; reflexivity|]. vm_compute. reflexivity. Qed.

(** ** C08 *)
Theorem C08_successors : forall A (zero : A) cap cs s is h,
  1 <= cap -> Forall (legal_call cap) cs -> qrun zero cap cs = Ok s ->
  let l := log_of cs in
  Forall (retained cap l) is ->
  exists Ls lasts, Forall2 (longest_forward l h) is Ls /\
    Forall2 (fun iL e => nth_error (view l) (fst iL + snd iL - 1) = Some e) (combine is Ls) lasts /\
    queue_successors s (map (fun i => Z.of_nat i mod cap) is) (Z.of_nat h) =
    Ok (cumsum_excl (map Z.of_nat Ls), map Z.of_nat Ls,
        concat (map (fun iL => segment (fst iL) (snd iL) (view l)) (combine is Ls)), lasts).
Proof.
  intros A zero cap cs s is h Hc HL Hr l HR. pose proof (run_inv' _ _ _ _ Hc HL Hr) as I.
  destruct (successors_ok zero cap l s is h I HR) as (Ls & H1 & lasts & H2 & H3). exists Ls, lasts. auto.
Qed.
Print Assumptions C08_successors.

Example C08_example : exists s, qrun 0 6 [Store [(1, 0); (2, 0); (3, 1)]; Store [(4, 0); (5, 0)]] = Ok s /\
  queue_successors s [0; 3; 2] 5 =
  Ok ([0; 3; 5], [3; 2; 1], [(1, 0); (2, 0); (3, 1); (4, 0); (5, 3); (3, 1)], [(3, 1); (5, 3); (3, 1)]).
Proof. eexists. split; [vm_compute; reflexivity|]. vm_compute. reflexivity. Qed.

(** ** C09 *)
(** Two memories answer alike. *)
Definition same_answers {A} (s1 s2 : qstate A) : Prop :=
  (forall idx, queue_retrieve s1 idx = queue_retrieve s2 idx) /\
  (forall idx h, queue_predecessors s1 idx h = queue_predecessors s2 idx h) /\
  (forall idx h, queue_successors s1 idx h = queue_successors s2 idx h) /\
  (forall n p f, recent_timesteps s1 n p f = recent_timesteps s2 n p f) /\
  (forall n p f ds, replay_timesteps s1 n p f ds = replay_timesteps s2 n p f ds) /\
  (forall n, 0 <= n -> recent_episodes s1 n = recent_episodes s2 n) /\
  (forall n ds, Forall (fun d => 0 <= d < q_ecount s1) ds -> replay_episodes s1 n ds = replay_episodes s2 n ds).

Lemma ring_ext {B} cap N (a b : list B) : 1 <= cap -> len a = cap -> len b = cap ->
  (forall p, N - cap <= p < N -> gather a (p mod cap) = gather b (p mod cap)) -> a = b.
Proof.
  intros Hc Ha Hb H.
  assert (forall k, 0 <= k < cap -> gather a k = gather b k) as G.
  { intros k Hk. pose proof (Z.mod_pos_bound (k - N) cap ltac:(lia)).
    specialize (H (N - cap + (k - N) mod cap) ltac:(lia)).
    assert ((N - cap + (k - N) mod cap) mod cap = k) as E.
    { rewrite Zplus_mod_idemp_r. replace (N - cap + (k - N)) with (k - cap) by lia.
      rewrite Zmod_sub_cap by lia. now apply Z.mod_small. }
    now rewrite E in H. }
  apply nth_error_ext. intros k. destruct (Z.lt_ge_cases (Z.of_nat k) cap) as [Hk|Hk].
  - specialize (G (Z.of_nat k) ltac:(lia)).
    destruct (gather_total a (Z.of_nat k) ltac:(lia)) as (x & Ex). rewrite Ex in G. symmetry in G.
    apply gather_of_nat in Ex. apply gather_of_nat in G. congruence.
  - rewrite !(proj2 (nth_error_None _ _)) by lia. reflexivity.
Qed.

Lemma same_log_same_answers {A} (zero : A) cap l s1 s2 :
  Inv zero cap l s1 -> Inv zero cap l s2 -> same_answers s1 s2 /\ q_ecount s1 = q_ecount s2.
Proof.
  intros I1 I2. pose proof I1 as J1. pose proof I2 as J2.
  destruct I1 as [C1 Cc Cb Cp Ct Cti Cf CT CP CE CTI]. destruct I2 as [D1 Dc Db Dp Dt Dti Df DT DP DE DTI].
  assert (q_pay s1 = q_pay s2) as Epay.
  { apply (ring_ext cap (len l)); auto. intros p Hp. rewrite CP, DP by auto. reflexivity. }
  assert (q_term s1 = q_term s2) as Eterm.
  { apply (ring_ext cap (len l)); auto. intros p Hp. rewrite CT, DT by auto. reflexivity. }
  assert (q_ecount s1 = q_ecount s2) as Eec by congruence.
  assert (forall r, 0 <= r <= q_ecount s1 -> gather (q_tind s1) r = gather (q_tind s2) r) as Etind.
  { intros r Hr. destruct (nth_error (bnds cap l) (Z.to_nat r)) as [b|] eqn:Eb.
    - pose proof (CTI _ _ Eb) as H1. pose proof (DTI _ _ Eb) as H2. rewrite Z2Nat.id in * by lia. congruence.
    - apply nth_error_None in Eb. lia. }
  assert (forall idx, queue_retrieve s1 idx = queue_retrieve s2 idx) as ER.
  { intros idx. unfold queue_retrieve. now rewrite Epay, Eterm. }
  split; [|auto]. repeat split; auto.
  - intros idx h. unfold queue_predecessors. rewrite Cc, Dc, Eterm.
    match goal with |- context [map_res ?f idx] => destruct (map_res f idx) end; [cbn [bind]|reflexivity].
    rewrite ER. match goal with |- context [queue_retrieve s2 ?f] => destruct (queue_retrieve s2 f) end; [cbn [bind]|reflexivity].
    match goal with |- context [gathers ?f ?g] => destruct (gathers f g) end; [cbn [bind]|reflexivity]. now rewrite ER.
  - intros idx h. unfold queue_successors. rewrite Cc, Dc, Eterm.
    match goal with |- context [map_res ?f idx] => destruct (map_res f idx) end; [cbn [bind]|reflexivity].
    rewrite ER. match goal with |- context [queue_retrieve s2 ?f] => destruct (queue_retrieve s2 f) end; [cbn [bind]|reflexivity].
    match goal with |- context [gathers ?f ?g] => destruct (gathers f g) end; [cbn [bind]|reflexivity]. now rewrite ER.
  - intros n p f. unfold recent_timesteps, num_eligible. now rewrite Cb, Db, Cc, Dc, Eec.
  - intros n p f ds. unfold replay_timesteps, num_eligible. now rewrite Cb, Db, Cc, Dc, Eec.
  - intros n Hn. unfold recent_episodes. rewrite Cc, Dc, <- Eec.
    destruct (Z.leb_spec 1 (q_ecount s1)); [cbn [assert_ bind]|reflexivity].
    rewrite !Etind by lia. reflexivity.
  - intros n ds Hd. unfold replay_episodes. rewrite Cc, Dc, <- Eec.
    destruct (Z.leb_spec 1 (q_ecount s1)); [cbn [assert_ bind]|reflexivity].
    assert (forall k, 0 <= k <= 1 -> gathers (q_tind s1) (map (fun d => d + k) ds) = gathers (q_tind s2) (map (fun d => d + k) ds)) as G.
    { intros k Hk. unfold gathers. clear -Hd Etind Hk. induction Hd as [|d ds Hd0 Hd IH]; [reflexivity|].
      cbn. rewrite Etind by lia. now rewrite IH. }
    pose proof (G 0 ltac:(lia)) as G0. rewrite map_ext with (g := fun d => d) in G0 by (intros; lia). rewrite map_id in G0.
    rewrite G0, (G 1) by lia. reflexivity.
Qed.

(** Same log, same answers - however the log was cut into batches. *)
Theorem C09_same_log : forall A (zero : A) cap cs1 cs2 s1 s2,
  1 <= cap -> Forall (legal_call cap) cs1 -> Forall (legal_call cap) cs2 ->
  log_of cs1 = log_of cs2 ->
  qrun zero cap cs1 = Ok s1 -> qrun zero cap cs2 = Ok s2 ->
  same_answers s1 s2 /\ q_ecount s1 = q_ecount s2.
Proof.
  intros A zero cap cs1 cs2 s1 s2 Hc L1 L2 EL R1 R2.
  pose proof (run_inv' _ _ _ _ Hc L1 R1) as I1. pose proof (run_inv' _ _ _ _ Hc L2 R2) as I2.
  rewrite <- EL in I2. eapply same_log_same_answers; eauto.
Qed.
Print Assumptions C09_same_log.

(** In particular, a batch stored in two pieces, at any point of a history. *)
Theorem C09_split_batch : forall A (zero : A) cap before b1 b2 after s1,
  1 <= cap -> Forall (legal_call cap) (before ++ Store (b1 ++ b2) :: after) ->
  b1 <> [] -> b2 <> [] ->
  qrun zero cap (before ++ Store (b1 ++ b2) :: after) = Ok s1 ->
  exists s2, qrun zero cap (before ++ Store b1 :: Store b2 :: after) = Ok s2 /\
  same_answers s1 s2 /\ q_ecount s1 = q_ecount s2.
Proof.
  intros A zero cap before b1 b2 after s1 Hc HL N1 N2 R1.
  assert (Forall (legal_call cap) (before ++ Store b1 :: Store b2 :: after)) as HL2.
  { apply Forall_app in HL as [H1 H2]. inversion_clear H2 as [|? ? Hb Ha]. apply Forall_app. split; auto.
    destruct (list_rev_destruct b1) as [->|(b1' & x1 & ->)]; [congruence|].
    destruct (list_rev_destruct b2) as [->|(b2' & x2 & ->)]; [congruence|].
    cbn in Hb. destruct Hb as (pre & x & Eb & Hp & Hx & Hn).
    rewrite app_assoc in Eb. apply app_inj_tail in Eb as [Eb Ex]. subst pre x.
    apply Forall_app in Hp as [Hp1 Hp2]. apply Forall_app in Hp1 as [Hp1 Hp3].
    inversion_clear Hp3 as [|? ? Hx1 _]. rewrite app_length in Hn.
    repeat constructor; auto; cbn.
    - exists b1', x1. repeat split; auto; lia.
    - exists b2', x2. repeat split; auto; lia. }
  destruct (run_inv zero cap _ Hc HL2) as (s2 & R2 & _). exists s2. split; [auto|].
  eapply C09_same_log with (cs1 := before ++ Store (b1 ++ b2) :: after); eauto.
  unfold log_of. rewrite !fold_left_app. cbn [fold_left append_call]. now rewrite app_assoc.
Qed.
Print Assumptions C09_split_batch.

Example C09_example : exists s1 s2,
  qrun 0 4 [Store [(0, 1)]; Store [(1, 0); (2, 0); (3, 1)]; Store [(4, 0)]] = Ok s1 /\
  qrun 0 4 [Store [(0, 1)]; Store [(1, 0)]; Store [(2, 0); (3, 1)]; Store [(4, 0)]] = Ok s2 /\
  recent_timesteps s1 3 0 1 = Ok [1; 2; 3] /\ recent_timesteps s2 3 0 1 = Ok [1; 2; 3].
Proof. eexists. eexists. split; [vm_compute; reflexivity|]. split; [vm_compute; reflexivity|]. vm_compute. repeat split. Qed.

(** ** C10 *)
Lemma reset_detail {A} (zero : A) cap l s s' : Inv zero cap l s -> queue_reset s = Ok s' ->
  q_ecount s' = q_ecount s + (match open_rest l with [] => 0 | _ => 1 end) /\ queue_reset s' = Ok s'.
Proof.
  intros I R. pose proof I as I0. destruct (reset_ok zero cap l s I) as (s1 & R1 & I1).
  assert (s1 = s') as -> by congruence. split.
  - revert R. destruct I as [C1 Cc Cb Cp Ct Cti Cf CT CP CE CTI].
    unfold queue_reset. rewrite Cc, Cb, CT by lia. cbn [bind].
    assert (mt l (len l - 1) = 3 <-> open_rest l <> []) as Ho.
    { unfold mt. rewrite Z.eqb_refl. cbn [andb].
      destruct (list_rev_destruct l) as [->|(l0 & e & ->)]; [cbn; split; [lia|congruence]|].
      rewrite open_snoc, app_length. cbn [length]. replace (Z.of_nat (length l0 + 1) - 1) with (len l0) by lia.
      rewrite vt_snoc. unfold ends. destruct (Z.eqb_spec (snd e) 0); cbn [negb].
      - split; auto. intros _. destruct (open_rest l0); discriminate.
      - apply Forall_app in Cf as [_ Cf]. inversion_clear Cf. split; [lia|congruence]. }
    destruct (Z.eqb_spec (mt l (len l - 1)) 3) as [E3|E3].
    + apply Ho in E3. destruct (open_rest l); [congruence|].
      destruct (scatter (q_term s) _ _); [cbn [bind]|discriminate]. destruct (scatter (q_tind s) _ _); [cbn [bind]|discriminate].
      destruct (consistency_checks _ _ _); [cbn [bind]|discriminate]. intros [= <-]. reflexivity.
    + destruct (open_rest l); [|exfalso; apply E3, Ho; discriminate]. cbn [bind].
      destruct (consistency_checks _ _ _); [cbn [bind]|discriminate]. intros [= <-]. cbn. lia.
  - destruct (reset_ok zero cap _ s' I1) as (s2 & R2 & I2). rewrite R2. f_equal. revert R2.
    destruct I1 as [C1 Cc Cb Cp Ct Cti Cf CT CP CE CTI].
    unfold queue_reset. rewrite Cc, Cb, CT by lia. cbn [bind].
    destruct (Z.eqb_spec (mt (close l) (len (close l) - 1)) 3) as [E3|E3].
    + exfalso. revert E3. unfold mt. rewrite Z.eqb_refl. cbn [andb].
      destruct (list_rev_destruct l) as [->|(l0 & e & ->)]; [cbn; lia|].
      rewrite close_snoc in *. rewrite app_length. cbn [length]. replace (Z.of_nat (length l0 + 1) - 1) with (len l0) by lia.
      rewrite vt_snoc. cbn [snd]. apply Forall_app in Cf as [_ Cf]. inversion_clear Cf as [|? ? Hr _]. cbn [snd] in Hr.
      destruct (Z.eqb_spec (snd e) 0); [cbn; lia|]. destruct (Z.eqb_spec (snd e) 0); lia.
    + cbn [bind]. destruct (consistency_checks _ _ _); [cbn [bind]|discriminate]. intros [= <-].
      rewrite <- Cc, <- Cb. now destruct s'.
Qed.

Lemma view_close {A} (l : log A) : view (close l) = close l.
Proof.
  destruct (list_rev_destruct l) as [->|(l0 & e & ->)]; [reflexivity|].
  rewrite close_snoc, view_snoc. cbn [fst snd]. destruct (Z.eqb_spec (snd e) 0); [reflexivity|].
  destruct (Z.eqb_spec (snd e) 0); [lia|reflexivity].
Qed.

(** Reset succeeds; afterwards the memory holds the same timesteps, only the
    newest one is aborted (2) if its episode was unfinished; the episode count
    grows by one exactly in that case; a second reset changes nothing. *)
Theorem C10_reset : forall A (zero : A) cap cs s,
  1 <= cap -> Forall (legal_call cap) cs -> qrun zero cap cs = Ok s ->
  let l := log_of cs in
  exists s', queue_reset s = Ok s' /\
  (forall i e, retained cap l i -> nth_error (close l) i = Some e ->
     queue_retrieve s' [Z.of_nat i mod cap] = Ok [e]) /\
  q_ecount s' = q_ecount s + (match open_rest l with [] => 0 | _ => 1 end) /\
  q_bidx s' = q_bidx s /\
  queue_reset s' = Ok s'.
Proof.
  intros A zero cap cs s Hc HL Hr l. pose proof (run_inv' _ _ _ _ Hc HL Hr) as I.
  destruct (reset_ok zero cap l s I) as (s' & R & I'). exists s'. split; [auto|].
  destruct (reset_detail zero cap l s s' I R) as [H1 H2].
  split; [|split; [|split]]; auto.
  - intros i e HR He. eapply retrieve_at; eauto.
    + unfold retained in *. rewrite close_length. auto.
    + now rewrite view_close.
  - rewrite (inv_bidx _ _ _ _ I), (inv_bidx _ _ _ _ I'), close_length. reflexivity.
Qed.
Print Assumptions C10_reset.

Example C10_example : exists s s', qrun 0 4 ex_calls = Ok s /\ queue_reset s = Ok s' /\
  q_ecount s = 2 /\ q_ecount s' = 3 /\
  queue_retrieve s [0; 1] = Ok [(5, 1); (6, 3)] /\ queue_retrieve s' [0; 1] = Ok [(5, 1); (6, 2)].
Proof. eexists. eexists. split; [vm_compute; reflexivity|]. split; [vm_compute; reflexivity|]. vm_compute. repeat split. Qed.
