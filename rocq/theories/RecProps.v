(** Theorems on recorded traces (C26) and their number (C27). *)

From Coq Require Import String List ZArith Bool Lia.
From Verif Require Import Base BaseFacts RecSpec RecModel RecProofs.
Import ListNotations.
Open Scope nat_scope.
Open Scope list_scope.

Section Rec.
Context {S A R : Type}.

(** The k-th file, named after its last episode: episodes start + k * frequency up to the
    next file *)
Definition kth_file (c : config) (eps : list (list (step S A R))) (k : nat) : nat * trace S A R :=
  (start c + (k + 1) * frequency c - 1, columns (concat (firstn (frequency c) (skipn (start c + k * frequency c) eps)))).

Lemma entries_exact (c : config) (eps : list (list (step S A R))) log : 0 < frequency c -> forall n k,
  map fst log = map (name c) (seq k n) -> Forall (entry c True eps) log -> log = map (kth_file c eps) (seq k n).
Proof.
  intros Hf n. revert log. induction n as [|n IH]; intros log k Hm He; destruct log as [|f log]; try discriminate; [reflexivity|].
  cbn in Hm. injection Hm as Hk Hm. inversion He as [|? ? (i & H1 & H2 & H3 & H4 & H5) He']; subst. cbn. f_equal; [|apply IH; assumption].
  unfold kth_file. destruct f as [x tr]. cbn [fst snd] in *. specialize (H4 I). subst x. unfold name in *.
  assert (Hi : i = start c + k * frequency c) by nia. rewrite H5, Hi. do 3 f_equal. f_equal. nia.
Qed.

(** The directory after a run without resets: exactly the files of whole chunks of
    completed episodes -- the newest [m] of them with max-traces m >= 2 -- if no stream is
    within an episode when recording begins. *)
Theorem C26_files_partial : forall c l (s : state S A R), 0 < frequency c -> Forall legal l -> clean_start c l -> never_reset l ->
  run c l (initialize c []) = Ok s -> max_traces c <> Some 0 -> max_traces c <> Some 1 ->
  let eps := episodes (history l) in
  let n := (length eps - start c) / frequency c in
  directory s = map (kth_file c eps) (match max_traces c with Some m => seq (n - m) (n - (n - m)) | None => seq 0 n end).
Proof.
  intros c l s Hf Hl Hc Hn Hr M0 M1 eps n. destruct (good_run c [] Hf l s Hl Hc Hr) as (_ & _ & [W|Hi]).
  - rewrite (w_dir _ _ _ _ W). pose proof (w_start _ _ _ _ W) as Hs. fold eps in Hs.
    assert (n = 0) as -> by (unfold n; replace (length eps - start c) with 0 by lia; apply Nat.div_small; exact Hf).
    destruct (max_traces c); reflexivity.
  - destruct (i_dir _ _ _ _ _ Hi) as (log & L1 & L2 & _ & L4 & _). fold eps in L1, L2. fold (written c (length eps)) in n.
    rewrite (L4 eq_refl M0 M1). apply (entries_exact c eps log Hf n 0) in L1.
    2: { eapply Forall_impl; [|exact L2]. intros f (i & H1 & H2 & H3 & H4 & H5). exists i. auto 10. }
    unfold kept. destruct (max_traces c) as [m|]; [|exact L1].
    assert (Hlen : length log = n) by (rewrite L1, map_length, seq_length; reflexivity). rewrite Hlen, L1.
    rewrite skipn_map. f_equal. replace n with ((n - m) + (n - (n - m))) at 2 by lia. rewrite seq_app, skipn_app, seq_length, Nat.sub_diag.
    rewrite skipn_all2 by (rewrite seq_length; lia). reflexivity.
Qed.

(** In particular, unconditionally: recording from the first episode, any number of
    streams, *)
Theorem C26_from_first : forall c l (s : state S A R), 0 < frequency c -> Forall legal l -> never_reset l -> start c = 0 -> max_traces c = None ->
  run c l (initialize c []) = Ok s ->
  directory s = map (kth_file c (episodes (history l))) (seq 0 (length (episodes (history l)) / frequency c)).
Proof.
  intros c l s Hf Hl Hn H0 Hm Hr. pose proof (C26_files_partial c l s Hf Hl) as H. cbn zeta in H. rewrite Hm, H0, Nat.sub_0_r in H. apply H; try congruence.
  intros pre x post _ Hlt. lia.
Qed.

(** and from any episode for a single stream. *)
Theorem C26_single_stream : forall c l (s : state S A R), 0 < frequency c -> Forall legal l -> never_reset l -> streams c = 1 -> max_traces c = None ->
  run c l (initialize c []) = Ok s ->
  directory s = map (kth_file c (episodes (history l))) (seq 0 ((length (episodes (history l)) - start c) / frequency c)).
Proof.
  intros c l s Hf Hl Hn H1 Hm Hr. pose proof (C26_files_partial c l s Hf Hl) as H. cbn zeta in H. rewrite Hm in H. apply H; try congruence.
  eapply single_clean; eauto.
Qed.

(** Without max-traces, files of earlier runs remain unless a new one has the same name
    ([sorted]: the directory is listed by name). *)
Definition sorted (d : files S A R) : Prop := forall pre f g post, d = pre ++ f :: g :: post -> fst f < fst g.
Lemma sorted_tail f d : sorted (f :: d) -> sorted d.
Proof. intros H pre g k post ->. apply (H (f :: pre) g k post). reflexivity. Qed.
Lemma sorted_least f d : sorted (f :: d) -> forall g, In g d -> fst f < fst g.
Proof.
  revert f. induction d as [|h d IH]; intros f H g Hg; [destruct Hg|]. pose proof (H [] f h d eq_refl) as Hfh.
  destruct Hg as [<- | Hg]; [exact Hfh|]. pose proof (IH h (sorted_tail _ _ H) g Hg). lia.
Qed.
Lemma sorted_cons f d : sorted d -> (forall g, In g d -> fst f < fst g) -> sorted (f :: d).
Proof.
  intros H Hf [|h pre] g k post E; injection E as -> ->; [|apply (H pre g k post); reflexivity]. apply Hf. left; reflexivity.
Qed.
Lemma write_sorted n t d : sorted d -> sorted (write n t d) /\ forall f, In f (write n t d) <-> f = (n, t) \/ (In f d /\ fst f <> n).
Proof.
  induction d as [|[m u] d IH]; intro Hs.
  - split; [intros [|? [|]] ? ? ? E; discriminate|]. cbn. intuition.
  - cbn [write]. pose proof (sorted_least _ _ Hs) as Hl. cbn [fst] in Hl. destruct (IH (sorted_tail _ _ Hs)) as [I1 I2].
    destruct (Nat.ltb n m) eqn:E1; [|destruct (Nat.eqb n m) eqn:E2].
    + apply Nat.ltb_lt in E1. assert (Hn : forall g, In g ((m, u) :: d) -> n < fst g) by (intros g [<- | Hg]; [exact E1|specialize (Hl g Hg); lia]).
      split; [apply sorted_cons; [exact Hs|exact Hn]|]. intro f. cbn [In]. split; [intros [<- | Hf]; auto|intros [-> | [Hf _]]; auto].
      right. split; [exact Hf|]. specialize (Hn f Hf). lia.
    + apply Nat.eqb_eq in E2. subst m. split; [apply sorted_cons; [exact (sorted_tail _ _ Hs)|exact Hl]|].
      intro f. cbn [In]. split; [intros [<- | Hf]; [auto|]|intros [-> | [[<- | Hf] Hne]]; [auto| |auto]].
      * right. split; [auto|]. specialize (Hl f Hf). lia.
      * cbn in Hne. congruence.
    + apply Nat.ltb_ge in E1. apply Nat.eqb_neq in E2. split.
      * apply sorted_cons; [exact I1|]. intros g Hg. apply I2 in Hg. destruct Hg as [-> | [Hg _]]; [cbn; lia|exact (Hl g Hg)].
      * intro f. cbn [In]. rewrite I2. split; [intros [<- | [-> | [Hf Hne]]]; auto|intros [-> | [[<- | Hf] Hne]]; auto].
Qed.
Lemma write_all_in log : forall d, sorted d -> NoDup (map fst log) ->
  forall f, In f (write_all log d) <-> In f log \/ (In f d /\ ~ In (fst f) (map fst log)).
Proof.
  unfold write_all. induction log as [|[n t] log IH]; intros d Hs Hd f; cbn [fold_left map fst snd]; [cbn; tauto|].
  inversion Hd as [|? ? Hni Hd']; subst. destruct (write_sorted n t d Hs) as [S1 S2]. rewrite (IH _ S1 Hd'), S2. cbn [In]. split.
  - intros [H|[[-> |[H Hne]] Hn]]; [tauto|left; left; reflexivity|]. right. split; [exact H|]. intros [E|E]; [congruence|contradiction].
  - intros [[<- |H]|[H Hn]]; [|tauto|].
    + right. split; [left; reflexivity|exact Hni].
    + right. split; [right; split; [exact H|intro E; apply Hn; left; symmetry; exact E]|]. intro E. apply Hn. right; exact E.
Qed.

Theorem C26_earlier_files_partial : forall c d0 l (s : state S A R), 0 < frequency c -> Forall legal l -> clean_start c l -> never_reset l -> sorted d0 ->
  run c l (initialize c d0) = Ok s -> max_traces c = None ->
  let new := map (kth_file c (episodes (history l))) (seq 0 ((length (episodes (history l)) - start c) / frequency c)) in
  forall f, In f (directory s) <-> In f new \/ (In f d0 /\ ~ In (fst f) (map fst new)).
Proof.
  intros c d0 l s Hf Hl Hc Hn Hs Hr Hm new f. destruct (good_run c d0 Hf l s Hl Hc Hr) as (_ & _ & [W|Hi]).
  - rewrite (w_dir _ _ _ _ W). pose proof (w_start _ _ _ _ W) as Hst.
    assert (new = []) as ->; [|cbn; tauto]. unfold new. replace (length _ - start c) with 0 by lia. rewrite Nat.div_small by exact Hf. reflexivity.
  - destruct (i_dir _ _ _ _ _ Hi) as (log & L1 & L2 & _ & _ & L5). fold (written c (length (episodes (history l)))) in new.
    pose proof L1 as Hfst. apply (entries_exact c (episodes (history l)) log Hf _ 0) in L1.
    2: { eapply Forall_impl; [|exact L2]. intros g (i & H1 & H2 & H3 & H4 & H5). exists i. auto 10. }
    fold new in L1. rewrite L1 in Hfst, L5. clear log L1 L2.
    rewrite (L5 Hm). apply write_all_in; [exact Hs|]. rewrite Hfst. apply FinFun.Injective_map_NoDup; [|apply seq_NoDup].
    intros x y E. unfold name in E. nia.
Qed.

(** With resets, files from earlier runs and any max-traces: every file is from before or
    holds complete episodes in order, up to the one it is named after, none of them of
    another file. *)
Theorem C26_every_file_partial : forall c d0 l (s : state S A R), 0 < frequency c -> Forall legal l -> clean_start c l ->
  run c l (initialize c d0) = Ok s -> forall f, In f (directory s) -> In f d0 \/
  exists i, fst f + 1 - frequency c <= i <= fst f /\ start c <= i /\ fst f < length (episodes (history l)) /\
    (fst f + 1 - start c) mod frequency c = 0 /\
    snd f = columns (concat (firstn (fst f + 1 - i) (skipn i (episodes (history l))))).
Proof.
  intros c d0 l s Hf Hl Hc Hr f Hin. destruct (good_run c d0 Hf l s Hl Hc Hr) as (_ & _ & [W|Hi]).
  - rewrite (w_dir _ _ _ _ W) in Hin. auto.
  - destruct (i_dir _ _ _ _ _ Hi) as (log & L1 & L2 & L3 & _). destruct (L3 f Hin) as [|Hf']; [auto|]. right.
    rewrite Forall_forall in L2. destruct (L2 f Hf') as (i & E1 & E2 & E3 & _ & E5). exists i. split; [exact E1|]. split; [exact E2|]. split; [exact E3|].
    split; [|exact E5]. assert (In (fst f) (map fst log)) as Hn by (apply in_map; exact Hf'). rewrite L1 in Hn. apply in_map_iff in Hn.
    destruct Hn as (k & <- & _). unfold name. replace (start c + (k + 1) * frequency c - 1 + 1 - start c) with ((k + 1) * frequency c) by nia.
    apply Nat.mod_mul. lia.
Qed.

(** Recording makes no call fail: calls fail exactly if they break the calling rules. *)
Theorem C26_no_failure_partial : forall c d0 l (s : state S A R) x, 0 < frequency c -> Forall legal (l ++ [x]) -> clean_start c l ->
  run c l (initialize c d0) = Ok s -> ((exists s', run_call c x s = Ok s') <-> proper c (history l) x).
Proof.
  intros c d0 l s x Hf Hl Hc Hr. apply Forall_app in Hl. destruct Hl as [Hl Hx]. apply Forall_inv in Hx.
  pose proof (good_run c d0 Hf l s Hl Hc Hr) as Hg. split.
  - intros [s' E]. eapply succeeds_proper; eauto.
  - intro Hp. eapply proper_succeeds; eauto.
Qed.

(** ** C27 *)
(** With max-traces m >= 2 and an empty directory: at most m files, the newest. *)
Theorem C27_newest_partial : forall c l (s : state S A R) m, 0 < frequency c -> Forall legal l -> clean_start c l ->
  run c l (initialize c []) = Ok s -> max_traces c = Some m -> 2 <= m ->
  let n := (length (episodes (history l)) - start c) / frequency c in
  length (directory s) <= m /\
  map fst (directory s) = map (fun k => start c + (k + 1) * frequency c - 1) (seq (n - m) (n - (n - m))).
Proof.
  intros c l s m Hf Hl Hc Hr Hm H2 n. destruct (good_run c [] Hf l s Hl Hc Hr) as (_ & _ & [W|Hi]).
  - rewrite (w_dir _ _ _ _ W). pose proof (w_start _ _ _ _ W) as Hs.
    assert (n = 0) as -> by (unfold n; replace (length _ - start c) with 0 by lia; apply Nat.div_small; exact Hf). split; [cbn; lia|reflexivity].
  - destruct (i_dir _ _ _ _ _ Hi) as (log & L1 & _ & _ & L4 & _). fold (written c (length (episodes (history l)))) in n. fold n in L1.
    assert (Hlen : length log = n) by (rewrite <- (map_length fst), L1, map_length, seq_length; reflexivity).
    rewrite L4 by (try reflexivity; rewrite Hm; intro E; injection E as ->; lia). unfold kept. rewrite Hm, Hlen. split; [rewrite skipn_length; lia|].
    rewrite <- skipn_map, L1, skipn_map. fold (name c).
    f_equal. clearbody n. replace n with ((n - m) + (n - (n - m))) at 2 by lia. rewrite seq_app, skipn_app, seq_length, Nat.sub_diag.
    rewrite skipn_all2 by (rewrite seq_length; lia). reflexivity.
Qed.
End Rec.

(** ** Where the claims fail *)
Notation call := (call nat nat nat).
(** One timestep of a stream, ending the episode or not *)
Definition tick (p x : nat) (t : Z) : list call := [Act [p] [x] [10 + x]; Observe [(p, t, 20 + x)]].

(** Two streams, start=1: a stream within a timestep when the first episode ends.  If its
    episode ends then, observe raises; *)
Theorem C26_start_refuted : exists c (l : list call) s x, 0 < frequency c /\ Forall legal (l ++ [x]) /\
  run c l (initialize c []) = Ok s /\ proper c (history l) x /\ run_call c x s = Err "ValueError: need at least one array to stack".
Proof.
  exists (Config 2 1 1 None), [Act [0; 1] [0; 1] [10; 11]; Observe [(0, 1%Z, 20)]]. eexists. exists (Observe [(1, 1%Z, 21)]).
  split; [cbn; lia|]. split; [|split; [vm_compute; reflexivity|split; [|vm_compute; reflexivity]]].
  - repeat constructor; cbn; (lia || intuition congruence).
  - split; [discriminate|]. intros y [<- | []]. cbn. split; [lia|reflexivity].
Qed.

(** if it goes on, the columns written do not belong together: two observations for one act. *)
Theorem C26_columns_refuted : exists c (l : list call) s f, 0 < frequency c /\ Forall legal l /\ never_reset l /\
  run c l (initialize c []) = Ok s /\ In f (directory s) /\ length (tr_states (snd f)) <> length (tr_terminal (snd f)).
Proof.
  exists (Config 2 1 1 None), ([Act [0; 1] [0; 1] [10; 11]; Observe [(0, 1%Z, 20)]; Observe [(1, 0%Z, 21)]] ++ tick 1 2 1%Z).
  eexists. exists (1, Trace [2] [12] [0; 1]%Z [21; 22]). split; [cbn; lia|]. split; [repeat constructor; cbn; (lia || intuition congruence)|].
  split; [intros C; cbn in C; intuition discriminate|]. split; [vm_compute; reflexivity|]. split; [left; reflexivity|discriminate].
Qed.

(** A reset discards completed episodes which are not yet written. *)
Theorem C26_reset_refuted : exists c (l : list call) s, 0 < frequency c /\ Forall legal l /\ clean_start c l /\
  run c l (initialize c []) = Ok s /\ length (episodes (history l)) = 2 /\ directory s <> [kth_file c (episodes (history l)) 0].
Proof.
  exists (Config 1 0 2 None), (tick 0 1 1%Z ++ [Reset] ++ tick 0 2 1%Z). eexists. split; [cbn; lia|].
  split; [repeat constructor; cbn; (lia || intuition congruence)|]. split; [intros pre x post _ H; cbn in H; lia|].
  split; [vm_compute; reflexivity|]. split; [reflexivity|vm_compute; discriminate].
Qed.

(** max-traces=1 removes nothing. *)
Theorem C27_one_refuted : exists c (l : list call) s, 0 < frequency c /\ Forall legal l /\ clean_start c l /\
  max_traces c = Some 1 /\ run c l (initialize c []) = Ok s /\ length (directory s) = 3.
Proof.
  exists (Config 1 0 1 (Some 1)), (tick 0 1 1%Z ++ tick 0 2 1%Z ++ tick 0 3 1%Z). eexists. split; [cbn; lia|].
  split; [repeat constructor; cbn; (lia || intuition congruence)|]. split; [intros pre x post _ H; cbn in H; lia|].
  split; [reflexivity|]. split; [vm_compute; reflexivity|]. reflexivity.
Qed.

(** In a directory with traces of an earlier, longer run the new traces are removed. *)
Theorem C27_earlier_run_refuted : exists c d0 (l : list call) s, 0 < frequency c /\ Forall legal l /\ clean_start c l /\
  max_traces c = Some 2 /\ run c l (initialize c d0) = Ok s /\ length (episodes (history l)) = 2 /\ map fst (directory s) = [1; 6].
Proof.
  exists (Config 1 0 1 (Some 2)), [(5, Trace [] [] [] []); (6, Trace [] [] [] [])], (tick 0 1 1%Z ++ tick 0 2 1%Z). eexists.
  split; [cbn; lia|]. split; [repeat constructor; cbn; (lia || intuition congruence)|].
  split; [intros pre x post _ H; cbn in H; lia|]. split; [reflexivity|]. split; [vm_compute; reflexivity|]. split; reflexivity.
Qed.

(** ** Example: two interleaved streams, two episodes per file, recorded from episode 0 *)
Definition ex_calls : list call :=
  [Act [0; 1] [0; 1] [10; 11]; Observe [(1, 0%Z, 21); (0, 0%Z, 20)]; Act [1] [2] [12]; Act [0] [3] [13];
   Observe [(0, 1%Z, 23)]; Observe [(1, 2%Z, 22)]] ++ tick 0 4 1%Z.
Example ex_legal : Forall legal ex_calls /\ never_reset ex_calls.
Proof. split; [repeat constructor; cbn; (lia || intuition congruence)|]. intros C; cbn in C; intuition discriminate. Qed.
Example ex_run : exists s, run (Config 2 0 2 None) ex_calls (initialize (Config 2 0 2 None) []) = Ok s /\
  directory s = [(1, Trace [0; 3; 1; 2] [10; 13; 11; 12] [0; 1; 0; 2]%Z [20; 23; 21; 22])] /\ length (episodes (history ex_calls)) = 3.
Proof. eexists. split; [vm_compute; reflexivity|]. split; reflexivity. Qed.

(** An earlier run left files 1 and 7: file 1 is replaced. *)
Example ex_earlier : sorted [(1, Trace [] [] [] []); (7, @Trace nat nat nat [] [] [] [])] /\
  exists s, run (Config 2 0 2 None) ex_calls (initialize (Config 2 0 2 None) [(1, Trace [] [] [] []); (7, Trace [] [] [] [])]) = Ok s /\
  directory s = [(1, Trace [0; 3; 1; 2] [10; 13; 11; 12] [0; 1; 0; 2]%Z [20; 23; 21; 22]); (7, Trace [] [] [] [])].
Proof.
  split; [|eexists; split; [vm_compute; reflexivity|reflexivity]].
  intros [|? [|? [|]]] ? ? ? E; try discriminate; injection E as <- <- ?; cbn; lia.
Qed.

(** A clean start with two streams: both episodes end before recording begins at 2. *)
Definition ex_clean : list call := [Act [0; 1] [0; 1] [10; 11]; Observe [(0, 1%Z, 20); (1, 1%Z, 21)]] ++ tick 1 5 1%Z.
Example ex_clean_start : clean_start (Config 2 2 1 (Some 2)) ex_clean /\ Forall legal ex_clean.
Proof.
  split; [|repeat constructor; cbn; (lia || intuition congruence)].
  intros pre x post E H1 H2. destruct pre as [|a [|b [|d [|e pre]]]]; cbn in E; injection E as <- E; subst; cbn in H1, H2 |- *; try lia.
  1: split; [reflexivity|]. 1: intros [|[|p]]; reflexivity.
Qed.
Example ex_clean_run : exists s, run (Config 2 2 1 (Some 2)) ex_clean (initialize (Config 2 2 1 (Some 2)) []) = Ok s /\
  directory s = [(2, Trace [5] [15] [1]%Z [25])].
Proof. eexists. split; [vm_compute; reflexivity|reflexivity]. Qed.

Print Assumptions C26_files_partial.
Print Assumptions C26_from_first.
Print Assumptions C26_single_stream.
Print Assumptions C26_earlier_files_partial.
Print Assumptions C26_every_file_partial.
Print Assumptions C26_no_failure_partial.
Print Assumptions C26_start_refuted.
Print Assumptions C26_columns_refuted.
Print Assumptions C26_reset_refuted.
Print Assumptions C27_newest_partial.
Print Assumptions C27_one_refuted.
Print Assumptions C27_earlier_run_refuted.
