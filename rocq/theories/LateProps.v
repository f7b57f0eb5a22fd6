(** Late against early horizon prediction (C57). *)

From Coq Require Import String List ZArith Lia Bool QArith Qcanon.
From Coq Require Import ZifyBool ZifyNat.
From Verif Require Import Base BaseFacts Field MemSpec MemModel MemProofs MemQueries
  RetSpec RetModel RetProofs RetProps LateModel.
Import ListNotations.
Open Scope Z_scope.

Lemma vec2_map {A B C I} (f : A -> B -> C) (u : I -> A) (v : I -> B) l :
  vec2 f (map u l) (map v l) = Ok (map (fun i => f (u i) (v i)) l).
Proof. induction l as [|i l IH]; cbn [map vec2]; [reflexivity|]. rewrite IH. reflexivity. Qed.

Section Late.
Variable K : field.
Variable X : Type.
Variable bval : X -> K.
Add Field K_field : (fth K).
Local Open Scope F_scope.

(** An episode inside a log. *)
Lemma episode_forward (pre post : log (X * K)) es T h t L :
  length es = T -> (t < T)%nat ->
  (forall k e, (k < T - 1)%nat -> nth_error es k = Some e -> ends e = false) ->
  (forall e, nth_error es (T - 1) = Some e -> ends e = true) ->
  longest_forward (pre ++ es ++ post) h (length pre + t) L ->
  L = Nat.min (S h) (T - t).
Proof.
  intros HT Ht H0 H1 (A & B & C & D).
  assert (forall k, (k < T)%nat -> nth_error (pre ++ es ++ post) (length pre + k) = nth_error es k) as N.
  { intros k Hk. rewrite nth_error_app2 by lia. replace (length pre + k - length pre)%nat with k by lia.
    now rewrite nth_error_app1 by lia. }
  rewrite !app_length in *.
  assert (L <= T - t)%nat as LT.
  { destruct (Nat.le_gt_cases L (T - t)) as [|HL]; [assumption|].
    destruct (nth_error es (T - 1)) as [e|] eqn:E.
    2: { apply nth_error_None in E. lia. }
    pose proof (H1 e eq_refl) as He.
    rewrite (C (length pre + (T - 1))%nat e) in He; [discriminate|lia|lia|].
    rewrite N by lia. exact E. }
  destruct D as [D|[D|(e & D & De)]].
  - lia.
  - lia.
  - replace (length pre + t + L - 1)%nat with (length pre + (t + L - 1))%nat in D by lia.
    rewrite N in D by lia.
    destruct (Nat.lt_ge_cases (t + L - 1) (T - 1)); [|lia].
    rewrite (H0 _ _ H D) in De. discriminate.
Qed.

Lemma nstep_sum g (r V : nat -> K) T h t :
  nstep g r V T h t = nstep g r (fun _ => 0) T h t + (if (t + h <? T)%nat then fpow g h * V (t + h)%nat else 0).
Proof. unfold nstep. destruct (t + h <? T)%nat; ring. Qed.

Lemma nstep_with_last g (r : nat -> K) v T h t : (t < T)%nat -> (1 <= h)%nat ->
  nstep g (with_last r T v) (fun _ => 0) T h t
  = nstep g (with_last r T 0) (fun _ => 0) T h t
    + (if (T <=? t + h)%nat then fpow g (T - 1 - t) * v else 0).
Proof.
  intros Ht Hh. destruct (Nat.leb_spec T (t + h)) as [H|H].
  - rewrite !(nstep_end K _ _ _ T h (S (T - 1 - t))) by lia. unfold nstep. cbn [sumn].
    replace (t + S (T - 1 - t) <? T)%nat with false by lia.
    replace (t + (T - 1 - t) <? T)%nat with true by lia.
    unfold with_last at 2 4. replace (t + (T - 1 - t) =? T - 1)%nat with true by lia.
    rewrite (sumn_ext K _ _ (fun k => if (t + k <? T)%nat then fpow g k * with_last r T 0 (t + k)%nat else 0)).
    + ring.
    + intros k Hk. destruct (t + k <? T)%nat; [|reflexivity]. unfold with_last.
      replace (t + k =? T - 1)%nat with false by lia. reflexivity.
  - unfold nstep.
    rewrite (sumn_ext K _ _ (fun k => if (t + k <? T)%nat then fpow g k * with_last r T 0 (t + k)%nat else 0)).
    + ring.
    + intros k Hk. destruct (t + k <? T)%nat; [|reflexivity]. unfold with_last.
      replace (t + k =? T - 1)%nat with false by lia. reflexivity.
Qed.

Lemma zero_mul (x : K) : 0 * x = 0. Proof. ring. Qed.

End Late.

Definition with_early {K} (c : rconf K) : rconf K :=
  {| rc_horizon := rc_horizon K c; rc_discount := rc_discount K c; rc_early := true;
     rc_predterm := rc_predterm K c; rc_trace := rc_trace K c |}.

Lemma nth_error_combine {A B} (a : list A) (b : list B) k x y :
  nth_error a k = Some x -> nth_error b k = Some y -> nth_error (combine a b) k = Some (x, y).
Proof.
  revert b k. induction a as [|u a IH]; intros [|v b] [|k]; cbn; try discriminate; auto.
  congruence.
Qed.

Lemma view_nth {A} (l : log A) i e :
  nth_error l i = Some e -> ends e = true \/ (S i < length l)%nat -> nth_error (view l) i = Some e.
Proof.
  destruct l as [|[a t] l' _] using rev_ind; [destruct i; discriminate|].
  intros Hl Hc. unfold view. rewrite rev_app_distr. cbn [rev app]. rewrite rev_involutive.
  rewrite app_length in Hc. cbn [length] in Hc.
  destruct (Nat.lt_ge_cases i (length l')) as [H1|H1].
  - rewrite nth_error_app1 in * by lia. exact Hl.
  - rewrite nth_error_app2 in * by lia.
    destruct (i - length l')%nat as [|n] eqn:En; [|destruct n; discriminate].
    cbn [nth_error] in *. inversion Hl; subst e.
    destruct Hc as [Hc|Hc]; [|lia].
    unfold ends in Hc. cbn in Hc. destruct (t =? 0); [discriminate|reflexivity].
Qed.

Lemma Forall2_combine_map {A B} (P : A -> B -> Prop) (R : A * B -> Prop) is Ls :
  Forall2 P is Ls -> (forall i L, P i L -> R (i, L)) -> Forall R (combine is Ls).
Proof. intros H HR. induction H; cbn; constructor; auto. Qed.

(** ** C57

    Stored rewards computed without values (predict_horizon_values = 'late') and
    completed at retrieval are what predict_horizon_values = 'early' would have
    stored, for any batch of retained timesteps of a complete episode.

    Missing: t + h = T - 1 in an episode that ended with a true terminal (next
    theorem). *)
Theorem C57_late_completion_partial :
  forall (K : field) X (bval : X -> K) c h zero cap cs s pre post xs rs T f late early ks,
  rc_horizon K c = Some h -> 1 <= h -> rc_early K c = false -> rc_trace K c = None ->
  length xs = T -> length rs = T -> (1 <= T)%nat ->
  (f = 1 \/ f = 2) -> (rc_predterm K c = true \/ f = 2 -> rc_discount K c <> 0%F) ->
  let ts := repeat 0 (T - 1) ++ [f] in
  episode_returns K X bval c xs rs ts = Ok late ->
  episode_returns K X bval (with_early c) xs rs ts = Ok early ->
  1 <= cap -> Forall (legal_call cap) cs -> qrun (A := X * K) zero cap cs = Ok s ->
  log_of cs = pre ++ combine (combine xs late) ts ++ post ->
  Forall (fun t => (t < T)%nat /\ retained cap (log_of cs) (length pre + t)) ks ->
  Forall (fun t => rc_predterm K c = true \/ f = 2 \/ (t + Z.to_nat h <> T - 1)%nat) ks ->
  complete_horizon_values K X bval c s
    (map (fun t => Z.of_nat (length pre + t) mod cap) ks) (map (at_ late) ks)
  = Ok (map (at_ early) ks).
Proof.
  intros K X bval c h zero cap cs s pre post xs rs T f late early ks
    Hh Hh1 He Htr Hx Hr HT Hf Hg ts Hl Hea Hcap Hleg Hrun Hlog Hks Hcond.
  pose proof (run_inv' _ _ _ _ Hcap Hleg Hrun) as I. set (l := log_of cs) in *.
  assert (length ts = T) as Hts by (unfold ts; rewrite app_length, repeat_length; cbn [length]; lia).
  assert (nth_error ts (T - 1) = Some f) as Hfl.
  { unfold ts. rewrite nth_error_app2 by (rewrite repeat_length; lia).
    rewrite repeat_length, Nat.sub_diag. reflexivity. }
  assert (forall k, (k < T - 1)%nat -> nth_error ts k = Some 0) as Hf0.
  { intros k Hk. unfold ts. rewrite nth_error_app1 by (rewrite repeat_length; lia).
    apply nth_error_repeat. exact Hk. }
  assert (final_reward K c f = false -> rc_discount K c <> 0%F) as Hg'.
  { unfold final_reward. intros E. apply Hg. destruct (rc_predterm K c); [now left|]. right. lia. }
  rewrite (episode_returns_ok K X bval c xs rs ts f T) in Hl; auto.
  2: { split; [congruence|]. now rewrite Hh. }
  2: { congruence. }
  rewrite (episode_returns_ok K X bval (with_early c) xs rs ts f T) in Hea; auto.
  2: { split; [reflexivity|]. cbn. now rewrite Hh. }
  2: { cbn. congruence. }
  injection Hl as Hl. injection Hea as Hea.
  assert (forall t, (t < T)%nat ->
    at_ late t = nstep (rc_discount K c) (rews K X bval c xs rs f) (fun _ => 0%F) T (Z.to_nat h) t) as Al.
  { intros t Ht. rewrite <- Hl. rewrite at_tabulate by exact Ht.
    unfold ret, vals, horizon_of. now rewrite Htr, He, Hh. }
  assert (forall t, (t < T)%nat ->
    at_ early t = nstep (rc_discount K c) (rews K X bval (with_early c) xs rs f) (value_at bval xs) T (Z.to_nat h) t) as Ae.
  { intros t Ht. rewrite <- Hea. rewrite at_tabulate by exact Ht.
    unfold ret, vals, horizon_of. cbn. now rewrite Htr, Hh. }
  destruct xs as [|x0 xs'] eqn:Exs; [cbn in Hx; lia|]. rewrite <- Exs in *. clear Exs xs'.
  set (Lt := fun t => Nat.min (S (Z.to_nat h)) (T - t)).
  set (fin := fun t => ((nth (t + Lt t - 1) xs x0, at_ late (t + Lt t - 1)), nth (t + Lt t - 1) ts 0)).
  assert (length late = T) as Hll by (rewrite <- Hl; apply tabulate_length).
  assert (forall k, (k < T)%nat -> nth_error (combine (combine xs late) ts) k
                    = Some ((nth k xs x0, at_ late k), nth k ts 0)) as Nes.
  { intros k Hk. apply nth_error_combine; [apply nth_error_combine|].
    - apply nth_error_nth'. lia.
    - apply nth_error_nth'. lia.
    - apply nth_error_nth'. lia. }
  assert (length (combine (combine xs late) ts) = T) as Les by (rewrite !combine_length; lia).
  assert (forall k, (k < T - 1)%nat -> nth k ts 0 = 0) as Nt0.
  { intros k Hk. apply nth_error_nth. now apply Hf0. }
  assert (nth (T - 1) ts 0 = f) as Ntf by (apply nth_error_nth; exact Hfl).
  unfold complete_horizon_values. rewrite Hh.
  destruct (successors_ok zero cap l s (map (fun t => (length pre + t)%nat) ks) (Z.to_nat h) I)
    as (Ls & HLs & lasts & Hlasts & Esucc).
  { rewrite Forall_map. eapply Forall_impl; [|exact Hks]. cbn. tauto. }
  assert (Ls = map Lt ks) as ->.
  { clear -HLs Hks Hlog Nes Les Nt0 Ntf Hf HT.
    remember (map (fun t => (length pre + t)%nat) ks) as is eqn:Eis. revert ks Hks Eis.
    induction HLs as [|i L is Ls HL _ IH]; intros [|t ks] Hks Eis; try discriminate; [reflexivity|].
    destruct (Forall_inv Hks) as [Ht _]. pose proof (Forall_inv_tail Hks) as Hks'. cbn [map] in *. injection Eis as Ei Eis. subst i.
    f_equal; [|now apply IH]. rewrite Hlog in HL.
    eapply episode_forward; eauto.
    - intros k e Hk E. rewrite Nes in E by lia. inversion E. unfold ends. cbn [snd]. rewrite Nt0 by lia. reflexivity.
    - intros e E. rewrite Nes in E by lia. inversion E. unfold ends. cbn [snd]. rewrite Ntf. lia. }
  assert (lasts = map fin ks) as ->.
  { clear -Hlasts Hks Hlog Nes Les Nt0 Ntf Hf HT Hh1.
    revert ks lasts Hks Hlasts. induction ks as [|t ks IH]; intros lasts Hks Hlasts; cbn [map combine] in Hlasts.
    - inversion Hlasts. reflexivity.
    - destruct lasts as [|e lasts']; [inversion Hlasts|].
      assert (nth_error (view l) (length pre + t + Lt t - 1) = Some e) as He by (now inversion Hlasts).
      assert (Forall2 (fun iL e => nth_error (view l) (fst iL + snd iL - 1) = Some e)
               (combine (map (fun t => (length pre + t)%nat) ks) (map Lt ks)) lasts') as Hlasts' by (now inversion Hlasts).
      destruct (Forall_inv Hks) as [Ht _]. pose proof (Forall_inv_tail Hks) as Hks'. cbn [map]. f_equal; [|now apply IH].
      cbn [fst snd] in He. rewrite Hlog in He.
      replace (length pre + t + Lt t - 1)%nat with (length pre + (t + Lt t - 1))%nat in He by (unfold Lt; lia).
      assert (t + Lt t - 1 < T)%nat as HtL by (unfold Lt; lia).
      rewrite (view_nth _ _ (fin t)) in He; [now inversion He| |].
      + rewrite nth_error_app2 by lia.
        replace (length pre + (t + Lt t - 1) - length pre)%nat with (t + Lt t - 1)%nat by lia.
        rewrite nth_error_app1 by lia. now apply Nes.
      + destruct (Nat.eq_dec (t + Lt t - 1) (T - 1)) as [E|E].
        * left. unfold fin, ends. cbn [snd]. rewrite E, Ntf. lia.
        * right. rewrite !app_length. lia. }
  rewrite map_map in Esucc. rewrite Z2Nat.id in Esucc by lia. rewrite Esucc. cbn [bind].
  rewrite !map_map.
  set (d := fun t => fpow (rc_discount K c) (Z.to_nat (Z.of_nat (Lt t) - 1))).
  set (d' := fun t => if rc_predterm K c then d t else if snd (fin t) =? 1 then 0%F else d t).
  match goal with |- bind ?e _ = _ => assert (e = Ok (map d' ks)) as -> end.
  { unfold d'. destruct (rc_predterm K c); [reflexivity|]. now rewrite vec2_map. }
  cbn [bind]. rewrite vec2_map. cbn [bind]. rewrite vec2_map. f_equal. apply map_ext_in. intros t Hin.
  rewrite Forall_forall in Hks, Hcond. destruct (Hks t Hin) as [Ht _]. specialize (Hcond t Hin).
  clear Hks Hin Esucc Hlasts HLs.
  rewrite Al, Ae by assumption. rewrite (nstep_sum K _ _ (value_at bval xs)).
  assert (forall k, (k < T)%nat -> bval (nth k xs x0) = value_at bval xs k) as Bv.
  { intros k Hk. unfold value_at. rewrite (nth_error_nth' xs x0) by lia. reflexivity. }
  unfold fin at 1. cbn [fst]. rewrite Bv by (unfold Lt; lia).
  unfold d', d, fin. cbn [snd].
  pose proof (fth K) as FT. pose proof (F_R FT) as RT.
  destruct (Nat.lt_ge_cases (t + Z.to_nat h) T) as [H|H].
  - (* t + h inside the episode *)
    assert (Lt t = S (Z.to_nat h)) as EL by (unfold Lt; lia). rewrite EL.
    replace (t + Z.to_nat h <? T)%nat with true by lia.
    replace (Z.to_nat (Z.of_nat (S (Z.to_nat h)) - 1)) with (Z.to_nat h) by lia.
    replace (t + S (Z.to_nat h) - 1)%nat with (t + Z.to_nat h)%nat by lia.
    f_equal.
    + unfold rews. change (final_reward K (with_early c) f) with (final_reward K c f).
      destruct (final_reward K c f); [reflexivity|].
      rewrite Hr. symmetry. unfold vals. rewrite He. cbn [rc_early with_early].
      rewrite nstep_with_last by lia. replace (T <=? t + Z.to_nat h)%nat with false by lia.
      rewrite (Radd_comm RT). apply (Radd_0_l RT).
    + destruct (rc_predterm K c); [reflexivity|].
      destruct (Nat.eq_dec (t + Z.to_nat h) (T - 1)) as [E|E].
      * destruct Hcond as [Hc|[Hc|Hc]]; [discriminate| |contradiction]. rewrite E, Ntf, Hc. reflexivity.
      * rewrite Nt0 by lia. reflexivity.
  - assert (Lt t = T - t)%nat as EL by (unfold Lt; lia). rewrite EL.
    replace (t + Z.to_nat h <? T)%nat with false by lia.
    replace (Z.to_nat (Z.of_nat (T - t) - 1)) with (T - 1 - t)%nat by lia.
    replace (t + (T - t) - 1)%nat with (T - 1)%nat by lia. rewrite Ntf.
    unfold rews. change (final_reward K (with_early c) f) with (final_reward K c f).
    unfold final_reward.
    destruct (rc_predterm K c); cbn [negb andb].
    + rewrite Hr. unfold vals. rewrite He. cbn [rc_early with_early].
      rewrite (nstep_with_last K _ _ (value_at bval xs (T - 1))) by lia.
      replace (T <=? t + Z.to_nat h)%nat with true by lia.
      rewrite (Radd_comm RT _ 0%F), (Radd_0_l RT). reflexivity.
    + destruct (Z.eqb_spec f 1) as [->|Hne].
      * cbn [Z.eqb Pos.eqb]. destruct RT. f_equal.
        transitivity (0 * value_at bval xs (T - 1))%F; [reflexivity|].
        apply zero_mul.
      * rewrite Hr. unfold vals. rewrite He. cbn [rc_early with_early].
        rewrite (nstep_with_last K _ _ (value_at bval xs (T - 1))) by lia.
        replace (T <=? t + Z.to_nat h)%nat with true by lia.
        rewrite (Radd_comm RT _ 0%F), (Radd_0_l RT). reflexivity.
Qed.
Print Assumptions C57_late_completion_partial.

(** DQN-like configuration: horizon 1, late. *)
Definition late_conf : rconf Qc_field :=
  {| rc_horizon := Some 1; rc_discount := half; rc_early := false; rc_predterm := false; rc_trace := None |}.
Definition late_calls (f : Z) : list (call (Z * Qc_field)) :=
  [Store [((10, qc 1), 0); ((20, qc 2), 0)]; Store [((30, qc 4), f)]].

Lemma late_legal f : 0 <= f <= 2 -> Forall (legal_call 5) (late_calls f).
Proof.
  intros Hf. repeat constructor.
  - exists [((10, qc 1), 0)], ((20, qc 2), 0). repeat split; cbn; try lia. repeat constructor.
  - exists [], ((30, qc 4), f). repeat split; cbn; try lia. constructor.
Qed.

(** Episode of three timesteps with a true terminal: completing timestep 1
    (t + h = T - 1 = 2) gives just its reward 2; early prediction gives
    2 + 1/2 * V(s_2) = 17.  The completion treats the timestep before the
    terminal one as if its successor state were after the end. *)
Theorem C57_late_refuted : exists s late early,
  Forall (legal_call 5) (late_calls 1) /\
  qrun (0, qc 0) 5 (late_calls 1) = Ok s /\
  episode_returns Qc_field Z qc late_conf [10; 20; 30] (map qc [1; 2; 4]) [0; 0; 1] = Ok late /\
  episode_returns Qc_field Z qc (with_early late_conf) [10; 20; 30] (map qc [1; 2; 4]) [0; 0; 1] = Ok early /\
  log_of (late_calls 1) = combine (combine [10; 20; 30] (map qc [1; 2; 4])) [0; 0; 1] /\
  map this late = map this (map qc [1; 2; 4]) /\
  same_list (complete_horizon_values Qc_field Z qc late_conf s [1] [qc 2]) (Ok [qc 2]) /\
  this (@at_ Qc_field early 1) = this (qc 17).
Proof.
  eexists. eexists. eexists. split; [apply late_legal; lia|].
  split; [vm_compute; reflexivity|]. split; [vm_compute; reflexivity|]. split; [vm_compute; reflexivity|].
  split; [vm_compute; reflexivity|].
  vm_compute. repeat split; reflexivity.
Qed.
Print Assumptions C57_late_refuted.

(** The same episode, aborted, at all timesteps; and finished, at timestep 0. *)
Example C57_example : exists s1 s2,
  qrun (0, qc 0) 5 [Store [((10, qc 1), 0); ((20, qc 2), 0)]; Store [((30, qc 0), 2)]] = Ok s2 /\
  qrun (0, qc 0) 5 (late_calls 1) = Ok s1 /\
  same_list (episode_returns Qc_field Z qc late_conf [10; 20; 30] (map qc [1; 2; 4]) [0; 0; 2])
            (Ok (map qc [1; 2; 0])) /\
  same_list (complete_horizon_values Qc_field Z qc late_conf s2 [0; 1; 2] (map qc [1; 2; 0]))
            (Ok (map qc [11; 17; 30])) /\
  same_list (episode_returns Qc_field Z qc (with_early late_conf) [10; 20; 30] (map qc [1; 2; 4]) [0; 0; 2])
            (Ok (map qc [11; 17; 30])) /\
  same_list (complete_horizon_values Qc_field Z qc late_conf s1 [0; 2] (map qc [1; 4]))
            (Ok (map qc [11; 4])).
Proof.
  eexists. eexists. split; [vm_compute; reflexivity|]. split; [vm_compute; reflexivity|].
  vm_compute. repeat split; reflexivity.
Qed.
