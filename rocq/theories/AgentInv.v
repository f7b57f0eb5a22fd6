(** The invariant of the agent (AgentModel.v) against its specification
    (AgentSpec.v). *)

From Coq Require Import String List ZArith Lia Bool Field.
From Coq Require Import ZifyBool ZifyNat.
From Verif Require Import Base BaseFacts Field MemSpec MemModel MemProofs MemQueries
  RetSpec RetModel RetProofs AgentSpec AgentModel AgentProofs.
Import ListNotations.
Open Scope Z_scope.

Lemma gathers_segment {A} (buf xs : list A) (f : Z -> Z) a n :
  (a + n <= length xs)%nat ->
  (forall k x, (a <= k < a + n)%nat -> nth_error xs k = Some x -> gather buf (f (Z.of_nat k)) = Ok x) ->
  gathers buf (map f (zrange (Z.of_nat a) (Z.of_nat (a + n)))) = Ok (segment a n xs).
Proof.
  revert a. induction n as [|n IH]; intros a Hl H.
  - rewrite zrange_nil by lia. reflexivity.
  - rewrite zrange_cons by lia. cbn [map]. unfold gathers. cbn [map_res].
    destruct (nth_error xs a) as [x|] eqn:E; [|apply nth_error_None in E; lia].
    rewrite (H a x) by (auto; lia). cbn [bind].
    replace (Z.of_nat a + 1) with (Z.of_nat (S a)) by lia.
    replace (Z.of_nat (a + S n)) with (Z.of_nat (S a + n)) by lia.
    fold (gathers buf (map f (zrange (Z.of_nat (S a)) (Z.of_nat (S a + n))))).
    rewrite IH by (try lia; intros; apply H; auto; lia). cbn [bind]. f_equal.
    unfold segment. rewrite <- (firstn_skipn a xs) in E.
    rewrite nth_error_app2 in E by (rewrite firstn_length; lia).
    rewrite firstn_length in E. replace (a - Nat.min a (length xs))%nat with O in E by lia.
    destruct (skipn a xs) as [|y r] eqn:Es; [discriminate|]. injection E as ->.
    cbn [firstn]. f_equal. f_equal.
    clear - Es. revert xs Es. induction a as [|a IHa]; intros [|z xs] Es; cbn [skipn] in Es; try discriminate.
    + injection Es as ? ?. now subst.
    + cbn [skipn]. apply IHa. exact Es.
Qed.

Lemma segment_all {A} (xs : list A) a : segment a (length xs - a) xs = skipn a xs.
Proof. unfold segment. apply firstn_all2. rewrite skipn_length. lia. Qed.

Lemma slice_prefix {A} (row xs : list A) :
  (length xs <= length row)%nat ->
  (forall k x, nth_error xs k = Some x -> gather row (Z.of_nat k) = Ok x) ->
  slice row 0 (Z.of_nat (length xs)) = xs.
Proof.
  intros Hl H. rewrite slice_upto by lia. rewrite Nat2Z.id.
  apply nth_error_ext. intros k. destruct (Nat.lt_ge_cases k (length xs)) as [Hk|Hk].
  - rewrite nth_error_firstn by lia. destruct (nth_error xs k) as [x|] eqn:E.
    + specialize (H k x E). now apply gather_of_nat.
    + apply nth_error_None in E. lia.
  - assert (nth_error xs k = None) as -> by (apply nth_error_None; lia).
    apply nth_error_None. rewrite firstn_length. lia.
Qed.

Section AgentInv.
Variable K : field.
Add Field K_field : (fth K).
Variables St In Au Ac W : Type.
Variable pol : W -> St -> In -> Au -> Ac * In.
Variable init_int : In.
Notation X := (X St In Au Ac).
Notation tstep := (X * K * Z)%type.
Variable zero_x : X.
Variable cf : config.
Variable cap : Z.

(** If [C], all calls use the reward estimation settings [c0], [bv]. *)
Variable C : Prop.
Variable c0 : rconf K.
Variable bv : X -> K.

Notation oracle := (oracle K St In Au Ac).
Notation mstate := (mstate K St In Au Ac).
Notation astate := (astate K St In Au Ac).
Notation stream := (stream K St In Au Ac).
Notation spec := (spec K St In Au Ac).
Notation o_rc := (o_rc K St In Au Ac).
Notation o_bval := (o_bval K St In Au Ac).
Notation m_timesteps := (m_timesteps K St In Au Ac).
Notation m_episodes := (m_episodes K St In Au Ac).
Notation m_updates := (m_updates K St In Au Ac).
Notation m_len := (m_len K St In Au Ac).
Notation m_ret := (m_ret K St In Au Ac).
Notation m_int := (m_int K St In Au Ac).
Notation m_index := (m_index K St In Au Ac).
Notation m_start := (m_start K St In Au Ac).
Notation m_buf := (m_buf K St In Au Ac).
Notation m_tbuf := (m_tbuf K St In Au Ac).
Notation m_rbuf := (m_rbuf K St In Au Ac).
Notation m_last := (m_last K St In Au Ac).
Notation m_mem := (m_mem K St In Au Ac).
Notation circular := (circular cf).
Notation zero := (zero_x, 0%F : K).

Definition ex (e : tstep) : X := fst (fst e).
Definition er (e : tstep) : K := snd (fst e).
Definition et (e : tstep) : Z := snd e.
Definition xs_of (ep : list tstep) := map ex ep.
Definition rs_of (ep : list tstep) := map er ep.
Definition ts_of (ep : list tstep) := map et ep.
Definition xt (e : tstep) : X * Z := (ex e, et e).

Record wf_config : Prop := {
  wf_par : 1 <= cf_par cf;
  wf_bo : forall b, cf_bo cf = Some b -> 1 <= b;
  wf_h : 1 <= cf_hmax cf;
  wf_cap : buffer_capacity cf = Some cap;
  wf_cap1 : 1 <= cap <= cf_memcap cf;
  wf_freq : cf_freq cf <> None
}.

Definition legal_oracle (o : oracle) : Prop :=
  wf_conf K (o_rc o) /\
  (if cf_ephor cf then rc_horizon K (o_rc o) = None
   else exists h, rc_horizon K (o_rc o) = Some h /\ 1 <= h <= cf_hmax cf) /\
  (C -> o_rc o = c0 /\ o_bval o = bv).

(** With fixed settings, what is stored for a finished episode. *)
Definition stored_rewards (ep : list tstep) : list K :=
  let T := length ep in
  tabulate T (ret K c0 (rews K X bv c0 (xs_of ep) (rs_of ep) (last (ts_of ep) 0))
                  (vals K X bv c0 (xs_of ep)) T (horizon_of K c0 T)).

Definition stored_ok (ep st : list tstep) : Prop :=
  map xt st = map xt ep /\ (C -> rs_of st = stored_rewards ep).

(** The part of the episode in progress that is already stored. *)
Definition part_ok (open part : list tstep) (start : Z) : Prop :=
  len part = start /\ (part = [] \/ start < len open) /\
  map xt part = firstn (length part) (map xt open) /\
  (C -> forall k, (k < length part)%nat ->
     (k + horizon_of K c0 0 < length open)%nat /\
     at_ (rs_of part) k = ret K c0 (at_ (rs_of open)) (vals K X bv c0 (xs_of open)) (length open)
                              (horizon_of K c0 0) k).

(** The memory holds the log [l]. *)
Definition MemOk (mem : qstate (X * K)) (l : list tstep) : Prop :=
  exists calls, Forall (legal_call (cf_memcap cf)) calls /\
    qrun zero (cf_memcap cf) calls = Ok mem /\ log_of calls = l.

(** One row of the model's variables. *)
Record mrow := mkRow {
  r_index : Z; r_start : Z; r_buf : list X; r_tbuf : list Z; r_rbuf : list K;
  r_len : Z; r_ret : K; r_int : In
}.

Definition row_at (m : mstate) (p : Z) : res mrow :=
  do a1 <- gather (m_index m) p; do a2 <- gather (m_start m) p; do a3 <- gather (m_buf m) p;
  do a4 <- gather (m_tbuf m) p; do a5 <- gather (m_rbuf m) p; do a6 <- gather (m_len m) p;
  do a7 <- gather (m_ret m) p; do a8 <- gather (m_int m) p;
  Ok (mkRow a1 a2 a3 a4 a5 a6 a7 a8).

Lemma row_at_ok m p r : row_at m p = Ok r <->
  gather (m_index m) p = Ok (r_index r) /\ gather (m_start m) p = Ok (r_start r) /\
  gather (m_buf m) p = Ok (r_buf r) /\ gather (m_tbuf m) p = Ok (r_tbuf r) /\
  gather (m_rbuf m) p = Ok (r_rbuf r) /\ gather (m_len m) p = Ok (r_len r) /\
  gather (m_ret m) p = Ok (r_ret r) /\ gather (m_int m) p = Ok (r_int r).
Proof.
  unfold row_at. split.
  - destruct (gather (m_index m) p) as [a1|]; cbn [bind]; [|discriminate].
    destruct (gather (m_start m) p) as [a2|]; cbn [bind]; [|discriminate].
    destruct (gather (m_buf m) p) as [a3|]; cbn [bind]; [|discriminate].
    destruct (gather (m_tbuf m) p) as [a4|]; cbn [bind]; [|discriminate].
    destruct (gather (m_rbuf m) p) as [a5|]; cbn [bind]; [|discriminate].
    destruct (gather (m_len m) p) as [a6|]; cbn [bind]; [|discriminate].
    destruct (gather (m_ret m) p) as [a7|]; cbn [bind]; [|discriminate].
    destruct (gather (m_int m) p) as [a8|]; cbn [bind]; [|discriminate].
    intros E. injection E as <-. repeat split.
  - intros (-> & -> & -> & -> & -> & -> & -> & ->). cbn [bind]. now destruct r.
Qed.

(** Nothing but row [p] differs. *)
Definition lengths_ok (m : mstate) : Prop :=
  len (m_index m) = cf_par cf /\ len (m_start m) = cf_par cf /\ len (m_buf m) = cf_par cf /\
  len (m_tbuf m) = cf_par cf /\ len (m_rbuf m) = cf_par cf /\ len (m_len m) = cf_par cf /\
  len (m_ret m) = cf_par cf /\ len (m_int m) = cf_par cf.
Definition frame (p : Z) (m m' : mstate) : Prop :=
  (lengths_ok m -> lengths_ok m') /\ forall q, q <> p -> row_at m' q = row_at m q.
Definition globals (m : mstate) := (m_timesteps m, m_episodes m, m_updates m, m_last m).

Lemma frame_refl p m : frame p m m.
Proof. split; auto. Qed.
Lemma frame_trans p m m' m'' : frame p m m' -> frame p m' m'' -> frame p m m''.
Proof. intros [A1 A2] [B1 B2]. split; [auto|]. intros q Hq. rewrite B2, A2; auto. Qed.

Definition slot (i : Z) : Z := if circular then i mod cap else i.

(** One row against its stream; [d] timesteps of the open episode were delivered to
    the model. *)
Definition pending (s : stream) : Z := match s_pend s with None => 0 | Some _ => 1 end.
Record BRow (s : stream) (d : nat) (r : mrow) : Prop := {
  mr_index : r_index r = len (s_open s) + pending s;
  mr_d : (d <= length (s_open s))%nat;
  mr_flags : Forall (fun e => et e = 0) (s_open s);
  mr_lb : len (r_buf r) = cap;
  mr_lt : len (r_tbuf r) = cap;
  mr_lr : len (r_rbuf r) = cap;
  mr_start : if circular then 0 <= r_start r <= Z.of_nat d /\ Z.of_nat d - r_start r <= cf_hmax cf
             else r_start r = 0;
  mr_buf : forall k e, r_start r <= Z.of_nat k -> nth_error (s_open s) k = Some e ->
           gather (r_buf r) (slot (Z.of_nat k)) = Ok (ex e);
  mr_pend : forall x, s_pend s = Some x -> gather (r_buf r) (slot (len (s_open s))) = Ok x;
  mr_obs : forall k e, r_start r <= Z.of_nat k -> (k < d)%nat -> nth_error (s_open s) k = Some e ->
           gather (r_tbuf r) (slot (Z.of_nat k)) = Ok (et e) /\
           gather (r_rbuf r) (slot (Z.of_nat k)) = Ok (er e);
  mr_win : len (s_open s) + pending s - r_start r <= cap
}.

Record MRow (s : stream) (d : nat) (r : mrow) : Prop := {
  mr_b : BRow s d r;
  mr_int : r_int r = s_int s;
  mr_len : r_len r = Z.of_nat d;
  mr_ret : r_ret r = fsum (firstn d (rs_of (s_open s)))
}.

(** The log: finished episodes, then what is stored of the episode in progress. *)
Definition LogOk (m : mstate) (fin : list (list tstep)) (open0 : list tstep) : Prop :=
  exists sts part, MemOk (m_mem m) (concat sts ++ part) /\
    Forall2 stored_ok fin sts /\
    (if circular then exists start, gather (m_start m) 0 = Ok start /\ part_ok open0 part start
     else part = []).

Record MInv (m : mstate) (sp : spec) (d : Z -> nat) : Prop := {
  mi_len : lengths_ok m;
  mi_rows : forall p, 0 <= p < cf_par cf -> exists r, row_at m p = Ok r /\ MRow (sp_st sp p) (d p) r;
  mi_log : LogOk m (sp_fin sp) (s_open (sp_st sp 0));
  mi_eps : m_episodes m = len (sp_fin sp)
}.

(** ** Slots *)
Hypothesis WF : wf_config.

Lemma slot_range start i : (if circular then True else start = 0) -> 0 <= start <= i -> i < start + cap ->
  0 <= slot i < cap.
Proof.
  pose proof (wf_cap1 WF). unfold slot. destruct circular.
  - intros. apply Z.mod_pos_bound. lia.
  - lia.
Qed.

Lemma slot_inj start i j : start <= i < start + cap -> start <= j < start + cap -> slot i = slot j -> i = j.
Proof.
  pose proof (wf_cap1 WF). unfold slot. destruct circular; [|auto].
  intros Hi Hj E. eapply Zmod_window_inj; eauto; lia.
Qed.

Lemma circular_par : circular = true -> cf_par cf = 1 /\ cf_bo cf <> None /\ cf_ephor cf = false.
Proof.
  unfold AgentModel.circular. intros H. apply andb_true_iff in H as [H Hb].
  apply andb_true_iff in H as [He Hp]. apply negb_true_iff in He. apply Z.eqb_eq in Hp.
  repeat split; auto. intros C'. rewrite C' in Hb. discriminate.
Qed.

(** ** Memory *)
Lemma MemOk_inv mem l : MemOk mem l -> MemProofs.Inv zero (cf_memcap cf) l mem.
Proof.
  intros (calls & HL & E & <-). eapply run_inv'; eauto. pose proof (wf_cap1 WF). lia.
Qed.

Lemma MemOk_store mem l b : MemOk mem l -> legal_batch (cf_memcap cf) b ->
  exists mem', queue_enqueue mem b = Ok mem' /\ MemOk mem' (l ++ b).
Proof.
  intros H HL. destruct (enqueue_ok zero (cf_memcap cf) l mem b (MemOk_inv _ _ H) HL) as (mem' & E & _).
  exists mem'. split; [exact E|]. destruct H as (calls & Hc & Er & El).
  exists (calls ++ [Store b]). split; [|split].
  - apply Forall_app. split; [exact Hc|]. repeat constructor. exact HL.
  - rewrite qrun_snoc, Er. exact E.
  - unfold log_of in *. rewrite fold_left_app. cbn [fold_left append_call]. now rewrite El.
Qed.

Lemma MemOk_reset mem l : MemOk mem l ->
  exists mem', queue_reset mem = Ok mem' /\ MemOk mem' (close l).
Proof.
  intros H. destruct (reset_ok zero (cf_memcap cf) l mem (MemOk_inv _ _ H)) as (mem' & E & _).
  exists mem'. split; [exact E|]. destruct H as (calls & Hc & Er & El).
  exists (calls ++ [Reset]). split; [|split].
  - apply Forall_app. split; [exact Hc|]. repeat constructor.
  - rewrite qrun_snoc, Er. exact E.
  - unfold log_of in *. rewrite fold_left_app. cbn [fold_left append_call]. now rewrite El.
Qed.

Notation mem_enqueue := (mem_enqueue K St In Au Ac).
Notation set_mem := (set_mem K St In Au Ac).

Lemma mem_enqueue_ok m l xs rs ts :
  MemOk (m_mem m) l -> length rs = length xs -> length ts = length xs ->
  legal_batch (cf_memcap cf) (combine (combine xs rs) ts) ->
  exists mem', mem_enqueue m xs rs ts = Ok (set_mem m mem') /\
    MemOk mem' (l ++ combine (combine xs rs) ts).
Proof.
  intros H E1 E2 HL. destruct (MemOk_store _ _ _ H HL) as (mem' & E & H').
  exists mem'. split; [|exact H']. unfold AgentModel.mem_enqueue.
  rewrite vec2_pair_combine by lia. cbn [bind].
  rewrite vec2_pair_combine by (rewrite combine_length; lia). cbn [bind].
  rewrite E. reflexivity.
Qed.

(** ** Returns *)
Lemma scan_rev_length {A B} (f : B -> A -> B) i l : length (scan_rev f i l) = length l.
Proof. induction l as [|x l IH]; [reflexivity|]. cbn [scan_rev length]. now rewrite IH. Qed.

Lemma last_ok_len {A} (l : list A) : (1 <= length l)%nat -> exists x, last_ l = Ok x.
Proof. intros H. destruct (list_rev_destruct l) as [->|(l0 & x & ->)]; [cbn in H; lia|]. exists x. apply last_ok. Qed.

Lemma episode_returns_len bval c xs rs ts T :
  wf_conf K c -> length xs = T -> length rs = T -> length ts = T -> (1 <= T)%nat ->
  (rc_trace K c <> None -> (2 <= T)%nat) ->
  exists ret, episode_returns K X bval c xs rs ts = Ok ret /\ length ret = T.
Proof.
  intros Hwf Hx Hr Ht HT H2.
  assert (exists ret, terminal_iterative K X bval c xs rs ts = Ok ret /\ length ret = T) as HI.
  { unfold terminal_iterative.
    destruct (last_ok_len rs ltac:(lia)) as (rl & Erl). destruct (last_ok_len ts ltac:(lia)) as (tl & Etl).
    destruct (last_ok_len xs ltac:(lia)) as (xl & Exl).
    destruct (rc_trace K c) as [l|] eqn:Etr.
    - specialize (H2 ltac:(discriminate)).
      assert (length (map bval (slice xs 1 (len xs))) = (T - 1)%nat) as Hv.
      { rewrite map_length, slice_length by lia. lia. }
      destruct (last_ok_len (map bval (slice xs 1 (len xs))) ltac:(lia)) as (vl & Evl).
      rewrite Evl, Erl, Etl. cbn [bind].
      rewrite vec2_pair_combine by (rewrite app_length, Hv; cbn [length]; lia). cbn [bind].
      eexists. split; [reflexivity|]. rewrite scan_rev_length, combine_length, app_length, Hv. cbn [length]. lia.
    - rewrite Erl, Etl. cbn [bind].
      destruct (rc_early K c), (rc_predterm K c), (tl =? 1); rewrite ?Exl; cbn [bind];
        (eexists; split; [reflexivity|]; now rewrite scan_rev_length). }
  unfold episode_returns. destruct (rc_horizon K c) as [h|] eqn:Eh; [|exact HI].
  rewrite Ht. destruct (Z.leb_spec (Z.of_nat T) h); [exact HI|].
  destruct (nth_error ts (T - 1)) as [f|] eqn:Ef; [|apply nth_error_None in Ef; lia].
  pose proof Hwf as [_ Hh]. rewrite Eh in Hh.
  rewrite (terminal_parallel_ok K X bval c xs rs ts f T h) by auto.
  eexists. split; [reflexivity|]. apply tabulate_length.
Qed.

Definition zip (xs : list X) (rs : list K) (ts : list Z) : list tstep := combine (combine xs rs) ts.

Lemma zip_xt xs : forall rs ts, length rs = length xs -> length ts = length xs ->
  map xt (zip xs rs ts) = combine xs ts.
Proof.
  unfold zip. induction xs as [|x xs IH]; intros [|r rs] [|t ts] H1 H2; try discriminate; [reflexivity|].
  cbn [combine map]. rewrite IH by (cbn [length] in *; lia). reflexivity.
Qed.
Lemma zip_rs xs : forall rs ts, length rs = length xs -> length ts = length xs -> rs_of (zip xs rs ts) = rs.
Proof.
  unfold zip, rs_of. induction xs as [|x xs IH]; intros [|r rs] [|t ts] H1 H2; try discriminate; [reflexivity|].
  cbn [combine map]. rewrite IH by (cbn [length] in *; lia). reflexivity.
Qed.
Lemma zip_length xs rs ts : length rs = length xs -> length ts = length xs -> length (zip xs rs ts) = length xs.
Proof. intros. unfold zip. rewrite !combine_length. lia. Qed.
Lemma zip_ts xs : forall rs ts, length rs = length xs -> length ts = length xs -> map snd (zip xs rs ts) = ts.
Proof.
  unfold zip. induction xs as [|x xs IH]; intros [|r rs] [|t ts] H1 H2; try discriminate; [reflexivity|].
  cbn [combine map]. rewrite IH by (cbn [length] in *; lia). reflexivity.
Qed.
Lemma xt_combine ep : map xt ep = combine (xs_of ep) (ts_of ep).
Proof. induction ep as [|e ep IH]; [reflexivity|]. cbn. now rewrite IH. Qed.

Lemma combine_skipn {A B} (a : list A) (b : list B) n : combine (skipn n a) (skipn n b) = skipn n (combine a b).
Proof.
  revert a b. induction n as [|n IH]; intros a b; [reflexivity|].
  destruct a as [|x a], b as [|y b]; cbn [skipn combine]; auto.
  - now destruct (skipn n a).
Qed.

Lemma zip_legal xs rs ts pre t : length rs = length xs -> length ts = length xs ->
  ts = pre ++ [t] -> Forall (fun t => t = 0) pre -> 0 <= t <= 2 -> len xs <= cf_memcap cf ->
  legal_batch (cf_memcap cf) (zip xs rs ts).
Proof.
  intros H1 H2 Et Hp Ht Hl.
  destruct (list_rev_destruct (zip xs rs ts)) as [E|(b & x & E)].
  - apply (f_equal (@length _)) in E. rewrite zip_length in E by auto. cbn [length] in E.
    rewrite Et, app_length in H2. cbn [length] in H2. lia.
  - exists b, x. split; [exact E|].
    pose proof (zip_ts xs rs ts H1 H2) as Hz. rewrite E, map_app, Et in Hz. cbn [map] in Hz.
    apply app_inj_tail in Hz as [Hb Hx]. split; [|split].
    + rewrite Forall_forall in *. intros e He. apply Hp. rewrite <- Hb. now apply in_map.
    + now rewrite Hx.
    + rewrite zip_length by auto. exact Hl.
Qed.

Lemma vals_skipn c xs s k : vals K X bv c (skipn s xs) k = vals K X bv c xs (s + k).
Proof. unfold vals. destruct (rc_early K c); [apply value_at_skipn|reflexivity]. Qed.

Lemma vals_app c xs ys k : (k < length xs)%nat -> vals K X bv c (xs ++ ys) k = vals K X bv c xs k.
Proof.
  intros H. unfold vals. destruct (rc_early K c); [|reflexivity].
  unfold value_at. now rewrite nth_error_app1.
Qed.

Lemma rews_inner c xs rs f k : (k < length rs - 1)%nat -> rews K X bv c xs rs f k = at_ rs k.
Proof.
  intros H. unfold rews. destruct (final_reward K c f); [reflexivity|]. unfold with_last.
  destruct (Nat.eqb_spec k (length rs - 1)); [lia|reflexivity].
Qed.

Lemma rews_skipn c xs rs f s k : (s < length rs)%nat ->
  rews K X bv c (skipn s xs) (skipn s rs) f k = rews K X bv c xs rs f (s + k).
Proof.
  intros H. unfold rews. destruct (final_reward K c f); [apply at_skipn|]. unfold with_last.
  rewrite skipn_length, vals_skipn, at_skipn.
  destruct (Nat.eqb_spec k (length rs - s - 1)), (Nat.eqb_spec (s + k) (length rs - 1)); try lia; [|reflexivity].
  f_equal. lia.
Qed.

(** A stored prefix stays right when the episode goes on. *)
Lemma part_value c open rest T k h f :
  T = length (open ++ rest) -> (1 <= h)%nat -> (k + h < length open)%nat ->
  ret K c (at_ (rs_of open)) (vals K X bv c (xs_of open)) (length open) h k
  = ret K c (rews K X bv c (xs_of (open ++ rest)) (rs_of (open ++ rest)) f) (vals K X bv c (xs_of (open ++ rest))) T h k.
Proof.
  intros HT Hh Hk. rewrite app_length in HT. apply ret_local; [| |exact Hh].
  - intros j Hj. unfold cut.
    destruct (Nat.ltb_spec (k + j) (length open)); [|lia].
    destruct (Nat.ltb_spec (k + j) T); [|lia].
    rewrite rews_inner by (unfold rs_of; rewrite map_length, app_length; lia).
    unfold rs_of. rewrite map_app. symmetry. apply at_app1. rewrite map_length. lia.
  - intros j Hj. unfold cut.
    destruct (Nat.ltb_spec (k + j) (length open)); [|lia].
    destruct (Nat.ltb_spec (k + j) T); [|lia].
    unfold xs_of. rewrite map_app. symmetry. apply vals_app. rewrite map_length. lia.
Qed.

Lemma part_value0 c open rest T k h :
  T = length (open ++ rest) -> (1 <= h)%nat -> (k + h < length open)%nat ->
  ret K c (at_ (rs_of open)) (vals K X bv c (xs_of open)) (length open) h k
  = ret K c (at_ (rs_of (open ++ rest))) (vals K X bv c (xs_of (open ++ rest))) T h k.
Proof.
  intros HT Hh Hk. rewrite app_length in HT. apply ret_local; [| |exact Hh].
  - intros j Hj. unfold cut.
    destruct (Nat.ltb_spec (k + j) (length open)); [|lia].
    destruct (Nat.ltb_spec (k + j) T); [|lia].
    unfold rs_of. rewrite map_app. symmetry. apply at_app1. rewrite map_length. lia.
  - intros j Hj. unfold cut.
    destruct (Nat.ltb_spec (k + j) (length open)); [|lia].
    destruct (Nat.ltb_spec (k + j) T); [|lia].
    unfold xs_of. rewrite map_app. symmetry. apply vals_app. rewrite map_length. lia.
Qed.

Hypothesis C_wf : C -> (if cf_ephor cf then rc_horizon K c0 = None
   else exists h, rc_horizon K c0 = Some h /\ 1 <= h <= cf_hmax cf).
Hypothesis C_disc : C -> rc_discount K c0 <> 0%F.

Lemma part_ok_app open part start e : cf_ephor cf = false -> part_ok open part start -> part_ok (open ++ [e]) part start.
Proof.
  intros He (H1 & H2 & H3 & H4). split; [exact H1|]. split; [|split].
  - destruct H2; [auto|right]. rewrite app_length. lia.
  - rewrite map_app, firstn_app_le; [exact H3|]. rewrite map_length.
    destruct H2 as [->|]; cbn [length]; lia.
  - intros HC k Hk. destruct (H4 HC k Hk) as [H5 H6]. split; [rewrite app_length; lia|].
    rewrite H6. apply part_value0; auto.
    specialize (C_wf HC). rewrite He in C_wf. destruct C_wf as (h & Eh & Hh).
    unfold horizon_of. rewrite Eh. lia.
Qed.

Notation core_experience := (core_experience K St In Au Ac).

Lemma core_experience_ok o m l open part e :
  legal_oracle o -> MemOk (m_mem m) (l ++ part) -> part_ok open part (len part) ->
  (cf_ephor cf = true -> part = []) ->
  Forall (fun e => et e = 0) open -> 1 <= et e <= 2 ->
  len open + 1 - len part <= cf_memcap cf ->
  (rc_trace K (o_rc o) <> None -> open <> []) ->
  let ep := open ++ [e] in
  let s := length part in
  exists mem' st,
    core_experience o m (skipn s (xs_of ep)) (skipn s (ts_of ep)) (skipn s (rs_of ep)) = Ok (set_mem m mem') /\
    MemOk mem' (l ++ st) /\ stored_ok ep st.
Proof.
  intros (Hwf & Hho & HC) HM (_ & Hp2 & Hp3 & Hp4) Hep Hfl Het Hlen Htr ep s.
  assert (s <= length open)%nat as Hs by (unfold s; destruct Hp2 as [->|]; cbn [length]; lia).
  assert (length ep = S (length open)) as Lep by (unfold ep; rewrite app_length; cbn [length]; lia).
  set (T' := (S (length open) - s)%nat).
  assert (length (skipn s (xs_of ep)) = T') as L1 by (rewrite skipn_length; unfold xs_of; rewrite map_length; lia).
  assert (length (skipn s (rs_of ep)) = T') as L2 by (rewrite skipn_length; unfold rs_of; rewrite map_length; lia).
  assert (length (skipn s (ts_of ep)) = T') as L3 by (rewrite skipn_length; unfold ts_of; rewrite map_length; lia).
  assert (rc_trace K (o_rc o) <> None -> (2 <= T')%nat) as Htr2.
  { intros HT. specialize (Htr HT). destruct open as [|e1 open1]; [congruence|].
    unfold T', s. destruct Hp2 as [->|Hp2]; cbn [length] in *; lia. }
  destruct (episode_returns_len (o_bval o) (o_rc o) _ _ _ T' Hwf L1 L2 L3 ltac:(lia) Htr2) as (rt & Ert & Lrt).
  unfold AgentModel.core_experience. rewrite Ert. cbn [bind].
  assert (skipn s (ts_of ep) = skipn s (ts_of open) ++ [et e]) as Ets.
  { unfold ep, ts_of. rewrite map_app, skipn_app, map_length.
    replace (s - length open)%nat with O by lia. reflexivity. }
  destruct (mem_enqueue_ok m (l ++ part) (skipn s (xs_of ep)) rt (skipn s (ts_of ep)) HM) as (mem' & E & HM').
  { lia. }
  { lia. }
  { eapply zip_legal; [lia|lia|exact Ets| |lia|].
    - rewrite Forall_forall in *. intros t Ht. apply (Forall_forall (fun t => t = 0)) with (x := t) (l := ts_of open).
      + unfold ts_of. rewrite Forall_map, Forall_forall. exact Hfl.
      + rewrite <- (firstn_skipn s (ts_of open)). apply in_or_app. now right.
    - rewrite L1. unfold T', s. lia. }
  exists mem', (part ++ zip (skipn s (xs_of ep)) rt (skipn s (ts_of ep))).
  split; [exact E|]. split; [rewrite app_assoc; exact HM'|].
  split.
  - rewrite map_app, zip_xt by lia. rewrite combine_skipn, <- xt_combine.
    rewrite Hp3. transitivity (firstn s (map xt ep) ++ skipn s (map xt ep)); [|apply firstn_skipn]. f_equal.
    unfold ep. rewrite map_app, firstn_app_le; [reflexivity|]. rewrite map_length. exact Hs.
  - intros HCC. destruct (HC HCC) as [Ec Eb]. rewrite Ec, Eb in *.
    assert (last (ts_of ep) 0 = et e) as Elast by (unfold ep, ts_of; rewrite map_app; apply last_last).
    assert (nth_error (skipn s (ts_of ep)) (T' - 1) = Some (et e)) as Enth.
    { rewrite Ets. rewrite nth_error_app2; rewrite skipn_length; unfold ts_of; rewrite map_length; [|lia].
      replace (T' - 1 - (length open - s))%nat with O by lia. reflexivity. }
    rewrite (episode_returns_ok K X bv c0 _ _ _ (et e) T') in Ert; auto; try lia.
    injection Ert as <-.
    unfold rs_of at 1. rewrite map_app. fold (rs_of part). fold (rs_of (zip (skipn s (xs_of ep)) (tabulate T'
            (ret K c0 (rews K X bv c0 (skipn s (xs_of ep)) (skipn s (rs_of ep)) (et e))
               (vals K X bv c0 (skipn s (xs_of ep))) T' (horizon_of K c0 T'))) (skipn s (ts_of ep)))).
    rewrite zip_rs by (rewrite ?tabulate_length; lia).
    unfold stored_rewards. rewrite Lep, Elast.
    replace (S (length open)) with (s + T')%nat by lia. rewrite tabulate_app.
    assert (part = [] \/ exists h, rc_horizon K c0 = Some h /\ 1 <= h) as Hcase.
    { destruct (cf_ephor cf); [left; auto|right]. destruct Hho as (h & Eh & Hh). exists h. split; [auto|lia]. }
    assert (forall n, part <> [] -> horizon_of K c0 n = horizon_of K c0 0 /\ (1 <= horizon_of K c0 0)%nat) as Hhor.
    { intros n Hne. destruct Hcase as [|(h & Eh & Hh)]; [congruence|]. unfold horizon_of. rewrite Eh. lia. }
    f_equal.
    + apply tabulate_eq; [unfold rs_of; rewrite map_length; reflexivity|].
      intros k Hk. destruct (Hp4 HCC k Hk) as [H5 H6].
      rewrite at_nth by (unfold rs_of; rewrite map_length; exact Hk). f_equal. rewrite H6.
      assert (part <> []) as Hne by (intros ->; cbn in Hk; lia).
      destruct (Hhor (s + T')%nat Hne) as [-> H1h].
      apply part_value; auto. rewrite app_length. cbn [length]. lia.
    + apply tabulate_ext. intros k Hk. rewrite ret_shift by lia.
      replace (s + T' - s)%nat with T' by lia.
      destruct part as [|e1 part1] eqn:Epart.
      * assert (s = O) as Es by reflexivity. rewrite Es. cbn [Nat.add skipn].
        f_equal.
      * assert (e1 :: part1 <> []) as Hne by discriminate.
        destruct (Hhor (s + T')%nat Hne) as [-> H1h]. destruct (Hhor T' Hne) as [-> _].
        apply ret_local; [| |exact H1h].
        -- intros j Hj. unfold cut. destruct (_ <? _)%nat; [|reflexivity].
           apply rews_skipn. unfold rs_of. rewrite map_length. lia.
        -- intros j Hj. unfold cut. destruct (_ <? _)%nat; [|reflexivity]. apply vals_skipn.
Qed.

(** ** Observing *)
Definition same (m m' : mstate) : Prop := globals m' = globals m /\ m_mem m' = m_mem m.

Lemma circular_cond b : cf_bo cf = Some b -> (cf_ephor cf || (1 <? cf_par cf)) = negb circular.
Proof.
  intros E. unfold AgentModel.circular. rewrite E. pose proof (wf_par WF).
  destruct (cf_ephor cf); cbn [negb andb orb]; [reflexivity|].
  destruct (Z.ltb_spec 1 (cf_par cf)), (Z.eqb_spec (cf_par cf) 1); lia || reflexivity.
Qed.

Lemma map_slot_id l : circular = false -> map slot l = l.
Proof. intros E. unfold slot. rewrite E. apply map_id. Qed.
Lemma map_slot_mod l : circular = true -> map slot l = map (fun i => i mod cap) l.
Proof. intros E. unfold slot. now rewrite E. Qed.

Lemma write_slots {A} (row us : list A) start d n :
  (if circular then True else start = 0) ->
  len row = cap -> 0 <= start <= d -> d <= n -> n - start <= cap -> len us = n - d ->
  exists row', scatter row (map slot (zrange d n)) us = Ok row' /\ len row' = cap /\
    (forall k u, nth_error us k = Some u -> gather row' (slot (d + Z.of_nat k)) = Ok u) /\
    (forall j, start <= j < d -> gather row' (slot j) = gather row (slot j)).
Proof.
  intros Hc Hl Hs Hd Hn Hu.
  destruct (scatter_ok (map slot (zrange d n)) row us) as (row' & E & HL & H1 & H2).
  { rewrite map_length, zrange_length. lia. }
  { rewrite Forall_map, Forall_forall. intros i Hi. apply in_zrange in Hi.
    rewrite Hl. apply (slot_range start); auto; lia. }
  assert (NoDup (map slot (zrange d n))) as ND.
  { pose proof (zrange_NoDup d n) as Z0.
    assert (forall i, List.In i (zrange d n) -> d <= i < n) as ZI by (intros i Hi; now apply in_zrange in Hi).
    revert Z0 ZI. generalize (zrange d n). intros l. induction l as [|i l IH]; intros Z0 ZI; [constructor|].
    apply NoDup_cons_iff in Z0 as [N1 N2]. cbn [map]. constructor.
    - intros HI. apply in_map_iff in HI as (j & Ej & Hj).
      pose proof (ZI i (or_introl eq_refl)). pose proof (ZI j (or_intror Hj)).
      apply (slot_inj start) in Ej; [subst; auto|lia|lia].
    - apply IH; [exact N2|]. intros j Hj. apply ZI. now right. }
  exists row'. split; [exact E|]. split; [lia|]. split.
  - intros k u Hk. apply (H2 ND) with (k := k); [|exact Hk].
    rewrite (map_nth_error slot k (zrange d n) (d := d + Z.of_nat k)); [reflexivity|].
    apply zrange_nth. assert (k < length us)%nat by (apply nth_error_Some; congruence). lia.
  - intros j Hj. apply H1. intros HI. apply in_map_iff in HI as (i & Ei & Hi).
    apply in_zrange in Hi. apply (slot_inj start) in Ei; lia.
Qed.

Notation write_observed := (write_observed K St In Au Ac).
Notation set_buffers := (set_buffers K St In Au Ac).

Lemma gather_upd {A} (l : list A) p q v : 0 <= p < len l ->
  gather (update_nth l (Z.to_nat p) v) q = if q =? p then Ok v else gather l q.
Proof.
  intros H. destruct (Z.eqb_spec q p) as [->|N]; [now apply gather_update_same|].
  apply gather_update_other; lia.
Qed.

Lemma write_ok m p r idx ts rs tr' rr' :
  row_at m p = Ok r -> scatter (r_tbuf r) idx ts = Ok tr' -> scatter (r_rbuf r) idx rs = Ok rr' ->
  exists m', write_observed m p idx ts rs = Ok m' /\
    row_at m' p = Ok (mkRow (r_index r) (r_start r) (r_buf r) tr' rr' (r_len r) (r_ret r) (r_int r)) /\
    frame p m m' /\ same m m' /\ m_start m' = m_start m.
Proof.
  intros Hr Ht Hrr. apply row_at_ok in Hr as (R1 & R2 & R3 & R4 & R5 & R6 & R7 & R8).
  destruct (scatter2_row p idx (m_tbuf m) ts _ _ R4 Ht) as (tb & Et & Lt & Gt & Ft).
  destruct (scatter2_row p idx (m_rbuf m) rs _ _ R5 Hrr) as (rb & Er & Lr & Gr & Fr).
  unfold AgentModel.write_observed. rewrite Et. cbn [bind]. rewrite Er. cbn [bind].
  eexists. split; [reflexivity|]. split; [|split; [|split]].
  - apply row_at_ok. cbn. repeat split; assumption.
  - split.
    + unfold lengths_ok. cbn. rewrite Lt, Lr. auto.
    + intros q Hq. unfold row_at. cbn. now rewrite (Ft q Hq), (Fr q Hq).
  - split; reflexivity.
  - reflexivity.
Qed.

Notation observe_nonterminal := (observe_nonterminal K St In Au Ac cf).
Notation observe_terminal := (observe_terminal K St In Au Ac cf).

(** The flags / rewards handed over: those not delivered yet and the new one. *)
Definition delivered_ts (s : stream) (d : nat) (t : Z) : list Z := skipn d (ts_of (s_open s)) ++ [t].
Definition delivered_rs (s : stream) (d : nat) (r : K) : list K := skipn d (rs_of (s_open s)) ++ [r].

Lemma nth_app_cases {A} (l : list A) x k e : nth_error (l ++ [x]) k = Some e ->
  ((k < length l)%nat /\ nth_error l k = Some e) \/ (k = length l /\ e = x).
Proof.
  intros H. destruct (Nat.lt_ge_cases k (length l)) as [Hk|Hk].
  - left. rewrite nth_error_app1 in H by exact Hk. auto.
  - right. rewrite nth_error_app2 in H by exact Hk.
    destruct (k - length l)%nat as [|j] eqn:E; [|destruct j; discriminate].
    cbn in H. injection H as ->. split; [lia|reflexivity].
Qed.

Lemma start_facts s d r : BRow s d r ->
  0 <= r_start r <= Z.of_nat d /\ (if circular then True else r_start r = 0).
Proof. intros HB. pose proof (mr_start _ _ _ HB) as H. destruct circular; lia. Qed.

(** Writing terminal and reward of everything delivered now. *)
Lemma write_delivered s d r x rw t : BRow s d r -> s_pend s = Some x ->
  let open' := s_open s ++ [(x, rw, t)] in
  let n := len (delivered_ts s d t) in
  exists tr' rr',
    scatter (r_tbuf r) (map slot (zrange (r_index r - n) (r_index r))) (delivered_ts s d t) = Ok tr' /\
    scatter (r_rbuf r) (map slot (zrange (r_index r - n) (r_index r))) (delivered_rs s d rw) = Ok rr' /\
    len tr' = cap /\ len rr' = cap /\ r_index r = len open' /\
    (forall k e, r_start r <= Z.of_nat k -> nth_error open' k = Some e ->
       gather (r_buf r) (slot (Z.of_nat k)) = Ok (ex e) /\
       gather tr' (slot (Z.of_nat k)) = Ok (et e) /\ gather rr' (slot (Z.of_nat k)) = Ok (er e)).
Proof.
  intros HB Hp open' n. destruct (start_facts _ _ _ HB) as [Hst Hst'].
  assert (pending s = 1) as Ep by (unfold pending; now rewrite Hp).
  pose proof (mr_index _ _ _ HB) as HI. pose proof (mr_d _ _ _ HB) as Hd. pose proof (mr_win _ _ _ HB) as Hw.
  assert (len open' = len (s_open s) + 1) as Lo by (unfold open'; rewrite app_length; cbn [length]; lia).
  assert (n = len open' - Z.of_nat d) as En.
  { unfold n, delivered_ts. rewrite app_length, skipn_length. unfold ts_of. rewrite map_length. cbn [length]. lia. }
  assert (len (delivered_rs s d rw) = n) as Ern.
  { rewrite En. unfold delivered_rs. rewrite app_length, skipn_length. unfold rs_of. rewrite map_length. cbn [length]. lia. }
  assert (r_index r - n = Z.of_nat d) as E0 by lia. rewrite E0.
  assert (r_index r = len open') as E1 by lia. rewrite E1.
  assert (Z.of_nat d <= len open') as Hdo by lia.
  assert (len open' - r_start r <= cap) as Hwo by lia.
  destruct (write_slots (r_tbuf r) (delivered_ts s d t) (r_start r) (Z.of_nat d) (len open')
              Hst' (mr_lt _ _ _ HB) Hst Hdo Hwo En) as (tr' & Et & Lt & G1 & G2).
  destruct (write_slots (r_rbuf r) (delivered_rs s d rw) (r_start r) (Z.of_nat d) (len open')
              Hst' (mr_lr _ _ _ HB) Hst Hdo Hwo (eq_trans Ern En)) as (rr' & Er & Lr & G3 & G4).
  exists tr', rr'. repeat (split; [assumption|]). split; [reflexivity|].
  assert (forall j e, nth_error open' (d + j) = Some e ->
     nth_error (delivered_ts s d t) j = Some (et e) /\ nth_error (delivered_rs s d rw) j = Some (er e)) as HD.
  { intros j e He.
    assert (delivered_ts s d t = skipn d (ts_of open')) as ->.
    { unfold delivered_ts, open', ts_of. rewrite map_app, skipn_app, map_length.
      replace (d - length (s_open s))%nat with O by lia. reflexivity. }
    assert (delivered_rs s d rw = skipn d (rs_of open')) as ->.
    { unfold delivered_rs, open', rs_of. rewrite map_app, skipn_app, map_length.
      replace (d - length (s_open s))%nat with O by lia. reflexivity. }
    rewrite !nth_error_skipn. unfold ts_of, rs_of. split; now apply map_nth_error. }
  intros k e Hk He. split; [|].
  - unfold open' in He. apply nth_app_cases in He as [[Hlt He]|[-> ->]].
    + apply (mr_buf _ _ _ HB); auto.
    + apply (mr_pend _ _ _ HB). exact Hp.
  - destruct (Nat.lt_ge_cases k d) as [Hkd|Hkd].
    + assert (nth_error (s_open s) k = Some e) as He'.
      { unfold open' in He. rewrite nth_error_app1 in He by lia. exact He. }
      rewrite G2, G4 by lia. apply (mr_obs _ _ _ HB); auto.
    + replace k with (d + (k - d))%nat in He by lia. destruct (HD _ _ He) as [D1 D2].
      replace (Z.of_nat k) with (Z.of_nat d + Z.of_nat (k - d)) by lia. auto.
Qed.

Lemma legal_horizon o : legal_oracle o -> cf_ephor cf = false ->
  exists h, rc_horizon K (o_rc o) = Some h /\ 1 <= h <= cf_hmax cf /\
    (C -> horizon_of K c0 0 = Z.to_nat h /\ o_rc o = c0 /\ o_bval o = bv).
Proof.
  intros (_ & H & HC) E. rewrite E in H. destruct H as (h & Eh & Hh). exists h.
  split; [exact Eh|]. split; [exact Hh|]. intros Hc. destruct (HC Hc) as [E1 E2].
  split; [|auto]. unfold horizon_of. rewrite <- E1, Eh. reflexivity.
Qed.

Lemma segment_firstn_skipn {A} (l : list A) a n : segment a n l = firstn n (skipn a l).
Proof. reflexivity. Qed.

Lemma observe_nonterminal_ok o m p r s d x rw fin open0 :
  legal_oracle o -> row_at m p = Ok r -> BRow s d r -> s_pend s = Some x -> cf_bo cf <> None ->
  (circular = true -> p = 0 /\ open0 = s_open s) -> LogOk m fin open0 ->
  let open' := s_open s ++ [(x, rw, 0)] in
  let s' := {| s_open := open'; s_pend := None; s_int := s_int s |} in
  exists m' r', observe_nonterminal o m p (delivered_ts s d 0) (delivered_rs s d rw) = Ok m' /\
    row_at m' p = Ok r' /\ BRow s' (length open') r' /\
    r_len r' = r_len r /\ r_ret r' = r_ret r /\ r_int r' = r_int r /\
    frame p m m' /\ globals m' = globals m /\
    LogOk m' fin (if circular then open' else open0).
Proof.
  intros Ho Hr HB Hp Hbo Hc0 HLog open' s'.
  destruct (cf_bo cf) as [b|] eqn:Eb; [|congruence]. clear Hbo.
  destruct (write_delivered s d r x rw 0 HB Hp) as (tr' & rr' & W1 & W2 & W3 & W4 & W5 & W6).
  fold open' in W5, W6.
  destruct (start_facts _ _ _ HB) as [Hst Hst'].
  pose proof (mr_d _ _ _ HB) as Hd. pose proof (mr_win _ _ _ HB) as Hw. pose proof (wf_cap1 WF) as Hcap.
  assert (pending s = 1) as Ep by (unfold pending; now rewrite Hp). rewrite Ep in Hw.
  assert (len open' = len (s_open s) + 1) as Lo by (unfold open'; rewrite app_length; cbn [length]; lia).
  assert (Forall (fun e => et e = 0) open') as Hfl'.
  { unfold open'. apply Forall_app. split; [apply (mr_flags _ _ _ HB)|]. repeat constructor. }
  set (r1 := mkRow (r_index r) (r_start r) (r_buf r) tr' rr' (r_len r) (r_ret r) (r_int r)).
  destruct (write_ok m p r _ _ _ _ _ Hr W1 W2) as (m1 & Em1 & Hr1 & F1 & [S1 S1'] & S1''). fold r1 in Hr1.
  pose proof (proj1 (row_at_ok _ _ _) Hr) as (R1 & R2 & R3 & R4 & R5 & R6 & R7 & R8).
  assert (forall st', r_start r <= st' ->
            (if circular then 0 <= st' <= len open' /\ len open' - st' <= cf_hmax cf else st' = 0) ->
            BRow s' (length open') (mkRow (r_index r) st' (r_buf r) tr' rr' (r_len r) (r_ret r) (r_int r))) as HBn.
  { intros st' Hst1 Hst2.
    constructor; cbn [s_open s_pend s' r_index r_start r_buf r_tbuf r_rbuf]; auto;
      try change (pending s') with 0; try lia.
    - apply (mr_lb _ _ _ HB).
    - intros k e Hk He. apply W6; [lia|exact He].
    - discriminate.
    - intros k e Hk _ He. apply W6; [lia|exact He]. }
  unfold AgentModel.observe_nonterminal. rewrite R1. cbn [bind]. rewrite Eb, (wf_cap WF).
  rewrite (circular_cond b Eb).
  destruct circular eqn:Ec; cbn [negb]; cycle 1.
  { (* whole episodes are buffered *)
    rewrite (map_slot_id _ Ec) in Em1.
    exists m1, r1.
    split; [exact Em1|]. split; [exact Hr1|].
    split; [apply HBn; [lia|exact Hst']|]. do 3 (split; [reflexivity|]). split; [exact F1|]. split; [exact S1|].
    destruct HLog as (sts & part & L1 & L2 & L3). exists sts, part. rewrite S1', Ec in *. auto. }
  (* sliding buffer *)
  destruct (circular_par Ec) as (_ & _ & Ee).
  destruct (legal_horizon o Ho Ee) as (h & Eh & Hh & HC). rewrite Eh, R2. cbn [bind].
  rewrite (map_slot_mod _ Ec) in Em1. rewrite Em1. cbn [bind].
  destruct (Hc0 eq_refl) as [Hp0 Ho0].
  destruct HLog as (sts & part & L1 & L2 & L3). rewrite Ec in L3. destruct L3 as (start & L3 & L4).
  rewrite Hp0 in R2. assert (start = r_start r) as -> by congruence. rewrite Ho0 in L4.
  pose proof (part_ok_app _ _ _ (x, rw, 0) Ee L4) as L5. fold open' in L5.
  destruct (Z.ltb_spec 0 (r_index r - r_start r - h)) as [Hnc|Hnc]; cycle 1.
  { exists m1, r1. split; [reflexivity|]. split; [exact Hr1|].
    split; [apply HBn; [lia|lia]|]. do 3 (split; [reflexivity|]). split; [exact F1|]. split; [exact S1|].
    exists sts, part. rewrite S1', Ec, S1''. split; [exact L1|]. split; [exact L2|]. exists (r_start r). auto. }
  (* some timesteps are complete *)
  set (st := Z.to_nat (r_start r)). set (n' := (length open' - st)%nat). set (nc := (n' - Z.to_nat h)%nat).
  assert (Z.of_nat st = r_start r) as Est by lia.
  assert (r_index r - r_start r - h = Z.of_nat n' - h) as Enc by lia.
  assert (Z.of_nat nc = Z.of_nat n' - h) as Enc' by lia.
  pose proof (proj1 (row_at_ok _ _ _) Hr1) as (Q1 & Q2 & Q3 & Q4 & Q5 & Q6 & Q7 & Q8).
  assert (forall k y, (st <= k)%nat -> nth_error (xs_of open') k = Some y -> gather (r_buf r) (Z.of_nat k mod cap) = Ok y) as GX.
  { intros k y Hk Hy. unfold xs_of in Hy. rewrite nth_error_map in Hy.
    destruct (nth_error open' k) as [e|] eqn:He; [|discriminate]. injection Hy as <-.
    destruct (W6 k e ltac:(lia) He) as (G & _). unfold slot in G. now rewrite Ec in G. }
  assert (forall k y, (st <= k)%nat -> nth_error (ts_of open') k = Some y -> gather tr' (Z.of_nat k mod cap) = Ok y) as GT.
  { intros k y Hk Hy. unfold ts_of in Hy. rewrite nth_error_map in Hy.
    destruct (nth_error open' k) as [e|] eqn:He; [|discriminate]. injection Hy as <-.
    destruct (W6 k e ltac:(lia) He) as (_ & G & _). unfold slot in G. now rewrite Ec in G. }
  assert (forall k y, (st <= k)%nat -> nth_error (rs_of open') k = Some y -> gather rr' (Z.of_nat k mod cap) = Ok y) as GR.
  { intros k y Hk Hy. unfold rs_of in Hy. rewrite nth_error_map in Hy.
    destruct (nth_error open' k) as [e|] eqn:He; [|discriminate]. injection Hy as <-.
    destruct (W6 k e ltac:(lia) He) as (_ & _ & G). unfold slot in G. now rewrite Ec in G. }
  assert (length (xs_of open') = length open') as Lx by apply map_length.
  assert (length (rs_of open') = length open') as Lr by apply map_length.
  assert (length (ts_of open') = length open') as Lt by apply map_length.
  unfold nonterminal_experience. rewrite Q3, Q4, Q5. cbn [bind r1 r_buf r_tbuf r_rbuf].
  rewrite Enc, <- Est, W5.
  assert (gathers (r_buf r) (map (fun i => i mod cap) (zrange (Z.of_nat st) (len open'))) = Ok (skipn st (xs_of open'))) as E1.
  { rewrite <- segment_all, Lx. replace (len open') with (Z.of_nat (st + (length open' - st))) by lia.
    apply gathers_segment; [lia|]. intros. apply GX; [lia|assumption]. }
  assert (gathers rr' (map (fun i => i mod cap) (zrange (Z.of_nat st) (len open'))) = Ok (skipn st (rs_of open'))) as E2.
  { rewrite <- segment_all, Lr. replace (len open') with (Z.of_nat (st + (length open' - st))) by lia.
    apply gathers_segment; [lia|]. intros. apply GR; [lia|assumption]. }
  rewrite E1. cbn [bind]. rewrite E2. cbn [bind].
  rewrite (nonterminal_returns_ok K X (o_bval o) (o_rc o) _ _ n' h); [|apply Ho|lia| | |lia].
  2: { rewrite skipn_length, Lx. reflexivity. }
  2: { rewrite skipn_length, Lr. reflexivity. }
  cbn [bind]. fold nc. replace (Z.of_nat st + (Z.of_nat n' - h)) with (Z.of_nat (st + nc)) by lia.
  rewrite (gathers_segment (r_buf r) (xs_of open') (fun i => i mod cap) st nc) by (first [lia | intros; apply GX; [lia|assumption]]).
  cbn [bind].
  rewrite (gathers_segment tr' (ts_of open') (fun i => i mod cap) st nc) by (first [lia | intros; apply GT; [lia|assumption]]).
  cbn [bind].
  set (rt := tabulate nc _).
  assert (length rt = nc) as Lrt by (unfold rt; apply tabulate_length).
  assert (length (segment st nc (xs_of open')) = nc) as Lsx by (apply segment_length; lia).
  assert (length (segment st nc (ts_of open')) = nc) as Lst by (apply segment_length; lia).
  assert (Forall (fun t => t = 0) (ts_of open')) as Hz by (unfold ts_of; rewrite Forall_map; exact Hfl').
  assert (Forall (fun t => t = 0) (segment st nc (ts_of open'))) as Hz'.
  { rewrite Forall_forall in *. intros t Ht. apply Hz. apply In_nth_error in Ht as (k & Hk).
    assert (k < nc)%nat by (rewrite <- Lst; apply nth_error_Some; congruence).
    rewrite segment_nth in Hk by assumption. now apply nth_error_In in Hk. }
  rewrite <- S1' in L1.
  destruct (mem_enqueue_ok m1 _ (segment st nc (xs_of open')) rt (segment st nc (ts_of open')) L1)
    as (mem' & Eq & L1'); [lia|lia| |].
  { destruct (list_rev_destruct (segment st nc (ts_of open'))) as [E|(pre & t & E)].
    { rewrite E in Lst. cbn in Lst. lia. }
    pose proof Hz' as Hz2. rewrite E in Hz2. apply Forall_app in Hz2 as [Hz2 Hz3]. apply Forall_inv in Hz3.
    eapply zip_legal; [lia|lia|exact E|exact Hz2|lia|]. rewrite Lsx. lia. }
  rewrite Eq. cbn [bind].
  pose proof (gather_range _ _ _ Q2) as Hpr.
  rewrite scatter_one by (cbn; exact Hpr). cbn [bind]. 
  eexists. exists (mkRow (r_index r) (Z.of_nat (st + nc)) (r_buf r) tr' rr' (r_len r) (r_ret r) (r_int r)).
  split; [reflexivity|]. split; [|split; [|split; [|split; [|split; [|split; [|split]]]]]]; try reflexivity.
  - apply row_at_ok. cbn. repeat split; try assumption. apply gather_update_same. exact Hpr.
  - apply HBn; lia.
  - eapply frame_trans; [exact F1|]. split.
    + unfold lengths_ok. cbn. rewrite update_nth_length. auto.
    + intros q Hq. unfold row_at. cbn. rewrite gather_upd by exact Hpr. destruct (Z.eqb_spec q p); [congruence|]. reflexivity.
  - exact S1.
  - exists sts, (part ++ zip (segment st nc (xs_of open')) rt (segment st nc (ts_of open'))).
    split; [cbn; rewrite app_assoc; exact L1'|]. split; [exact L2|]. rewrite Ec.
    exists (Z.of_nat (st + nc)). split.
    { rewrite <- Hp0. cbn [AgentModel.m_start AgentModel.set_buffers AgentModel.set_mem].
      apply gather_update_same. exact Hpr. }
    destruct L5 as (P1 & P2 & P3 & P4).
    assert (length part = st) as Lpart by lia.
    split; [rewrite app_length, zip_length by lia; lia|]. split; [right; lia|]. split.
    + rewrite app_length, zip_length, Lpart, Lsx by lia. rewrite map_app, zip_xt by lia.
      rewrite firstn_plus. rewrite P3, Lpart. f_equal.
      unfold segment. rewrite xt_combine.
      assert (forall (A B : Type) (a : list A) (b : list B) k, combine (firstn k a) (firstn k b) = firstn k (combine a b)) as CF.
      { intros A B a b0 k. revert a b0. induction k as [|k IH]; intros a b0; [reflexivity|].
        destruct a, b0; cbn [firstn combine]; auto. now rewrite IH. }
      rewrite CF. now rewrite combine_skipn.
    + intros Hcc k Hk. destruct (HC Hcc) as (Eho & Ec0 & Ebv). rewrite Eho.
      destruct (Nat.lt_ge_cases k (length part)) as [Hkp|Hkp].
      * destruct (P4 Hcc k Hkp) as [P5 P6]. rewrite Eho in P5, P6. split; [exact P5|].
        unfold rs_of at 1. rewrite map_app. fold (rs_of part).
        rewrite at_app1 by (unfold rs_of; rewrite map_length; exact Hkp). exact P6.
      * rewrite app_length, zip_length in Hk by lia. split; [lia|].
        unfold rs_of at 1. rewrite map_app. fold (rs_of part).
        rewrite at_app2 by (unfold rs_of; rewrite map_length; exact Hkp).
        fold (rs_of (zip (segment st nc (xs_of open')) rt (segment st nc (ts_of open')))).
        rewrite zip_rs by lia. unfold rs_of at 1. rewrite map_length. unfold rt. rewrite at_tabulate by lia.
        rewrite Ec0, Ebv. replace k with (st + (k - length part))%nat at 2 by lia.
        rewrite ret_shift by lia. fold n'.
        apply ret_local; [| |lia].
        -- intros j Hj. unfold cut. destruct (_ <? _)%nat; [|reflexivity]. apply at_skipn.
        -- intros j Hj. unfold cut. destruct (_ <? _)%nat; [|reflexivity]. apply vals_skipn.
Qed.

Lemma stored_snoc fin sts ep st : Forall2 stored_ok fin sts -> stored_ok ep st -> Forall2 stored_ok (fin ++ [ep]) (sts ++ [st]).
Proof. intros H1 H2. apply Forall2_app; auto. Qed.

Lemma part_nil open : part_ok open [] 0.
Proof.
  split; [reflexivity|]. split; [now left|]. split; [reflexivity|].
  intros _ k Hk. cbn in Hk. lia.
Qed.

Notation idle := (idle (K := K) (St := St) (Au := Au) (Ac := Ac) init_int).

Lemma observe_terminal_ok o m p r s d x rw t fin open0 :
  legal_oracle o -> row_at m p = Ok r -> BRow s d r -> s_pend s = Some x -> 1 <= t <= 2 ->
  (cf_bo cf = None -> d = O) ->
  (rc_trace K (o_rc o) <> None -> s_open s <> []) ->
  (circular = true -> p = 0 /\ open0 = s_open s) -> LogOk m fin open0 ->
  let ep := s_open s ++ [(x, rw, t)] in
  exists m' r', observe_terminal o m p (delivered_ts s d t) (delivered_rs s d rw) = Ok m' /\
    row_at m' p = Ok r' /\ BRow idle 0 r' /\
    r_len r' = r_len r /\ r_ret r' = r_ret r /\ r_int r' = r_int r /\
    frame p m m' /\ globals m' = globals m /\
    LogOk m' (fin ++ [ep]) (if circular then [] else open0).
Proof.
  intros Ho Hr HB Hp Ht Hbo Htr Hc0 HLog ep.
  destruct (start_facts _ _ _ HB) as [Hst Hst'].
  pose proof (mr_d _ _ _ HB) as Hd. pose proof (mr_win _ _ _ HB) as Hw. pose proof (wf_cap1 WF) as Hcap.
  assert (pending s = 1) as Ep by (unfold pending; now rewrite Hp). rewrite Ep in Hw.
  assert (len ep = len (s_open s) + 1) as Lo by (unfold ep; rewrite app_length; cbn [length]; lia).
  pose proof (mr_index _ _ _ HB) as HI. rewrite Ep in HI.
  assert (len (delivered_ts s d t) = len ep - Z.of_nat d) as En.
  { unfold delivered_ts. rewrite app_length, skipn_length. unfold ts_of. rewrite map_length. cbn [length]. lia. }
  assert (length (xs_of ep) = length ep) as Lx by apply map_length.
  assert (length (rs_of ep) = length ep) as Lr by apply map_length.
  assert (length (ts_of ep) = length ep) as Lt by apply map_length.
  assert (forall k e, r_start r <= Z.of_nat k -> nth_error ep k = Some e -> gather (r_buf r) (slot (Z.of_nat k)) = Ok (ex e)) as GX.
  { intros k e Hk He. unfold ep in He. apply nth_app_cases in He as [[_ He]|[-> ->]].
    - now apply (mr_buf _ _ _ HB).
    - now apply (mr_pend _ _ _ HB). }
  pose proof (proj1 (row_at_ok _ _ _) Hr) as (R1 & R2 & R3 & R4 & R5 & R6 & R7 & R8).
  pose proof (gather_range _ _ _ R1) as Hpi. pose proof (gather_range _ _ _ R2) as Hps.
  (* what happens after the episode was stored *)
  assert (forall mem' st',
            let m1 := set_buffers (set_mem m mem') (update_nth (m_index m) (Z.to_nat p) 0) st' (m_tbuf m) (m_rbuf m) in
            length st' = length (m_start m) -> gather st' p = Ok 0 -> (forall q, q <> p -> gather st' q = gather (m_start m) q) ->
            row_at m1 p = Ok (mkRow 0 0 (r_buf r) (r_tbuf r) (r_rbuf r) (r_len r) (r_ret r) (r_int r)) /\
            BRow idle 0 (mkRow 0 0 (r_buf r) (r_tbuf r) (r_rbuf r) (r_len r) (r_ret r) (r_int r)) /\
            frame p m m1 /\ globals m1 = globals m /\ m_mem m1 = mem' /\ m_start m1 = st') as Hafter.
  { intros mem' st' m1 Hl Hg Ho'. split; [|split; [|split; [|split; [|split]]]]; try reflexivity.
    - apply row_at_ok. unfold m1. cbn [AgentModel.m_index AgentModel.m_start AgentModel.m_buf AgentModel.m_tbuf
        AgentModel.m_rbuf AgentModel.m_len AgentModel.m_ret AgentModel.m_int AgentModel.set_buffers AgentModel.set_mem
        r_index r_start r_buf r_tbuf r_rbuf r_len r_ret r_int].
      repeat split; auto. now apply gather_update_same.
    - constructor; cbn; auto; try lia.
      + apply (mr_lb _ _ _ HB).
      + apply (mr_lt _ _ _ HB).
      + apply (mr_lr _ _ _ HB).
      + destruct circular; [|reflexivity]. pose proof (wf_h WF). lia.
      + intros k e _ He. now destruct k.
      + discriminate.
    - split.
      + unfold lengths_ok, m1. cbn. rewrite update_nth_length, Hl. auto.
      + intros q Hq. unfold row_at, m1. cbn. rewrite gather_upd by exact Hpi.
        destruct (Z.eqb_spec q p); [congruence|]. now rewrite Ho'. }
  unfold AgentModel.observe_terminal. rewrite R1, R3. cbn [bind].
  destruct circular eqn:Ec.
  - (* sliding buffer *)
    destruct (circular_par Ec) as (_ & Hbn & Ee).
    destruct (cf_bo cf) as [b|] eqn:Eb; [|congruence]. rewrite (wf_cap WF), R4, R5. cbn [bind].
    rewrite (circular_cond b Eb), Ec. cbn [negb]. rewrite R2. cbn [bind].
    destruct (Hc0 eq_refl) as [Hp0 Ho0].
    destruct HLog as (sts & part & L1 & L2 & L3). rewrite Ec in L3. destruct L3 as (start & L3 & L4).
    rewrite Hp0 in R2. assert (start = r_start r) as -> by congruence. rewrite Ho0 in L4.
    assert (r_start r = len part) as Elp by (destruct L4 as [E _]; lia). rewrite Elp in L4.
    assert (gathers (r_buf r) (map (fun i => i mod cap) (zrange (r_start r) (r_index r))) = Ok (skipn (length part) (xs_of ep))) as E1.
    { rewrite <- segment_all, Lx, Elp. replace (r_index r) with (Z.of_nat (length part + (length ep - length part))) by lia.
      apply gathers_segment; [lia|]. intros k y Hk Hy. unfold xs_of in Hy. rewrite nth_error_map in Hy.
      destruct (nth_error ep k) as [e|] eqn:He; [|discriminate]. injection Hy as <-.
      specialize (GX k e ltac:(lia) He). unfold slot in GX. now rewrite Ec in GX. }
    assert (forall k e, (length part <= k < d)%nat -> nth_error (s_open s) k = Some e ->
              gather (r_tbuf r) (Z.of_nat k mod cap) = Ok (et e) /\ gather (r_rbuf r) (Z.of_nat k mod cap) = Ok (er e)) as GO.
    { intros k e Hk He. pose proof (mr_obs _ _ _ HB k e ltac:(lia) ltac:(lia) He) as G. unfold slot in G. now rewrite Ec in G. }
    replace (r_index r - len (delivered_ts s d t)) with (Z.of_nat (length part + (d - length part))) by lia.
    assert (gathers (r_tbuf r) (map (fun i => i mod cap) (zrange (r_start r) (Z.of_nat (length part + (d - length part)))))
            = Ok (segment (length part) (d - length part) (ts_of (s_open s)))) as E2.
    { rewrite Elp. apply gathers_segment; [unfold ts_of; rewrite map_length; lia|].
      intros k y Hk Hy. unfold ts_of in Hy. rewrite nth_error_map in Hy.
      destruct (nth_error (s_open s) k) as [e|] eqn:He; [|discriminate]. injection Hy as <-. apply GO; [lia|exact He]. }
    assert (gathers (r_rbuf r) (map (fun i => i mod cap) (zrange (r_start r) (Z.of_nat (length part + (d - length part)))))
            = Ok (segment (length part) (d - length part) (rs_of (s_open s)))) as E3.
    { rewrite Elp. apply gathers_segment; [unfold rs_of; rewrite map_length; lia|].
      intros k y Hk Hy. unfold rs_of in Hy. rewrite nth_error_map in Hy.
      destruct (nth_error (s_open s) k) as [e|] eqn:He; [|discriminate]. injection Hy as <-. apply GO; [lia|exact He]. }
    rewrite E1. cbn [bind]. rewrite E2. cbn [bind]. rewrite E3. cbn [bind].
    assert (forall (A : Type) (l : list A) a d (y : A), (a <= d <= length l)%nat ->
              segment a (d - a) l ++ skipn d l ++ [y] = skipn a (l ++ [y])) as Seg.
    { intros A l a d' y Hl. rewrite skipn_app. replace (a - length l)%nat with O by lia. cbn [skipn].
      rewrite app_assoc. f_equal. unfold segment.
      transitivity (firstn (d' - a) (skipn a l) ++ skipn (d' - a) (skipn a l)); [|apply firstn_skipn]. f_equal.
      apply nth_error_ext. intros k. rewrite !nth_error_skipn. f_equal. lia. }
    unfold delivered_ts, delivered_rs.
    rewrite (Seg _ (ts_of (s_open s)) (length part) d t) by (unfold ts_of; rewrite map_length; lia).
    rewrite (Seg _ (rs_of (s_open s)) (length part) d rw) by (unfold rs_of; rewrite map_length; lia).
    assert (ts_of (s_open s) ++ [t] = ts_of ep) as -> by (unfold ep, ts_of; now rewrite map_app).
    assert (rs_of (s_open s) ++ [rw] = rs_of ep) as -> by (unfold ep, rs_of; now rewrite map_app).
    destruct (core_experience_ok o m (concat sts) (s_open s) part (x, rw, t) Ho L1 L4) as (mem' & st & E4 & L5 & L6); auto.
    { congruence. }
    { apply (mr_flags _ _ _ HB). }
    { lia. }
    unfold ep. rewrite E4. cbn [bind]. rewrite scatter_one by exact Hps. cbn [bind].
    rewrite scatter_one by exact Hpi. cbn [bind].
    destruct (Hafter mem' (update_nth (m_start m) (Z.to_nat p) 0)) as (A1 & A2 & A3 & A4 & A5 & A6).
    { apply update_nth_length. }
    { now apply gather_update_same. }
    { intros q Hq. rewrite gather_upd by exact Hps. destruct (Z.eqb_spec q p); [congruence|reflexivity]. }
    exists (set_buffers (set_mem m mem') (update_nth (m_index m) (Z.to_nat p) 0) (update_nth (m_start m) (Z.to_nat p) 0) (m_tbuf m) (m_rbuf m)).
    exists (mkRow 0 0 (r_buf r) (r_tbuf r) (r_rbuf r) (r_len r) (r_ret r) (r_int r)).
    split; [reflexivity|]. split; [exact A1|]. split; [exact A2|]. do 3 (split; [reflexivity|]).
    split; [exact A3|]. split; [exact A4|].
    exists (sts ++ [st]), []. rewrite A5, A6, Ec, app_nil_r. rewrite concat_app. cbn [concat]. rewrite app_nil_r.
    split; [exact L5|]. split; [now apply stored_snoc|].
    exists 0. split; [|apply part_nil]. rewrite <- Hp0. now apply gather_update_same.
  - (* whole episodes are buffered *)
    destruct HLog as (sts & part & L1 & L2 & L3). rewrite Ec in L3. subst part. rewrite Hst' in *.
    assert (forall k y, nth_error (xs_of ep) k = Some y -> gather (r_buf r) (Z.of_nat k) = Ok y) as GX'.
    { intros k y Hy. unfold xs_of in Hy. rewrite nth_error_map in Hy.
      destruct (nth_error ep k) as [e|] eqn:He; [|discriminate]. injection Hy as <-.
      specialize (GX k e ltac:(lia) He). unfold slot in GX. now rewrite Ec in GX. }
    assert (slice (r_buf r) 0 (r_index r) = xs_of ep) as E1.
    { replace (r_index r) with (len (xs_of ep)) by lia. apply slice_prefix; [|exact GX'].
      pose proof (mr_lb _ _ _ HB). lia. }
    rewrite E1.
    destruct (core_experience_ok o m (concat sts) (s_open s) [] (x, rw, t) Ho L1 (part_nil _)) as (mem' & st & E4 & L5 & L6); auto.
    { apply (mr_flags _ _ _ HB). }
    { cbn [length]. lia. }
    cbn [length skipn] in E4. fold ep in E4.
    assert ((match cf_bo cf with
             | None => core_experience o m (xs_of ep) (delivered_ts s d t) (delivered_rs s d rw)
             | Some _ => match buffer_capacity cf with
                | Some capacity =>
                    do trow <- gather (m_tbuf m) p;
                    do rrow <- gather (m_rbuf m) p;
                    if cf_ephor cf || (1 <? cf_par cf) then
                      core_experience o m (xs_of ep)
                        (slice trow 0 (r_index r - len (delivered_ts s d t)) ++ delivered_ts s d t)
                        (slice rrow 0 (r_index r - len (delivered_ts s d t)) ++ delivered_rs s d rw)
                    else
                      do start <- gather (m_start m) p;
                      do xs <- gathers (r_buf r) (map (fun i => i mod capacity) (zrange start (r_index r)));
                      let before := map (fun i => i mod capacity) (zrange start (r_index r - len (delivered_ts s d t))) in
                      do ts <- gathers trow before;
                      do rs <- gathers rrow before;
                      do m1 <- core_experience o m xs (ts ++ delivered_ts s d t) (rs ++ delivered_rs s d rw);
                      do start' <- scatter (m_start m1) [p] [0];
                      Ok (set_buffers m1 (m_index m1) start' (m_tbuf m1) (m_rbuf m1))
                | None => Err "no buffer"
                end
             end) = Ok (set_mem m mem')) as E5.
    { destruct (cf_bo cf) as [b|] eqn:Eb.
      - rewrite (wf_cap WF), R4, R5. cbn [bind]. rewrite (circular_cond b Eb), Ec. cbn [negb].
        replace (r_index r - len (delivered_ts s d t)) with (Z.of_nat d) by lia.
        assert (slice (r_tbuf r) 0 (Z.of_nat d) = firstn d (ts_of (s_open s))) as ->.
        { assert (length (firstn d (ts_of (s_open s))) = d) as Ld by (rewrite firstn_length; unfold ts_of; rewrite map_length; lia).
          rewrite <- Ld at 1. apply slice_prefix.
          - pose proof (mr_lt _ _ _ HB). lia.
          - intros k y Hy. assert (k < d)%nat by (rewrite <- Ld; apply nth_error_Some; congruence).
            rewrite nth_error_firstn in Hy by assumption. unfold ts_of in Hy. rewrite nth_error_map in Hy.
            destruct (nth_error (s_open s) k) as [e|] eqn:He; [|discriminate]. injection Hy as <-.
            pose proof (mr_obs _ _ _ HB k e ltac:(lia) ltac:(lia) He) as G. unfold slot in G. rewrite Ec in G. apply G. }
        assert (slice (r_rbuf r) 0 (Z.of_nat d) = firstn d (rs_of (s_open s))) as ->.
        { assert (length (firstn d (rs_of (s_open s))) = d) as Ld by (rewrite firstn_length; unfold rs_of; rewrite map_length; lia).
          rewrite <- Ld at 1. apply slice_prefix.
          - pose proof (mr_lr _ _ _ HB). lia.
          - intros k y Hy. assert (k < d)%nat by (rewrite <- Ld; apply nth_error_Some; congruence).
            rewrite nth_error_firstn in Hy by assumption. unfold rs_of in Hy. rewrite nth_error_map in Hy.
            destruct (nth_error (s_open s) k) as [e|] eqn:He; [|discriminate]. injection Hy as <-.
            pose proof (mr_obs _ _ _ HB k e ltac:(lia) ltac:(lia) He) as G. unfold slot in G. rewrite Ec in G. apply G. }
        unfold delivered_ts, delivered_rs. rewrite !app_assoc, !firstn_skipn.
        assert (ts_of (s_open s) ++ [t] = ts_of ep) as -> by (unfold ep, ts_of; now rewrite map_app).
        assert (rs_of (s_open s) ++ [rw] = rs_of ep) as -> by (unfold ep, rs_of; now rewrite map_app).
        exact E4.
      - rewrite (Hbo eq_refl). unfold delivered_ts, delivered_rs. cbn [skipn].
        assert (ts_of (s_open s) ++ [t] = ts_of ep) as -> by (unfold ep, ts_of; now rewrite map_app).
        assert (rs_of (s_open s) ++ [rw] = rs_of ep) as -> by (unfold ep, rs_of; now rewrite map_app).
        exact E4. }
    cbv zeta in E5. rewrite E5. cbn [bind]. rewrite scatter_one by exact Hpi. cbn [bind].
    destruct (Hafter mem' (m_start m) eq_refl R2 ltac:(auto)) as (A1 & A2 & A3 & A4 & A5 & A6).
    exists (set_buffers (set_mem m mem') (update_nth (m_index m) (Z.to_nat p) 0) (m_start m) (m_tbuf m) (m_rbuf m)).
    exists (mkRow 0 0 (r_buf r) (r_tbuf r) (r_rbuf r) (r_len r) (r_ret r) (r_int r)).
    split; [reflexivity|]. split; [exact A1|]. split; [exact A2|]. do 3 (split; [reflexivity|]).
    split; [exact A3|]. split; [exact A4|].
    exists (sts ++ [st]), []. rewrite A5, Ec, app_nil_r. rewrite concat_app. cbn [concat]. rewrite app_nil_r.
    split; [exact L5|]. split; [now apply stored_snoc|reflexivity].
Qed.

(** ** Periodic updates *)
Definition update_error (e : string) : Prop :=
  e = "num_timesteps >= 1"%string \/ e = "episode_count >= 1"%string.

Notation periodic_update := (periodic_update K St In Au Ac cf).
Notation core_update := (core_update K St In Au Ac cf).
Notation update_units := (update_units K St In Au Ac cf).
Notation set_last := (set_last K St In Au Ac).
Notation o_freq := (o_freq K St In Au Ac).

Definition updated_model (m : mstate) (u : Z) : mstate :=
  {| AgentModel.m_timesteps := m_timesteps m; AgentModel.m_episodes := m_episodes m;
     AgentModel.m_updates := m_updates m + 1;
     AgentModel.m_len := m_len m; AgentModel.m_ret := m_ret m; AgentModel.m_int := m_int m;
     AgentModel.m_index := m_index m; AgentModel.m_start := m_start m; AgentModel.m_buf := m_buf m;
     AgentModel.m_tbuf := m_tbuf m; AgentModel.m_rbuf := m_rbuf m; AgentModel.m_last := u;
     AgentModel.m_mem := m_mem m |}.

Lemma core_update_cases o m :
  (exists e, update_error e /\ core_update o m = Err e) \/
  core_update o m = Ok (updated_model m (m_last m)).
Proof.
  unfold AgentModel.core_update, assert_.
  destruct (cf_unit_ts cf).
  - destruct (1 <=? _); [right; reflexivity|left]. eexists. split; [now left|reflexivity].
  - destruct (1 <=? _); [right; reflexivity|left]. eexists. split; [now right|reflexivity].
Qed.

Lemma periodic_cases o m t :
  (exists e, update_error e /\ periodic_update o m t = Err e) \/
  (periodic_update o m t = Ok (updated_model m (update_units o m t), true) /\
   m_last m + o_freq o <= update_units o m t) \/
  (periodic_update o m t = Ok (m, false) /\ update_units o m t < m_last m + o_freq o).
Proof.
  unfold AgentModel.periodic_update.
  destruct (cf_freq cf) as [f|] eqn:Ef; [|exfalso; apply (wf_freq WF); exact Ef].
  destruct (Z.leb_spec (m_last m + o_freq o) (update_units o m t)) as [H|H]; [|right; right; auto].
  destruct (core_update_cases o (set_last m (update_units o m t))) as [(e & He & E)|E]; rewrite E.
  - left. exists e. auto.
  - right. left. split; [reflexivity|exact H].
Qed.

Lemma updated_row m u p : row_at (updated_model m u) p = row_at m p.
Proof. reflexivity. Qed.

Lemma frame_updated p m u : frame p m (updated_model m u).
Proof. split; [exact (fun H => H)|reflexivity]. Qed.

(** ** One delivery to the model *)
Notation model_observe := (model_observe K St In Au Ac init_int cf).
Notation core_observe := (core_observe K St In Au Ac cf).
Definition upd_d (d : Z -> nat) (p : Z) (v : nat) : Z -> nat := fun q => if q =? p then v else d q.

Lemma scatter_add_one {A} (add : A -> A) l p a : gather l p = Ok a ->
  scatter_add add l [p] = Ok (update_nth l (Z.to_nat p) (add a)).
Proof.
  intros E. cbn [scatter_add]. rewrite E. cbn [bind]. rewrite scatter_one by (eapply gather_range; eauto). reflexivity.
Qed.

Lemma last_cons_snoc (l : list Z) t : last (0 :: l ++ [t]) 0 = t.
Proof. rewrite app_comm_cons. apply last_last. Qed.

Definition delivery_ok (sp : spec) (d : Z -> nat) (p t : Z) (o : oracle) : Prop :=
  0 <= p < cf_par cf /\ 0 <= t <= 2 /\ legal_oracle o /\
  (cf_bo cf = None -> d p = O /\ t <> 0) /\
  (t <> 0 -> rc_trace K (o_rc o) <> None -> s_open (sp_st sp p) <> []).

Lemma model_observe_ok o m sp d p x rw t :
  MInv m sp d -> delivery_ok sp d p t o -> s_pend (sp_st sp p) = Some x ->
  let s := sp_st sp p in
  (exists e, update_error e /\ model_observe o m (delivered_ts s (d p) t) (delivered_rs s (d p) rw) p = Err e) \/
  (exists m' u, model_observe o m (delivered_ts s (d p) t) (delivered_rs s (d p) rw) p = Ok (m', u) /\
     MInv m' (spec_observe init_int sp (p, t, rw, o)) (upd_d d p (if t =? 0 then S (length (s_open s)) else O)) /\
     m_timesteps m' = m_timesteps m /\ m_updates m' = m_updates m + (if u : bool then 1 else 0)).
Proof.
  intros HI (Hpr & Htt & Ho & Hbo & Htr) Hp s.
  destruct (mi_rows _ _ _ HI p Hpr) as (r & Hr & HM). fold s in HM.
  pose proof (mr_b _ _ _ HM) as HB.
  pose proof (proj1 (row_at_ok _ _ _) Hr) as (R1 & R2 & R3 & R4 & R5 & R6 & R7 & R8).
  set (ts := delivered_ts s (d p) t). set (rs := delivered_rs s (d p) rw).
  assert (length rs = length ts) as Lrt.
  { unfold ts, rs, delivered_ts, delivered_rs. rewrite !app_length, !skipn_length. unfold ts_of, rs_of. now rewrite !map_length. }
  assert (Forall (fun u => u = 0) (skipn (d p) (ts_of (s_open s)))) as Hz.
  { rewrite Forall_forall. intros u Hu. pose proof (mr_flags _ _ _ HB) as Hf. rewrite Forall_forall in Hf.
    assert (List.In u (ts_of (s_open s))) as Hin by (rewrite <- (firstn_skipn (d p) (ts_of (s_open s))); apply in_or_app; now right).
    unfold ts_of in Hin. apply in_map_iff in Hin as (e & <- & He). apply Hf. exact He. }
  assert (last_ ts = Ok t) as El by apply last_ok.
  assert (count_nonzero ts = if t =? 0 then 0 else 1) as Ecn.
  { unfold ts, delivered_ts. rewrite count_nonzero_app, (count_nonzero_zeros _ Hz).
    unfold count_nonzero. cbn [filter]. destruct (t =? 0); reflexivity. }
  unfold AgentModel.model_observe. rewrite El. cbn [bind].
  assert (forallb (fun u => (0 <=? u) && (u <? 3)) ts = true) as ->.
  { apply forallb_forall. intros u Hu. unfold ts, delivered_ts in Hu. apply in_app_or in Hu as [Hu|[<-|[]]]; [|lia].
    rewrite Forall_forall in Hz. rewrite (Hz u Hu). reflexivity. }
  cbn [assert_ bind]. rewrite Lrt, Z.eqb_refl. cbn [assert_ bind].
  replace ((0 <=? p) && (p <? cf_par cf)) with true by lia. cbn [assert_ bind].
  rewrite Ecn. replace ((if t =? 0 then 0 else 1) <=? 1) with true by (destruct (t =? 0); reflexivity). cbn [assert_ bind].
  replace (eqb (0 <? (if t =? 0 then 0 else 1)) (0 <? t)) with true.
  2: { destruct (Z.eqb_spec t 0) as [->|]; [reflexivity|]. destruct (Z.ltb_spec 0 t); [reflexivity|lia]. }
  cbn [assert_ bind].
  rewrite (scatter_add_one _ _ _ _ R6). cbn [bind]. rewrite (scatter_add_one _ _ _ _ R7). cbn [bind].
  set (m1 := {| AgentModel.m_timesteps := _ |}).
  set (r1 := mkRow (r_index r) (r_start r) (r_buf r) (r_tbuf r) (r_rbuf r) (r_len r + len ts) (r_ret r + fsum rs)%F (r_int r)).
  assert (row_at m1 p = Ok r1) as Hr1.
  { apply row_at_ok. unfold m1, r1.
    cbn [AgentModel.m_index AgentModel.m_start AgentModel.m_buf AgentModel.m_tbuf
        AgentModel.m_rbuf AgentModel.m_len AgentModel.m_ret AgentModel.m_int r_index r_start r_buf r_tbuf r_rbuf r_len r_ret r_int].
    repeat split; auto; apply gather_update_same; eapply gather_range; eauto. }
  assert (frame p m m1) as F1.
  { split.
    - unfold lengths_ok, m1. cbn. rewrite !update_nth_length. auto.
    - intros q Hq. unfold row_at, m1. cbn.
      rewrite !gather_upd by (eapply gather_range; eauto). destruct (Z.eqb_spec q p); [congruence|]. reflexivity. }
  assert (BRow s (d p) r1) as HB1 by (destruct HB; constructor; assumption).
  assert (LogOk m1 (sp_fin sp) (s_open (sp_st sp 0))) as HL1 by exact (mi_log _ _ _ HI).
  assert (circular = true -> p = 0 /\ s_open (sp_st sp 0) = s_open s) as Hc0.
  { intros Ec. destruct (circular_par Ec) as (E1 & _). assert (p = 0) as -> by lia. auto. }
  unfold AgentModel.core_observe. assert (last (0 :: ts) 0 = t) as -> by apply last_cons_snoc.
  destruct (Z.eqb_spec t 0) as [Et|Et].
  - (* the episode goes on *)
    subst t. change (0 <? 0) with false. cbn iota.
    destruct (observe_nonterminal_ok o m1 p r1 s (d p) x rw (sp_fin sp) (s_open (sp_st sp 0)) Ho Hr1 HB1 Hp)
      as (m2 & r2 & E2 & Hr2 & HB2 & Q1 & Q2 & Q3 & F2 & G2 & HL2); auto.
    { intros C'. destruct (Hbo C') as [_ N]. congruence. }
    fold ts rs in E2. rewrite E2. cbn [bind].
    assert (forall m3, row_at m3 p = Ok r2 -> frame p m2 m3 -> m_mem m3 = m_mem m2 -> m_start m3 = m_start m2 ->
              m_episodes m3 = m_episodes m ->
              MInv m3 (spec_observe init_int sp (p, 0, rw, o)) (upd_d d p (S (length (s_open s))))) as Hfin.
    { intros m3 Hr3 F3 G3 G3' G3''. pose proof (frame_trans _ _ _ _ (frame_trans _ _ _ _ F1 F2) F3) as F.
      unfold spec_observe, stream_observe. fold s. fold s in Hp. rewrite Hp. change (0 =? 0) with true. cbn iota.
      constructor; cbn [sp_st sp_fin].
      - apply F. apply (mi_len _ _ _ HI).
      - intros q Hq. unfold set_stream, upd_d. destruct (Z.eqb_spec q p) as [->|Nq].
        + exists r2. split; [exact Hr3|]. 
          assert (S (length (s_open s)) = length (s_open s ++ [(x, rw, 0)])) as El' by (rewrite app_length; cbn [length]; lia).
          rewrite El'. constructor; [exact HB2| | |].
          * rewrite Q3. unfold r1. cbn [r_int]. apply (mr_int _ _ _ HM).
          * rewrite Q1. unfold r1. cbn [r_len]. rewrite (mr_len _ _ _ HM).
            pose proof (mr_d _ _ _ HB). unfold ts, delivered_ts. rewrite app_length, skipn_length.
            unfold ts_of. rewrite map_length, app_length. cbn [length]. lia.
          * rewrite Q2. unfold r1. cbn [r_ret s_open]. rewrite (mr_ret _ _ _ HM).
            rewrite (firstn_all2 (rs_of (s_open s ++ [(x, rw, 0)]))) by (unfold rs_of; rewrite map_length; lia).
            unfold rs, delivered_rs. rewrite <- fsum_app.
            rewrite app_assoc, firstn_skipn. unfold rs_of. now rewrite map_app.
        + destruct (mi_rows _ _ _ HI q Hq) as (rq & Hrq & HMq). exists rq.
          split; [|exact HMq]. rewrite (proj2 F q Nq). exact Hrq.
      - rewrite app_nil_r. destruct HL2 as (sts & part & L1 & L2 & L3). exists sts, part. rewrite G3, G3'.
        split; [exact L1|]. split; [exact L2|]. destruct circular eqn:Ec; [|exact L3].
        destruct (Hc0 eq_refl) as [-> _]. unfold set_stream. rewrite Z.eqb_refl. exact L3.
      - rewrite app_nil_r, G3''. apply (mi_eps _ _ _ HI). }
    destruct (periodic_cases o m2 false) as [(e & He & E)|[[E _]|[E _]]]; rewrite E; cbn [bind].
    + left. exists e. auto.
    + right. eexists. exists true. split; [reflexivity|]. injection G2 as G2a G2b G2c G2d. split; [|split].
      * apply Hfin; try reflexivity; try exact Hr2; try apply frame_refl; try apply frame_updated; exact G2b.
      * exact G2a.
      * cbn. rewrite G2c. reflexivity.
    + right. exists m2, false. split; [reflexivity|]. injection G2 as G2a G2b G2c G2d. split; [|split].
      * apply Hfin; try reflexivity; try exact Hr2; try apply frame_refl; try apply frame_updated; exact G2b.
      * exact G2a.
      * rewrite G2c. cbn. lia.
  - (* the episode ends *)
    replace (0 <? t) with true by lia. cbn iota.
    destruct (observe_terminal_ok o m1 p r1 s (d p) x rw t (sp_fin sp) (s_open (sp_st sp 0)) Ho Hr1 HB1 Hp)
      as (m2 & r2 & E2 & Hr2 & HB2 & Q1 & Q2 & Q3 & F2 & G2 & HL2); auto; try lia.
    fold ts rs in E2. rewrite E2. cbn [bind].
    assert (forall m3, row_at m3 p = Ok r2 -> frame p m2 m3 -> m_mem m3 = m_mem m2 -> m_start m3 = m_start m2 ->
              m_episodes m3 = m_episodes m ->
              exists m4, (do int' <- scatter (m_int m3) [p] [init_int];
                          do len' <- scatter (m_len m3) [p] [0];
                          do ret' <- scatter (m_ret m3) [p] [0%F];
                          Ok {| AgentModel.m_timesteps := m_timesteps m3; AgentModel.m_episodes := m_episodes m3 + 1;
                                AgentModel.m_updates := m_updates m3; AgentModel.m_len := len'; AgentModel.m_ret := ret';
                                AgentModel.m_int := int'; AgentModel.m_index := m_index m3; AgentModel.m_start := m_start m3;
                                AgentModel.m_buf := m_buf m3; AgentModel.m_tbuf := m_tbuf m3; AgentModel.m_rbuf := m_rbuf m3;
                                AgentModel.m_last := m_last m3; AgentModel.m_mem := m_mem m3 |}) = Ok m4 /\
                m_timesteps m4 = m_timesteps m3 /\ m_updates m4 = m_updates m3 /\
                MInv m4 (spec_observe init_int sp (p, t, rw, o)) (upd_d d p O)) as Hfin.
    { intros m3 Hr3 F3 G3 G3' G3''.
      pose proof (frame_trans _ _ _ _ (frame_trans _ _ _ _ F1 F2) F3) as F.
      pose proof (proj1 (row_at_ok _ _ _) Hr3) as (T1 & T2 & T3 & T4 & T5 & T6 & T7 & T8).
      rewrite scatter_one by (eapply gather_range; eauto). cbn [bind].
      rewrite scatter_one by (eapply gather_range; eauto). cbn [bind].
      rewrite scatter_one by (eapply gather_range; eauto). cbn [bind].
      eexists. split; [reflexivity|]. split; [reflexivity|]. split; [reflexivity|].
      unfold spec_observe, stream_observe. fold s. fold s in Hp. rewrite Hp. destruct (Z.eqb_spec t 0); [congruence|].
      constructor; cbn [sp_st sp_fin].
      - unfold lengths_ok. cbn. rewrite !update_nth_length. apply F. apply (mi_len _ _ _ HI).
      - intros q Hq. unfold set_stream, upd_d. destruct (Z.eqb_spec q p) as [->|Nq].
        + exists (mkRow (r_index r2) (r_start r2) (r_buf r2) (r_tbuf r2) (r_rbuf r2) 0 0%F init_int).
          split.
          * apply row_at_ok. cbn [AgentModel.m_index AgentModel.m_start AgentModel.m_buf AgentModel.m_tbuf
              AgentModel.m_rbuf AgentModel.m_len AgentModel.m_ret AgentModel.m_int r_index r_start r_buf r_tbuf r_rbuf r_len r_ret r_int].
            repeat split; auto; apply gather_update_same; eapply gather_range; eauto.
          * constructor; try reflexivity. destruct HB2; constructor; assumption.
        + destruct (mi_rows _ _ _ HI q Hq) as (rq & Hrq & HMq). exists rq.
          split; [|exact HMq]. rewrite <- Hrq, <- (proj2 F q Nq).
          unfold row_at. cbn. rewrite !gather_upd by (eapply gather_range; eauto).
          destruct (Z.eqb_spec q p); [congruence|]. reflexivity.
      - destruct HL2 as (sts & part & L1 & L2 & L3). exists sts, part. cbn [AgentModel.m_mem AgentModel.m_start].
        rewrite G3, G3'. split; [exact L1|]. split; [exact L2|]. destruct circular eqn:Ec; [|exact L3].
        destruct (Hc0 eq_refl) as [-> _]. unfold set_stream. rewrite Z.eqb_refl. exact L3.
      - cbn [AgentModel.m_episodes]. rewrite app_length, G3''. cbn [length]. pose proof (mi_eps _ _ _ HI). lia. }
    injection G2 as G2a G2b G2c G2d.
    destruct (periodic_cases o m2 true) as [(e & He & E)|[[E _]|[E _]]]; rewrite E; cbn [bind].
    + left. exists e. auto.
    + right. destruct (Hfin (updated_model m2 (update_units o m2 true))) as (m4 & E4 & U1 & U2 & HI4);
        try reflexivity; try exact Hr2; try apply frame_refl; try apply frame_updated; try exact G2b.
      exists m4, true. split; [|split; [exact HI4|split]].
      * revert E4. cbn [AgentModel.m_int AgentModel.m_len AgentModel.m_ret updated_model].
        destruct (scatter (m_int m2) [p] [init_int]); cbn [bind]; [|discriminate].
        destruct (scatter (m_len m2) [p] [0]); cbn [bind]; [|discriminate].
        destruct (scatter (m_ret m2) [p] [0%F]); cbn [bind]; [|discriminate]. intros E4. injection E4 as <-. reflexivity.
      * rewrite U1. exact G2a.
      * rewrite U2. cbn. rewrite G2c. reflexivity.
    + right. destruct (Hfin m2) as (m4 & E4 & U1 & U2 & HI4);
        try reflexivity; try exact Hr2; try apply frame_refl; try apply frame_updated; try exact G2b.
      exists m4, false. split; [|split; [exact HI4|split]].
      * revert E4.
        destruct (scatter (m_int m2) [p] [init_int]); cbn [bind]; [|discriminate].
        destruct (scatter (m_len m2) [p] [0]); cbn [bind]; [|discriminate].
        destruct (scatter (m_ret m2) [p] [0%F]); cbn [bind]; [|discriminate]. intros E4. injection E4 as <-. reflexivity.
      * rewrite U1. exact G2a.
      * rewrite U2, G2c. cbn. lia.
Qed.

(** ** Acting *)
Notation model_act := (model_act K St In Au Ac W pol cf).
Notation core_act := (core_act K St In Au Ac W pol cf).
Notation act_item := (Z * St * Au * W)%type.
Notation spec_act := (@spec_act K St In Au Ac W pol).
Definition ap (it : act_item) : Z := fst (fst (fst it)).
Definition acted (sp : spec) (it : act_item) : stream :=
  let '(p, st, au, w) := it in stream_act pol (sp_st sp p) st au w.
Definition acted_x (sp : spec) (it : act_item) : X :=
  let '(p, st, au, w) := it in mkX st (s_int (sp_st sp p)) au (fst (pol w st (s_int (sp_st sp p)) au)).

Lemma spec_act_fold items : forall sp, NoDup (map ap items) ->
  sp_fin (fold_left spec_act items sp) = sp_fin sp /\
  (forall it, List.In it items -> sp_st (fold_left spec_act items sp) (ap it) = acted sp it) /\
  (forall q, ~ List.In q (map ap items) -> sp_st (fold_left spec_act items sp) q = sp_st sp q).
Proof.
  induction items as [|it items IH]; intros sp ND; cbn [fold_left].
  - repeat split; auto. intros it [].
  - cbn [map] in ND. apply NoDup_cons_iff in ND as [Hn ND]. destruct (IH (spec_act sp it) ND) as (I1 & I2 & I3).
    assert (sp_st (spec_act sp it) (ap it) = acted sp it) as E.
    { destruct it as [[[p st] au] w]. cbn. unfold set_stream. rewrite Z.eqb_refl. reflexivity. }
    assert (forall q, q <> ap it -> sp_st (spec_act sp it) q = sp_st sp q) as E'.
    { intros q Hq. destruct it as [[[p st] au] w]. cbn. unfold set_stream.
      destruct (Z.eqb_spec q p); [contradiction|reflexivity]. }
    split; [|split].
    + rewrite I1. destruct it as [[[p st] au] w]. reflexivity.
    + intros it' [<-|Hin].
      * rewrite I3 by exact Hn. exact E.
      * rewrite I2 by exact Hin.
        assert (ap it' <> ap it) as Ne by (intros C'; apply Hn; rewrite <- C'; apply in_map; exact Hin).
        destruct it' as [[[p st] au] w]. cbn [acted]. rewrite E' by exact Ne. reflexivity.
    + intros q Hq. cbn [map] in Hq. rewrite I3 by (intros C'; apply Hq; now right).
      apply E'. intros C'. apply Hq. left. auto.
Qed.

Lemma model_act_ok m sp d items :
  MInv m sp d -> NoDup (map ap items) ->
  (forall it, List.In it items -> 0 <= ap it < cf_par cf /\ s_pend (sp_st sp (ap it)) = None /\
     (forall M, cf_maxep cf = Some M -> len (s_open (sp_st sp (ap it))) < M) /\
     (forall b, cf_bo cf = Some b -> len (s_open (sp_st sp (ap it))) - Z.of_nat (d (ap it)) < b)) ->
  exists m', model_act m items = Ok (m', map (fun it => (ap it, acted_x sp it)) items) /\
    MInv m' (fold_left spec_act items sp) d /\
    m_timesteps m' = m_timesteps m + len items /\ m_updates m' = m_updates m /\ m_last m' = m_last m.
Proof.
  intros HI ND Hit.
  pose proof (wf_cap1 WF) as Hcap1.
  set (ii := fun it : act_item => s_int (sp_st sp (ap it))).
  set (st := fun it : act_item => snd (fst (fst it))).
  set (au := fun it : act_item => snd (fst it)).
  set (ww := fun it : act_item => snd it).
  set (n := fun it : act_item => len (s_open (sp_st sp (ap it)))).
  assert (forall it, List.In it items -> exists r, row_at m (ap it) = Ok r /\ MRow (sp_st sp (ap it)) (d (ap it)) r /\
             r_index r = n it /\ 0 <= r_start r <= n it /\ n it < r_start r + cap) as Hrow.
  { intros it Hin. destruct (Hit it Hin) as (Hp & Hpd & HM & Hb).
    destruct (mi_rows _ _ _ HI _ Hp) as (r & Hr & HR). exists r. split; [exact Hr|]. split; [exact HR|].
    pose proof (mr_b _ _ _ HR) as HB. pose proof (mr_index _ _ _ HB) as Ei. pose proof (mr_d _ _ _ HB) as Ed.
    pose proof (mr_start _ _ _ HB) as Es. unfold pending in Ei. rewrite Hpd in Ei.
    pose proof (wf_cap WF) as Ec. unfold buffer_capacity in Ec. unfold n.
    split; [lia|]. unfold AgentModel.circular in Es.
    destruct (cf_bo cf) as [b|] eqn:Eb.
    - specialize (Hb b eq_refl).
      destruct (cf_ephor cf) eqn:Eh; cbn [orb negb andb] in Ec, Es; [specialize (HM cap Ec); lia|].
      destruct (Z.ltb_spec 1 (cf_par cf)) as [Hpar|Hpar]; cbn iota in Ec.
      + destruct (Z.eqb_spec (cf_par cf) 1); [lia|]. cbn [andb] in Es. specialize (HM cap Ec). lia.
      + destruct (Z.eqb_spec (cf_par cf) 1); [|pose proof (wf_par WF); lia]. cbn [andb] in Es.
        destruct (cf_maxep cf) as [M|]; injection Ec as Ec.
        * specialize (HM M eq_refl). lia.
        * lia.
    - rewrite andb_false_r in Es. specialize (HM cap Ec). lia. }
  destruct (mi_len _ _ _ HI) as (L1 & L2 & L3 & L4 & L5 & L6 & L7 & L8).
  unfold AgentModel.model_act. fold ap.
  change (map (fun it : act_item => fst (fst (fst it))) items) with (map ap items).
  assert (gathers (m_int m) (map ap items) = Ok (map ii items)) as Ei.
  { unfold ii. rewrite <- (map_map ap (fun p => s_int (sp_st sp p))). apply gathers_ok.
    intros p Hp. apply in_map_iff in Hp as (it & <- & Hin). destruct (Hrow it Hin) as (r & Hr & HR & _).
    apply row_at_ok in Hr. destruct Hr as (_ & _ & _ & _ & _ & _ & _ & Hr). rewrite Hr. f_equal. apply (mr_int _ _ _ HR). }
  rewrite Ei. cbn [bind].
  assert (vec2 (fun (it : act_item) (i : In) => let '(_, s, a0, w) := it in (s, i, a0, w)) items (map ii items)
          = Ok (map (fun it => (st it, ii it, au it, ww it)) items)) as ->.
  { rewrite <- (map_id items) at 1. rewrite vec2_maps. f_equal.
    apply map_ext. intros [[[p s0] a0] w0]. reflexivity. }
  cbn [bind].
  unfold AgentModel.core_act. rewrite (wf_cap WF).
  set (out := fun it : act_item => pol (ww it) (st it) (ii it) (au it)).
  rewrite map_map.
  replace (map (fun x => pol (ww x) (st x) (ii x) (au x)) items) with (map out items) by reflexivity.
  assert (gathers (m_index m) (map ap items) = Ok (map n items)) as En.
  { unfold n. rewrite <- (map_map ap (fun p => len (s_open (sp_st sp p)))). apply gathers_ok.
    intros p Hp. apply in_map_iff in Hp as (it & <- & Hin). destruct (Hrow it Hin) as (r & Hr & HR & E & _).
    apply row_at_ok in Hr. destruct Hr as (Hr & _). rewrite Hr, E. reflexivity. }
  rewrite En. cbn [bind]. rewrite vec2_maps. cbn [bind].
  replace (if circular then map (fun i => i mod cap) (map n items) else map n items)
    with (map (fun it => slot (n it)) items).
  2: { unfold slot. destruct circular; [rewrite map_map|]; reflexivity. }
  rewrite combine_map.
  destruct (scatter2_ok items ap (fun it => slot (n it)) (acted_x sp) (m_buf m) ND) as (buf & Eb & Lb & B1 & B2).
  { intros it Hin. destruct (Hrow it Hin) as (r & Hr & HR & E & H1 & H2). exists (r_buf r).
    apply row_at_ok in Hr. split; [apply Hr|]. rewrite (mr_lb _ _ _ (mr_b _ _ _ HR)).
    apply slot_range with (start := r_start r); try lia.
    pose proof (mr_start _ _ _ (mr_b _ _ _ HR)) as Es. destruct circular; auto. }
  replace (map (fun d0 => mkX (st d0) (ii d0) (au d0) (fst (out d0))) items) with (map (acted_x sp) items).
  2: { apply map_ext. intros [[[p s0] a0] w0]. reflexivity. }
  rewrite Eb. cbn [bind].
  assert (Forall (fun it => 0 <= ap it < cf_par cf) items) as HF by (apply Forall_forall; intros it Hin; apply Hit; exact Hin).
  destruct (scatter_add_ok (fun i => i + 1) items ap (m_index m) ND) as (idx & Ex & Lx & X1 & X2); [now rewrite L1|].
  rewrite Ex. cbn [bind]. cbn [AgentModel.m_int].
  rewrite map_map.
  destruct (scatter_map (m_int m) items ap (fun it => snd (out it)) ND) as (int' & Eint & Lint & I1 & I2); [now rewrite L8|].
  rewrite Eint. cbn [bind]. rewrite combine_map, vec2_maps. cbn [bind].
  eexists. split; [|split].
  - f_equal. f_equal. apply map_ext. intros [[[p s0] a0] w0]. reflexivity.
  - destruct (spec_act_fold items sp ND) as (S1 & S2 & S3).
    constructor.
    + unfold lengths_ok. cbn. rewrite Lb, Lx, Lint. repeat split; assumption.
    + intros q Hq. destruct (in_dec Z.eq_dec q (map ap items)) as [Hin|Hout].
      * apply in_map_iff in Hin as (it & <- & Hin). destruct (Hrow it Hin) as (r & Hr & HR & E & H1 & H2).
        pose proof (proj1 (row_at_ok _ _ _) Hr) as (R1 & R2 & R3 & R4 & R5 & R6 & R7 & R8).
        destruct (Hit it Hin) as (_ & Hpd & _ & _).
        pose proof (mr_b _ _ _ HR) as HB.
        exists (mkRow (r_index r + 1) (r_start r) (update_nth (r_buf r) (Z.to_nat (slot (n it))) (acted_x sp it))
                      (r_tbuf r) (r_rbuf r) (r_len r) (r_ret r) (snd (out it))).
        assert (0 <= slot (n it) < cap) as Hsl.
        { apply slot_range with (start := r_start r); try lia.
          pose proof (mr_start _ _ _ HB) as Es. destruct circular; auto. }
        split.
        -- apply row_at_ok. cbn [AgentModel.m_index AgentModel.m_start AgentModel.m_buf AgentModel.m_tbuf
              AgentModel.m_rbuf AgentModel.m_len AgentModel.m_ret AgentModel.m_int r_index r_start r_buf r_tbuf r_rbuf r_len r_ret r_int].
           split; [apply X1; auto|]. split; [exact R2|]. split; [apply B1; auto|].
           repeat (split; [assumption|]). apply I1. exact Hin.
        -- rewrite S2 by exact Hin.
           assert (s_open (acted sp it) = s_open (sp_st sp (ap it)) /\ s_pend (acted sp it) = Some (acted_x sp it) /\
                   s_int (acted sp it) = snd (out it)) as (A1 & A2 & A3).
           { destruct it as [[[p s0] a0] w0]. repeat split; reflexivity. }
           constructor; cbn [r_index r_start r_buf r_tbuf r_rbuf r_len r_ret r_int].
           2: now rewrite A3.
           2: apply (mr_len _ _ _ HR).
           2: rewrite A1; apply (mr_ret _ _ _ HR).
           constructor; cbn [r_index r_start r_buf r_tbuf r_rbuf r_len r_ret r_int]; rewrite ?A1; unfold pending; rewrite ?A2.
           ++ rewrite E. reflexivity.
           ++ apply (mr_d _ _ _ HB).
           ++ apply (mr_flags _ _ _ HB).
           ++ rewrite update_nth_length. apply (mr_lb _ _ _ HB).
           ++ apply (mr_lt _ _ _ HB).
           ++ apply (mr_lr _ _ _ HB).
           ++ apply (mr_start _ _ _ HB).
           ++ intros k e Hk Hnk. 
              assert (Z.of_nat k < n it) as Hkn.
              { assert (nth_error (s_open (sp_st sp (ap it))) k <> None) as Hs by congruence.
                apply nth_error_Some in Hs. unfold n. lia. }
              rewrite gather_upd by (rewrite (mr_lb _ _ _ HB); exact Hsl).
              destruct (Z.eqb_spec (slot (Z.of_nat k)) (slot (n it))) as [C'|_].
              ** apply (slot_inj (r_start r)) in C'; lia.
              ** apply (mr_buf _ _ _ HB); auto.
           ++ intros x Hx. injection Hx as <-. apply gather_update_same. rewrite (mr_lb _ _ _ HB). exact Hsl.
           ++ apply (mr_obs _ _ _ HB).
           ++ unfold n in *. lia.
      * destruct (mi_rows _ _ _ HI q Hq) as (rq & Hrq & HMq). exists rq. rewrite S3 by exact Hout.
        split; [|exact HMq]. rewrite <- Hrq. unfold row_at. cbn.
        rewrite X2, B2, I2 by exact Hout. reflexivity.
    + cbn [AgentModel.m_mem AgentModel.m_start]. rewrite S1.
      assert (s_open (sp_st (fold_left spec_act items sp) 0) = s_open (sp_st sp 0)) as ->.
      { destruct (in_dec Z.eq_dec 0 (map ap items)) as [Hin|Hout].
        - apply in_map_iff in Hin as (it & E0 & Hin). pose proof (S2 it Hin) as Es. rewrite E0 in Es. rewrite Es.
          destruct it as [[[p s0] a0] w0]. cbn in E0. subst p. reflexivity.
        - now rewrite S3. }
      exact (mi_log _ _ _ HI).
    + cbn. rewrite S1. apply (mi_eps _ _ _ HI).
  - split; [|split]; reflexivity.
Qed.

(** ** The agent *)
Notation a_completed := (a_completed K St In Au Ac).
Notation a_counter := (a_counter K St In Au Ac).
Notation a_tbuf := (a_tbuf K St In Au Ac).
Notation a_rbuf := (a_rbuf K St In Au Ac).
Notation a_timesteps := (a_timesteps K St In Au Ac).
Notation a_episodes := (a_episodes K St In Au Ac).
Notation a_updates := (a_updates K St In Au Ac).
Notation a_m := (a_m K St In Au Ac).
Notation op := (op K St In Au Ac W oracle).
Notation spec_observe := (@spec_observe K St In Au Ac oracle init_int).
Notation agent_act := (agent_act K St In Au Ac W pol cf).
Notation agent_observe_one := (agent_observe_one K St In Au Ac init_int cf).
Notation agent_observe := (agent_observe K St In Au Ac init_int cf).
Notation obs_item := (Z * Z * K * oracle)%type.

Definition ended (ep : list tstep) : Prop := exists pre e, ep = pre ++ [e] /\ et e <> 0.

Record LInv (a : astate) (sp : spec) (d : Z -> nat) : Prop := {
  li_m : MInv (a_m a) sp d;
  li_lt : len (a_tbuf a) = cf_par cf;
  li_lr : len (a_rbuf a) = cf_par cf;
  li_tb : forall p, 0 <= p < cf_par cf -> gather (a_tbuf a) p = Ok (skipn (d p) (ts_of (s_open (sp_st sp p))));
  li_rb : forall p, 0 <= p < cf_par cf -> gather (a_rbuf a) p = Ok (skipn (d p) (rs_of (s_open (sp_st sp p))));
  li_bo : forall p, 0 <= p < cf_par cf ->
          match cf_bo cf with
          | None => d p = O
          | Some b => len (s_open (sp_st sp p)) - Z.of_nat (d p) < b /\ exists q, Z.of_nat (d p) = q * b
          end;
  li_max : forall p M, 0 <= p < cf_par cf -> cf_maxep cf = Some M ->
           len (s_open (sp_st sp p)) + pending (sp_st sp p) <= M;
  li_ts : a_timesteps a = m_timesteps (a_m a);
  li_ep : a_episodes a = m_episodes (a_m a);
  li_up : a_updates a = m_updates (a_m a);
  li_fin : Forall ended (sp_fin sp)
}.

Definition completed (s : stream) : bool := match s_pend s with None => true | Some _ => false end.
Record CInv (a : astate) (sp : spec) : Prop := {
  ci_lc : len (a_completed a) = cf_par cf;
  ci_ln : len (a_counter a) = cf_par cf;
  ci_c : forall p, 0 <= p < cf_par cf -> gather (a_completed a) p = Ok (completed (sp_st sp p));
  ci_n : forall p, 0 <= p < cf_par cf -> gather (a_counter a) p = Ok (len (s_open (sp_st sp p)))
}.
Definition AInv (a : astate) (sp : spec) : Prop := CInv a sp /\ exists d, LInv a sp d.

Lemma MInv_buffered m sp d p x rw o : MInv m sp d -> 0 <= p < cf_par cf -> s_pend (sp_st sp p) = Some x ->
  MInv m (spec_observe sp (p, 0, rw, o)) d.
Proof.
  intros HI Hpr Hp. unfold AgentSpec.spec_observe, stream_observe. rewrite Hp. cbn [Z.eqb].
  constructor; cbn [sp_st sp_fin].
  - apply (mi_len _ _ _ HI).
  - intros q Hq. destruct (mi_rows _ _ _ HI q Hq) as (r & Hr & HM). exists r. split; [exact Hr|].
    unfold set_stream. destruct (Z.eqb_spec q p) as [->|]; [|exact HM].
    pose proof (mr_b _ _ _ HM) as HB. pose proof (mr_d _ _ _ HB) as Hd.
    assert (pending (sp_st sp p) = 1) as Ep by (unfold pending; now rewrite Hp).
    constructor; cbn [s_open s_int].
    + constructor; cbn [s_open s_pend]; unfold pending; cbn [s_pend].
      * rewrite (mr_index _ _ _ HB), app_length, Ep. cbn [length]. lia.
      * rewrite app_length. lia.
      * apply Forall_app. split; [apply (mr_flags _ _ _ HB)|]. repeat constructor.
      * apply (mr_lb _ _ _ HB).
      * apply (mr_lt _ _ _ HB).
      * apply (mr_lr _ _ _ HB).
      * apply (mr_start _ _ _ HB).
      * intros k e Hk Hn. apply nth_app_cases in Hn as [[Hk' Hn]|[-> ->]].
        -- apply (mr_buf _ _ _ HB); auto.
        -- unfold ex. cbn [fst]. apply (mr_pend _ _ _ HB). exact Hp.
      * discriminate.
      * intros k e Hk Hkd Hn. apply nth_app_cases in Hn as [[Hk' Hn]|[-> ->]]; [|lia].
        apply (mr_obs _ _ _ HB); auto.
      * pose proof (mr_win _ _ _ HB) as Hw. rewrite app_length. cbn [length]. lia.
    + apply (mr_int _ _ _ HM).
    + apply (mr_len _ _ _ HM).
    + rewrite (mr_ret _ _ _ HM). unfold rs_of. rewrite map_app, firstn_app_le by (rewrite map_length; lia). reflexivity.
  - rewrite app_nil_r. destruct (mi_log _ _ _ HI) as (sts & part & L1 & L2 & L3).
    exists sts, part. split; [exact L1|]. split; [exact L2|]. destruct circular eqn:Ec; [|exact L3].
    destruct L3 as (start & G & L3). exists start. split; [exact G|].
    unfold set_stream. destruct (Z.eqb_spec 0 p) as [<-|]; [|exact L3]. cbn [s_open].
    apply part_ok_app; [|exact L3]. apply circular_par. exact Ec.
  - rewrite app_nil_r. apply (mi_eps _ _ _ HI).
Qed.

Lemma skipn_snoc {A} (l : list A) x d : (d <= length l)%nat -> skipn d l ++ [x] = skipn d (l ++ [x]).
Proof. intros H. rewrite skipn_app. replace (d - length l)%nat with O by lia. reflexivity. Qed.

(** The stream [p] has something to observe. *)
Definition obs_ok (sp : spec) (it : obs_item) : Prop :=
  let '(p, t, r, o) := it in
  0 <= p < cf_par cf /\ s_pend (sp_st sp p) <> None /\ 0 <= t <= 2 /\ legal_oracle o /\
  (t <> 0 -> rc_trace K (o_rc o) <> None -> s_open (sp_st sp p) <> []).
Definition ob (it : obs_item) : Z := fst (fst (fst it)).

Lemma observe_one_ok a sp d it n : LInv a sp d -> obs_ok sp it ->
  (exists e, update_error e /\ agent_observe_one (a, n) it = Err e) \/
  (exists a' u d', agent_observe_one (a, n) it = Ok (a', n + u) /\
     LInv a' (spec_observe sp it) d' /\ 0 <= u <= 1 /\
     a_completed a' = a_completed a /\ a_counter a' = a_counter a /\
     a_timesteps a' = a_timesteps a /\ a_updates a' = a_updates a + u).
Proof.
  destruct it as [[[p t] rw] o]. intros HI (Hpr & Hpd & Ht & Ho & Htr).
  destruct (s_pend (sp_st sp p)) as [x|] eqn:Hp; [clear Hpd|congruence].
  destruct (mi_rows _ _ _ (li_m _ _ _ HI) p Hpr) as (r & Hr & HM).
  pose proof (mr_d _ _ _ (mr_b _ _ _ HM)) as Hd.
  assert (pending (sp_st sp p) = 1) as Ep by (unfold pending; now rewrite Hp).
  assert (0 <= p < len (a_tbuf a)) as Hpt by (rewrite (li_lt _ _ _ HI); exact Hpr).
  assert (0 <= p < len (a_rbuf a)) as Hpb by (rewrite (li_lr _ _ _ HI); exact Hpr).
  unfold AgentModel.agent_observe_one.
  rewrite (li_tb _ _ _ HI p Hpr), (li_rb _ _ _ HI p Hpr). cbn [bind].
  destruct ((t =? 0) && _) eqn:Ebuf.
  - (* kept by the agent *)
    right. apply andb_true_iff in Ebuf as [Et Ebuf]. apply Z.eqb_eq in Et. subst t.
    rewrite scatter_one by exact Hpt. cbn [bind]. rewrite scatter_one by exact Hpb. cbn [bind].
    eexists. exists 0, d. split; [rewrite Z.add_0_r; reflexivity|].
    split; [|cbn [AgentModel.a_completed AgentModel.a_counter AgentModel.a_timesteps AgentModel.a_updates]; repeat split; lia].
    constructor; cbn [AgentModel.a_m AgentModel.a_tbuf AgentModel.a_rbuf AgentModel.a_timesteps AgentModel.a_episodes AgentModel.a_updates].
    + eapply MInv_buffered; eauto. apply (li_m _ _ _ HI).
    + rewrite update_nth_length. apply (li_lt _ _ _ HI).
    + rewrite update_nth_length. apply (li_lr _ _ _ HI).
    + intros q Hq. rewrite gather_upd by exact Hpt. unfold AgentSpec.spec_observe, stream_observe. rewrite Hp.
      cbn [Z.eqb sp_st]. unfold set_stream. destruct (Z.eqb_spec q p) as [->|]; [|apply (li_tb _ _ _ HI); exact Hq].
      cbn [s_open]. rewrite skipn_snoc by (unfold ts_of; rewrite map_length; lia). unfold ts_of. rewrite map_app. reflexivity.
    + intros q Hq. rewrite gather_upd by exact Hpb. unfold AgentSpec.spec_observe, stream_observe. rewrite Hp.
      cbn [Z.eqb sp_st]. unfold set_stream. destruct (Z.eqb_spec q p) as [->|]; [|apply (li_rb _ _ _ HI); exact Hq].
      cbn [s_open]. rewrite skipn_snoc by (unfold rs_of; rewrite map_length; lia). unfold rs_of. rewrite map_app. reflexivity.
    + intros q Hq. pose proof (li_bo _ _ _ HI q Hq) as Hb. unfold AgentSpec.spec_observe, stream_observe. rewrite Hp.
      cbn [Z.eqb sp_st]. unfold set_stream. destruct (Z.eqb_spec q p) as [->|]; [|exact Hb].
      destruct (cf_bo cf) as [b|]; [|exact Hb]. cbn [s_open]. rewrite app_length. cbn [length].
      apply Z.ltb_lt in Ebuf. rewrite app_length, skipn_length in Ebuf. unfold ts_of in Ebuf. rewrite map_length in Ebuf.
      cbn [length] in Ebuf. destruct Hb as [Hb Hq']. split; [lia|exact Hq'].
    + intros q M Hq EM. pose proof (li_max _ _ _ HI q M Hq EM) as Hb. unfold AgentSpec.spec_observe, stream_observe. rewrite Hp.
      cbn [Z.eqb sp_st]. unfold set_stream. destruct (Z.eqb_spec q p) as [->|]; [|exact Hb].
      unfold pending at 1. cbn [s_open s_pend]. rewrite app_length. cbn [length]. lia.
    + apply (li_ts _ _ _ HI).
    + apply (li_ep _ _ _ HI).
    + apply (li_up _ _ _ HI).
    + unfold AgentSpec.spec_observe, stream_observe. rewrite Hp. cbn [Z.eqb sp_fin]. rewrite app_nil_r. apply (li_fin _ _ _ HI).
  - (* delivered to the model *)
    rewrite scatter_one by exact Hpt. cbn [bind]. rewrite scatter_one by exact Hpb. cbn [bind].
    assert (delivery_ok sp d p t o) as HD.
    { split; [exact Hpr|]. split; [exact Ht|]. split; [exact Ho|]. split; [|exact Htr].
      intros Eb. pose proof (li_bo _ _ _ HI p Hpr) as Hb. rewrite Eb in Hb, Ebuf. split; [exact Hb|].
      rewrite andb_true_r in Ebuf. now apply Z.eqb_neq. }
    destruct (model_observe_ok o (a_m a) sp d p x rw t (li_m _ _ _ HI) HD Hp)
      as [(e & He & E)|(m' & u & E & HI' & Ets & Eup)].
    + left. exists e. unfold delivered_ts, delivered_rs in E. rewrite E. auto.
    + right. unfold delivered_ts, delivered_rs in E. rewrite E. cbn [bind].
      eexists. exists (if u then 1 else 0). eexists. split; [reflexivity|].
      split; [|split; [destruct u; lia|]; cbn [AgentModel.a_completed AgentModel.a_counter AgentModel.a_timesteps AgentModel.a_updates];
        rewrite (li_up _ _ _ HI); repeat split; exact Eup].
      constructor; cbn [AgentModel.a_m AgentModel.a_tbuf AgentModel.a_rbuf AgentModel.a_timesteps AgentModel.a_episodes AgentModel.a_updates].
      * exact HI'.
      * rewrite update_nth_length. apply (li_lt _ _ _ HI).
      * rewrite update_nth_length. apply (li_lr _ _ _ HI).
      * intros q Hq. rewrite gather_upd by exact Hpt. unfold AgentSpec.spec_observe, stream_observe, upd_d. rewrite Hp.
        destruct (Z.eqb_spec t 0); cbn [sp_st]; unfold set_stream; (destruct (Z.eqb_spec q p) as [->|]; [|apply (li_tb _ _ _ HI); exact Hq]);
        cbn [s_open]; [|reflexivity].
        rewrite skipn_all2; [reflexivity|]. unfold ts_of. rewrite map_length, app_length. cbn [length]. lia.
      * intros q Hq. rewrite gather_upd by exact Hpb. unfold AgentSpec.spec_observe, stream_observe, upd_d. rewrite Hp.
        destruct (Z.eqb_spec t 0); cbn [sp_st]; unfold set_stream; (destruct (Z.eqb_spec q p) as [->|]; [|apply (li_rb _ _ _ HI); exact Hq]);
        cbn [s_open]; [|reflexivity].
        rewrite skipn_all2; [reflexivity|]. unfold rs_of. rewrite map_length, app_length. cbn [length]. lia.
      * intros q Hq. pose proof (li_bo _ _ _ HI q Hq) as Hb. unfold AgentSpec.spec_observe, stream_observe, upd_d. rewrite Hp.
        destruct (Z.eqb_spec t 0) as [Et|Et]; cbn [sp_st]; unfold set_stream; (destruct (Z.eqb_spec q p) as [->|]; [|exact Hb]);
        (destruct (cf_bo cf) as [b|] eqn:Eb; [pose proof (wf_bo WF b Eb)|]).
        -- cbn [s_open]. rewrite app_length. cbn [length]. split; [lia|]. destruct Hb as [Hb (q' & Eq')]. exists (q' + 1).
           rewrite Et in Ebuf. cbn [Z.eqb andb] in Ebuf. apply Z.ltb_ge in Ebuf. rewrite app_length, skipn_length in Ebuf.
           unfold ts_of in Ebuf. rewrite map_length in Ebuf. cbn [length] in Ebuf. lia.
        -- discriminate Ebuf.
        -- cbn [idle s_open length]. split; [lia|]. exists 0. lia.
        -- reflexivity.
      * intros q M Hq EM. pose proof (li_max _ _ _ HI q M Hq EM) as Hb. unfold AgentSpec.spec_observe, stream_observe. rewrite Hp.
        destruct (Z.eqb_spec t 0) as [Et|Et]; cbn [sp_st]; unfold set_stream; (destruct (Z.eqb_spec q p) as [->|]; [|exact Hb]);
        unfold pending at 1; cbn [idle s_open s_pend length]; rewrite ?app_length; cbn [length]; lia.
      * rewrite Ets. apply (li_ts _ _ _ HI).
      * reflexivity.
      * reflexivity.
      * unfold AgentSpec.spec_observe, stream_observe. rewrite Hp.
        destruct (Z.eqb_spec t 0) as [Et|Et]; cbn [sp_fin]; [rewrite app_nil_r; apply (li_fin _ _ _ HI)|].
        apply Forall_app. split; [apply (li_fin _ _ _ HI)|]. repeat constructor. eexists. eexists. split; [reflexivity|exact Et].
Qed.

Lemma spec_observe_other sp it q : q <> ob it -> sp_st (spec_observe sp it) q = sp_st sp q.
Proof.
  destruct it as [[[p t] r] o]. cbn. intros H. destruct (stream_observe init_int (sp_st sp p) t r) as [s' fin].
  cbn [sp_st]. unfold set_stream. destruct (Z.eqb_spec q p); [contradiction|reflexivity].
Qed.
Lemma spec_observe_same sp it : sp_st (spec_observe sp it) (ob it) =
  fst (stream_observe init_int (sp_st sp (ob it)) (snd (fst (fst it))) (snd (fst it))).
Proof.
  destruct it as [[[p t] r] o]. cbn. destruct (stream_observe init_int (sp_st sp p) t r) as [s' fin].
  cbn [sp_st fst]. unfold set_stream. now rewrite Z.eqb_refl.
Qed.

Lemma spec_observe_fold items : forall sp, NoDup (map ob items) ->
  (forall it, List.In it items -> sp_st (fold_left spec_observe items sp) (ob it) =
     fst (stream_observe init_int (sp_st sp (ob it)) (snd (fst (fst it))) (snd (fst it)))) /\
  (forall q, ~ List.In q (map ob items) -> sp_st (fold_left spec_observe items sp) q = sp_st sp q).
Proof.
  induction items as [|it items IH]; intros sp ND; cbn [fold_left].
  - split; [intros it []|reflexivity].
  - cbn [map] in ND. apply NoDup_cons_iff in ND as [Hn ND]. destruct (IH (spec_observe sp it) ND) as (I2 & I3).
    split.
    + intros it' [<-|Hin].
      * rewrite I3 by exact Hn. apply spec_observe_same.
      * rewrite I2 by exact Hin.
        rewrite spec_observe_other; [reflexivity|]. intros C'. apply Hn. rewrite <- C'. apply in_map. exact Hin.
    + intros q Hq. cbn [map] in Hq. rewrite I3 by (intros C'; apply Hq; now right).
      apply spec_observe_other. intros C'. apply Hq. left. auto.
Qed.

Lemma observe_loop_ok items : forall a sp d n, LInv a sp d -> NoDup (map ob items) ->
  Forall (obs_ok sp) items ->
  (exists e, update_error e /\ fold_res agent_observe_one (a, n) items = Err e) \/
  (exists a' u d', fold_res agent_observe_one (a, n) items = Ok (a', n + u) /\
     LInv a' (fold_left spec_observe items sp) d' /\ 0 <= u <= len items /\
     a_completed a' = a_completed a /\ a_counter a' = a_counter a /\
     a_timesteps a' = a_timesteps a /\ a_updates a' = a_updates a + u).
Proof.
  induction items as [|it items IH]; intros a sp d n HI ND HF.
  - right. exists a, 0, d. cbn [fold_res fold_left length]. rewrite !Z.add_0_r. split; [reflexivity|].
    split; [exact HI|]. repeat split; lia.
  - cbn [map] in ND. apply NoDup_cons_iff in ND as [Hn ND].
    cbn [fold_res fold_left]. destruct (observe_one_ok a sp d it n HI (Forall_inv HF))
      as [(e & He & E)|(a1 & u1 & d1 & E & HI1 & Hu1 & Q1 & Q2 & Q3 & Q4)].
    + left. exists e. rewrite E. auto.
    + rewrite E. cbn [bind].
      assert (Forall (obs_ok (spec_observe sp it)) items) as HF'.
      { rewrite Forall_forall. intros it' Hin. apply Forall_inv_tail in HF. rewrite Forall_forall in HF.
        specialize (HF it' Hin). assert (ob it' <> ob it) as Ne by (intros C'; apply Hn; rewrite <- C'; apply in_map; exact Hin).
        destruct it' as [[[p t] r] o]. unfold obs_ok in HF |- *.
        rewrite spec_observe_other by exact Ne. exact HF. }
      destruct (IH a1 (spec_observe sp it) d1 (n + u1) HI1 ND HF')
        as [(e & He & E')|(a2 & u2 & d2 & E' & HI2 & Hu2 & T1 & T2 & T3 & T4)].
      * left. exists e. auto.
      * right. exists a2, (u1 + u2), d2. rewrite E', Z.add_assoc. split; [reflexivity|].
        split; [exact HI2|]. cbn [length]. split; [lia|]. split; [congruence|]. split; [congruence|]. split; [congruence|]. lia.
Qed.

Lemma agent_observe_ok a sp items : AInv a sp -> items <> [] -> NoDup (map ob items) ->
  Forall (obs_ok sp) items ->
  (exists e, update_error e /\ agent_observe a items = Err e) \/
  (exists a' u, agent_observe a items = Ok (a', u) /\
     AInv a' (fold_left spec_observe items sp) /\ 0 <= u <= len items /\
     a_timesteps a' = a_timesteps a /\ a_updates a' = a_updates a + u).
Proof.
  intros [HC (d & HL)] Hne ND HF.
  unfold AgentModel.agent_observe.
  change (map (fun it : obs_item => fst (fst (fst it))) items) with (map ob items).
  replace (len items =? 0) with false by (destruct items; [congruence|cbn [length]; lia]). cbn [negb assert_ bind].
  assert (forall it, List.In it items -> 0 <= ob it < cf_par cf /\ s_pend (sp_st sp (ob it)) <> None /\ 0 <= snd (fst (fst it)) <= 2) as Hit.
  { intros it Hin. rewrite Forall_forall in HF. specialize (HF it Hin). destruct it as [[[p t] r] o]. cbn in HF |- *. tauto. }
  assert (gathers (a_completed a) (map ob items) = Ok (map (fun _ => false) (map ob items))) as ->.
  { apply gathers_ok. intros p Hp. apply in_map_iff in Hp as (it & <- & Hin).
    destruct (Hit it Hin) as (Hr & Hpd & _). rewrite (ci_c _ _ HC _ Hr). unfold completed.
    destruct (s_pend (sp_st sp (ob it))); [reflexivity|congruence]. }
  cbn [bind].
  assert (existsb (fun b : bool => b) (map (fun _ => false) (map ob items)) = false) as ->.
  { generalize (map ob items) as l. induction l as [|y l IHl]; [reflexivity|exact IHl]. }
  cbn [negb assert_ bind].
  rewrite map_map.
  assert (Forall (fun it => 0 <= ob it < cf_par cf) items) as Hrg by (apply Forall_forall; intros it Hin; apply Hit; exact Hin).
  destruct (scatter_map (a_completed a) items ob (fun _ => true) ND) as (comp & Ec & Lc & C1 & C2); [now rewrite (ci_lc _ _ HC)|].
  rewrite Ec. cbn [bind].
  set (nn := fun it : obs_item => len (s_open (sp_st sp (ob it)))).
  assert (gathers (a_counter a) (map ob items) = Ok (map nn items)) as ->.
  { unfold nn. rewrite <- (map_map ob (fun p => len (s_open (sp_st sp p)))). apply gathers_ok.
    intros p Hp. apply in_map_iff in Hp as (it & <- & Hin). apply (ci_n _ _ HC). apply Hit. exact Hin. }
  cbn [bind]. rewrite map_map, combine_map.
  assert (match cf_maxep cf with
          | None => true
          | Some m => forallb (fun tn => negb ((fst tn =? 0) && (m <? snd tn)))
                        (map (fun it : obs_item => (snd (fst (fst it)), nn it + 1)) items)
          end = true) as ->.
  { destruct (cf_maxep cf) as [M|] eqn:EM; [|reflexivity]. apply forallb_forall. intros tn Htn.
    apply in_map_iff in Htn as (it & <- & Hin). cbn [fst snd].
    destruct (Hit it Hin) as (Hr & Hpd & _). pose proof (li_max _ _ _ HL _ M Hr EM) as Hm. unfold pending in Hm.
    unfold nn. destruct (s_pend (sp_st sp (ob it))); [|congruence]. lia. }
  cbn [assert_ bind]. rewrite map_map. cbn [fst snd].
  destruct (scatter_map (a_counter a) items ob (fun it => if 0 <? snd (fst (fst it)) then 0 else nn it + 1) ND)
    as (cnt & En & Ln & N1 & N2); [now rewrite (ci_ln _ _ HC)|].
  rewrite En. cbn [bind].
  set (a1 := {| AgentModel.a_completed := comp |}).
  assert (LInv a1 sp d) as HL1 by (destruct HL; constructor; assumption).
  destruct (observe_loop_ok items a1 sp d 0 HL1 ND HF) as [(e & He & E)|(a2 & u & d2 & E & HI2 & Hu & T1 & T2 & T3 & T4)].
  - left. exists e. auto.
  - right. exists a2, u. rewrite Z.add_0_l in E. split; [exact E|]. split; [|split; [exact Hu|]; split; [exact T3|exact T4]].
    split; [|exists d2; exact HI2].
    destruct (spec_observe_fold items sp ND) as (S1 & S2).
    constructor; rewrite ?T1, ?T2; cbn [a1 AgentModel.a_completed AgentModel.a_counter].
    + rewrite Lc. apply (ci_lc _ _ HC).
    + rewrite Ln. apply (ci_ln _ _ HC).
    + intros q Hq. destruct (in_dec Z.eq_dec q (map ob items)) as [Hin|Hout].
      * apply in_map_iff in Hin as (it & <- & Hin). rewrite C1, S1 by exact Hin. f_equal. unfold completed, stream_observe.
        destruct (s_pend (sp_st sp (ob it))) eqn:Ep; [|apply Hit in Hin as (_ & N & _); congruence].
        destruct (snd (fst (fst it)) =? 0); reflexivity.
      * rewrite C2, S2 by exact Hout. apply (ci_c _ _ HC). exact Hq.
    + intros q Hq. destruct (in_dec Z.eq_dec q (map ob items)) as [Hin|Hout].
      * apply in_map_iff in Hin as (it & <- & Hin). rewrite N1, S1 by exact Hin. f_equal. unfold stream_observe, nn.
        destruct (Hit it Hin) as (_ & N & Ht).
        destruct (s_pend (sp_st sp (ob it))) eqn:Ep; [|congruence].
        destruct (Z.ltb_spec 0 (snd (fst (fst it)))), (Z.eqb_spec (snd (fst (fst it))) 0); try lia; cbn [fst s_open idle].
        -- reflexivity.
        -- rewrite app_length. cbn [length]. lia.
      * rewrite N2, S2 by exact Hout. apply (ci_n _ _ HC). exact Hq.
Qed.

Definition act_ok (sp : spec) (it : act_item) : Prop :=
  0 <= ap it < cf_par cf /\ s_pend (sp_st sp (ap it)) = None /\
  (forall M, cf_maxep cf = Some M -> len (s_open (sp_st sp (ap it))) < M).

Lemma agent_act_ok a sp items : AInv a sp -> NoDup (map ap items) -> Forall (act_ok sp) items ->
  exists a', agent_act a items = Ok (a', map (fun it => (ap it, acted_x sp it)) items) /\
    AInv a' (fold_left spec_act items sp) /\
    a_timesteps a' = a_timesteps a + len items /\ a_updates a' = a_updates a.
Proof.
  intros [HC (d & HL)] ND HF. rewrite Forall_forall in HF.
  unfold AgentModel.agent_act.
  change (map (fun it : act_item => fst (fst (fst it))) items) with (map ap items).
  assert (gathers (a_completed a) (map ap items) = Ok (map (fun _ => true) (map ap items))) as ->.
  { apply gathers_ok. intros p Hp. apply in_map_iff in Hp as (it & <- & Hin).
    destruct (HF it Hin) as (Hr & Hpd & _). rewrite (ci_c _ _ HC _ Hr). unfold completed. now rewrite Hpd. }
  cbn [bind].
  assert (forallb (fun b : bool => b) (map (fun _ => true) (map ap items)) = true) as ->.
  { generalize (map ap items) as l. induction l as [|y l IHl]; [reflexivity|exact IHl]. }
  cbn [assert_ bind]. rewrite map_map.
  assert (Forall (fun it => 0 <= ap it < cf_par cf) items) as Hrg by (apply Forall_forall; intros it Hin; apply HF; exact Hin).
  destruct (scatter_map (a_completed a) items ap (fun _ => false) ND) as (comp & Ec & Lc & C1 & C2); [now rewrite (ci_lc _ _ HC)|].
  rewrite Ec. cbn [bind].
  destruct (model_act_ok (a_m a) sp d items (li_m _ _ _ HL) ND) as (m' & E & HM & Ets & Eup & Ela).
  { intros it Hin. destruct (HF it Hin) as (H1 & H2 & H3). split; [exact H1|]. split; [exact H2|]. split; [exact H3|].
    intros b Eb. pose proof (li_bo _ _ _ HL _ H1) as Hb. rewrite Eb in Hb. apply Hb. }
  rewrite E. cbn [bind].
  destruct (spec_act_fold items sp ND) as (S1 & S2 & S3).
  assert (forall it, s_open (acted sp it) = s_open (sp_st sp (ap it)) /\ s_pend (acted sp it) = Some (acted_x sp it)) as Hact.
  { intros [[[p s0] a0] w0]. split; reflexivity. }
  assert (forall q, s_open (sp_st (fold_left spec_act items sp) q) = s_open (sp_st sp q)) as Hopen.
  { intros q. destruct (in_dec Z.eq_dec q (map ap items)) as [Hin|Hout].
    - apply in_map_iff in Hin as (it & <- & Hin). rewrite S2 by exact Hin. apply Hact.
    - now rewrite S3. }
  eexists. split; [reflexivity|]. split; [|cbn [AgentModel.a_timesteps AgentModel.a_updates]; rewrite Ets, (li_ts _ _ _ HL); auto].
  split.
  - constructor; cbn [AgentModel.a_completed AgentModel.a_counter].
    + rewrite Lc. apply (ci_lc _ _ HC).
    + apply (ci_ln _ _ HC).
    + intros q Hq. destruct (in_dec Z.eq_dec q (map ap items)) as [Hin|Hout].
      * apply in_map_iff in Hin as (it & <- & Hin). rewrite C1, S2 by exact Hin. unfold completed.
        now rewrite (proj2 (Hact it)).
      * rewrite C2, S3 by exact Hout. apply (ci_c _ _ HC). exact Hq.
    + intros q Hq. rewrite Hopen. apply (ci_n _ _ HC). exact Hq.
  - exists d. constructor; cbn [AgentModel.a_m AgentModel.a_tbuf AgentModel.a_rbuf AgentModel.a_timesteps AgentModel.a_episodes AgentModel.a_updates].
    + exact HM.
    + apply (li_lt _ _ _ HL).
    + apply (li_lr _ _ _ HL).
    + intros q Hq. rewrite Hopen. apply (li_tb _ _ _ HL). exact Hq.
    + intros q Hq. rewrite Hopen. apply (li_rb _ _ _ HL). exact Hq.
    + intros q Hq. rewrite Hopen. apply (li_bo _ _ _ HL). exact Hq.
    + intros q M Hq EM. rewrite Hopen. destruct (in_dec Z.eq_dec q (map ap items)) as [Hin|Hout].
      * apply in_map_iff in Hin as (it & <- & Hin). rewrite S2 by exact Hin. unfold pending. rewrite (proj2 (Hact it)).
        destruct (HF it Hin) as (_ & _ & HM'). specialize (HM' M EM). lia.
      * rewrite S3 by exact Hout. apply (li_max _ _ _ HL); auto.
    + reflexivity.
    + rewrite (mi_eps _ _ _ HM), S1, <- (mi_eps _ _ _ (li_m _ _ _ HL)). apply (li_ep _ _ _ HL).
    + rewrite Eup. apply (li_up _ _ _ HL).
    + rewrite S1. apply (li_fin _ _ _ HL).
Qed.

(** ** Manual update *)
Notation agent_update := (agent_update K St In Au Ac cf).
Lemma agent_update_ok o a sp : AInv a sp ->
  (exists e, update_error e /\ agent_update o a = Err e) \/
  (exists a', agent_update o a = Ok a' /\ AInv a' sp /\
     a_timesteps a' = a_timesteps a /\ a_updates a' = a_updates a + 1).
Proof.
  intros [HC (d & HL)]. unfold AgentModel.agent_update.
  destruct (core_update_cases o (a_m a)) as [(e & He & E)|E]; rewrite E; cbn [bind].
  - left. exists e. auto.
  - right. eexists. split; [reflexivity|]. split; [|cbn; rewrite (li_up _ _ _ HL); auto].
    split; [destruct HC; constructor; assumption|]. exists d.
    destruct HL as [HM ? ? ? ? ? ? ? ? ? ?]. constructor; try assumption; try reflexivity.
    destruct HM. constructor; assumption.
Qed.

(** ** When no stream is in an episode *)
Definition all_idle (sp : spec) : Prop := forall p, 0 <= p < cf_par cf ->
  s_open (sp_st sp p) = [] /\ s_pend (sp_st sp p) = None.

Lemma const_list (l : list Z) : (forall p, 0 <= p < len l -> gather l p = Ok 0) -> fold_right Z.add 0 l = 0.
Proof.
  intros H. assert (l = repeat 0 (length l)) as ->.
  { apply gather_ext; [now rewrite repeat_length|]. intros i Hi. rewrite H by exact Hi. symmetry. apply gather_repeat. exact Hi. }
  clear H. induction (length l) as [|n IH]; [reflexivity|]. cbn [repeat fold_right]. rewrite IH. reflexivity.
Qed.

Lemma idle_part m sp d : MInv m sp d -> all_idle sp ->
  exists sts, MemOk (m_mem m) (concat sts) /\ Forall2 stored_ok (sp_fin sp) sts.
Proof.
  intros HI Hid. destruct (mi_log _ _ _ HI) as (sts & part & L1 & L2 & L3). exists sts.
  assert (part = []) as ->; [|rewrite app_nil_r in L1; auto].
  destruct circular eqn:Ec; [|exact L3]. destruct L3 as (start & G & (P1 & P2 & _)).
  pose proof (wf_par WF). destruct (Hid 0 ltac:(lia)) as (Ho & _). rewrite Ho in P2. cbn [length] in P2.
  destruct P2; [assumption|]. destruct part; [reflexivity|]. cbn [length] in P1. lia.
Qed.

Notation model_experience := (model_experience K St In Au Ac).
Lemma model_experience_ok o m sp d open e :
  MInv m sp d -> all_idle sp -> legal_oracle o ->
  Forall (fun e => et e = 0) open -> 1 <= et e <= 2 -> len open + 1 <= cf_memcap cf ->
  (rc_trace K (o_rc o) <> None -> open <> []) ->
  let ep := open ++ [e] in
  exists m', model_experience o m (xs_of ep) (ts_of ep) (rs_of ep) = Ok m' /\
    MInv m' {| sp_fin := sp_fin sp ++ [ep]; sp_st := sp_st sp |} d /\
    m_timesteps m' = m_timesteps m + len ep /\ m_updates m' = m_updates m.
Proof.
  intros HI Hid Ho Hfl Het Hlen Htr ep.
  destruct (idle_part _ _ _ HI Hid) as (sts & HMem & HSt).
  unfold AgentModel.model_experience.
  assert (length (ts_of ep) = length ep /\ length (xs_of ep) = length ep /\ length (rs_of ep) = length ep) as (Q1 & Q2 & Q3).
  { unfold ts_of, xs_of, rs_of. rewrite !map_length. auto. }
  rewrite Q1, Q2, Q3, Z.eqb_refl. cbn [andb assert_ bind].
  assert (forallb (fun t => (0 <=? t) && (t <? 3)) (ts_of ep) = true) as ->.
  { apply forallb_forall. intros t Ht. unfold ts_of, ep in Ht. rewrite map_app in Ht. apply in_app_or in Ht as [Ht|[<-|[]]]; [|lia].
    apply in_map_iff in Ht as (e' & <- & He'). rewrite Forall_forall in Hfl. rewrite (Hfl e' He'). reflexivity. }
  cbn [assert_ bind].
  rewrite const_list.
  2: { rewrite (proj1 (mi_len _ _ _ HI)). intros p Hp. destruct (mi_rows _ _ _ HI p Hp) as (r & Hr & HR).
       apply row_at_ok in Hr as (Hr & _). rewrite Hr, (mr_index _ _ _ (mr_b _ _ _ HR)).
       destruct (Hid p Hp) as (E1 & E2). unfold pending. rewrite E1, E2. reflexivity. }
  cbn [Z.eqb assert_ bind].
  assert (count_nonzero (ts_of ep) = 1) as ->.
  { unfold ts_of, ep. rewrite map_app, count_nonzero_app, count_nonzero_zeros.
    - unfold count_nonzero. cbn [map filter]. destruct (Z.eqb_spec (et e) 0); [lia|reflexivity].
    - rewrite Forall_map. exact Hfl. }
  cbn [Z.eqb Pos.eqb assert_ bind].
  assert (last_ (ts_of ep) = Ok (et e)) as -> by (unfold ts_of, ep; rewrite map_app; apply last_ok).
  cbn [bind]. replace (1 <=? et e) with true by lia. cbn [assert_ bind].
  destruct (core_experience_ok o m (concat sts) open [] e Ho) as (mem' & st & E & HM' & Hst); auto.
  { now rewrite app_nil_r. }
  { apply part_nil. }
  { cbn [length]. lia. }
  cbn [length skipn] in E. fold ep in E. rewrite E. cbn [bind].
  eexists. split; [reflexivity|]. split; [|split; reflexivity].
  constructor; cbn [sp_fin sp_st].
  - exact (mi_len _ _ _ HI).
  - exact (mi_rows _ _ _ HI).
  - exists (sts ++ [st]), []. cbn [AgentModel.m_mem set_mem AgentModel.m_start]. split; [|split].
    + rewrite app_nil_r, concat_app. cbn [concat]. rewrite app_nil_r. exact HM'.
    + apply Forall2_app; [exact HSt|]. repeat constructor; apply Hst.
    + destruct circular eqn:Ec; [|reflexivity]. destruct (mi_log _ _ _ HI) as (sts' & part & L1 & L2 & L3).
      rewrite Ec in L3. destruct L3 as (start & G & (P1 & P2 & _)). exists 0. split; [|apply part_nil].
      pose proof (wf_par WF). destruct (Hid 0 ltac:(lia)) as (Ho' & _). rewrite Ho' in P2. cbn [length] in P2.
      assert (start = 0) as E0; [|rewrite <- E0 at 2; exact G]. destruct P2 as [->|]; [cbn [length] in P1; lia|].
      lia.
  - cbn. rewrite app_length. cbn [length]. pose proof (mi_eps _ _ _ HI). lia.
Qed.

Notation experience_loop := (experience_loop K St In Au Ac).
Notation agent_experience := (agent_experience K St In Au Ac).
Definition experience_ok (os : nat -> oracle) (items : list tstep) : Prop :=
  (exists pre e, items = pre ++ [e] /\ et e <> 0) /\
  Forall (fun e => 0 <= et e <= 2) items /\ (forall k, legal_oracle (os k)) /\
  Forall (fun ep => len ep <= cf_memcap cf) (cut_episodes [] items) /\
  (forall k, rc_trace K (o_rc (os k)) <> None ->
     Forall (fun ep => (2 <= length ep)%nat) (cut_episodes [] items)).

Lemma experience_loop_ok os items : forall a sp d seg k,
  LInv a sp d -> all_idle sp -> (forall k, legal_oracle (os k)) ->
  Forall (fun e => et e = 0) seg -> Forall (fun e => 0 <= et e <= 2) items ->
  (items = [] -> seg = []) -> (items <> [] -> exists pre e, items = pre ++ [e] /\ et e <> 0) ->
  Forall (fun ep => len ep <= cf_memcap cf) (cut_episodes seg items) ->
  (forall k, rc_trace K (o_rc (os k)) <> None ->
     Forall (fun ep => (2 <= length ep)%nat) (cut_episodes seg items)) ->
  exists a', experience_loop os a seg items k = Ok a' /\
    LInv a' {| sp_fin := sp_fin sp ++ cut_episodes seg items; sp_st := sp_st sp |} d /\
    a_completed a' = a_completed a /\ a_counter a' = a_counter a /\
    a_timesteps a' = a_timesteps a + len seg + len items /\ a_updates a' = a_updates a.
Proof.
  induction items as [|e items IH]; intros a sp d seg k HL Hid Ho Hseg Hfl Hn Hlast Hcap Htr.
  - rewrite (Hn eq_refl). exists a. cbn [AgentModel.experience_loop cut_episodes length]. rewrite app_nil_r.
    split; [reflexivity|]. split; [destruct sp; exact HL|]. repeat split; lia.
  - cbn [AgentModel.experience_loop cut_episodes] in *.
    assert (items <> [] -> exists pre e0, items = pre ++ [e0] /\ et e0 <> 0) as Hlast'.
    { intros N. destruct (Hlast ltac:(discriminate)) as (pre & e0 & E & He0).
      destruct pre as [|y pre]; [injection E as E1 E2; contradiction|]. injection E as _ E. exists pre, e0. auto. }
    destruct (Z.eqb_spec (snd e) 0) as [Ez|Ez].
    + destruct (IH a sp d (seg ++ [e]) k) as (a' & E & HL' & Q1 & Q2 & Q3 & Q4); auto.
      * apply Forall_app. split; [exact Hseg|]. repeat constructor. exact Ez.
      * apply (Forall_inv_tail Hfl).
      * intros ->. destruct (Hlast ltac:(discriminate)) as (pre & e0 & E & He0).
        exfalso. apply He0. unfold et. destruct pre as [|y pre]; [injection E as <-; exact Ez|].
        destruct pre; discriminate.
      * exists a'. split; [exact E|]. split; [exact HL'|]. split; [exact Q1|]. split; [exact Q2|]. split; [|exact Q4].
        rewrite Q3, app_length. cbn [length]. lia.
    + pose proof (Forall_inv Hfl) as Hte.
      destruct (model_experience_ok (os k) (a_m a) sp d seg e) as (m' & E & HM & Ets & Eup); auto.
      { apply (li_m _ _ _ HL). }
      { unfold et in *. lia. }
      { apply Forall_inv in Hcap. rewrite app_length in Hcap. cbn [length] in Hcap. lia. }
      { intros Ht. specialize (Htr k Ht). apply Forall_inv in Htr. rewrite app_length in Htr. cbn [length] in Htr.
        destruct seg; [cbn in Htr; lia|discriminate]. }
      change (map (fun e0 : tstep => fst (fst e0)) (seg ++ [e])) with (xs_of (seg ++ [e])).
      change (map snd (seg ++ [e])) with (ts_of (seg ++ [e])).
      change (map (fun e0 : tstep => snd (fst e0)) (seg ++ [e])) with (rs_of (seg ++ [e])).
      rewrite E. cbn [bind].
      set (a1 := {| AgentModel.a_completed := a_completed a |}).
      assert (LInv a1 {| sp_fin := sp_fin sp ++ [seg ++ [e]]; sp_st := sp_st sp |} d) as HL1.
      { destruct HL. constructor; cbn [sp_st sp_fin]; try assumption; try reflexivity.
        - cbn. rewrite Eup. assumption.
        - apply Forall_app. split; [assumption|]. repeat constructor. exists seg, e. auto. }
      destruct (IH a1 {| sp_fin := sp_fin sp ++ [seg ++ [e]]; sp_st := sp_st sp |} d [] (S k))
        as (a' & E' & HL' & Q1 & Q2 & Q3 & Q4); auto.
      * apply (Forall_inv_tail Hfl).
      * apply (Forall_inv_tail Hcap).
      * intros k' Ht. apply (Forall_inv_tail (Htr k' Ht)).
      * exists a'. split; [exact E'|]. cbn [sp_fin sp_st] in HL'. rewrite <- app_assoc in HL'. cbn [app] in HL'.
        split; [exact HL'|]. split; [exact Q1|]. split; [exact Q2|]. split; [|exact Q4].
        rewrite Q3. unfold a1. cbn [AgentModel.a_timesteps]. rewrite Ets, (li_ts _ _ _ HL), app_length. cbn [length]. lia.
Qed.

Lemma agent_experience_ok os a sp items : AInv a sp -> all_idle sp -> experience_ok os items ->
  exists a', agent_experience os a items = Ok a' /\
    AInv a' {| sp_fin := sp_fin sp ++ cut_episodes [] items; sp_st := sp_st sp |} /\
    a_timesteps a' = a_timesteps a + len items /\ a_updates a' = a_updates a.
Proof.
  intros [HC (d & HL)] Hid (Hl & Hf & Ho & Hc & Ht). unfold AgentModel.agent_experience.
  assert (forallb (fun b : list Z => len b =? 0) (a_tbuf a) = true) as ->.
  { apply forallb_forall. intros b Hb. apply In_nth_error in Hb as (i & Hi).
    assert (nth_error (a_tbuf a) i <> None) as Hs by congruence. apply nth_error_Some in Hs.
    pose proof (li_lt _ _ _ HL) as Lt.
    pose proof (li_tb _ _ _ HL (Z.of_nat i) ltac:(lia)) as G. apply gather_of_nat in G. rewrite Hi in G.
    injection G as ->. destruct (Hid (Z.of_nat i) ltac:(lia)) as (-> & _). cbn [ts_of map]. rewrite skipn_nil. reflexivity. }
  cbn [assert_ bind].
  destruct Hl as (pre & e & -> & He). rewrite map_app. cbn [map]. rewrite last_ok. cbn [bind].
  replace (snd e =? 0) with false by (unfold et in He; lia). cbn [negb assert_ bind].
  destruct (experience_loop_ok os (pre ++ [e]) a sp d [] O) as (a' & E & HL' & Q1 & Q2 & Q3 & Q4); auto.
  { intros _. exists pre, e. auto. }
  exists a'. split; [exact E|]. split; [|split; [rewrite Q3; cbn [length]; lia|exact Q4]].
  split; [|exists d; exact HL'].
  destruct HC. constructor; cbn [sp_st]; rewrite ?Q1, ?Q2; assumption.
Qed.

Notation model_reset := (model_reset K St In Au Ac).
Notation agent_reset := (agent_reset K St In Au Ac).
Notation agent_initialize := (agent_initialize K St In Au Ac init_int zero_x cf).

Lemma close_ended (l : list tstep) : (forall pre e, l = pre ++ [e] -> et e <> 0) -> close l = l.
Proof.
  intros H. destruct (list_rev_destruct l) as [->|(pre & e & ->)]; [reflexivity|].
  rewrite close_snoc. specialize (H pre e eq_refl). unfold et in H.
  destruct (Z.eqb_spec (snd e) 0); [contradiction|]. now destruct e.
Qed.

Lemma snoc_eq {A} (l l' : list A) x y : l ++ [x] = l' ++ [y] -> l = l' /\ x = y.
Proof. apply app_inj_tail. Qed.

Lemma stored_ended fin sts : Forall ended fin -> Forall2 stored_ok fin sts ->
  forall pre e, concat sts = pre ++ [e] -> et e <> 0.
Proof.
  intros HE HS. destruct (list_rev_destruct sts) as [->|(sts0 & st & ->)].
  - intros pre e E. destruct pre; discriminate.
  - intros pre e E. apply Forall2_app_inv_r in HS as (fin0 & fin1 & _ & HS & ->).
    inversion HS as [|ep ? ? ? Hst HS']; subst. inversion HS'; subst.
    apply Forall_app in HE as [_ HE]. apply Forall_inv in HE as (pre' & e' & -> & He').
    destruct Hst as [Hst _]. rewrite concat_app in E. cbn [concat] in E. rewrite app_nil_r in E.
    destruct (list_rev_destruct st) as [->|(st0 & e0 & ->)].
    + rewrite map_app in Hst. destruct (map xt pre'); discriminate.
    + rewrite app_assoc in E. apply snoc_eq in E as [_ <-]. rewrite !map_app in Hst. apply snoc_eq in Hst as [_ Hst].
      unfold xt in Hst. injection Hst as _ ->. exact He'.
Qed.

Lemma model_reset_ok m sp d : MInv m sp d -> all_idle sp -> Forall ended (sp_fin sp) ->
  exists m', model_reset m = Ok m' /\ MInv m' sp d /\ m_timesteps m' = m_timesteps m /\ m_updates m' = m_updates m /\
    m_episodes m' = m_episodes m.
Proof.
  intros HI Hid HE. destruct (idle_part _ _ _ HI Hid) as (sts & HMem & HSt).
  destruct (MemOk_reset _ _ HMem) as (mem' & E & HM').
  rewrite close_ended in HM' by (eapply stored_ended; eauto).
  unfold AgentModel.model_reset. rewrite E. cbn [bind]. eexists. split; [reflexivity|].
  destruct (mi_len _ _ _ HI) as (L1 & L2 & L3 & L4 & L5 & L6 & L7 & L8).
  split; [|repeat split; reflexivity].
  constructor.
  - unfold lengths_ok. cbn. rewrite !map_length. repeat split; assumption.
  - intros p Hp. destruct (mi_rows _ _ _ HI p Hp) as (r & Hr & HR).
    destruct (Hid p Hp) as (E1 & E2).
    pose proof (proj1 (row_at_ok _ _ _) Hr) as (R1 & R2 & R3 & R4 & R5 & R6 & R7 & R8).
    exists (mkRow 0 0 (r_buf r) (r_tbuf r) (r_rbuf r) (r_len r) (r_ret r) (r_int r)). split.
    + apply row_at_ok. cbn [AgentModel.set_mem AgentModel.set_buffers AgentModel.m_index AgentModel.m_start AgentModel.m_buf AgentModel.m_tbuf
              AgentModel.m_rbuf AgentModel.m_len AgentModel.m_ret AgentModel.m_int r_index r_start r_buf r_tbuf r_rbuf r_len r_ret r_int].
      destruct (gather_map_ok (fun _ : Z => 0) (m_index m) p ltac:(lia)) as (i0 & _ & G1).
      destruct (gather_map_ok (fun _ : Z => 0) (m_start m) p ltac:(lia)) as (i1 & _ & G2).
      repeat split; assumption.
    + destruct HR as [HB H1 H2 H3]. destruct HB. rewrite E1 in *. unfold pending in *. rewrite E2 in *.
      constructor; try assumption; [|rewrite E1; assumption].
      constructor; cbn [r_index r_start r_buf r_tbuf r_rbuf]; unfold pending; rewrite ?E1, ?E2; cbn [length]; auto;
        try (intros k ? ? Hn; destruct k; discriminate Hn); try discriminate.
      * destruct circular; [|reflexivity]. pose proof (wf_h WF). cbn [length] in *. lia.
      * intros k e _ Hk. cbn [length] in *. lia.
      * pose proof (wf_cap1 WF). lia.
  - exists sts, []. split; [|split].
    + rewrite app_nil_r. exact HM'.
    + exact HSt.
    + destruct circular eqn:Ec; [|reflexivity]. exists 0. split; [|apply part_nil].
      cbn [AgentModel.set_mem AgentModel.set_buffers AgentModel.m_start].
      pose proof (wf_par WF). destruct (gather_map_ok (fun _ : Z => 0) (m_start m) 0 ltac:(lia)) as (i1 & _ & G2). exact G2.
  - exact (mi_eps _ _ _ HI).
Qed.

Lemma gather_const_map {A B} (l : list A) (b : B) p : 0 <= p < len l -> gather (map (fun _ => b) l) p = Ok b.
Proof. intros H. destruct (gather_map_ok (fun _ => b) l p H) as (i & _ & G). exact G. Qed.

Lemma agent_reset_ok a sp : AInv a sp -> all_idle sp ->
  exists a', agent_reset a = Ok a' /\ AInv a' sp /\ a_timesteps a' = a_timesteps a /\ a_updates a' = a_updates a.
Proof.
  intros [HC (d & HL)] Hid.
  destruct (model_reset_ok _ _ _ (li_m _ _ _ HL) Hid (li_fin _ _ _ HL)) as (m' & E & HM & Ets & Eup & Eep).
  unfold AgentModel.agent_reset. rewrite E. cbn [bind]. eexists. split; [reflexivity|].
  split; [|cbn; rewrite Ets, Eup, (li_ts _ _ _ HL), (li_up _ _ _ HL); auto].
  split.
  - constructor; cbn; rewrite ?map_length; try apply HC.
    + intros p Hp. rewrite gather_const_map by (rewrite (ci_lc _ _ HC); exact Hp). unfold completed.
      destruct (Hid p Hp) as (_ & ->). reflexivity.
    + intros p Hp. rewrite gather_const_map by (rewrite (ci_ln _ _ HC); exact Hp).
      destruct (Hid p Hp) as (-> & _). reflexivity.
  - exists d. destruct HL. constructor; cbn; rewrite ?map_length; try assumption; try reflexivity.
    + intros p Hp. rewrite gather_const_map by lia. destruct (Hid p Hp) as (-> & _). cbn. now rewrite skipn_nil.
    + intros p Hp. rewrite gather_const_map by lia. destruct (Hid p Hp) as (-> & _). cbn. now rewrite skipn_nil.
Qed.

Lemma all_idle0 : all_idle (@spec0 K St In Au Ac init_int).
Proof. intros p _. split; reflexivity. Qed.

Lemma agent_initialize_ok : exists a, agent_initialize = Ok a /\ AInv a (@spec0 K St In Au Ac init_int) /\
  a_timesteps a = 0 /\ a_updates a = 0.
Proof.
  pose proof (wf_par WF) as Hpar. pose proof (wf_cap1 WF) as Hcap. pose proof (wf_freq WF) as Hfr.
  pose proof (wf_h WF) as Hh.
  unfold AgentModel.agent_initialize, model_initialize. rewrite (wf_cap WF).
  destruct (cf_freq cf) as [f|]; [|congruence].
  destruct (run_inv zero (cf_memcap cf) []) as (mem & Em & _); [lia|constructor|].
  unfold qrun in Em. cbn [run_ops] in Em.
  destruct (queue_initialize zero (cf_memcap cf)) as [mem0|] eqn:Eq; [|discriminate]. cbn [bind] in Em. injection Em as ->.
  cbn [bind]. set (m0 := {| AgentModel.m_timesteps := 0 |}).
  assert (MInv m0 (@spec0 K St In Au Ac init_int) (fun _ => O)) as HI.
  { constructor.
    - unfold lengths_ok, m0. cbn. rewrite !repeat_length. repeat split; lia.
    - intros p Hp.
      exists (mkRow 0 0 (repeat zero_x (Z.to_nat cap)) (repeat 0 (Z.to_nat cap)) (repeat 0%F (Z.to_nat cap)) 0 0%F init_int).
      split.
      + apply row_at_ok. unfold m0. cbn. repeat split; apply gather_repeat; lia.
      + constructor; try reflexivity. constructor; unfold pending; cbn; try rewrite repeat_length; try lia; try constructor;
          try (intros k ? ? Hn; destruct k; discriminate Hn); try discriminate.
        * destruct circular; [lia|reflexivity].
    - exists [], []. split; [|split].
      + exists []. split; [constructor|]. split; [|reflexivity]. unfold qrun. rewrite Eq. reflexivity.
      + constructor.
      + destruct circular; [|reflexivity]. exists 0. split; [|apply part_nil]. unfold m0. cbn [AgentModel.m_start]. apply gather_repeat. lia.
    - reflexivity. }
  destruct (model_reset_ok _ _ _ HI all_idle0) as (m1 & E & HM & Ets & Eup & Eep); [constructor|].
  rewrite E. cbn [bind]. eexists. split; [reflexivity|]. split; [|cbn; rewrite Ets, Eup; split; reflexivity].
  split.
  - constructor; cbn; rewrite ?repeat_length; try lia; intros p Hp; apply gather_repeat; lia.
  - exists (fun _ => O). constructor; cbn; rewrite ?repeat_length; try lia; try assumption; try reflexivity;
      try (intros p Hp; apply gather_repeat; lia).
    + intros p Hp. destruct (cf_bo cf) as [b|] eqn:Eb; [|reflexivity]. pose proof (wf_bo WF b Eb). split; [lia|]. exists 0. lia.
    + intros p M Hp EM. unfold pending. cbn. pose proof (wf_cap WF) as Ec. unfold buffer_capacity in Ec. rewrite EM in Ec.
      destruct (cf_bo cf); [destruct (_ || _)|]; injection Ec as Ec; lia.
    + constructor.
Qed.

(** ** Runs *)
Notation spec_op := (@spec_op K St In Au Ac W oracle pol init_int).
Notation agent_step := (agent_step K St In Au Ac W pol init_int cf).
Notation agent_run_from := (agent_run_from K St In Au Ac W pol init_int cf).
Notation agent_run := (agent_run K St In Au Ac W pol init_int zero_x cf).
Notation event := (event K St In Au Ac).

Definition legal_op (sp : spec) (x : op) : Prop :=
  match x with
  | OAct items => NoDup (map ap items) /\ Forall (act_ok sp) items
  | OIndAct _ => True
  | OObserve items => items <> [] /\ NoDup (map ob items) /\ Forall (obs_ok sp) items
  | OExperience os items => all_idle sp /\ experience_ok os items
  | OUpdate o => legal_oracle o
  | OReset => all_idle sp
  end.
Fixpoint legal_from (sp : spec) (ops : list op) : Prop :=
  match ops with [] => True | x :: r => legal_op sp x /\ legal_from (spec_op sp x) r end.
Definition legal_run (ops : list op) : Prop := legal_from (spec0 init_int) ops.

(** What a call returns. *)
Definition event_of (sp : spec) (x : op) (e : event) : Prop :=
  match x with
  | OAct items => e = EAct K St In Au Ac (map (fun it => (ap it, acted_x sp it)) items)
  | OIndAct items => e = EIndAct K St In Au Ac (map (fun it => let '(s, i, au, w) := it in pol w s i au) items)
  | OObserve items => exists u, 0 <= u <= len items /\ e = EObserve K St In Au Ac (map fst items) u
  | OExperience _ items => e = EExperience K St In Au Ac items
  | OUpdate _ => e = EUpdate K St In Au Ac
  | OReset => e = EReset K St In Au Ac
  end.
Definition event_updates (e : event) : Z :=
  match e with EObserve _ _ _ _ _ _ u => u | EUpdate _ _ _ _ _ => 1 | _ => 0 end.

Lemma agent_step_ok a sp x : AInv a sp -> legal_op sp x ->
  (exists e, update_error e /\ agent_step a x = Err e) \/
  (exists a' ev, agent_step a x = Ok (a', ev) /\ AInv a' (spec_op sp x) /\ event_of sp x ev /\
     a_timesteps a' = a_timesteps a + op_acts x /\ a_updates a' = a_updates a + event_updates ev).
Proof.
  intros HI HL. destruct x as [items|items|items|os items|o|]; cbn [AgentModel.agent_step spec_op legal_op] in *.
  - right. destruct HL as [ND HF]. destruct (agent_act_ok a sp items HI ND HF) as (a' & E & HI' & E1 & E2).
    rewrite E. cbn [bind fst snd]. eexists. eexists. split; [reflexivity|]. split; [exact HI'|]. split; [reflexivity|].
    split; [exact E1|]. cbn [event_updates]. lia.
  - right. unfold agent_independent_act, model_independent_act. cbn [AgentModel.core_act bind fst snd].
    eexists. eexists. split; [reflexivity|]. split; [|split; [reflexivity|split; cbn; lia]].
    destruct HI as [HC (d & HL')]. split; [destruct HC; constructor; assumption|]. exists d. destruct HL'; constructor; assumption.
  - destruct HL as (Hn & ND & HF). destruct (agent_observe_ok a sp items HI Hn ND HF) as [(e & He & E)|(a' & u & E & HI' & Hu & E1 & E2)];
      rewrite E; cbn [bind fst snd].
    + left. exists e. auto.
    + right. eexists. eexists. split; [reflexivity|]. split; [exact HI'|]. split; [exists u; auto|].
      cbn [event_updates op_acts]. split; [lia|exact E2].
  - right. destruct HL as [Hid Hx]. destruct (agent_experience_ok os a sp items HI Hid Hx) as (a' & E & HI' & E1 & E2).
    rewrite E. cbn [bind]. eexists. eexists. split; [reflexivity|]. split; [exact HI'|]. split; [reflexivity|].
    cbn [event_updates op_acts]. split; [exact E1|lia].
  - destruct (agent_update_ok o a sp HI) as [(e & He & E)|(a' & E & HI' & E1 & E2)]; rewrite E; cbn [bind].
    + left. exists e. auto.
    + right. eexists. eexists. split; [reflexivity|]. split; [exact HI'|]. split; [reflexivity|].
      cbn [event_updates op_acts]. split; [lia|exact E2].
  - right. destruct (agent_reset_ok a sp HI HL) as (a' & E & HI' & E1 & E2). rewrite E. cbn [bind].
    eexists. eexists. split; [reflexivity|]. split; [exact HI'|]. split; [reflexivity|].
    cbn [event_updates op_acts]. split; lia.
Qed.

Fixpoint events_of (sp : spec) (ops : list op) (evs : list event) : Prop :=
  match ops, evs with
  | [], [] => True
  | x :: ops', e :: evs' => event_of sp x e /\ events_of (spec_op sp x) ops' evs'
  | _, _ => False
  end.
Definition updates_of (evs : list event) : Z := fold_right (fun e n => event_updates e + n) 0 evs.

Lemma agent_run_from_ok ops : forall a sp, AInv a sp -> legal_from sp ops ->
  (exists e, update_error e /\ agent_run_from a ops = Err e) \/
  (exists a' evs, agent_run_from a ops = Ok (a', evs) /\ AInv a' (fold_left spec_op ops sp) /\
     events_of sp ops evs /\
     a_timesteps a' = a_timesteps a + total_acts ops /\ a_updates a' = a_updates a + updates_of evs).
Proof.
  induction ops as [|x ops IH]; intros a sp HI HL.
  - right. exists a, []. cbn. repeat (split; [auto|]); lia.
  - destruct HL as [H1 H2]. cbn [AgentModel.agent_run_from fold_left].
    destruct (agent_step_ok a sp x HI H1) as [(e & He & E)|(a1 & ev & E & HI1 & Hev & E1 & E2)]; rewrite E; cbn [bind].
    + left. exists e. auto.
    + cbn [fst snd]. destruct (IH a1 _ HI1 H2) as [(e & He & E')|(a2 & evs & E' & HI2 & Hevs & E3 & E4)]; rewrite E'; cbn [bind].
      * left. exists e. auto.
      * right. exists a2, (ev :: evs). split; [reflexivity|]. split; [exact HI2|]. split; [split; [exact Hev|exact Hevs]|].
        cbn [total_acts fold_right updates_of]. unfold total_acts in E3. unfold updates_of in E4. lia.
Qed.

Lemma agent_run_ok ops : legal_run ops ->
  (exists e, update_error e /\ agent_run ops = Err e) \/
  (exists a evs, agent_run ops = Ok (a, evs) /\ AInv a (spec_of pol init_int ops) /\
     events_of (spec0 init_int) ops evs /\
     a_timesteps a = total_acts ops /\ a_updates a = updates_of evs).
Proof.
  intros HL. destruct agent_initialize_ok as (a0 & E0 & HI0 & T0 & U0).
  unfold AgentModel.agent_run. rewrite E0. cbn [bind].
  destruct (agent_run_from_ok ops a0 _ HI0 HL) as [H|(a & evs & E & HI & Hev & E1 & E2)]; [left; exact H|].
  right. exists a, evs. split; [exact E|]. split; [exact HI|]. split; [exact Hev|]. split; lia.
Qed.

End AgentInv.
