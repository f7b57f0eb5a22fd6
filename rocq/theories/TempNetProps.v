(** C111-C112: recurrent layers in layered networks. *)
From Coq Require Import String List ZArith Lia Bool.
From Verif Require Import Base TempModel TempSpec TempProofs TempProps.
Import ListNotations.
Open Scope Z_scope.

(** ** Runs of the loop on an input that may be too short *)
Section Range.
Context {X Y S : Type}.
Variable r : rnn X Y S.

Lemma row_run : forall xs k (w w' : trow Y S), iterate_res k (row_body r xs) w = Ok w' -> 1 <= t_rem w ->
  t_rem w' = Z.max 0 (t_rem w - Z.of_nat k) /\
  t_idx w' = t_idx w + Z.min (Z.of_nat k) (t_rem w - 1).
Proof.
  intros xs k. induction k as [|k IH]; intros w w' E H; cbn [iterate_res] in E.
  - inversion E; subst. lia.
  - destruct (row_body r xs w) as [v|] eqn:Ev; cbn [bind] in E; [|discriminate].
    unfold row_body in Ev. destruct (gather xs (t_idx w)); cbn [bind] in Ev; [|discriminate].
    destruct (cell_apply r a (t_int w)) as [[y s]|]; cbn [bind] in Ev; [|discriminate].
    destruct (Z.eqb_spec (t_rem w) 0); [lia|]. inversion Ev; subst v. clear Ev.
    destruct (Z.eqb_spec (t_rem w - 1) 0) as [E1|E1].
    + assert (HF : forall k u u', iterate_res k (row_body r xs) u = Ok u' -> t_rem u = 0 -> t_rem u' = 0 /\ t_idx u' = t_idx u).
      { clear. induction k as [|k IH]; intros u u' E Hu; cbn [iterate_res] in E; [inversion E; subst; auto|].
        destruct (row_body r xs u) as [v|] eqn:Ev; cbn [bind] in E; [|discriminate].
        unfold row_body in Ev. destruct (gather xs (t_idx u)); cbn [bind] in Ev; [|discriminate].
        destruct (cell_apply r a (t_int u)) as [[y s]|]; cbn [bind] in Ev; [|discriminate].
        rewrite Hu in Ev. cbn [Z.eqb Z.sub Z.opp Z.add] in Ev. inversion Ev; subst v. apply IH in E; cbn [t_rem t_idx] in *; [|reflexivity].
        destruct E. split; lia. }
      apply HF in E; cbn [t_rem t_idx] in *; lia.
    + apply IH in E; cbn [t_rem t_idx] in *; lia.
Qed.

Lemma iterate_split : forall A (f : A -> res A) k n a b, (k <= n)%nat -> iterate_res n f a = Ok b ->
  exists c, iterate_res k f a = Ok c /\ iterate_res (n - k) f c = Ok b.
Proof.
  intros A f k. induction k as [|k IH]; intros n a b Hk E.
  - exists a. split; [reflexivity|]. now rewrite Nat.sub_0_r.
  - destruct n as [|n]; [lia|]. cbn [iterate_res] in *. destruct (f a) as [a'|]; cbn [bind] in *; [|discriminate].
    apply IH; [lia|exact E].
Qed.

Lemma row_in_range : forall xs n (w w' : trow Y S), iterate_res n (row_body r xs) w = Ok w' ->
  1 <= t_rem w <= Z.of_nat n -> t_idx w + t_rem w - 1 < Z.of_nat (length xs).
Proof.
  intros xs n w w' E [H1 H2].
  destruct (iterate_split _ _ (Z.to_nat (t_rem w - 1)) n w w' ltac:(lia) E) as (v & E1 & E2).
  apply row_run in E1; [|exact H1].
  replace (n - Z.to_nat (t_rem w - 1))%nat with (Datatypes.S (n - Z.to_nat (t_rem w - 1) - 1)) in E2 by lia.
  cbn [iterate_res] in E2. destruct (row_body r xs v) eqn:Ev; cbn [bind] in E2; [|discriminate].
  unfold row_body in Ev. destruct (gather xs (t_idx v)) eqn:Eg; cbn [bind] in Ev; [|discriminate].
  unfold gather in Eg. destruct (Z.ltb_spec (t_idx v) 0); [discriminate|].
  assert (Hn : nth_error xs (Z.to_nat (t_idx v)) <> None) by (destruct (nth_error xs (Z.to_nat (t_idx v))); [discriminate|discriminate Eg]).
  apply nth_error_Some in Hn. lia.
Qed.

Lemma map_res_length : forall A B (f : A -> res B) l l', map_res f l = Ok l' -> length l' = length l.
Proof.
  intros A B f. induction l as [|a l IH]; intros l' E; cbn [map_res] in E; [now inversion E|].
  destruct (f a); cbn [bind] in E; [|discriminate]. destruct (map_res f l); cbn [bind] in E; [|discriminate].
  inversion E; subst. cbn [length]. now rewrite (IH _ eq_refl).
Qed.

Lemma map_res_nth : forall A B (f : A -> res B) l l' i a, map_res f l = Ok l' -> nth_error l i = Some a ->
  exists b, f a = Ok b /\ nth_error l' i = Some b.
Proof.
  intros A B f. induction l as [|x l IH]; intros l' i a E H; [destruct i; discriminate|]. cbn [map_res] in E.
  destruct (f x) eqn:Ex; cbn [bind] in E; [|discriminate]. destruct (map_res f l); cbn [bind] in E; [|discriminate].
  inversion E; subst. destruct i as [|i]; cbn [nth_error] in *.
  - inversion H; subst. eauto. - now apply (IH _ i a eq_refl).
Qed.

Lemma iterate_rows : forall A (f : A -> res A) n l l' i a, iterate_res n (map_res f) l = Ok l' -> nth_error l i = Some a ->
  length l' = length l /\ exists b, iterate_res n f a = Ok b /\ nth_error l' i = Some b.
Proof.
  intros A f. induction n as [|n IH]; intros l l' i a E H; cbn [iterate_res] in *.
  - inversion E; subst. eauto.
  - destruct (map_res f l) as [l1|] eqn:E1; cbn [bind] in E; [|discriminate].
    destruct (map_res_nth _ _ f l l1 i a E1 H) as (b & Eb & Hb). rewrite Eb. cbn [bind].
    destruct (IH l1 l' i b E Hb) as [HL HX]. split; [|exact HX]. rewrite HL. now apply (map_res_length _ _ f).
Qed.

Lemma init_rows_nth : forall is ls (ss : list S) rows i a l, init_rows r is ls ss = Ok rows ->
  length rows = length is /\
  (nth_error is i = Some a -> nth_error ls i = Some l -> exists s, nth_error rows i = Some (mkTrow a l (r_zero r) s)).
Proof.
  induction is as [|x is IH]; intros [|y ls] [|z ss] rows i a l E; cbn [init_rows] in E; try discriminate.
  - inversion E; subst. split; [reflexivity|]. intros H. destruct i; discriminate.
  - destruct (init_rows r is ls ss) as [rest|] eqn:E0; cbn [bind] in E; [|discriminate]. inversion E; subst.
    destruct i as [|i].
    + split; [cbn; f_equal; exact (proj1 (IH ls ss rest 0%nat a l E0))|]. cbn. intros H1 H2. inversion H1; inversion H2; subst. eauto.
    + destruct (IH ls ss rest i a l E0) as [H1 H2]. split; [cbn; congruence|]. exact H2.
Qed.

Lemma iterate_nil : forall A (f : A -> res A) n l', iterate_res n (map_res f) [] = Ok l' -> l' = [].
Proof. intros A f. induction n; intros l' E; cbn in E; [now inversion E|auto]. Qed.

Lemma flat_length : forall qs : list (@sequence X), length (flat qs) = fold_right Nat.add 0%nat (map seq_length qs).
Proof.
  induction qs as [|q qs IH]; [reflexivity|]. unfold flat in *. cbn [map concat fold_right].
  rewrite app_length, inputs_length, IH. reflexivity.
Qed.

Lemma placed_last : forall (qs : list (@sequence X)) a n, qs <> [] ->
  exists p, nth_error (placed a n qs) (length qs - 1) = Some p /\
    fst p + Z.of_nat (seq_length (snd p)) = a + Z.of_nat (length (flat qs)) /\ In (snd p) (map (restrict n) qs).
Proof.
  induction qs as [|q qs IH]; intros a n H; [congruence|].
  pose proof (restrict_length n q). rewrite flat_length. cbn [map fold_right placed].
  destruct qs as [|q' qs'].
  - cbn [length Nat.sub nth_error]. eexists. split; [reflexivity|]. cbn [fst snd map fold_right]. split; [lia|now left].
  - destruct (IH (a + Z.of_nat (seq_length q)) n ltac:(discriminate)) as (p & Hp & Ep & Hin).
    exists p. split; [|split; [|now right]].
    + cbn [length] in *. replace (Datatypes.S (Datatypes.S (length qs')) - 1)%nat with (Datatypes.S (Datatypes.S (length qs') - 1)) by lia.
      exact Hp.
    + rewrite Ep, flat_length. lia.
Qed.

(** A successful application has an output per sequence and an input for every
    position of every sequence. *)
Lemma apply_needs_inputs : forall xs (qs : list (@sequence X)) ss ys ss' n,
  is_const0 (r_horizon r) = false -> hvalue (r_horizon r) = Z.of_nat n ->
  rnn_apply r xs (places qs) ss = Ok (ys, ss') ->
  length ys = length qs /\ (length (flat qs) <= length xs)%nat.
Proof.
  intros xs qs ss ys ss' n Hc Hv E. unfold rnn_apply in E.
  destruct (temporal_apply r xs (places qs) ss) as [[y1 s1]|] eqn:E1; cbn [bind fst snd] in E; [|discriminate].
  destruct (map_res (trans_apply (r_trans r)) y1) as [y2|] eqn:E2; cbn [bind] in E; [|discriminate].
  inversion E; subst y2 ss'. clear E. apply map_res_length in E2. rewrite E2. clear E2 ys.
  unfold temporal_apply in E1. rewrite Hc, Hv in E1. cbv zeta in E1.
  destruct (init_rows r _ _ ss) as [rows|] eqn:E0; cbn [bind] in E1; [|discriminate].
  unfold places in E1 at 1. rewrite iterations in E1.
  destruct (iterate_res _ _ rows) as [rows'|] eqn:EI; cbn [bind] in E1; [|discriminate].
  match type of E1 with (do _ <- ?c; _) = _ => destruct c; cbn [bind] in E1; [|discriminate] end.
  destruct (map_res (super_apply (r_trans r)) (map t_x rows')) as [out|] eqn:EO; cbn [bind] in E1; [|discriminate].
  inversion E1; subst out. apply map_res_length in EO. rewrite map_length in EO.
  unfold places in E0. destruct (placed_trim qs 0 n) as [T1 T2]. rewrite T1, T2 in E0.
  assert (HL : length rows = length qs).
  { destruct (init_rows_nth _ _ _ _ 0%nat 0 0 E0) as [HL _]. now rewrite map_length, placed_length in HL. }
  destruct qs as [|q0 qs0]; [destruct rows; [|discriminate HL]; apply iterate_nil in EI; subst rows'; split; [exact EO|cbn; lia]|].
  set (qs := q0 :: qs0) in *.
  destruct (placed_last qs 0 n ltac:(discriminate)) as (p & Hp & Ep & Hin).
  destruct (init_rows_nth _ _ _ _ (length qs - 1)%nat (fst p) (Z.of_nat (seq_length (snd p))) E0) as [_ HR].
  destruct HR as (s0 & HR); [rewrite nth_error_map, Hp; reflexivity|rewrite nth_error_map, Hp; reflexivity|].
  destruct (iterate_rows _ _ _ _ _ _ _ EI HR) as [HL' (w' & Ew & _)].
  split; [congruence|].
  apply row_in_range in Ew; cbn [t_idx t_rem] in *.
  - lia.
  - pose proof (seq_length_pos (snd p)). split; [lia|]. apply inj_le. unfold longest. apply max_ge. apply in_map. exact Hin.
Qed.
End Range.

Section Networks.
Context {V S : Type}.
Implicit Types (r : rnn V V S) (st : @nstate V S).

Lemma net_list_nil : forall h st, net_apply h (NList []) st = Ok st.
Proof. reflexivity. Qed.

Lemma net_list_cons : forall h (l : @nlayer V S) ls st,
  net_apply h (NList (l :: ls)) st = bind (net_apply h l st) (net_apply h (NList ls)).
Proof. reflexivity. Qed.

Lemma net_list_app : forall h (l1 l2 : list (@nlayer V S)) st,
  net_apply h (NList (l1 ++ l2)) st = bind (net_apply h (NList l1) st) (net_apply h (NList l2)).
Proof.
  intros h l1 l2. induction l1 as [|l l1 IH]; intros st; [reflexivity|].
  rewrite <- app_comm_cons, !net_list_cons. destruct (net_apply h l st) as [st'|]; cbn [bind]; [apply IH|reflexivity].
Qed.

Lemma net_temporal : forall h n r st, net_apply h (NTemporal n r) st =
  if n_check st
  then Err "TensorforceError: Multiple successive temporal layers like RNNs are currently not supported."
  else match nlookup n (n_int st) with
       | None => Err "KeyError"
       | Some s => do xi <- rnn_apply r (n_x st) h s;
                   Ok (mkNs (fst xi) (n_reg st) (nset n (snd xi) (n_int st)) true)
       end.
Proof. reflexivity. Qed.
Lemma net_register : forall h t st, net_apply h (NRegister t) st =
  match nlookup t (n_reg st) with
  | Some _ => Err "TensorforceError: registered tensor exists"
  | None => Ok (mkNs (n_x st) (nset t (n_x st) (n_reg st)) (n_int st) (n_check st))
  end.
Proof. reflexivity. Qed.
Lemma net_retrieve : forall h ts agg st, net_apply h (NRetrieve ts agg) st =
  do bs <- retrieve_all ts (n_reg st);
  do x <- retrieve_apply agg bs;
  Ok (mkNs x (n_reg st) (n_int st) false).
Proof. reflexivity. Qed.
Lemma net_plain : forall h f st, net_apply h (NPlain f) st =
  do x <- f (n_x st); Ok (mkNs x (n_reg st) (n_int st) (n_check st)).
Proof. reflexivity. Qed.

(** Layers other than Retrieve and recurrent ones. *)
Definition ordinary (l : @nlayer V S) : Prop := (exists f, l = NPlain f) \/ (exists t, l = NRegister t).

Lemma ordinary_check : forall h (ls : list (@nlayer V S)) st st', Forall ordinary ls ->
  net_apply h (NList ls) st = Ok st' -> n_check st' = n_check st.
Proof.
  intros h ls. induction ls as [|l ls IH]; intros st st' HF E; [now inversion E|].
  rewrite net_list_cons in E. inversion HF as [|? ? Ho HF']; subst.
  destruct (net_apply h l st) as [s1|] eqn:E1; cbn [bind] in E; [|discriminate].
  rewrite (IH _ _ HF' E). destruct Ho as [[f ->]|[t ->]]; cbn [net_apply] in E1.
  - destruct (f (n_x st)); cbn [bind] in E1; [|discriminate]. now inversion E1.
  - destruct (nlookup t (n_reg st)); [discriminate|]. now inversion E1.
Qed.
End Networks.

(** ** C111 *)
(** Two recurrent layers with only ordinary layers in between never compute
    anything, whatever comes before and after and whatever the batch is. *)
Theorem C111_check : forall V S (l1 mid l2 : list (@nlayer V S)) n1 r1 n2 r2 outputs registered x horizons internals,
  Forall ordinary mid ->
  exists e, network_apply (l1 ++ NTemporal n1 r1 :: mid ++ NTemporal n2 r2 :: l2) outputs registered x horizons internals = Err e.
Proof.
  intros V S l1 mid l2 n1 r1 n2 r2 outputs registered x horizons internals HF. unfold network_apply.
  rewrite net_list_app. destruct (net_apply horizons (NList l1) _) as [s1|e]; cbn [bind]; [|now eexists].
  rewrite net_list_cons. rewrite net_temporal.
  destruct (n_check s1); cbn [bind]; [now eexists|].
  destruct (nlookup n1 (n_int s1)) as [i1|]; cbn [bind]; [|now eexists].
  destruct (rnn_apply r1 (n_x s1) horizons i1) as [xi|e]; cbn [bind]; [|now eexists].
  rewrite net_list_app. destruct (net_apply horizons (NList mid) _) as [s2|e] eqn:E2; cbn [bind]; [|now eexists].
  apply ordinary_check in E2; [|exact HF]. cbn [n_check] in E2.
  rewrite net_list_cons. rewrite net_temporal. rewrite E2. cbn [bind]. now eexists.
Qed.
Print Assumptions C111_check.

Lemma flat_longer : forall X (qs : list (@sequence X)),
  (length qs <= length (flat qs))%nat /\ (Exists (fun q => (2 <= seq_length q)%nat) qs -> (length qs < length (flat qs))%nat).
Proof.
  intros X qs. rewrite flat_length. induction qs as [|q qs [IH1 IH2]]; cbn [map fold_right length].
  - split; [lia|]. intros H. inversion H.
  - pose proof (seq_length_pos q). split; [lia|]. intros H'. inversion H' as [? ? Hq|? ? Hr]; subst; [lia|]. specialize (IH2 Hr). lia.
Qed.

Lemma nlookup_nset_same : forall B k (b : B) d, nlookup k (nset k b d) = Some b.
Proof.
  intros B k b d. induction d as [|[k' b'] d IH]; cbn [nset nlookup]; [now rewrite String.eqb_refl|].
  destruct (String.eqb k k') eqn:E; cbn [nlookup]; [now rewrite String.eqb_refl|now rewrite E].
Qed.

Lemma nlookup_nset_other : forall B k k' (b : B) d, k' <> k -> nlookup k' (nset k b d) = nlookup k' d.
Proof.
  intros B k k' b d Hn. apply String.eqb_neq in Hn. induction d as [|[k1 b1] d IH]; cbn [nset nlookup]; [now rewrite Hn|].
  destruct (String.eqb k k1) eqn:E; cbn [nlookup].
  - apply String.eqb_eq in E. subst k1. now rewrite Hn.
  - destruct (String.eqb k' k1); [reflexivity|exact IH].
Qed.

Lemma outputs_none : forall outputs registered, layered_outputs outputs registered = None.
Proof. reflexivity. Qed.

Lemma ones_flat : forall X (qs : list (@sequence X)), Forall (fun q => seq_length q = 1%nat) qs ->
  flat qs = map snd qs /\ map (fun x => ([], x)) (map snd qs) = qs.
Proof.
  intros X qs H. induction H as [|[h c] qs E _ [IH1 IH2]]; [now split|].
  destruct h; [|discriminate E]. unfold flat in *. cbn. rewrite IH1. split; [reflexivity|]. now rewrite IH2.
Qed.

(** One step of the cell on every row. *)
Definition step_rows {V S} (r : rnn V V S) (xs : list V) (ss : list S) : list V * list S :=
  (map (fun d => once (r_trans r) (once (r_trans r) (fst (r_cell r (fst d) (snd d))))) (combine xs ss),
   map (fun d => snd (r_cell r (fst d) (snd d))) (combine xs ss)).

Lemma step_rows_ok : forall V S (r : rnn V V S) (qs : list (@sequence V)) xs ss n,
  usable r -> is_const0 (r_horizon r) = false -> hvalue (r_horizon r) = Z.of_nat n ->
  Forall (fun q => seq_length q = 1%nat) qs -> length qs = length xs -> length qs = length ss ->
  rnn_apply r xs (places qs) ss = Ok (step_rows r xs ss).
Proof.
  intros V S r qs xs ss n Hu Hc Hv H1 Hx Hs.
  assert (EP : places qs = places (map (fun x : V => ([], x)) xs)).
  { unfold places. generalize 0 as a. clear Hs. revert xs Hx. induction H1 as [|q qs E _ IH]; intros [|x xs] Hx a; try discriminate; [reflexivity|].
    cbn [map places_from]. rewrite E. cbn [seq_length fst length]. f_equal. apply IH. cbn in Hx. lia. }
  assert (HF : Forall (fun q : @sequence V => seq_length q = 1%nat) (map (fun x : V => ([], x)) xs)).
  { apply Forall_forall. intros q Hin. apply in_map_iff in Hin. destruct Hin as (x & <- & _). reflexivity. }
  assert (EX : xs = flat (map (fun x : V => ([], x)) xs)).
  { destruct (ones_flat _ _ HF) as [-> _]. rewrite map_map. cbn [snd]. symmetry. apply map_id. }
  rewrite EP. rewrite EX at 1.
  rewrite (C105_equal_lengths_partial _ _ _ r _ ss n 1 Hu Hc Hv); [|rewrite map_length; congruence|lia|exact HF].
  unfold step_rows. f_equal. f_equal.
  - clear. revert ss. induction xs as [|x xs IH]; intros [|s ss]; cbn; try reflexivity. f_equal. apply IH.
  - clear. revert ss. induction xs as [|x xs IH]; intros [|s ss]; cbn; try reflexivity. f_equal. apply IH.
Qed.

(** The check can be passed by by registering and retrieving the output of the
    first recurrent layer.  Such a network works as long as every sequence has
    length 1, so in particular while acting, and fails on every batch which has a
    longer sequence, so in updates. *)
Theorem C111_hidden_refuted : forall V S (r1 r2 : rnn V V S) a agg n1 n2 k1 k2 (qs : list (@sequence V)) s1 s2 outputs registered internals,
  usable r1 -> is_const0 (r_horizon r1) = false -> hvalue (r_horizon r1) = Z.of_nat k1 ->
  usable r2 -> is_const0 (r_horizon r2) = false -> hvalue (r_horizon r2) = Z.of_nat k2 ->
  a <> "state"%string -> n1 <> n2 ->
  nlookup n1 internals = Some s1 -> nlookup n2 internals = Some s2 -> length qs = length s1 -> length qs = length s2 ->
  let layers := [NTemporal n1 r1; NRegister a; NRetrieve [a] agg; NTemporal n2 r2] in
  (Forall (fun q => seq_length q = 1%nat) qs ->
   exists internals',
     network_apply layers outputs registered (flat qs) (places qs) internals =
       Ok ([("embedding"%string, fst (step_rows r2 (fst (step_rows r1 (map snd qs) s1)) s2))], internals') /\
     nlookup n1 internals' = Some (snd (step_rows r1 (map snd qs) s1)) /\
     nlookup n2 internals' = Some (snd (step_rows r2 (fst (step_rows r1 (map snd qs) s1)) s2))) /\
  (Exists (fun q => (2 <= seq_length q)%nat) qs ->
   exists e, network_apply layers outputs registered (flat qs) (places qs) internals = Err e).
Proof.
  intros V S r1 r2 a agg n1 n2 k1 k2 qs s1 s2 outputs registered internals Hu1 Hc1 Hv1 Hu2 Hc2 Hv2 Ha Hn L1 L2 E1 E2 layers.
  assert (Ha' : String.eqb a "state" = false) by now apply String.eqb_neq.
  assert (EG : forall s1', nlookup n2 (nset n1 s1' internals) = Some s2) by (intros; rewrite nlookup_nset_other; congruence).
  assert (EA : forall B (b c : B), nlookup a (nset a b [("state"%string, c)]) = Some b) by (intros; apply nlookup_nset_same).
  unfold network_apply. subst layers. rewrite !net_list_cons. rewrite ?net_temporal, ?net_register, ?net_retrieve, ?net_plain; cbn [n_check n_int n_x n_reg]. rewrite L1.
  split.
  - intros H1. destruct (ones_flat _ _ H1) as [-> EQ].
    rewrite (step_rows_ok _ _ r1 qs (map snd qs) s1 k1) by (rewrite ?map_length; auto).
    set (x1 := step_rows r1 (map snd qs) s1). cbn [bind n_reg n_x n_int n_check fst snd].
    rewrite net_list_cons, ?net_temporal, ?net_register, ?net_retrieve, ?net_plain; cbn [n_reg n_x n_int n_check nlookup]. rewrite Ha'. cbn [bind].
    rewrite net_list_cons, ?net_temporal, ?net_register, ?net_retrieve, ?net_plain; cbn [n_reg n_x n_int n_check retrieve_all]. rewrite EA. cbn [bind retrieve_apply].
    rewrite net_list_cons, ?net_temporal, ?net_register, ?net_retrieve, ?net_plain; cbn [n_reg n_x n_int n_check]. rewrite EG.
    assert (HX : length (fst x1) = length qs).
    { subst x1. unfold step_rows. cbn [fst]. rewrite map_length, combine_length, map_length.
      transitivity (Nat.min (length qs) (length qs)); [f_equal; symmetry; exact E1|apply Nat.min_id]. }
    rewrite (step_rows_ok _ _ r2 qs (fst x1) s2 k2) by auto.
    cbn [bind]; rewrite net_list_nil; cbn [bind n_x n_reg n_int fst snd]. rewrite outputs_none. cbn [requested bind].
    eexists. split; [reflexivity|]. split.
    + rewrite nlookup_nset_other by congruence. apply nlookup_nset_same.
    + apply nlookup_nset_same.
  - intros H2. apply flat_longer in H2.
    destruct (rnn_apply r1 (flat qs) (places qs) s1) as [[ys s1']|e] eqn:ER1; cbn [bind]; [|now eexists].
    apply (apply_needs_inputs r1 _ _ _ _ _ k1 Hc1 Hv1) in ER1. destruct ER1 as [EL _].
    rewrite net_list_cons, ?net_temporal, ?net_register, ?net_retrieve, ?net_plain; cbn [n_reg n_x n_int n_check nlookup fst snd]. rewrite Ha'. cbn [bind].
    rewrite net_list_cons, ?net_temporal, ?net_register, ?net_retrieve, ?net_plain; cbn [n_reg n_x n_int n_check retrieve_all]. rewrite EA. cbn [bind retrieve_apply].
    rewrite net_list_cons, ?net_temporal, ?net_register, ?net_retrieve, ?net_plain; cbn [n_reg n_x n_int n_check]. rewrite EG.
    destruct (rnn_apply r2 ys (places qs) s2) as [[zs s2']|e] eqn:ER2; cbn [bind]; [|now eexists].
    apply (apply_needs_inputs r2 _ _ _ _ _ k2 Hc2 Hv2) in ER2. lia.
Qed.
Print Assumptions C111_hidden_refuted.

(** Two branches of which only one has a recurrent layer, joined afterwards: the
    same. *)
Theorem C111_branches_refuted : forall V S (f : V -> V) (r : rnn V V S) a b agg g1 g2 name k qs s outputs registered internals,
  usable r -> is_const0 (r_horizon r) = false -> hvalue (r_horizon r) = Z.of_nat k ->
  a <> "state"%string -> b <> "state"%string -> a <> b ->
  nlookup name internals = Some s -> length qs = length s ->
  let layers := [NList [NRetrieve ["state"%string] g1; NPlain (fun xs => Ok (map f xs)); NRegister a];
                 NList [NRetrieve ["state"%string] g2; NTemporal name r; NRegister b];
                 NRetrieve [a; b] agg] in
  (Forall (fun q => seq_length q = 1%nat) qs ->
   exists e internals',
     network_apply layers outputs registered (flat qs) (places qs) internals = Ok ([("embedding"%string, e)], internals') /\
     nlookup name internals' = Some (snd (step_rows r (map snd qs) s)) /\
     e = map (fun d => agg [f (fst d); snd d]) (combine (map snd qs) (fst (step_rows r (map snd qs) s)))) /\
  (Exists (fun q => (2 <= seq_length q)%nat) qs ->
   exists e, network_apply layers outputs registered (flat qs) (places qs) internals = Err e).
Proof.
  intros V S f r a b agg g1 g2 name k qs s outputs registered internals Hu Hc Hv Ha Hb Hab L E layers.
  assert (Ha' : String.eqb a "state" = false) by now apply String.eqb_neq.
  assert (Hb' : String.eqb b "state" = false) by now apply String.eqb_neq.
  assert (Hab' : String.eqb b a = false) by (apply String.eqb_neq; congruence).
  assert (Hba' : String.eqb a b = false) by now apply String.eqb_neq.
  assert (Hs' : String.eqb "state" a = false) by (apply String.eqb_neq; congruence).
  assert (Hs'' : String.eqb "state" b = false) by (apply String.eqb_neq; congruence).
  assert (Ess : String.eqb "state" "state" = true) by apply String.eqb_refl.
  assert (E1 : forall g (t : list V), retrieve_apply g [t] = Ok t) by reflexivity.
  assert (EN : net_apply (places qs) (NList layers) (mkNs (flat qs) [("state"%string, flat qs)] internals false) =
    do xi <- rnn_apply r (flat qs) (places qs) s;
    do x <- retrieve_apply agg [map f (flat qs); fst xi];
    Ok (mkNs x [("state"%string, flat qs); (a, map f (flat qs)); (b, fst xi)] (nset name (snd xi) internals) false)).
  { subst layers.
    repeat (progress (cbn [net_apply n_x n_reg n_int n_check retrieve_all nlookup nset bind];
      rewrite ?Ess, ?E1, ?L, ?Ha')).
    destruct (rnn_apply r (flat qs) (places qs) s) as [[ys s']|]; [|reflexivity].
    repeat (progress (cbn [net_apply n_x n_reg n_int n_check retrieve_all nlookup nset bind fst snd];
      rewrite ?Ess, ?E1, ?L, ?Ha', ?Hb', ?Hab', ?String.eqb_refl)).
    destruct (retrieve_apply agg [map f (flat qs); ys]); reflexivity. }
  unfold network_apply. rewrite EN. clear EN. subst layers.
  assert (EZ : forall u v : list V, length u = length v ->
    retrieve_apply agg [u; v] = Ok (map (fun d => agg [fst d; snd d]) (combine u v))).
  { intros u v El. unfold retrieve_apply. cbn [forallb]. rewrite <- El, !Nat.eqb_refl. cbn [andb]. f_equal.
    clear -El. revert v El. induction u as [|x u IH]; intros [|y v] El; try discriminate; [reflexivity|].
    cbn. f_equal. apply IH. cbn in El. lia. }
  split.
  - intros H1. destruct (ones_flat _ _ H1) as [EF EQ]. 
    assert (ER : rnn_apply r (flat qs) (places qs) s = Ok (step_rows r (map snd qs) s)).
    { rewrite EF. apply (step_rows_ok _ _ r qs (map snd qs) s k); rewrite ?map_length; auto. }
    rewrite ER. set (x1 := step_rows r (map snd qs) s). cbn [bind].
    assert (HX : length (fst x1) = length qs).
    { subst x1. unfold step_rows. cbn [fst]. rewrite map_length, combine_length, map_length.
      transitivity (Nat.min (length qs) (length qs)); [f_equal; symmetry; exact E|apply Nat.min_id]. }
    rewrite EZ by (rewrite map_length, EF, map_length; symmetry; exact HX).
    cbn [bind n_x n_reg n_int]. rewrite outputs_none. cbn [requested bind].
    eexists. eexists. split; [reflexivity|]. split; [apply nlookup_nset_same|].
    rewrite EF. clear. generalize (map snd qs) (fst x1). induction l as [|v l IH]; intros [|y ys]; cbn; try reflexivity. f_equal. apply IH.
  - intros H2. apply flat_longer in H2.
    destruct (rnn_apply r (flat qs) (places qs) s) as [[ys s']|e] eqn:ER; cbn [bind fst snd]; [|now eexists].
    apply (apply_needs_inputs r _ _ _ _ _ k Hc Hv) in ER. destruct ER as [EL _].
    unfold retrieve_apply. cbn [forallb]. rewrite Nat.eqb_refl, map_length. cbn [andb].
    destruct (Nat.eqb (length ys) (length (flat qs))) eqn:EB; [apply Nat.eqb_eq in EB; lia|].
    cbn [andb bind]. now eexists.
Qed.
Print Assumptions C111_branches_refuted.

Lemma flat_map_rows : forall X Y (f : X -> Y) (qs : list (@sequence X)),
  flat (map (fun q => (map f (fst q), f (snd q))) qs) = map f (flat qs).
Proof.
  intros X Y f qs. unfold flat. induction qs as [|q qs IH]; [reflexivity|]. cbn [map concat].
  rewrite map_app, IH. unfold inputs. cbn [fst snd]. now rewrite map_app.
Qed.
Lemma places_map_rows : forall X Y (f : X -> Y) (qs : list (@sequence X)),
  places (map (fun q => (map f (fst q), f (snd q))) qs) = places qs.
Proof.
  intros X Y f qs. unfold places. generalize 0. induction qs as [|q qs IH]; intros a; [reflexivity|]. cbn [map places_from].
  unfold seq_length at 1 2. cbn [fst]. rewrite map_length. fold (seq_length q). f_equal. apply IH.
Qed.
Lemma longest_map_rows : forall X Y (f : X -> Y) (qs : list (@sequence X)),
  longest (map (fun q => (map f (fst q), f (snd q))) qs) = longest qs.
Proof.
  intros X Y f qs. unfold longest. rewrite map_map. f_equal. apply map_ext. intros q. unfold seq_length. cbn [fst]. now rewrite map_length.
Qed.

(** One recurrent layer between layers that work row by row: every row of the
    longest sequences has the composition, the new states are those after reading
    the transformed sequences, and no other internal changes. *)
Theorem C111_sequential : forall V S (f g : V -> V) (r : rnn V V S) name n qs s outputs registered internals,
  usable r -> is_const0 (r_horizon r) = false -> hvalue (r_horizon r) = Z.of_nat n ->
  Forall (fun q => (seq_length q <= Datatypes.S n)%nat) qs ->
  nlookup name internals = Some s -> length qs = length s ->
  exists e internals',
    network_apply [NPlain (fun xs => Ok (map f xs)); NTemporal name r; NPlain (fun xs => Ok (map g xs))]
      outputs registered (flat qs) (places qs) internals = Ok ([("embedding"%string, e)], internals') /\
    length e = length qs /\
    (forall i q si, nth_error qs i = Some q -> nth_error s i = Some si -> seq_length q = longest qs ->
       nth_error e i = Some (g (once (r_trans r) (once (r_trans r)
         (output_after (r_cell r) si (map f (fst q)) (f (snd q))))))) /\
    nlookup name internals' =
      Some (map (fun d => state_after (r_cell r) (snd d) (map f (inputs (fst d)))) (combine qs s)) /\
    (forall other, other <> name -> nlookup other internals' = nlookup other internals).
Proof.
  intros V S f g r name n qs s outputs registered internals Hu Hc Hv Hb L E.
  unfold network_apply. rewrite !net_list_cons, net_plain. cbn [n_x n_reg n_int n_check bind].
  rewrite net_list_cons, net_temporal. cbn [n_x n_reg n_int n_check]. rewrite L.
  set (qs' := map (fun q : list V * V => (map f (fst q), f (snd q))) qs).
  rewrite <- (flat_map_rows _ _ f), <- (places_map_rows _ _ f). fold qs'.
  destruct (C105_sequences _ _ _ r qs' s n Hu Hc Hv) as (ys & EY & EL & ER).
  { unfold qs'. now rewrite map_length. }
  { unfold qs'. apply Forall_forall. intros q Hin. apply in_map_iff in Hin. destruct Hin as (q' & <- & Hin).
    rewrite Forall_forall in Hb. specialize (Hb q' Hin). unfold seq_length in *. cbn [fst]. now rewrite map_length. }
  unfold sequence in *. rewrite EY. cbn [bind fst snd]. rewrite net_list_cons, net_plain. cbn [n_x n_reg n_int n_check bind].
  rewrite net_list_nil. cbn [bind n_x n_reg n_int]. rewrite outputs_none. cbn [requested bind].
  eexists. eexists. split; [reflexivity|]. split; [rewrite map_length, EL; unfold qs'; apply map_length|].
  split; [|split].
  - intros i q si Hq Hs HL. rewrite nth_error_map.
    destruct (ER i (map f (fst q), f (snd q)) si) as [EA _]; [unfold qs'; now rewrite nth_error_map, Hq|exact Hs|].
    rewrite EA; [reflexivity|]. unfold qs'. rewrite longest_map_rows, <- HL. unfold seq_length. cbn [fst]. now rewrite map_length.
  - rewrite nlookup_nset_same. f_equal. unfold qs'. clear. revert s. induction qs as [|q qs IH]; intros [|si s]; cbn [map combine]; try reflexivity.
    f_equal; [|apply IH]. unfold inputs. cbn [fst snd]. now rewrite map_app.
  - intros other Ho. now apply nlookup_nset_other.
Qed.
Print Assumptions C111_sequential.

Definition two_rnns : list (@nlayer Z Z) :=
  [NTemporal "rnn0" (summing (HConst 1) true); NRegister "a"; NRetrieve ["a"%string] (fun _ => 0);
   NTemporal "rnn1" (summing (HConst 1) true)].

Example C111_example :
  network_apply two_rnns None [] (flat [([], 3); ([], 5)]) (places [([], 3); ([], 5)]) [("rnn0"%string, [0; 10]); ("rnn1"%string, [100; 200])]
  = Ok ([("embedding"%string, [103; 215])], [("rnn0"%string, [3; 15]); ("rnn1"%string, [103; 215])]) /\
  (exists e, network_apply two_rnns None [] (flat [([], 3); ([4], 5)]) (places [([], 3); ([4], 5)]) [("rnn0"%string, [0; 10]); ("rnn1"%string, [100; 200])]
  = Err e) /\
  network_apply [NPlain (fun xs => Ok (map (Z.mul 2) xs)); NTemporal "rnn0" (summing (HConst 1) true); NPlain (fun xs => Ok (map Z.opp xs))]
    None [] (flat [([1], 3); ([4], 5)]) (places [([1], 3); ([4], 5)]) [("rnn0"%string, [0; 10])]
  = Ok ([("embedding"%string, [-8; -28])], [("rnn0"%string, [8; 28])]).
Proof. split; [vm_compute; reflexivity|]. split; [eexists; vm_compute; reflexivity|vm_compute; reflexivity]. Qed.

(** ** C112 *)
(** Whatever layers there are and whatever outputs the policy asks for, all
    actions get one and the same input: the output of the last layer, even if a
    tensor is registered under the name of the action. *)
Theorem C112_action_embedding_refuted : forall V S (layers : list (@nlayer V S)) single actions registered x horizons internals emb internals' st,
  net_apply horizons (NList layers) (mkNs x [("state"%string, x)] internals false) = Ok st ->
  network_apply layers (policy_outputs single actions) registered x horizons internals = Ok (emb, internals') ->
  forall action, action_input action emb = Some (n_x st).
Proof.
  intros V S layers single actions registered x horizons internals emb internals' st E EN action.
  unfold network_apply in EN. rewrite E in EN. cbn [bind] in EN. rewrite outputs_none in EN. cbn [requested bind] in EN.
  inversion EN; subst emb. unfold action_input. cbn [nlookup].
  assert (Hn : String.eqb (action ++ "-embedding") "embedding" = false).
  { apply String.eqb_neq. intros C. apply (f_equal String.length) in C. revert C. clear.
    assert (HA : forall u v, String.length (u ++ v)%string = (String.length u + String.length v)%nat).
    { induction u; intros v; cbn [String.append String.length]; [reflexivity|]. now rewrite IHu. }
    rewrite HA. cbn [String.length]. lia. }
  rewrite Hn. now rewrite String.eqb_refl.
Qed.
Print Assumptions C112_action_embedding_refuted.

Example C112_example :
  let layers := [NPlain (fun xs => Ok (map (Z.mul 2) xs)); NRegister "a-embedding";
                 NPlain (fun xs => Ok (map Z.opp xs)); NRegister "b-embedding"] : list (@nlayer Z Z) in
  match net_apply [(0, 1)] (NList layers) (mkNs [7] [("state"%string, [7])] [] false) with
  | Ok st => nlookup "a-embedding" (n_reg st) = Some [14] /\ nlookup "b-embedding" (n_reg st) = Some [-14]
  | Err _ => False
  end /\
  network_apply layers (policy_outputs false (Some ["a"; "b"]%string)) ["a-embedding"; "b-embedding"]%string [7] [(0, 1)] []
  = Ok ([("embedding"%string, [-14])], []).
Proof. split; [vm_compute; split; reflexivity|vm_compute; reflexivity]. Qed.
