(** Lemmas about pretrain: the iterations. *)

From Coq Require Import String List ZArith Bool Lia Permutation.
From Verif Require Import Base InpModel InpSpec InpProofs InpActProofs InpRowProofs InpOutProofs InpBatchProofs InpMaskProofs ExpModel ExpSpec ExpProofs ExpRunProofs ExpFedProofs ExpCutProofs PtrSpec PtrProofs PtrRunProofs.
Import ListNotations.
Open Scope string_scope.
Open Scope list_scope.
Open Scope nat_scope.

Section Iter.
Variable V : Type.
Variable conv : leaf -> V -> option V.
Variables conv_terminal conv_reward : V -> option V.
Variable is_zero : V -> bool.
Variable one : V.
Variable masking : bool.
Variables states_spec actions_spec internals_spec : tree leaf.
Variable initial : tree (arr V).
Variable M : Type.
Variable model_experience : M -> batch V -> M * res unit.
Variable model_update : M -> M * res unit.
Notation experience := (experience V conv conv_terminal conv_reward is_zero one masking states_spec actions_spec internals_spec initial M model_experience).
Notation row_experience := (row_experience V conv conv_terminal conv_reward is_zero one masking states_spec actions_spec internals_spec M model_experience).
Notation experience_kwargs := (experience_kwargs V conv conv_terminal conv_reward is_zero one masking states_spec actions_spec internals_spec initial M model_experience).
Notation updates := (updates M model_update).
Notation iteration := (iteration V conv conv_terminal conv_reward is_zero one masking states_spec actions_spec internals_spec initial M model_experience model_update).
Notation iterations := (iterations V conv conv_terminal conv_reward is_zero one masking states_spec actions_spec internals_spec initial M model_experience model_update).
Notation written := (written V initial).
Notation finished := (finished V is_zero).
Notation select := (select V).

Lemma as_arg_dict (t : tree (list (arr V))) : (exists d, t = Dict d) -> as_arg V (piled V t) = batchv V t.
Proof.
  intros [d ->]. cbn [piled as_arg]. change (Dict (map (fun kt => (fst kt, piled V (snd kt))) d)) with (piled V (Dict d)). rewrite items_entries, piled_tmap, entries_tmap, map_map. reflexivity.
Qed.
Lemma batchv_any (t : tree (list (arr V))) : (exists d, t = Dict d) -> distinct t -> inside no_empty t -> writes_any V (batchv V t) (piled V t).
Proof.
  intros [d ->] Hd Hi. split; [eexists; reflexivity|]. right. split; [apply batchv_writes|]. split; rewrite piled_tmap; [apply distinct_tmap; exact Hd|].
  eapply like_inside; [apply like_tmap; reflexivity|exact Hi].
Qed.
Lemma no_empty_inside {A} (t : tree A) : no_empty t -> inside no_empty t.
Proof. intros H. destruct t as [a|d]; [exact I|]. inversion H; subst. assumption. Qed.
Lemma batchv_named (t : tree (list (arr V))) : no_empty t -> (forall xs, t <> Dict [("action", Leaf xs)]) -> named V (batchv V t).
Proof.
  intros Hn H x E. unfold batchv in E. destruct t as [xs|d]; [cbn in E; discriminate|]. injection E as E.
  inversion Hn as [|? N HF]; subst. destruct d as [|[k t] [|[k' t'] d]]; [congruence| |].
  - cbn [entries flat_map snd fst] in E. rewrite app_nil_r in E. inversion HF as [|? ? N1 _]; subst. cbn [snd] in N1. destruct t as [xs|e].
    + cbn in E. injection E as -> _. apply (H xs). reflexivity.
    + inversion N1 as [|? N2 HF2]; subst. destruct e as [|[k2 t2] e]; [congruence|]. cbn [entries flat_map snd fst] in E. rewrite map_app, map_app in E.
      inversion HF2 as [|? ? N3 _]; subst. cbn [snd] in N3. pose proof (no_empty_entries _ N3) as N4. destruct (entries t2) as [|[p a] r]; [congruence|]. cbn in E. discriminate.
  - cbn [entries flat_map snd fst] in E. inversion HF as [|? ? N1 HF1]; inversion HF1 as [|? ? N2 _]; subst. cbn [snd] in N1, N2.
    pose proof (no_empty_entries _ N1) as M1. pose proof (no_empty_entries _ N2) as M2. destruct (entries t) as [|e1 r1]; [congruence|]. destruct (entries t') as [|e2 r2]; [congruence|].
    rewrite !map_app in E. cbn [map app] in E. apply (f_equal (@length _)) in E. cbn [length] in E. rewrite !app_length in E. cbn [length] in E. rewrite !app_length in E. lia.
Qed.

(** What pretrain gives experience are the chosen parts *)
Lemma kwargs_written n x d ps D m : within n ps -> ps <> [] -> trace_ok V n x -> recording V initial n x d -> usable V initial x d -> fits V states_spec (t_states V x) ->
  args_of V D (select ps x) (option_map (fun t => piled V (tmap (gather ps) t)) (dget "internals" d)) ->
  experience_kwargs false m D = row_experience (total ps) (select ps x) m.
Proof.
  intros HW Hne Hx R HU Hf (HK & E1 & E2 & E3 & E4 & E5). unfold ExpModel.experience_kwargs. rewrite E1, E2, E3, E4, E5.
  assert (EK : forallb (fun kt => existsb (String.eqb (fst kt)) parameters) D = true).
  { apply forallb_forall. intros [k t] Hin. apply existsb_exists. exists k. split; [|apply String.eqb_refl]. apply HK. apply in_map_iff. exists (k, t). split; [reflexivity|exact Hin]. }
  rewrite EK. pose proof (select_ok V _ _ _ HW Hx) as HS. pose proof HS as (T1 & T2 & T3 & TD & _).
  assert (Ht : total ps <> 0) by (destruct ps as [|ok ps]; [congruence|]; cbn; destruct (HW ok (or_introl eq_refl)); lia).
  apply experience_written; [exact Ht|exact HS| |].
  - cbn [t_states PtrRunProofs.select]. revert Hf. destruct states_spec as [l|ds], (t_states V x) as [xs|e]; cbn [fits tmap]; auto.
    + intros H y Hy. apply H. eapply gather_in. exact Hy.
    + intros (xs & F & H). pose proof (find_tmap (gather ps) ["state"] (Dict e)) as F'. cbn [tmap] in F'. rewrite F in F'. cbn in F'. exists (gather ps xs). split; [exact F'|]. intros y Hy. apply H. eapply gather_in. exact Hy.
    + intros (p & l & xs & F0 & F & H). pose proof (find_tmap (gather ps) p (Dict e)) as F'. cbn [tmap] in F'. rewrite F in F'. cbn in F'. exists p, l, (gather ps xs). split; [exact F0|]. split; [exact F'|]. intros y Hy. apply H. eapply gather_in. exact Hy.
  - pose proof (no_empty_part _ _ _ _ _ R) as HE. rewrite Forall_forall in HE.
    assert (NA : no_empty (t_actions V x)) by (apply (HE ("actions", t_actions V x)); apply dget_some; apply (has_actions _ _ _ _ _ R)).
    assert (NA' : no_empty (t_actions V (select ps x))) by (eapply like_no_empty; [apply like_tmap; reflexivity|exact NA]).
    assert (EI : t_internals V x = always V n initial -> t_internals V (select ps x) = always V (total ps) initial).
    { intros E. cbn [t_internals PtrRunProofs.select]. rewrite E, !always_tmap, tmap_tmap. apply tmap_ext_leaves. intros a _. apply gather_repeat. exact HW. }
    unfold usable in HU. destruct (t_states V x) as [xs|e] eqn:ES.
    + destruct HU as [[ys EA] EN]. rewrite EN. cbn [option_map].
      apply by_steps; [| | |constructor|constructor].
      * right. exists (gather ps xs). cbn [t_states PtrRunProofs.select]. rewrite ES. split; [reflexivity|]. cbn [tmap piled as_arg]. constructor.
      * cbn [t_actions PtrRunProofs.select]. rewrite EA. cbn [tmap actions_steps piled as_arg]. left. reflexivity.
      * left. split; [reflexivity|]. apply EI. destruct (has_internals _ _ _ _ _ R) as [E|(_ & E)]; [congruence|exact E].
    + assert (TS : exists d, t_states V (select ps x) = Dict d) by (cbn [t_states PtrRunProofs.select]; rewrite ES; eexists; reflexivity).
      apply by_arrays; [| | |constructor|constructor].
      * split; [exact TS|]. rewrite as_arg_dict by exact TS. apply batchv_any; [exact TS|eapply table_distinct; exact T1|].
        cbn [t_states PtrRunProofs.select]. eapply like_inside; [apply like_tmap; reflexivity|]. destruct (has_states _ _ _ _ _ R) as [[_ E]|(s & masks & EM & E & E')].
        -- apply no_empty_inside. apply (HE ("states", t_states V x)). apply dget_some. exact E.
        -- pose proof (HE _ (dget_some _ _ _ E)) as N. cbn [snd] in N. rewrite E'. cbn [inside]. apply Forall_app. split; [inversion N; subst; assumption|].
           rewrite Forall_map. rewrite Forall_forall. intros z _. constructor.
      * destruct (t_actions V x) as [ys|f] eqn:EA.
        -- cbn [t_actions PtrRunProofs.select]. rewrite EA. cbn [tmap actions_arrays piled as_arg]. left. reflexivity.
        -- assert (TA : exists d, t_actions V (select ps x) = Dict d) by (cbn [t_actions PtrRunProofs.select]; rewrite EA; eexists; reflexivity).
           rewrite as_arg_dict by exact TA. pose proof TA as [g Eg]. unfold actions_arrays. rewrite Eg. rewrite <- Eg. split.
           ++ apply batchv_any; [exact TA|eapply table_distinct; exact T2|apply no_empty_inside; exact NA'].
           ++ apply batchv_named; [exact NA'|]. intros ys E. cbn [t_actions PtrRunProofs.select] in E. rewrite EA in E. cbn [tmap] in E. injection E as E.
              destruct f as [|[k t] [|]]; try discriminate. cbn in E. injection E as -> E. destruct t as [zs|]; [|discriminate]. apply (proj1 HU zs). reflexivity.
      * destruct (has_internals _ _ _ _ _ R) as [E|(E & E')]; rewrite E; cbn [option_map].
        -- right. eexists. split; [reflexivity|]. change (tmap (gather ps) (t_internals V x)) with (t_internals V (select ps x)). rewrite as_arg_dict by exact TD. apply batchv_any; [exact TD|eapply table_distinct; exact T3|].
           apply no_empty_inside. eapply like_no_empty; [apply like_tmap; reflexivity|]. apply (HE ("internals", t_internals V x)). apply dget_some. exact E.
        -- left. split; [reflexivity|]. split; [apply EI; exact E'|]. right. exact (proj2 HU E).
Qed.

(** The parts are learned one after the other *)
Lemma part_app_l {A} k (a b : list A) : length a = k -> part 0 k (a ++ b) = a.
Proof. intros <-. unfold part. cbn [skipn]. rewrite firstn_app, Nat.sub_diag, firstn_all, firstn_O, app_nil_r. reflexivity. Qed.
Lemma part_app_r {A} k j (a b : list A) : length a = k -> length b = j -> part k j (a ++ b) = b.
Proof. intros <- <-. unfold part. rewrite skipn_app, Nat.sub_diag, skipn_all. cbn [app skipn]. apply firstn_all. Qed.
Lemma select_cut n x ok ps : within n (ok :: ps) -> trace_ok V n x ->
  cut V 0 (snd ok) (select (ok :: ps) x) = cut V (fst ok) (snd ok) x /\ cut V (snd ok) (total ps) (select (ok :: ps) x) = select ps x.
Proof.
  intros HW (T1 & T2 & T3 & _ & L1 & L2). destruct (HW ok (or_introl eq_refl)) as [_ HB]. pose proof (within_cons _ _ _ HW) as HW'.
  assert (P1 : forall A (l : list A), length l = n -> part 0 (snd ok) (gather (ok :: ps) l) = part (fst ok) (snd ok) l).
  { intros A l HL. cbn [gather flat_map]. apply part_app_l. apply part_length. lia. }
  assert (P2 : forall A (l : list A), length l = n -> part (snd ok) (total ps) (gather (ok :: ps) l) = gather ps l).
  { intros A l HL. cbn [gather flat_map]. apply part_app_r; [apply part_length; lia|]. apply (gather_length n); assumption. }
  assert (Q1 : forall t, table V n t -> timesteps V 0 (snd ok) (tmap (gather (ok :: ps)) t) = timesteps V (fst ok) (snd ok) t).
  { intros t Ht. rewrite !timesteps_tmap, tmap_tmap. apply tmap_ext_leaves. intros xs Hxs. apply P1. apply (table_leaves _ _ _ Ht Hxs). }
  assert (Q2 : forall t, table V n t -> timesteps V (snd ok) (total ps) (tmap (gather (ok :: ps)) t) = tmap (gather ps) t).
  { intros t Ht. rewrite !timesteps_tmap, tmap_tmap. apply tmap_ext_leaves. intros xs Hxs. apply P2. apply (table_leaves _ _ _ Ht Hxs). }
  unfold cut, PtrRunProofs.select. cbn [t_states t_actions t_internals t_terminal t_reward]. rewrite !Q1, !Q2, !P1, !P2 by assumption. split; reflexivity.
Qed.
Lemma gather_ends ps (ts : list V) : ps <> [] -> (forall ok, In ok ps -> finished (part (fst ok) (snd ok) ts)) -> finished (gather ps ts).
Proof.
  induction ps as [|ok ps IH]; intros Hn H; [congruence|]. cbn [gather flat_map]. destruct ps as [|ok' ps].
  - cbn [flat_map]. rewrite app_nil_r. apply H. left. reflexivity.
  - destruct IH as (ts' & t & E & Ht); [discriminate|intros z Hz; apply H; right; exact Hz|]. exists (part (fst ok) (snd ok) ts ++ ts'), t. split; [|exact Ht].
    rewrite <- app_assoc, <- E. reflexivity.
Qed.
Lemma row_select n x : trace_ok V n x -> forall ps m, within n ps -> ps <> [] -> (forall ok, In ok ps -> finished (part (fst ok) (snd ok) (t_terminal V x))) ->
  row_experience (total ps) (select ps x) m = in_turn (fun ok => row_experience (snd ok) (cut V (fst ok) (snd ok) x)) ps m.
Proof.
  intros Hx. induction ps as [|ok ps IH]; intros m HW Hne HE; [congruence|]. cbn [in_turn]. pose proof (select_cut n x ok ps HW Hx) as [C1 C2]. pose proof (within_cons _ _ _ HW) as HW'.
  destruct (HW ok (or_introl eq_refl)) as [H0 HB].
  destruct ps as [|ok' ps].
  - assert (ES : select [ok] x = cut V (fst ok) (snd ok) x).
    { unfold PtrRunProofs.select, cut. rewrite !timesteps_tmap. unfold gather. cbn [flat_map]. f_equal; try (apply tmap_ext_leaves; intros xs _); apply app_nil_r. }
    rewrite ES. cbn [total fold_right]. rewrite Nat.add_0_r. destruct (row_experience (snd ok) (cut V (fst ok) (snd ok) x) m) as [m' [[]|e]]; reflexivity.
  - set (q := ok' :: ps) in *. assert (Hq : total q <> 0) by (unfold q; cbn; destruct (HW' ok' (or_introl eq_refl)); lia).
    assert (HT : total (ok :: q) = snd ok + total q) by reflexivity.
    rewrite (row_experience_split V conv conv_terminal conv_reward is_zero one masking states_spec actions_spec internals_spec M model_experience (total (ok :: q)) (snd ok) (select (ok :: q) x) m);
      [|apply (select_ok V n); assumption|lia|exact H0|lia| |].
    + rewrite HT. replace (snd ok + total q - snd ok) with (total q) by lia. rewrite C1, C2. unfold andthen. destruct (row_experience (snd ok) _ m) as [m' [u|e]]; [|reflexivity].
      apply IH; [exact HW'|discriminate|]. intros z Hz. apply HE. right. exact Hz.
    + replace (part 0 (snd ok) (t_terminal V (select (ok :: q) x))) with (t_terminal V (cut V 0 (snd ok) (select (ok :: q) x))) by reflexivity. rewrite C1. apply HE. left. reflexivity.
    + apply gather_ends; [discriminate|exact HE].
Qed.

Lemma updates_times : forall k m, updates k m = times model_update k m.
Proof. induction k as [|k IH]; intros m; [reflexivity|]. cbn. destruct (model_update m) as [m' [u|e]]; [apply IH|reflexivity]. Qed.

(** One iteration: the arguments of experience *)
Lemma iteration_kwargs n x d files parts : trace_ok V n x -> recording V initial n x d -> Forall2 (holds V d) parts files -> within n parts ->
  forall sel k m, sel <> [] -> (forall j, In j sel -> j < length files) ->
  let ps := map (fun j => nth j parts (0, 0)) sel in
  within n ps /\ ps <> [] /\ (forall ok, In ok ps -> In ok parts) /\ (forall j, In j sel -> nth_error parts j = Some (nth j parts (0, 0))) /\
  exists D, args_of V D (select ps x) (option_map (fun t => piled V (tmap (gather ps) t)) (dget "internals" d)) /\
    iteration false files sel k m = andthen (experience_kwargs false m D) (times model_update (Z.to_nat k)).
Proof.
  intros Hx R HF HW sel k m Hne Hb. assert (HL : length parts = length files) by (clear - HF; induction HF as [|? ? ? ? _ _ IH]; [reflexivity|]; cbn; rewrite IH; reflexivity).
  set (get := fun j => nth j parts (0, 0)). set (file := fun j => nth j files []). cbn zeta. fold get.
  assert (HP : forall j, In j sel -> nth_error parts j = Some (get j)) by (intros j Hj; apply nth_error_nth'; rewrite HL; apply Hb; exact Hj).
  assert (HFi : map_res (fun i => match nth_error files i with Some f => Ok f | None => Err "IndexError" end) sel = Ok (map file sel)).
  { rewrite <- (map_res_ok file). apply map_res_ext. intros j Hj. rewrite (nth_error_nth' files [] (Hb j Hj)). reflexivity. }
  assert (HS : Forall2 (holds V d) (map get sel) (map file sel)).
  { clear HFi. induction sel as [|j sel IH]; [constructor|]. cbn [map]. constructor.
    - clear - HF HL Hb. assert (Hj : j < length files) by (apply Hb; left; reflexivity). unfold get, file. clear get file Hb. revert j Hj. clear HL. induction HF as [|p f parts files Hp HF IHF]; intros j Hj; [cbn in Hj; lia|].
      destruct j as [|j]; [exact Hp|]. apply IHF. cbn in Hj. lia.
    - destruct sel as [|j' sel]; [constructor|]. apply IH; [discriminate| |]; intros z Hz; [apply Hb|apply HP]; right; exact Hz. }
  assert (HI : forall ok, In ok (map get sel) -> In ok parts).
  { intros ok Hok. apply in_map_iff in Hok. destruct Hok as [j [<- Hj]]. eapply nth_error_In. apply HP. exact Hj. }
  assert (HW' : within n (map get sel)) by (intros ok Hok; apply HW, HI, Hok).
  assert (Hne' : map get sel <> []) by (destruct sel; [congruence|discriminate]).
  split; [exact HW'|]. split; [exact Hne'|]. split; [exact HI|]. split; [exact HP|].
  pose proof (recording_table V initial n x d Hx R) as HT.
  unfold ExpModel.iteration. rewrite HFi. cbn [bind]. rewrite (load_first V n d _ _ HT (no_empty_part _ _ _ _ _ R) HS HW' Hne'). cbn [bind].
  destruct (with_masks_ok V initial n x d (map get sel) HW' Hx R) as [D [ED HD]]. rewrite ED. exists D. split; [exact HD|].
  destruct (experience_kwargs false m D) as [m' [u|e]]; [apply updates_times|reflexivity].
Qed.
(** The chosen files are given to experience one after the other *)
Lemma iteration_ok n x d files parts (call : nat -> pv V * pv V * pv V * pv V * option (pv V)) : trace_ok V n x -> recording V initial n x d -> usable V initial x d -> fits V states_spec (t_states V x) ->
  Forall2 (holds V d) parts files -> within n parts -> (forall ok, In ok parts -> finished (part (fst ok) (snd ok) (t_terminal V x))) ->
  (forall j ok, nth_error parts j = Some ok -> let '(s, a, t, r, i) := call j in written (snd ok) (cut V (fst ok) (snd ok) x) s a t r i) ->
  forall sel k m, sel <> [] -> (forall j, In j sel -> j < length files) ->
  iteration false files sel k m =
  andthen (in_turn (fun j m => let '(s, a, t, r, i) := call j in experience false m s a t r i) sel m) (times model_update (Z.to_nat k)).
Proof.
  intros Hx R HU Hf HF HW HE HC sel k m Hne Hb.
  destruct (iteration_kwargs n x d files parts Hx R HF HW sel k m Hne Hb) as (HW' & Hne' & HI & HP & D & HD & E). rewrite E. clear E. set (get := fun j => nth j parts (0, 0)) in *.
  rewrite (kwargs_written n x d (map get sel) D m HW' Hne' Hx R HU Hf HD).
  rewrite (row_select n x Hx (map get sel) m HW' Hne').
  2: { intros ok Hok. apply HE, HI, Hok. }
  assert (EI : in_turn (fun ok => row_experience (snd ok) (cut V (fst ok) (snd ok) x)) (map get sel) m = in_turn (fun j m => let '(s, a, t, r, i) := call j in experience false m s a t r i) sel m).
  { clear - HP HW HC Hx Hf. revert m. induction sel as [|j sel IH]; intros m; [reflexivity|]. cbn [map in_turn].
    assert (E : row_experience (snd (get j)) (cut V (fst (get j)) (snd (get j)) x) m = (let '(s, a, t, r, i) := call j in experience false m s a t r i)).
    { pose proof (HP j (or_introl eq_refl)) as Hj. specialize (HC j (get j) Hj). destruct (call j) as [[[[s a] t] r] i]. destruct (HW (get j) (nth_error_In _ _ Hj)) as [W1 W2]. symmetry.
      apply experience_written; [exact W1|eapply trace_cut; eassumption| |exact HC]. cbn [cut t_states]. apply fits_cut. exact Hf. }
    rewrite E. unfold andthen. destruct (let '(s, a, t, r, i) := call j in experience false m s a t r i) as [m' [u|e]]; [|reflexivity]. apply IH. intros z Hz. apply HP. right. exact Hz. }
  rewrite EI. reflexivity.
Qed.

(** All iterations *)
Variable shuffle : nat -> list nat -> list nat.
Lemma slice_first {A} (l : list A) k : (0 <= k)%Z -> slice l 0 k = firstn (Z.to_nat k) l.
Proof.
  intros H. unfold slice, slice_bound. cbn [Z.ltb Z.compare]. assert (E : (k <? 0)%Z = false) by (apply Z.ltb_ge; exact H). rewrite E. rewrite (Z.min_l 0) by lia. cbn [Z.to_nat skipn]. rewrite Z.sub_0_r.
  destruct (Z.le_gt_cases k (Z.of_nat (length l))).
  - rewrite Z.min_l by lia. reflexivity.
  - rewrite Z.min_r by lia. rewrite Nat2Z.id, firstn_all, firstn_all2 by lia. reflexivity.
Qed.
Fixpoint chosen (num : option Z) (n i : nat) (indices : list nat) : list (list nat) :=
  match n with
  | O => []
  | S n => match num with None => shuffle i indices | Some k => slice (shuffle i indices) 0 k end :: chosen num n (S i) (shuffle i indices)
  end.
Lemma chosen_length num : forall n i l, length (chosen num n i l) = n.
Proof. induction n as [|n IH]; intros i l; [reflexivity|]. cbn. rewrite IH. reflexivity. Qed.
Lemma chosen_choice F num : (forall i l, Permutation l (shuffle i l)) -> (match num with Some k => (0 <= k)%Z | None => True end) ->
  forall n i l, Permutation (seq 0 F) l -> forall sel, In sel (chosen num n i l) -> choice F num sel.
Proof.
  intros HP Hk. induction n as [|n IH]; intros i l Hl sel Hin; [contradiction|]. cbn [chosen] in Hin.
  assert (Hl' : Permutation (seq 0 F) (shuffle i l)) by (eapply Permutation_trans; [exact Hl|apply HP]).
  destruct Hin as [<-|Hin]; [|eapply IH; eassumption].
  assert (ND : NoDup (shuffle i l)) by (eapply Permutation_NoDup; [exact Hl'|apply seq_NoDup]).
  assert (HI : forall j, In j (shuffle i l) -> j < F) by (intros j Hj; apply (Permutation_in _ (Permutation_sym Hl')) in Hj; apply in_seq in Hj; lia).
  assert (HLn : length (shuffle i l) = F) by (rewrite <- (Permutation_length Hl'), seq_length; reflexivity).
  destruct num as [k|]; [rewrite slice_first by exact Hk|].
  - split; [|split].
    + rewrite <- (firstn_skipn (Z.to_nat k) (shuffle i l)) in ND. apply NoDup_both in ND. apply ND.
    + intros j Hj. apply HI. rewrite <- (firstn_skipn (Z.to_nat k)). apply in_or_app. left. exact Hj.
    + rewrite firstn_length, HLn. reflexivity.
  - split; [exact ND|]. split; [exact HI|exact HLn].
Qed.
Lemma iterations_chosen files num k (f : list nat -> M -> M * res unit) :
  forall n i l m, (forall sel m, In sel (chosen num n i l) -> iteration false files sel k m = f sel m) ->
  iterations shuffle false files num k n i l m = in_turn f (chosen num n i l) m.
Proof.
  induction n as [|n IH]; intros i l m H; [reflexivity|]. cbn [ExpModel.iterations chosen in_turn].
  rewrite H by (left; reflexivity). unfold andthen. destruct (f _ m) as [m' [u|e]]; [|reflexivity]. apply IH. intros sel m0 Hs. apply H. right. exact Hs.
Qed.
End Iter.
