(** Proofs for experience: from the arguments to rows, one episode, several episodes. *)

From Coq Require Import String List ZArith Bool Lia.
From Verif Require Import Base InpModel InpSpec InpProofs InpActProofs InpRowProofs InpOutProofs InpBatchProofs ExpModel ExpSpec.
Import ListNotations.
Open Scope string_scope.
Open Scope list_scope.
Open Scope nat_scope.

(** * Parts *)

Lemma part_length {A} o k (xs : list A) : o + k <= length xs -> length (part o k xs) = k.
Proof. intros H. unfold part. rewrite firstn_length, skipn_length. lia. Qed.
Lemma firstn_skipn_comm' {A} : forall m n (l : list A), firstn m (skipn n l) = skipn n (firstn (n + m) l).
Proof. intros. apply firstn_skipn_comm. Qed.
Lemma skipn_skipn' {A} : forall a b (l : list A), skipn a (skipn b l) = skipn (b + a) l.
Proof. intros a b. revert a. induction b as [|b IH]; intros a l; [reflexivity|]. destruct l as [|x l]; [destruct a; reflexivity|]. cbn. apply IH. Qed.
Lemma part_part {A} o k o' k' (xs : list A) : o' + k' <= k -> part o' k' (part o k xs) = part (o + o') k' xs.
Proof.
  intros H. unfold part. rewrite <- (skipn_skipn' o' o). generalize (skipn o xs). intros l.
  replace k with (o' + (k - o')) at 1 by lia. rewrite <- firstn_skipn_comm', firstn_firstn. f_equal. lia.
Qed.
Lemma in_skipn {A} (x : A) : forall n l, In x (skipn n l) -> In x l.
Proof. induction n as [|n IH]; intros [|y l] H; try exact H. right. apply IH. exact H. Qed.
Lemma in_firstn {A} (x : A) : forall n l, In x (firstn n l) -> In x l.
Proof. intros n l H. rewrite <- (firstn_skipn n l). apply in_or_app. left. exact H. Qed.
Lemma part_in {A} o k (xs : list A) x : In x (part o k xs) -> In x xs.
Proof. unfold part. intros H. apply in_firstn in H. apply in_skipn in H. exact H. Qed.
Lemma part_all {A} (xs : list A) : part 0 (length xs) xs = xs.
Proof. unfold part. cbn [skipn]. apply firstn_all. Qed.
Lemma part_repeat {A} (x : A) o k n : o + k <= n -> part o k (repeat x n) = repeat x k.
Proof.
  intros H. unfold part. replace n with (o + (k + (n - o - k))) by lia. rewrite repeat_app, skipn_app, repeat_length.
  rewrite (skipn_all2 (repeat x o)) by (rewrite repeat_length; lia). rewrite Nat.sub_diag. cbn [app skipn].
  rewrite repeat_app, firstn_app, repeat_length, Nat.sub_diag. rewrite firstn_all2 by (rewrite repeat_length; lia). cbn. apply app_nil_r.
Qed.
Lemma skipn_concat {A} c : forall (ls : list (list A)) o, (forall l, In l ls -> length l = c) -> skipn (o * c) (concat ls) = concat (skipn o ls).
Proof.
  induction ls as [|l ls IH]; intros o H; [destruct o; cbn; try reflexivity; apply skipn_nil|]. destruct o as [|o]; [reflexivity|]. cbn [concat skipn].
  assert (HL : length l = c) by (apply H; left; reflexivity). rewrite skipn_app, (skipn_all2 l) by lia. cbn [app]. rewrite <- (IH o).
  - f_equal. rewrite HL. cbn. lia.
  - intros l' Hl'. apply H. right. exact Hl'.
Qed.
Lemma firstn_concat {A} c : forall (ls : list (list A)) k, (forall l, In l ls -> length l = c) -> firstn (k * c) (concat ls) = concat (firstn k ls).
Proof.
  induction ls as [|l ls IH]; intros k H; [destruct k; cbn; try reflexivity; apply firstn_nil|]. destruct k as [|k]; [reflexivity|]. cbn [concat firstn].
  assert (HL : length l = c) by (apply H; left; reflexivity). rewrite firstn_app, firstn_all2 by lia. f_equal. rewrite <- (IH k).
  - f_equal. rewrite HL. cbn. lia.
  - intros l' Hl'. apply H. right. exact Hl'.
Qed.

Section Arrays.
Variable V : Type.
Notation A0 := (@Arr V [] []).

Lemma rows_part n o k (xs : list (arr V)) : o + k <= n -> rows V n xs -> rows V k (part o k xs).
Proof.
  intros H [HL [sh Hs]]. split; [apply part_length; lia|]. exists sh. intros x Hx. apply Hs. eapply part_in; exact Hx.
Qed.

(** slicing an array of rows *)
Lemma slice_pile n o k (xs : list (arr V)) : k <> 0 -> o + k <= n -> rows V n xs ->
  np_slice o (o + k) (pile V xs) = pile V (part o k xs).
Proof.
  intros Hk H [HL [sh Hs]]. destruct xs as [|x0 r] eqn:EX; [cbn in HL; lia|]. rewrite <- EX in *.
  assert (Es : shape (pile V xs) = n :: sh).
  { unfold pile. cbn [shape]. rewrite HL. f_equal. rewrite EX. apply Hs. rewrite EX. left. reflexivity. }
  unfold np_slice. rewrite Es. cbn [tl].
  assert (HP : length (part o k xs) = k) by (apply part_length; lia).
  unfold pile at 2. cbn [shape]. f_equal.
  - rewrite HP. f_equal; [lia|]. destruct (part o k xs) as [|y p] eqn:EP; [cbn in HP; lia|]. symmetry. apply Hs. apply (part_in o k). rewrite EP. left. reflexivity.
  - unfold pile. cbn [data]. replace (o + k - o) with k by lia.
    assert (HC : forall l, In l (map data xs) -> length l = prod sh).
    { intros l Hl. apply in_map_iff in Hl. destruct Hl as [x [<- Hx]]. destruct (Hs x Hx) as [E W]. apply wf_prod in W. rewrite E in W. exact W. }
    rewrite (skipn_concat _ _ o HC), firstn_concat.
    + unfold part. rewrite skipn_map, firstn_map. reflexivity.
    + intros l Hl. apply HC. eapply in_skipn; exact Hl.
Qed.
Lemma slice_vector o k (vs : list V) : o + k <= length vs -> np_slice o (o + k) (vector V vs) = vector V (part o k vs).
Proof.
  intros H. unfold np_slice, vector. cbn [shape tl data]. unfold prod. cbn [fold_right]. rewrite !Nat.mul_1_r. replace (o + k - o) with k by lia.
  fold (part o k vs). f_equal. rewrite part_length by lia. f_equal. lia.
Qed.

Lemma timesteps_tmap o k : forall t, timesteps V o k t = tmap (part o k) t.
Proof.
  induction t as [xs|d IH] using tree_rect'; [reflexivity|]. cbn [timesteps tmap]. f_equal. apply map_ext_in. intros kt Hin. f_equal.
  rewrite Forall_forall in IH. apply IH. exact Hin.
Qed.
Lemma table_timesteps n o k t : o + k <= n -> table V n t -> table V k (timesteps V o k t).
Proof.
  intros H. revert t. apply (table_ind' n).
  - intros xs Hx. constructor. eapply rows_part; eauto.
  - intros d Hnd _ IH. cbn [timesteps]. constructor.
    + rewrite map_map. cbn [fst]. exact Hnd.
    + rewrite Forall_forall in *. intros kt Hin. apply in_map_iff in Hin. destruct Hin as [kt' [<- Hin]]. apply IH. exact Hin.
Qed.
Lemma trace_cut n o k x : o + k <= n -> trace_ok V n x -> trace_ok V k (cut V o k x).
Proof.
  intros H (H1 & H2 & H3 & [d Hd] & H4 & H5). unfold trace_ok, cut. cbn. repeat split.
  - eapply table_timesteps; eauto.
  - eapply table_timesteps; eauto.
  - eapply table_timesteps; eauto.
  - rewrite Hd. eexists. reflexivity.
  - apply part_length. lia.
  - apply part_length. lia.
Qed.
Lemma always_tmap n : forall t, always V n t = tmap (fun a => repeat a n) t.
Proof.
  induction t as [xs|d IH] using tree_rect'; [reflexivity|]. cbn [always tmap]. f_equal. apply map_ext_in. intros kt Hin. f_equal.
  rewrite Forall_forall in IH. apply IH. exact Hin.
Qed.

Definition piles (o k : nat) (xs : list (arr V)) : arr V := pile V (part o k xs).
Lemma slice_piled n o k t : k <> 0 -> o + k <= n -> even V n t -> tmap (np_slice o (o + k)) (piled V t) = tmap (piles o k) t.
Proof.
  intros Hk H He. rewrite piled_tmap, tmap_tmap. apply tmap_ext_leaves. intros xs Hx. unfold even in He. rewrite Forall_forall in He.
  apply (slice_pile n); auto.
Qed.
Lemma repeat_pile n (a : arr V) : n <> 0 -> np_repeat n a = pile V (repeat a n).
Proof.
  intros Hn. unfold np_repeat, pile. rewrite repeat_length. destruct n as [|n]; [congruence|]. cbn [repeat shape]. f_equal.
  change (a :: repeat a n) with (repeat a (S n)). rewrite map_repeat'. reflexivity.
Qed.
End Arrays.

(** * From the arguments to rows *)

Section Inputs.
Variable V : Type.
Variable initial : tree (arr V).
Notation A0 := (@Arr V [] []).

Lemma table_distinct n (t : tree (list (arr V))) : table V n t -> distinct t.
Proof. revert t. apply (table_ind' n); [constructor|]. intros d Hnd _ IH. constructor; assumption. Qed.
Lemma piled_instance (t : tree (list (arr V))) : piled V t = instance V 0 (tmap (fun xs => [pile V xs]) t).
Proof. rewrite instance_tmap, tmap_tmap, piled_tmap. reflexivity. Qed.
Lemma distinct_tmap {A B} (f : A -> B) : forall t, distinct t -> distinct (tmap f t).
Proof.
  induction t as [a|d IH] using tree_rect'; intros H; [constructor|]. inversion H as [|? Hnd HF]; subst. cbn [tmap]. constructor.
  - rewrite map_map. cbn [fst]. exact Hnd.
  - rewrite Forall_forall in *. intros kt Hin. apply in_map_iff in Hin. destruct Hin as [kt' [<- Hin]]. apply IH; [exact Hin|]. apply HF. exact Hin.
Qed.
Lemma piled_writable n t : table V n t -> exists p, writes_tree V p (piled V t).
Proof.
  intros Ht. rewrite piled_instance. eexists. apply nested_writes. apply distinct_tmap. eapply table_distinct; eauto.
Qed.

Lemma states_steps_ok spec n t p : n <> 0 -> table V n t -> fits V spec t -> states_steps V n t p ->
  process_states V spec p = Ok (piled V t, true, n, Some true).
Proof.
  intros Hn Ht Hf [[ps [-> [HL Hw]]]|[xs [-> Hw]]].
  - apply process_list; assumption.
  - apply (process_arrays V spec (Leaf xs) n p Hn Ht Hf). constructor. exact Hw.
Qed.
Lemma states_arrays_ok spec n t p : n <> 0 -> table V n t -> fits V spec t -> states_arrays V t p ->
  process_states V spec p = Ok (piled V t, true, n, Some false).
Proof.
  intros Hn Ht Hf [[d ->] Hw]. destruct (piled_writable _ _ Ht) as [q Hq].
  rewrite <- (process_arrays V spec (Dict d) n q Hn Ht Hf Hq). apply process_dict_any.
  - destruct Hw as [_ [Hw|[[_ [ps [-> _]]] _]]]; [|reflexivity]. apply writes_dict_inv in Hw. destruct Hw as [ps ->]. reflexivity.
  - apply writes_dict_inv in Hq. destruct Hq as [ps ->]. reflexivity.
  - rewrite (array_dict_any _ _ Hw). symmetry. apply array_dict_writes. exact Hq.
Qed.

Lemma stack_dicts_ok n t qs : n <> 0 -> table V n t -> length qs = n ->
  (forall i q, nth_error qs i = Some q -> writes_any V q (instance V i t)) -> stack_dicts V qs = Ok (piled V t).
Proof.
  intros Hn Ht HL Hw. unfold stack_dicts. destruct n as [|n]; [congruence|].
  assert (E : map_res array_dict qs = Ok (map (fun i => instance V i t) (seq 0 (S n)))).
  { apply map_res_Forall2. rewrite <- HL. clear - Hw. 
    assert (G : forall o, (forall i q, nth_error qs i = Some q -> writes_any V q (instance V (o + i) t)) ->
              Forall2 (fun x y => array_dict x = Ok y) qs (map (fun i => instance V i t) (seq o (length qs)))).
    { clear Hw. induction qs as [|q qs IH]; intros o Hw; [constructor|]. cbn [length seq map]. constructor.
      - apply array_dict_any. replace o with (o + 0) by lia. apply Hw. reflexivity.
      - apply IH. intros i r Hr. replace (S o + i) with (o + S i) by lia. apply Hw. exact Hr. }
    apply G. exact Hw. }
  rewrite E. cbn [bind seq map]. apply stack_instances. exact Ht.
Qed.

Lemma rows_writes n xs qs : n <> 0 -> rows V n xs -> length qs = n ->
  (forall i q, nth_error qs i = Some q -> writes V q (nth i xs A0)) -> writes V (PList qs) (pile V xs).
Proof.
  intros Hn [HL [sh Hs]] HQ Hw.
  assert (HF : Forall2 (writes V) qs xs).
  { clear Hs Hn. subst n. revert qs HQ Hw. induction xs as [|x xs IH]; intros [|q qs] HQ Hw; try discriminate; constructor.
    - apply (Hw 0 q). reflexivity.
    - apply IH; [injection HQ as HQ; exact HQ|]. intros i r Hr. apply (Hw (S i) r Hr). }
  assert (E : pile V xs = Arr (length qs :: sh) (concat (map data xs))).
  { unfold pile. rewrite HQ, HL. f_equal. f_equal. destruct xs as [|x xs]; [cbn in HL; congruence|]. apply Hs. left. reflexivity. }
  rewrite E. apply writes_list; [destruct qs; [cbn in HQ; congruence|discriminate]|exact HF|]. intros x Hx. apply Hs. exact Hx.
Qed.

Lemma only_actions_none q qs : is_dict V q = true -> named V q -> only_actions V (q :: qs) = Ok None.
Proof.
  intros Hd Hn. destruct q as [| | |d]; try discriminate. cbn [only_actions].
  assert (E : only_action V (PDict d) = None).
  { unfold only_action. destruct d as [|[[|k [|]] x] [|]]; try reflexivity. destruct (String.eqb_spec k "action") as [->|]; [|reflexivity]. contradiction (Hn x). reflexivity. }
  rewrite E. reflexivity.
Qed.
Lemma only_actions_all : forall rs, only_actions V (map (fun r => PDict [(["action"], r)]) rs) = Ok (Some rs).
Proof. induction rs as [|r rs IH]; [reflexivity|]. cbn [map only_actions only_action]. cbn. rewrite IH. reflexivity. Qed.

Lemma np_stack_rows n xs : n <> 0 -> rows V n xs -> np_stack xs = Ok (pile V xs).
Proof.
  intros Hn [HL [sh Hs]]. apply (np_stack_pile xs sh).
  - destruct xs; [cbn in HL; congruence|discriminate].
  - intros x Hx. apply Hs. exact Hx.
Qed.
Lemma stack_leaves n xs : n <> 0 -> rows V n xs -> 
  match map Leaf xs with [] => Err "IndexError" | t :: r => stack_trees t r end = Ok (Leaf (pile V xs)).
Proof.
  intros Hn Hr. pose proof (np_stack_rows n xs Hn Hr) as E. destruct xs as [|x xs]; [destruct Hr as [HL _]; cbn in HL; congruence|].
  cbn [map stack_trees].
  assert (EV : map_res value (map (@Leaf (arr V)) xs) = Ok xs).
  { rewrite map_res_map. cbn. rewrite (map_res_ok (fun x => x)). rewrite map_id. reflexivity. }
  rewrite EV. cbn [bind]. rewrite E. reflexivity.
Qed.
Lemma asarray_not_dict' q (a : arr V) : writes V q a -> is_dict V q = false.
Proof. intros H. inversion H; reflexivity. Qed.
Lemma is_dict_any q (t : tree (arr V)) : writes_any V q t -> is_dict V q = true.
Proof.
  intros [[d ->] [H|[[_ [ps [-> _]]] _]]]; [|reflexivity]. apply writes_dict_inv in H. destruct H as [ps ->]. reflexivity.
Qed.

Lemma actions_steps_ok n t p : n <> 0 -> table V n t -> actions_steps V n t p -> actions_list V p = Ok (piled V t).
Proof.
  intros Hn Ht H. destruct t as [xs|d]; cbn [actions_steps] in H.
  - inversion Ht as [? Hr|]; subst. cbn [piled]. destruct H as [->|[qs [-> [HL [Hw|Hw]]]]]; [reflexivity| |].
    + pose proof (asarray_writes _ _ (rows_writes n xs qs Hn Hr HL Hw)) as E. unfold actions_list. destruct qs as [|q qs]; [cbn in HL; congruence|].
      assert (Eq : is_dict V q = false) by (eapply asarray_not_dict'; apply (Hw 0 q); reflexivity). rewrite Eq. rewrite E. reflexivity.
    + assert (EX : exists rs, qs = map (fun r => PDict [(["action"], r)]) rs /\ Forall2 (writes V) rs xs).
      { destruct Hr as [HX _]. clear Ht Hn. rewrite <- HX in HL. clear HX n. revert qs HL Hw. induction xs as [|x xs IH]; intros [|q qs] HL Hw; try discriminate.
        - exists []. split; [reflexivity|constructor].
        - destruct (Hw 0 q eq_refl) as [r [-> H0]]. destruct (IH qs) as [rs [-> HF]].
          + injection HL as HL. exact HL.
          + intros i r' Hr'. apply (Hw (S i) r' Hr').
          + exists (r :: rs). split; [reflexivity|]. constructor; assumption. }
      destruct EX as [rs [-> HF]]. unfold actions_list. destruct rs as [|r rs]; [cbn in HL; congruence|]. cbn [map is_dict].
      change (PDict [(["action"], r)] :: map (fun r : pv V => PDict [(["action"], r)]) rs) with (map (fun r : pv V => PDict [(["action"], r)]) (r :: rs)).
      rewrite only_actions_all. cbn [bind].
      assert (EA : map_res array_tree (r :: rs) = Ok (map Leaf xs)).
      { apply map_res_Forall2. clear - HF. induction HF as [|q x qs xs Hq _ IH]; constructor; [|exact IH]. apply array_tree_writes. constructor. exact Hq. }
      rewrite EA. cbn [bind]. apply (stack_leaves n); assumption.
  - destruct H as [qs [-> [HL Hw]]]. unfold actions_list. destruct qs as [|q qs]; [cbn in HL; congruence|].
    destruct (Hw 0 q eq_refl) as [H0 HN]. rewrite (is_dict_any _ _ H0). rewrite (only_actions_none q qs (is_dict_any _ _ H0) HN). cbn [bind].
    apply (stack_dicts_ok n); auto. intros i r Hr. apply (Hw i r Hr).
Qed.
Lemma only_action_none p : named V p -> only_action V p = None.
Proof.
  intros Hn. unfold only_action. destruct p as [| | |d]; try reflexivity. destruct d as [|[[|k [|]] x] [|]]; try reflexivity.
  destruct (String.eqb_spec k "action") as [->|]; [|reflexivity]. contradiction (Hn x). reflexivity.
Qed.
Lemma actions_arrays_any p t : writes_any V p t -> named V p -> ExpModel.actions_arrays V p = Ok t.
Proof.
  intros Hw Hn. pose proof (is_dict_any _ _ Hw) as Hd. destruct p as [| | |d]; try discriminate. unfold ExpModel.actions_arrays. rewrite (only_action_none _ Hn).
  apply array_dict_any. exact Hw.
Qed.
Lemma actions_arrays_ok t p : actions_arrays V t p -> ExpModel.actions_arrays V p = Ok (piled V t).
Proof.
  intros H. destruct t as [xs|d]; cbn [actions_arrays] in H.
  - destruct H as [->|[r [-> Hw]]]; [reflexivity|]. cbn. rewrite (array_tree_writes _ _ (writes_leaf V _ _ Hw)). reflexivity.
  - destruct H as [Hw Hn]. apply actions_arrays_any; assumption.
Qed.
Lemma action_alone_ok t p : action_alone V t p -> ExpModel.actions_arrays V p = Ok (instance V 0 t).
Proof.
  intros H. destruct t as [xs|d]; cbn [action_alone] in H.
  - destruct H as [->|[r [-> Hw]]]; [reflexivity|]. cbn. rewrite (array_tree_writes _ _ (writes_leaf V _ _ Hw)). reflexivity.
  - destruct H as [Hw Hn]. apply actions_arrays_any; assumption.
Qed.
Lemma internals_steps_ok n t o : n <> 0 -> table V n t -> internals_steps V initial n t o -> internals_list V initial n o = Ok (piled V t).
Proof.
  intros Hn Ht [[-> ->]|[qs [-> [HL Hw]]]].
  - cbn. rewrite piled_tmap, always_tmap, tmap_tmap. f_equal. apply tmap_ext_leaves. intros a _. apply repeat_pile. exact Hn.
  - cbn. apply (stack_dicts_ok n); assumption.
Qed.
Lemma leaves_entries {A} : forall t : tree A, map snd (entries t) = leaves t.
Proof.
  induction t as [a|d IH] using tree_rect'; [reflexivity|]. cbn [entries leaves]. induction IH as [|[k x] d Hx _ IHF]; [reflexivity|].
  cbn [flat_map map concat snd fst]. rewrite map_app, IHF, map_map. cbn [snd] in *. f_equal. exact Hx.
Qed.
Lemma chunks d : forall m (l : list V), length l = m * d -> forall j, concat (map (fun i => firstn d (skipn (i * d) l)) (seq j (m - j))) = skipn (j * d) l.
Proof.
  intros m l HL j. remember (m - j) as q eqn:Eq. revert j Eq. induction q as [|q IH]; intros j Eq.
  - cbn. rewrite skipn_all2; [reflexivity|]. rewrite HL. apply Nat.mul_le_mono_r. lia.
  - cbn [seq map concat]. rewrite IH by lia. replace (S j * d) with (j * d + d) by lia. rewrite <- (skipn_skipn' d (j * d) l). apply firstn_skipn.
Qed.
Lemma prod_rev (l : list nat) : prod (rev l) = prod l.
Proof.
  assert (G : forall a b, prod (a ++ b) = prod a * prod b) by (unfold prod; induction a as [|x a IH]; intros b; cbn [app fold_right]; [lia|]; rewrite IH; lia).
  induction l as [|x l IH]; [reflexivity|]. cbn [rev]. rewrite G, IH. unfold prod. cbn [fold_right]. lia.
Qed.
Lemma tile_pile n (a : arr V) : n <> 0 -> wf V a -> n = 1 \/ shape a = [] -> np_tile n (expand a) = pile V (repeat a n).
Proof.
  intros Hn Hw HC. rewrite <- (repeat_pile V n a Hn). destruct a as [sh ds]. unfold wf in Hw. cbn [shape data] in *. unfold np_tile, np_repeat, expand. cbn [shape data].
  destruct HC as [HC|HC]; subst.
  - destruct (rev (1 :: sh)) as [|d r] eqn:E; [cbn in E; destruct (rev sh); discriminate|]. rewrite Nat.mul_1_r, <- E, rev_involutive. f_equal.
    cbn [repeat concat]. rewrite !app_nil_r.
    assert (HL : length ds = prod r * d).
    { rewrite Hw. change (fold_right Nat.mul 1 sh) with (prod sh). assert (EP : prod (d :: r) = prod sh) by (rewrite <- E, prod_rev; unfold prod; cbn; lia). unfold prod in *. cbn in EP. lia. }
    pose proof (chunks d (prod r) ds HL 0) as HC. rewrite Nat.sub_0_r in HC. cbn [Nat.mul skipn] in HC. etransitivity; [|exact HC]. f_equal. apply map_ext. intros i. apply app_nil_r.
  - cbn in Hw. destruct ds as [|v [|]]; try discriminate. cbn [rev app map seq Nat.mul skipn firstn prod fold_right concat]. rewrite app_nil_r. f_equal. f_equal. lia.
Qed.
Lemma internals_arrays_ok n t o : n <> 0 -> table V n t -> internals_arrays V initial n t o -> ExpModel.internals_arrays V initial n o = Ok (piled V t).
Proof.
  intros Hn Ht [[-> [-> HC]]|[p [-> Hw]]].
  - cbn. rewrite piled_tmap, always_tmap, tmap_tmap. f_equal. apply tmap_ext_leaves. intros a Ha. apply tile_pile; [exact Hn| |].
    + rewrite always_tmap in Ht. assert (Hr : In (repeat a n) (leaves (tmap (fun a => repeat a n) initial))) by (rewrite leaves_tmap; apply (in_map (fun a => repeat a n)); exact Ha).
      destruct (table_leaves _ _ _ Ht Hr) as [_ [sh Hs]]. apply (Hs a). destruct n; [congruence|]. left. reflexivity.
    + destruct HC as [HC|HC]; [left; exact HC|right]. rewrite <- leaves_entries in Ha. apply in_map_iff in Ha. destruct Ha as [[q b] [<- Hq]]. apply (HC q b). exact Hq.
  - pose proof (is_dict_any _ _ Hw) as Hd. destruct p as [| | |d]; try discriminate. cbn.
    apply (array_dict_any _ _ Hw).
Qed.
Lemma internals_alone_ok n t o : internals_alone V initial t o -> ExpModel.internals_arrays V initial n o = Ok (instance V 0 t).
Proof.
  intros [[-> [-> ->]]|[p [-> Hw]]]; [reflexivity|]. pose proof (is_dict_any _ _ Hw) as Hd. destruct p as [| | |d]; try discriminate. cbn.
  apply (array_dict_any _ _ Hw).
Qed.

Lemma expand_instance n t : n = 1 -> table V n t -> tmap expand (instance V 0 t) = piled V t.
Proof.
  intros -> Ht. rewrite instance_tmap, tmap_tmap, piled_tmap. apply tmap_ext_leaves. intros xs Hx. destruct (table_leaves _ _ _ Ht Hx) as [HL _].
  destruct xs as [|x [|]]; try discriminate. cbn [nth]. apply expand_pile.
Qed.
Lemma check_lengths n (xs : list (arr V)) : (forall x, In x xs -> hd_error (shape x) = Some n) -> map_res (check_length V n) xs = Ok (map (fun _ => tt) xs).
Proof.
  intros H. rewrite <- (map_res_ok (fun _ => tt)). apply map_res_ext. intros x Hx. specialize (H x Hx). unfold check_length, dim0.
  destruct (shape x) as [|k s]; [discriminate|]. cbn in H. injection H as ->. cbn. rewrite Nat.eqb_refl. reflexivity.
Qed.
Lemma piled_lengths n t : table V n t -> forall x, In x (leaves (piled V t)) -> hd_error (shape x) = Some n.
Proof.
  intros Ht x Hx. rewrite piled_tmap, leaves_tmap in Hx. apply in_map_iff in Hx. destruct Hx as [xs [<- Hx]]. destruct (table_leaves _ _ _ Ht Hx) as [HL _].
  unfold pile. cbn. rewrite HL. reflexivity.
Qed.
End Inputs.
