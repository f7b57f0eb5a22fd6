(** Lemmas about pretrain: rejected recordings and the recorder's files. *)

From Coq Require Import String List ZArith Bool Lia Permutation.
From Verif Require Import Base InpModel InpSpec InpProofs InpActProofs InpRowProofs InpOutProofs InpBatchProofs InpMaskProofs ExpModel ExpSpec ExpProofs ExpRunProofs ExpFedProofs ExpCutProofs PtrSpec PtrProofs PtrRunProofs PtrIterProofs.
Import ListNotations.
Open Scope string_scope.
Open Scope list_scope.
Open Scope nat_scope.

Section Rec.
Variable V : Type.
Notation pile := (pile V).

Lemma concat_all_ok sh : forall es e0, e0 <> [] -> (forall e, In e es -> e <> []) -> (forall e x, In e (e0 :: es) -> In x e -> shape x = sh) ->
  concat_all V (pile e0) (map pile es) = Ok (pile (concat (e0 :: es))).
Proof.
  induction es as [|e es IH]; intros e0 H0 Hne Hs; [cbn; rewrite app_nil_r; reflexivity|]. cbn [map concat_all].
  rewrite (pile_app V e0 e H0 (Hne e (or_introl eq_refl))).
  - cbn [bind]. rewrite IH.
    + cbn [concat]. rewrite app_assoc. reflexivity.
    + destruct e0; [congruence|discriminate].
    + intros z Hz. apply Hne. right. exact Hz.
    + intros z x [<-|Hz] Hx; [|apply (Hs z); [right; right; exact Hz|exact Hx]]. apply in_app_or in Hx. destruct Hx as [Hx|Hx]; [apply (Hs e0)|apply (Hs e)]; try exact Hx; [left|right; left]; reflexivity.
  - exists sh. intros x Hx. apply in_app_or in Hx. destruct Hx as [Hx|Hx]; [apply (Hs e0)|apply (Hs e)]; try exact Hx; [left|right; left]; reflexivity.
Qed.
Lemma column_ok eps : eps <> [] -> (forall e, In e eps -> e <> []) -> (exists sh, forall e x, In e eps -> In x e -> shape x = sh) -> column V eps = Ok (pile (concat eps)).
Proof.
  intros Hn Hne [sh Hs]. unfold column. assert (E : map_res np_stack eps = Ok (map pile eps)).
  { rewrite <- (map_res_ok pile). apply map_res_ext. intros e He. apply (np_stack_pile e sh); [apply Hne; exact He|]. intros x Hx. apply (Hs e x He Hx). }
  rewrite E. cbn [bind]. destruct eps as [|e0 es]; [congruence|]. cbn [map]. apply (concat_all_ok sh).
  - apply Hne. left. reflexivity.
  - intros z Hz. apply Hne. right. exact Hz.
  - exact Hs.
Qed.
Lemma columns_ok top (t : tree (list (list (arr V)))) : (forall eps, In eps (leaves t) -> column V eps = Ok (pile (concat eps))) ->
  columns V top t = Ok (map (fun px => (top :: fst px, pile (concat (snd px)))) (entries t)).
Proof.
  intros H. unfold columns. rewrite <- (map_res_ok (fun px => (top :: fst px, pile (concat (snd px))))), items_entries. apply map_res_ext. intros [p eps] Hin. cbn [fst snd]. rewrite H; [reflexivity|].
  rewrite <- leaves_entries. apply in_map_iff. exists (p, eps). split; [reflexivity|exact Hin].
Qed.
Lemma length_concat {A} (l : list (list A)) : length (concat l) = sum (map (@length A) l).
Proof. induction l as [|x l IH]; [reflexivity|]. cbn [concat map sum fold_right]. rewrite app_length, IH. reflexivity. Qed.
Lemma part_concat {A} ls a b (X : list (list A)) : lengths ls X -> part (sum (firstn a ls)) (sum (part a b ls)) (concat X) = concat (part a b X).
Proof.
  intros <-. assert (E : concat X = concat (firstn a X) ++ concat (part a b X) ++ concat (skipn b (skipn a X))).
  { unfold part. rewrite <- !concat_app. rewrite (firstn_skipn b), (firstn_skipn a). reflexivity. }
  rewrite E. rewrite firstn_map. unfold part at 2. rewrite skipn_map, firstn_map. fold (part a b X). rewrite <- !length_concat. unfold part at 1. rewrite skipn_app, skipn_all, Nat.sub_diag. cbn [app skipn].
  rewrite firstn_app, Nat.sub_diag, firstn_all, firstn_O, app_nil_r. reflexivity.
Qed.
Lemma part_parts ls a b (eps : list (list (arr V))) : episodic V ls eps -> b <> 0 -> a + b <= length ls -> (forall l, In l ls -> l <> 0) ->
  column V (part a b eps) = Ok (pile (concat (part a b eps))).
Proof.
  intros [HL [sh Hs]] Hb Hab Hl. unfold lengths in HL. assert (LE : length eps = length ls) by (rewrite <- HL, map_length; reflexivity). apply column_ok.
  - intros E. apply (f_equal (@length _)) in E. rewrite part_length in E by lia. cbn in E. congruence.
  - intros e He E. subst e. apply part_in in He. apply (Hl 0); [|reflexivity]. rewrite <- HL. apply in_map_iff. exists []. split; [reflexivity|exact He].
  - exists sh. intros e x He Hx. apply (Hs e x); [eapply part_in; exact He|exact Hx].
Qed.
Lemma scalar_episodes ls (t : list (list V)) : lengths ls t -> episodic V ls (map (map (fun v => Arr [] [v])) t).
Proof.
  intros H. split; [unfold lengths in *; rewrite map_map, <- H; apply map_ext; intros e; apply map_length|]. exists []. intros e x He Hx. apply in_map_iff in He. destruct He as [e' [<- _]].
  apply in_map_iff in Hx. destruct Hx as [v [<- _]]. reflexivity.
Qed.
Lemma recorded_part ls S A t r a b : (forall l, In l ls -> l <> 0) -> Forall (episodic V ls) (leaves S) -> Forall (episodic V ls) (leaves A) -> lengths ls t -> lengths ls r ->
  b <> 0 -> a + b <= length ls ->
  exists f, recorded_file V (tmap (part a b) S) (tmap (part a b) A) (part a b t) (part a b r) = Ok f /\ holds V (record_of V S A t r) (sum (firstn a ls), sum (part a b ls)) f.
Proof.
  intros Hl HS HA Ht Hr Hb Hab. rewrite Forall_forall in HS, HA. unfold recorded_file.
  assert (CS : forall T : tree (list (list (arr V))), (forall eps, In eps (leaves T) -> episodic V ls eps) -> forall eps, In eps (leaves (tmap (part a b) T)) -> column V eps = Ok (pile (concat eps))).
  { intros T HT eps Hin. rewrite leaves_tmap in Hin. apply in_map_iff in Hin. destruct Hin as [eps' [<- Hin]]. apply (part_parts ls); auto. }
  rewrite (columns_ok "states" _ (CS S HS)), (columns_ok "actions" _ (CS A HA)). cbn [bind].
  assert (PM : forall (l : list (list V)), map (map (fun v => Arr [] [v])) (part a b l) = part a b (map (map (fun v => Arr [] [v])) l)) by (intros l; unfold part; rewrite skipn_map, firstn_map; reflexivity).
  rewrite !PM. rewrite (part_parts ls a b _ (scalar_episodes ls t Ht) Hb Hab Hl), (part_parts ls a b _ (scalar_episodes ls r Hr) Hb Hab Hl). cbn [bind]. eexists. split; [reflexivity|].
  unfold holds, record_of. cbn [fst snd entries flat_map map app]. rewrite ?map_app. cbn [map].
  assert (EE : forall top T, (forall eps, In eps (leaves T) -> episodic V ls eps) -> map (fun px => (top :: fst px, pile (concat (snd px)))) (entries (tmap (part a b) T)) =
    map (fun e => (fst e, pile (part (sum (firstn a ls)) (sum (part a b ls)) (snd e)))) (map (fun pa => (top :: fst pa, snd pa)) (entries (tmap (@concat (arr V)) T)))).
  { intros top T HT. rewrite !entries_tmap, !map_map. cbn [fst snd]. apply map_ext_in. intros [p eps] Hin. cbn [fst snd]. f_equal. f_equal. symmetry. apply part_concat. apply HT.
    rewrite <- leaves_entries. apply in_map_iff. exists (p, eps). split; [reflexivity|exact Hin]. }
  rewrite !EE by assumption. cbn [fst snd].
  assert (ES : forall (l : list (list V)), lengths ls l -> concat (part a b (map (map (fun v => Arr [] [v])) l)) = part (sum (firstn a ls)) (sum (part a b ls)) (scalars V (concat l))).
  { intros l Hlen. unfold scalars. rewrite concat_map. symmetry. apply part_concat. unfold lengths in *. rewrite map_map, <- Hlen. apply map_ext. intros e. apply map_length. }
  rewrite !ES by assumption. reflexivity.
Qed.
Lemma record_recording initial n S A t r : no_empty S -> no_empty A ->
  recording V initial n (mkTrace V (tmap (@concat _) S) (tmap (@concat _) A) (always V n initial) (concat t) (concat r)) (record_of V S A t r).
Proof.
  intros HS HA. constructor; cbn [t_states t_actions t_internals t_terminal t_reward record_of].
  - cbn. repeat constructor; cbn; intuition discriminate.
  - cbn. intuition.
  - repeat constructor; cbn [snd]; (eapply like_no_empty; [apply like_tmap; reflexivity|assumption]).
  - reflexivity.
  - reflexivity.
  - reflexivity.
  - right. split; reflexivity.
  - left. split; reflexivity.
Qed.
End Rec.

Section Reject.
Variable V : Type.
Variable conv : leaf -> V -> option V.
Variables conv_terminal conv_reward : V -> option V.
Variable is_zero : V -> bool.
Variable one : V.
Variable masking : bool.
Variables states_spec actions_spec internals_spec : tree leaf.
Variable initial : tree (arr V).
Variable M : Type.
Variable model_experience : M -> batch V -> M * res unit.
Variable model_update : M -> M * res unit.
Notation iteration := (iteration V conv conv_terminal conv_reward is_zero one masking states_spec actions_spec internals_spec initial M model_experience model_update).
Notation experience_kwargs := (experience_kwargs V conv conv_terminal conv_reward is_zero one masking states_spec actions_spec internals_spec initial M model_experience).

Lemma fits_select ps t : fits V states_spec t -> fits V states_spec (tmap (gather ps) t).
Proof.
  destruct states_spec as [l|ds], t as [xs|e]; cbn [fits tmap]; auto.
  - intros H y Hy. apply H. eapply gather_in. exact Hy.
  - intros (xs & F & H). pose proof (find_tmap (gather ps) ["state"] (Dict e)) as F'. cbn [tmap] in F'. rewrite F in F'. cbn in F'. exists (gather ps xs). split; [exact F'|]. intros y Hy. apply H. eapply gather_in. exact Hy.
  - intros (p & l & xs & F0 & F & H). pose proof (find_tmap (gather ps) p (Dict e)) as F'. cbn [tmap] in F'. rewrite F in F'. cbn in F'. exists p, l, (gather ps xs). split; [exact F0|]. split; [exact F'|]. intros y Hy. apply H. eapply gather_in. exact Hy.
Qed.
Lemma kwargs_experience m D y i : args_of V D y i ->
  experience_kwargs false m D = experience V conv conv_terminal conv_reward is_zero one masking states_spec actions_spec internals_spec initial M model_experience false m
    (as_arg V (piled V (t_states V y))) (as_arg V (piled V (t_actions V y))) (PArr (vector V (t_terminal V y))) (PArr (vector V (t_reward V y))) (option_map (as_arg V) i).
Proof.
  intros (HK & E1 & E2 & E3 & E4 & E5). unfold ExpModel.experience_kwargs. rewrite E1, E2, E3, E4, E5.
  assert (EK : forallb (fun kt => existsb (String.eqb (fst kt)) parameters) D = true).
  { apply forallb_forall. intros [k t] Hin. apply existsb_exists. exists k. split; [|apply String.eqb_refl]. apply HK. apply in_map_iff. exists (k, t). split; [reflexivity|exact Hin]. }
  rewrite EK. reflexivity.
Qed.
Lemma total_pos n ps : within n ps -> ps <> [] -> total ps <> 0.
Proof. intros HW Hne. destruct ps as [|ok ps]; [congruence|]. cbn. destruct (HW ok (or_introl eq_refl)). lia. Qed.

Lemma iteration_single n x d files parts xs a : trace_ok V n x -> recording V initial n x d -> fits V states_spec (t_states V x) -> t_states V x = Leaf xs -> t_actions V x = Dict a ->
  Forall2 (holds V d) parts files -> within n parts -> forall sel k m, sel <> [] -> (forall j, In j sel -> j < length files) -> exists e, iteration false files sel k m = (m, Err e).
Proof.
  intros Hx R Hf ES EA HF HW sel k m Hne Hb.
  destruct (iteration_kwargs V conv conv_terminal conv_reward is_zero one masking states_spec actions_spec internals_spec initial M model_experience model_update n x d files parts Hx R HF HW sel k m Hne Hb) as (HW' & Hne' & HI & HP & D & HD & E).
  set (ps := map (fun j => nth j parts (0, 0)) sel) in *. rewrite (kwargs_experience m D _ _ HD) in E.
  pose proof (select_ok V n ps x HW' Hx) as (T1 & _). cbn [t_states t_actions PtrRunProofs.select] in *. rewrite ES, EA in *. cbn [tmap piled as_arg] in E. cbn [tmap] in T1. inversion T1 as [? HR|]; subst.
  destruct (reject_single V conv conv_terminal conv_reward is_zero one masking states_spec actions_spec internals_spec initial M model_experience m (total ps) (gather ps xs) (PArr (pile V (gather ps xs)))
    (map (fun pa => (fst pa, PArr (snd pa))) (items (Dict (map (fun kt => (fst kt, piled V (snd kt))) (map (fun kt => (fst kt, tmap (gather ps) (snd kt))) a)))))
    (PArr (vector V (gather ps (t_terminal V x)))) (PArr (vector V (gather ps (t_reward V x)))) (option_map (as_arg V) (option_map (fun t => piled V (tmap (gather ps) t)) (dget "internals" d)))) as [e Ee].
  - apply (total_pos n); assumption.
  - exact HR.
  - apply (fits_select ps (Leaf xs)). exact Hf.
  - right. eexists. split; [reflexivity|]. constructor.
  - exists e. rewrite E. cbn [t_terminal t_reward PtrRunProofs.select] in *. rewrite Ee. reflexivity.
Qed.

Lemma iteration_internals n x d files parts s : trace_ok V n x -> recording V initial n x d -> fits V states_spec (t_states V x) -> t_states V x = Dict s -> dget "internals" d = None ->
  (exists p b, In (p, b) (entries initial) /\ shape b <> []) ->
  Forall2 (holds V d) parts files -> within n parts -> (forall ok, In ok parts -> 1 < snd ok) ->
  forall sel k m, sel <> [] -> (forall j, In j sel -> j < length files) -> exists e, iteration false files sel k m = (m, Err e).
Proof.
  intros Hx R Hf ES EN Hw HF HW H1 sel k m Hne Hb.
  destruct (iteration_kwargs V conv conv_terminal conv_reward is_zero one masking states_spec actions_spec internals_spec initial M model_experience model_update n x d files parts Hx R HF HW sel k m Hne Hb) as (HW' & Hne' & HI & HP & D & HD & E).
  set (ps := map (fun j => nth j parts (0, 0)) sel) in *. rewrite (kwargs_experience m D _ _ HD) in E. rewrite EN in E. cbn [option_map] in E.
  pose proof (select_ok V n ps x HW' Hx) as (T1 & _).
  assert (TS : exists e, t_states V (select V ps x) = Dict e) by (cbn [t_states PtrRunProofs.select]; rewrite ES; eexists; reflexivity).
  assert (TL : 1 < total ps).
  { destruct ps as [|ok ps'] eqn:EP; [congruence|]. cbn. specialize (H1 ok (HI ok (or_introl eq_refl))). lia. }
  pose proof (no_empty_part _ _ _ _ _ R) as HE. rewrite Forall_forall in HE.
  destruct (reject_arrays V conv conv_terminal conv_reward is_zero one masking states_spec actions_spec internals_spec initial M model_experience m (total ps) (t_states V (select V ps x))
    (as_arg V (piled V (t_states V (select V ps x)))) (as_arg V (piled V (t_actions V (select V ps x)))) (PArr (vector V (t_terminal V (select V ps x)))) (PArr (vector V (t_reward V (select V ps x))))) as [e Ee];
    [lia|lia|exact T1|apply fits_select; exact Hf| |exact Hw|].
  - split; [exact TS|]. rewrite as_arg_dict by exact TS. apply batchv_any; [exact TS|eapply table_distinct; exact T1|].
    cbn [t_states PtrRunProofs.select]. eapply like_inside; [apply like_tmap; reflexivity|]. destruct (has_states _ _ _ _ _ R) as [[_ E0]|(s0 & masks & EM & E0 & E')].
    + apply no_empty_inside. apply (HE ("states", t_states V x)). apply dget_some. exact E0.
    + pose proof (HE _ (dget_some _ _ _ E0)) as N. cbn [snd] in N. rewrite E'. cbn [inside]. apply Forall_app. split; [inversion N; subst; assumption|].
      rewrite Forall_map. rewrite Forall_forall. intros z _. constructor.
  - exists e. rewrite E, Ee. reflexivity.
Qed.
End Reject.
