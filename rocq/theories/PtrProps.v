(** Properties of pretrain: C152 how often the recorded episodes are used, and which recordings can be used. *)

From Coq Require Import String List ZArith Bool Lia Permutation.
From Verif Require Import Base InpModel InpSpec InpProofs InpActProofs InpRowProofs InpOutProofs InpBatchProofs InpMaskProofs ExpModel ExpSpec ExpProofs ExpRunProofs ExpFedProofs ExpCutProofs ExpProps PtrSpec PtrProofs PtrRunProofs PtrIterProofs PtrRecProofs.
Import ListNotations.
Open Scope string_scope.
Open Scope list_scope.
Open Scope nat_scope.

Lemma found_traces V ext d files : found V ext d files -> traces V ext d = files.
Proof.
  induction 1 as [|f d fs H IH|e f d fs Hne H IH|e d fs H IH]; cbn [traces]; [reflexivity| | |exact IH].
  - rewrite String.eqb_refl, IH. reflexivity.
  - apply String.eqb_neq in Hne. rewrite Hne. exact IH.
Qed.

Section Pretrain.
Variable V : Type.
Variable conv : leaf -> V -> option V.
Variables conv_terminal conv_reward : V -> option V.
Variable is_zero : V -> bool.
Variable one : V.
Variable masking : bool.
Variables states_spec actions_spec internals_spec : tree leaf.
Variable initial : tree (arr V).
Variable M : Type.
Variable model_experience : M -> batch V -> M * res unit.
Variable model_update : M -> M * res unit.
Variable shuffle : nat -> list nat -> list nat.
Hypothesis shuffle_permutes : forall i l, Permutation l (shuffle i l).
Notation experience := (experience V conv conv_terminal conv_reward is_zero one masking states_spec actions_spec internals_spec initial M model_experience).
Notation pretrain := (pretrain V conv conv_terminal conv_reward is_zero one masking states_spec actions_spec internals_spec initial M model_experience model_update shuffle).
Notation written := (written V initial).

Lemma choice_used F num sel : F <> 0 -> (forall k, num = Some k -> (0 < k)%Z) -> choice F num sel -> sel <> [].
Proof.
  intros HF Hk (_ & _ & HL) E. subst sel. destruct num as [k|]; cbn in HL; [|lia]. specialize (Hk k eq_refl). lia.
Qed.

(** Each iteration uses different files of the directory, as many as asked for or as there are: the episodes of these files
    are given to experience, whatever way they could be written as its arguments, then the model is updated. *)
Theorem C152_pretrain : forall ext dir files n x d parts (call : nat -> pv V * pv V * pv V * pv V * option (pv V)) its num ups,
  found V ext dir files -> files <> [] -> (forall k, num = Some k -> (0 < k)%Z) ->
  trace_ok V n x -> recording V initial n x d -> usable V initial x d -> fits V states_spec (t_states V x) ->
  Forall2 (holds V d) parts files -> (forall ok, In ok parts -> snd ok <> 0 /\ fst ok + snd ok <= n /\ finished V is_zero (part (fst ok) (snd ok) (t_terminal V x))) ->
  (forall j ok, nth_error parts j = Some ok -> let '(s, a, t, r, i) := call j in written (snd ok) (cut V (fst ok) (snd ok) x) s a t r i) ->
  exists sels, length sels = Z.to_nat its /\ (forall sel, In sel sels -> choice (length files) num sel) /\
  forall m, pretrain false m (Some dir) its num ups ext =
    in_turn (fun sel m => andthen (in_turn (fun j m => let '(s, a, t, r, i) := call j in experience false m s a t r i) sel m) (times model_update (Z.to_nat ups))) sels m.
Proof.
  intros ext dir files n x d parts call its num ups Hfound Hfiles Hnum Hx R HU Hf HF Hparts Hcall.
  exists (chosen shuffle num (Z.to_nat its) 0 (seq 0 (length files))). split; [apply chosen_length|].
  assert (HC : forall sel, In sel (chosen shuffle num (Z.to_nat its) 0 (seq 0 (length files))) -> choice (length files) num sel).
  { intros sel. apply chosen_choice with (shuffle := shuffle) (n := Z.to_nat its) (i := 0) (l := seq 0 (length files)); [exact shuffle_permutes| |apply Permutation_refl].
    destruct num as [k|]; [specialize (Hnum k eq_refl); lia|exact I]. }
  split; [exact HC|]. intros m. unfold ExpModel.pretrain. rewrite (found_traces V ext dir files Hfound).
  apply iterations_chosen. intros sel m' Hsel. specialize (HC sel Hsel).
  apply (iteration_ok V conv conv_terminal conv_reward is_zero one masking states_spec actions_spec internals_spec initial M model_experience model_update n x d files parts call); try assumption.
  - intros ok Hok. destruct (Hparts ok Hok) as (H1 & H2 & _). split; assumption.
  - intros ok Hok. apply (Hparts ok Hok).
  - apply (choice_used (length files) num); [destruct files; [congruence|discriminate]|exact Hnum|exact HC].
  - apply HC.
Qed.

(** A directory that does not exist is an error, ... *)
Theorem C152_missing : forall busy m its num ups ext, exists e, pretrain busy m None its num ups ext = (m, Err e).
Proof. intros. eexists. reflexivity. Qed.

(** ... so are a directory without such files and zero files per iteration, and pretrain in the middle of an episode. *)
Lemma iteration_none files k m : exists e, iteration V conv conv_terminal conv_reward is_zero one masking states_spec actions_spec internals_spec initial M model_experience model_update false files [] k m = (m, Err e).
Proof. eexists. reflexivity. Qed.
Lemma first_iteration dir its num ups ext m : (0 < its)%Z ->
  (forall sel m, choice (length (traces V ext dir)) num sel -> exists e, iteration V conv conv_terminal conv_reward is_zero one masking states_spec actions_spec internals_spec initial M model_experience model_update false (traces V ext dir) sel ups m = (m, Err e)) ->
  (forall k, num = Some k -> (0 <= k)%Z) -> exists e, pretrain false m (Some dir) its num ups ext = (m, Err e).
Proof.
  intros Hi H Hk. unfold ExpModel.pretrain. destruct (Z.to_nat its) as [|k] eqn:EK; [lia|]. cbn [iterations].
  destruct (H (match num with None => shuffle 0 (seq 0 (length (traces V ext dir))) | Some k => slice (shuffle 0 (seq 0 (length (traces V ext dir)))) 0 k end) m) as [e E].
  - apply (chosen_choice shuffle (length (traces V ext dir)) num shuffle_permutes) with (n := 1) (i := 0) (l := seq 0 (length (traces V ext dir))); [|apply Permutation_refl|left; reflexivity].
    destruct num as [z|]; [apply Hk; reflexivity|exact I].
  - exists e. rewrite E. reflexivity.
Qed.
Theorem C152_empty : forall dir files its num ups ext m, found V ext dir files -> (0 < its)%Z -> (files = [] /\ (forall k, num = Some k -> (0 <= k)%Z)) \/ num = Some 0%Z ->
  exists e, pretrain false m (Some dir) its num ups ext = (m, Err e).
Proof.
  intros dir files its num ups ext m Hfound Hi H. apply first_iteration; [exact Hi| |].
  - rewrite (found_traces V ext dir files Hfound). intros sel m' (_ & _ & HL). assert (E : sel = []).
    { destruct sel; [reflexivity|]. destruct H as [[H _]|H]; subst; cbn in HL; [destruct num; lia|discriminate]. }
    rewrite E. apply iteration_none.
  - intros k E. destruct H as [[_ H]|H]; [apply H; exact E|]. rewrite H in E. injection E as <-. lia.
Qed.
Theorem C152_busy : forall m dir its num ups ext, (0 < its)%Z -> exists e, pretrain true m dir its num ups ext = (m, Err e).
Proof.
  intros m [dir|] its num ups ext Hi; [|eexists; reflexivity]. unfold ExpModel.pretrain. destruct (Z.to_nat its) as [|k] eqn:EK; [lia|]. cbn [iterations].
  set (sel := match num with None => _ | Some _ => _ end).
  assert (H : exists e, iteration V conv conv_terminal conv_reward is_zero one masking states_spec actions_spec internals_spec initial M model_experience model_update true (traces V ext dir) sel ups m = (m, Err e)).
  { unfold iteration. destruct (bind _ _) as [b|e]; [|eexists; reflexivity]. unfold experience_kwargs.
    destruct (forallb _ b); [|eexists; reflexivity]. destruct (dget "states" b); [|eexists; reflexivity]. destruct (dget "actions" b); [|eexists; reflexivity].
    destruct (dget "terminal" b); [|eexists; reflexivity]. destruct (dget "reward" b); eexists; reflexivity. }
  destruct H as [e E]. rewrite E. eexists. reflexivity.
Qed.

(** The files that the recorder writes hold parts of the recording of all episodes, which pretrain can use. *)
Theorem C152_recorded : forall ls S A t r a b, (forall l, In l ls -> l <> 0) -> Forall (episodic V ls) (leaves S) -> Forall (episodic V ls) (leaves A) -> lengths ls t -> lengths ls r ->
  b <> 0 -> a + b <= length ls ->
  exists f, recorded_file V (tmap (part a b) S) (tmap (part a b) A) (part a b t) (part a b r) = Ok f /\ holds V (record_of V S A t r) (sum (firstn a ls), sum (part a b ls)) f.
Proof. intros. apply recorded_part; assumption. Qed.
Theorem C152_recording : forall n S A t r, no_empty S -> no_empty A ->
  recording V initial n (mkTrace V (tmap (@concat _) S) (tmap (@concat _) A) (always V n initial) (concat t) (concat r)) (record_of V S A t r).
Proof. intros. apply record_recording; assumption. Qed.

(** But not if there is a single state and several named actions, ... *)
Theorem C152_single_refuted : forall ext dir files n x d parts xs a its num ups m,
  found V ext dir files -> files <> [] -> (forall k, num = Some k -> (0 < k)%Z) -> (0 < its)%Z ->
  trace_ok V n x -> recording V initial n x d -> fits V states_spec (t_states V x) ->
  Forall2 (holds V d) parts files -> (forall ok, In ok parts -> snd ok <> 0 /\ fst ok + snd ok <= n) ->
  t_states V x = Leaf xs -> t_actions V x = Dict a ->
  exists e, pretrain false m (Some dir) its num ups ext = (m, Err e).
Proof.
  intros ext dir files n x d parts xs a its num ups m Hfound Hfiles Hnum Hi Hx R Hf HF HW ES EA. apply first_iteration; [exact Hi| |intros k E; specialize (Hnum k E); lia].
  rewrite (found_traces V ext dir files Hfound). intros sel m' HC.
  eapply iteration_single; try eassumption; [|apply HC]. apply (choice_used (length files) num); [destruct files; [congruence|discriminate]|exact Hnum|exact HC].
Qed.

(** ... nor with several timesteps if some internal of the agent is not a number, as recorders do not write internals. *)
Theorem C152_internals_refuted : forall ext dir files n x d parts s its num ups m,
  found V ext dir files -> files <> [] -> (forall k, num = Some k -> (0 < k)%Z) -> (0 < its)%Z ->
  trace_ok V n x -> recording V initial n x d -> fits V states_spec (t_states V x) ->
  Forall2 (holds V d) parts files -> (forall ok, In ok parts -> 1 < snd ok /\ fst ok + snd ok <= n) ->
  t_states V x = Dict s -> dget "internals" d = None -> (exists p b, In (p, b) (entries initial) /\ shape b <> []) ->
  exists e, pretrain false m (Some dir) its num ups ext = (m, Err e).
Proof.
  intros ext dir files n x d parts s its num ups m Hfound Hfiles Hnum Hi Hx R Hf HF HW ES EN Hw. apply first_iteration; [exact Hi| |intros k E; specialize (Hnum k E); lia].
  rewrite (found_traces V ext dir files Hfound). intros sel m' HC.
  eapply iteration_internals with (n := n) (x := x) (d := d) (parts := parts) (s := s); try eassumption.
  - intros ok Hok. destruct (HW ok Hok). split; lia.
  - intros ok Hok. apply (HW ok Hok).
  - apply (choice_used (length files) num); [destruct files; [congruence|discriminate]|exact Hnum|exact HC].
  - apply HC.
Qed.
End Pretrain.

(** ** Examples *)

(** The two episodes of ExpProps.v in a file each, with internals and masks *)
Definition ex_recorded : list (string * tree (list (arr Z))) :=
  [("states", ex_s); ("actions", ex_a); ("terminal", Leaf (scalars Z [0; 1; 2]%Z)); ("reward", Leaf (scalars Z [10; 20; 30]%Z));
   ("internals", always Z 3 ex_initial);
   ("auxiliaries", Dict [("x", Dict [("mask", Leaf [Arr [3]%nat [1; 1; 0]%Z; Arr [3]%nat [0; 0; 1]%Z; Arr [3]%nat [0; 1; 1]%Z])])])].
Definition ex_file (d : list (string * tree (list (arr Z)))) (ok : nat * nat) : file Z := map (fun e => (fst e, pile Z (part (fst ok) (snd ok) (snd e)))) (entries (Dict d)).
Definition ex_dir : list (entry Z) := [(".npz", Some (ex_file ex_recorded (0, 2))); (".txt", Some []); (".npz", None); (".npz", Some (ex_file ex_recorded (2, 1)))].
Definition ex_call (j : nat) : pv Z * pv Z * pv Z * pv Z * option (pv Z) :=
  let '(o, k) := match j with 0 => (0, 2) | _ => (2, 1) end in let y := cut Z o k ex_full in
  (batchv Z (t_states Z y), batchv Z (t_actions Z y), PArr (vector Z (t_terminal Z y)), PArr (vector Z (t_reward Z y)), Some (batchv Z (t_internals Z y))).
(** The model notes what it is given, and an empty batch for each update *)
Definition ex_update (m : list (batch Z)) : list (batch Z) * res unit := (m ++ [mkBatch Z (Dict []) (Dict []) [] (Dict []) (Arr [] []) (Arr [] [])], Ok tt).
Definition ex_shuffle (i : nat) (l : list nat) : list nat := match i with 0 => l | _ => rev l end.
Definition ex_pretrain (initial : tree (arr Z)) (states actions : tree leaf) := pretrain Z ex_conv ex_terminal Some (Z.eqb 0) 1%Z true states actions ex_internals initial (list (batch Z)) note ex_update ex_shuffle false.

Lemma ex_recording : recording Z ex_initial 3 ex_full ex_recorded.
Proof.
  constructor.
  - cbn. repeat constructor; cbn; intuition discriminate.
  - cbn. intuition.
  - repeat constructor; cbn; try discriminate.
  - reflexivity.
  - reflexivity.
  - reflexivity.
  - left. reflexivity.
  - right. eexists. exists [("x", [Arr [3]%nat [1; 1; 0]%Z; Arr [3]%nat [0; 0; 1]%Z; Arr [3]%nat [0; 1; 1]%Z])]. split; [reflexivity|]. split; reflexivity.
Qed.
Lemma ex_shuffles : forall i l, Permutation l (ex_shuffle i l).
Proof. intros [|i] l; cbn; [apply Permutation_refl|apply Permutation_rev]. Qed.

Example C152_pretrain_example : found Z ".npz" ex_dir [ex_file ex_recorded (0, 2); ex_file ex_recorded (2, 1)] /\ trace_ok Z 3 ex_full /\
  recording Z ex_initial 3 ex_full ex_recorded /\ usable Z ex_initial ex_full ex_recorded /\ fits Z ex_states (t_states Z ex_full) /\
  Forall2 (holds Z ex_recorded) [(0, 2); (2, 1)] [ex_file ex_recorded (0, 2); ex_file ex_recorded (2, 1)] /\
  (forall ok, In ok [(0, 2); (2, 1)] -> snd ok <> 0 /\ fst ok + snd ok <= 3 /\ finished Z (Z.eqb 0) (part (fst ok) (snd ok) (t_terminal Z ex_full))) /\
  (forall j ok, nth_error [(0, 2); (2, 1)] j = Some ok -> let '(s, a, t, r, i) := ex_call j in written Z ex_initial (snd ok) (cut Z (fst ok) (snd ok) ex_full) s a t r i) /\
  (forall i l, Permutation l (ex_shuffle i l)) /\
  map (fun b => data (b_reward Z b)) (fst (ex_pretrain ex_initial ex_states ex_actions [] (Some ex_dir) 2 (Some 1%Z) 1 ".npz")) = [[10; 20]; []; [30]; []]%Z /\
  map (fun b => data (b_reward Z b)) (fst (ex_pretrain ex_initial ex_states ex_actions [] (Some ex_dir) 2 None 2 ".npz")) = [[10; 20]; [30]; []; []; [30]; [10; 20]; []; []]%Z /\
  snd (ex_pretrain ex_initial ex_states ex_actions [] (Some ex_dir) 2 None 2 ".npz") = Ok tt.
Proof.
  split; [constructor; apply found_other; [discriminate|]; apply found_no_file; constructor; constructor|]. split; [exact ex_full_ok|]. split; [exact ex_recording|].
  split; [split; [intros xs; discriminate|intros E; discriminate]|]. split; [exact ex_fits|]. split; [repeat constructor|].
  split. { intros ok [<-|[<-|[]]]; cbn; (split; [lia|split; [lia|]]); [exists [0%Z], 1%Z|exists [], 2%Z]; split; reflexivity. }
  split. { intros [|[|j]] ok E; cbn in E; [injection E as <-|injection E as <-|destruct j; discriminate]; cbn [ex_call]; apply by_arrays; try constructor;
    cbn [cut t_states t_actions t_internals t_terminal t_reward ex_full timesteps map fst snd];
    [eexists; reflexivity|any_tac; apply batchv_writes|any_tac; apply batchv_writes|intros x Hx; discriminate|eexists; split; [reflexivity|]; any_tac; apply batchv_writes
    |eexists; reflexivity|any_tac; apply batchv_writes|any_tac; apply batchv_writes|intros x Hx; discriminate|eexists; split; [reflexivity|]; any_tac; apply batchv_writes]. }
  split; [exact ex_shuffles|]. split; [vm_compute; reflexivity|]. split; vm_compute; reflexivity.
Qed.
Example C152_missing_example : ex_pretrain ex_initial ex_states ex_actions [] None 2 None 1 ".npz" = ([], Err "TensorforceError: invalid value directory").
Proof. reflexivity. Qed.
Example C152_empty_example : found Z ".x" ex_dir [] /\ snd (ex_pretrain ex_initial ex_states ex_actions [] (Some ex_dir) 1 None 1 ".x") = Err "AttributeError" /\
  snd (ex_pretrain ex_initial ex_states ex_actions [] (Some ex_dir) 1 (Some 0%Z) 1 ".npz") = Err "AttributeError".
Proof.
  split; [|split; reflexivity]. apply found_other; [discriminate|]. apply found_other; [discriminate|]. apply found_no_file. apply found_other; [discriminate|]. constructor.
Qed.
Example C152_busy_example : exists e, pretrain Z ex_conv ex_terminal Some (Z.eqb 0) 1%Z true ex_states ex_actions ex_internals ex_initial (list (batch Z)) note ex_update ex_shuffle true [] (Some ex_dir) 1 None 1 ".npz" = ([], Err e).
Proof. eexists. vm_compute. reflexivity. Qed.

(** Three episodes of one, two and one timesteps, of a single state and a single action; the recorder's files of the first two
    episodes and the last *)
Definition ex_ls : list nat := [1; 2; 1].
Definition ex_S : tree (list (list (arr Z))) := Leaf [[Arr [2]%nat [1; 2]%Z]; [Arr [2]%nat [3; 4]%Z; Arr [2]%nat [5; 6]%Z]; [Arr [2]%nat [7; 8]%Z]].
Definition ex_A : tree (list (list (arr Z))) := Leaf [[Arr []%nat [0]%Z]; [Arr []%nat [2]%Z; Arr []%nat [1]%Z]; [Arr []%nat [0]%Z]].
Definition ex_t : list (list Z) := [[1]; [0; 2]; [1]]%Z.
Definition ex_r : list (list Z) := [[10]; [20; 30]; [40]]%Z.
Example C152_recorded_example : Forall (episodic Z ex_ls) (leaves ex_S) /\ Forall (episodic Z ex_ls) (leaves ex_A) /\ lengths ex_ls ex_t /\ lengths ex_ls ex_r /\
  exists f g, recorded_file Z (tmap (part 0 2) ex_S) (tmap (part 0 2) ex_A) (part 0 2 ex_t) (part 0 2 ex_r) = Ok f /\
    recorded_file Z (tmap (part 2 1) ex_S) (tmap (part 2 1) ex_A) (part 2 1 ex_t) (part 2 1 ex_r) = Ok g /\
    holds Z (record_of Z ex_S ex_A ex_t ex_r) (0, 3) f /\ holds Z (record_of Z ex_S ex_A ex_t ex_r) (3, 1) g /\
    recording Z (Dict []) 4 (mkTrace Z (tmap (@concat _) ex_S) (tmap (@concat _) ex_A) (always Z 4 (Dict [])) (concat ex_t) (concat ex_r)) (record_of Z ex_S ex_A ex_t ex_r) /\
    (let p := pretrain Z ex_conv ex_terminal Some (Z.eqb 0) 1%Z true (Leaf (mkLeaf [2] None)) (Leaf (mkLeaf [] (Some 3))) (Dict []) (Dict []) (list (batch Z)) note ex_update ex_shuffle false []
                (Some [(".npz", Some f); (".npz", Some g)]) 1 None 1 ".npz" in
     snd p = Ok tt /\ map (fun b => data (b_reward Z b)) (fst p) = [[10]; [20; 30]; [40]; []]%Z).
Proof.
  assert (E : forall l, In l ex_ls -> l <> 0) by (intros l [<-|[<-|[<-|[]]]]; discriminate).
  split. { repeat constructor. eexists. intros e x He Hx. cbn in He. repeat (destruct He as [<-|He]; [repeat (destruct Hx as [<-|Hx]; [reflexivity|]); destruct Hx|]). destruct He. }
  split. { repeat constructor. eexists. intros e x He Hx. cbn in He. repeat (destruct He as [<-|He]; [repeat (destruct Hx as [<-|Hx]; [reflexivity|]); destruct Hx|]). destruct He. }
  split; [reflexivity|]. split; [reflexivity|]. do 2 eexists. split; [vm_compute; reflexivity|]. split; [vm_compute; reflexivity|]. split; [vm_compute; reflexivity|]. split; [vm_compute; reflexivity|].
  split; [apply C152_recording; constructor|]. split; vm_compute; reflexivity.
Qed.
Example C152_recording_example : no_empty ex_S /\ no_empty ex_A /\ concat ex_r = [10; 20; 30; 40]%Z /\ tmap (@concat _) ex_A = Leaf [Arr []%nat [0]%Z; Arr []%nat [2]%Z; Arr []%nat [1]%Z; Arr []%nat [0]%Z].
Proof. split; [constructor|]. split; [constructor|]. split; reflexivity. Qed.

(** The same states with the actions of ExpProps.v *)
Definition ex_single : list (string * tree (list (arr Z))) := [("states", Leaf [Arr [2]%nat [1; 2]%Z; Arr [2]%nat [3; 4]%Z; Arr [2]%nat [5; 6]%Z]); ("actions", ex_a); ("terminal", Leaf (scalars Z [0; 1; 2]%Z)); ("reward", Leaf (scalars Z [10; 20; 30]%Z))].
Definition ex_single_trace : trace Z := mkTrace Z (Leaf [Arr [2]%nat [1; 2]%Z; Arr [2]%nat [3; 4]%Z; Arr [2]%nat [5; 6]%Z]) ex_a (always Z 3 (Dict [])) [0; 1; 2]%Z [10; 20; 30]%Z.
Example C152_single_refuted_example : trace_ok Z 3 ex_single_trace /\ recording Z (Dict []) 3 ex_single_trace ex_single /\ fits Z (Leaf (mkLeaf [2] None)) (t_states Z ex_single_trace) /\
  exists e, ex_pretrain (Dict []) (Leaf (mkLeaf [2] None)) ex_actions [] (Some [(".npz", Some (ex_file ex_single (0, 3)))]) 1 None 1 ".npz" = ([], Err e).
Proof.
  split. { unfold trace_ok. cbn. split; [constructor; rows_tac|]. split; [table_tac|]. split; [constructor; constructor|]. split; [eexists; reflexivity|split; reflexivity]. }
  split. { constructor; cbn; try reflexivity; try (left; split; reflexivity); try (right; split; reflexivity); [repeat constructor; cbn; intuition discriminate|intuition|repeat constructor; discriminate]. }
  split. { cbn. intros x Hx. repeat (destruct Hx as [<-|Hx]; [reflexivity|]). destruct Hx. }
  eexists. vm_compute. reflexivity.
Qed.
Definition ex_dict : list (string * tree (list (arr Z))) := [("states", ex_s); ("actions", ex_a); ("terminal", Leaf (scalars Z [0; 1; 2]%Z)); ("reward", Leaf (scalars Z [10; 20; 30]%Z))].
Example C152_internals_refuted_example : trace_ok Z 3 ex_trace /\ recording Z ex_initial 3 ex_trace ex_dict /\ dget "internals" ex_dict = None /\
  (exists p b, In (p, b) (entries ex_initial) /\ shape b <> []) /\
  exists e, ex_pretrain ex_initial ex_states ex_actions [] (Some [(".npz", Some (ex_file ex_dict (0, 3)))]) 1 None 1 ".npz" = ([], Err e).
Proof.
  split; [exact ex_trace_ok|].
  split. { constructor; cbn; try reflexivity; try (left; split; reflexivity); try (right; split; reflexivity); [repeat constructor; cbn; intuition discriminate|intuition|repeat constructor; discriminate]. }
  split; [reflexivity|]. split; [do 2 eexists; split; [left; reflexivity|discriminate]|]. eexists. vm_compute. reflexivity.
Qed.

Print Assumptions C152_pretrain.
Print Assumptions C152_missing.
Print Assumptions C152_empty.
Print Assumptions C152_busy.
Print Assumptions C152_recorded.
Print Assumptions C152_recording.
Print Assumptions C152_single_refuted.
Print Assumptions C152_internals_refuted.
