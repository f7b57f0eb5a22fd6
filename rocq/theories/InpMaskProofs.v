(** Proofs about the masks of actions. *)

From Coq Require Import String List ZArith Bool Lia.
From Verif Require Import Base InpModel InpSpec InpProofs InpActProofs InpRowProofs InpOutProofs InpBatchProofs.
Import ListNotations.
Open Scope list_scope.
Open Scope nat_scope.

Lemma append_cancel : forall a b s, (a ++ s = b ++ s)%string -> a = b.
Proof.
  intros a b s E. assert (L : forall x, String.length (x ++ s) = String.length x + String.length s) by (induction x as [|c x IH]; cbn; auto).
  assert (EL : String.length a = String.length b) by (apply (f_equal String.length) in E; rewrite !L in E; lia).
  revert b E EL. induction a as [|c a IH]; intros [|c' b] E EL; try discriminate; [reflexivity|]. cbn in E. injection E as -> E. f_equal. apply IH; [exact E|]. cbn in EL. lia.
Qed.

Lemma dget_ddel {A} k k' : forall d : list (string * A), k <> k' -> dget k (ddel k' d) = dget k d.
Proof.
  induction d as [|[k0 x] d IH]; intros H; [reflexivity|]. cbn. destruct (String.eqb_spec k' k0) as [<-|E].
  - destruct (String.eqb_spec k k') as [->|_]; [congruence|reflexivity].
  - cbn. destruct (String.eqb k k0); [reflexivity|]. apply IH. exact H.
Qed.
Lemma ddel_app {A} k x : forall d e : list (string * A), dget k d = Some x -> ddel k (d ++ e) = ddel k d ++ e.
Proof.
  induction d as [|[k0 y] d IH]; intros e H; [discriminate|]. cbn in *. destruct (String.eqb k k0); [reflexivity|]. rewrite IH by exact H. reflexivity.
Qed.
Lemma ddel_last {A} k x : forall d : list (string * A), dget k d = None -> ddel k (d ++ [(k, x)]) = d.
Proof.
  induction d as [|[k0 y] d IH]; intros H; cbn in *; [rewrite String.eqb_refl; reflexivity|]. destruct (String.eqb k k0); [discriminate|]. rewrite IH by exact H. reflexivity.
Qed.
Lemma pop_single {A} m (d : list (string * tree A)) :
  pop [m] (Dict d) = match dget m d with Some x => Ok (Some x, Dict (ddel m d)) | None => Ok (None, Dict d) end.
Proof. cbn. destruct (dget m d); reflexivity. Qed.

(** the actions of an agent without nested actions *)
Definition simple (acts : list (list string * leaf)) : Prop := exists ns, map (fun pl => mask_path (fst pl)) acts = map (fun n => [n]) ns /\ NoDup ns.
Lemma simple_cons p l acts : simple ((p, l) :: acts) -> simple acts /\ exists m, mask_path p = [m] /\ forall p' l', In (p', l') acts -> mask_path p' <> [m].
Proof.
  intros [[|m ns] [E Hnd]]; [discriminate|]. cbn in E. injection E as E1 E2. inversion Hnd; subst. split; [exists ns; auto|]. exists m. split; [exact E1|].
  intros p' l' Hin E. apply (in_map (fun pl => mask_path (fst pl))) in Hin. rewrite E2 in Hin. cbn [fst] in Hin. rewrite E in Hin.
  apply in_map_iff in Hin. destruct Hin as [n [En Hn]]. injection En as ->. contradiction.
Qed.
Lemma flat_simple spec : flat spec = true -> distinct spec -> simple (items spec).
Proof.
  intros Hf Hd. destruct spec as [l|d]; [exists ["action_mask"%string]; split; [reflexivity|repeat constructor; intros []]|].
  exists (map (fun kt => (fst kt ++ "_mask")%string) d). inversion Hd as [|d' Hnd _]; subst. cbn in Hf. clear Hd. split.
  - induction d as [|[k t] d IH]; [reflexivity|]. cbn in Hf. apply andb_prop in Hf. destruct Hf as [H1 H2]. destruct t as [l|]; [|discriminate].
    inversion Hnd; subst. cbn. f_equal. apply IH; assumption.
  - clear Hf. induction d as [|[k t] d IH]; [constructor|]. inversion Hnd; subst. cbn. constructor; [|apply IH; assumption].
    intros H. apply in_map_iff in H. destruct H as [[k' t'] [E H]]. cbn in E. apply append_cancel in E. subst k'. apply H1. apply (in_map fst) in H. exact H.
Qed.

Lemma default_same {A} masking (dflt : leaf -> nat -> A) path l k m : mask_path path = [m] -> maskable masking l = Some k ->
  forall acts d, simple acts -> In (path, l) acts -> dget m d = None ->
  take_masks masking dflt acts (Dict (d ++ [(m, Leaf (dflt l k))])) = take_masks masking dflt acts (Dict d).
Proof.
  intros Hm Hk. induction acts as [|[p' l'] acts IH]; intros d Hs Hin Hd; [contradiction|].
  destruct (simple_cons _ _ _ Hs) as [Hs' [m' [Em Hne]]]. cbn [take_masks].
  destruct Hin as [E|Hin].
  - inversion E; subst. assert (m' = m) by congruence. subst m'. rewrite Hk, Hm, !pop_single, dget_app, Hd. cbn [dget]. rewrite String.eqb_refl. cbn [bind fst snd].
    rewrite ddel_last by exact Hd. reflexivity.
  - destruct (maskable masking l') as [k'|]; [|rewrite IH by assumption; reflexivity].
    assert (Nm : m' <> m) by (intros ->; eapply Hne; eauto).
    rewrite Em, !pop_single, dget_app. destruct (dget m' d) as [x|] eqn:Ex; cbn [bind fst snd].
    + rewrite (ddel_app _ _ _ _ Ex), IH; [reflexivity|assumption|assumption|]. rewrite dget_ddel by congruence. exact Hd.
    + cbn [dget]. destruct (String.eqb_spec m' m) as [|_]; [contradiction|]. cbn [bind fst snd]. rewrite IH by assumption. reflexivity.
Qed.

Lemma given_used {A B} masking (dflt : leaf -> nat -> A) (g : leaf -> A -> res B) path l k m a : mask_path path = [m] -> maskable masking l = Some k ->
  forall acts d ms s bs, simple acts -> In (path, l) acts -> dget m d = Some (Leaf a) ->
  take_masks masking dflt acts (Dict d) = Ok (ms, s) -> masks_to_tensors g acts ms = Ok bs ->
  exists b, g (mask_leaf l k) a = Ok b /\ In (path, b) bs.
Proof.
  intros Hm Hk. assert (Hk' : l_num l = Some k) by (unfold maskable in Hk; destruct masking; [exact Hk|discriminate]).
  induction acts as [|[p' l'] acts IH]; intros d ms s bs Hs Hin Hd HT HB; [contradiction|].
  destruct (simple_cons _ _ _ Hs) as [Hs' [m' [Em Hne]]]. cbn [take_masks] in HT.
  destruct Hin as [E|Hin].
  - inversion E; subst. assert (m' = m) by congruence. subst m'. rewrite Hk, Hm, pop_single, Hd in HT. cbn [bind fst snd] in HT.
    apply bind_ok in HT. destruct HT as [[ms0 s0] [HT E2]]. apply ok_inj in E2. cbn [fst snd] in E2. inversion E2; subst. cbn [masks_to_tensors] in HB. rewrite Hk' in HB.
    apply bind_ok in HB. destruct HB as [b [Hb HB]]. apply bind_ok in HB. destruct HB as [bs0 [_ E3]]. apply ok_inj in E3. subst bs. exists b. split; [exact Hb|left; reflexivity].
  - destruct (maskable masking l') as [k'|].
    + assert (Nm : m' <> m) by (intros ->; eapply Hne; eauto). rewrite Em, pop_single in HT.
      assert (HT' : exists d' o ms0, dget m d' = Some (Leaf a) /\ take_masks masking dflt acts (Dict d') = Ok (ms0, s) /\ ms = (p', Some o) :: ms0).
      { destruct (dget m' d) as [x|] eqn:Ex; cbn [bind fst snd] in HT; apply bind_ok in HT; destruct HT as [[ms0 s0] [HT E2]]; apply ok_inj in E2; cbn [fst snd] in E2; inversion E2; subst.
        - exists (ddel m' d), x, ms0. split; [rewrite dget_ddel by congruence; exact Hd|]. split; [exact HT|reflexivity].
        - exists d, (Leaf (dflt l' k')), ms0. split; [exact Hd|]. split; [exact HT|reflexivity]. }
      destruct HT' as (d' & o & ms0 & Hd' & HT' & ->). cbn [masks_to_tensors] in HB. destruct o as [a'|]; [|discriminate].
      destruct (l_num l') as [k0|]; [|discriminate].
      apply bind_ok in HB. destruct HB as [b [_ HB]]. apply bind_ok in HB. destruct HB as [bs0 [HB E3]]. apply ok_inj in E3. subst bs.
      destruct (IH _ _ _ _ Hs' Hin Hd' HT' HB) as [b' [Hb' Hi]]. exists b'. split; [exact Hb'|right; exact Hi].
    + apply bind_ok in HT. destruct HT as [[ms0 s0] [HT E2]]. apply ok_inj in E2. cbn [fst snd] in E2. inversion E2; subst. cbn [masks_to_tensors] in HB.
      eapply IH; eauto.
Qed.

Lemma mask_name_path path name : mask_name path name -> mask_path path = [name].
Proof. intros [[-> ->]|[k [-> ->]]]; reflexivity. Qed.

Lemma conv_all_inv {V} (conv : leaf -> V -> option V) l : forall vs ws, conv_all V conv l vs = Ok ws -> Forall2 (fun v w => conv l v = Some w) vs ws.
Proof.
  induction vs as [|v vs IH]; intros ws H; cbn in H; [apply ok_inj in H; subst; constructor|]. destruct (conv l v) as [w|] eqn:E; [|discriminate].
  apply bind_ok in H. destruct H as [ws' [H1 H2]]. apply ok_inj in H2. subst ws. constructor; auto.
Qed.
Lemma NoDup_app_one {A} (l : list A) x : NoDup l -> ~ In x l -> NoDup (l ++ [x]).
Proof.
  intros H Hx. induction H as [|y l Hy _ IH]; cbn; [repeat constructor; intros []|]. constructor.
  - rewrite in_app_iff. intros [H|[H|[]]]; [contradiction|]. apply Hx. left. symmetry. exact H.
  - apply IH. intros H. apply Hx. right. exact H.
Qed.
