(** Lemmas on the preprocessing layers: PreModel.v. *)
From Coq Require Import String List ZArith Reals Bool Lra Lia.
From Verif Require Import Base ParModel ParProofs PreModel.
Import ListNotations.
Open Scope list_scope.
Open Scope nat_scope.

(** ** Sequence *)
Section Sequence.
Context {T X : Type}.
Variable l : sequence T X.
Variable asserts : bool.

(** State number i, or the last one *)
Definition at_ (ep : list T) (x : T) (i : nat) : T := nth i ep x.
(** The states number t + 1 + i - k for the given i, where t is the number of earlier states *)
Definition window (ep : list T) (x : T) (is : list nat) : list T :=
  map (fun i => at_ ep x (length ep + 1 + i - length_ l)) is.

Lemma map_repeat {A B} (f : A -> B) x n : map f (repeat x n) = repeat (f x) n.
Proof. induction n as [|n IH]; cbn; congruence. Qed.
Lemma tile_concat n (v : list X) : tile n v = concat (repeat v n).
Proof. induction n as [|n IH]; cbn; congruence. Qed.
Lemma concat_length (xs : list (list X)) n : Forall (fun v => length v = n) xs -> length (concat xs) = n * length xs.
Proof. induction 1 as [|v xs Hv _ IH]; cbn; [lia|]. rewrite app_length, IH. lia. Qed.
Lemma slice_blocks n k (v : list X) (vs : list (list X)) : length v = n -> Forall (fun v => length v = n) vs -> length vs = k ->
  slice n (n * k) (concat (v :: vs)) = concat vs.
Proof.
  intros Hv Hvs Hk. unfold slice. cbn [concat]. rewrite skipn_app, skipn_all2, Hv, Nat.sub_diag by lia. cbn [skipn app].
  rewrite firstn_all2; auto. rewrite (concat_length _ n), Hk; auto.
Qed.

(** What is remembered after the states [ep], [x] *)
Definition remembers (s : sequence_state X) (ep : list T) (x : T) : Prop :=
  s_has s = true /\ s_previous s = concat (map (view l) (window ep x (seq 1 (length_ l - 1)))).

Lemma sequence_first s x : s_has s = false -> 1 < length_ l -> length (view l x) = size l ->
  exists s', sequence_apply asserts l s [x] = Ok (s', [unview l (concat (map (view l) (window [] x (seq 0 (length_ l)))))]) /\ remembers s' [] x.
Proof.
  intros Hs Hk Hv. unfold sequence_apply. replace (negb asserts || Nat.leb (length [x]) 1)%bool with true by (now destruct asserts). cbn [assert_ bind]. rewrite Hs. cbn [bind map hd].
  assert (forall is, window [] x is = repeat x (length is)) as Hw.
  { intros is. unfold window. induction is as [|i is IH]; cbn; auto. f_equal; auto. match goal with |- match ?n with O => _ | S _ => _ end = _ => now destruct n | |- nth ?n _ _ = _ => now destruct n | _ => idtac end. }
  eexists. split; [rewrite Hw, seq_length, map_repeat, <- tile_concat; reflexivity|].
  split; [reflexivity|]. cbn [s_previous]. rewrite Hw, seq_length, map_repeat, tile_concat. destruct (length_ l) as [|k] eqn:Ek; [lia|].
  cbn [repeat]. rewrite Nat.sub_succ, Nat.sub_0_r. apply slice_blocks; auto; [|apply repeat_length].
  apply Forall_forall. intros v Hin. apply repeat_spec in Hin. now subst.
Qed.

Lemma sequence_next s ep y x : remembers s ep y -> 1 < length_ l ->
  Forall (fun x => length (view l x) = size l) (ep ++ [y; x]) ->
  exists s', sequence_apply asserts l s [x] = Ok (s', [unview l (concat (map (view l) (window (ep ++ [y]) x (seq 0 (length_ l)))))]) /\ remembers s' (ep ++ [y]) x.
Proof.
  intros [Hs Hp] Hk Hv. unfold sequence_apply. replace (negb asserts || Nat.leb (length [x]) 1)%bool with true by (now destruct asserts). cbn [assert_ bind]. rewrite Hs. cbn [bind map hd].
  assert (s_previous s ++ view l x = concat (map (view l) (window (ep ++ [y]) x (seq 0 (length_ l))))) as E.
  { rewrite Hp. destruct (length_ l) as [|k] eqn:Ek; [lia|]. rewrite seq_S. unfold window. rewrite !map_app, concat_app. cbn [map concat]. rewrite app_nil_r. f_equal.
    - f_equal. f_equal. rewrite Nat.sub_succ, Nat.sub_0_r, <- seq_shift, map_map. apply map_ext_in. intros i Hi. apply in_seq in Hi. rewrite Ek.
      unfold at_. rewrite app_length. cbn [length]. replace (length ep + 1 + 1 + i - S k) with (length ep + 1 + S i - S k) by lia.
      assert (length ep + 1 + S i - S k < length ep + 1) as Hlt by lia. set (j := length ep + 1 + S i - S k) in *. clearbody j.
      destruct (Nat.eq_dec j (length ep)) as [->|Hn].
      + rewrite nth_overflow by lia. rewrite app_nth2, Nat.sub_diag by lia. reflexivity.
      + rewrite app_nth1 by lia. apply nth_indep. lia.
    - unfold at_. rewrite Ek, app_length. cbn [length]. f_equal. replace (length ep + 1 + 1 + k - S k) with (length ep + 1) by lia.
      symmetry. apply nth_overflow. rewrite app_length. cbn. lia. }
  eexists. split; [rewrite E; reflexivity|]. split; [reflexivity|]. cbn [s_previous]. clear E Hp.
  assert (Forall (fun v => length v = size l) (map (view l) (window (ep ++ [y]) x (seq 0 (length_ l))))) as Hall.
  { apply Forall_forall. intros v Hin. apply in_map_iff in Hin. destruct Hin as (t & <- & Ht). unfold window in Ht. apply in_map_iff in Ht. destruct Ht as (i & <- & _).
    rewrite Forall_forall in Hv. apply Hv. unfold at_. destruct (nth_in_or_default (length (ep ++ [y]) + 1 + i - length_ l) (ep ++ [y]) x) as [Hin| ->].
    - change (ep ++ [y; x]) with (ep ++ [y] ++ [x]). rewrite app_assoc. apply in_or_app. now left.
    - apply in_or_app. right. cbn. auto. }
  destruct (length_ l) as [|k] eqn:Ek; [lia|]. change (seq 0 (S k)) with (0 :: seq 1 k) in *. unfold window in *. cbn [map] in *. inversion_clear Hall.
  rewrite Nat.sub_succ, Nat.sub_0_r. apply slice_blocks; auto. now rewrite !map_length, seq_length.
Qed.
End Sequence.

(** ** Networks *)
Section Networks.
Context {T X : Type}.
Variable asserts : bool.

(** The same, except for what is remembered without has_previous *)
Definition like (s s' : layer_state T X) : Prop :=
  match s, s' with
  | SDelta s, SDelta s' => d_has s = d_has s' /\ (d_has s = true -> d_previous s = d_previous s')
  | SSequence s, SSequence s' => s_has s = s_has s' /\ (s_has s = true -> s_previous s = s_previous s')
  | SFunction, SFunction => True
  | _, _ => False
  end.
(** Of the kind of the layer *)
Definition kind (l : layer T X) (s : layer_state T X) : Prop :=
  match l, s with LDelta _, SDelta _ | LSequence _, SSequence _ | LFunction _, SFunction => True | _, _ => False end.

Lemma like_refl s : like s s.
Proof. destruct s; cbn; auto. Qed.

Lemma layer_like (l : layer T X) s s' x : like s s' -> kind l s ->
  match layer_apply asserts l s x, layer_apply asserts l s' x with
  | Ok (t, y), Ok (t', y') => like t t' /\ y = y' /\ kind l t
  | Err m, Err m' => m = m'
  | _, _ => False
  end.
Proof.
  intros Hl Hk. destruct l as [l|l|f]; destruct s as [s|s|]; destruct Hk; destruct s' as [s'|s'|]; try (now destruct Hl); cbn [layer_apply]; cbn [like] in Hl.
  - destruct Hl as [H1 H2]. destruct s as [h p], s' as [h' p']. cbn [d_has d_previous] in *. subst h'. unfold delta_apply. destruct (negb asserts || _)%bool; [|reflexivity]. cbn [assert_ bind d_has d_previous].
    destruct h.
    + rewrite (H2 eq_refl). cbn [like kind]. auto.
    + destruct x as [|a x]; cbn [orb Nat.eqb length].
      * cbn. repeat split; auto.
      * cbn [like kind d_has d_previous]. repeat split; auto. intros _. cbn [List.last]. clear. revert a. induction x as [|b x IH]; intros a; [reflexivity|]. exact (IH b).
  - destruct Hl as [H1 H2]. destruct s as [h p], s' as [h' p']. cbn [s_has s_previous] in *. subst h'. unfold sequence_apply. destruct (negb asserts || _)%bool; [|reflexivity]. cbn [assert_ bind s_has s_previous].
    destruct x as [|a x]; [cbn; auto|]. destruct h.
    + rewrite (H2 eq_refl). destruct x as [|b x]; [|reflexivity]. cbn. auto.
    + cbn [bind]. cbn. auto.
  - destruct (f x) as [y|m]; cbn; auto.
Qed.

Lemma stack_like ls : forall s s' x, Forall2 like s s' -> Forall2 kind ls s ->
  match stack_apply asserts ls s x, stack_apply asserts ls s' x with
  | Ok (t, y), Ok (t', y') => Forall2 like t t' /\ y = y' /\ Forall2 kind ls t
  | Err m, Err m' => m = m'
  | _, _ => False
  end.
Proof.
  induction ls as [|l ls IH]; intros s s' x Hl Hk.
  - inversion Hk; subst. inversion Hl; subst. cbn. auto.
  - inversion Hk as [|? t ? ts Hk1 Hk2]; subst. inversion Hl as [|? t' ? ts' Hl1 Hl2]; subst. cbn [stack_apply].
    pose proof (layer_like l t t' x Hl1 Hk1) as H1. destruct (layer_apply asserts l t x) as [[u y]|m], (layer_apply asserts l t' x) as [[u' y']|m']; try contradiction; cbn [bind]; auto.
    destruct H1 as (H1 & <- & H2). specialize (IH ts ts' y Hl2 Hk2).
    destruct (stack_apply asserts ls ts y) as [[us z]|m], (stack_apply asserts ls ts' y) as [[us' z']|m']; try contradiction; cbn [bind]; auto.
    destruct IH as (H3 & <- & H4). repeat split; constructor; auto.
Qed.

Lemma reset_like (ls : list (layer T X)) : forall s s', Forall2 kind ls s -> Forall2 kind ls s' -> Forall2 like (reset s) (reset s') /\ Forall2 kind ls (reset s).
Proof.
  induction ls as [|l ls IH]; intros s s' H H'; inversion H as [|? t ? ts H1 H2]; subst; inversion H' as [|? t' ? ts' H3 H4]; subst; [split; constructor|].
  destruct (IH ts ts' H2 H4). cbn [reset map]. split; constructor; auto; destruct l, t, t'; cbn in *; auto; split; auto; discriminate.
Qed.

Lemma step_like ls s s' e : Forall2 like s s' -> Forall2 kind (flatten ls) s ->
  match step asserts ls s e, step asserts ls s' e with
  | Ok (t, y), Ok (t', y') => Forall2 like t t' /\ y = y' /\ Forall2 kind (flatten ls) t
  | Err m, Err m' => m = m'
  | _, _ => False
  end.
Proof.
  intros Hl Hk. destruct e; cbn [step]; try (apply stack_like; auto).
  - assert (Forall2 kind (flatten ls) s') as Hk'.
    { clear - Hl Hk. revert s' Hl. induction Hk as [|l t ls' ts H1 H2 IH]; intros s' Hl; inversion Hl; subst; constructor; auto. destruct l, t, y; cbn in *; auto; tauto. }
    destruct (reset_like (flatten ls) s s' Hk Hk'). auto.
  - auto.
Qed.

Lemma steps_like ls es : forall s s', Forall2 like s s' -> Forall2 kind (flatten ls) s ->
  match steps asserts ls s es, steps asserts ls s' es with
  | Ok t, Ok t' => Forall2 like t t' /\ Forall2 kind (flatten ls) t
  | Err m, Err m' => m = m'
  | _, _ => False
  end.
Proof.
  induction es as [|e es IH]; intros s s' Hl Hk; cbn [steps]; auto. pose proof (step_like ls s s' e Hl Hk) as H.
  destruct (step asserts ls s e) as [[t y]|m], (step asserts ls s' e) as [[t' y']|m']; try contradiction; cbn [bind]; auto. destruct H as (H1 & _ & H2). apply (IH t t' H1 H2).
Qed.

Lemma like_self (s : state T X) : Forall2 like s s.
Proof. induction s; constructor; auto. apply like_refl. Qed.
Lemma steps_kind ls es s t : Forall2 kind (flatten ls) s -> steps asserts ls s es = Ok t -> Forall2 kind (flatten ls) t.
Proof. intros Hk E. pose proof (steps_like ls es s s (like_self s) Hk) as H. rewrite E in H. tauto. Qed.
Lemma initial_kind zero (ls : layers T X) : Forall2 kind (flatten ls) (initial zero ls).
Proof. unfold initial. induction (flatten ls) as [|l r IH]; cbn; constructor; auto. destruct l; cbn; auto. Qed.
Lemma steps_app (ls : layers T X) es es' : forall s, steps asserts ls s (es ++ es') = bind (steps asserts ls s es) (fun s => steps asserts ls s es').
Proof.
  induction es as [|e es IH]; intros s; [reflexivity|]. cbn [steps app]. destruct (step asserts ls s e) as [[t y]|m]; [|reflexivity]. cbn [bind]. apply IH.
Qed.
End Networks.
