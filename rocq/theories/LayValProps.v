(** Values computed by convolution, pooling and linear layers (C117). *)
From Coq Require Import String List ZArith Lia Bool PeanoNat.
From Verif Require Import Base SpecSpec SpecModel LayModel LaySpec LayProofs LayNet LayAuto LayProps.
Import ListNotations.
Open Scope list_scope.
Open Scope nat_scope.

Section Values.
Variable E : Type.
Variables (zero : E) (add mul : E -> E -> E).
Variable elementwise : string -> E -> E.
Variables (relu neg : E -> E).
Variable softmax : list E -> nat -> E.
Variable reduce : reduction -> list E -> E.
Variable pooled : pool -> list E -> E.
Variable as_int : E -> Z.

Notation apply_ := (layer_apply E zero add mul elementwise relu neg softmax reduce pooled as_int).
Notation sum_ := (sum_to E zero add).

(** Layers without bias, activation and dropout *)
Definition plain (size : nat) : tbase := mkTb size false None false.

(** The arguments and the result of an application that succeeds *)
Lemma apply_inv : forall c p (s : lspec E) x y, apply_ c p s x = Ok y ->
  exists so z, out_spec E c s = Ok so /\
    body E zero add mul elementwise relu neg softmax reduce pooled as_int c p s so (t_nd E x) = Ok z /\ t_nd E y = z /\
    exists B, nd_shape z = B :: l_shape E so.
Proof.
  intros c p s x y H. unfold layer_apply, checked in H. destruct (sig_ok E s); cbn [bind] in H; [|discriminate].
  destruct (out_spec E c s) as [so|]; cbn [bind] in H; [|discriminate]. destruct (sig_ok E so); cbn [bind] in H; [|discriminate].
  destruct (fits_sig E s x); cbn [bind] in H; [|discriminate].
  destruct (body _ _ _ _ _ _ _ _ _ _ _ c p s so (t_nd E x)) as [z|] eqn:W; cbn [bind] in H; [|discriminate].
  destruct (fits_sig E so _) as [[]|] eqn:F; cbn [bind] in H; [|discriminate]. apply ok_inj in H. subst y. exists so, z.
  apply fits_fits_sig in F. destruct F as (B & _ & F). cbn [t_nd] in F. eauto 10.
Qed.

Lemma window_valid : forall len w s d t, 0 < w -> t * s + (w - 1) * d < len ->
  window PValid len w s d t = map (fun k => (k, t * s + k * d)) (seq 0 w).
Proof.
  intros len w s d t Hw H. unfold window. cbn [pad_before].
  assert (G : forall n k0, k0 + n <= w ->
    flat_map (fun k => let q := t * s + k * d in let b := 0 in if Nat.leb b q && Nat.ltb (q - b) len then [(k, q - b)] else []) (seq k0 n)
    = map (fun k => (k, t * s + k * d)) (seq k0 n)).
  { induction n as [|n IH]; intros k0 Hk; [reflexivity|]. cbn [seq flat_map map]. cbv zeta. rewrite Nat.sub_0_r. cbn [Nat.leb andb].
    assert (L : t * s + k0 * d < len) by (assert (k0 * d <= (w - 1) * d) by (apply Nat.mul_le_mono_r; lia); lia).
    apply Nat.ltb_lt in L. rewrite L. cbn [app]. f_equal. apply IH. lia. }
  apply G. lia.
Qed.

(** Every window of the output lies within the input. *)
Lemma within : forall len w s d t, 0 < s -> (w - 1) * d < len -> t < out_length PValid len w s d -> t * s + (w - 1) * d < len.
Proof.
  intros len w s d t Hs Hl H. cbn [out_length] in H. unfold cdiv in H. set (m := len - (w - 1) * d) in *.
  assert (t * s < m); [|lia].
  assert (T : S t <= (m + (s - 1)) / s) by lia.
  assert (M : s * S t <= m + (s - 1)).
  { transitivity (s * ((m + (s - 1)) / s)); [apply Nat.mul_le_mono_l; exact T|]. apply Nat.mul_div_le. lia. }
  rewrite Nat.mul_succ_r in M. lia.
Qed.

Hypothesis add_0_l : forall a, add zero a = a.
Hypothesis add_assoc : forall a b c, add a (add b c) = add (add a b) c.

Lemma dot_app' : forall l1 l2, dot E zero add mul (l1 ++ l2) = add (dot E zero add mul l1) (dot E zero add mul l2).
Proof.
  induction l1 as [|a l1 IH]; intro l2; cbn [app dot fold_right]; [symmetry; apply add_0_l|].
  fold (dot E zero add mul (l1 ++ l2)). rewrite IH. apply add_assoc.
Qed.

Lemma dot_flat : forall n (g : nat -> list (E * E)),
  dot E zero add mul (flat_map g (seq 0 n)) = sum_ n (fun k => dot E zero add mul (g k)).
Proof.
  assert (G : forall n k0 (g : nat -> list (E * E)),
    dot E zero add mul (flat_map g (seq k0 n)) = sum_ n (fun k => dot E zero add mul (g (k0 + k)))).
  { induction n as [|n IH]; intros k0 g; [reflexivity|]. cbn [seq flat_map sum_to]. rewrite dot_app', Nat.add_0_r. f_equal.
    rewrite IH. clear. revert k0 g. induction n as [|n IH]; intros k0 g; [reflexivity|]. cbn [sum_to]. f_equal.
    - f_equal. f_equal. lia.
    - transitivity (sum_ n (fun k => dot E zero add mul (g (S (S k0) + k)))).
      + erewrite (sum_ext E zero add n); [reflexivity|]. intro k. cbv beta. f_equal. f_equal. lia.
      + apply (sum_ext E zero add n). intro k. f_equal. f_equal. lia. }
  intros n g. rewrite G. reflexivity.
Qed.

Lemma flat_map_map' : forall A B C (f : A -> B) (g : B -> list C) l, flat_map g (map f l) = flat_map (fun a => g (f a)) l.
Proof. intros A B C f g l. induction l as [|a l IH]; [reflexivity|]. cbn [map flat_map]. rewrite IH. reflexivity. Qed.

(** Conv1d, without padding: at stride [st], dilation [d] *)
Theorem C117_conv1d_valid_value : forall size w st d p (s : lspec E) x y len c B,
  0 < size -> 0 < w -> apply_ (CConv1d (plain size) w st PValid d) p s x = Ok y ->
  l_shape E s = [len; c] -> nd_shape (t_nd E x) = [B; len; c] ->
  forall b t j, t * st + (w - 1) * d < len ->
  nd_at (t_nd E y) [b; t; j] =
    sum_ w (fun k => sum_ c (fun a => mul (nd_at (t_nd E x) [b; t * st + k * d; a]) (p_w E p [k; a; j]))).
Proof.
  intros size w st d p s x y len c B Hs Hw H L Sx b t j Ht.
  destruct (apply_inv _ _ _ _ _ H) as (so & z & _ & Bd & Ez & _). rewrite Ez. clear H Ez. cbn [body] in Bd. rewrite L in Bd. cbn [nth] in Bd.
  unfold conv1d in Bd. rewrite Sx in Bd. destruct (_ && _ && _) in Bd; cbn [bind] in Bd; [|discriminate].
  unfold transform, plain, b_squeeze in Bd. cbn [b_bias b_size b_act b_drop] in Bd.
  destruct (Nat.eqb size 0) eqn:Q; [apply Nat.eqb_eq in Q; lia|]. cbn [bind] in Bd. apply ok_inj in Bd. subst z. cbn [nd_at].
  rewrite (window_valid len w st d t Hw Ht), flat_map_map'. cbn [fst snd]. rewrite dot_flat. apply (sum_ext E zero add w). intro k. apply dot_sum.
Qed.

Theorem C117_conv2d_valid_value : forall size w1 w2 st1 st2 d1 d2 p (s : lspec E) x y l1 l2 c B,
  0 < size -> 0 < w1 -> 0 < w2 -> apply_ (CConv2d (plain size) w1 w2 st1 st2 PValid d1 d2) p s x = Ok y ->
  l_shape E s = [l1; l2; c] -> nd_shape (t_nd E x) = [B; l1; l2; c] ->
  forall b t1 t2 j, t1 * st1 + (w1 - 1) * d1 < l1 -> t2 * st2 + (w2 - 1) * d2 < l2 ->
  nd_at (t_nd E y) [b; t1; t2; j] =
    sum_ w1 (fun k1 => sum_ w2 (fun k2 => sum_ c (fun a =>
      mul (nd_at (t_nd E x) [b; t1 * st1 + k1 * d1; t2 * st2 + k2 * d2; a]) (p_w E p [k1; k2; a; j])))).
Proof.
  intros size w1 w2 st1 st2 d1 d2 p s x y l1 l2 c B Hs Hw1 Hw2 H L Sx b t1 t2 j Ht1 Ht2.
  destruct (apply_inv _ _ _ _ _ H) as (so & z & _ & Bd & Ez & _). rewrite Ez. clear H Ez. cbn [body] in Bd. rewrite L in Bd. cbn [nth] in Bd.
  unfold conv2d in Bd. rewrite Sx in Bd. destruct (_ && _ && _ && _) in Bd; cbn [bind] in Bd; [|discriminate].
  unfold transform, plain, b_squeeze in Bd. cbn [b_bias b_size b_act b_drop] in Bd.
  destruct (Nat.eqb size 0) eqn:Q; [apply Nat.eqb_eq in Q; lia|]. cbn [bind] in Bd. apply ok_inj in Bd. subst z. cbn [nd_at].
  rewrite (window_valid l1 w1 st1 d1 t1 Hw1 Ht1), (window_valid l2 w2 st2 d2 t2 Hw2 Ht2), flat_map_map'. cbn [fst snd].
  rewrite dot_flat. apply (sum_ext E zero add w1). intro k1. rewrite flat_map_map'. cbn [fst snd]. rewrite dot_flat.
  apply (sum_ext E zero add w2). intro k2. apply dot_sum.
Qed.

(** A linear layer applies the same matrix at every position. *)
Theorem C117_linear_value : forall size p (s : lspec E) x y c B,
  0 < size -> apply_ (CLinear size false) p s x = Ok y -> nd_shape (t_nd E x) = B :: l_shape E s -> forall b j,
  (l_shape E s = [c] -> nd_at (t_nd E y) [b; j] = sum_ c (fun a => mul (nd_at (t_nd E x) [b; a]) (p_w E p [a; j]))) /\
  (forall l t, l_shape E s = [l; c] -> t < l ->
     nd_at (t_nd E y) [b; t; j] = sum_ c (fun a => mul (nd_at (t_nd E x) [b; t; a]) (p_w E p [0; a; j]))) /\
  (forall l1 l2 t1 t2, l_shape E s = [l1; l2; c] -> t1 < l1 -> t2 < l2 ->
     nd_at (t_nd E y) [b; t1; t2; j] = sum_ c (fun a => mul (nd_at (t_nd E x) [b; t1; t2; a]) (p_w E p [0; 0; a; j]))).
Proof.
  assert (W1 : forall l t, t < l -> window PSame l 1 1 1 t = [(0, t)]).
  { intros l t Ht. unfold window. cbn [seq flat_map pad_before]. rewrite cdiv_1.
    replace (((l - 1) * 1 + (1 - 1) * 1 + 1 - l) / 2) with 0 by (replace ((l - 1) * 1 + (1 - 1) * 1 + 1 - l) with 0 by lia; reflexivity).
    cbv zeta. cbn [Nat.leb andb]. replace (t * 1 + 0 * 1 - 0) with t by lia. apply Nat.ltb_lt in Ht. rewrite Ht. reflexivity. }
  intros size p s x y c B Hs H Sx b j.
  destruct (apply_inv _ _ _ _ _ H) as (so & z & _ & Bd & Ez & _). rewrite Ez. clear H Ez. cbn [body] in Bd.
  assert (Tr : forall u, transform E add elementwise relu neg softmax (mkTb size false None false) (p_b E p) so u = Ok u).
  { intro u. unfold transform, b_squeeze. cbn [b_bias b_size b_act b_drop]. destruct (Nat.eqb size 0) eqn:Q; [apply Nat.eqb_eq in Q; lia|]. reflexivity. }
  split; [|split].
  - intros L. rewrite L in Bd, Sx. cbn [length nth Nat.eqb] in Bd. unfold matmul in Bd. rewrite Sx, Nat.eqb_refl in Bd. cbn [bind] in Bd.
    rewrite Tr in Bd. apply ok_inj in Bd. subst z. cbn [nd_at]. apply dot_sum.
  - intros l t L Ht. rewrite L in Bd, Sx. cbn [length nth] in Bd. unfold conv1d in Bd. rewrite Sx, Nat.eqb_refl in Bd. cbn [Nat.ltb Nat.leb andb bind] in Bd.
    rewrite Tr in Bd. apply ok_inj in Bd. subst z. cbn [nd_at]. rewrite (W1 l t Ht). cbn [flat_map fst snd]. rewrite app_nil_r. apply dot_sum.
  - intros l1 l2 t1 t2 L Ht1 Ht2. rewrite L in Bd, Sx. cbn [length nth] in Bd. unfold conv2d in Bd. rewrite Sx, Nat.eqb_refl in Bd. cbn [Nat.ltb Nat.leb andb bind] in Bd.
    rewrite Tr in Bd. apply ok_inj in Bd. subst z. cbn [nd_at]. rewrite (W1 l1 t1 Ht1), (W1 l2 t2 Ht2). cbn [flat_map fst snd]. rewrite !app_nil_r. apply dot_sum.
Qed.

(** Pooling windows, without padding *)
Theorem C117_pool1d_valid_value : forall r w st p (s : lspec E) x y len c B,
  0 < w -> apply_ (CPool1d r w st PValid) p s x = Ok y ->
  l_shape E s = [len; c] -> nd_shape (t_nd E x) = [B; len; c] ->
  forall b t j, t * st + (w - 1) < len ->
  nd_at (t_nd E y) [b; t; j] = pooled r (map (fun k => nd_at (t_nd E x) [b; t * st + k; j]) (seq 0 w)).
Proof.
  intros r w st p s x y len c B Hw H L Sx b t j Ht.
  destruct (apply_inv _ _ _ _ _ H) as (so & z & _ & Bd & Ez & _). rewrite Ez. clear H Ez. cbn [body] in Bd.
  unfold pool2d, expand_dims in Bd. rewrite Sx in Bd. cbn [nd_shape firstn skipn app] in Bd.
  destruct (_ && _ && _) in Bd; cbn [bind] in Bd; [|discriminate].
  unfold squeeze in Bd. cbn [nd_shape nth_error] in Bd.
  change (out_length PValid 1 1 1 1) with 1 in Bd. apply ok_inj in Bd. subst z. cbn [nd_at firstn skipn app].
  change (window PValid 1 1 1 1 0) with [(0, 0)]. cbn [flat_map snd]. rewrite app_nil_r.
  rewrite (window_valid len w st 1 t Hw) by lia. rewrite map_map. cbn [snd]. f_equal. apply map_ext. intro k. rewrite Nat.mul_1_r. reflexivity.
Qed.

Theorem C117_pool2d_valid_value : forall r w1 w2 st1 st2 p (s : lspec E) x y l1 l2 c B,
  0 < w1 -> 0 < w2 -> apply_ (CPool2d r w1 w2 st1 st2 PValid) p s x = Ok y ->
  l_shape E s = [l1; l2; c] -> nd_shape (t_nd E x) = [B; l1; l2; c] ->
  forall b t1 t2 j, t1 * st1 + (w1 - 1) < l1 -> t2 * st2 + (w2 - 1) < l2 ->
  nd_at (t_nd E y) [b; t1; t2; j] =
    pooled r (flat_map (fun k1 => map (fun k2 => nd_at (t_nd E x) [b; t1 * st1 + k1; t2 * st2 + k2; j]) (seq 0 w2)) (seq 0 w1)).
Proof.
  intros r w1 w2 st1 st2 p s x y l1 l2 c B Hw1 Hw2 H L Sx b t1 t2 j Ht1 Ht2.
  destruct (apply_inv _ _ _ _ _ H) as (so & z & _ & Bd & Ez & _). rewrite Ez. clear H Ez. cbn [body] in Bd.
  unfold pool2d in Bd. rewrite Sx in Bd. destruct (_ && _ && _) in Bd; cbn [bind] in Bd; [|discriminate].
  apply ok_inj in Bd. subst z. cbn [nd_at].
  rewrite (window_valid l1 w1 st1 1 t1 Hw1), (window_valid l2 w2 st2 1 t2 Hw2) by lia. rewrite flat_map_map'. cbn [snd]. f_equal.
  apply flat_map_ext. intro k1. rewrite map_map. cbn [snd]. apply map_ext. intro k2. rewrite !Nat.mul_1_r. reflexivity.
Qed.

(** These are all entries of the output. *)
Theorem C117_valid_windows : forall w st d size p (s : lspec E) x y len c B, 0 < w -> 0 < size ->
  apply_ (CConv1d (plain size) w st PValid d) p s x = Ok y -> l_shape E s = [len; c] -> nd_shape (t_nd E x) = [B; len; c] ->
  exists n, nd_shape (t_nd E y) = [B; n; size] /\ forall t, t < n <-> t * st + (w - 1) * d < len.
Proof.
  intros w st d size p s x y len c B Hw Hs H L Sx.
  destruct (apply_inv _ _ _ _ _ H) as (so & z & _ & Bd & Ez & _). rewrite Ez. clear H Ez. cbn [body] in Bd. rewrite L in Bd. cbn [nth] in Bd.
  unfold conv1d in Bd. rewrite Sx in Bd. destruct (_ && _ && _) eqn:C in Bd; cbn [bind] in Bd; [|discriminate].
  apply andb_prop in C as [C C3]. apply andb_prop in C as [_ C2]. apply Nat.ltb_lt in C2. apply Nat.leb_le in C3.
  unfold transform, plain, b_squeeze, b_units in Bd. cbn [b_bias b_size b_act b_drop] in Bd.
  destruct (Nat.eqb size 0) eqn:Q; [apply Nat.eqb_eq in Q; lia|]. cbn [bind] in Bd. apply ok_inj in Bd. subst z. cbn [nd_shape].
  replace (Nat.max size 1) with size by lia. eexists. split; [reflexivity|].
  intro t. split; [apply within; lia|]. intro T. cbn [out_length]. unfold cdiv. set (m := len - (w - 1) * d) in *.
  apply Nat.lt_le_trans with (S t); [lia|]. apply Nat.div_le_lower_bound; [lia|]. rewrite Nat.mul_succ_r, (Nat.mul_comm st t). lia.
Qed.

(** Global pooling of a sequence, and of an image (reduced along the first axis first) *)
Theorem C117_pooling_value : forall r p (s : lspec E) x y c B,
  apply_ (CPooling r) p s x = Ok y -> nd_shape (t_nd E x) = B :: l_shape E s -> forall b j,
  (l_shape E s = [c] -> nd_at (t_nd E y) [b; j] = nd_at (t_nd E x) [b; j]) /\
  (forall l, l_shape E s = [l; c] -> nd_at (t_nd E y) [b; j] = reduce r (map (fun k => nd_at (t_nd E x) [b; k; j]) (seq 0 l))) /\
  (forall l1 l2, l_shape E s = [l1; l2; c] -> nd_at (t_nd E y) [b; j] =
     reduce r (map (fun k2 => reduce r (map (fun k1 => nd_at (t_nd E x) [b; k1; k2; j]) (seq 0 l1))) (seq 0 l2))).
Proof.
  intros r p s x y c B H Sx b j.
  destruct (apply_inv _ _ _ _ _ H) as (so & z & _ & Bd & Ez & _). rewrite Ez. clear H Ez. cbn [body] in Bd. rewrite Sx in Bd.
  split; [|split].
  - intros L. rewrite L in Bd. cbn [length Nat.sub reduce_all] in Bd. apply ok_inj in Bd. subst z. reflexivity.
  - intros l L. rewrite L in Bd, Sx. cbn [length Nat.sub reduce_all] in Bd. unfold reduce_axis in Bd. rewrite Sx in Bd. cbn [nth_error bind] in Bd.
    apply ok_inj in Bd. subst z. reflexivity.
  - intros l1 l2 L. rewrite L in Bd, Sx. cbn [length Nat.sub reduce_all] in Bd. unfold reduce_axis in Bd. rewrite Sx in Bd.
    cbn [nth_error bind nd_shape firstn skipn app] in Bd. apply ok_inj in Bd. subst z. reflexivity.
Qed.

(** Activation: softmax along the last axis, others entry by entry *)
Theorem C117_activation_value : forall nl p (s : lspec E) x y sh n,
  apply_ (CActivation nl) p s x = Ok y -> nd_shape (t_nd E x) = sh ++ [n] -> nl <> Crelu ->
  nd_shape (t_nd E y) = nd_shape (t_nd E x) /\
  forall i k, nd_at (t_nd E y) (i ++ [k]) =
    match nl with
    | Elementwise f => elementwise f (nd_at (t_nd E x) (i ++ [k]))
    | _ => softmax (map (fun q => nd_at (t_nd E x) (i ++ [q])) (seq 0 n)) k
    end.
Proof.
  intros nl p s x y sh n H Sx NC. destruct (apply_inv _ _ _ _ _ H) as (so & z & _ & Bd & Ez & _). rewrite Ez. clear H Ez. cbn [body] in Bd.
  destruct nl as [| |f]; cbn [activation] in Bd; [congruence| |].
  - unfold softmax_last in Bd. rewrite Sx, rev_app_distr in Bd. cbn [rev app] in Bd. apply ok_inj in Bd. subst z. cbn [nd_shape nd_at].
    split; [symmetry; exact Sx|]. intros i k. rewrite removelast_last, last_last. reflexivity.
  - apply ok_inj in Bd. subst z. split; [reflexivity|]. intros i k. reflexivity.
Qed.
End Values.

(** ** Examples *)
Definition img : ten Z := tf [1; 3; 3; 1] (fun i => Z.of_nat (3 * nth 1 i 0 + nth 2 i 0)).
Definition seq5 : ten Z := tf [1; 5; 1] (fun i => Z.of_nat (nth 1 i 0)).
(** 0 1 2 3 4 with weights 1, 2 at distance two: 0 * 1 + 2 * 2, 1 * 1 + 3 * 2, 2 * 1 + 4 * 2 *)
Example C117_conv1d_valid_example :
  entries (zapply (CConv1d (plain 1) 2 1 PValid 2) zpar (fl [5; 1]) seq5) = Some ([1; 3; 1], [4; 7; 10]%Z) /\
  entries (zapply (CConv1d (plain 1) 2 2 PValid 1) zpar (fl [5; 1]) seq5) = Some ([1; 2; 1], [2; 8]%Z).
Proof. split; reflexivity. Qed.
(** Weights 1, 3 in the first row, 2, 4 in the second *)
Example C117_conv2d_valid_example :
  entries (zapply (CConv2d (plain 1) 2 2 1 1 PValid 1 1) zpar (fl [3; 3; 1]) img) = Some ([1; 2; 2; 1], [25; 35; 55; 65]%Z).
Proof. reflexivity. Qed.
Example C117_linear_example :
  entries (zapply (CLinear 2 false) zpar (fl [5; 1]) seq5) = Some ([1; 5; 2], [0; 0; 1; 1; 2; 2; 3; 3; 4; 4]%Z) /\
  entries (zapply (CLinear 2 false) zpar (fl [3]) x23) = Some ([2; 2], [8; 14; 68; 134]%Z) /\
  option_map fst (entries (zapply (CLinear 2 false) zpar (fl [3; 3; 1]) img)) = Some [1; 3; 3; 2].
Proof. split; [reflexivity|]. split; reflexivity. Qed.
Example C117_pool_example :
  entries (zapply (CPool1d PMax 2 1 PValid) zpar (fl [5; 1]) seq5) = Some ([1; 4; 1], [1; 2; 3; 4]%Z) /\
  entries (zapply (CPool2d PMax 2 2 1 1 PValid) zpar (fl [3; 3; 1]) img) = Some ([1; 2; 2; 1], [4; 5; 7; 8]%Z) /\
  entries (zapply (CPooling RSum) zpar (fl [5; 1]) seq5) = Some ([1; 1], [10]%Z) /\
  entries (zapply (CPooling RSum) zpar (fl [3; 3; 1]) img) = Some ([1; 1], [36]%Z).
Proof. repeat split; reflexivity. Qed.
Example C117_activation_example : entries (zapply (CActivation Softmax) zpar (fl [3]) x23) = Some ([2; 3], [0; 1; 2; 0; 1; 2]%Z).
Proof. reflexivity. Qed.

Print Assumptions C117_conv1d_valid_value.
Print Assumptions C117_conv2d_valid_value.
Print Assumptions C117_linear_value.
Print Assumptions C117_pool1d_valid_value.
Print Assumptions C117_pool2d_valid_value.
Print Assumptions C117_valid_windows.
Print Assumptions C117_pooling_value.
Print Assumptions C117_activation_value.
