(** Layers and layered networks: specifications, instances of a batch, values, AutoNetwork. *)
From Coq Require Import String List ZArith Lia Bool PeanoNat.
From Verif Require Import Base SpecSpec SpecModel LayModel LaySpec LayProofs LayNet LayAuto.
Import ListNotations.
Open Scope list_scope.
Open Scope nat_scope.

Section Props.
Variable E : Type.
Variables (zero : E) (add mul : E -> E -> E).
Variable elementwise : string -> E -> E.
Variables (relu neg : E -> E).
Variable softmax : list E -> nat -> E.
Variable reduce : reduction -> list E -> E.
Variable pooled : pool -> list E -> E.
Variable combine_ : agg -> list E -> E.
Variable as_int : E -> Z.

Notation apply_ := (layer_apply E zero add mul elementwise relu neg softmax reduce pooled as_int).
Notation retrieve_ := (retrieve_apply E combine_).
Notation output_ := (network_output E zero add mul elementwise relu neg softmax reduce pooled combine_ as_int).
Notation batch := (batch_of E as_int).

(** ** C113: every layer returns what its specification declares. *)
Theorem C113_layer_output_as_declared_partial : forall c p (s so : lspec E) x B,
  layer_init E c s = Ok tt -> out_spec E c s = Ok so -> positive E s -> good E c s so -> batch s B x ->
  exists y, apply_ c p s x = Ok y /\ fits E so B y /\ batch so B y /\ positive E so.
Proof.
  intros c p s so x B Hi Ho Ps G Bx.
  destruct (apply_ok E zero add mul elementwise relu neg softmax reduce pooled as_int c p s so x B Hi Ho Ps G Bx) as (y & Ey & By).
  exists y. split; [exact Ey|]. split; [apply By|]. split; [exact By|]. exact (positive_out _ _ _ _ Hi Ho Ps G).
Qed.

(** Several tensors *)
Theorem C113_retrieve_output_as_declared_partial : forall a ax (specs : list (lspec E)) so xs B,
  retrieve_spec E a ax specs = Ok so -> good_retrieve E a ax specs -> Forall (positive E) specs ->
  Forall2 (fun s x => batch s B x) specs xs ->
  exists y, retrieve_ a ax specs xs = Ok y /\ fits E so B y /\ batch so B y /\ positive E so.
Proof.
  intros a ax specs so xs B Ho G Ps Bx.
  destruct (retrieve_ok E zero combine_ as_int a ax specs so xs B Ho G Ps Bx) as (y & Ey & By).
  destruct (retrieve_shape E zero combine_ a ax specs so Ho G) as (_ & _ & Pso & _).
  exists y. split; [exact Ey|]. split; [apply By|]. auto.
Qed.

(** crelu is accepted when a layer is created and never gives a value if there is an axis. *)
Theorem C113_crelu_refuted : forall p (s : lspec E) x B, positive E s -> l_type E s = TFloat -> l_shape E s <> [] -> batch s B x ->
  layer_init E (CActivation Crelu) s = Ok tt /\ exists e, apply_ (CActivation Crelu) p s x = Err e.
Proof.
  intros p s x B Ps T N [[Tx Sx] _]. split; [apply accepts_float; [exact T|exact I]|].
  destruct (exists_last N) as (a & n & La).
  unfold layer_apply, checked. rewrite (proj2 (sig_positive E s) Ps). cbn [out_spec bind].
  rewrite (proj2 (sig_positive E s) Ps). cbn [bind].
  rewrite (proj2 (fits_fits_sig E s x) (ex_intro _ B (conj Tx Sx))). cbn [bind body activation]. unfold crelu. rewrite Sx.
  destruct (concat_axis E (length (B :: l_shape E s) - 1) [nd_map relu (t_nd E x); nd_map (fun e => relu (neg e)) (t_nd E x)]) as [y|e] eqn:C;
    cbn [bind]; [|eexists; reflexivity].
  destruct (fits_sig E s (mkT E (l_type E s) y)) as [[]|e] eqn:F; cbn [bind]; [|eexists; reflexivity].
  exfalso. apply fits_fits_sig in F as (B' & _ & Sy). cbn [t_nd] in Sy.
  assert (Len : length (nd_shape y) = length (B :: l_shape E s)) by (rewrite Sy; reflexivity).
  assert (Ax : length (B :: l_shape E s) - 1 = length (B :: a)).
  { rewrite La. cbn [length]. rewrite app_length. cbn [length]. lia. }
  rewrite Ax in C. unfold concat_axis in C. cbn [nd_shape nd_map] in C.
  destruct (Nat.ltb _ _ && _) in C; [|discriminate]. apply ok_inj in C. rewrite <- C in Sy. cbn [nd_shape] in Sy.
  cbn [map fold_right nd_map nd_shape] in Sy. rewrite Sx, La, app_comm_cons in Sy. rewrite firstn_len_app, skipn_len_app_S in Sy.
  rewrite app_nth2, Nat.sub_diag in Sy by (apply Nat.le_refl). cbn [nth] in Sy.
  cbn [app] in Sy. injection Sy as _ Sy. apply app_inv_head in Sy. injection Sy as Sy.
  assert (0 < n); [|lia]. destruct Ps as [Ps _]. rewrite La in Ps. apply Forall_app in Ps as [_ Ps]. inversion Ps. assumption.
Qed.

(** So is dropout, for all layers that have it as argument. *)
Theorem C113_dropout_refuted : forall c p (s so : lspec E) x,
  out_spec E c s = Ok so -> match c with
  | CDense t | CConv1d t _ _ _ _ | CConv2d t _ _ _ _ _ _ _ | CEmbedding t _ => b_drop t = true
  | _ => False end ->
  exists e, apply_ c p s x = Err e.
Proof.
  intros c p s so x Ho D.
  assert (Tr : forall t pb z, b_drop t = true -> exists e, transform E add elementwise relu neg softmax t pb so z = Err e).
  { intros t pb z Dt. unfold transform. rewrite Dt.
    destruct (if b_squeeze t then _ else _); cbn [bind]; [|eexists; reflexivity].
    match goal with |- context [do x <- ?e; _] => destruct e; cbn [bind]; eexists; reflexivity end. }
  unfold layer_apply, checked. destruct (sig_ok E s); cbn [bind]; [|eexists; reflexivity].
  rewrite Ho. cbn [bind]. destruct (sig_ok E so); cbn [bind]; [|eexists; reflexivity].
  destruct (fits_sig E s x); cbn [bind]; [|eexists; reflexivity].
  destruct c; try contradiction; cbn [body].
  - destruct (matmul _ _ _ _ _ _ _ _) as [z|]; cbn [bind]; [|eexists; reflexivity].
    destruct (Tr t (p_b E p) z D) as (e & ->). eexists; reflexivity.
  - destruct (conv1d _ _ _ _ _ _ _ _ _ _ _ _) as [z|]; cbn [bind]; [|eexists; reflexivity].
    destruct (Tr t (p_b E p) z D) as (e & ->). eexists; reflexivity.
  - destruct (conv2d _ _ _ _ _ _ _ _ _ _ _ _ _ _ _) as [z|]; cbn [bind]; [|eexists; reflexivity].
    destruct (Tr t (p_b E p) z D) as (e & ->). eexists; reflexivity.
  - destruct (num_embeddings E num s); cbn [bind]; [|eexists; reflexivity].
    destruct (lookup _ _ _ _ _ _) as [z|]; cbn [bind]; [|eexists; reflexivity].
    destruct (Tr t (p_b E p) z D) as (e & ->). eexists; reflexivity.
Qed.

(** Linear is documented for inputs of any rank up to three, but no layer can be created for scalars. *)
Theorem C113_linear_scalar_refuted : forall size bias (s : lspec E), l_shape E s = [] -> exists e, layer_init E (CLinear size bias) s = Err e.
Proof.
  intros size bias s L. cbn [layer_init]. destruct (accepts E [TFloat] None s); cbn [bind]; [|eexists; reflexivity].
  rewrite L. cbn [length]. unfold accepts. rewrite L. destruct (existsb _ _); cbn [assert_ bind length Nat.eqb]; eexists; reflexivity.
Qed.

(** ** C114: every instance of a batch is treated separately. *)
Theorem C114_layer_instances_partial : forall c p (s so : lspec E) x B x' B' y y' b b',
  layer_init E c s = Ok tt -> out_spec E c s = Ok so -> positive E s -> good E c s so ->
  batch s B x -> batch s B' x' -> b < B -> b' < B' ->
  same_row E (l_shape E s) (t_nd E x) b (t_nd E x') b' ->
  apply_ c p s x = Ok y -> apply_ c p s x' = Ok y' ->
  same_row E (l_shape E so) (t_nd E y) b (t_nd E y') b'.
Proof.
  intros c p s so x B x' B' y y' b b'.
  exact (apply_rows E zero add mul elementwise relu neg softmax reduce pooled as_int c p s so x B x' B' y y' b b').
Qed.

(** softmax of scalars does not: the instances are normalised together. *)
Theorem C114_softmax_scalar_refuted : forall p (s : lspec E) x B, positive E s -> l_type E s = TFloat -> l_shape E s = [] -> batch s B x ->
  exists y, apply_ (CActivation Softmax) p s x = Ok y /\
    forall b, b < B -> nd_at (t_nd E y) [b] = softmax (map (fun k => nd_at (t_nd E x) [k]) (seq 0 B)) b.
Proof.
  intros p s x B Ps T L [[Tx Sx] _].
  unfold layer_apply, checked. rewrite (proj2 (sig_positive E s) Ps). cbn [out_spec bind].
  rewrite (proj2 (sig_positive E s) Ps). cbn [bind].
  rewrite (proj2 (fits_fits_sig E s x) (ex_intro _ B (conj Tx Sx))). cbn [bind body activation]. unfold softmax_last. rewrite Sx, L.
  cbn [rev app bind].
  match goal with |- context [fits_sig E s ?y] => assert (F : fits_sig E s y = Ok tt) end.
  { apply fits_fits_sig. exists B. split; [reflexivity|]. cbn [t_nd nd_shape]. rewrite L. reflexivity. }
  rewrite F. cbn [bind]. eexists. split; [reflexivity|]. intros b Hb. cbn [t_nd nd_at]. reflexivity.
Qed.

(** ** C115: networks *)
Definition inputs_batch (B : nat) (i : inputs (lspec E)) (x : inputs (ten E)) : Prop :=
  match i, x with
  | Single _ s, Single _ t => positive E s /\ batch s B t
  | Named _ l, Named _ m => Forall2 (fun ks kx => fst ks = fst kx /\ positive E (snd ks) /\ batch (snd ks) B (snd kx)) l m
  | _, _ => False
  end.

(** All inputs have the same instance [b], [b']. *)
Definition inputs_same (i : inputs (lspec E)) (x x' : inputs (ten E)) (b b' : nat) : Prop :=
  match i, x, x' with
  | Single _ s, Single _ t, Single _ t' => same_row E (l_shape E s) (t_nd E t) b (t_nd E t') b'
  | Named _ l, Named _ m, Named _ m' =>
      forall k s t t', nth_error l k = Some s -> nth_error m k = Some t -> nth_error m' k = Some t' ->
        same_row E (l_shape E (snd s)) (t_nd E (snd t)) b (t_nd E (snd t')) b'
  | _, _, _ => False
  end.

Lemma inputs_inv : forall B i x, inputs_batch B i x -> inv E as_int B (registered i) (registered x).
Proof.
  intros B [s|l] [t|m] H; try contradiction; cbn [registered]; [|exact H].
  constructor; [|constructor]. cbn [fst snd]. split; [reflexivity|exact H].
Qed.

Lemma inputs_first : forall B i x s, inputs_batch B i x -> first i = Ok s -> exists t, first x = Ok t /\ positive E s /\ batch s B t.
Proof.
  intros B [s0|l] [t|m] s H F; try contradiction; cbn [first] in *.
  - injection F as <-. exists t. auto.
  - destruct H as [|[k a] [k' t] l m (_ & H1 & H2) _]; [discriminate|]. injection F as <-. exists t. auto.
Qed.

Theorem C115_network_output_as_declared_partial : forall layers ps i x so B,
  network_spec E layers i = Ok so ->
  (forall s, first i = Ok s -> well_built E layers s (registered i)) ->
  inputs_batch B i x ->
  exists y, output_ layers ps i x = Ok y /\ fits E so B y /\ batch so B y /\ positive E so.
Proof.
  intros layers ps i x so B Hn W Hx. unfold network_spec in Hn. unfold network_output.
  destruct (first i) as [s|] eqn:F; [|discriminate]. cbn [bind] in *.
  destruct (create E layers s (registered i)) as [[s1 reg]|] eqn:C; [|discriminate]. cbn [bind fst] in Hn. injection Hn as <-.
  destruct (inputs_first B i x s Hx F) as (t & Ft & Ps & Bt). rewrite Ft. cbn [bind].
  destruct (run_ok E zero add mul elementwise relu neg softmax reduce pooled combine_ as_int layers 0 ps s (registered i) t (registered x) s1 reg B C (W s eq_refl) Ps (inputs_inv _ _ _ Hx) Bt)
    as (y & Ey & By & Py).
  exists y. split; [exact Ey|]. split; [apply By|]. auto.
Qed.

Lemma inputs_same_reg : forall i x x' b b' B B', inputs_batch B i x -> inputs_batch B' i x' -> inputs_same i x x' b b' ->
  same_reg E (registered i) (registered x) (registered x') b b'.
Proof.
  intros [s|l] [t|m] [t'|m'] b b' B B' H H' S; try contradiction; cbn [registered].
  - intros k s0 x0 x0' F1 F2 F3. cbn [find] in *. destruct (String.eqb k "state"); [|discriminate].
    injection F1 as <-. injection F2 as <-. injection F3 as <-. exact S.
  - cbn [inputs_batch inputs_same] in *. revert m' H' S.
    induction H as [|[k1 s] [k2 t] l m (Hk & _) _ IH]; intros m' H' S k s0 x0 x0' F1 F2 F3; [discriminate|].
    inversion H' as [|? [k3 t'] ? m2 (Hk' & _) H2]; subst. cbn [fst snd] in *. subst k2 k3. cbn [find] in *.
    destruct (String.eqb k k1).
    + injection F1 as <-. injection F2 as <-. injection F3 as <-. exact (S 0 _ _ _ eq_refl eq_refl eq_refl).
    + apply (IH m2 H2) with (k := k); try assumption. intros q s2 t2 t2' Q1 Q2 Q3. exact (S (Datatypes.S q) _ _ _ Q1 Q2 Q3).
Qed.

Theorem C115_network_instances_partial : forall layers ps i x x' so B B' b b' y y',
  network_spec E layers i = Ok so ->
  (forall s, first i = Ok s -> well_built E layers s (registered i)) ->
  inputs_batch B i x -> inputs_batch B' i x' -> b < B -> b' < B' -> inputs_same i x x' b b' ->
  output_ layers ps i x = Ok y -> output_ layers ps i x' = Ok y' ->
  same_row E (l_shape E so) (t_nd E y) b (t_nd E y') b'.
Proof.
  intros layers ps i x x' so B B' b b' y y' Hn W Hx Hx' Hb Hb' S Ey Ey'. unfold network_spec in Hn. unfold network_output in *.
  destruct (first i) as [s|] eqn:F; [|discriminate]. cbn [bind] in *.
  destruct (create E layers s (registered i)) as [[s1 reg]|] eqn:C; [|discriminate]. cbn [bind fst] in Hn. injection Hn as <-.
  destruct (inputs_first B i x s Hx F) as (t & Ft & Ps & Bt). rewrite Ft in Ey. cbn [bind] in Ey.
  destruct (inputs_first B' i x' s Hx' F) as (t' & Ft' & _ & Bt'). rewrite Ft' in Ey'. cbn [bind] in Ey'.
  refine (run_rows E zero add mul elementwise relu neg softmax reduce pooled combine_ as_int layers 0 ps s (registered i) t (registered x) t' (registered x')
            s1 reg B B' b b' y y' C (W s eq_refl) Ps (inputs_inv _ _ _ Hx) (inputs_inv _ _ _ Hx') Bt Bt' Hb Hb'
            (inputs_same_reg i x x' b b' B B' Hx Hx' S) _ Ey Ey').
  clear -F Ft Ft' Hx Hx' S. destruct i as [s0|l], x as [t0|m], x' as [t0'|m']; try contradiction; cbn [first inputs_same inputs_batch] in *.
  - injection F as <-. injection Ft as <-. injection Ft' as <-. exact S.
  - destruct l as [|[k0 s0] l]; [discriminate|]. injection F as <-. destruct m as [|[k1 t1] m]; [discriminate|]. injection Ft as <-.
    destruct m' as [|[k2 t2] m']; [discriminate|]. injection Ft' as <-. exact (S 0 _ _ _ eq_refl eq_refl eq_refl).
Qed.

(** ** C116: AutoNetwork *)
Definition auto_output (c : auto) (i : inputs (lspec E)) : nat :=
  match i with
  | Single _ s | Named _ [(_, s)] => width E (a_size c) (a_depth c) s
  | Named _ l =>
      match a_final_depth c with
      | None | Some 0 => fold_right Nat.add 0 (map (fun ns => width E (a_size c) (a_depth c) (snd ns)) l)
      | _ => match a_final_size c with Some n => n | None => a_size c end
      end
  end.

Definition auto_ok (c : auto) (i : inputs (lspec E)) : Prop :=
  0 < a_size c /\
  match i with
  | Single _ s | Named _ [(_, s)] =>
      auto_state E s /\ a_final_size c = None /\ (a_final_depth c = None \/ a_final_depth c = Some 1)
  | Named _ l =>
      l <> [] /\ Forall (fun ns => auto_state E (snd ns)) l /\ names_ok E l /\ forall n, a_final_size c = Some n -> 0 < n
  end.

Lemma auto_builds : forall c i, auto_ok c i ->
  exists ls s so reg, auto_layers E c i = Ok ls /\ first i = Ok s /\ builds E ls s (registered i) so reg /\
    l_type E so = TFloat /\ l_shape E so = [auto_output c i].
Proof.
  intros c i [Hs A]. destruct i as [s|[|[n s] [|ns2 r]]].
  - destruct A as (A & F1 & F2). destruct (auto_single E c s None Hs A F1 F2) as (ls & so & reg & H). exists ls, s, so, reg.
    destruct H as (H1 & H2 & H3 & H4). auto 10.
  - destruct A as (A & _). congruence.
  - destruct A as (A & F1 & F2). destruct (auto_single E c s (Some n) Hs A F1 F2) as (ls & so & reg & H). exists ls, s, so, reg.
    destruct H as (H1 & H2 & H3 & H4). auto 10.
  - destruct A as (_ & A & N & Hf). destruct (auto_several E c ((n, s) :: ns2 :: r) s Hs A N ltac:(cbn; lia) Hf) as (ls & so & reg & H).
    exists ls, s, so, reg. destruct H as (H1 & H2 & H3 & H4). auto 10.
Qed.

Theorem C116_auto_network_partial : forall c i ps x B, auto_ok c i -> inputs_batch B i x ->
  exists ls so y, auto_layers E c i = Ok ls /\ network_spec E ls i = Ok so /\
    l_type E so = TFloat /\ l_shape E so = [auto_output c i] /\
    output_ ls ps i x = Ok y /\ t_type E y = TFloat /\ nd_shape (t_nd E y) = [B; auto_output c i].
Proof.
  intros c i ps x B A Hx. destruct (auto_builds c i A) as (ls & s & so & reg & El & F & [C W] & T & L).
  assert (Hn : network_spec E ls i = Ok so) by (unfold network_spec; rewrite F; cbn [bind]; rewrite C; reflexivity).
  destruct (C115_network_output_as_declared_partial ls ps i x so B Hn) as (y & Ey & [Ty Sy] & _); [|exact Hx|].
  - intros s' F'. rewrite F in F'. injection F' as <-. exact W.
  - exists ls, so, y. rewrite Ty, Sy, T, L. auto 10.
Qed.

Theorem C116_auto_network_instances_partial : forall c i ps ls x x' B B' b b' y y', auto_ok c i ->
  inputs_batch B i x -> inputs_batch B' i x' -> b < B -> b' < B' -> inputs_same i x x' b b' ->
  auto_layers E c i = Ok ls -> output_ ls ps i x = Ok y -> output_ ls ps i x' = Ok y' ->
  forall j, j < auto_output c i -> nd_at (t_nd E y) [b; j] = nd_at (t_nd E y') [b'; j].
Proof.
  intros c i ps ls x x' B B' b b' y y' A Hx Hx' Hb Hb' S El Ey Ey' j Hj.
  destruct (auto_builds c i A) as (ls' & s & so & reg & El' & F & [C W] & T & L).
  rewrite El in El'. injection El' as <-.
  assert (Hn : network_spec E ls i = Ok so) by (unfold network_spec; rewrite F; cbn [bind]; rewrite C; reflexivity).
  refine (C115_network_instances_partial ls ps i x x' so B B' b b' y y' Hn _ Hx Hx' Hb Hb' S Ey Ey' [j] _).
  - intros s' F'. rewrite F in F'. injection F' as <-. exact W.
  - rewrite L. constructor; [exact Hj|constructor].
Qed.

(** Integers without num_values, and ranks too high, are rejected. *)
Theorem C116_auto_network_rejects : forall c (s : lspec E) name,
  (l_type E s = TInt /\ l_num E s = None) \/ length (l_shape E s) > match l_type E s with TFloat => 3 | _ => 2 end ->
  exists e, auto_input E c name s = Err e.
Proof.
  intros c s name [[T N]|H]; unfold auto_input.
  - rewrite T, N. eexists; reflexivity.
  - destruct (l_type E s); [| destruct (l_num E s); [|eexists; reflexivity] |]; cbn [bind Nat.sub];
      (destruct (length (l_shape E s)) as [|[|[|[|rk]]]]; try lia; cbn [Nat.eqb bind]; eexists; reflexivity).
Qed.

(** ** C117: values *)
Lemma dot_sum : forall n (f g : nat -> E), dot E zero add mul (map (fun k => (f k, g k)) (seq 0 n)) = sum_to E zero add n (fun k => mul (f k) (g k)).
Proof.
  induction n as [|n IH]; intros f g; [reflexivity|]. cbn [seq map dot fold_right sum_to fst snd]. f_equal.
  rewrite <- seq_shift, map_map. apply IH.
Qed.

Definition act_of (a : option nonlin) (e : E) : E := match a with Some (Elementwise f) => elementwise f e | _ => e end.
Definition elementwise_only (a : option nonlin) : Prop := match a with None | Some (Elementwise _) => True | _ => False end.

Theorem C117_dense_value : forall t p (s : lspec E) x y n B,
  apply_ (CDense t) p s x = Ok y -> l_shape E s = [n] -> nd_shape (t_nd E x) = [B; n] -> elementwise_only (b_act t) ->
  forall b j, b < B ->
    let v := let w := sum_to E zero add n (fun k => mul (nd_at (t_nd E x) [b; k]) (p_w E p [k; j])) in
             act_of (b_act t) (if b_bias t then add w (p_b E p j) else w) in
    match b_size t with
    | 0 => j = 0 -> nd_at (t_nd E y) [b] = v
    | _ => nd_at (t_nd E y) [b; j] = v
    end.
Proof.
  intros t p s x y n B H L Sx Ea b j Hb v.
  unfold layer_apply, checked in H. destruct (sig_ok E s); cbn [bind] in H; [|discriminate].
  cbn [out_spec bind] in H. set (so := mkL E _ _ _ _ _) in H.
  destruct (sig_ok E so); cbn [bind] in H; [|discriminate].
  destruct (fits_sig E s x); cbn [bind] in H; [|discriminate].
  cbn [body] in H. unfold matmul in H. rewrite Sx, L in H. cbn [nth] in H. rewrite Nat.eqb_refl in H. cbn [bind] in H.
  set (z := Nd [B; b_units t] _) in H.
  destruct (transform E add elementwise relu neg softmax t (p_b E p) so z) as [w|] eqn:Tr; cbn [bind] in H; [|discriminate].
  destruct (fits_sig E so (mkT E (l_type E so) w)); cbn [bind] in H; [|discriminate]. injection H as <-. cbn [t_nd].
  unfold transform in Tr. destruct (b_drop t).
  { exfalso. destruct (if b_squeeze t then _ else _); cbn [bind] in Tr; [|discriminate].
    match type of Tr with (do x <- ?e; _) = _ => destruct e; discriminate end. }
  set (z1 := if b_bias t then bias_add E add (p_b E p) z else z) in Tr.
  assert (Z1 : nd_shape z1 = [B; b_units t]) by (unfold z1; destruct (b_bias t); reflexivity).
  assert (V1 : nd_at z1 [b; j] = let w := sum_to E zero add n (fun k => mul (nd_at (t_nd E x) [b; k]) (p_w E p [k; j])) in
                                 if b_bias t then add w (p_b E p j) else w).
  { unfold z1, z. destruct (b_bias t); cbn [bias_add nd_at last]; rewrite dot_sum; reflexivity. }
  assert (Sub : forall u i r, (do y <- (match b_act t with None => Ok u | Some nl => sub_activation E elementwise relu neg softmax nl so u end); Ok y) = Ok r ->
                nd_at r i = act_of (b_act t) (nd_at u i)).
  { intros u i r H. destruct (b_act t) as [[| |f]|]; try contradiction; cbn [act_of].
    - unfold sub_activation, checked in H. destruct (sig_ok E so); cbn [bind] in H; [|discriminate].
      destruct (sig_ok E so); cbn [bind] in H; try discriminate.
      destruct (fits_sig E so (mkT E (l_type E so) u)); cbn [bind] in H; [|discriminate]. cbn [activation bind t_nd] in H.
      destruct (fits_sig E so _); cbn [bind t_nd] in H; [|discriminate]. injection H as <-. reflexivity.
    - cbn [bind] in H. injection H as <-. reflexivity. }
  unfold b_squeeze in Tr. destruct (b_size t) as [|m] eqn:Sz; cbn [Nat.eqb] in Tr.
  - intros ->. unfold squeeze in Tr. rewrite Z1 in Tr. unfold b_units in Tr. rewrite Sz in Tr. cbn [length Nat.sub nth_error Nat.max bind] in Tr.
    rewrite (Sub _ [b] w Tr). cbn [nd_at firstn skipn app]. unfold v. rewrite V1. reflexivity.
  - cbn [bind] in Tr. rewrite (Sub _ [b; j] w Tr). unfold v. rewrite V1. reflexivity.
Qed.

(** Flatten: the entries of an instance in row-major order; Reshape with the shape before gives back the same. *)
Theorem C117_flatten_value : forall p (s : lspec E) x y B,
  apply_ CFlatten p s x = Ok y -> positive E s -> fits E s B x ->
  nd_shape (t_nd E y) = [B; nd_size (l_shape E s)] /\
  forall b i, b < B -> in_range i (l_shape E s) -> nd_at (t_nd E y) [b; ravel (l_shape E s) i] = nd_at (t_nd E x) (b :: i).
Proof.
  intros p s x y B H Ps [Tx Sx]. pose proof (size_pos _ (proj1 Ps)) as Sp.
  unfold layer_apply, checked in H. destruct (sig_ok E s); cbn [bind] in H; [|discriminate].
  cbn [out_spec bind] in H. set (so := mkL E _ _ _ _ _) in H.
  destruct (sig_ok E so); cbn [bind] in H; [|discriminate].
  destruct (fits_sig E s x); cbn [bind] in H; [|discriminate]. cbn [body] in H.
  destruct (match l_shape E s with [] => _ | _ => _ end) as [w|] eqn:W; cbn [bind] in H; [|discriminate].
  destruct (fits_sig E so _); cbn [bind] in H; [|discriminate]. injection H as <-. cbn [t_nd].
  assert (Cases : (l_shape E s = [] /\ w = expand_dims E 1 (t_nd E x)) \/ reshape E [nd_size (l_shape E s)] (t_nd E x) = Ok w).
  { destruct (l_shape E s); [left; split; [reflexivity|congruence]|right; exact W]. }
  clear W. destruct Cases as [[L ->]|W].
  - rewrite L in *. unfold expand_dims. rewrite Sx. split; [reflexivity|]. intros b i Hb Hi. inversion Hi; subst. reflexivity.
  - unfold reshape in W. rewrite Sx in W. set (N := nd_size (l_shape E s)) in *.
    change (nd_size [N]) with (N * 1) in W. rewrite Nat.mul_1_r in W.
    rewrite (size_cons B (l_shape E s)) in W. fold N in W.
    rewrite Nat.mod_mul, Nat.div_mul in W by lia. cbn [Nat.eqb] in W. apply ok_inj in W. subst w. cbn [nd_shape nd_at]. split; [reflexivity|].
    intros b i Hb Hi.
    assert (R : ravel [B; N] [b; ravel (l_shape E s) i] = ravel (B :: l_shape E s) (b :: i)).
    { cbn [ravel]. fold N. change (nd_size [N]) with (N * 1). change (nd_size []) with 1. lia. }
    rewrite R, unravel_ravel; [reflexivity|]. constructor; assumption.
Qed.

Theorem C117_reshape_flatten_inverse : forall p p' (s : lspec E) so x y z B,
  positive E s -> fits E s B x -> apply_ CFlatten p s x = Ok y -> out_spec E CFlatten s = Ok so ->
  apply_ (CReshape (l_shape E s)) p' so y = Ok z ->
  nd_shape (t_nd E z) = B :: l_shape E s /\
  forall b i, b < B -> in_range i (l_shape E s) -> nd_at (t_nd E z) (b :: i) = nd_at (t_nd E x) (b :: i).
Proof.
  intros p p' s so x y z B Ps Fx Hy Ho Hz. pose proof (size_pos _ (proj1 Ps)) as Sp.
  destruct (C117_flatten_value p s x y B Hy Ps Fx) as [Sy Vy].
  cbn [out_spec] in Ho. injection Ho as <-.
  unfold layer_apply, checked in Hz. destruct (sig_ok E _); cbn [bind] in Hz; [|discriminate].
  destruct (out_spec E _ _) as [so2|]; cbn [bind] in Hz; [|discriminate].
  destruct (sig_ok E so2); cbn [bind] in Hz; [|discriminate].
  destruct (fits_sig E _ y); cbn [bind] in Hz; [|discriminate]. cbn [body] in Hz.
  destruct (reshape E (l_shape E s) (t_nd E y)) as [w|] eqn:W; cbn [bind] in Hz; [|discriminate].
  destruct (fits_sig E so2 _); cbn [bind] in Hz; [|discriminate]. injection Hz as <-. cbn [t_nd].
  unfold reshape in W. rewrite Sy in W. set (N := nd_size (l_shape E s)) in *.
  change (nd_size [B; N]) with (B * (N * 1)) in W. rewrite Nat.mul_1_r in W.
  rewrite Nat.mod_mul, Nat.div_mul in W by lia. cbn [Nat.eqb] in W. apply ok_inj in W. subst w. cbn [nd_shape nd_at]. split; [reflexivity|].
  intros b i Hb Hi.
  assert (R : ravel (B :: l_shape E s) (b :: i) = ravel [B; N] [b; ravel (l_shape E s) i]).
  { cbn [ravel]. fold N. change (nd_size [N]) with (N * 1). change (nd_size []) with 1. lia. }
  rewrite R, unravel_ravel; [apply Vy; assumption|].
  constructor; [exact Hb|]. constructor; [|constructor]. unfold N. apply ravel_lt. exact Hi.
Qed.

(** Embedding: the row of the table, plus bias, activated *)
Theorem C117_embedding_value : forall t num p (s : lspec E) x y B,
  apply_ (CEmbedding t num) p s x = Ok y -> fits E s B x -> elementwise_only (b_act t) -> 0 < b_size t ->
  forall b i j, b < B -> in_range i (l_shape E s) -> j < b_size t ->
    nd_at (t_nd E y) (b :: i ++ [j]) =
      act_of (b_act t) (let w := p_w E p [Z.to_nat (as_int (nd_at (t_nd E x) (b :: i))); j] in
                        if b_bias t then add w (p_b E p j) else w).
Proof.
  intros t num p s x y B H [Tx Sx] Ea Hs b i j Hb Hi Hj.
  unfold layer_apply, checked in H. destruct (sig_ok E s); cbn [bind] in H; [|discriminate].
  cbn [out_spec bind] in H. set (so := mkL E _ _ _ _ _) in H.
  destruct (sig_ok E so); cbn [bind] in H; [|discriminate].
  destruct (fits_sig E s x); cbn [bind] in H; [|discriminate].
  cbn [body] in H. destruct (num_embeddings E num s) as [n|]; cbn [bind] in H; [|discriminate].
  unfold lookup in H. destruct (forallb _ _); cbn [bind] in H; [|discriminate].
  set (z := Nd (nd_shape (t_nd E x) ++ [b_units t]) _) in H.
  destruct (transform E add elementwise relu neg softmax t (p_b E p) so z) as [w|] eqn:Tr; cbn [bind] in H; [|discriminate].
  destruct (fits_sig E so (mkT E (l_type E so) w)); cbn [bind] in H; [|discriminate]. injection H as <-. cbn [t_nd].
  unfold transform in Tr. destruct (b_drop t).
  { exfalso. destruct (if b_squeeze t then _ else _); cbn [bind] in Tr; [|discriminate].
    match type of Tr with (do x <- ?e; _) = _ => destruct e; discriminate end. }
  set (z1 := if b_bias t then bias_add E add (p_b E p) z else z) in Tr.
  assert (V1 : nd_at z1 (b :: i ++ [j]) = let w := p_w E p [Z.to_nat (as_int (nd_at (t_nd E x) (b :: i))); j] in
                                 if b_bias t then add w (p_b E p j) else w).
  { unfold z1, z. destruct (b_bias t); cbn [bias_add nd_at]; rewrite ?app_comm_cons, ?last_last, ?removelast_last; reflexivity. }
  unfold b_squeeze in Tr. destruct (b_size t) as [|m] eqn:Sz; [lia|]; cbn [Nat.eqb bind] in Tr.
  cbv zeta in V1. cbv zeta. rewrite <- V1. destruct (b_act t) as [[| |f]|]; try contradiction; cbn [act_of].
  - unfold sub_activation, checked in Tr. destruct (sig_ok E so); cbn [bind] in Tr; [|discriminate].
    destruct (sig_ok E so); cbn [bind] in Tr; try discriminate.
    destruct (fits_sig E so (mkT E (l_type E so) z1)); cbn [bind] in Tr; [|discriminate]. cbn [activation bind t_nd] in Tr.
    destruct (fits_sig E so _); cbn [bind t_nd] in Tr; [|discriminate]. injection Tr as <-. reflexivity.
  - cbn [bind] in Tr. injection Tr as <-. reflexivity.
Qed.

(** Conv1d with 'same' padding, stride one and a window of 2h+1: a convolution centred at the position, zeros
    outside. *)
Hypothesis add_0_l : forall a, add zero a = a.
Hypothesis add_assoc : forall a b c, add a (add b c) = add (add a b) c.
Hypothesis mul_0_l : forall a, mul zero a = zero.

Lemma dot_app : forall l1 l2, dot E zero add mul (l1 ++ l2) = add (dot E zero add mul l1) (dot E zero add mul l2).
Proof.
  induction l1 as [|a l1 IH]; intro l2; cbn [app dot fold_right]; [symmetry; apply add_0_l|].
  fold (dot E zero add mul (l1 ++ l2)). rewrite IH. apply add_assoc.
Qed.

Lemma sum_zero : forall n (f : nat -> E), (forall k, f k = zero) -> sum_to E zero add n f = zero.
Proof. induction n as [|n IH]; intros f H; [reflexivity|]. cbn [sum_to]. rewrite H, IH; [apply add_0_l|]. intro k. apply H. Qed.

Lemma sum_ext : forall n (f g : nat -> E), (forall k, f k = g k) -> sum_to E zero add n f = sum_to E zero add n g.
Proof. induction n as [|n IH]; intros f g H; [reflexivity|]. cbn [sum_to]. rewrite H. f_equal. apply IH. intro k. apply H. Qed.

Lemma pad_same : forall len h, 0 < len -> pad_before PSame len (2 * h + 1) 1 1 = h.
Proof.
  intros len h H. cbn [pad_before]. rewrite cdiv_1.
  replace ((len - 1) * 1 + (2 * h + 1 - 1) * 1 + 1 - len) with (h * 2) by lia. apply Nat.div_mul. lia.
Qed.

Lemma conv_sum : forall w h len t c W (f : nat -> nat -> E) j k0, 0 < len ->
  dot E zero add mul (flat_map (fun kq => map (fun a => (f (snd kq) a, W [fst kq; a; j])) (seq 0 c))
     (flat_map (fun k => let q := t * 1 + k * 1 in if Nat.leb h q && Nat.ltb (q - h) len then [(k, q - h)] else []) (seq k0 w)))
  = sum_to E zero add w (fun k => sum_to E zero add c (fun a => mul (padded E zero len h t (k0 + k) (fun q => f q a)) (W [k0 + k; a; j]))).
Proof.
  induction w as [|w IH]; intros h len t c W f j k0 Hl; [reflexivity|].
  cbn [seq flat_map sum_to]. rewrite flat_map_app, dot_app. f_equal.
  - rewrite Nat.add_0_r. unfold padded. rewrite !Nat.mul_1_r. cbv zeta.
    destruct (Nat.leb h (t + k0) && Nat.ltb (t + k0 - h) len).
    + cbn [flat_map fst snd]. rewrite app_nil_r. apply dot_sum.
    + cbn [flat_map]. symmetry. apply sum_zero. intro a. apply mul_0_l.
  - rewrite IH by exact Hl. apply sum_ext. intro k. rewrite <- Nat.add_succ_comm. reflexivity.
Qed.

Theorem C117_conv1d_value_partial : forall size h p (s : lspec E) x y len c B, 0 < size -> 0 < len ->
  apply_ (CConv1d (mkTb size false None false) (2 * h + 1) 1 PSame 1) p s x = Ok y ->
  l_shape E s = [len; c] -> nd_shape (t_nd E x) = [B; len; c] ->
  nd_shape (t_nd E y) = [B; len; size] /\
  forall b t j, nd_at (t_nd E y) [b; t; j] =
    sum_to E zero add (2 * h + 1) (fun k => sum_to E zero add c (fun a =>
      mul (padded E zero len h t k (fun q => nd_at (t_nd E x) [b; q; a])) (p_w E p [k; a; j]))).
Proof.
  intros size h p s x y len c B Hs Hl H L Sx.
  unfold layer_apply, checked in H. destruct (sig_ok E s); cbn [bind] in H; [|discriminate].
  cbn [out_spec] in H. rewrite L in H. cbn [bind] in H. set (so := mkL E _ _ _ _ _) in H.
  destruct (sig_ok E so); cbn [bind] in H; [|discriminate].
  destruct (fits_sig E s x); cbn [bind] in H; [|discriminate].
  cbn [body] in H. unfold conv1d in H. rewrite Sx, L in H. cbn [nth] in H. rewrite Nat.eqb_refl in H. cbn [andb Nat.ltb Nat.leb bind] in H.
  unfold transform in H. cbn [b_bias b_act b_drop] in H. unfold b_squeeze, b_units in H. cbn [b_size] in H.
  destruct (Nat.eqb size 0) eqn:Q; [apply Nat.eqb_eq in Q; lia|]. cbn [bind] in H.
  destruct (fits_sig E so _); cbn [bind] in H; [|discriminate]. apply ok_inj in H. subst y. cbn [t_nd nd_shape nd_at]. split.
  - cbn [out_length]. rewrite cdiv_1, Nat.max_l by lia. reflexivity.
  - intros b t j. unfold window. cbv zeta.
    rewrite (pad_same len h Hl).
    exact (conv_sum (2 * h + 1) h len t c (p_w E p) (fun q a => nd_at (t_nd E x) [b; q; a]) j 0 Hl).
Qed.

(** ** C118: values of aggregated tensors *)
(** The start of tensor [k] in a concatenation *)
Definition offset (sizes : list nat) (k : nat) : nat := fold_right Nat.add 0 (firstn k sizes).

Lemma locate_offset : forall sizes k q, k < length sizes -> q < nth k sizes 0 -> locate sizes (offset sizes k + q) = (k, q).
Proof.
  induction sizes as [|n r IH]; intros k q Hk Hq; [cbn in Hk; lia|]. destruct k as [|k]; cbn [nth] in Hq.
  - unfold offset. cbn [firstn fold_right Nat.add locate]. apply Nat.ltb_lt in Hq. rewrite Hq. reflexivity.
  - unfold offset. cbn [firstn fold_right locate]. fold (offset r k).
    destruct (Nat.ltb (n + offset r k + q) n) eqn:L; [apply Nat.ltb_lt in L; lia|].
    replace (n + offset r k + q - n) with (offset r k + q) by lia. rewrite IH by (cbn in Hk; lia). reflexivity.
Qed.

(** Concatenation: entry [q] along the axis of tensor [k] follows those of all tensors before. *)
Theorem C118_concat_value : forall ax (specs : list (lspec E)) xs y (x0 : ten E) u v k q i j,
  retrieve_ AConcat ax specs xs = Ok y -> 2 <= length xs -> length i = ax + 1 ->
  k < length xs -> nth (ax + 1) (nd_shape (t_nd E (nth k xs x0))) 0 = u -> q < u ->
  v = offset (map (fun x => nth (ax + 1) (nd_shape (t_nd E x)) 0) xs) k + q ->
  nd_at (t_nd E y) (i ++ v :: j) = nd_at (t_nd E (nth k xs x0)) (i ++ q :: j).
Proof.
  intros ax specs xs y x0 u v k q i j H L Li Hk Hu Hq ->. unfold retrieve_apply in H.
  destruct (map_res _ specs); cbn [bind] in H; [|discriminate].
  destruct (retrieve_spec E AConcat ax specs) as [so|]; cbn [bind] in H; [|discriminate].
  destruct (sig_ok E so); cbn [bind] in H; [|discriminate].
  destruct (map_res _ (combine specs xs)); cbn [bind] in H; [|discriminate].
  destruct (retrieve_body E combine_ AConcat ax (l_type E so) (map (t_nd E) xs)) as [w|] eqn:W; cbn [bind] in H; [|discriminate].
  destruct (fits_sig E so _); cbn [bind] in H; [|discriminate]. apply ok_inj in H. subst y. cbn [t_nd].
  destruct xs as [|x1 [|x2 r]]; [cbn in L; lia|cbn in L; lia|]. cbn [map retrieve_body] in W.
  set (xs := x1 :: x2 :: r) in *. change (t_nd E x1 :: t_nd E x2 :: map (t_nd E) r) with (map (t_nd E) xs) in W.
  unfold concat_axis in W. change (map (t_nd E) xs) with (t_nd E x1 :: map (t_nd E) (x2 :: r)) in W.
  cbv beta iota zeta in W. change (t_nd E x1 :: map (t_nd E) (x2 :: r)) with (map (t_nd E) xs) in W.
  match type of W with (if ?b then _ else _) = _ => destruct b; [|discriminate] end. apply ok_inj in W. subst w. cbn [nd_at].
  rewrite map_map. set (sizes := map (fun x => nth (ax + 1) (nd_shape (t_nd E x)) 0) xs).
  rewrite <- Li. rewrite app_nth2, Nat.sub_diag by lia. cbn [nth].
  rewrite locate_offset.
  - rewrite firstn_len_app, skipn_len_app_S. rewrite (nth_indep _ _ (t_nd E x0)) by (rewrite map_length; exact Hk). rewrite map_nth. reflexivity.
  - unfold sizes. rewrite map_length. exact Hk.
  - unfold sizes. rewrite (nth_indep _ 0 (nth (ax + 1) (nd_shape (t_nd E x0)) 0)) by (rewrite map_length; exact Hk).
    rewrite (map_nth (fun x => nth (ax + 1) (nd_shape (t_nd E x)) 0)). lia.
Qed.

(** Stack: tensor [k] is entry [k] along the new axis; sum and product: over all tensors, entry by entry. *)
Theorem C118_stack_value : forall a ax (specs : list (lspec E)) xs y (x0 : ten E) i j,
  retrieve_ a ax specs xs = Ok y -> 2 <= length xs -> length i = ax + 1 -> ax < length (nd_shape (t_nd E (nth 0 xs x0))) ->
  match a with
  | AConcat => True
  | AStack => forall k, k < length xs -> nd_at (t_nd E y) (i ++ k :: j) = nd_at (t_nd E (nth k xs x0)) (i ++ j)
  | _ => nd_at (t_nd E y) (i ++ j) = combine_ a (map (fun x => nd_at (t_nd E x) (i ++ j)) xs)
  end.
Proof.
  intros a ax specs xs y x0 i j H L Li Hax. unfold retrieve_apply in H.
  destruct (map_res _ specs); cbn [bind] in H; [|discriminate].
  destruct (retrieve_spec E a ax specs) as [so|]; cbn [bind] in H; [|discriminate].
  destruct (sig_ok E so); cbn [bind] in H; [|discriminate].
  destruct (map_res _ (combine specs xs)); cbn [bind] in H; [|discriminate].
  destruct (retrieve_body E combine_ a ax (l_type E so) (map (t_nd E) xs)) as [w|] eqn:W; cbn [bind] in H; [|discriminate].
  destruct (fits_sig E so _); cbn [bind] in H; [|discriminate]. apply ok_inj in H. subst y. cbn [t_nd].
  assert (St : forall z, stack_axis E (ax + 1) (map (t_nd E) xs) = Ok z ->
     nth_error (nd_shape z) (ax + 1) = Some (length xs) /\
     forall k, k < length xs -> nd_at z (i ++ k :: j) = nd_at (t_nd E (nth k xs x0)) (i ++ j)).
  { intros z Z. destruct xs as [|x1 r]; [cbn in L; lia|].
    unfold stack_axis in Z. change (map (t_nd E) (x1 :: r)) with (t_nd E x1 :: map (t_nd E) r) in Z.
    cbv beta iota zeta in Z. change (t_nd E x1 :: map (t_nd E) r) with (map (t_nd E) (x1 :: r)) in Z.
    destruct (Nat.leb (ax + 1) (length (nd_shape (t_nd E x1)))) eqn:Le; [|discriminate]. cbn [andb] in Z.
    match type of Z with (if ?b then _ else _) = _ => destruct b; [|discriminate] end. apply ok_inj in Z. subst z. cbn [nd_at nd_shape].
    apply Nat.leb_le in Le. split.
    - rewrite nth_error_app2 by (rewrite firstn_length; lia). rewrite firstn_length, Nat.min_l, Nat.sub_diag by lia.
      cbn [nth_error]. rewrite map_length. reflexivity.
    - intros k Hk. rewrite <- Li. rewrite app_nth2, Nat.sub_diag by lia. cbn [nth].
      rewrite firstn_len_app, skipn_len_app_S. rewrite (nth_indep _ _ (t_nd E x0)) by (rewrite map_length; exact Hk). rewrite map_nth. reflexivity. }
  assert (Two : exists x1 x2 r, xs = x1 :: x2 :: r) by (destruct xs as [|x1 [|x2 r]]; [cbn in L; lia|cbn in L; lia|eauto]).
  assert (Fin : forall z g, stack_axis E (ax + 1) (map (t_nd E) xs) = Ok z -> reduce_axis E g (ax + 1) z = Ok w ->
     nd_at w (i ++ j) = g (map (fun x => nd_at (t_nd E x) (i ++ j)) xs)).
  { intros z g Z R. destruct (St z Z) as [S1 S2]. unfold reduce_axis in R. rewrite S1 in R. apply ok_inj in R. subst w. cbn [nd_at].
    rewrite <- Li, firstn_len_app, skipn_len_app. f_equal.
    transitivity (map (fun k => nd_at (t_nd E (nth k xs x0)) (i ++ j)) (seq 0 (length xs))).
    - apply map_ext_in. intros k Hk. apply in_seq in Hk. apply S2. lia.
    - clear. induction xs as [|x xs IH]; [reflexivity|]. cbn [length seq map nth]. f_equal. rewrite <- seq_shift, map_map. exact IH. }
  destruct Two as (x1 & x2 & r & Two).
  assert (Body : retrieve_body E combine_ a ax (l_type E so) (map (t_nd E) xs) =
      match a with AConcat => concat_axis E (ax + 1) (map (t_nd E) xs) | AStack => stack_axis E (ax + 1) (map (t_nd E) xs)
      | _ => do z <- stack_axis E (ax + 1) (map (t_nd E) xs);
             do _ <- assert_ (negb (dtype_eqb (l_type E so) TBool)) "TypeError: bool"; reduce_axis E (combine_ a) (ax + 1) z end).
  { rewrite Two. destruct a; reflexivity. }
  rewrite Body in W. destruct a; [exact I| | |].
  - destruct (stack_axis E (ax + 1) (map (t_nd E) xs)) as [z|] eqn:Z; cbn [bind] in W; [|discriminate].
    destruct (assert_ _ _); cbn [bind] in W; [|discriminate]. exact (Fin z _ eq_refl W).
  - exact (proj2 (St w W)).
  - destruct (stack_axis E (ax + 1) (map (t_nd E) xs)) as [z|] eqn:Z; cbn [bind] in W; [|discriminate].
    destruct (assert_ _ _); cbn [bind] in W; [|discriminate]. exact (Fin z _ eq_refl W).
Qed.

(** Scalars are accepted for concatenation, though there is no axis to concatenate along. *)
Theorem C118_concat_scalars_refuted : forall ax (specs : list (lspec E)) xs,
  2 <= length specs -> Forall (fun s => l_type E s = TFloat /\ l_shape E s = []) specs -> length xs = length specs ->
  (exists so, retrieve_spec E AConcat ax specs = Ok so) /\ exists e, retrieve_ AConcat ax specs xs = Err e.
Proof.
  intros ax specs xs L F Lx. destruct specs as [|s [|s2 r]]; [cbn in L; lia|cbn in L; lia|].
  inversion F as [|? ? [T0 S0] F']; subst.
  assert (Sp : retrieve_spec E AConcat ax (s :: s2 :: r) = Ok (mkL E TFloat [] None None None)).
  { unfold retrieve_spec. cbv beta iota zeta. rewrite T0, S0.
    match goal with |- context [forallb ?f (s :: s2 :: r)] => assert (Q : forallb f (s :: s2 :: r) = true) end.
    { apply forallb_forall. intros x Hx. rewrite Forall_forall in F. destruct (F x Hx) as [-> _]. reflexivity. }
    rewrite Q. cbn [assert_ bind].
    assert (All : forall sh, In sh (map (l_shape E) (s :: s2 :: r)) -> sh = []).
    { intros sh Hs. apply in_map_iff in Hs as (x & <- & Hx). rewrite Forall_forall in F. apply F. exact Hx. }
    assert (SR : same_rank (map (l_shape E) (s :: s2 :: r)) = true).
    { unfold same_rank. apply forallb_forall. intros sh Hs. rewrite (All sh Hs). cbn [map hd]. rewrite S0. reflexivity. }
    rewrite SR. cbn [assert_ bind].
    match goal with |- context [forallb ?f (map (l_shape E) (s :: s2 :: r))] => assert (Q2 : forallb f (map (l_shape E) (s :: s2 :: r)) = true) end.
    { apply forallb_forall. intros sh Hs. rewrite (All sh Hs). reflexivity. }
    rewrite Q2. reflexivity. }
  split; [eexists; exact Sp|]. unfold retrieve_apply.
  destruct (map_res (sig_ok E) _); cbn [bind]; [|eexists; reflexivity]. rewrite Sp. cbn [bind].
  destruct (sig_ok E _); cbn [bind]; [|eexists; reflexivity].
  destruct xs as [|x1 [|x2 xr]]; try discriminate. cbn [combine map_res fst snd].
  destruct (fits_sig E s x1) as [[]|] eqn:Fx; cbn [bind]; [|eexists; reflexivity].
  destruct (fits_sig E s2 x2); cbn [bind]; [|eexists; reflexivity].
  destruct (map_res _ (combine r xr)); cbn [bind]; [|eexists; reflexivity].
  apply fits_fits_sig in Fx as (B & _ & Sx). rewrite S0 in Sx. cbn [map retrieve_body].
  unfold concat_axis. rewrite Sx. cbn [length]. 
  assert (Lt : Nat.ltb (ax + 1) 1 = false) by (apply Nat.ltb_ge; lia). rewrite Lt. cbn [andb bind]. eexists; reflexivity.
Qed.

(** ** C119: several inputs *)
Definition retrieves (c : cfg) : Prop := match c with CRetrieve _ _ _ => True | _ => False end.

Lemma find_names : forall A C (d : list (string * A)) (d' : list (string * C)) k, map fst d = map fst d' ->
  (find k d = None <-> find k d' = None).
Proof.
  induction d as [|[k1 a] d IH]; intros [|[k2 c] d'] k H; try discriminate; [tauto|].
  cbn [map fst] in H. injection H as -> H. cbn [find]. destruct (String.eqb k k2); [split; discriminate|apply IH; exact H].
Qed.

(** Without a retrieve layer (which is documented to be required for several inputs), the network is
    accepted, and its output does not depend on any input but the first. *)
Theorem C119_other_inputs_ignored_refuted : forall layers ps l n0 x0 m m',
  Forall (fun c => ~ retrieves c) layers -> map fst m = map fst m' ->
  output_ layers ps (Named _ l) (Named _ ((n0, x0) :: m)) = output_ layers ps (Named _ l) (Named _ ((n0, x0) :: m')).
Proof.
  intros layers ps l n0 x0 m m' F N. unfold network_output. cbn [first registered].
  destruct l as [|[k s] l]; [reflexivity|]. cbn [bind].
  assert (Gen : forall n cur reg x tens tens', map fst tens = map fst tens' ->
     run E zero add mul elementwise relu neg softmax reduce pooled combine_ as_int layers n ps cur reg x tens =
     run E zero add mul elementwise relu neg softmax reduce pooled combine_ as_int layers n ps cur reg x tens').
  { induction F as [|c layers Hc _ IH]; intros n cur reg x tens tens' Nm; [reflexivity|].
    destruct c; cbn [run];
      try (destruct (out_spec E _ cur); cbn [bind]; [|reflexivity];
           destruct (apply_ _ _ _ _); cbn [bind]; [|reflexivity]; apply IH; exact Nm).
    - cbn [out_spec bind]. pose proof (find_names _ _ tens tens' tensor Nm) as Q.
      destruct (find tensor tens), (find tensor tens'); try reflexivity.
      + destruct Q as [_ Q]. specialize (Q eq_refl). discriminate.
      + destruct Q as [Q _]. specialize (Q eq_refl). discriminate.
      + destruct (apply_ _ _ _ _); cbn [bind]; [|reflexivity]. apply IH. rewrite !map_app, Nm. reflexivity.
    - exfalso. apply Hc. exact I. }
  apply Gen. cbn [map fst]. f_equal. exact N.
Qed.

Theorem C119_accepted_refuted : forall layers l, Forall (fun c => ~ retrieves c) layers ->
  Forall (fun c => match c with CRegister _ => False | _ => True end) layers ->
  forall n s, network_spec E layers (Named _ ((n, s) :: l)) = network_spec E layers (Single _ s).
Proof.
  intros layers l F F2 n s. unfold network_spec. cbn [first bind registered].
  assert (Gen : forall cur reg reg', match create E layers cur reg, create E layers cur reg' with
    | Ok (a, _), Ok (b, _) => a = b | Err e, Err e' => e = e' | _, _ => False end).
  { revert F2. induction F as [|c layers Hc _ IH]; intros F2 cur reg reg'; [reflexivity|].
    inversion F2 as [|? ? Hc2 F2']; subst.
    destruct c; try contradiction; try (exfalso; apply Hc; exact I); cbn [create];
      (destruct (layer_init E _ cur); cbn [bind]; [|reflexivity];
       destruct (out_spec E _ cur); cbn [bind]; [|reflexivity]; apply IH; exact F2'). }
  specialize (Gen s ((n, s) :: l) [("state"%string, s)]).
  destruct (create E layers s ((n, s) :: l)) as [[a ?]|], (create E layers s [("state"%string, s)]) as [[b ?]|]; cbn [bind fst]; try contradiction; congruence.
Qed.

(** ** C120: the embedding table *)
(** If the number of embeddings is not given, every value of the specification has a row (see C113); if it is
    given, a table that is too small is accepted. *)
Theorem C120_small_table_refuted : forall t n k p (s : lspec E) x B i,
  l_type E s = TInt -> l_num E s = Some k -> n < k -> fits E s B x -> in_range i (nd_shape (t_nd E x)) ->
  (Z.of_nat n <= as_int (nd_at (t_nd E x) i) < Z.of_nat k)%Z ->
  layer_init E (CEmbedding t (Some n)) s = Ok tt /\ exists e, apply_ (CEmbedding t (Some n)) p s x = Err e.
Proof.
  intros t n k p s x B i T K Lt Fx Hi V. split.
  - cbn [layer_init]. unfold accepts. rewrite T. reflexivity.
  - unfold layer_apply, checked. destruct (sig_ok E s); cbn [bind]; [|eexists; reflexivity].
    cbn [out_spec bind]. destruct (sig_ok E _); cbn [bind]; [|eexists; reflexivity].
    destruct (fits_sig E s x); cbn [bind]; [|eexists; reflexivity]. cbn [body num_embeddings bind]. unfold lookup.
    match goal with |- context [if ?b then _ else _] => destruct b eqn:Q end; cbn [bind]; [|eexists; reflexivity].
    exfalso. rewrite forallb_forall in Q.
    assert (In_i : forall sh i, in_range i sh -> In i (indices sh)).
    { induction sh as [|m sh IH]; intros j Hj; inversion Hj as [|x1 ? j1 ? H1 H2]; subst; cbn [indices]; [left; reflexivity|].
      apply in_flat_map. exists x1. split; [apply in_seq; lia|]. apply in_map. apply IH. exact H2. }
    specialize (Q i (In_i _ _ Hi)). apply andb_prop in Q as [_ Q]. apply Z.ltb_lt in Q. lia.
Qed.

(** Without the argument, creation succeeds exactly if the number of values is known. *)
Theorem C120_default_table : forall t (s : lspec E),
  layer_init E (CEmbedding t None) s = Ok tt <->
  l_type E s = TBool \/ (l_type E s = TInt /\ l_num E s <> None).
Proof.
  intros t s. cbn [layer_init]. unfold accepts, num_embeddings. destruct (l_type E s); cbn [existsb dtype_eqb orb assert_ bind].
  - split; [intros _; left; reflexivity|reflexivity].
  - destruct (l_num E s) as [n|]; cbn [bind].
    + rewrite Nat.ltb_irrefl. cbn [bind]. split; [intros _; right; split; [reflexivity|discriminate]|reflexivity].
    + split; [discriminate|]. intros [H|[_ H]]; [discriminate|congruence].
  - split; [discriminate|]. intros [H|[H _]]; discriminate.
Qed.
End Props.

(** ** Examples *)
(** Numbers are integers here; softmax is the rank of an entry among those it is normalised with. *)
Definition zE (f : string) (e : Z) : Z := if String.eqb f "relu" then Z.max e 0 else e.
Definition zsoft (l : list Z) (k : nat) : Z := Z.of_nat (length (filter (fun a => Z.ltb a (nth k l 0%Z)) l)).
Definition zred (r : reduction) (l : list Z) : Z :=
  match r with RMax => fold_right Z.max 0%Z l | RProduct => fold_right Z.mul 1%Z l | _ => fold_right Z.add 0%Z l end.
Definition zpool (r : pool) (l : list Z) : Z := match r with PMax => fold_right Z.max 0%Z l | PAverage => fold_right Z.add 0%Z l end.
Definition zcomb (a : agg) (l : list Z) : Z := match a with AProduct => fold_right Z.mul 1%Z l | _ => fold_right Z.add 0%Z l end.
Definition zapply := layer_apply Z 0%Z Z.add Z.mul zE (Z.max 0) Z.opp zsoft zred zpool (fun e => e).
Definition zretrieve := retrieve_apply Z zcomb.
Definition zoutput := network_output Z 0%Z Z.add Z.mul zE (Z.max 0) Z.opp zsoft zred zpool zcomb (fun e => e).
Definition zpar : params Z := mkP Z (fun i => Z.of_nat (nth 0 i 0 + 2 * nth 1 i 0 + 1)) Z.of_nat.
Definition fl (sh : list nat) : lspec Z := mkL Z TFloat sh None None None.
Definition it (sh : list nat) (n : nat) : lspec Z := mkL Z TInt sh None None (Some n).
Definition tf (sh : list nat) (f : list nat -> Z) : ten Z := mkT Z TFloat (Nd sh f).
(** Entries of a tensor *)
Definition entries (r : res (ten Z)) : option (list nat * list Z) :=
  match r with Ok y => Some (nd_shape (t_nd Z y), map (nd_at (t_nd Z y)) (indices (nd_shape (t_nd Z y)))) | Err _ => None end.
Definition x23 : ten Z := tf [2; 3] (fun i => Z.of_nat (10 * nth 0 i 0 + nth 1 i 0)).
Definition dense2 : cfg := CDense (mkTb 2 true (Some (Elementwise "relu")) false).

Example C113_layer_example :
  layer_init Z dense2 (fl [3]) = Ok tt /\ out_spec Z dense2 (fl [3]) = Ok (fl [2]) /\ positive Z (fl [3]) /\
  good Z dense2 (fl [3]) (fl [2]) /\ batch_of Z (fun e => e) (fl [3]) 2 x23 /\
  entries (zapply dense2 zpar (fl [3]) x23) = Some ([2; 2], [8; 15; 68; 135]%Z).
Proof.
  split; [reflexivity|]. split; [reflexivity|]. split; [split; [repeat constructor|discriminate]|].
  split; [split; [reflexivity|exact I]|]. split; [split; [split; reflexivity|intros; exact I]|]. reflexivity.
Qed.

Example C113_pooling_example : (* a window of three, moved by two *)
  layer_init Z (CPool1d PMax 3 2 PValid) (fl [5; 1]) = Ok tt /\ good Z (CPool1d PMax 3 2 PValid) (fl [5; 1]) (fl [2; 1]) /\
  entries (zapply (CPool1d PMax 3 2 PValid) zpar (fl [5; 1]) (tf [1; 5; 1] (fun i => Z.of_nat (nth 1 i 0)))) = Some ([1; 2; 1], [2; 4]%Z).
Proof. split; [reflexivity|]. split; [cbn; lia|reflexivity]. Qed.

Example C113_retrieve_example :
  retrieve_spec Z AConcat 0 [fl [3]; fl [1]] = Ok (fl [4]) /\ good_retrieve Z AConcat 0 [fl [3]; fl [1]] /\
  entries (zretrieve AConcat 0 [fl [3]; fl [1]] [x23; tf [2; 1] (fun i => 7%Z)]) = Some ([2; 4], [0; 1; 2; 7; 10; 11; 12; 7]%Z).
Proof. split; [reflexivity|]. split; [cbn; lia|reflexivity]. Qed.

Example C113_crelu_example : positive Z (fl [3]) /\ layer_init Z (CActivation Crelu) (fl [3]) = Ok tt /\
  entries (zapply (CActivation Crelu) zpar (fl [3]) x23) = None /\
  entries (zapply (CActivation (Elementwise "relu")) zpar (fl [3]) x23) = Some ([2; 3], [0; 1; 2; 10; 11; 12]%Z).
Proof. split; [split; [repeat constructor|discriminate]|]. repeat split; reflexivity. Qed.

Example C113_dropout_example : out_spec Z (CDense (mkTb 2 true None true)) (fl [3]) = Ok (fl [2]) /\
  layer_init Z (CDense (mkTb 2 true None true)) (fl [3]) = Ok tt /\ entries (zapply (CDense (mkTb 2 true None true)) zpar (fl [3]) x23) = None.
Proof. repeat split; reflexivity. Qed.

Example C113_linear_example : (exists e, layer_init Z (CLinear 4 true) (fl []) = Err e) /\ layer_init Z (CLinear 4 true) (fl [3]) = Ok tt.
Proof. split; [eexists; reflexivity|reflexivity]. Qed.

(** Instance 1 of one batch, instance 0 of another *)
Example C114_layer_example : let x' := tf [1; 3] (fun i => Z.of_nat (10 + nth 1 i 0)) in
  same_row Z [3] (t_nd Z x23) 1 (t_nd Z x') 0 /\ entries (zapply dense2 zpar (fl [3]) x') = Some ([1; 2], [68; 135]%Z).
Proof.
  split; [|reflexivity]. intros i Hi. inversion Hi as [|a ? r ? Ha Hr]; subst. inversion Hr; subst. destruct a as [|[|[|a]]]; [reflexivity..|lia].
Qed.

(** An instance changes with the others of the batch. *)
Example C114_softmax_example :
  entries (zapply (CActivation Softmax) zpar (fl []) (tf [2] (fun i => Z.of_nat (nth 0 i 0)))) = Some ([2], [0; 1]%Z) /\
  entries (zapply (CActivation Softmax) zpar (fl []) (tf [1] (fun i => 1%Z))) = Some ([1], [0]%Z).
Proof. split; reflexivity. Qed.

Definition net2 : list cfg := [dense2; CRegister "a"; CRetrieve ["b"%string] AConcat 0; dense2; CRegister "c"; CRetrieve ["a"%string; "c"%string] AConcat 0].
Definition in2 : inputs (lspec Z) := Named _ [("s"%string, fl [3]); ("b"%string, fl [1])].
Definition val2 (v : Z) : inputs (ten Z) := Named _ [("s"%string, x23); ("b"%string, tf [2; 1] (fun i => v))].
Example C115_network_example :
  network_spec Z net2 in2 = Ok (fl [4]) /\ well_built Z net2 (fl [3]) (registered in2) /\
  inputs_batch Z (fun e => e) 2 in2 (val2 1) /\
  entries (zoutput net2 (fun _ => zpar) in2 (val2 1)) = Some ([2; 4], [8; 15; 1; 4; 68; 135; 1; 4]%Z).
Proof.
  split; [reflexivity|]. split; [|split; [|reflexivity]].
  - cbn. intros so H. injection H as <-. split; [split; [reflexivity|exact I]|]. intros so H. injection H as <-.
    intros specs so H1 H2. injection H1 as <-. injection H2 as <-. split; [exact I|].
    intros so H. injection H as <-. split; [split; [reflexivity|exact I]|]. intros so H. injection H as <-.
    intros specs so H1 H2. injection H1 as <-. injection H2 as <-. split; [cbn; lia|exact I].
  - repeat constructor; cbn; try discriminate; auto.
Qed.

Example C115_instances_example : inputs_same Z in2 (val2 1) (val2 1) 0 0 /\
  ~ inputs_same Z in2 (val2 1) (val2 2) 0 0.
Proof.
  split; [intros k s t t' H1 H2 H3; rewrite H2 in H3; injection H3 as <-; intros i Hi; reflexivity|].
  intro H. specialize (H 1 _ _ _ eq_refl eq_refl eq_refl [0]). cbn in H. discriminate H. repeat constructor.
Qed.

Definition auto4 : auto := mkAuto 4 2 None None.
Definition in3 : inputs (lspec Z) := Named _ [("s"%string, fl [3]); ("n"%string, it [] 5)].
Definition val3 : inputs (ten Z) := Named _ [("s"%string, x23); ("n"%string, mkT Z TInt (Nd [2] (fun i => 4%Z)))].
Example C116_auto_example : auto_ok Z auto4 in3 /\ inputs_batch Z (fun e => e) 2 in3 val3 /\ auto_output Z auto4 in3 = 8 /\
  exists ls, auto_layers Z auto4 in3 = Ok ls /\ length ls = 9 /\ option_map fst (entries (zoutput ls (fun _ => zpar) in3 val3)) = Some [2; 8].
Proof.
  split; [|split; [|split; [reflexivity|]]].
  - split; [cbn; lia|]. cbn. split; [discriminate|]. split.
    + repeat constructor; cbn; try discriminate; try lia. intros _ n H. injection H as <-. lia.
    + split; [|discriminate]. split.
      * constructor; [cbn; intros [H|[]]; discriminate|]. constructor; [intros []|constructor].
      * intros n n' [<-|[<-|[]]] [<-|[<-|[]]] H; discriminate.
  - repeat constructor; cbn; try discriminate; try lia; auto. intros _ n H. injection H as <-. lia.
  - eexists. split; [reflexivity|]. split; reflexivity.
Qed.

Example C116_auto_instances_example : inputs_same Z in3 val3 val3 1 1 /\
  (exists e, auto_input Z auto4 None (mkL Z TInt [] None None None) = Err e) /\ (exists e, auto_input Z auto4 None (fl [2; 2; 2; 2]) = Err e).
Proof.
  split; [intros k s t t' H1 H2 H3; rewrite H2 in H3; injection H3 as <-; intros i Hi; reflexivity|]. split; eexists; reflexivity.
Qed.

(** 0 * 1 + 1 * 2 + 2 * 3 = 8 and 10 * 1 + 11 * 2 + 12 * 3 = 68 *)
Example C117_dense_example : entries (zapply (CDense (mkTb 0 true None false)) zpar (fl [3]) x23) = Some ([2], [8; 68]%Z).
Proof. reflexivity. Qed.

Definition x123 : ten Z := tf [1; 2; 3] (fun i => Z.of_nat (10 * nth 1 i 0 + nth 2 i 0)).
Example C117_flatten_example : positive Z (fl [2; 3]) /\ fits Z (fl [2; 3]) 1 x123 /\
  entries (zapply CFlatten zpar (fl [2; 3]) x123) = Some ([1; 6], [0; 1; 2; 10; 11; 12]%Z) /\
  (forall y, zapply CFlatten zpar (fl [2; 3]) x123 = Ok y ->
     entries (zapply (CReshape [2; 3]) zpar (fl [6]) y) = entries (Ok x123) /\
     entries (zapply (CReshape [3; 2]) zpar (fl [6]) y) = Some ([1; 3; 2], [0; 1; 2; 10; 11; 12]%Z)).
Proof.
  split; [split; [repeat constructor|discriminate]|]. split; [split; reflexivity|]. split; [reflexivity|].
  intros y H. vm_compute in H. injection H as <-. split; reflexivity.
Qed.

Example C117_embedding_example : fits Z (it [1] 5) 2 (mkT Z TInt (Nd [2; 1] (fun i => Z.of_nat (3 + nth 0 i 0)))) /\
  entries (zapply (CEmbedding (mkTb 2 true None false) None) zpar (it [1] 5) (mkT Z TInt (Nd [2; 1] (fun i => Z.of_nat (3 + nth 0 i 0)))))
  = Some ([2; 1; 2], [4; 7; 5; 8]%Z).
Proof. split; [split; reflexivity|reflexivity]. Qed.

(** Ones; weights 1, 2, 3 *)
Example C117_conv1d_example : entries (zapply (CConv1d (mkTb 1 false None false) 3 1 PSame 1) zpar (fl [4; 1]) (tf [1; 4; 1] (fun _ => 1%Z)))
  = Some ([1; 4; 1], [5; 6; 6; 3]%Z).
Proof. reflexivity. Qed.

Example C118_values_example :
  entries (zretrieve AStack 0 [fl [3]; fl [3]] [x23; x23]) = Some ([2; 2; 3], [0; 1; 2; 0; 1; 2; 10; 11; 12; 10; 11; 12]%Z) /\
  entries (zretrieve AStack 1 [fl [3]; fl [3]] [x23; x23]) = Some ([2; 3; 2], [0; 0; 1; 1; 2; 2; 10; 10; 11; 11; 12; 12]%Z) /\
  entries (zretrieve ASum 0 [fl [3]; fl [3]] [x23; x23]) = Some ([2; 3], [0; 2; 4; 20; 22; 24]%Z) /\
  entries (zretrieve AConcat 0 [fl [3]; fl [3]] [x23; x23]) = Some ([2; 6], [0; 1; 2; 0; 1; 2; 10; 11; 12; 10; 11; 12]%Z) /\
  offset [3; 3] 1 = 3.
Proof. repeat split; reflexivity. Qed.

Example C118_scalars_example : retrieve_spec Z AConcat 0 [fl []; fl []] = Ok (fl []) /\
  entries (zretrieve AConcat 0 [fl []; fl []] [tf [2] (fun _ => 1%Z); tf [2] (fun _ => 1%Z)]) = None.
Proof. split; reflexivity. Qed.

(** Sums and products of shapes that only agree up to dimensions of one are declared as broadcast, but fail:
    retrieve does not broadcast. *)
Example C118_broadcast_refuted : retrieve_spec Z ASum 0 [fl [3]; fl [1]] = Ok (fl [3]) /\
  positive Z (fl [3]) /\ positive Z (fl [1]) /\
  entries (zretrieve ASum 0 [fl [3]; fl [1]] [x23; tf [2; 1] (fun i => 7%Z)]) = None.
Proof. split; [reflexivity|]. split; [split; [repeat constructor|discriminate]|]. split; [split; [repeat constructor|discriminate]|reflexivity]. Qed.

Example C119_inputs_example : Forall (fun c => ~ retrieves c) [dense2; CRegister "a"] /\
  entries (zoutput [dense2; CRegister "a"] (fun _ => zpar) in2 (val2 1)) = Some ([2; 2], [8; 15; 68; 135]%Z) /\
  zoutput [dense2; CRegister "a"] (fun _ => zpar) in2 (val2 1) = zoutput [dense2; CRegister "a"] (fun _ => zpar) in2 (val2 2) /\
  entries (zoutput net2 (fun _ => zpar) in2 (val2 2)) <> entries (zoutput net2 (fun _ => zpar) in2 (val2 1)).
Proof. split; [repeat constructor; intros []|]. repeat split; try reflexivity. discriminate. Qed.

Example C119_accepted_example : network_spec Z [dense2] in2 = Ok (fl [2]).
Proof. reflexivity. Qed.

Example C120_small_example : let x := mkT Z TInt (Nd [2] (fun i => Z.of_nat (nth 0 i 0))) in
  fits Z (it [] 5) 2 x /\ layer_init Z (CEmbedding (mkTb 2 true None false) (Some 1)) (it [] 5) = Ok tt /\
  entries (zapply (CEmbedding (mkTb 2 true None false) (Some 1)) zpar (it [] 5) x) = None /\
  entries (zapply (CEmbedding (mkTb 2 true None false) None) zpar (it [] 5) x) = Some ([2; 2], [1; 4; 2; 5]%Z).
Proof. cbv zeta. repeat split; reflexivity. Qed.

Example C120_default_example : layer_init Z (CEmbedding (mkTb 2 true None false) None) (it [3] 5) = Ok tt /\
  (exists e, layer_init Z (CEmbedding (mkTb 2 true None false) None) (mkL Z TInt [3] None None None) = Err e) /\
  exists e, layer_init Z (CEmbedding (mkTb 2 true None false) None) (fl [3]) = Err e.
Proof. split; [reflexivity|]. split; eexists; reflexivity. Qed.

Print Assumptions C113_layer_output_as_declared_partial.
Print Assumptions C113_retrieve_output_as_declared_partial.
Print Assumptions C113_crelu_refuted.
Print Assumptions C113_dropout_refuted.
Print Assumptions C113_linear_scalar_refuted.
Print Assumptions C114_layer_instances_partial.
Print Assumptions C114_softmax_scalar_refuted.
Print Assumptions C115_network_output_as_declared_partial.
Print Assumptions C115_network_instances_partial.
Print Assumptions C116_auto_network_partial.
Print Assumptions C116_auto_network_instances_partial.
Print Assumptions C116_auto_network_rejects.
Print Assumptions C117_dense_value.
Print Assumptions C117_flatten_value.
Print Assumptions C117_reshape_flatten_inverse.
Print Assumptions C117_embedding_value.
Print Assumptions C117_conv1d_value_partial.
Print Assumptions C118_concat_value.
Print Assumptions C118_stack_value.
Print Assumptions C118_concat_scalars_refuted.
Print Assumptions C119_other_inputs_ignored_refuted.
Print Assumptions C119_accepted_refuted.
Print Assumptions C120_small_table_refuted.
Print Assumptions C120_default_table.
