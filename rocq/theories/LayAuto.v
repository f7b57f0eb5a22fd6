(** AutoNetwork is accepted for all states and has the documented output. *)
From Coq Require Import String List ZArith Lia Bool PeanoNat.
From Verif Require Import Base SpecSpec SpecModel LayModel LaySpec LayProofs LayNet.
Import ListNotations.
Open Scope list_scope.
Open Scope nat_scope.

Section Auto.
Variable E : Type.
Notation spec_ := (lspec E).
Notation auto_input_ := (auto_input E).

(** The layers are accepted, and good. *)
Definition builds (ls : list cfg) (cur : spec_) (reg : list (string * spec_)) (s1 : spec_) (reg1 : list (string * spec_)) : Prop :=
  create E ls cur reg = Ok (s1, reg1) /\ well_built E ls cur reg.

Lemma builds_nil : forall cur reg, builds [] cur reg cur reg.
Proof. intros. split; [reflexivity|exact I]. Qed.

Lemma builds_plain : forall c ls cur reg s1 s2 reg2,
  step_plain c -> layer_init E c cur = Ok tt -> out_spec E c cur = Ok s1 -> good E c cur s1 ->
  builds ls s1 reg s2 reg2 -> builds (c :: ls) cur reg s2 reg2.
Proof.
  intros c ls cur reg s1 s2 reg2 Pl Hi Ho G [Hc W]. split.
  - destruct c; try contradiction; cbn [create]; rewrite Hi; cbn [bind]; rewrite Ho; exact Hc.
  - assert (Q : forall so, out_spec E c cur = Ok so -> good E c cur so /\ well_built E ls so reg).
    { intros so H. rewrite Ho in H. injection H as <-. auto. }
    destruct c; try contradiction; exact Q.
Qed.

Lemma builds_register : forall t ls cur reg s2 reg2,
  find t reg = None -> builds ls cur (reg ++ [(t, cur)]) s2 reg2 -> builds (CRegister t :: ls) cur reg s2 reg2.
Proof.
  intros t ls cur reg s2 reg2 F [Hc W]. split.
  - cbn [create layer_init out_spec bind]. rewrite F. exact Hc.
  - cbn [well_built out_spec]. intros so H. injection H as <-. exact W.
Qed.

Lemma builds_retrieve : forall ts a ax ls cur reg specs s1 s2 reg2,
  find_all ts reg = Ok specs -> repeated ts = false -> retrieve_spec E a ax specs = Ok s1 ->
  good_retrieve E a ax specs -> builds ls s1 reg s2 reg2 -> builds (CRetrieve ts a ax :: ls) cur reg s2 reg2.
Proof.
  intros ts a ax ls cur reg specs s1 s2 reg2 F R Ho G [Hc W]. split.
  - cbn [create]. rewrite F. cbn [bind]. rewrite R. cbn [negb assert_ bind]. rewrite Ho. exact Hc.
  - cbn [well_built]. intros specs' so H1 H2. rewrite F in H1. injection H1 as <-. rewrite Ho in H2. injection H2 as <-. auto.
Qed.

Lemma builds_app : forall l1 l2 cur reg s1 reg1 s2 reg2,
  builds l1 cur reg s1 reg1 -> builds l2 s1 reg1 s2 reg2 -> builds (l1 ++ l2) cur reg s2 reg2.
Proof.
  induction l1 as [|c l1 IH]; intros l2 cur reg s1 reg1 s2 reg2 [Hc W] B2.
  - cbn in Hc. injection Hc as <- <-. exact B2.
  - cbn [app].
    assert (Plain : step_plain c -> builds (c :: l1 ++ l2) cur reg s2 reg2).
    { intro Pl.
      assert (Hc' : exists sq, layer_init E c cur = Ok tt /\ out_spec E c cur = Ok sq /\ create E l1 sq reg = Ok (s1, reg1)).
      { destruct c; try contradiction; cbn [create] in Hc;
          (destruct (layer_init E _ cur) as [[]|]; [|discriminate]; cbn [bind] in Hc;
           destruct (out_spec E _ cur) as [sq|]; [|discriminate]; cbn [bind] in Hc; exists sq; auto). }
      destruct Hc' as (sq & Hi & Ho & Hc').
      assert (W' : good E c cur sq /\ well_built E l1 sq reg) by (destruct c; try contradiction; apply W; exact Ho).
      destruct W' as [G W']. eapply builds_plain; [exact Pl|exact Hi|exact Ho|exact G|].
      eapply IH; [split; [exact Hc'|exact W']|exact B2]. }
    destruct c as [nl|r| | |r w st pd|r w1 w2 s1' s2' pd|t|t w st pd d|t w1 w2 s1' s2' pd d1 d2|t num|size bias|sh|tn|ts a ax];
      try (apply Plain; exact I).
    + clear Plain. cbn [create layer_init out_spec bind] in Hc. cbn [well_built out_spec] in W.
      destruct (find tn reg) eqn:F; [discriminate|].
      apply builds_register; [exact F|]. eapply IH; [split; [exact Hc|exact (W cur eq_refl)]|exact B2].
    + clear Plain. cbn [create] in Hc. cbn [well_built] in W.
      destruct (find_all ts reg) as [specs|] eqn:F; [|discriminate]. cbn [bind] in Hc.
      destruct (repeated ts) eqn:Rp; [discriminate|]. cbn [negb assert_ bind] in Hc.
      destruct (retrieve_spec E a ax specs) as [sq|] eqn:R; [|discriminate]. cbn [bind] in Hc.
      destruct (W specs sq eq_refl R) as [G W'].
      eapply builds_retrieve; [exact F|exact Rp|exact R|exact G|].
      eapply IH; [split; [exact Hc|exact W']|exact B2].
Qed.

(** ** The layers of AutoNetwork *)
Lemma units_pos : forall size, 0 < size -> forall b a d sh, with_units (mkTb size b a d) sh = sh ++ [size].
Proof.
  intros size H b a d sh. unfold with_units, b_squeeze, b_units. cbn [b_size].
  destruct (Nat.eqb size 0) eqn:Q; [apply Nat.eqb_eq in Q; lia|]. rewrite Nat.max_l by lia. reflexivity.
Qed.

Lemma accepts_float : forall (s : spec_) r, l_type E s = TFloat ->
  match r with None => True | Some n => length (l_shape E s) = n end -> accepts E [TFloat] r s = Ok tt.
Proof.
  intros s r T L. unfold accepts. rewrite T. cbn. destruct r as [n|]; [|reflexivity].
  rewrite L, Nat.eqb_refl. reflexivity.
Qed.

Lemma builds_denses : forall size k, 0 < size -> forall (s : spec_) n reg, l_type E s = TFloat -> l_shape E s = [n] ->
  exists s1, builds (repeat (auto_dense size) k) s reg s1 reg /\ l_type E s1 = TFloat /\
    l_shape E s1 = [match k with 0 => n | _ => size end].
Proof.
  intros size k Hs. induction k as [|k IH]; intros s n reg T L.
  - exists s. split; [apply builds_nil|]. auto.
  - set (s0 := mkL E (l_type E s) (with_units (mkTb size true (Some (Elementwise "tanh")) false) (removelast (l_shape E s))) None None (l_num E s)).
    destruct (IH s0 size reg) as (s1 & B1 & T1 & L1); [exact T|unfold s0; cbn [l_shape]; rewrite L, units_pos by exact Hs; reflexivity|].
    exists s1. split; [|split; [exact T1|]].
    + cbn [repeat]. eapply (builds_plain _ _ s reg s0); [exact I| |reflexivity| |exact B1].
      * apply accepts_float; [exact T|rewrite L; reflexivity].
      * split; [reflexivity|exact I].
    + rewrite L1. destruct k; reflexivity.
Qed.

Lemma cdiv_1 : forall n, cdiv n 1 = n.
Proof. intro n. unfold cdiv. rewrite Nat.sub_diag, Nat.add_0_r. apply Nat.div_1_r. Qed.

Lemma builds_conv1ds : forall size k, 0 < size -> forall (s : spec_) l n reg, l_type E s = TFloat -> l_shape E s = [l; n] ->
  exists s1, builds (repeat (auto_conv1d size) k) s reg s1 reg /\ l_type E s1 = TFloat /\
    l_shape E s1 = [l; match k with 0 => n | _ => size end].
Proof.
  intros size k Hs. induction k as [|k IH]; intros s l n reg T L.
  - exists s. split; [apply builds_nil|]. auto.
  - set (s0 := mkL E (l_type E s) [l; size] None None (l_num E s)).
    destruct (IH s0 l size reg) as (s1 & B1 & T1 & L1); [exact T|reflexivity|].
    exists s1. split; [|split; [exact T1|]].
    + cbn [repeat]. eapply (builds_plain _ _ s reg s0); [exact I| | | |exact B1].
      * apply accepts_float; [exact T|rewrite L; reflexivity].
      * cbn [auto_conv1d out_spec]. rewrite L, units_pos by exact Hs. cbn [out_length app]. rewrite cdiv_1. reflexivity.
      * cbn [good auto_conv1d]. split; [split; [reflexivity|exact I]|]. cbn. lia.
    + rewrite L1. destruct k; reflexivity.
Qed.

Lemma builds_conv2ds : forall size k, 0 < size -> forall (s : spec_) l m n reg, l_type E s = TFloat -> l_shape E s = [l; m; n] ->
  exists s1, builds (repeat (auto_conv2d size) k) s reg s1 reg /\ l_type E s1 = TFloat /\
    l_shape E s1 = [l; m; match k with 0 => n | _ => size end].
Proof.
  intros size k Hs. induction k as [|k IH]; intros s l m n reg T L.
  - exists s. split; [apply builds_nil|]. auto.
  - set (s0 := mkL E (l_type E s) [l; m; size] None None (l_num E s)).
    destruct (IH s0 l m size reg) as (s1 & B1 & T1 & L1); [exact T|reflexivity|].
    exists s1. split; [|split; [exact T1|]].
    + cbn [repeat]. eapply (builds_plain _ _ s reg s0); [exact I| | | |exact B1].
      * apply accepts_float; [exact T|rewrite L; reflexivity].
      * cbn [auto_conv2d out_spec]. rewrite L, units_pos by exact Hs. cbn [out_length app]. rewrite !cdiv_1. reflexivity.
      * cbn [good auto_conv2d]. split; [split; [reflexivity|exact I]|]. cbn. lia.
    + rewrite L1. destruct k; reflexivity.
Qed.

Lemma builds_pooling : forall (s : spec_) a n reg, l_type E s = TFloat -> l_shape E s = a ++ [n] ->
  exists s1, builds [CPooling RMax] s reg s1 reg /\ l_type E s1 = TFloat /\ l_shape E s1 = [n].
Proof.
  intros s a n reg T L. exists (mkL E (l_type E s) [n] None None (l_num E s)).
  split; [|split; [exact T|reflexivity]].
  eapply builds_plain; [exact I|apply accepts_float; [exact T|exact I]| |exact I|apply builds_nil].
  cbn [out_spec]. rewrite L, rev_app_distr. reflexivity.
Qed.

(** The layers for one float tensor *)
Lemma builds_float : forall size k (s : spec_) reg, 0 < size -> l_type E s = TFloat ->
  forall kind, match length (l_shape E s) with
    | 1 => kind = auto_dense size | 2 => kind = auto_conv1d size | 3 => kind = auto_conv2d size | _ => False end ->
  exists s1, builds (repeat kind k ++ (if Nat.ltb 1 (length (l_shape E s)) then [CPooling RMax] else [])) s reg s1 reg /\
    l_type E s1 = TFloat /\ l_shape E s1 = [match k with 0 => last (l_shape E s) 1 | _ => size end].
Proof.
  intros size k s reg Hs T kind K.
  destruct (l_shape E s) as [|a [|b [|c [|? ?]]]] eqn:L; cbn [length] in K; try contradiction; subst kind; cbn [length Nat.ltb Nat.leb last].
  - rewrite app_nil_r. exact (builds_denses size k Hs s a reg T L).
  - destruct (builds_conv1ds size k Hs s a b reg T L) as (s1 & B1 & T1 & L1).
    destruct (builds_pooling s1 [a] _ reg T1 L1) as (s2 & B2 & T2 & L2).
    exists s2. split; [eapply builds_app; eassumption|]. auto.
  - destruct (builds_conv2ds size k Hs s a b c reg T L) as (s1 & B1 & T1 & L1).
    destruct (builds_pooling s1 [a; b] _ reg T1 L1) as (s2 & B2 & T2 & L2).
    exists s2. split; [eapply builds_app; eassumption|]. auto.
Qed.

(** The layers of one input between retrieve and register *)
Lemma auto_input_builds : forall c name (s : spec_), 0 < a_size c -> auto_state E s ->
  exists ls, auto_input_ c name s = Ok ((match name with Some n => [CRetrieve [n] AConcat 0] | None => [] end) ++ ls
      ++ (match name with Some n => [CRegister (emb n)] | None => [] end)) /\
    forall reg, exists s1, builds ls s reg s1 reg /\ l_type E s1 = TFloat /\ l_shape E s1 = [width E (a_size c) (a_depth c) s].
Proof.
  intros c name s Hs [Ps A].
  destruct (l_type E s) eqn:T.
  - (* bool *)
    set (e := mkL E TFloat (l_shape E s ++ [a_size c]) None None None).
    assert (R : exists kind, match length (l_shape E e) with
        | 1 => kind = auto_dense (a_size c) | 2 => kind = auto_conv1d (a_size c) | 3 => kind = auto_conv2d (a_size c) | _ => False end /\
        auto_input_ c name s = Ok ((match name with Some n => [CRetrieve [n] AConcat 0] | None => [] end)
          ++ (auto_embedding (a_size c) :: repeat kind (a_depth c - 1) ++ (if Nat.ltb 1 (length (l_shape E e)) then [CPooling RMax] else []))
          ++ (match name with Some n => [CRegister (emb n)] | None => [] end))).
    { unfold e, auto_input. cbn [l_shape]. rewrite T, app_length. cbn [bind length Nat.sub].
      destruct (l_shape E s) as [|a [|b [|? ?]]]; cbn [length] in A |- *; [| | |lia]; cbn [Nat.eqb Nat.add bind fst snd Nat.ltb Nat.leb app];
        (eexists; split; [reflexivity|]; rewrite ?app_nil_r, <- ?app_assoc; reflexivity). }
    destruct R as (kind & K & R). eexists. split; [exact R|]. intro reg.
    destruct (builds_float (a_size c) (a_depth c - 1) e reg Hs eq_refl kind K) as (s1 & B1 & T1 & L1).
    exists s1. split; [|split; [exact T1|]].
    + eapply (builds_plain _ _ s reg e); [exact I| | | |exact B1].
      * cbn [auto_embedding layer_init]. unfold accepts, num_embeddings. rewrite T. reflexivity.
      * cbn [auto_embedding out_spec]. rewrite units_pos by exact Hs. reflexivity.
      * cbn [auto_embedding good]. split; [split; [reflexivity|exact I]|]. exact I.
    + rewrite L1. unfold width, e. rewrite T. cbn [l_shape]. rewrite last_last. destruct (a_depth c - 1); reflexivity.
  - (* int *)
    destruct A as [A N]. destruct (l_num E s) as [nv|] eqn:Nv; [|congruence].
    set (e := mkL E TFloat (l_shape E s ++ [a_size c]) None None None).
    assert (R : exists kind, match length (l_shape E e) with
        | 1 => kind = auto_dense (a_size c) | 2 => kind = auto_conv1d (a_size c) | 3 => kind = auto_conv2d (a_size c) | _ => False end /\
        auto_input_ c name s = Ok ((match name with Some n => [CRetrieve [n] AConcat 0] | None => [] end)
          ++ (auto_embedding (a_size c) :: repeat kind (a_depth c - 1) ++ (if Nat.ltb 1 (length (l_shape E e)) then [CPooling RMax] else []))
          ++ (match name with Some n => [CRegister (emb n)] | None => [] end))).
    { unfold e, auto_input. cbn [l_shape]. rewrite T, Nv, app_length. cbn [bind length Nat.sub].
      destruct (l_shape E s) as [|a [|b [|? ?]]]; cbn [length] in A |- *; [| | |lia]; cbn [Nat.eqb Nat.add bind fst snd Nat.ltb Nat.leb app];
        (eexists; split; [reflexivity|]; rewrite ?app_nil_r, <- ?app_assoc; reflexivity). }
    destruct R as (kind & K & R). eexists. split; [exact R|]. intro reg.
    destruct (builds_float (a_size c) (a_depth c - 1) e reg Hs eq_refl kind K) as (s1 & B1 & T1 & L1).
    exists s1. split; [|split; [exact T1|]].
    + eapply (builds_plain _ _ s reg e); [exact I| | | |exact B1].
      * cbn [auto_embedding layer_init]. unfold accepts, num_embeddings. rewrite T, Nv, Nat.ltb_irrefl. reflexivity.
      * cbn [auto_embedding out_spec]. rewrite units_pos by exact Hs. reflexivity.
      * cbn [auto_embedding good]. split; [split; [reflexivity|exact I]|]. exact I.
    + rewrite L1. unfold width, e. rewrite T. cbn [l_shape]. rewrite last_last. destruct (a_depth c - 1); reflexivity.
  - (* float *)
    destruct (l_shape E s) as [|a r] eqn:L.
    + (* scalar *)
      set (e := mkL E (l_type E s) [1] None None (l_num E s)).
      exists (CFlatten :: repeat (auto_dense (a_size c)) (a_depth c)). split.
      { unfold auto_input. rewrite T, L. cbn [bind length Nat.sub Nat.eqb fst snd Nat.ltb Nat.leb app].
        rewrite Nat.sub_0_r, ?app_nil_r. destruct name; reflexivity. }
      intro reg. destruct (builds_denses (a_size c) (a_depth c) Hs e 1 reg T eq_refl) as (s1 & B1 & T1 & L1).
      exists s1. split; [|split; [exact T1|]].
      * eapply (builds_plain _ _ s reg e); [exact I| | |exact I|exact B1].
        -- apply accepts_float; [exact T|exact I].
        -- cbn [out_spec]. rewrite L. reflexivity.
      * rewrite L1. unfold width. rewrite T, L. destruct (a_depth c); reflexivity.
    + assert (R : exists kind, match length (l_shape E s) with
          | 1 => kind = auto_dense (a_size c) | 2 => kind = auto_conv1d (a_size c) | 3 => kind = auto_conv2d (a_size c) | _ => False end /\
          auto_input_ c name s = Ok ((match name with Some n => [CRetrieve [n] AConcat 0] | None => [] end)
            ++ (repeat kind (a_depth c) ++ (if Nat.ltb 1 (length (l_shape E s)) then [CPooling RMax] else []))
            ++ (match name with Some n => [CRegister (emb n)] | None => [] end))).
      { unfold auto_input. rewrite T, L. cbn [bind Nat.sub]. rewrite Nat.sub_0_r.
        destruct r as [|b [|d [|? ?]]]; cbn [length] in A |- *; [| | |lia]; cbn [Nat.eqb bind fst snd Nat.ltb Nat.leb app];
          (eexists; split; [reflexivity|]; rewrite ?app_nil_r, <- ?app_assoc; reflexivity). }
      destruct R as (kind & K & R). eexists. split; [exact R|]. intro reg.
      destruct (builds_float (a_size c) (a_depth c) s reg Hs T kind K) as (s1 & B1 & T1 & L1).
      exists s1. split; [exact B1|]. split; [exact T1|]. rewrite L1. unfold width. rewrite T.
      destruct (a_depth c); reflexivity.
Qed.

(** ** Names *)
Lemma string_length_app : forall a b, String.length (a ++ b)%string = String.length a + String.length b.
Proof. induction a as [|c a IH]; intro b; [reflexivity|]. cbn. rewrite IH. reflexivity. Qed.

Lemma emb_inj : forall n n', emb n = emb n' -> n = n'.
Proof.
  unfold emb. induction n as [|c n IH]; intros [|c' n'] H.
  - reflexivity.
  - apply (f_equal String.length) in H. rewrite !string_length_app in H. cbn in H. lia.
  - apply (f_equal String.length) in H. rewrite !string_length_app in H. cbn in H. lia.
  - cbn in H. injection H as -> H. f_equal. apply IH. exact H.
Qed.

Lemma repeated_emb : forall l, NoDup l -> repeated (map emb l) = false.
Proof.
  induction 1 as [|n l H _ IH]; [reflexivity|]. cbn [map repeated]. rewrite IH, orb_false_r.
  destruct (existsb (String.eqb (emb n)) (map emb l)) eqn:Q; [|reflexivity].
  apply existsb_exists in Q as (m & Hm & Q). apply String.eqb_eq in Q. subst m.
  apply in_map_iff in Hm as (n' & Hn' & I). apply emb_inj in Hn'. subst. contradiction.
Qed.

Lemma find_in : forall A (l : list (string * A)) n s, NoDup (map fst l) -> In (n, s) l -> find n l = Some s.
Proof.
  induction l as [|[k v] l IH]; intros n s H I; [destruct I|]. cbn [map fst] in H. inversion H; subst. cbn [find].
  destruct I as [I|I].
  - injection I as -> ->. rewrite String.eqb_refl. reflexivity.
  - destruct (String.eqb n k) eqn:Q; [|apply IH; assumption].
    apply String.eqb_eq in Q. subst. exfalso. apply H2. apply (in_map fst) in I. exact I.
Qed.

Lemma find_none : forall A (l : list (string * A)) n, ~ In n (map fst l) -> find n l = None.
Proof.
  induction l as [|[k v] l IH]; intros n H; [reflexivity|]. cbn [find map fst] in *.
  destruct (String.eqb n k) eqn:Q; [apply String.eqb_eq in Q; subst; exfalso; apply H; left; reflexivity|].
  apply IH. intro I. apply H. right. exact I.
Qed.

(** ** Several inputs *)
Lemma auto_inputs_builds : forall c (l : list (string * spec_)) cur reg, 0 < a_size c ->
  Forall (fun ns => auto_state E (snd ns)) l -> NoDup (map fst l) ->
  (forall n s, In (n, s) l -> find n reg = Some s) -> (forall n, In n (map fst l) -> find (emb n) reg = None) ->
  exists ls s1 es, auto_inputs E c l = Ok ls /\ builds ls cur reg s1 (reg ++ es) /\
    Forall2 (fun ns ke => fst ke = emb (fst ns) /\ l_type E (snd ke) = TFloat /\ l_shape E (snd ke) = [width E (a_size c) (a_depth c) (snd ns)]) l es.
Proof.
  intros c l. induction l as [|[n s] l IH]; intros cur reg Hs A N F1 F2.
  - exists [], cur, []. split; [reflexivity|]. split; [rewrite app_nil_r; apply builds_nil|constructor].
  - inversion A as [|? ? A1 A2]; subst. cbn [map fst] in N. inversion N as [|? ? N1 N2]; subst. cbn [snd] in A1.
    destruct (auto_input_builds c (Some n) s Hs A1) as (ls & Els & B). destruct (B reg) as (s1 & B1 & T1 & L1).
    destruct (IH s1 (reg ++ [(emb n, s1)]) Hs A2 N2) as (ls2 & s2 & es & E2 & B2 & W2).
    + intros n' s' I. rewrite find_app, (F1 n' s') by (right; exact I). reflexivity.
    + intros n' I. rewrite find_app, (F2 n') by (right; exact I).
      destruct (String.eqb (emb n') (emb n)) eqn:Q; [|reflexivity].
      apply String.eqb_eq in Q. apply emb_inj in Q. subst. contradiction.
    + exists ((CRetrieve [n] AConcat 0 :: ls ++ [CRegister (emb n)]) ++ ls2), s2, ((emb n, s1) :: es).
      split; [|split].
      * cbn [auto_inputs]. rewrite Els. cbn [bind]. rewrite E2. reflexivity.
      * eapply builds_app.
        -- eapply (builds_retrieve [n] AConcat 0 _ cur reg [s] s).
           ++ cbn [find_all]. rewrite (F1 n s) by (left; reflexivity). reflexivity.
           ++ reflexivity.
           ++ reflexivity.
           ++ exact I.
           ++ eapply builds_app; [exact B1|]. apply builds_register; [apply F2; left; reflexivity|]. apply builds_nil.
        -- rewrite <- app_assoc in B2. exact B2.
      * constructor; [|exact W2]. cbn [fst snd]. auto.
Qed.

Lemma find_all_es : forall l es reg,
  Forall2 (fun (ns : string * spec_) (ke : string * spec_) => fst ke = emb (fst ns)) l es -> NoDup (map fst l) ->
  (forall n, In n (map fst l) -> find (emb n) reg = None) ->
  find_all (map (fun ns => emb (fst ns)) l) (reg ++ es) = Ok (map snd es).
Proof.
  intros l es. 
  assert (Gen : forall l es, Forall2 (fun (ns : string * spec_) (ke : string * spec_) => fst ke = emb (fst ns)) l es -> NoDup (map fst l) ->
     forall reg, (forall n, In n (map fst l) -> find (emb n) reg = None) ->
     find_all (map (fun ns => emb (fst ns)) l) (reg ++ es) = Ok (map snd es)).
  { clear l es. induction 1 as [|[n s] [k e] l es H H2 IH]; intros N reg F; [reflexivity|].
    cbn [fst snd] in *. subst k. cbn [map fst] in N. inversion N as [|? ? N1 N2]; subst.
    cbn [map find_all fst].
    assert (Q : find (emb n) (reg ++ (emb n, e) :: es) = Some e).
    { change ((emb n, e) :: es) with ([(emb n, e)] ++ es). rewrite app_assoc.
      assert (G : forall (d d' : list (string * spec_)) v, find (emb n) d = Some v -> find (emb n) (d ++ d') = Some v).
      { induction d as [|[k0 v0] d IHd]; intros d' v Hd; [discriminate|]. cbn [app find] in *.
        destruct (String.eqb (emb n) k0); [exact Hd|apply IHd; exact Hd]. }
      apply G. rewrite find_app, (F n) by (left; reflexivity). rewrite String.eqb_refl. reflexivity. }
    rewrite Q. 
    assert (R : find_all (map (fun ns => emb (fst ns)) l) (reg ++ (emb n, e) :: es) = Ok (map snd es)).
    { change ((emb n, e) :: es) with ([(emb n, e)] ++ es). rewrite app_assoc. apply IH; [exact N2|].
      intros n' I. rewrite find_app, (F n') by (right; exact I).
      destruct (String.eqb (emb n') (emb n)) eqn:Q'; [|reflexivity].
      apply String.eqb_eq in Q'. apply emb_inj in Q'. subst. contradiction. }
    rewrite R. reflexivity. }
  intros reg H N F. apply Gen; assumption.
Qed.

(** A concatenation of vectors *)
Lemma concat_vectors : forall (specs : list spec_) ws, 2 <= length specs ->
  Forall2 (fun s w => l_type E s = TFloat /\ l_shape E s = [w]) specs ws ->
  retrieve_spec E AConcat 0 specs = Ok (mkL E TFloat [fold_right Nat.add 0 ws] None None None) /\
  good_retrieve E AConcat 0 specs.
Proof.
  intros specs ws L F.
  assert (Sh : map (l_shape E) specs = map (fun w => [w]) ws).
  { clear L. induction F as [|s w specs ws [_ H] _ IH]; [reflexivity|]. cbn [map]. rewrite H, IH. reflexivity. }
  assert (Ty : forallb (fun s => dtype_eqb (l_type E s) TFloat) specs = true).
  { clear L Sh. induction F as [|s w specs ws [H _] _ IH]; [reflexivity|]. cbn [forallb]. rewrite H, IH. reflexivity. }
  destruct specs as [|s [|s2 r]]; [cbn in L; lia|cbn in L; lia|].
  inversion F as [|? w ? ws' [T0 S0] F']; subst.
  split.
  - unfold retrieve_spec. cbv beta iota zeta. rewrite T0, Ty. cbn [assert_ bind]. rewrite Sh, S0.
    assert (SR : same_rank (map (fun w0 => [w0]) (w :: ws')) = true).
    { unfold same_rank. apply forallb_forall. intros x Hx. apply in_map_iff in Hx as (y & <- & _). reflexivity. }
    rewrite SR. cbn [assert_ bind].
    match goal with |- context [forallb ?f ?l] => assert (Q : forallb f l = true) end.
    { apply forallb_forall. intros x Hx. apply in_map_iff in Hx as (y & <- & _). reflexivity. }
    rewrite Q. cbn [assert_ bind length seq]. cbn [map Nat.eqb]. rewrite map_map. cbn [nth].
    rewrite map_id. reflexivity.
  - cbn [good_retrieve]. rewrite S0. cbn. lia.
Qed.

Lemma auto_several : forall c (l : list (string * spec_)) cur, 0 < a_size c ->
  Forall (fun ns => auto_state E (snd ns)) l -> names_ok E l -> 2 <= length l ->
  (forall n, a_final_size c = Some n -> 0 < n) ->
  exists ls so reg, auto_layers E c (Named _ l) = Ok ls /\ builds ls cur l so reg /\ l_type E so = TFloat /\
    l_shape E so = [match a_final_depth c with
                    | None | Some 0 => fold_right Nat.add 0 (map (fun ns => width E (a_size c) (a_depth c) (snd ns)) l)
                    | _ => match a_final_size c with Some n => n | None => a_size c end
                    end].
Proof.
  intros c l cur Hs A [N Ne] L Hf.
  assert (F2 : forall n, In n (map fst l) -> find (emb n) l = None).
  { intros n I. apply find_none. intro I2. exact (Ne _ _ I2 I eq_refl). }
  destruct (auto_inputs_builds c l cur l Hs A N (fun n s I => find_in _ l n s N I) F2) as (ls & s1 & es & E1 & B1 & W).
  set (ws := map (fun ns => width E (a_size c) (a_depth c) (snd ns)) l).
  assert (Fe : Forall2 (fun (ns : string * spec_) (ke : string * spec_) => fst ke = emb (fst ns)) l es).
  { clear -W. induction W as [|ns ke l es (H & _) _ IH]; constructor; assumption. }
  assert (Fw : Forall2 (fun (s : spec_) w => l_type E s = TFloat /\ l_shape E s = [w]) (map snd es) ws).
  { unfold ws. clear -W. induction W as [|ns ke l es (_ & H) _ IH]; cbn [map]; constructor; assumption. }
  assert (Le : 2 <= length (map snd es)) by (rewrite map_length, <- (Forall2_len _ _ _ _ _ Fe); exact L).
  destruct (concat_vectors _ ws Le Fw) as [C1 C2].
  set (fs := match a_final_size c with Some n => n | None => a_size c end).
  set (fd := match a_final_depth c with Some n => n | None => 0 end).
  assert (Hfs : 0 < fs) by (unfold fs; destruct (a_final_size c); [apply Hf; reflexivity|exact Hs]).
  destruct (builds_denses fs fd Hfs (mkL E TFloat [fold_right Nat.add 0 ws] None None None) _ (l ++ es) eq_refl eq_refl) as (so & B2 & T2 & L2).
  exists (ls ++ CRetrieve (map (fun ns => emb (fst ns)) l) AConcat 0 :: repeat (auto_dense fs) fd), so, (l ++ es).
  split; [|split; [|split; [exact T2|]]].
  - destruct l as [|[n1 x1] [|p2 r]]; [cbn in L; lia|cbn in L; lia|]. unfold auto_layers. rewrite E1. cbn [bind].
    unfold fs, fd. destruct (a_final_size c); destruct (a_final_depth c); reflexivity.
  - eapply builds_app; [exact B1|]. eapply builds_retrieve; [| |exact C1|exact C2|exact B2].
    + apply find_all_es; assumption.
    + rewrite <- (map_map fst emb). apply repeated_emb. exact N.
  - rewrite L2. unfold fd, fs. destruct (a_final_depth c) as [[|?]|]; reflexivity.
Qed.

Lemma auto_single : forall c (s : spec_) name, 0 < a_size c -> auto_state E s ->
  a_final_size c = None -> (a_final_depth c = None \/ a_final_depth c = Some 1) ->
  let i := match name with None => Single _ s | Some n => Named _ [(n, s)] end in
  exists ls so reg, auto_layers E c i = Ok ls /\ builds ls s (registered i) so reg /\ l_type E so = TFloat /\
    l_shape E so = [width E (a_size c) (a_depth c) s].
Proof.
  intros c s name Hs A F1 F2 i.
  destruct (auto_input_builds c name s Hs A) as (ls & Els & B).
  assert (Al : auto_layers E c i = auto_input_ c name s).
  { unfold i, auto_layers. rewrite F1. destruct name as [n|]; cbn [assert_ bind];
      destruct F2 as [-> | ->]; reflexivity. }
  destruct name as [n|]; unfold i in *; cbn [registered].
  - destruct (B [(n, s)]) as (s1 & B1 & T1 & L1).
    exists (CRetrieve [n] AConcat 0 :: ls ++ [CRegister (emb n)]), s1, ([(n, s)] ++ [(emb n, s1)]).
    split; [rewrite Al, Els; reflexivity|]. split; [|auto].
    eapply (builds_retrieve [n] AConcat 0 _ s [(n, s)] [s] s); [|reflexivity|reflexivity|exact I|].
    + cbn [find_all find]. rewrite String.eqb_refl. reflexivity.
    + eapply builds_app; [exact B1|]. apply builds_register; [|apply builds_nil].
      apply find_none. intros [H|[]]. cbn [fst] in H. apply (f_equal String.length) in H. unfold emb in H.
      rewrite string_length_app in H. cbn in H. lia.
  - destruct (B [("state"%string, s)]) as (s1 & B1 & T1 & L1).
    exists ls, s1, [("state"%string, s)].
    split; [rewrite Al, Els; cbn [app]; rewrite app_nil_r; reflexivity|]. auto.
Qed.
End Auto.
