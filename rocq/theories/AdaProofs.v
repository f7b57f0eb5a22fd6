(** Proofs for C170-C173. *)

From Coq Require Import String List ZArith QArith Bool Arith Lia Lqa.
From Verif Require Import Base AdaModel AdaSpec.
Import ListNotations.
Open Scope string_scope.
Open Scope list_scope.
Open Scope Z_scope.

Lemma bind_inv {X Y} (x : res X) (f : X -> res Y) y : bind x f = Ok y -> exists z, x = Ok z /\ f z = Ok y.
Proof. destruct x; cbn; intros; [eauto|discriminate]. Qed.

(** ** Indices *)
Lemma index_ok {X} (l : list X) i x : index l i = Ok x <->
  (0 <= i /\ nth_error l (Z.to_nat i) = Some x) \/ (- Z.of_nat (length l) <= i < 0 /\ nth_error l (Z.to_nat (i + Z.of_nat (length l))) = Some x).
Proof.
  unfold index. cbn zeta. set (n := Z.of_nat (length l)). set (j := if i <? 0 then i + n else i).
  assert (J : (i < 0 /\ j = i + n) \/ (0 <= i /\ j = i)).
  { unfold j. destruct (i <? 0) eqn:E; [apply Z.ltb_lt in E; auto|apply Z.ltb_ge in E; auto]. }
  assert (N : forall k, (exists y, nth_error l k = Some y) -> Z.of_nat k < n).
  { intros k (y & H). assert (k < length l)%nat by (apply nth_error_Some; congruence). unfold n. lia. }
  clearbody j. destruct ((0 <=? j) && (j <? n)) eqn:B.
  - apply andb_true_iff in B. destruct B as (B1 & B2). apply Z.leb_le in B1. apply Z.ltb_lt in B2. split.
    + destruct (nth_error l (Z.to_nat j)) eqn:E; [|discriminate]. intros [= ->].
      destruct J as [(A & ->)|(A & ->)]; [right; split; [lia|auto]|left; auto].
    + intros [(A & E)|(A & E)]; destruct J as [(A' & ->)|(A' & ->)]; try lia; rewrite E; auto.
  - split; [discriminate|]. apply andb_false_iff in B. rewrite Z.leb_gt, Z.ltb_ge in B. intros [(A & E)|(A & E)].
    + assert (H := N _ (ex_intro _ _ E)). lia.
    + lia.
Qed.

Lemma index_nat {X} (l : list X) i x : 0 <= i -> nth_error l (Z.to_nat i) = Some x -> index l i = Ok x.
Proof. intros A B. apply index_ok; auto. Qed.

(** ** Arcade Learning Environment *)
Section Arcade.
Variables (G A : Type) (legal : list A) (act : A -> G -> Q * G) (game_over : G -> bool) (lives : G -> Z).

Definition lowest (states : list G) (m : Z) : Prop :=
  (forall h, In h states -> m <= lives h) /\ exists h, In h states /\ lives h = m.

Lemma lowest_new states m g rest : lowest states m -> new_low lives (states ++ g :: rest) (length states) <-> lives g < m.
Proof.
  intros (L & h & I & E). unfold new_low. split.
  - intros (g' & N & H). rewrite nth_error_app2 in N by lia. rewrite Nat.sub_diag in N. injection N as <-.
    apply In_nth_error in I. destruct I as (j & J). assert (j < length states)%nat by (apply nth_error_Some; congruence).
    rewrite <- E. apply (H j); [lia|]. rewrite nth_error_app1; auto.
  - intros H. exists g. split; [rewrite nth_error_app2 by lia; rewrite Nat.sub_diag; auto|].
    intros j x J N. rewrite nth_error_app1 in N by lia. apply nth_error_In in N. specialize (L _ N). lia.
Qed.

Lemma lowest_step states m g : lowest states m -> lowest (states ++ [g]) (if lives g <? m then lives g else m).
Proof.
  intros (L & h & I & E). split.
  - intros x X. apply in_app_iff in X. destruct (lives g <? m) eqn:C; [apply Z.ltb_lt in C|apply Z.ltb_ge in C].
    + destruct X as [X|[<-|[]]]; [specialize (L _ X); lia|lia].
    + destruct X as [X|[<-|[]]]; [auto|lia].
  - destruct (lives g <? m); [exists g|exists h]; split; auto; apply in_app_iff; cbn; auto.
Qed.

Definition step_ok (c : arcade) (low : Prop) (over : bool) (r : Q) (o : bool * Q) : Prop :=
  (fst o = true <-> over = true \/ (life_loss_terminal c = true /\ low)) /\
  ((low /\ life_loss_terminal c = false /\ (0 < life_loss_punishment c)%Q) -> snd o = (r - life_loss_punishment c)%Q) /\
  (~ (low /\ life_loss_terminal c = false /\ (0 < life_loss_punishment c)%Q) -> snd o = r).

Lemma execute_ok c i a g m r g' : index legal i = Ok a -> act a g = (r, g') ->
  exists o, arcade_execute G A legal act game_over lives c i {| game := g; counted := m |} =
      Ok ({| game := g'; counted := if lives g' <? m then lives g' else m |}, o) /\
    step_ok c (lives g' < m) (game_over g') r o.
Proof.
  intros I E. unfold arcade_execute. rewrite I. cbn [bind game counted]. rewrite E.
  assert (P : negb (Qle_bool (life_loss_punishment c) 0) = true <-> (0 < life_loss_punishment c)%Q).
  { rewrite negb_true_iff, <- not_true_iff_false, Qle_bool_iff. split; intros H.
    - apply Qnot_le_lt; auto.
    - apply Qlt_not_le; auto. }
  destruct (lives g' <? m) eqn:C; [apply Z.ltb_lt in C|apply Z.ltb_ge in C].
  - eexists. split; [reflexivity|]. unfold step_ok. destruct (life_loss_terminal c).
    + cbn. split; [tauto|]. split; [intros (_ & H & _); discriminate|auto].
    + destruct (negb _); cbn.
      * split; [intuition discriminate|]. split; auto. intros H. destruct H. split; auto. split; auto. apply P; auto.
      * split; [intuition discriminate|]. split; auto. intros (_ & _ & H). apply P in H. discriminate.
  - eexists. split; [reflexivity|]. unfold step_ok. cbn. split; [split; auto; intros [H|(_ & H)]; [auto|lia]|].
    split; [intros (H & _); lia|auto].
Qed.

Lemma run_ok c is l g rs gs : numbered legal is l -> played act g l rs gs -> forall states m, lowest states m ->
  exists outs, arcade_run G A legal act game_over lives c is {| game := g; counted := m |} = Ok outs /\ length outs = length is /\
    forall i r h o, nth_error rs i = Some r -> nth_error gs i = Some h -> nth_error outs i = Some o ->
      step_ok c (new_low lives (states ++ gs) (length states + i)) (game_over h) r o.
Proof.
  intros N. revert g rs gs. induction N as [|i a is l Hi Ha N IH]; intros g rs gs P states m L.
  - exists []. split; [reflexivity|]. split; auto. intros [|i] ? ? ?; cbn; intros _ _ H; discriminate.
  - inversion P as [|g0 a0 r g' l0 rs' gs' E P']; subst.
    destruct (execute_ok c i a g m r g' (index_nat _ _ _ Hi Ha) E) as (o & X & Sok).
    destruct (IH g' rs' gs' P' (states ++ [g']) _ (lowest_step states m g' L)) as (outs & R & Len & F).
    exists (o :: outs). cbn [arcade_run]. rewrite X. cbn [bind fst snd]. rewrite R. cbn [bind]. split; auto. split; [cbn; auto|].
    intros [|j] r0 h o0; cbn [nth_error]; intros H1 H2 H3.
    + injection H1 as <-. injection H2 as <-. injection H3 as <-. rewrite Nat.add_0_r.
      assert (W := lowest_new states m g' gs' L). unfold step_ok in *. rewrite W. exact Sok.
    + specialize (F j r0 h o0 H1 H2 H3). rewrite <- app_assoc in F. cbn [app] in F. rewrite app_length in F. cbn [length] in F.
      replace (length states + S j)%nat with (length states + 1 + j)%nat by lia. exact F.
Qed.

Lemma low_step states i g h : no_bonus lives states -> nth_error states i = Some g -> nth_error states (S i) = Some h ->
  new_low lives states (S i) <-> lives h < lives g.
Proof.
  intros B Hg Hh. unfold new_low. split.
  - intros (h' & E & F). rewrite Hh in E. injection E as <-. apply (F i); auto.
  - intros H. exists h. split; auto. intros j x J E.
    assert (X : forall k y, (j + k <= i)%nat -> nth_error states (j + k) = Some y -> lives y <= lives x).
    { induction k as [|k IH]; intros y K Y.
      - rewrite Nat.add_0_r in Y. rewrite E in Y. injection Y as <-. lia.
      - destruct (nth_error states (j + k)) as [z|] eqn:Z.
        + assert (lives z <= lives x) by (apply IH; [lia|auto]). replace (j + S k)%nat with (S (j + k)) in Y by lia.
          specialize (B _ _ _ Z Y). lia.
        + apply nth_error_None in Z. assert (j + S k < length states)%nat by (apply nth_error_Some; congruence). lia. }
    specialize (X (i - j)%nat g). replace (j + (i - j))%nat with i in X by lia. specialize (X (le_n _) Hg). lia.
Qed.

(** Each life costs the punishment once *)
Lemma total_ok c is l g rs gs outs : numbered legal is l -> played act g l rs gs -> life_loss_terminal c = false -> (0 < life_loss_punishment c)%Q ->
  no_bonus lives (g :: gs) -> (forall i x y, nth_error (g :: gs) i = Some x -> nth_error (g :: gs) (S i) = Some y -> lives x - 1 <= lives y) ->
  arcade_run G A legal act game_over lives c is {| game := g; counted := lives g |} = Ok outs ->
  (total (map snd outs) == total rs - inject_Z (lives g - lives (last gs g)) * life_loss_punishment c)%Q.
Proof.
  intros N. revert g rs gs outs. induction N as [|i a is l Hi Ha N IH]; intros g rs gs outs P T Pos B One R.
  - inversion P; subst. cbn in R. injection R as <-. cbn [map total last]. rewrite Z.sub_diag. change (inject_Z 0) with 0%Q. lra.
  - inversion P as [|g0 a0 r g' l0 rs' gs' E P']; subst.
    destruct (execute_ok c i a g (lives g) r g' (index_nat _ _ _ Hi Ha) E) as (o & X & (_ & S1 & S2)).
    cbn [arcade_run] in R. rewrite X in R. cbn [bind fst snd] in R. apply bind_inv in R. destruct R as (outs' & R & F). injection F as <-.
    assert (L1 : lives g' <= lives g) by (apply (B 0%nat); reflexivity).
    assert (L2 : lives g - 1 <= lives g') by (apply (One 0%nat); reflexivity).
    assert (C : (if lives g' <? lives g then lives g' else lives g) = lives g').
    { destruct (lives g' <? lives g) eqn:C; auto. apply Z.ltb_ge in C. lia. }
    rewrite C in R. specialize (IH g' rs' gs' outs' P' T Pos (fun k => B (S k)) (fun k => One (S k)) R).
    cbn [map total]. rewrite IH.
    assert (La : last (g' :: gs') g = last gs' g').
    { clear. revert g g'. induction gs' as [|x q IH]; intros g g'; [reflexivity|]. change (last (x :: q) g = last (x :: q) g').
      rewrite !(IH _ x). reflexivity. }
    rewrite La. clear La. set (n := last gs' g'). 
    destruct (Z.eq_dec (lives g') (lives g)) as [Eq|Ne].
    + rewrite S2 by (rewrite Eq; intros (H & _); lia). rewrite Eq. lra.
    + rewrite S1 by (split; [lia|auto]). replace (lives g - lives n) with (1 + (lives g' - lives n)) by lia. rewrite inject_Z_plus.
      change (inject_Z 1) with 1%Q. lra.
Qed.
End Arcade.

(** ** ViZDoom *)
Lemma binary_range l : Forall bit l -> 0 <= binary l < 2 ^ Z.of_nat (length l).
Proof.
  induction 1 as [|x l B F IH]; cbn [binary length]; [cbn; lia|].
  rewrite Nat2Z.inj_succ, Z.pow_succ_r by lia. destruct B as [->| ->]; lia.
Qed.

Lemma product_length n : Z.of_nat (length (product n)) = 2 ^ Z.of_nat n.
Proof.
  induction n as [|n IH]; [reflexivity|]. cbn [product]. rewrite app_length, !map_length, Nat2Z.inj_add, IH.
  rewrite Nat2Z.inj_succ, Z.pow_succ_r by lia. lia.
Qed.

Lemma product_nth n i l : nth_error (product n) i = Some l <-> length l = n /\ Forall bit l /\ binary l = Z.of_nat i.
Proof.
  revert i l. induction n as [|n IH]; intros i l.
  - cbn [product]. split.
    + destruct i as [|[|i]]; cbn; intros H; try discriminate. injection H as <-. auto.
    + intros (L & _ & B). destruct l; [|discriminate]. cbn in B. assert (i = 0)%nat as -> by lia. reflexivity.
  - cbn [product]. assert (PL := product_length n). split.
    + intros H. destruct (lt_dec i (length (product n))) as [C|C].
      * rewrite nth_error_app1 in H by (rewrite map_length; auto). rewrite nth_error_map in H.
        destruct (nth_error (product n) i) as [q|] eqn:E; [|discriminate]. injection H as <-. apply IH in E. destruct E as (E1 & E2 & E3).
        cbn [length binary]. split; [auto|]. split; [constructor; [left|]; auto|]. lia.
      * rewrite nth_error_app2 in H by (rewrite map_length; lia). rewrite map_length, nth_error_map in H.
        destruct (nth_error (product n) (i - length (product n))) as [q|] eqn:E; [|discriminate]. injection H as <-. apply IH in E.
        destruct E as (E1 & E2 & E3). cbn [length binary]. split; [auto|]. split; [constructor; [right|]; auto|]. rewrite E1, E3. lia.
    + intros (L & F & B). destruct l as [|x q]; [discriminate|]. injection L as L. inversion F as [|x' q' Bx Fq]; subst x' q'.
      cbn [binary] in B. rewrite L in B. assert (R := binary_range q Fq). rewrite L in R. destruct Bx as [-> | ->].
      * assert (i < length (product n))%nat by lia. rewrite nth_error_app1 by (rewrite map_length; auto). rewrite nth_error_map.
        assert (E : nth_error (product n) i = Some q) by (apply IH; split; auto; split; auto; lia). rewrite E. auto.
      * assert (length (product n) <= i)%nat by lia. rewrite nth_error_app2 by (rewrite map_length; auto). rewrite map_length, nth_error_map.
        assert (E : nth_error (product n) (i - length (product n)) = Some q) by (apply IH; split; auto; split; auto; lia). rewrite E. auto.
Qed.

Definition pressed (l : list bool) : list Z := map (fun b : bool => if b then 1 else 0) l.
Lemma pressed_bits l : Forall bit (pressed l).
Proof. unfold pressed. induction l as [|[] l IH]; cbn; constructor; auto; [right|left]; auto. Qed.

Lemma buttons_same n l : length l = n -> buttons false n (Number (binary (pressed l))) = buttons true n (Factored l).
Proof.
  intros L. cbn. assert (R := binary_range _ (pressed_bits l)). apply index_nat; [lia|].
  apply product_nth. split; [unfold pressed; rewrite map_length; auto|]. split; [apply pressed_bits|]. unfold pressed in *. lia.
Qed.

Section Doom.
Variables (G V : Type) (new_episode : G -> G) (advance : list Z -> G -> Q * G) (make_action : list Z -> nat -> G -> Q * G)
          (finished : G -> bool) (get_states : G -> V).

Lemma advances_ok b n q g q' g' : advances G advance b n q g = (q', g') -> exists r, frames advance b n g r g' /\ (q' == q + r)%Q.
Proof.
  revert q g. induction n as [|n IH]; cbn; intros q g H.
  - injection H as <- <-. exists 0%Q. split; [constructor|lra].
  - destruct (advance b g) as (r, g1) eqn:E. apply IH in H. destruct H as (x & F & H). exists (r + x)%Q. split; [econstructor; eauto|].
    rewrite H. lra.
Qed.

Definition frame (visualize : bool) (k : nat) (b : list Z) (g : G) : Q * G :=
  if visualize then advances G advance b k 0 g else make_action b k g.

Lemma execute_doom v f n k a s b r g : buttons f n a = Ok b -> frame v k b (doom_game s) = (r, g) ->
  doom_execute G V advance make_action finished get_states v f n k a s =
    Ok ({| doom_game := g; current := if finished g then current s else get_states g |}, (if finished g then current s else get_states g, finished g, r)).
Proof.
  intros B E. unfold doom_execute. rewrite B. cbn [bind]. unfold frame in E. rewrite E. destruct (finished g); reflexivity.
Qed.

(** The state which is shown *)
Definition shows (states : list G) (i : nat) (o : V) : Prop :=
  exists k h, last_running finished states i k /\ nth_error states k = Some h /\ o = get_states h.

Lemma last_running_fun states i k k' : last_running finished states i k -> last_running finished states i k' -> k = k'.
Proof.
  intros (A1 & (g & A2 & A3) & A4) (B1 & (g' & B2 & B3) & B4).
  destruct (lt_eq_lt_dec k k') as [[H|H]|H]; auto; exfalso.
  - specialize (A4 k' g' ltac:(lia) B2). destruct B3 as [B3|B3]; [lia|congruence].
  - specialize (B4 k g ltac:(lia) A2). destruct A3 as [A3|A3]; [lia|congruence].
Qed.

Lemma shows_step states g rest o i : length states = S i -> shows states i o ->
  shows (states ++ g :: rest) (S i) (if finished g then o else get_states g).
Proof.
  intros L (k & h & (A1 & (g' & A2 & A3) & A4) & N & ->).
  assert (Ng : nth_error (states ++ g :: rest) (S i) = Some g) by (rewrite nth_error_app2 by lia; rewrite L, Nat.sub_diag; auto).
  destruct (finished g) eqn:F.
  - exists k, h. assert (K : (k < length states)%nat) by (apply nth_error_Some; congruence).
    split; [split; [lia|]; split|split; [rewrite nth_error_app1; auto|auto]].
    + exists g'. split; [rewrite nth_error_app1; auto|auto].
    + intros j x J X. destruct (Nat.eq_dec j (S i)) as [->|Nj].
      * rewrite Ng in X. injection X as <-. auto.
      * apply (A4 j x); [lia|]. rewrite nth_error_app1 in X by lia. auto.
  - exists (S i), g. split; [split; [lia|]; split|auto].
    + exists g. auto.
    + intros j x J. lia.
Qed.

Lemma run_doom v f n k l g o outs : 
  doom_run G V advance make_action finished get_states v f n k l {| doom_game := g; current := o |} = Ok outs ->
  forall states i, length states = S i -> shows states i o ->
  exists bs rs gs, Forall2 (fun a b => buttons f n a = Ok b) l bs /\ played (frame v k) g bs rs gs /\ length outs = length l /\
    forall j o' t q, nth_error outs j = Some (o', t, q) ->
      nth_error rs j = Some q /\ (exists h, nth_error gs j = Some h /\ t = finished h) /\ shows (states ++ gs) (S i + j) o'.
Proof.
  revert g o outs. induction l as [|a l IH]; intros g o outs R states i L S.
  - cbn in R. injection R as <-. exists [], [], []. split; [constructor|]. split; [constructor|]. split; auto. intros [|j] ? ? ?; discriminate.
  - cbn [doom_run] in R. apply bind_inv in R. destruct R as (x & E & R). apply bind_inv in R. destruct R as (outs' & R & F). injection F as <-.
    assert (B : exists b, buttons f n a = Ok b).
    { unfold doom_execute in E. apply bind_inv in E. destruct E as (b & B & _). eauto. }
    destruct B as (b & B). destruct (frame v k b g) as (r, g') eqn:Fr.
    rewrite (execute_doom v f n k a {| doom_game := g; current := o |} b r g' B Fr) in E. injection E as <-. cbn [fst snd current] in R.
    assert (S' := shows_step states g' [] o i L S).
    assert (S2 := shows_step states g' [] o i L S).
    destruct (IH _ _ _ R (states ++ [g']) (Datatypes.S i)) as (bs & rs & gs & F2 & P & Len & H); [rewrite app_length; cbn; lia|exact S'|].
    exists (b :: bs), (r :: rs), (g' :: gs). split; [constructor; auto|]. split; [econstructor; eauto|]. split; [cbn; auto|].
    intros [|j] o' t q; cbn [nth_error].
    + intros H1. injection H1 as <- <- <-. split; auto. split; [eauto|]. rewrite Nat.add_0_r. apply shows_step; auto.
    + intros H1. destruct (H j o' t q H1) as (X1 & X2 & X3). split; auto. split; auto.
      rewrite <- app_assoc in X3. cbn [app] in X3. replace (Datatypes.S i + Datatypes.S j)%nat with (Datatypes.S (Datatypes.S i) + j)%nat by lia. exact X3.
Qed.
End Doom.

(** ** PyGame Learning Environment *)
Section PyGame.
Variables (G A : Type) (set : list A) (act : A -> G -> Q * G) (game_over : G -> bool).

Lemma ple_run_ok is l g rs gs : numbered set is l -> played act g l rs gs ->
  (forall i h, nth_error (g :: gs) i = Some h -> (i < length is)%nat -> game_over h = false) ->
  ple_run G A set act game_over is g = Ok (combine (map game_over gs) rs).
Proof.
  intros N. revert g rs gs. induction N as [|i a is l Hi Ha N IH]; intros g rs gs P O.
  - inversion P; subst. reflexivity.
  - inversion P as [|g0 a0 r g' l0 rs' gs' E P']; subst. cbn [ple_run]. unfold ple_execute.
    rewrite (O 0%nat g eq_refl) by (cbn; lia). rewrite (index_nat _ _ _ Hi Ha). cbn [bind]. rewrite E. cbn [bind fst snd].
    rewrite (IH g' rs' gs' P'); [reflexivity|]. intros j h J H. apply (O (S j) h); [auto|cbn; lia].
Qed.

Lemma ple_run_over is l g rs gs i h : numbered set is l -> played act g l rs gs -> nth_error (g :: gs) i = Some h -> (i < length is)%nat -> game_over h = true ->
  exists e, ple_run G A set act game_over is g = Err e.
Proof.
  intros N. revert g rs gs i. induction N as [|k a is l Hi Ha N IH]; intros g rs gs i P H L O; [cbn in L; lia|].
  inversion P as [|g0 a0 r g' l0 rs' gs' E P']; subst. cbn [ple_run]. unfold ple_execute.
  destruct (game_over g) eqn:Og; [cbn; eauto|]. rewrite (index_nat _ _ _ Hi Ha). cbn [bind]. rewrite E. cbn [bind fst snd].
  destruct i as [|i]; [cbn in H; congruence|]. destruct (IH g' rs' gs' i P' H ltac:(cbn in L; lia) O) as (e & ->). cbn. eauto.
Qed.
End PyGame.

(** ** CARLA *)
Lemma starts_iff p s : starts p s = true <-> exists b, s = (p ++ b)%string.
Proof.
  revert s. induction p as [|a p IH]; intros s; cbn.
  - split; [eauto|auto].
  - destruct s as [|b s]; [split; [discriminate|intros (b & H); discriminate]|]. rewrite andb_true_iff, Ascii.eqb_eq, IH. split.
    + intros (-> & q & ->). eauto.
    + intros (q & H). injection H as -> ->. split; eauto.
Qed.

Lemma contains_iff p s : contains p s = true <-> exists a b, s = (a ++ p ++ b)%string.
Proof.
  induction s as [|c s IH]; cbn [contains]; rewrite orb_true_iff, starts_iff.
  - split.
    + intros [(b & H)|H]; [|discriminate]. exists "", b. auto.
    + intros (a & b & H). left. destruct a; [cbn in H; eauto|discriminate].
  - rewrite IH. split.
    + intros [(b & H)|(a & b & H)]; [exists "", b; auto|exists (String c a), b; cbn; congruence].
    + intros (a & b & H). destruct a as [|x a]; [left; cbn in H; eauto|]. right. injection H as -> ->. eauto.
Qed.

Lemma collision_weight actor impulse p : (on_collision actor impulse p == p + weight actor impulse)%Q.
Proof.
  unfold on_collision, weight. assert (H : (1000 / 2 == 500)%Q) by reflexivity.
  destruct (contains "pedestrian" actor), (contains "vehicle" actor); cbn [andb negb]; rewrite ?H; lra.
Qed.

Lemma reward_ok speed limit p : (carla_reward speed limit p == -1 - p - 2 * excess speed limit)%Q.
Proof. unfold carla_reward, excess. destruct (Qle_bool speed limit); lra. Qed.

Lemma run_collisions cs s lim post p : Forall collision cs ->
  exists q, carla_run (cs ++ Execute s lim :: post) p = q :: carla_run post 0 /\ (q == -1 - (p + penalties cs) - 2 * excess s lim)%Q.
Proof.
  intros F. revert p. induction F as [|e cs C F IH]; intros p; cbn [app carla_run penalties].
  - eexists. split; [reflexivity|]. rewrite reward_ok. lra.
  - destruct e as [a i| |]; try destruct C. destruct (IH (on_collision a i p)) as (q & -> & E). exists q. split; auto.
    rewrite E, collision_weight. lra.
Qed.

Lemma run_before pre e p rest : e = Reset \/ (exists s l, e = Execute s l) -> carla_run (pre ++ e :: rest) p = carla_run (pre ++ [e]) p ++ carla_run rest 0.
Proof.
  intros E. revert p. induction pre as [|x pre IH]; intros p; cbn [app carla_run].
  - destruct E as [->|(s & l & ->)]; reflexivity.
  - destruct x; rewrite IH; reflexivity.
Qed.

(** Speed above the limit in all calls *)
Fixpoint excesses (l : list event) : Q := match l with [] => 0%Q | Execute s m :: q => (excess s m + excesses q)%Q | _ :: q => excesses q end.
Fixpoint calls (l : list event) : Z := match l with [] => 0 | Execute _ _ :: q => 1 + calls q | _ :: q => calls q end.

Lemma total_app a b : (total (a ++ b) == total a + total b)%Q.
Proof. induction a as [|x a IH]; cbn [app total]; [lra|rewrite IH; lra]. Qed.

Lemma run_total l s lim p : (forall e, In e l -> e <> Reset) ->
  (total (carla_run (l ++ [Execute s lim]) p) ==
     - inject_Z (calls (l ++ [Execute s lim])) - (p + penalties l) - 2 * excesses (l ++ [Execute s lim]))%Q.
Proof.
  revert p. induction l as [|e l IH]; intros p N.
  - cbn [app carla_run total calls penalties excesses]. rewrite reward_ok. change (inject_Z (1 + 0)) with 1%Q. lra.
  - destruct e as [a i|sp li|]; cbn [app carla_run total calls penalties excesses].
    + rewrite IH by (intros e I; apply N; right; auto). rewrite collision_weight. lra.
    + rewrite IH by (intros e I; apply N; right; auto). rewrite reward_ok, inject_Z_plus. change (inject_Z 1) with 1%Q. lra.
    + destruct (N Reset); [left; auto|auto].
Qed.

Lemma train_ok ends max i todo : (i + todo = max)%nat -> (0 < todo)%nat ->
  exists k, train_loop ends max i todo = repeat false k ++ [true] /\ (k < todo)%nat /\
    (forall j, (j < k)%nat -> ends (S (i + j)) = false) /\ (ends (S (i + k)) = true \/ S (i + k) = max).
Proof.
  revert i. induction todo as [|todo IH]; intros i E P; [lia|]. cbn [train_loop].
  destruct (ends (S i)) eqn:Ee; cbn [orb].
  - exists 0%nat. split; [reflexivity|]. split; [lia|]. rewrite Nat.add_0_r. split; [intros; lia|auto].
  - destruct (Nat.eqb (S i) max) eqn:Em.
    + apply Nat.eqb_eq in Em. exists 0%nat. split; [reflexivity|]. split; [lia|]. rewrite Nat.add_0_r. split; [intros; lia|auto].
    + apply Nat.eqb_neq in Em. destruct (IH (S i)) as (k & H1 & H2 & H3 & H4); [lia|lia|]. exists (S k). rewrite H1. split; [reflexivity|].
      split; [lia|]. replace (i + S k)%nat with (S i + k)%nat by lia. split; auto. intros [|j] J; [rewrite Nat.add_0_r; auto|].
      replace (i + S j)%nat with (S i + j)%nat by lia. apply H3. lia.
Qed.
