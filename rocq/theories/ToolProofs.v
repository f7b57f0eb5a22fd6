(** Proofs for C174-C176. *)

From Coq Require Import String Ascii List ZArith QArith Qminmax Bool Arith Lia Lqa.
From Verif Require Import Base CfgModel CfgSpec CfgProofs3 ToolModel ToolSpec.
Import ListNotations.
Open Scope string_scope.
Open Scope list_scope.
Open Scope Z_scope.

Lemma bind_inv {X Y} (x : res X) (f : X -> res Y) y : bind x f = Ok y -> exists z, x = Ok z /\ f z = Ok y.
Proof. destruct x; cbn; intros; [eauto|discriminate]. Qed.
Lemma assert_iff c e x : assert_ c e = Ok x <-> c = true.
Proof. destruct c, x; cbn; split; intros; auto; discriminate. Qed.

(** ** Variables *)
Lemma instance_iff n t : instance n t = true <-> typed n t.
Proof. split; [destruct n, t; cbn; intros; try discriminate; constructor|intros []; reflexivity]. Qed.
Lemma same_type_iff a b : same_type a b = true <-> a = b.
Proof. destruct a, b; cbn; split; intros; auto; discriminate. Qed.
Lemma same_shape_iff a b : same_shape a b = true <-> a = b.
Proof.
  revert b. induction a as [|x a IH]; intros [|y b]; cbn; try (split; intros; auto; discriminate).
  rewrite andb_true_iff, Z.eqb_eq, IH. split; [intros (-> & ->); auto|intros [= -> ->]; auto].
Qed.
Lemma one_of_iff s l : one_of s l = true <-> In s l.
Proof.
  unfold one_of. rewrite existsb_exists. split.
  - intros (x & I & E). apply String.eqb_eq in E. subst; auto.
  - intros I. exists s. split; auto. apply String.eqb_refl.
Qed.
Lemma product_iff l n : product l = n <-> entries l n.
Proof.
  split.
  - intros <-. induction l; cbn; constructor; auto.
  - induction 1; cbn; congruence.
Qed.
Lemma renamed_iff s s' : replace s = s' <-> renamed s s'.
Proof.
  split.
  - intros <-. induction s as [|c s IH]; cbn; [constructor|]. destruct (Ascii.eqb c "/") eqn:E.
    + apply Ascii.eqb_eq in E. subst. constructor; auto.
    + apply Ascii.eqb_neq in E. constructor; auto.
  - induction 1 as [|s s' H IH|c s s' N H IH]; cbn; [auto|rewrite IH; auto|]. apply Ascii.eqb_neq in N. rewrite N, IH. auto.
Qed.

Lemma last_split (l : list Z) : l <> [] -> l = removelast l ++ [last l 0].
Proof. intros H. apply app_removelast_last; auto. Qed.

Ltac inv H := apply bind_inv in H; let x := fresh "x" in let E := fresh "E" in destruct H as (x & E & H).

Lemma initial_iff t shape i scale v :
  (check_initializer t i = Ok tt /\ check_scale t i scale = Ok tt /\ initial t shape i scale = Ok v) <-> initialized t shape i scale v.
Proof.
  split.
  - intros (C & S & I). destruct i as [n|t' s|t' s|s|].
    + cbn in *. apply assert_iff, instance_iff in C. destruct scale; [discriminate|]. injection I as <-. constructor; auto.
    + cbn in *. apply assert_iff, same_type_iff in C. destruct scale; [discriminate|]. inv I. apply assert_iff, same_shape_iff in E. subst. injection I as <-. constructor.
    + cbn in *. apply assert_iff, same_type_iff in C. destruct scale; [discriminate|]. inv I. apply assert_iff, same_shape_iff in E. subst. injection I as <-. constructor.
    + cbn [check_initializer] in C. apply assert_iff, one_of_iff in C. 
      assert (Sc : scale = None \/ exists n, scale = Some n /\ In s ["constant"; "orthogonal"; "orthogonal-relu"] /\ typed n t).
      { destruct scale as [n|]; [right|auto]. exists n. cbn [check_scale] in S. inv S. apply assert_iff, one_of_iff in E. apply assert_iff, instance_iff in S. auto. }
      clear S. cbn [initial] in I.
      cbn [In initializer_names] in C. destruct C as [<-|[<-|[<-|[<-|[<-|[<-|[<-|[]]]]]]]]; unfold named in I; cbn -[variance product last removelast Nat.ltb same_type Qeq_bool Qle_bool] in I.
      * destruct Sc as [->|(n & -> & _ & T)]; [discriminate|]. injection I as <-. constructor; auto.
      * assert (scale = None) as -> by (destruct Sc as [->|(n & _ & In_ & _)]; auto; cbn in In_; intuition discriminate).
        destruct (same_type t TFloat) eqn:T; [|discriminate]. apply same_type_iff in T. cbn in I. destruct shape as [|x q] eqn:Sh; [discriminate|]. rewrite <- Sh in *.
        injection I as <-. apply (init_normal t shape (removelast shape) (last shape 0) (product (removelast shape))); auto.
        -- apply last_split. subst; discriminate.
        -- apply product_iff; auto.
      * assert (scale = None) as -> by (destruct Sc as [->|(n & _ & In_ & _)]; auto; cbn in In_; intuition discriminate).
        destruct (same_type t TFloat) eqn:T; [|discriminate]. apply same_type_iff in T. cbn in I.
        injection I as <-. apply (init_normal_relu t shape (removelast shape) (last shape 0) (product (removelast shape))); auto.
        -- destruct shape as [|x q]; [right; auto|left; apply last_split; discriminate].
        -- apply product_iff; auto.
      * assert (scale = None) as -> by (destruct Sc as [->|(n & _ & In_ & _)]; auto; cbn in In_; intuition discriminate).
        destruct t; cbn in I; injection I as <-; constructor; try discriminate; auto; constructor.
      * destruct (same_type t TFloat) eqn:T; [|discriminate]. apply same_type_iff in T. cbn -[Nat.ltb Qeq_bool Qle_bool] in I.
        destruct (Nat.ltb (length shape) 2) eqn:L; [discriminate|]. apply Nat.ltb_ge in L.
        destruct Sc as [->|(n & -> & _ & Tn)]; [injection I as <-; apply (init_orthogonal t shape false); auto|].
        subst t. inversion Tn; subst. cbn [scale_of] in I. destruct (Qeq_bool q 1) eqn:Q1.
        -- apply Qeq_bool_iff in Q1. injection I as <-. apply (init_orthogonal_one TFloat shape false); auto.
        -- apply Qeq_bool_neq in Q1. destruct (Qle_bool q 0) eqn:Q0; [discriminate|]. injection I as <-.
           apply (init_orthogonal_scale TFloat shape false); auto. apply Qnot_le_lt. intros H. apply Qle_bool_iff in H. congruence.
      * destruct (same_type t TFloat) eqn:T; [|discriminate]. apply same_type_iff in T. cbn -[Nat.ltb Qeq_bool Qle_bool] in I.
        destruct (Nat.ltb (length shape) 2) eqn:L; [discriminate|]. apply Nat.ltb_ge in L.
        destruct Sc as [->|(n & -> & _ & Tn)]; [injection I as <-; apply (init_orthogonal t shape true); auto|].
        subst t. inversion Tn; subst. cbn [scale_of] in I. destruct (Qeq_bool q 1) eqn:Q1.
        -- apply Qeq_bool_iff in Q1. injection I as <-. apply (init_orthogonal_one TFloat shape true); auto.
        -- apply Qeq_bool_neq in Q1. destruct (Qle_bool q 0) eqn:Q0; [discriminate|]. injection I as <-.
           apply (init_orthogonal_scale TFloat shape true); auto. apply Qnot_le_lt. intros H. apply Qle_bool_iff in H. congruence.
      * assert (scale = None) as -> by (destruct Sc as [->|(n & _ & In_ & _)]; auto; cbn in In_; intuition discriminate).
        destruct t; cbn in I; injection I as <-; constructor; try discriminate; auto; constructor.
    + discriminate.
  - assert (TT : same_type t t = true) by (apply same_type_iff; auto).
    assert (SS : same_shape shape shape = true) by (apply same_shape_iff; auto).
    intros H. destruct H as [n T| | |n T Z Zi|n T Z Zi|n T|ins out n v T Sh E V|ins out n v T Sh E V|relu T L|relu q T L Q1|relu q T L Q0 Q1].
    + cbn. apply instance_iff in T. rewrite T. auto.
    + cbn. rewrite TT, SS. auto.
    + cbn. rewrite TT, SS. auto.
    + split; [reflexivity|]. split; [reflexivity|]. cbn. do 2 f_equal. destruct T; try (destruct Z as [Z|[Z|Z]]; congruence). rewrite Zi; auto.
    + split; [reflexivity|]. split; [reflexivity|]. cbn. do 2 f_equal. destruct T; try (destruct Z as [Z|[Z|Z]]; congruence). rewrite Zi; auto.
    + apply instance_iff in T. split; [reflexivity|]. split; [cbn; rewrite T; auto|reflexivity].
    + subst t. split; [reflexivity|]. split; [reflexivity|]. cbn [initial]. unfold named. cbn -[variance product last removelast].
      apply product_iff in E. subst shape. destruct (ins ++ [out]) as [|x q] eqn:Sh; [destruct ins; discriminate|]. rewrite <- Sh.
      rewrite removelast_last, last_last. subst n v. reflexivity.
    + subst t. split; [reflexivity|]. split; [reflexivity|]. cbn [initial]. unfold named. cbn -[variance product last removelast].
      apply product_iff in E. destruct Sh as [->|(-> & ->)].
      * rewrite removelast_last. subst n v. reflexivity.
      * subst n v. reflexivity.
    + subst t. apply Nat.ltb_ge in L. destruct relu; (split; [reflexivity|]; split; [reflexivity|]); cbn [initial]; unfold named; cbn -[Nat.ltb]; rewrite L; reflexivity.
    + subst t. apply Nat.ltb_ge in L. apply Qeq_bool_iff in Q1.
      destruct relu; (split; [reflexivity|]; split; [reflexivity|]); cbn [initial]; unfold named; cbn -[Nat.ltb Qeq_bool Qle_bool]; rewrite L, Q1; reflexivity.
    + subst t. apply Nat.ltb_ge in L. assert (F1 : Qeq_bool q 1 = false) by (apply not_true_iff_false; rewrite Qeq_bool_iff; auto).
      assert (F0 : Qle_bool q 0 = false) by (apply not_true_iff_false; rewrite Qle_bool_iff; apply Qlt_not_le; auto).
      destruct relu; (split; [reflexivity|]; split; [reflexivity|]); cbn [initial]; unfold named; cbn -[Nat.ltb Qeq_bool Qle_bool]; rewrite L, F1, F0; reflexivity.
Qed.

Lemma variable_iff name t shape i scale trainable saved n v b s :
  variable name t shape i scale trainable saved = Ok (n, v, b, s) <->
  (exists m, name = VStr m /\ renamed m n) /\ Forall (fun x => 0 < x) shape /\ initialized t shape i scale v /\
  trainable = VNum (NBool b) /\ saved = VNum (NBool s) /\ (b = true -> t = TFloat).
Proof.
  assert (Sh : forallb (fun x => 0 <? x) shape = true <-> Forall (fun x => 0 < x) shape).
  { rewrite forallb_forall, Forall_forall. split; intros H x I; apply Z.ltb_lt; auto. }
  assert (Tr : negb b || same_type t TFloat = true <-> (b = true -> t = TFloat)).
  { rewrite orb_true_iff, same_type_iff. destruct b; cbn; split; intros; auto; destruct H; auto; discriminate. }
  split.
  - unfold variable. destruct name as [|m|m| | |]; try discriminate. intros H. inv H. apply assert_iff, Sh in E. inv H. inv H.
    destruct trainable as [| |[b'| |]| | |]; try discriminate. destruct saved as [| |[s'| |]| | |]; try discriminate.
    inv H. apply assert_iff in E2. inv H. injection H as <- <- <- <-. destruct x0, x1.
    split; [exists m; split; auto; apply renamed_iff; auto|]. split; auto. split; [apply initial_iff; auto|]. split; auto. split; auto. apply Tr; auto.
  - intros ((m & -> & R) & F & I & -> & -> & T). unfold variable. apply Sh in F. rewrite F. apply initial_iff in I. destruct I as (I1 & I2 & I3).
    cbn [assert_ bind]. rewrite I1, I2. cbn [bind]. apply Tr in T. rewrite T. cbn [assert_ bind]. rewrite I3. cbn [bind]. apply renamed_iff in R. rewrite R. auto.
Qed.

(** ** Strings *)
Lemma comma_iff s : comma s = true <-> exists a b, s = (a ++ "," ++ b)%string.
Proof.
  induction s as [|c s IH]; cbn.
  - split; [discriminate|]. intros ([|] & b & H); discriminate.
  - rewrite orb_true_iff, Ascii.eqb_eq, IH. split.
    + intros [->|(a & b & ->)]; [exists "", s; auto|exists (String c a), b; auto].
    + intros ([|x a] & b & H); cbn in H; injection H as -> ->; [left; auto|right; exists a, b; auto].
Qed.
Lemma no_comma_iff s : comma s = false <-> no_comma s.
Proof. unfold no_comma. rewrite <- comma_iff. destruct (comma s); split; intros; auto; try discriminate. destruct H; auto. Qed.

Lemma split_word w : no_comma w -> split w = [w].
Proof.
  intros H. apply no_comma_iff in H. induction w as [|c w IH]; [reflexivity|]. cbn in *. apply orb_false_iff in H. destruct H as (H1 & H2).
  rewrite H1, IH; auto.
Qed.
Lemma split_comma w s : no_comma w -> split (w ++ "," ++ s)%string = w :: split s.
Proof.
  intros H. apply no_comma_iff in H. induction w as [|c w IH]; [reflexivity|]. cbn in *. apply orb_false_iff in H. destruct H as (H1 & H2).
  rewrite H1, IH; auto.
Qed.
Lemma split_join l : l <> [] -> Forall no_comma l -> split (join l) = l.
Proof.
  intros N F. induction F as [|w l W F IH]; [congruence|]. destruct l as [|w' q]; [apply split_word; auto|].
  change (join (w :: w' :: q)) with (w ++ "," ++ join (w' :: q))%string. rewrite split_comma by auto. rewrite IH; [auto|discriminate].
Qed.
Lemma split_not_nil s : split s <> [].
Proof. destruct s as [|c s]; cbn; [discriminate|]. destruct (Ascii.eqb c ","); [discriminate|]. destruct (split s); discriminate. Qed.
Lemma join_split s : join (split s) = s /\ Forall no_comma (split s).
Proof.
  induction s as [|c s (IH1 & IH2)]; cbn [split].
  - split; [reflexivity|]. constructor; auto. apply no_comma_iff. reflexivity.
  - destruct (Ascii.eqb c ",") eqn:E.
    + apply Ascii.eqb_eq in E. subst. assert (N := split_not_nil s). split.
      * destruct (split s) as [|w q]; [congruence|]. rewrite <- IH1. reflexivity.
      * constructor; auto. apply no_comma_iff. reflexivity.
    + assert (N := split_not_nil s). destruct (split s) as [|w q] eqn:S; [congruence|]. inversion IH2 as [|w' q' W Q]; subst w' q'. split.
      * rewrite <- IH1. destruct q; reflexivity.
      * constructor; auto. apply no_comma_iff. apply no_comma_iff in W. cbn. rewrite E, W. auto.
Qed.
Lemma split_many s : comma s = true <-> (2 <= length (split s))%nat.
Proof.
  split.
  - intros C. destruct (split s) as [|w [|w' q]] eqn:E; cbn; try lia.
    + destruct (split_not_nil s E).
    + destruct (join_split s) as (J & F). rewrite E in J, F. cbn in J. subst. inversion F as [|x y W _]; subst. apply no_comma_iff in W. congruence.
  - intros L. destruct (comma s) eqn:C; auto. apply no_comma_iff in C. rewrite (split_word s C) in L. cbn in L. lia.
Qed.

Lemma directory_iff s r : directory_of s = Ok r <-> location s r.
Proof.
  split.
  - destruct s as [s|]; cbn; [|intros [= <-]; constructor]. destruct (comma s) eqn:C.
    + destruct (join_split s) as (J & F). destruct (split s) as [|d [|f [|]]] eqn:E; try discriminate. intros [= <-]. rewrite <- J.
      inversion F as [|x y D F']; subst. inversion F' as [|x y D' _]; subst. change (join [d; f]) with (d ++ "," ++ f)%string. constructor; auto.
    + intros [= <-]. constructor. apply no_comma_iff; auto.
  - intros [|x C|d f D F]; cbn [directory_of]; auto.
    + apply no_comma_iff in C. rewrite C. auto.
    + assert (C : comma (d ++ "," ++ f) = true) by (apply comma_iff; eauto). rewrite C. rewrite split_comma, split_word by auto. auto.
Qed.
Lemma host_iff h r : host_of h = r <-> hosts h r.
Proof.
  split.
  - intros <-. destruct h as [h|]; cbn; [|constructor]. destruct (comma h) eqn:C; [|constructor; apply no_comma_iff; auto].
    destruct (join_split h) as (J & F). apply split_many in C. rewrite <- J at 1. constructor; auto.
  - intros [|x C|l L F]; cbn [host_of option_map]; auto.
    + apply no_comma_iff in C. rewrite C. auto.
    + assert (S : split (join l) = l) by (apply split_join; auto; intros ->; cbn in L; lia).
      assert (C : comma (join l) = true) by (apply split_many; rewrite S; auto). rewrite C, S. auto.
Qed.
Lemma map_int int l ns : map_res (int_of int) l = Ok ns <-> Forall2 (fun s n => int s = Some n) l ns.
Proof.
  revert ns. induction l as [|s l IH]; intros ns; cbn.
  - split; [intros [= <-]; constructor|intros H; inversion H; auto].
  - unfold int_of at 1. destruct (int s) as [n|] eqn:E; cbn.
    + destruct (map_res (int_of int) l) as [q|e] eqn:M; cbn.
      * split; [intros [= <-]; constructor; auto; apply IH; auto|]. intros H. inversion H; subst. apply IH in H4. congruence.
      * split; [discriminate|]. intros H. inversion H; subst. apply IH in H4. discriminate.
    + split; [discriminate|]. intros H. inversion H; subst. congruence.
Qed.
Lemma port_iff int p r : port_of int p = Ok r <-> ports int p r.
Proof.
  split.
  - destruct p as [p|]; cbn; [|intros [= <-]; constructor]. destruct (comma p) eqn:C; intros H; inv H; injection H as <-.
    + destruct (join_split p) as (J & F). apply split_many in C. apply map_int in E. rewrite <- J. rewrite J at 1. rewrite <- J at 1. constructor 3 with (l := split p); auto.
    + constructor; [apply no_comma_iff; auto|]. unfold int_of in E. destruct (int p); [congruence|discriminate].
  - intros [|x n C I|l ns L F I]; cbn [port_of]; auto.
    + apply no_comma_iff in C. rewrite C. unfold int_of. rewrite I. auto.
    + assert (S : split (join l) = l) by (apply split_join; auto; intros ->; cbn in L; lia).
      assert (C : comma (join l) = true) by (apply split_many; rewrite S; auto). rewrite C, S. apply map_int in I. rewrite I. auto.
Qed.

Lemma entry_in k v x y : In (x, y) (entry k v) <-> x = k /\ v = Some y.
Proof. destruct v; cbn; split; [intros [[= <- <-]|[]]; auto|intros (-> & [= ->]); auto|intros []|intros (_ & H); discriminate]. Qed.
