(** Further claims: C64 (the final value of a schedule), C83 (Ornstein-Uhlenbeck noise), C84 (nested
    preprocessing layers), C48 and C85 (the options of the optimizer wrapper). *)

From Coq Require Import String List ZArith Reals Bool Lra Lia.
From Verif Require Import Base ParModel ParProofs ParProps PreModel PreProofs.
Import ListNotations.
Open Scope string_scope.
Open Scope list_scope.
Open Scope R_scope.

(** ** C64, continued *)
(** final_value() of a polynomial schedule without cycle and inverse is the value from step
    num_steps + 1 on, also for increasing, scaled and int parameters *)
Theorem C64_final_partial : forall p final power f noise step,
  d_decay p = Polynomial final power false -> 0 <= power -> d_inverse p = false -> final_value p = Ok f ->
  INR (d_num_steps p) + 1 <= step -> parameter_value p noise step = Ok f.
Proof.
  intros p fin pw f noise step D P I F S. pose proof (pos_INR (d_num_steps p)) as N.
  unfold final_value in F. unfold parameter_value, decayed. rewrite D, I in *. rewrite (dec_true 0 pw P). cbn [assert_ bind] in *.
  assert (V : polynomial_decay (d_initial p) (INR (d_num_steps p) + 1) fin pw false step = if Req_EM_T pw 0 then d_initial p else fin).
  { unfold polynomial_decay. rewrite Rmin_right by lra. replace ((INR (d_num_steps p) + 1) / (INR (d_num_steps p) + 1)) with 1 by (field; lra).
    unfold tf_pow. destruct (Req_EM_T pw 0); [ring|]. destruct (Req_EM_T (1 - 1) 0); [ring|lra]. }
  rewrite V. destruct (d_increasing p); [|exact F].
  set (v := if Req_EM_T pw 0 then d_initial p else fin) in *. destruct (Rleb 0 v && Rleb v 1); [exact F|discriminate].
Qed.
Example C64_final_example : final_value (Decaying (Polynomial (1 / 4) 2 false) 10 1 true false 2 Float) = Ok ((1 - 1 / 4) * 2).
Proof. unfold final_value. settle. reflexivity. Qed.
(** final_value() of a cosine schedule fails, which is_constant() needs if alpha is one
    (decaying.py 295: the branch for cosine reads decay_rate) *)
Theorem C64_final_refuted : exists p, create_decaying p (Spec None None) = Ok tt /\
  (forall step, 0 <= step -> parameter_value p 0 step = Ok 3) /\
  is_constant (min_value p) (max_value p) (final_value p) = Err "KeyError: decay_rate".
Proof.
  exists (Decaying (Cosine 1) 10 3 false false 1 Float). split; [|split].
  - unfold create_decaying, min_value, max_value, all_bounds, check. settle. reflexivity.
  - intros step S. unfold parameter_value, decayed. cbn [d_decay d_num_steps d_initial d_increasing d_inverse d_scale d_dtype cast].
    rewrite (dec_true 0 1), (dec_true 1 1) by lra. cbn [andb assert_ bind]. unfold cosine_decay. f_equal. ring.
  - unfold min_value, max_value, all_bounds, final_value. settle. reflexivity.
Qed.

(** ** C83: Ornstein-Uhlenbeck noise *)
(** The process is its mean plus the draws so far (latest first), weighted by the powers of
    1 - theta *)
Fixpoint weighted (r : R) (l : list R) : R := match l with [] => 0 | x :: l => x + r * weighted r l end.
Theorem C83_weighted : forall o draws, o_absolute o = false ->
  ornstein_process o draws = o_mu o + o_sigma o * weighted (1 - o_theta o) draws.
Proof.
  intros o draws A. induction draws as [|n draws IH]; cbn [ornstein_process weighted]; [ring|]. unfold ornstein_step. rewrite A, IH. ring.
Qed.
(** so it stays near the mean for bounded draws, however many *)
Theorem C83_bounded : forall o draws b, o_absolute o = false -> 0 < o_theta o <= 1 -> 0 <= o_sigma o -> 0 <= b ->
  Forall (fun n => Rabs n <= b) draws -> Rabs (ornstein_process o draws - o_mu o) <= o_sigma o * b / o_theta o.
Proof.
  intros o draws b A T S B F. rewrite C83_weighted by exact A.
  replace (o_mu o + o_sigma o * weighted (1 - o_theta o) draws - o_mu o) with (o_sigma o * weighted (1 - o_theta o) draws) by ring.
  rewrite Rabs_mult, (Rabs_pos_eq _ S). unfold Rdiv. rewrite Rmult_assoc. apply Rmult_le_compat_l; [exact S|].
  set (t := o_theta o) in *. clearbody t. induction F as [|n draws N F IH]; cbn [weighted].
  - rewrite Rabs_R0. apply Rmult_le_pos; [exact B|]. left. apply Rinv_0_lt_compat. lra.
  - apply Rle_trans with (1 := Rabs_triang _ _). rewrite Rabs_mult, (Rabs_pos_eq (1 - t)) by lra.
    apply Rle_trans with (b + (1 - t) * (b * / t)); [|right; field; lra].
    apply Rplus_le_compat; [exact N|]. apply Rmult_le_compat_l; [lra|exact IH].
Qed.
(** With absolute values: never negative, and nearer to the mean without draws *)
Theorem C83_absolute : forall o draws, o_absolute o = true -> 0 <= o_mu o -> 0 <= o_theta o <= 1 ->
  0 <= ornstein_process o draws /\
  ornstein_step o (ornstein_process o draws) 0 - o_mu o = (1 - o_theta o) * (ornstein_process o draws - o_mu o).
Proof.
  intros o draws A M T.
  assert (P : 0 <= ornstein_process o draws). { destruct draws; cbn; [exact M|]. unfold ornstein_step. rewrite A. apply Rabs_pos. }
  split; [exact P|]. unfold ornstein_step. rewrite A. set (x := ornstein_process o draws) in *. clearbody x.
  replace (x + (o_theta o * (o_mu o - x) + o_sigma o * 0)) with ((1 - o_theta o) * x + o_theta o * o_mu o) by ring.
  rewrite Rabs_pos_eq; [ring|]. apply Rplus_le_le_0_compat; apply Rmult_le_pos; lra.
Qed.
Example C83_example : ornstein_process (Ornstein (1 / 4) 2 5 false) [1; 0; 1] = 5 + 2 * (1 + 9 / 16) /\
  ornstein_process (Ornstein (1 / 4) 2 5 true) [-10] = 15.
Proof.
  split.
  - rewrite C83_weighted by reflexivity. cbn. lra.
  - cbn. unfold ornstein_step. cbn. replace (5 + (1 / 4 * (5 - 5) + 2 * -10)) with (- (15)) by lra. rewrite Rabs_Ropp. apply Rabs_pos_eq. lra.
Qed.

(** ** C84: nested preprocessing layers *)
(** A list of layers is applied front to back, whatever the nesting: first the layers of the front
    part with their variables, then those of the rest on the result *)
Theorem C84_order : forall (T X : Type) asserts (front rest : list (layers T X)) s1 s2 x,
  length s1 = length (flatten (Layers front)) ->
  apply asserts (Layers (front ++ rest)) (s1 ++ s2) x =
    (do (s1', y) <- apply asserts (Layers front) s1 x; do (s2', z) <- apply asserts (Layers rest) s2 y; Ok (s1' ++ s2', z)).
Proof.
  intros T X asserts front rest s1 s2 x L. unfold apply. cbn [flatten] in *. rewrite map_app, concat_app.
  set (f := concat (map flatten front)) in *. clearbody f. set (r := concat (map flatten rest)). clearbody r.
  revert s1 x L. induction f as [|l f IH]; intros [|t s1] x L; try discriminate; cbn [app stack_apply bind].
  - destruct (stack_apply asserts r s2 x) as [[s z]|]; reflexivity.
  - destruct (layer_apply asserts l t x) as [[t' y]|]; [|reflexivity]. cbn [bind]. injection L as L. rewrite (IH s1 y L).
    destruct (stack_apply asserts f s1 y) as [[s1' y']|]; [|reflexivity]. cbn [bind].
    destruct (stack_apply asserts r s2 y') as [[s2' z]|]; reflexivity.
Qed.
(** A list of one layer, or a nested list of the same layers, does what the layer does *)
Theorem C84_nested : forall (T X : Type) asserts (l : layers T X) rest s x,
  apply asserts (Layers [l]) s x = apply asserts l s x /\
  apply asserts (Layers [Layers rest]) s x = apply asserts (Layers rest) s x.
Proof. intros T X asserts l rest s x. unfold apply. cbn [flatten map concat]. now rewrite !app_nil_r. Qed.
Definition add_one : layers Z Z := Layer (LFunction (fun x => Ok (map (Z.add 1) x))).
Definition double : layers Z Z := Layer (LFunction (fun x => Ok (map (Z.mul 2) x))).
Example C84_example : apply true (Layers [add_one; Layers [double]]) [SFunction; SFunction] [3%Z] = Ok ([SFunction; SFunction], [8%Z]) /\
  apply true (Layers [Layers [double; add_one]]) [SFunction; SFunction] [3%Z] = Ok ([SFunction; SFunction], [7%Z]).
Proof. split; reflexivity. Qed.

Print Assumptions C64_final_partial.
Print Assumptions C64_final_refuted.
Print Assumptions C83_weighted.
Print Assumptions C83_bounded.
Print Assumptions C83_absolute.
Print Assumptions C84_order.
Print Assumptions C84_nested.
