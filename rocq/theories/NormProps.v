(** Theorems on the normalization layers (C65) and on which states are preprocessed (C66). *)
From Coq Require Import String List ZArith Reals Bool Lra Lia.
From Verif Require Import Base ParModel ParProofs PreModel.
Import ListNotations.
Open Scope string_scope.
Open Scope list_scope.
Open Scope R_scope.

(** ** C65 *)
Lemma sum_bounds a b l : Forall (fun x => a <= x <= b) l -> INR (length l) * a <= sum l <= INR (length l) * b.
Proof. induction 1 as [|x l Hx _ IH]; [cbn; lra|]. cbn [sum fold_right]. fold (sum l). cbn [length]. rewrite S_INR. lra. Qed.
Lemma mean_bounds a b l : l <> [] -> Forall (fun x => a <= x <= b) l -> a <= mean l <= b.
Proof.
  intros Hn H. apply sum_bounds in H. assert (0 < INR (length l)) as Hp by (apply lt_0_INR; destruct l; [congruence|cbn; lia]).
  assert (mean l * INR (length l) = sum l) as E by (unfold mean; field; lra).
  split; apply (Rmult_le_reg_r (INR (length l))); auto; rewrite E; lra.
Qed.
Lemma variance_nonneg l : l <> [] -> 0 <= variance l.
Proof.
  intros Hn. unfold variance. set (m := mean l). clearbody m.
  assert (0 <= sum (map (fun x => (x - m) * (x - m)) l)) as Hs.
  { clear Hn. induction l as [|x l IH]; cbn [map sum fold_right]; [lra|]. fold (sum (map (fun x => (x - m) * (x - m)) l)). pose proof (Rle_0_sqr (x - m)). unfold Rsqr in *. lra. }
  unfold mean. rewrite map_length. apply part; auto. apply lt_0_INR. destruct l; [congruence|cbn; lia].
Qed.

(** A call of an exponential normalization layer: with this value of the decay, independent or not, for
    a batch of this size with these values *)
Record call := Call { c_decay : R; c_independent : bool; c_size : nat; c_values : list R }.
Definition call_step (only_mean : bool) (min_variance : R) (m : moments) (c : call) : moments :=
  fst (exponential_apply only_mean min_variance (c_decay c) (c_independent c) m (c_size c) (c_values c)).
Definition calls only_mean min_variance (m : moments) (cs : list call) : moments :=
  fold_left (call_step only_mean min_variance) cs m.
Definition valid (a b : R) (c : call) : Prop :=
  0 <= c_decay c <= 1 /\ (c_size c <> 0%nat -> c_values c <> []) /\ Forall (fun x => a <= x <= b) (c_values c).

Lemma pow_range d n : 0 <= d <= 1 -> 0 <= pow d n <= 1.
Proof. intros H. induction n as [|n IH]; cbn; [lra|]. apply mul_range; auto. Qed.
Lemma mix_range d x y a b : 0 <= d <= 1 -> a <= x <= b -> a <= y <= b -> a <= d * x + (1 - d) * y <= b.
Proof.
  intros Hd Hx Hy. assert (d * a <= d * x <= d * b) by (split; apply Rmult_le_compat_l; lra).
  assert ((1 - d) * a <= (1 - d) * y <= (1 - d) * b) by (split; apply Rmult_le_compat_l; lra). lra.
Qed.

(** Whatever the calls, the moving mean stays within the range of the inputs (and 0, where it starts),
    the moving variance is not negative, and the outputs are bounded: with a positive minimum variance
    nothing is divided by zero. *)
Theorem C65_exponential_range only_mean min_variance a b cs c : a <= 0 <= b -> 0 < min_variance ->
  Forall (valid a b) cs -> valid a b c ->
  let m := calls only_mean min_variance moments_initial cs in
  a <= m_mean m <= b /\ 0 <= m_variance m /\
  Forall (fun y => Rabs y <= (b - a) * (if only_mean then 1 else / sqrt min_variance))
         (snd (exponential_apply only_mean min_variance (c_decay c) (c_independent c) m (c_size c) (c_values c))).
Proof.
  intros Hab Hv Hcs Hc m.
  assert (forall m c, a <= m_mean m <= b -> 0 <= m_variance m -> valid a b c ->
    a <= m_mean (call_step only_mean min_variance m c) <= b /\ 0 <= m_variance (call_step only_mean min_variance m c)) as Hstep.
  { clear - Hab. intros m c Hm Hva (Hd & Hn & Hx). unfold call_step, exponential_apply. cbn [fst].
    destruct (c_independent c); auto. destruct (Req_EM_T (c_decay c) 1); auto. cbn [m_mean m_variance].
    assert (0 <= (if Req_EM_T (c_decay c) 0 then 0 else c_decay c ^ c_size c) <= 1) as Hp by (destruct (Req_EM_T (c_decay c) 0); [lra|now apply pow_range]).
    set (d := if Req_EM_T _ 0 then _ else _) in *. clearbody d. destruct (Nat.eqb_spec (c_size c) 0) as [Hz|Hz].
    - split; [now apply mix_range|]. destruct only_mean; auto. replace (d * m_variance m + (1 - d) * m_variance m) with (m_variance m) by ring. auto.
    - specialize (Hn Hz). split; [apply mix_range; auto; now apply mean_bounds|]. destruct only_mean; auto.
      pose proof (variance_nonneg _ Hn). assert (0 <= d * m_variance m) by (apply Rmult_le_pos; lra). assert (0 <= (1 - d) * variance (c_values c)) by (apply Rmult_le_pos; lra). lra. }
  assert (forall cs m, Forall (valid a b) cs -> a <= m_mean m <= b -> 0 <= m_variance m ->
    a <= m_mean (calls only_mean min_variance m cs) <= b /\ 0 <= m_variance (calls only_mean min_variance m cs)) as Hall.
  { clear - Hstep. induction cs as [|c cs IH]; intros m H H1 H2; auto. inversion_clear H. destruct (Hstep m c H1 H2 H0) as [H4 H5]. exact (IH _ H3 H4 H5). }
  destruct (Hall cs moments_initial Hcs) as [H1 H2]; [cbn; lra|cbn; lra|]. fold m in H1, H2. split; auto. split; auto.
  destruct (Hstep m c H1 H2 Hc) as [H3 H4]. unfold call_step in H3, H4. unfold exponential_apply in *. cbn [fst snd] in *. clear Hstep Hall H1 H2.
  set (m' := if c_independent c then m else _) in *. clearbody m'. destruct Hc as (_ & _ & Hx). apply Forall_forall. intros y Hy. apply in_map_iff in Hy. destruct Hy as (x & <- & Hin).
  rewrite Forall_forall in Hx. specialize (Hx x Hin). rewrite Rabs_mult. apply Rmult_le_compat; try apply Rabs_pos.
  - apply Rabs_le. lra.
  - destruct only_mean; [rewrite Rabs_R1; lra|]. unfold rsqrt.
    assert (0 < sqrt min_variance) as Hs by (now apply sqrt_lt_R0).
    assert (sqrt min_variance <= sqrt (Rmax (m_variance m') min_variance)) as Hle by (apply sqrt_le_1; [lra|apply Rle_trans with min_variance; [lra|apply Rmax_r]|apply Rmax_r]).
    rewrite Rabs_pos_eq by (left; apply Rinv_0_lt_compat; lra). now apply Rinv_le_contravar.
Qed.
Print Assumptions C65_exponential_range.

(** Independent calls, and calls for an empty batch, may be removed from the history. *)
Theorem C65_independent only_mean min_variance m cs :
  Forall (fun c => c_decay c <> 0) cs ->
  calls only_mean min_variance m cs = calls only_mean min_variance m (filter (fun c => negb (c_independent c) && negb (Nat.eqb (c_size c) 0)) cs).
Proof.
  revert m. induction cs as [|c cs IH]; intros m H; auto. inversion_clear H. cbn [calls fold_left filter]. destruct (c_independent c) eqn:Ei; cbn [negb andb].
  - replace (call_step only_mean min_variance m c) with m; [apply IH; auto|]. unfold call_step, exponential_apply. now rewrite Ei.
  - destruct (Nat.eqb (c_size c) 0) eqn:Ez; cbn [negb]; [|now apply IH]. replace (call_step only_mean min_variance m c) with m; [apply IH; auto|].
    unfold call_step, exponential_apply. rewrite Ei, Ez. cbn [fst]. destruct (Req_EM_T (c_decay c) 1); auto. destruct (Req_EM_T (c_decay c) 0); [contradiction|].
    apply Nat.eqb_eq in Ez. rewrite Ez. cbn [pow]. destruct m as [mu va]. cbn. f_equal; [|destruct only_mean; auto]; ring.
Qed.
Print Assumptions C65_independent.

(** With a constant decay, the moving mean is the average of the batch means with exponentially decaying
    weights by age, in timesteps: a batch of n timesteps counts as much as n timesteps of its mean. *)
Fixpoint total (cs : list call) : nat := match cs with [] => 0 | c :: cs => c_size c + total cs end.
Fixpoint weighted (d : R) (cs : list call) : R :=
  match cs with [] => 0 | c :: cs => pow d (total cs) * (1 - pow d (c_size c)) * mean (c_values c) + weighted d cs end.
Theorem C65_moving_mean only_mean min_variance d cs : 0 < d < 1 ->
  Forall (fun c => c_decay c = d /\ c_independent c = false /\ c_size c <> 0%nat) cs ->
  m_mean (calls only_mean min_variance moments_initial cs) = weighted d cs.
Proof.
  intros Hd H. assert (forall m, m_mean (calls only_mean min_variance m cs) = pow d (total cs) * m_mean m + weighted d cs) as E; [|rewrite E; cbn; ring].
  induction H as [|c cs (H1 & H2 & H3) _ IH]; intros m; [cbn; ring|]. cbn [calls fold_left]. fold (calls only_mean min_variance (call_step only_mean min_variance m c) cs). rewrite IH.
  unfold call_step, exponential_apply. rewrite H1, H2. destruct (Req_EM_T d 1); [lra|]. destruct (Req_EM_T d 0); [lra|]. rewrite (proj2 (Nat.eqb_neq _ _) H3). cbn [fst m_mean weighted total].
  rewrite pow_add. ring.
Qed.
Print Assumptions C65_moving_mean.
Lemma weights d cs : weighted d (map (fun c => Call (c_decay c) (c_independent c) (c_size c) [1]) cs) = 1 - pow d (total cs).
Proof.
  induction cs as [|c cs IH]; cbn [map weighted total c_size c_values]; [cbn; ring|]. rewrite IH.
  replace (total (map _ cs)) with (total cs) by (clear; induction cs as [|c cs IH]; cbn; congruence). unfold mean, sum. cbn. rewrite pow_add. field.
Qed.

(** Instance and batch normalization: the outputs have mean 0, and variance 1 unless it was below the minimum. *)
Lemma sum_map_scale (f : R -> R) k l : sum (map (fun x => f x * k) l) = sum (map f l) * k.
Proof. unfold sum. induction l as [|x l IH]; cbn [map fold_right]; [ring|]. rewrite IH. ring. Qed.
Lemma sum_map_shift m l : sum (map (fun x => x - m) l) = sum l - INR (length l) * m.
Proof. unfold sum. induction l as [|x l IH]; [cbn; ring|]. cbn [map fold_right length]. rewrite IH, S_INR. ring. Qed.
Theorem C65_instance only_mean min_variance x : x <> [] -> 0 < min_variance ->
  mean (instance_apply only_mean min_variance x) = 0 /\
  variance (instance_apply only_mean min_variance x) =
    if only_mean then variance x else variance x / Rmax (variance x) min_variance.
Proof.
  intros Hx Hv. assert (0 < INR (length x)) as Hp by (apply lt_0_INR; destruct x; [congruence|cbn; lia]).
  set (k := if only_mean then 1 else rsqrt min_variance (variance x)).
  assert (instance_apply only_mean min_variance x = map (fun y => (y - mean x) * k) x) as E by reflexivity. rewrite E.
  assert (mean (map (fun y => (y - mean x) * k) x) = 0) as Hm.
  { unfold mean at 1. rewrite (sum_map_scale (fun y => y - mean x)), sum_map_shift. replace (INR (length x) * mean x) with (sum x) by (unfold mean; field; lra). unfold Rdiv. ring. }
  split; auto. unfold variance at 1. rewrite Hm, map_map.
  rewrite (map_ext _ (fun y => (y - mean x) * (y - mean x) * (k * k))) by (intros; ring).
  unfold mean at 1. rewrite (sum_map_scale (fun y => (y - mean x) * (y - mean x))), !map_length.
  transitivity (variance x * (k * k)); [|].
  { assert (variance x = sum (map (fun y => (y - mean x) * (y - mean x)) x) / INR (length x)) as -> by (unfold variance; set (m := mean x); unfold mean; now rewrite map_length). unfold Rdiv. ring. }
  subst k. destruct only_mean; [ring|]. unfold rsqrt, Rdiv. f_equal.
  assert (0 < Rmax (variance x) min_variance) as Hmax by (apply Rlt_le_trans with min_variance; [lra|apply Rmax_r]).
  rewrite <- Rinv_mult. f_equal. apply sqrt_sqrt. lra.
Qed.
Print Assumptions C65_instance.

(** Clipping: the output lies within the bounds, and inputs within the bounds are unchanged. *)
Theorem C65_clipping lower upper x y : clipping lower upper x = Ok y ->
  match lower with Some lo => lo <= y | None => True end /\ match upper with Some hi => y <= hi | None => True end /\
  (match lower with Some lo => lo <= x | None => True end -> match upper with Some hi => x <= hi | None => True end -> y = x).
Proof.
  unfold clipping. intros H. destruct lower as [lo|], upper as [hi|]; try discriminate.
  - destruct (Rleb lo hi) eqn:E; [|discriminate]. apply Rleb_true in E. cbn [assert_ bind] in H. injection H as <-.
    unfold Rmin, Rmax. destruct (Rle_dec x lo); destruct (Rle_dec _ hi); repeat split; intros; lra.
  - injection H as <-. unfold Rmax. destruct (Rle_dec x lo); repeat split; intros; lra.
  - injection H as <-. unfold Rmin. destruct (Rle_dec x hi); repeat split; intros; lra.
Qed.
Print Assumptions C65_clipping.

Example C65_example : valid (-1) 2 (Call (1 / 2) false 2 [0; 2]) /\
  m_mean (calls false (1 / 100) moments_initial [Call (1 / 2) false 2 [0; 2]; Call (1 / 2) true 1 [9]; Call (1 / 2) false 1 [1]]) = 7 / 8.
Proof.
  split; [repeat split; cbn; try lra; try discriminate; repeat constructor; lra|]. rewrite C65_independent by (repeat constructor; cbn; lra).
  rewrite (C65_moving_mean _ _ (1 / 2)) by (try lra; cbn; repeat constructor; cbn; auto; discriminate). cbn. unfold mean, sum. cbn. field.
Qed.
Example C65_instance_example : instance_apply true (1 / 10000) [1; 3] = [-1; 1] /\ clipping (Some 0) (Some 1) 5 = Ok 1.
Proof.
  split.
  - unfold instance_apply, mean, sum. cbn. f_equal; [field|]. f_equal. field.
  - unfold clipping. rewrite (proj2 (Rleb_true 0 1)) by lra. cbn [assert_ bind]. f_equal. rewrite Rmax_left by lra. apply Rmin_right. lra.
Qed.

(** ** C66 *)
Section C66.
Context {L : Type}.
Variable linear_normalization : L.
Implicit Types (states : list state_spec) (s : state_spec) (d : list (string * option L)).

Lemma lookup_map_in (f : state_spec -> option L) states s : NoDup (map st_name states) -> In s states -> lookup (map (fun s => (st_name s, f s)) states) (st_name s) = Some (f s).
Proof.
  induction states as [|t states IH]; [intros _ []|]. intros Hn [->|Hin]; cbn; inversion_clear Hn.
  - now rewrite String.eqb_refl.
  - destruct (String.eqb_spec (st_name s) (st_name t)) as [E|]; [|auto]. exfalso. apply H. rewrite <- E. now apply in_map.
Qed.
Lemma lookup_none d k : (forall p, In p d -> fst p <> k) -> lookup d k = None.
Proof.
  induction d as [|[k' v] d IH]; intros H; cbn; auto. destruct (String.eqb_spec k k') as [->|]; [exfalso; apply (H (k', v)); [now left|auto]|]. apply IH. intros p Hp. apply H. now right.
Qed.
Lemma lookup_in d k v : lookup d k = Some v -> In (k, v) d.
Proof. induction d as [|[k' w] d IH]; cbn; [discriminate|]. destruct (String.eqb_spec k k') as [->|]; [intros E; injection E as ->; now left|]. auto. Qed.

(** By default, exactly the float states with both bounds are normalized, if no state is called like a type. *)
Theorem C66_default states s : NoDup (map st_name states) -> In s states -> (forall t, In t states -> st_name t <> st_type s) ->
  select linear_normalization states Default s = if String.eqb (st_type s) "float" && st_bounded s then Passed linear_normalization else Nothing.
Proof.
  intros Hn Hin Hf. unfold select. set (keep := fun s => (String.eqb (st_type s) "float" && st_bounded s)%bool). change (String.eqb (st_type s) "float" && st_bounded s)%bool with (keep s).
  assert (NoDup (map st_name (filter keep states))) as Hn'.
  { clear - Hn. induction states as [|t states IH]; cbn; [constructor|]. inversion_clear Hn. destruct (keep t); cbn; auto. constructor; auto. intros Hi. apply H. apply in_map_iff in Hi. destruct Hi as (u & <- & Hu). apply filter_In in Hu. apply in_map. tauto. }
  destruct (keep s) eqn:Ek.
  - rewrite (lookup_map_in (fun _ => Some linear_normalization)); auto. apply filter_In. auto.
  - rewrite lookup_none.
    2:{ intros [k v] Hp E. cbn in E. apply in_map_iff in Hp. destruct Hp as (t & Et & Ht). injection Et as <- <-. apply filter_In in Ht. destruct Ht as [Ht Hk].
        assert (t = s); [|congruence]. clear - Hn Hin Ht E. induction states as [|u states IH]; [destruct Hin|]. cbn in Hn. inversion_clear Hn. destruct Hin as [->|Hin], Ht as [->|Ht]; auto.
        - exfalso. apply H. rewrite <- E. now apply in_map.
        - exfalso. apply H. rewrite E. now apply in_map. }
    rewrite lookup_none; auto. intros [k v] Hp E. cbn in E. apply in_map_iff in Hp. destruct Hp as (t & Et & Ht). injection Et as <- <-. apply filter_In in Ht. now apply (Hf t).
Qed.

(** A dictionary by name is applied by name; a specification which is not a dictionary to all states. *)
Theorem C66_by_name_partial states d s : (forall p, In p d -> In (fst p) (map st_name states)) -> (forall t, In t states -> st_name t <> st_type s) ->
  select linear_normalization states (Dictionary d) s = match lookup d (st_name s) with Some l => passed_of l | None => Nothing end.
Proof.
  intros Hd Hf. unfold select. destruct (existsb _ d) eqn:E.
  - apply existsb_exists in E. destruct E as (p & Hp & E). specialize (Hd p Hp). apply in_map_iff in Hd. destruct Hd as (t & Et & Ht).
    assert (existsb (fun s => String.eqb (fst p) (st_name s)) states = true) as E'; [|rewrite E' in E; discriminate].
    apply existsb_exists. exists t. split; auto. apply String.eqb_eq. congruence.
  - destruct (lookup d (st_name s)); auto. rewrite lookup_none; auto. intros p Hp E'. specialize (Hd p Hp). apply in_map_iff in Hd. destruct Hd as (t & Et & Ht). apply (Hf t Ht). congruence.
Qed.
(** Refuted: a dictionary by type, as documented, is taken for the specification of one layer and passed
    on for every state, whatever its type. *)
Theorem C66_by_type_refuted states d s k l : In (k, l) d -> ~ In k (map st_name states) ->
  select linear_normalization states (Dictionary d) s = PassedDictionary d.
Proof.
  intros Hin Hk. unfold select. assert (existsb (fun p => negb (existsb (fun s => String.eqb (fst p) (st_name s)) states)) d = true) as ->; auto.
  apply existsb_exists. exists (k, l). split; auto. cbn [fst]. destruct (existsb _ states) eqn:E; auto. apply existsb_exists in E. destruct E as (t & Ht & E). apply String.eqb_eq in E. exfalso. apply Hk. rewrite E. now apply in_map.
Qed.
End C66.
Print Assumptions C66_default.
Print Assumptions C66_by_name_partial.
Print Assumptions C66_by_type_refuted.
Definition position := StateSpec "position" "float" true.
Definition speed := StateSpec "speed" "float" false.
Definition gear := StateSpec "gear" "int" false.
Example C66_example : map (select "normalize" [position; speed; gear] Default) [position; speed; gear] = [Passed "normalize"; Nothing; Nothing] /\
  map (select "normalize" [position; speed; gear] (Dictionary [("speed", Some "clip"); ("gear", None)])) [position; speed; gear] = [Nothing; Passed "clip"; Nothing] /\
  select "normalize" [position; speed; gear] (Dictionary [("float", Some "clip")]) gear = PassedDictionary [("float", Some "clip")].
Proof. repeat split. Qed.
