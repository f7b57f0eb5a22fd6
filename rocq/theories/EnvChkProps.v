(** Checks of outputs by the wrapper of environments (C178). *)

From Coq Require Import String List ZArith Bool Lia.
From Verif Require Import Base EnvSpec EnvModel.
Import ListNotations.
Open Scope string_scope.
Open Scope list_scope.
Open Scope Z_scope.

Section Env.
Context {S A R E : Type}.
Variable env : environment S A R E.
Variable g : option (shaping S A R).

(** The number of instances after a reset *)
Definition instances (np : option nat) : option nat := if Nat.ltb 1 (e_actors env) then Some (e_actors env) else np.

(** The first reset which succeeds returned states that fit, and numbers of instances *)
Theorem C178_first_reset : forall np (w w' : wrapper S E) x, w_reset_check w = true -> reset env g np w = (w', Ok x) ->
  match x with
  | StartOne s => instances np = None /\ e_states_ok env false s = true
  | StartMany p s => exists n, instances np = Some n /\ e_states_ok env true s = true /\ Forall (fun i => (i < n)%nat) p
  end.
Proof.
  intros np w w' x C. unfold reset, instances. destruct (match np with None => false | Some _ => _ end); [discriminate|]. cbn [w_env w_limit w_timestep w_previous w_reset_check w_execute_check].
  destruct (e_reset env _ (w_env w)) as [e [y|m]]; [|discriminate]. cbn [w_parallel w_timestep w_env w_limit w_reset_check w_execute_check w_previous]. rewrite C. unfold check_reset. cbn [w_parallel andb].
  destruct (if Nat.ltb 1 (e_actors env) then Some (e_actors env) else np) as [n|], y as [s|p s]; try discriminate.
  - destruct (e_states_ok env true s) eqn:K; cbn [andb negb]; [|discriminate]. destruct (forallb (fun i => Nat.ltb i n) p) eqn:F; cbn [negb]; [|discriminate].
    intros H. injection H as _ <-. exists n. split; auto. split; auto. apply Forall_forall. intros i I. rewrite forallb_forall in F. apply Nat.ltb_lt, F, I.
  - destruct (e_states_ok env false s) eqn:K; cbn [negb]; [|discriminate]. intros H. injection H as _ <-. auto.
Qed.

Lemma reset_unchecked np (w : wrapper S E) : w_reset_check w = false -> w_reset_check (fst (reset env g np w)) = false.
Proof.
  intros C. unfold reset. destruct (match np with None => false | Some _ => _ end); [exact C|]. cbn [w_env w_limit w_timestep w_previous w_reset_check w_execute_check].
  destruct (e_reset env _ (w_env w)) as [e [y|m]]; [|exact C]. cbn [w_parallel w_timestep w_env w_limit w_reset_check w_execute_check w_previous]. rewrite C. cbn [andb].
  destruct (if Nat.ltb 1 (e_actors env) then Some (e_actors env) else np), y; cbn; auto.
Qed.
Lemma execute_unchecked a (w : wrapper S E) : w_reset_check (fst (execute env g a w)) = w_reset_check w.
Proof.
  unfold execute. destruct (w_timestep w); [|reflexivity]. destruct (match w_limit w with Some m => _ | None => false end); [reflexivity|].
  destruct (e_execute env a (w_env w)) as [e [o|m]]; [|reflexivity]. cbn [w_parallel w_execute_check].
  destruct (w_parallel w), o; try reflexivity; (destruct (_ && _); [reflexivity|]; destruct (shape _ _ _ _); reflexivity).
Qed.

(** After it no output of reset is checked: whatever calls follow, a reset returns what the environment returned *)
Theorem C178_later_resets : forall np (w w' : wrapper S E) x l np' e' y, reset env g np w = (w', Ok x) ->
  (np' = None \/ e_vectorizable env = true) ->
  e_reset env (if Nat.ltb 1 (e_actors env) then None else np') (w_env (calls env g l w')) = (e', Ok y) ->
  match y with StartOne _ => instances np' = None | StartMany _ _ => instances np' <> None end ->
  snd (reset env g np' (calls env g l w')) = Ok y.
Proof.
  intros np w w' x l np' e' y H V E1 K.
  assert (C : w_reset_check w' = false).
  { revert H. unfold reset. destruct (match np with None => false | Some _ => _ end); [discriminate|]. cbn [w_env w_limit w_timestep w_previous w_reset_check w_execute_check].
    destruct (e_reset env _ (w_env w)) as [e [z|m]]; [|discriminate]. cbn [w_parallel w_timestep w_env w_limit w_reset_check w_execute_check w_previous].
    destruct (if Nat.ltb 1 (e_actors env) then Some (e_actors env) else np), z; try discriminate; (destruct (w_reset_check w && _); [discriminate|]; intro H; injection H as <- _; reflexivity). }
  assert (C' : w_reset_check (calls env g l w') = false).
  { clear -C. revert w' C. unfold calls. induction l as [|c l IH]; intros w' C; [exact C|]. cbn [fold_left]. apply IH. destruct c; cbn [do_call].
    - apply reset_unchecked. exact C.
    - rewrite execute_unchecked. exact C. }
  revert E1 C'. generalize (calls env g l w'). intros w2 E1 C2. unfold reset. unfold instances in K.
  assert (G : (match np' with None => false | Some _ => negb (e_vectorizable env) end) = false) by (destruct V as [-> | ->]; [reflexivity|destruct np'; reflexivity]).
  rewrite G. cbn [w_env w_limit w_timestep w_previous w_reset_check w_execute_check]. rewrite E1. cbn [w_reset_check]. rewrite C2. cbn [andb].
  destruct (if Nat.ltb 1 (e_actors env) then Some (e_actors env) else np'), y; cbn; congruence.
Qed.
End Env.
Print Assumptions C178_first_reset.
Print Assumptions C178_later_resets.

(** An environment whose states are to be below 2, and which returns one more in every reset *)
Definition growing : environment nat unit nat nat :=
  Environment (fun _ e => (Datatypes.S e, Ok (StartOne e))) (fun _ e => (e, Ok (One e 0 0%nat))) None false 1 (fun _ s => Nat.ltb s 2) (fun _ => true).
Example C178_reset_case : exists w w1 x, init growing 1%nat None = Ok w /\ reset growing None None w = (w1, Ok x) /\ x = StartOne 1%nat /\
  e_states_ok growing false 2%nat = false /\ snd (reset growing None None w1) = Ok (StartOne 2%nat) /\
  exists w2, init growing 2%nat None = Ok w2 /\ snd (reset growing None None w2) = Err "Environment.reset: invalid".
Proof. do 3 eexists. split; [reflexivity|]. split; [reflexivity|]. split; [reflexivity|]. split; [reflexivity|]. split; [reflexivity|]. eexists. split; reflexivity. Qed.
