(** Theorems C177-C178: environments which are started first and asked later, and the checks of their first outputs. *)

From Coq Require Import String Ascii List ZArith QArith Bool Arith Lia.
From Verif Require Import Base RcvModel RcvSpec RcvProofs.
Import ListNotations.
Open Scope string_scope.
Open Scope list_scope.
Open Scope Z_scope.

(** ** C177: starting and receiving *)
Section Calls.
Variables (W S A V : Type) (reset : W -> res S * W) (execute : A -> W -> res (S * value * value) * W) (vexecute : A -> W -> res V * W).
Variables (vectorizable : bool) (check : S -> res unit) (vcheck : V -> res unit).
Local Notation step := (step W S A V reset execute vexecute vectorizable check vcheck).
Local Notation run := (run W S A V reset execute vexecute vectorizable check vcheck).
Local Notation direct := (direct W S A V reset execute check true true).

(** Two calls for each request have the effect of direct use *)
Theorem C177_direct w q os w' : direct w q os w' ->
  fst (run (flat_map both q) (init W A w)) = replies os /\ world W A (snd (run (flat_map both q) (init W A w))) = w'.
Proof. intros D. apply direct_run with (vexecute := vexecute) (vectorizable := vectorizable) (vcheck := vcheck) in D. destruct D as (r & e & E). unfold idle in E. unfold init. rewrite E. auto. Qed.

(** Without errors, only that *)
Theorem C177_only w q : (forall o, In o (fst (run (flat_map both q) (init W A w))) -> exists x, o = Ok x) ->
  exists os w', direct w q os w' /\ fst (run (flat_map both q) (init W A w)) = replies os.
Proof.
  intros F. destruct (run (flat_map both q) (init W A w)) as (os, s) eqn:R. cbn [fst] in *. exact (run_direct W S A V _ _ _ _ _ _ q true true w os s R F).
Qed.

(** Whatever is called, and whatever fails: exactly one start is waited for until a call of receive *)
Theorem C177_pending w cs : expect W A (snd (run cs (init W A w))) = pending None cs.
Proof. apply expect_run. Qed.
(** A second start, and a call of receive without a start, fail and change nothing *)
Theorem C177_order w cs : let s := snd (run cs (init W A w)) in
  (pending None cs <> None -> (forall n, step (StartReset A n) s = (Err "unexpected", s)) /\ (forall a, step (StartExecute A a) s = (Err "unexpected", s))) /\
  (pending None cs = None -> step (Receive A) s = (Err "unexpected", s)).
Proof.
  cbn zeta. rewrite <- (C177_pending w cs). set (s := snd (run cs (init W A w))). clearbody s. split.
  - intros N. cbn. unfold start_reset, start_execute. destruct (expect W A s); [auto|congruence].
  - intros N. cbn. unfold receive. rewrite N. auto.
Qed.

(** After an exception in execute, the next start fails, too, and then the old action is executed, not the new one; a reset does not help *)
Theorem C177_failed_refuted w w' a b e : execute a w = (Err e, w') ->
  (exists o, fst (run [StartExecute A a; Receive A; StartExecute A b; Receive A] (init W A w)) = [Ok (Nothing S V); Err e; Err "AssertionError"; o]) /\
  world W A (snd (run [StartExecute A a; Receive A; StartExecute A b; Receive A] (init W A w))) = snd (execute a w') /\
  (exists o, fst (run [StartExecute A a; Receive A; StartReset A None; Receive A; StartExecute A b] (init W A w)) =
     [Ok (Nothing S V); Err e; Ok (Nothing S V); o; Err "AssertionError"]).
Proof.
  intros E. split; [|split]; cbn; unfold receive_actions; cbn; rewrite E; cbn; unfold receive; cbn.
  - unfold receive_actions; cbn. destruct (execute a w') as ([((x & t) & y)|er] & w2); cbn; [|eexists; reflexivity].
    destruct (first_output S check x t y) as [(t', y')|]; eexists; reflexivity.
  - unfold receive_actions; cbn. destruct (execute a w') as ([((x & t) & y)|er] & w2); [|reflexivity]. cbn.
    destruct (first_output S check x t y) as [(t', y')|]; reflexivity.
  - unfold receive_reset; cbn. destruct (reset w') as ([x|er] & w2); cbn; [destruct (check x); cbn|]; eexists; reflexivity.
Qed.

(** With num_parallel the reset can be started, but never received *)
Theorem C177_vectorized_refuted w cs n : vectorizable = true -> pending None cs = None ->
  exists os, fst (run (cs ++ [StartReset A (Some n); Receive A]) (init W A w)) = os ++ [Ok (Nothing S V); Err "NameError"].
Proof.
  intros Ve P. rewrite run_app. cbn [fst]. exists (fst (run cs (init W A w))). f_equal. rewrite <- (C177_pending w cs) in P.
  set (s := snd (run cs (init W A w))) in *. clearbody s. cbn. unfold start_reset. rewrite P, Ve. cbn. reflexivity.
Qed.

(** ** C178: checks of first outputs *)
(** The first output of execute *)
Theorem C178_first w a x t y w' : execute a w = (Ok (x, t, y), w') ->
  ((forall o, In o (fst (run [StartExecute A a; Receive A] (init W A w))) -> exists z, o = Ok z) <->
   check x = Ok tt /\ exists t' y' n, plain t t' /\ terminal_value t' n /\ plain y y' /\ reward_value y').
Proof.
  intros E. split.
  - intros F. destruct (C177_only w [Execute a]) as (os & w2 & D & _). { exact F. }
    inversion D; subst. match goal with H : execute a w = _ |- _ => rewrite E in H; injection H as <- <- <- <- end. split; auto.
    match goal with H1 : plain t ?u, H2 : plain y ?v, H3 : terminal_value ?u ?n |- _ => exists u, v, n end. auto.
  - intros (C & t' & y' & n & Pt & Tn & Py & Ry) o I. assert (D : direct w [Execute a] [Received S V x n (Some y')] w').
    { eapply direct_first; eauto. constructor. }
    apply C177_direct in D. destruct D as (D & _). cbn [flat_map both app] in D. rewrite D in I. cbn in I. destruct I as [<-|[<-|[]]]; eauto.
Qed.
End Calls.
Print Assumptions C177_direct.
Print Assumptions C177_only.
Print Assumptions C177_pending.
Print Assumptions C177_order.
Print Assumptions C177_failed_refuted.
Print Assumptions C177_vectorized_refuted.
Print Assumptions C178_first.

(** A counter; action 0 raises, the terminal is the action *)
Definition counter_reset (w : Z) : res Z * Z := (Ok 0, 0).
Definition counter_execute (a : Z) (w : Z) : res (Z * value * value) * Z :=
  if a =? 0 then (Err "ValueError", w) else (Ok (w + a, PNumpy [PInt (a - 1)], PFloat 1), w + a).
Definition counter_vector (a : Z) (w : Z) : res Z * Z := (Ok w, w).
Definition counter := run Z Z Z Z counter_reset counter_execute counter_vector true (fun _ => Ok tt) (fun _ => Ok tt).

Example C177_case : fst (counter (flat_map both [Reset; Execute 2; Execute 1]) (init Z Z 9)) =
  replies [Received Z Z 0 (-1) None; Received Z Z 2 1 (Some (PFloat 1)); Received Z Z 3 0 (Some (PFloat 1))].
Proof. vm_compute. reflexivity. Qed.
Example C177_pending_case : pending None [StartReset Z None; StartExecute Z 1] = Some Resetting /\ pending None [StartReset Z None; Receive Z] = None.
Proof. split; reflexivity. Qed.
Example C177_failed_case : fst (counter [StartExecute Z 0; Receive Z; StartExecute Z 2; Receive Z] (init Z Z 5)) =
  [Ok (Nothing Z Z); Err "ValueError"; Err "AssertionError"; Err "ValueError"].
Proof. vm_compute. reflexivity. Qed.
Example C177_vectorized_case : fst (counter [StartReset Z (Some 4); Receive Z] (init Z Z 5)) = [Ok (Nothing Z Z); Err "NameError"].
Proof. vm_compute. reflexivity. Qed.
Example C178_first_case : (exists t' n, plain (PNumpy [PInt 2]) t' /\ terminal_value t' n) /\ reward_value (PFloat (1 # 2)) /\
  fst (counter [StartExecute Z 9; Receive Z] (init Z Z 5)) = [Ok (Nothing Z Z); Err "invalid value for terminal"].
Proof. split; [exists (PInt 2), 2; split; constructor; cbn; auto|]. split; [constructor|]. vm_compute. reflexivity. Qed.

(** Only the first output is checked: later every integer is returned as terminal (here all but -1, by the choice of the action) *)
Theorem C178_later_refuted : forall n, n <> -1 -> exists q os x y, fst (counter (flat_map both q) (init Z Z 0)) = replies (os ++ [Received Z Z x n (Some y)]).
Proof.
  intros n N. exists [Reset; Execute 1; Execute (n + 1)], [Received Z Z 0 (-1) None; Received Z Z 1 0 (Some (PFloat 1))], (1 + (n + 1)), (PFloat 1).
  apply C177_direct with (w' := 1 + (n + 1)). cbn [app]. eapply direct_reset; [reflexivity|auto|].
  eapply direct_first; [reflexivity|reflexivity|apply plain_numpy|apply (terminal_int 0); cbn; auto|constructor|constructor|].
  eapply direct_later with (t := PNumpy [PInt (n + 1 - 1)]); [|cbn [int]; f_equal; lia|constructor].
  unfold counter_execute. replace (n + 1 =? 0) with false by (symmetry; apply Z.eqb_neq; lia). reflexivity.
Qed.
Print Assumptions C178_later_refuted.

(** One state: a value which fits, or a dictionary with 'state' and masks *)
Theorem C178_single : forall V (f : fits V) b x, (forall l, x = Named l -> NoDup (map fst l)) -> (check_states V (Single f) b x = Ok tt <-> one_state f b x).
Proof. intros. apply single_iff; auto. Qed.
Print Assumptions C178_single.
Example C178_single_case : one_state (fun _ (v : Z) => v =? 1) false (Named [("action_mask", 0); ("state", 1)]).
Proof.
  apply one_named with 1; auto; cbn; auto.
  - repeat (constructor; [cbn; intuition discriminate|]). constructor.
  - intros k x [[= <- <-]|[[= <- <-]|[]]]; [right; exists "action"|]; auto.
Qed.

(** Several states: a fitting value for each, and else only masks *)
Theorem C178_several : forall V (specs : list (string * fits V)) b l, NoDup (map fst specs) -> NoDup (map fst l) ->
  (check_states V (Several specs) b (Named l) = Ok tt <-> all_states specs l).
Proof. intros. apply several_iff; auto. Qed.
Print Assumptions C178_several.
Example C178_several_case : check_states Z (Several [("a", fun _ v => v =? 1); ("b", fun _ v => v =? 2)]) false (Named [("b", 2); ("x_mask", 5); ("a", 1)]) = Ok tt /\
  check_states Z (Several [("a", fun _ v => v =? 1)]) false (Named [("b", 2); ("a", 1)]) = Err "invalid component" /\
  check_states Z (Several [("a", fun _ v => v =? 1); ("b", fun _ v => v =? 2)]) false (Named [("a", 1)]) = Err "AssertionError".
Proof. repeat split. Qed.

(** With several states, batches of valid states are rejected unless they are valid alone *)
Theorem C178_batched_refuted : forall V (specs : list (string * fits V)) l k f v, NoDup (map fst specs) -> NoDup (map fst l) ->
  In (k, f) specs -> In (k, v) l -> f true v = true -> f false v = false -> exists e, check_states V (Several specs) true (Named l) = Err e.
Proof.
  intros V specs l k f v N1 N2 I J _ F. destruct (check_states V (Several specs) true (Named l)) as [[]|e] eqn:E; [|eauto]. apply several_iff in E; auto.
  destruct E as (H & _). destruct (H k f I) as (v' & J' & F'). assert (v' = v) as -> by (apply lookup_iff in J; auto; apply lookup_iff in J'; auto; congruence). congruence.
Qed.
Print Assumptions C178_batched_refuted.
(** An example: scalars, as lists; a batch has more entries *)
Example C178_batched_case : let scalar := fun (b : bool) (v : list Z) => if b then true else Nat.eqb (length v) 1 in
  check_states (list Z) (Single scalar) true (One [1; 2; 3]) = Ok tt /\ check_states (list Z) (Several [("a", scalar)]) true (Named [("a", [1; 2; 3])]) = Err "invalid state".
Proof. split; reflexivity. Qed.
