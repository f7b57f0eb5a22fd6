(** Further properties of agents: C102 the agent argument of Agent.load, C103 false values. *)

From Coq Require Import String List ZArith Bool.
From Verif Require Import Base AgtModel AgtKindProps.
Import ListNotations.
Open Scope string_scope.
Open Scope list_scope.
Open Scope Z_scope.

Lemma put_same : forall k v (d : dict), get k d = Some v -> put k v d = d.
Proof.
  intros k v. induction d as [|[k' v'] d IH]; intros G; [discriminate|]. cbn [get put] in *. destruct (String.eqb k k') eqn:E.
  - apply String.eqb_eq in E. subst k'. injection G as ->. reflexivity.
  - rewrite (IH G). reflexivity.
Qed.
Lemma get_removed : forall k (d : dict), get k (remove k d) = None.
Proof.
  intros k. induction d as [|[k' v'] d IH]; [reflexivity|]. unfold remove in *. cbn [filter fst]. destruct (String.eqb k k') eqn:E; cbn [negb]; [exact IH|].
  cbn [get]. rewrite E. exact IH.
Qed.

(** Naming the stored agent again has no effect, the name is not passed on *)
Theorem C102_again : forall equal at_least e stored kw v, get "agent" stored = Some v -> get "agent" kw = Some v -> equal v v = true ->
  load_args equal at_least e (Some stored) kw = load_args equal at_least e (Some stored) (remove "agent" kw).
Proof.
  intros equal at_least e stored kw v G1 G2 E. unfold load_args. rewrite G2, G1, E. cbn [assert_ bind]. rewrite (put_same _ _ _ G1), get_removed. cbn [bind]. reflexivity.
Qed.
(** Naming another agent is an error *)
Theorem C102_other : forall files library equal at_least depth e stored kw v w, get "agent" stored = Some w -> get "agent" kw = Some v -> equal w v = false ->
  exists err, load files library equal at_least depth e (Some stored) kw = Err err.
Proof.
  intros files library equal at_least depth e stored kw v w G1 G2 E. unfold load, load_args. rewrite G2, G1, E. cbn. eauto.
Qed.
(** Without a baseline, and so without its optimizer, every false value is accepted for the prediction of terminal values *)
Theorem C103_false : forall c a, In c [PPO; TRPO; VPG] -> arg a "baseline" = None_ -> arg a "baseline_optimizer" = None_ ->
  false_value (arg a "predict_terminal_values") -> exists p, class_body c a = Ok p.
Proof.
  intros c a I B O F. assert (T : truthy (arg a "predict_terminal_values") = false).
  { destruct (arg a "predict_terminal_values") as [|[|]|[|p|p]|[|p|p] ?|[|]|[|]|[|]|]; cbn in F; try contradiction; reflexivity. }
  assert (P : forall o1 o2, exists p, episode_parts o1 o2 a = Ok p).
  { intros o1 o2. unfold episode_parts. rewrite B, O, T. cbn [is_none negb assert_ bind]. eauto. }
  destruct I as [<-|[<-|[<-|[]]]]; cbn [class_body]; unfold ppo_body, trpo_body, vpg_body; apply P.
Qed.
Print Assumptions C102_again.
Print Assumptions C102_other.
Print Assumptions C103_false.

Definition same (v w : value) : bool := match v, w with Str s, Str t => String.eqb s t | _, _ => false end.
Example C102_again_case : load_args same (fun _ _ => true) None (Some [("agent", Str "dqn"); ("memory", Int 5)]) [("agent", Str "dqn"); ("seed", Int 1)] =
  Ok ([("agent", Str "dqn"); ("memory", Int 5)], [("seed", Int 1)], false).
Proof. vm_compute. reflexivity. Qed.
Example C102_other_case : same (Str "dqn") (Str "ppo") = false.
Proof. reflexivity. Qed.
Example C103_false_case : false_value (Int 0) /\ ~ false_value (Int 1) /\
  exists p, class_body VPG [("baseline", None_); ("baseline_optimizer", None_); ("predict_terminal_values", Int 0)] = Ok p.
Proof. split; [exact I|]. split; [intros []|]. apply C103_false; [cbn; auto|reflexivity|reflexivity|exact I]. Qed.
