(** Specification of what the agents of a process do to each other, by the events so far and their
    outcomes only. *)
From Coq Require Import String List Arith Bool.
From Verif Require Import Base GloModel.
Import ListNotations.
Open Scope list_scope.
Open Scope nat_scope.

Definition history := list (event * outcome).
(** No call in it raises. *)
Inductive quiet : call -> Prop :=
| quiet_call m cs : (forall c, In c cs -> quiet c) -> quiet (Call m cs false).
(** The agent which was constructed last, if no agent has been closed since. *)
Inductive current : history -> nat -> Prop :=
| current_intro p a o q : (forall b x, ~ In (Construct b, x) q) -> (forall b ls, ~ In (Close b, Done ls) q) -> current (p ++ (Construct a, o) :: q) a.
(** There is no such agent. *)
Definition nobody (h : history) : Prop := forall a, ~ current h a.
(** The agent has been initialized and not closed. *)
Definition ready (h : history) (a : nat) : Prop := (exists ls, In (Initialize a, Done ls) h) /\ forall ls, ~ In (Close a, Done ls) h.
(** The agent has been constructed and nobody tried to initialize it or closed it. *)
Definition waiting (h : history) (a : nat) : Prop :=
  (exists ls, In (Construct a, Done ls) h) /\ (forall o, ~ In (Initialize a, o) h) /\ forall ls, ~ In (Close a, Done ls) h.
(** The agent has been constructed and not closed. *)
Definition living (h : history) (a : nat) : Prop := (exists ls, In (Construct a, Done ls) h) /\ forall ls, ~ In (Close a, Done ls) h.
(** The graph has been built. *)
Definition built (h : history) (a : nat) (g : bool) (ls : list layer) : Prop := exists cs, In (Use a (Some g) cs, Done ls) h.
(** The agent an event is about. *)
Definition about (e : event) : nat := match e with Construct a | Initialize a | Use a _ _ | Describe a | Close a => a end.
(** Each agent is constructed once and used only afterwards. *)
Inductive proper : list event -> Prop :=
| proper_nil : proper []
| proper_construct es a : proper es -> ~ In (Construct a) es -> proper (es ++ [Construct a])
| proper_other es e : proper es -> In (Construct (about e)) es -> (forall a, e <> Construct a) -> proper (es ++ [e]).
