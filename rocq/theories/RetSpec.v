(** What the reward estimation is supposed to compute, independently of how.

    [r] are the rewards of an episode of length T, [V] the baseline's value
    prediction for the state at each timestep. *)

From Coq Require Import List ZArith Bool.
From Verif Require Import Field.
Import ListNotations.

Section RetSpec.
Variable K : field.
Local Open Scope F_scope.

(** n-step return from timestep t: the next n rewards (as far as the episode
    goes), plus the value of the state n steps ahead if that is still inside the
    episode. *)
Definition nstep (g : K) (r V : nat -> K) (T n t : nat) : K :=
  sumn n (fun k => if (t + k <? T)%nat then fpow g k * r (t + k)%nat else 0)
  + (if (t + n <? T)%nat then fpow g n * V (t + n)%nat else 0).

(** Lambda-weighted combination of the n-step returns up to horizon h:
    (1-l) sum_{n=1}^{h-1} l^{n-1} G^(n) + l^{h-1} G^(h). *)
Definition lambda_return (g l : K) (r V : nat -> K) (T h t : nat) : K :=
  (1 - l) * sumn (h - 1) (fun n => fpow l n * nstep g r V T (S n) t)
  + fpow l (h - 1) * nstep g r V T h t.

(** The rewards, with the last one replaced by v. *)
Definition with_last (r : nat -> K) (T : nat) (v : K) (t : nat) : K :=
  if (t =? T - 1)%nat then v else r t.

(** Lists as functions of the position. *)
Definition at_ (l : list K) (t : nat) : K := nth t l 0.
Definition value_at {X} (bval : X -> K) (xs : list X) (t : nat) : K :=
  match nth_error xs t with Some x => bval x | None => 0 end.

(** [tabulate n f] = [f 0; ...; f (n-1)] *)
Definition tabulate {A} (n : nat) (f : nat -> A) : list A := map f (seq 0 n).

(** Generalized advantage estimation of one fragment: sum_k (g l)^k delta_{t+k}. *)
Definition gae (c : K) (delta : list K) : list K :=
  tabulate (length delta)
    (fun t => sumn (length delta - t) (fun k => fpow c k * at_ delta (t + k))).

End RetSpec.
Arguments nstep {K}. Arguments lambda_return {K}. Arguments with_last {K}.
Arguments at_ {K}. Arguments value_at {K X}. Arguments gae {K}.
