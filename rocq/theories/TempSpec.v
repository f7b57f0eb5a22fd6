(** What a recurrent layer is supposed to compute, independently of the code. *)
From Coq Require Import List ZArith.
Import ListNotations.

Section Spec.
Context {X Y S : Type}.
(** A recurrent cell: input and state give output and next state. *)
Variable cell : X -> S -> Y * S.

(** The state after reading the inputs [xs] one by one, starting from [s]. *)
Definition state_after (s : S) (xs : list X) : S := fold_left (fun s x => snd (cell x s)) xs s.

(** The output for the input [cur] read after the inputs [hist]. *)
Definition output_after (s : S) (hist : list X) (cur : X) : Y := fst (cell cur (state_after s hist)).

(** A sequence: the inputs before, and the input the output is wanted for. *)
Definition sequence : Type := (list X * X)%type.
Definition inputs (q : sequence) : list X := fst q ++ [snd q].
Definition seq_length (q : sequence) : nat := Datatypes.S (length (fst q)).

(** A batch of sequences is passed to a layer as one list of inputs and, per
    sequence, the position of its first input and its length. *)
Definition flat (qs : list sequence) : list X := concat (map inputs qs).
Fixpoint places_from (a : Z) (qs : list sequence) : list (Z * Z) :=
  match qs with
  | [] => []
  | q :: r => (a, Z.of_nat (seq_length q)) :: places_from (a + Z.of_nat (seq_length q))%Z r
  end.
Definition places (qs : list sequence) : list (Z * Z) := places_from 0 qs.

(** The length of the longest sequence. *)
Definition longest (qs : list sequence) : nat := fold_right Nat.max 0%nat (map seq_length qs).

(** The sequence restricted to the last [n] inputs before the current one. *)
Definition restrict (n : nat) (q : sequence) : sequence :=
  (skipn (length (fst q) - n) (fst q), snd q).
End Spec.
