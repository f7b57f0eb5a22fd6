(** Independent specification of the experience memory: an append-only log of
    timesteps.  Nothing here refers to the model of the code. *)

From Coq Require Import List ZArith Lia Bool.
Import ListNotations.
Open Scope Z_scope.

(** One timestep: its values and its terminal flag (0 = episode goes on,
    1 = terminal, 2 = aborted); a log is a list of timesteps. *)
Notation entry A := (A * Z)%type (only parsing).
Notation log A := (list (A * Z)%type) (only parsing).

Section Spec.
Context {A : Type}.

Definition ends (e : entry A) : bool := negb (snd e =? 0).

(** What a caller does with the memory: store a batch, or reset. *)
Inductive call : Type :=
| Store (batch : list (entry A))
| Reset.

(** A reset closes the unfinished episode: the newest timestep, if its flag is
    0, is from then on an aborted one (2). *)
Definition close (l : log A) : log A :=
  match rev l with
  | [] => []
  | (a, t) :: r => rev r ++ [(a, if t =? 0 then 2 else t)]
  end.

Definition append_call (l : log A) (c : call) : log A :=
  match c with
  | Store b => l ++ b
  | Reset => close l
  end.

Definition log_of (cs : list call) : log A := fold_left append_call cs [].

(** A batch a memory of capacity [cap] has to accept: not empty, fits,
    and only its last timestep may end an episode. *)
Definition legal_batch (cap : Z) (b : list (entry A)) : Prop :=
  exists pre x, b = pre ++ [x] /\
    Forall (fun e => snd e = 0) pre /\ 0 <= snd x <= 2 /\
    Z.of_nat (length b) <= cap.

Definition legal_call (cap : Z) (c : call) : Prop :=
  match c with Store b => legal_batch cap b | Reset => True end.

(** Flags of a batch are at all terminal flags (0, 1 or 2). *)
Definition flags_ok (c : call) : Prop :=
  match c with Store b => Forall (fun e => 0 <= snd e <= 2) b | Reset => True end.

(** Split a log into its complete episodes and the unfinished rest. *)
Fixpoint episodes_from (cur : log A) (l : log A) : list (log A) * log A :=
  match l with
  | [] => ([], cur)
  | e :: r =>
      if ends e
      then let '(eps, rest) := episodes_from [] r in ((cur ++ [e]) :: eps, rest)
      else episodes_from (cur ++ [e]) r
  end.
Definition complete_episodes (l : log A) : list (log A) := fst (episodes_from [] l).
Definition open_rest (l : log A) : log A := snd (episodes_from [] l).

(** The last [k] elements of a list. *)
Definition lastn {B} (k : nat) (l : list B) : list B := skipn (length l - k) l.

(** How the log reads back from a memory: the newest timestep, if its episode
    is unfinished, carries the 'open' marker 3 instead of 0. *)
Definition view (l : log A) : log A :=
  match rev l with
  | [] => []
  | (a, t) :: r => rev r ++ [(a, if t =? 0 then 3 else t)]
  end.

(** [n] consecutive elements starting at position [a]. *)
Definition segment {B} (a n : nat) (l : list B) : list B := firstn n (skipn a l).

(** Timestep number [i] of the log is still retained by a memory of capacity [cap]. *)
Definition retained (cap : Z) (l : log A) (i : nat) : Prop :=
  (i < length l)%nat /\ Z.of_nat (length l) - cap <= Z.of_nat i.

(** The run of timesteps [i-L+1 .. i] is the longest one ending at [i] that has
    at most [h] predecessors, stays in the episode and stays retained. *)
Definition longest_back (cap : Z) (l : log A) (h : nat) (i : nat) (L : nat) : Prop :=
  (1 <= L <= S h)%nat /\ (L <= S i)%nat /\
  (forall p, (i + 1 - L <= p <= i)%nat -> retained cap l p) /\
  (forall p e, (i + 1 - L <= p)%nat -> (p < i)%nat -> nth_error l p = Some e -> ends e = false) /\
  (L = S h \/
   (L = S i)%nat \/
   ~ retained cap l (i - L) \/
   exists e, nth_error l (i - L) = Some e /\ ends e = true).

(** The run [i .. i+L-1] is the longest one starting at [i] that has at most
    [h] successors, stays in the episode and ends no later than the newest
    timestep. *)
Definition longest_forward (l : log A) (h : nat) (i : nat) (L : nat) : Prop :=
  (1 <= L <= S h)%nat /\ (i + L <= length l)%nat /\
  (forall p e, (i <= p)%nat -> (p + 1 < i + L)%nat -> nth_error l p = Some e -> ends e = false) /\
  (L = S h \/
   (i + L = length l)%nat \/
   exists e, nth_error l (i + L - 1) = Some e /\ ends e = true).

End Spec.

Arguments call : clear implicits.
Arguments Store {A} batch.
Arguments Reset {A}.
