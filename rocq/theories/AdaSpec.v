(** What is expected of the adapters of simulators: independent of their code. *)

From Coq Require Import String List ZArith QArith Bool Arith.
From Verif Require Import Base AdaModel.
Import ListNotations.
Open Scope string_scope.
Open Scope list_scope.
Open Scope Z_scope.

(** ** Games *)
(** A game which is played from a state: the actions, rewards and states *)
Inductive played {G A : Type} (act : A -> G -> Q * G) : G -> list A -> list Q -> list G -> Prop :=
| played_nil g : played act g [] [] []
| played_cons g a r g' l rs gs : act a g = (r, g') -> played act g' l rs gs -> played act g (a :: l) (r :: rs) (g' :: gs).
(** The actions [l] are those with the numbers [is] *)
Inductive numbered {A : Type} (legal : list A) : list Z -> list A -> Prop :=
| numbered_nil : numbered legal [] []
| numbered_cons i a is l : 0 <= i -> nth_error legal (Z.to_nat i) = Some a -> numbered legal is l -> numbered legal (i :: is) (a :: l).

(** The number of lives of the state [i] is smaller than that of all states since the reset *)
Definition new_low {G : Type} (lives : G -> Z) (states : list G) (i : nat) : Prop :=
  exists g, nth_error states i = Some g /\ forall j h, (j < i)%nat -> nth_error states j = Some h -> lives g < lives h.
(** Lives are never won *)
Definition no_bonus {G : Type} (lives : G -> Z) (states : list G) : Prop :=
  forall i g h, nth_error states i = Some g -> nth_error states (S i) = Some h -> lives h <= lives g.

Fixpoint total (l : list Q) : Q := match l with [] => 0%Q | x :: q => (x + total q)%Q end.

(** ** Buttons *)
Definition bit (x : Z) : Prop := x = 0 \/ x = 1.
(** The number which is written with these digits *)
Fixpoint binary (l : list Z) : Z := match l with [] => 0 | x :: q => x * 2 ^ Z.of_nat (length q) + binary q end.

(** ** Frames *)
(** [n] frames and their rewards *)
Inductive frames {G : Type} (advance : list Z -> G -> Q * G) (b : list Z) : nat -> G -> Q -> G -> Prop :=
| frames_none g : frames advance b 0 g 0%Q g
| frames_more n g r g' q g'' : advance b g = (r, g') -> frames advance b n g' q g'' -> frames advance b (S n) g (r + q)%Q g''.

(** The number of the last state up to [i] which is not finished *)
Definition last_running {G : Type} (finished : G -> bool) (states : list G) (i k : nat) : Prop :=
  (k <= i)%nat /\ (exists g, nth_error states k = Some g /\ (k = 0%nat \/ finished g = false)) /\
  forall j g, (k < j <= i)%nat -> nth_error states j = Some g -> finished g = true.

(** ** Collisions *)
Definition weight (actor : string) (impulse : Q) : Q :=
  (if contains "vehicle" actor && negb (contains "pedestrian" actor) then 500 * impulse else 1000 * impulse)%Q.
Definition excess (speed limit : Q) : Q := (if Qle_bool speed limit then 0 else speed - limit)%Q.
(** Penalties which are counted: those of the collisions before the call *)
Fixpoint penalties (l : list event) : Q :=
  match l with [] => 0%Q | Collision a i :: q => (weight a i + penalties q)%Q | _ :: q => penalties q end.
Definition collision (e : event) : Prop := match e with Collision _ _ => True | _ => False end.
