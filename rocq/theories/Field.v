(** Exact arithmetic for the parts of the code that compute with floats: an
    arbitrary field.  Theorems stated for every [field] hold in particular for
    the rationals and the reals; floating point rounding is not modelled. *)

From Coq Require Import List ZArith Lia Field QArith Qcanon.
Import ListNotations.

Record field := {
  car :> Type;
  f0 : car;
  f1 : car;
  fadd : car -> car -> car;
  fmul : car -> car -> car;
  fsub : car -> car -> car;
  fopp : car -> car;
  fdiv : car -> car -> car;
  finv : car -> car;
  fth : field_theory f0 f1 fadd fmul fsub fopp fdiv finv (@eq car)
}.
Arguments f0 {f}. Arguments f1 {f}. Arguments fadd {f}. Arguments fmul {f}.
Arguments fsub {f}. Arguments fopp {f}. Arguments fdiv {f}. Arguments finv {f}.

Declare Scope F_scope.
Delimit Scope F_scope with F.
Bind Scope F_scope with car.
Notation "0" := f0 : F_scope.
Notation "1" := f1 : F_scope.
Infix "+" := fadd : F_scope.
Infix "*" := fmul : F_scope.
Infix "-" := fsub : F_scope.
Infix "/" := fdiv : F_scope.
Notation "- x" := (fopp x) : F_scope.

Fixpoint fpow {K : field} (x : K) (n : nat) : K :=
  match n with O => 1%F | S m => (x * fpow x m)%F end.

(** sum of f 0, ..., f (n-1) *)
Fixpoint sumn {K : field} (n : nat) (f : nat -> K) : K :=
  match n with O => 0%F | S m => (sumn m f + f m)%F end.

Definition fsum {K : field} (l : list K) : K := fold_right fadd 0%F l.

(** The rationals, used in the examples. *)
Definition Qc_field : field :=
  {| car := Qc; f0 := 0%Qc; f1 := 1%Qc; fadd := Qcplus; fmul := Qcmult; fsub := Qcminus;
     fopp := Qcopp; fdiv := Qcdiv; finv := Qcinv; fth := Qcft |}.

Section Facts.
Variable K : field.
Add Field K_field : (fth K).
Local Open Scope F_scope.

Lemma sumn_ext n (f g : nat -> K) : (forall k, (k < n)%nat -> f k = g k) -> sumn n f = sumn n g.
Proof.
  induction n as [|n IH]; intros H; [reflexivity|]. cbn [sumn].
  rewrite IH by (intros; apply H; lia). now rewrite H by lia.
Qed.

Lemma sumn_mul n (f : nat -> K) c : sumn n (fun k => c * f k) = c * sumn n f.
Proof. induction n as [|n IH]; cbn [sumn]; [ring|]. rewrite IH. ring. Qed.

Lemma sumn_add n (f g : nat -> K) : sumn n (fun k => f k + g k) = sumn n f + sumn n g.
Proof. induction n as [|n IH]; cbn [sumn]; [ring|]. rewrite IH. ring. Qed.

Lemma sumn_S n (f : nat -> K) : sumn (S n) f = f O + sumn n (fun k => f (S k)).
Proof.
  induction n as [|n IH]; [cbn [sumn]; ring|].
  change (sumn (S (S n)) f) with (sumn (S n) f + f (S n)). rewrite IH. cbn [sumn]. ring.
Qed.

Lemma sumn_zero n (f : nat -> K) : (forall k, (k < n)%nat -> f k = 0) -> sumn n f = 0.
Proof.
  induction n as [|n IH]; intros H; [reflexivity|]. cbn [sumn].
  rewrite IH by (intros; apply H; lia). rewrite H by lia. ring.
Qed.

Lemma sumn_app m n (f : nat -> K) : sumn (m + n) f = sumn m f + sumn n (fun k => f (m + k)%nat).
Proof.
  induction n as [|n IH]; [rewrite Nat.add_0_r; cbn [sumn]; ring|].
  rewrite Nat.add_succ_r. cbn [sumn]. rewrite IH. ring.
Qed.

Lemma fpow_add (x : K) m n : fpow x (m + n) = fpow x m * fpow x n.
Proof. induction m as [|m IH]; cbn [fpow Nat.add]; [ring|]. rewrite IH. ring. Qed.

Lemma fpow_mul (x y : K) n : fpow (x * y) n = fpow x n * fpow y n.
Proof. induction n as [|n IH]; cbn [fpow]; [ring|]. rewrite IH. ring. Qed.

Lemma fpow_1 n : fpow (1 : K) n = 1.
Proof. induction n as [|n IH]; cbn [fpow]; [reflexivity|]. rewrite IH. ring. Qed.

Lemma fsum_app (a b : list K) : fsum (a ++ b) = fsum a + fsum b.
Proof.
  unfold fsum. induction a as [|x a IH]; cbn [fold_right app]; [ring|]. rewrite IH. ring.
Qed.

End Facts.
