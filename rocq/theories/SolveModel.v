(** Model of the iterative solvers: /repo/tensorforce/core/optimizers/solvers/iterative.py 46-75,
    line_search.py 108-209, conjugate_gradient.py 129-253.

    Floats are real numbers.  The function fn_x handed to a solver, and the parameters it reads
    (parameter.value()), may have side effects and may give other values at every call: they are
    state transformers over an arbitrary state.  Left out: the debugging assertion of
    line_search.py 198-203 (config.create_debug_assertions) and the handling of sparse
    (IndexedSlices) gradients. *)

From Coq Require Import List ZArith Reals Bool.
From Verif Require Import OptVec ParModel.
Import ListNotations.
Open Scope R_scope.

(** tf.while_loop with maximum_iterations (iterative.py 68-71): the condition is checked before
    every iteration, at most [n] iterations are run. *)
Fixpoint while_loop {A} (n : nat) (cond : A -> bool) (body : A -> A) (a : A) : A :=
  match n with
  | O => a
  | S m => if cond a then while_loop m cond body (body a) else a
  end.

(** util.epsilon (/repo/tensorforce/util.py 26) *)
Definition epsilon6 : R := / 1000000.

(** ** Line search *)
(** loop variables of LineSearch.step (line_search.py 132-133) *)
Record search := {
  s_x : vars;            (* x *)
  s_deltas : vars;       (* deltas *)
  s_improvement : R;     (* improvement *)
  s_last : R;            (* last_improvement *)
  s_base : R             (* base_value *)
}.

Section LineSearch.
Context {W : Type}.
(** self.fn_x(arguments, deltas) (line_search.py 127): evaluates with side effects *)
Variable fn_x : vars -> W -> R * W.
(** self.backtracking_factor.value() (122, 149), self.max_iterations.value() (iterative.py 65) *)
Variable factor : W -> R * W.
Variable max_iterations : W -> Z * W.

(** LineSearch.start, line_search.py 108-130 *)
Definition ls_start (x_init : vars) (base_value zero_value : R) (w : W) : search * W :=
  let '(b, w) := factor w in
  let deltas := vmap (fun t => t * (b - 1)) x_init in
  let last_improvement := base_value - zero_value in
  let '(target_value, w) := fn_x deltas w in
  let improvement := base_value - target_value in
  ({| s_x := x_init; s_deltas := deltas; s_improvement := improvement; s_last := last_improvement; s_base := base_value |}, w).

(** LineSearch.step, line_search.py 132-155 *)
Definition ls_step (a : search * W) : search * W :=
  let '(s, w) := a in
  let next_x := vadd (s_x s) (s_deltas s) in
  let '(b, w) := factor w in
  let next_deltas := vmap (fun t => t * b) (s_deltas s) in
  let '(target_value, w) := fn_x next_deltas w in
  let next_improvement := s_base s - target_value in
  ({| s_x := next_x; s_deltas := next_deltas; s_improvement := next_improvement; s_last := s_improvement s; s_base := s_base s |}, w).

(** LineSearch.next_step, line_search.py 157-173 *)
Definition ls_next (a : search * W) : bool := Rltb (s_last (fst a)) (s_improvement (fst a)).

(** LineSearch.end, line_search.py 175-209 *)
Definition ls_end (a : search * W) : vars * W :=
  let '(s, w) := a in
  if Rleb (s_last s) (s_improvement s) then (vadd (s_x s) (s_deltas s), w)
  else let '(_, w) := fn_x (vopp (s_deltas s)) w in (s_x s, w).

(** LineSearch.solve, line_search.py 89-106 and iterative.py 59-75 *)
Definition ls_solve (x_init : vars) (base_value zero_value : R) (w : W) : vars * W :=
  let '(s, w) := ls_start x_init base_value zero_value w in
  let '(n, w) := max_iterations w in
  ls_end (while_loop (Z.to_nat n) ls_next ls_step (s, w)).
End LineSearch.

(** ** Conjugate gradient *)
(** loop variables of ConjugateGradient.step (conjugate_gradient.py 163-164) *)
Record cg := {
  g_x : vars;            (* x *)
  g_conjugate : vars;    (* conjugate *)
  g_residual : vars;     (* residual *)
  g_squared : R          (* squared_residual *)
}.

Section ConjugateGradient.
Context {W : Type}.
(** self.fn_x(arguments, x) (conjugate_gradient.py 145, 180); it reads but does not assign the
    variables (natural_gradient.py 81-115) *)
Variable fn_x : vars -> vars.
(** self.damping.value() (183), self.max_iterations.value() (iterative.py 65) *)
Variable damping : W -> R * W.
Variable max_iterations : W -> Z * W.

(** ConjugateGradient.start, conjugate_gradient.py 129-161 *)
Definition cg_start (x_init b : vars) : cg :=
  let residual := vsub b (fn_x x_init) in
  {| g_x := x_init; g_conjugate := residual; g_residual := residual; g_squared := vdot residual residual |}.

(** ConjugateGradient.step, conjugate_gradient.py 163-234 *)
Definition cg_step (a : cg * W) : cg * W :=
  let '(g, w) := a in
  let A_conjugate := fn_x (g_conjugate g) in
  let '(d, w) := damping w in
  let A_conjugate := if Reqb d 0 then A_conjugate else vadd A_conjugate (vscale d (g_conjugate g)) in
  let cAc := vdot (g_conjugate g) A_conjugate in
  let cAc := if Rltb 0 cAc then cAc + epsilon6 else cAc - epsilon6 in
  let alpha := g_squared g / cAc in
  let next_x := vadd (g_x g) (vscale alpha (g_conjugate g)) in
  let next_residual := vsub (g_residual g) (vscale alpha A_conjugate) in
  let next_squared := vdot next_residual next_residual in
  let beta := next_squared / (g_squared g + epsilon6) in
  let next_conjugate := vadd next_residual (vscale beta (g_conjugate g)) in
  ({| g_x := next_x; g_conjugate := next_conjugate; g_residual := next_residual; g_squared := next_squared |}, w).

(** ConjugateGradient.next_step, conjugate_gradient.py 236-253 *)
Definition cg_next (a : cg * W) : bool := Rleb epsilon6 (g_squared (fst a)).

(** ConjugateGradient.solve, conjugate_gradient.py 113-127 and iterative.py 59-75, 119-131 *)
Definition cg_solve (x_init b : vars) (w : W) : vars * W :=
  let g := cg_start x_init b in
  let '(n, w) := max_iterations w in
  let '(g, w) := while_loop (Z.to_nat n) cg_next cg_step (g, w) in
  (g_x g, w).
End ConjugateGradient.
