(** Late horizon completion: adding the horizon values when a batch is retrieved
    for an update (/repo/tensorforce/core/models/tensorforce.py).

    Simplification: the branch baseline.max_past_horizon(on_policy=False) == 0
    (lines 2712-2739), so the predicted value depends on one timestep, [bval x].
    A memory entry is (timestep values x, stored reward) with its terminal flag. *)

From Coq Require Import String List ZArith Lia Bool.
From Verif Require Import Base Field MemModel RetModel.
Import ListNotations.
Open Scope Z_scope.

Section Late.
Variable K : field.
Variable X : Type.
Variable bval : X -> K.

(** tensorforce.py 2688-2817, _complete_horizon_values; the reward horizon is
    rc_horizon ("late" is not allowed together with horizon="episode"). *)
Definition complete_horizon_values (c : rconf K) (s : qstate (X * K)) (indices : list Z)
    (reward : list K) : res (list K) :=
  match rc_horizon K c with
  | None => Err "horizon is episode"
  | Some h =>
      (* 2727-2738 *)
      do r <- queue_successors s indices h;
      let '(_, lengths, _, finals) := r in
      let offsets := map (fun n => n - 1) lengths in
      let horizon_values := map (fun e => bval (fst (fst e))) finals in
      let terminal := map snd finals in
      (* 2806-2815 *)
      let discounts := map (fun o => fpow (rc_discount K c) (Z.to_nat o)) offsets in
      do discounts <-
        (if rc_predterm K c then Ok discounts
         else vec2 (fun d t => if t =? 1 then 0%F else d) discounts terminal);
      (* 2817 *)
      do dv <- vec2 fmul discounts horizon_values;
      vec2 fadd reward dv
  end.

End Late.
