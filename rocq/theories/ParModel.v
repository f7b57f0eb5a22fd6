(** Model of the dynamic hyperparameters: /repo/tensorforce/core/parameters/decaying.py 124-411,
    linear.py, exponential.py, piecewise_constant.py 40-83, constant.py 35-76, random.py 51-104,
    ornstein_uhlenbeck.py 41-78, and the checks of parameter.py 36-144.

    Floats are real numbers.  The decay schedules themselves are TensorFlow's
    (tf.keras.optimizers.schedules, tf.keras.experimental); they are given here by the formulas of
    TensorFlow's documentation. *)

From Coq Require Import String List ZArith Reals Bool.
From Verif Require Import Base.
Import ListNotations.
Open Scope string_scope.
Open Scope R_scope.

(** <=, <, == on floats (decaying.py 210-218, 392-393) *)
Definition Rleb (x y : R) : bool := if Rle_dec x y then true else false.
(** decaying.py 400-402 *)
Definition Rltb (x y : R) : bool := if Rlt_dec x y then true else false.
(** parameter.py 86-91 *)
Definition Reqb (x y : R) : bool := if Req_EM_T x y then true else false.

(** ** TensorFlow *)
(** tf.math.pow(x, y) for x >= 0 *)
Definition tf_pow (x y : R) : R := if Req_EM_T y 0 then 1 else if Req_EM_T x 0 then 0 else Rpower x y.
(** tf.math.floor, tf.math.ceil (in the schedules of decaying.py 332-386) *)
Definition floor (x : R) : R := IZR (Int_part x).
(** in the schedules of decaying.py 379-386 *)
Definition ceil (x : R) : R := - floor (- x).
(** tf.cast to int, int(x): towards zero (decaying.py 226, 409) *)
Definition trunc (x : R) : R := if Rle_dec 0 x then floor x else ceil x.

(** tf.keras.experimental.CosineDecay (decaying.py 332-338) *)
Definition cosine_decay (initial steps alpha step : R) : R :=
  initial * ((1 - alpha) * (1 / 2 * (1 + cos (PI * (Rmin step steps / steps)))) + alpha).
(** tf.keras.experimental.CosineDecayRestarts (decaying.py 339-346) *)
Definition cosine_restarts (initial steps t_mul m_mul alpha step : R) : R :=
  let completed := step / steps in
  let i_restart := if Req_EM_T t_mul 1 then floor completed else floor (ln (1 - completed * (1 - t_mul)) / ln t_mul) in
  let sum_r := (1 - tf_pow t_mul i_restart) / (1 - t_mul) in
  let completed := if Req_EM_T t_mul 1 then completed - i_restart else (completed - sum_r) / tf_pow t_mul i_restart in
  let m_fac := tf_pow m_mul i_restart in
  initial * ((1 - alpha) * (1 / 2 * m_fac * (1 + cos (PI * completed))) + alpha).
(** tf.keras.optimizers.schedules.ExponentialDecay (decaying.py 347-353) *)
Definition exponential_decay (initial steps rate : R) (staircase : bool) (step : R) : R :=
  let p := step / steps in
  initial * tf_pow rate (if staircase then floor p else p).
(** tf.keras.optimizers.schedules.InverseTimeDecay (decaying.py 354-360) *)
Definition inverse_time_decay (initial steps rate : R) (staircase : bool) (step : R) : R :=
  let p := step / steps in
  initial / (1 + rate * (if staircase then floor p else p)).
(** tf.keras.experimental.LinearCosineDecay; with noise: NoisyLinearCosineDecay (decaying.py 361-378) *)
Definition linear_cosine_decay (initial steps periods alpha beta noise step : R) : R :=
  let recomp := Rmin step steps in
  let linear := (steps - recomp) / steps + noise in
  let cosine := 1 / 2 * (1 + cos (PI * (2 * periods * (recomp / steps)))) in
  initial * ((alpha + linear) * cosine + beta).
(** tf.keras.optimizers.schedules.PolynomialDecay (decaying.py 379-386) *)
Definition polynomial_decay (initial steps final power : R) (cycle : bool) (step : R) : R :=
  let p := if cycle then step / (steps * (if Req_EM_T step 0 then 1 else ceil (step / steps))) else Rmin step steps / steps in
  (initial - final) * tf_pow (1 - p) power + final.

(** ** Decaying *)
(** kwargs, with the defaults of the accesses in decaying.py (166-385) *)
Inductive decay :=
| Cosine (alpha : R)
| CosineRestarts (t_mul m_mul alpha : R)
| Exponential (rate : R) (staircase : bool)
| InverseTime (rate : R) (staircase : bool)
| LinearCosine (periods alpha beta : R)
| LinearCosineNoisy (periods alpha beta : R)
| Polynomial (final power : R) (cycle : bool).          (* linear: power 1, no cycle (149-151) *)

(** spec.type (parameter.py 36-69) *)
Inductive dtype := Float | Int.
(** spec.py_type()(value), tf_util.cast(x, spec.type) (decaying.py 226, 290, 409) *)
Definition cast (d : dtype) (x : R) : R := match d with Float => x | Int => trunc x end.

(** Decaying(...), decaying.py 124-163 *)
Record decaying := Decaying {
  d_decay : decay;
  d_num_steps : nat;
  d_initial : R;
  d_increasing : bool;
  d_inverse : bool;
  d_scale : R;
  d_dtype : dtype }.

(** util.py 26 *)
Definition epsilon : R := / 1000000.

(** decaying.py 166-208, the same in 230-272: bounds of the decayed value *)
Definition decay_bounds (x : decay) (initial : R) : res (R * R) :=
  match x with
  | Cosine alpha | CosineRestarts _ _ alpha =>
    do _ <- assert_ (Rleb 0 alpha && Rleb alpha 1) "assert";
    Ok (if Rle_dec 0 initial then (initial * alpha, initial) else (initial, initial * alpha))
  | Exponential rate _ | InverseTime rate _ =>
    do _ <- assert_ (Rleb 0 rate && Rleb rate 1) "assert";
    Ok (if Req_EM_T rate 1 then (initial, initial)
        else if Rle_dec 0 initial then (0, initial) else (initial, 0))
  | LinearCosine _ alpha beta | LinearCosineNoisy _ alpha beta =>
    do _ <- assert_ (Rleb 0 alpha && Rleb alpha 1) "assert";
    do _ <- assert_ (Rleb 0 beta && Rleb beta 1) "assert";
    Ok (if Rle_dec 0 initial then (initial * beta, initial * (1 + alpha + beta))
        else (initial * (1 + alpha + beta), initial * beta))
  | Polynomial final power _ =>
    Ok (if Req_EM_T power 0 then (initial, initial)
        else if Rle_dec final initial then (final, initial) else (initial, final))
  end.
(** 210-225, 274-289; [least]: the bound which the inverse's assertion asks for (epsilon <= min, 0 < min) *)
Definition all_bounds (least : R -> bool) (p : decaying) : res (R * R) :=
  do (lo, hi) <- decay_bounds (d_decay p) (d_initial p);
  do _ <- assert_ (Rleb lo hi) "assert";
  do (lo, hi) <- (if d_increasing p then
                     do _ <- assert_ (Rleb 0 lo && Rleb lo hi && Rleb hi 1) "assert"; Ok (1 - hi, 1 - lo)
                   else Ok (lo, hi));
  do (lo, hi) <- (if d_inverse p then
                     do _ <- assert_ (least lo && Rleb lo hi) "assert"; Ok (1 / hi, 1 / lo)
                   else Ok (lo, hi));
  Ok (if Req_EM_T (d_scale p) 1 then (lo, hi)
      else if Rle_dec 0 (d_scale p) then (d_scale p * lo, d_scale p * hi)
      else (d_scale p * hi, d_scale p * lo)).
(** decaying.py 165-226 *)
Definition min_value (p : decaying) : res R :=
  do (lo, _) <- all_bounds (Rleb epsilon) p; Ok (cast (d_dtype p) lo).
(** decaying.py 228-290 *)
Definition max_value (p : decaying) : res R :=
  do (_, hi) <- all_bounds (Rltb 0) p; Ok (cast (d_dtype p) hi).

(** 293-327 *)
Definition final_value (p : decaying) : res R :=
  do v <- match d_decay p with
          | Cosine _ | CosineRestarts _ _ _ => Err "KeyError: decay_rate"
          | Exponential rate _ | InverseTime rate _ =>
            do _ <- assert_ (Rleb 0 rate && Rleb rate 1) "assert"; Ok (if Req_EM_T rate 1 then d_initial p else 0)
          | LinearCosine _ alpha beta | LinearCosineNoisy _ alpha beta =>
            do _ <- assert_ (Rleb 0 alpha && Rleb alpha 1 && Rleb 0 beta && Rleb beta 1) "assert"; Ok (d_initial p * beta)
          | Polynomial final power _ => Ok (if Req_EM_T power 0 then d_initial p else final)
          end;
  do v <- (if d_increasing p then do _ <- assert_ (Rleb 0 v && Rleb v 1) "assert"; Ok (1 - v) else Ok v);
  do v <- (if d_inverse p then do _ <- assert_ (Rltb 0 v) "assert"; Ok (1 / v) else Ok v);
  Ok (cast (d_dtype p) (v * d_scale p)).

(** 329-411; [noise]: what NoisyLinearCosineDecay draws *)
Definition decayed (p : decaying) (noise step : R) : res R :=
  let initial := d_initial p in
  let steps := INR (d_num_steps p) + 1 in
  match d_decay p with
  | Cosine alpha =>
    do _ <- assert_ (Rleb 0 alpha && Rleb alpha 1) "assert"; Ok (cosine_decay initial steps alpha step)
  | CosineRestarts t_mul m_mul alpha =>
    do _ <- assert_ (Rleb 0 alpha && Rleb alpha 1) "assert"; Ok (cosine_restarts initial steps t_mul m_mul alpha step)
  | Exponential rate staircase =>
    do _ <- assert_ (Rleb 0 rate) "assert"; Ok (exponential_decay initial steps rate staircase step)
  | InverseTime rate staircase =>
    do _ <- assert_ (Rleb 0 rate) "assert"; Ok (inverse_time_decay initial steps rate staircase step)
  | LinearCosine periods alpha beta =>
    do _ <- assert_ (Rleb 0 beta) "assert"; Ok (linear_cosine_decay initial steps periods alpha beta 0 step)
  | LinearCosineNoisy periods alpha beta =>
    do _ <- assert_ (Rleb 0 beta) "assert"; Ok (linear_cosine_decay initial steps periods alpha beta noise step)
  | Polynomial final power cycle =>
    do _ <- assert_ (Rleb 0 power) "assert"; Ok (polynomial_decay initial steps final power cycle step)
  end.
(** decaying.py 329-411 *)
Definition parameter_value (p : decaying) (noise step : R) : res R :=
  do v <- decayed p noise step;
  do v <- (if d_increasing p then do _ <- assert_ (Rleb 0 v && Rleb v 1) "InvalidArgumentError"; Ok (1 - v) else Ok v);
  let v := if d_inverse p then 1 / (if Rlt_dec 0 v then v + epsilon else v - epsilon) else v in
  Ok (cast (d_dtype p) (v * d_scale p)).

(** ** Parameter *)
(** The bounds of the specification (parameter.py 44, internal use) *)
Record spec := Spec { s_min : option R; s_max : option R }.
(** parameter.py 46-67, for values of min_value() and max_value() *)
Definition check (s : spec) (lo hi : option R) : res unit :=
  do _ <- assert_ (match lo, hi with Some lo, Some hi => Rleb lo hi | _, _ => true end) "assert";
  do _ <- match s_min s, lo with
          | Some _, None => Err "lower bound"
          | Some m, Some lo => assert_ (negb (Rltb lo m)) "lower bound"
          | None, _ => Ok tt
          end;
  match s_max s, hi with
  | Some _, None => Err "upper bound"
  | Some m, Some hi => assert_ (negb (Rltb m hi)) "upper bound"
  | None, _ => Ok tt
  end.
(** 77-91: is_constant without a value *)
Definition is_constant (lo hi : res R) (final : res R) : res (option R) :=
  do lo <- lo; do hi <- hi;
  if Req_EM_T lo hi then do f <- final; do _ <- assert_ (Reqb f lo) "assert"; Ok (Some f) else Ok None.

(** decaying.py 124-163 with parameter.py 36-67: the arguments which are accepted *)
Definition create_decaying (p : decaying) (s : spec) : res unit :=
  do _ <- assert_ (Nat.ltb 0 (d_num_steps p)) "assert";
  do lo <- min_value p; do hi <- max_value p;
  check s (Some lo) (Some hi).
(** parameter.py 120-144: the value is checked against the specification (TensorSpec.tf_assert) *)
Definition value (s : spec) (v : res R) : res R :=
  do v <- v;
  do _ <- assert_ (match s_min s with Some m => Rleb m v | None => true end) "InvalidArgumentError";
  do _ <- assert_ (match s_max s with Some m => Rleb v m | None => true end) "InvalidArgumentError";
  Ok v.

(** ** Constant *)
(** constant.py 62-66 *)
Definition constant_bounds (v : R) : option R * option R := (Some v, Some v).

(** ** Random *)
(** random.py 51-77, float; the uniform draw u in [0, 1) is scaled by TensorFlow *)
Inductive random := Normal (mean stddev : R) | Uniform (minval maxval : R).
(** min_value, max_value, random.py 65-77 *)
Definition random_bounds (r : random) : option R * option R :=
  match r with Normal _ _ => (None, None) | Uniform lo hi => (Some lo, Some hi) end.
(** 91-104; [u]: the draw (normal: of the standard normal distribution) *)
Definition random_value (r : random) (u : R) : R :=
  match r with Normal mean stddev => mean + stddev * u | Uniform lo hi => lo + u * (hi - lo) end.

(** ** Ornstein-Uhlenbeck process *)
(** OrnsteinUhlenbeck(...), ornstein_uhlenbeck.py 41-50 *)
Record ornstein := Ornstein { o_theta : R; o_sigma : R; o_mu : R; o_absolute : bool }.
(** ornstein_uhlenbeck.py 52-56, parameter.py 74-75 *)
Definition ornstein_bounds (o : ornstein) : option R * option R := (if o_absolute o then Some 0 else None, None).
(** 69-78; [n]: the draw, [process]: the variable; the new value of both *)
Definition ornstein_step (o : ornstein) (process n : R) : R :=
  let delta := o_theta o * (o_mu o - process) + o_sigma o * n in
  if o_absolute o then Rabs (process + delta) else process + delta.
(** 61-67: the process after the given draws *)
Fixpoint ornstein_process (o : ornstein) (draws : list R) : R :=
  match draws with [] => o_mu o | n :: draws => ornstein_step o (ornstein_process o draws) n end.

(** ** Piecewise constant *)
Section Piecewise.
Context {X : Type}.
(** sorted(boundaries) == boundaries (piecewise_constant.py 57) *)
Fixpoint ascending (l : list Z) : bool :=
  match l with a :: ((b :: _) as r) => (a <=? b)%Z && ascending r | _ => true end.
(** piecewise_constant.py 40-65 *)
Definition create_piecewise (boundaries : list Z) (values : list X) : res unit :=
  do _ <- assert_ (Nat.eqb (length values) (length boundaries + 1)) "assert";
  do _ <- assert_ (ascending boundaries) "assert";
  match boundaries with
  | [] => Err "IndexError"
  | b :: _ => assert_ (0 <? b)%Z "assert"
  end.
(** tf.keras.optimizers.schedules.PiecewiseConstantDecay: the intervals between two boundaries
    (piecewise_constant.py 77-79) *)
Fixpoint between (boundaries : list Z) (values : list X) (step : Z) : option X :=
  match boundaries, values with
  | low :: ((high :: _) as r), v :: vs =>
    if (low <? step)%Z && (step <=? high)%Z then Some v else between r vs step
  | _, _ => None
  end.
(** 76-83: below the first boundary, above the last one, or in between *)
Definition piecewise_value (boundaries : list Z) (values : list X) (step : Z) : res X :=
  match boundaries, values with
  | b :: _, v :: vs =>
    if (step <=? b)%Z then Ok v
    else if (List.last boundaries 0 <? step)%Z then Ok (List.last values v)
    else match between boundaries vs step with Some v => Ok v | None => Ok v end
  | _, _ => Err "ValueError"
  end.
End Piecewise.
(** 67-71 *)
Definition piecewise_bounds (values : list R) : option R * option R :=
  match values with [] => (None, None) | v :: vs => (Some (fold_left Rmin vs v), Some (fold_left Rmax vs v)) end.
