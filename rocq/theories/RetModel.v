(** Reward estimation of TensorforceModel
    (/repo/tensorforce/core/models/tensorforce.py).

    Simplifications, for the whole file:
    - floats are elements of a field (no rounding, no inf/nan; x/0 = x * 0^-1 is
      some unspecified element);
    - the on-policy past horizon of policy and baseline is 0, which core_act
      asserts (lines 1047-1058), so a value prediction depends on one timestep:
      [bval x] is self.baseline.state_value / action_value for the state,
      internals, auxiliaries (and action) [x] of that timestep.  The baseline is
      a fixed function, i.e. its variables do not change while an episode is
      being processed. *)

From Coq Require Import String List ZArith Lia Bool.
From Verif Require Import Base Field.
Import ListNotations.
Open Scope Z_scope.

Section Ret.
Variable K : field.
Variable X : Type.
Variable bval : X -> K.

(** tensorforce.py 161-193, 540-549: reward_estimation arguments.
    rc_horizon = None is horizon="episode"; rc_early is
    predict_horizon_values == 'early'; rc_trace = None is
    trace_decay.is_constant(value=1.0). *)
Record rconf := {
  rc_horizon : option Z;
  rc_discount : K;
  rc_early : bool;
  rc_predterm : bool;
  rc_trace : option K
}.

(** x[-1] *)
Definition last_ {A} (l : list A) : res A := gather l (Z.of_nat (length l) - 1).

(** Elementwise binary operation on equally long vectors.  (TensorFlow would
    also broadcast a vector of length one; never needed here, so an error.) (e.g. tensorforce.py 1752-1765) *)
Fixpoint vec2 {A B C : Type} (f : A -> B -> C) (a : list A) (b : list B) : res (list C) :=
  match a, b with
  | [], [] => Ok []
  | x :: a', y :: b' => do r <- vec2 f a' b'; Ok (f x y :: r)
  | _, _ => Err "incompatible shapes"
  end.

(** tf.scan(fn, elems, initializer, reverse=True) (tensorforce.py 1924, 1974) *)
Fixpoint scan_rev {A B : Type} (f : B -> A -> B) (init : B) (elems : list A) : list B :=
  match elems with
  | [] => []
  | x :: r => let rest := scan_rev f init r in f (hd init rest) x :: rest
  end.

(** tf.foldr(fn, elems=tf.range(h), initializer) (tensorforce.py 1767) *)
Definition foldr_range (h : Z) (f : Z -> list K -> res (list K)) (init : list K) : res (list K) :=
  fold_right (fun i acc => do a <- acc; f i a) (Ok init) (zrange 0 h).

(** tensorforce.py 1743-1765 and 2082-2095, recursive_return: the discounted
    cumulative sum and the TD-lambda case. *)
Definition recursive_return (c : rconf) (values reward : list K) (n : Z)
    (index : Z) (next_return : list K) : res (list K) :=
  match rc_trace c with
  | None =>
      vec2 (fun r nr => r + rc_discount c * nr)%F (slice reward index (index + n)) next_return
  | Some l =>
      do nr <- vec2 (fun nv nr => (1 - l) * nv + l * nr)%F
                    (slice values index (index + n)) next_return;
      vec2 (fun r nr => r + rc_discount c * nr)%F (slice reward index (index + n)) nr
  end.

(** tensorforce.py 1843-1977, _terminal_experience_iterative *)
Definition terminal_iterative (c : rconf) (xs : list X) (reward : list K) (terminal : list Z)
    : res (list K) :=
  let g := rc_discount c in
  match rc_trace c with
  | None =>
      (* 1852-1918 *)
      do rl <- last_ reward;
      do tl <- last_ terminal;
      do tv <- (if rc_early c then
                  let predict_terminal_value :=
                    (* 1865-1908 with baseline_horizon = 0 *)
                    do x <- last_ xs; Ok ((bval x - rl) / g)%F in
                  if rc_predterm c then predict_terminal_value
                  else if tl =? 1 then Ok 0%F else predict_terminal_value
                else
                  let tv := (- rl / g)%F in
                  if rc_predterm c then Ok tv
                  else Ok (if tl =? 1 then 0%F else tv));
      (* 1920-1926 *)
      Ok (scan_rev (fun nr r => r + g * nr)%F tv reward)
  | Some l =>
      (* 1928-1977 *)
      let values := map bval (slice xs 1 (Z.of_nat (length xs))) in
      do vl <- last_ values;
      do rl <- last_ reward;
      do tl <- last_ terminal;
      let tv := ((vl - rl) / g)%F in
      let tv := if rc_predterm c then tv else if tl =? 1 then 0%F else tv in
      do elems <- vec2 pair reward (values ++ [tv]);
      Ok (scan_rev (fun nr rv => fst rv + g * ((1 - l) * snd rv + l * nr))%F tv elems)
  end.

(** tensorforce.py 1979-2099, _terminal_experience_parallel *)
Definition terminal_parallel (c : rconf) (h : Z) (xs : list X) (reward : list K)
    (terminal : list Z) : res (list K) :=
  let T := Z.of_nat (length terminal) in
  do rl <- last_ reward;
  do tl <- last_ terminal;
  if rc_early c then
    (* 2005-2079 *)
    let start := match rc_trace c with None => h | Some _ => 1 end in
    let values := map bval (slice xs start (Z.of_nat (length xs))) in
    do vl <- last_ values;
    let tv := if rc_predterm c then vl else if tl =? 1 then rl else vl in
    let reward := slice reward 0 (-1) ++ [tv] ++ repeat 0%F (Z.to_nat (h - 1)) in
    let values := values ++ repeat 0%F (Z.to_nat h) in
    let horizon_values :=
      match rc_trace c with
      | None => values
      | Some _ => slice values (h - 1) (Z.of_nat (length values))
      end in
    foldr_range h (recursive_return c values reward T) horizon_values
  else
    match rc_trace c with
    | Some _ => Err "assert self.trace_decay.is_constant(value=1.0)"   (* 1989 *)
    | None =>
        (* 1991-2003 *)
        let tv := if rc_predterm c then 0%F else if tl =? 1 then rl else 0%F in
        let horizon_values := repeat 0%F (Z.to_nat T) in
        let reward := slice reward 0 (-1) ++ [tv] ++ slice horizon_values 0 h in
        foldr_range h (recursive_return c [] reward T) horizon_values
    end.

(** tensorforce.py 1800-1841, core_experience without the final memory.enqueue:
    the rewards that are stored.  [h] is the current value of the horizon
    parameter, unused if the horizon is "episode". *)
Definition episode_returns (c : rconf) (xs : list X) (reward : list K) (terminal : list Z)
    : res (list K) :=
  match rc_horizon c with
  | None => terminal_iterative c xs reward terminal
  | Some h =>
      if Z.of_nat (length terminal) <=? h
      then terminal_iterative c xs reward terminal
      else terminal_parallel c h xs reward terminal
  end.

(** tensorforce.py 1655-1769, _nonterminal_experience: the rewards stored for the
    first [nc] of the buffered timesteps [xs] (oldest first) with rewards
    [reward], where nc = length xs - h > 0.  (Gathering from the ring buffer is in
    BufModel.v.) *)
Definition nonterminal_returns (c : rconf) (h nc : Z) (xs : list X) (reward : list K)
    : res (list K) :=
  let n := Z.of_nat (length xs) in
  do vh <-
    (if rc_early c then
       let start := match rc_trace c with None => h | Some _ => 1 end in
       let values := map bval (slice xs start n) in
       Ok (values, match rc_trace c with
                   | None => values
                   | Some _ => slice values (h - 1) (Z.of_nat (length values))
                   end)
     else
       match rc_trace c with
       | Some _ => Err "assert self.trace_decay.is_constant(value=1.0)"   (* 1664 *)
       | None => Ok ([], repeat 0%F (Z.to_nat nc))
       end);
  let '(values, horizon_values) := vh in
  (* 1746-1749: all rewards but the last *)
  let reward := slice reward 0 (n - 1) in
  foldr_range h (recursive_return c values reward nc) horizon_values.

(** tensorforce.py 2375-2393, recursive_gae *)
Definition gae_scan (g l : K) (advantage : list K) (terminal : list Z) : res (list K) :=
  do elems <- vec2 pair advantage terminal;
  Ok (scan_rev (fun next_gae at_ =>
        let next_gae := if snd at_ =? 0 then next_gae else 0%F in
        (fst at_ + g * l * next_gae)%F) 0%F elems).

End Ret.
