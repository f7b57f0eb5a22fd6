(** Model of the rest of the environment OpenAIGym: creation of levels, reset and execute,
    /repo/tensorforce/environments/openai_gym.py 63-265.

    The registry of gym is a list of names with the two attributes used here; gym.make and the
    environment it returns are not modelled. *)

From Coq Require Import String Ascii List ZArith Reals Bool Decimal DecimalString.
From Verif Require Import Base ParModel GymModel.
Import ListNotations.
Open Scope string_scope.

(** * Levels *)

(** An entry of gym.envs.registry.env_specs: max_episode_steps and reward_threshold, openai_gym.py 96-108 *)
Record entry := mkEntry { en_steps : option nat; en_threshold : option Z }.
(** The argument max_episode_steps: None, False or a number, openai_gym.py 64-72 *)
Inductive steps := Unset | Unlimited | Limit (n : nat).

(** Part of a name before and after the last '-v', openai_gym.py 79, 119-121 *)
Fixpoint vsplit (s : string) : option (string * string) :=
  match s with
  | EmptyString => None
  | String c r =>
      match vsplit r with
      | Some (a, b) => Some (String c a, b)
      | None => if String.prefix "-v" s then Some ("", substring 2 (String.length s - 2) s) else None
      end
  end.

(** max_episode_steps != spec.max_episode_steps, openai_gym.py 85, 99 (in Python, False == 0) *)
Definition differs (m : steps) (e : option nat) : bool :=
  match m, e with
  | Unset, None => false
  | Unlimited, Some O => false
  | Limit n, Some k => negb (Nat.eqb n k)
  | _, _ => true
  end.

(** The search for a level, openai_gym.py 76-91; [found] is the first level found *)
Fixpoint search (reg : list (string * entry)) (level : string) (m : steps) (names : list string) (found : option string) : res string :=
  match names with
  | [] => match found with Some l => Ok l | None => Err "TensorforceError: level" end
  | name :: r =>
      match vsplit name with
      | None => Err "ValueError: substring not found"
      | Some (base, _) =>
          if String.eqb level base then
            let found := match found with None => Some name | Some l => Some l end in
            match dget reg name with
            | None => Err "KeyError"
            | Some e =>
                if (match m, en_steps e with Unlimited, Some _ => true | _, _ => false end) || differs m (en_steps e)
                then search reg level m r found
                else Ok name
            end
          else search reg level m r found
      end
  end.

(** openai_gym.py 69-92 *)
Definition find_level (reg : list (string * entry)) (level : string) (m : steps) : res (string * steps) :=
  match dget reg level with
  | Some _ => Ok (level, m)
  | None =>
      let m := match m with Unset => Unlimited | m => m end in
      let first := match dget reg (level ++ "-v0") with Some _ => [level ++ "-v0"] | None => [] end in
      do l <- search reg level m (first ++ map fst reg)%list None;
      Ok (l, m)
  end.

(** The first unused version, openai_gym.py 124-128; one more step than there are levels is enough *)
Fixpoint fresh (reg : list (string * entry)) (level : string) (version fuel : nat) : string :=
  match fuel with
  | O => level ++ str version
  | S fuel => match dget reg (level ++ str version) with
              | Some _ => fresh reg level (S version) fuel
              | None => level ++ str version
              end
  end.

(** The name of the new level, openai_gym.py 119-128 *)
Definition new_name (reg : list (string * entry)) (level : string) : string :=
  match vsplit level with
  | Some (a, b) =>
      match int_of b with
      | Ok v => fresh reg (a ++ "-v") (S v) (S (length reg))
      | Err _ => fresh reg level 0 (S (length reg))
      end
  | None => fresh reg level 0 (S (length reg))
  end.

(** create_level, openai_gym.py 63-137: the registry afterwards, the level that is made, and the limit returned *)
Definition create_level (reg : list (string * entry)) (level : string) (m : steps) (threshold : option Z)
  : res (list (string * entry) * string * option nat) :=
  do lm <- find_level reg level m;
  let (level, m) := (lm : string * steps) in
  match dget reg level with
  | None => Err "AssertionError"
  | Some e =>
      let '(limit, req1) :=
        match m with
        | Unset => (en_steps e, false)
        | Unlimited => (None, differs m (en_steps e) && match en_steps e with None => false | Some _ => true end)
        | Limit n => (Some n, differs m (en_steps e))
        end in
      let '(thr, req2) :=
        match threshold with
        | None => (en_threshold e, false)
        | Some t => (Some t, match en_threshold e with Some t' => negb (Z.eqb t t') | None => true end)
        end in
      if req1 || req2 then
        let name := new_name reg level in
        Ok ((reg ++ [(name, mkEntry limit thr)])%list, name, limit)
      else Ok (reg, level, limit)
  end.

(** * States: clipping and dropping *)

(** The order of extended numbers, for np.clip, openai_gym.py 233, 261 *)
Definition ext_ltb (x y : ext) : bool :=
  match x, y with
  | NInf, NInf => false | NInf, _ => true
  | _, NInf => false
  | Fin a, Fin b => Rltb a b
  | Fin _, PInf => true
  | PInf, _ => false
  end.

(** The bound of entry [i], as np.clip applies it, openai_gym.py 233, 261 *)
Definition bound_at (default : ext) (b : bound) (i : nat) : ext :=
  match b with Free => default | One x => x | Each l => nth i l default end.

(** np.clip of the entries from [i]: minimum(maximum(x, low), high), openai_gym.py 233 *)
Fixpoint clip (mn mx : bound) (i : nat) (l : list ext) : list ext :=
  match l with
  | [] => []
  | x :: r =>
      let y := if ext_ltb x (bound_at NInf mn i) then bound_at NInf mn i else x in
      (if ext_ltb (bound_at PInf mx i) y then bound_at PInf mx i else y) :: clip mn mx (S i) r
  end.

(** sorted, openai_gym.py 199 *)
Fixpoint insert (x : Z) (l : list Z) : list Z :=
  match l with [] => [x] | y :: r => if Z.leb x y then x :: l else y :: insert x r end.
(** openai_gym.py 199 *)
Definition sorted (l : list Z) : list Z := fold_right insert [] l.

(** states[:index] and states[index:] for any integer index, openai_gym.py 236 *)
Definition slice_pos (len : nat) (i : Z) : nat :=
  if Z.ltb i 0 then Z.to_nat (Z.of_nat len + i) else Nat.min len (Z.to_nat i).
(** np.concatenate([states[:index], states[index + 1:]]), openai_gym.py 236 *)
Definition drop_one {A} (l : list A) (i : Z) : list A :=
  (firstn (slice_pos (length l) i) l ++ skipn (slice_pos (length l) (i + 1)) l)%list.
(** for index in reversed(indices), openai_gym.py 235-236, 263-264 *)
Definition drop {A} (indices : list Z) (l : list A) : list A := fold_left drop_one (List.rev indices) l.

(** The attributes of the environment used below, openai_gym.py 157-204 *)
Record gym := mkGym {
  g_states : specs; g_clip : bool; g_drop : option (list Z);
  g_limit : option nat; g_terminal_reward : R }.

(** Specification of the states, openai_gym.py 180-202; a number of entries below zero is zero here *)
Definition make_states (s : space) (min_value max_value : option R) (drop : option (list Z)) : res (specs * bool * option (list Z)) :=
  do sp <- match min_value, max_value with
           | Some _, None => Err "TensorforceError: max_value required"
           | None, Some _ => Err "TensorforceError: min_value required"
           | Some _, Some _ => specs_from false min_value max_value s
           | None, None => specs_from true None None s
           end;
  let clip := match min_value with Some _ => true | None => false end in
  match drop with
  | None => Ok (sp, clip, None)
  | Some ix =>
      match sp with
      | SLeaf l =>
          match l_shape l with
          | [n] => Ok (SLeaf (mkLeaf (l_type l) [(n - length ix)%nat] (l_num l) (l_min l) (l_max l)), clip, Some (sorted ix))
          | _ => Err "AssertionError"
          end
      | SDict _ => Err "AssertionError"
      end
  end.

(** Clipping and dropping, openai_gym.py 232-236, 260-264; clipping reads self.states_spec['min_value'] *)
Definition process (sp : specs) (clipped : bool) (dropped : option (list Z)) (x : tval ext) : res (tval ext) :=
  do x <- (if clipped then
             match sp, x with
             | SLeaf l, TArr _ shape data =>
                 if String.eqb (l_type l) "float" then Ok (TArr ext shape (clip (l_min l) (l_max l) 0 data))
                 else Err "KeyError: min_value"
             | _, _ => Err "KeyError: min_value"
             end
           else Ok x);
  match dropped with
  | None => Ok x
  | Some ix =>
      match x with
      | TArr _ _ data => let d := drop ix data in Ok (TArr ext [length d] d)
      | TDict _ _ => Err "TypeError"
      end
  end.

(** The end of a step, openai_gym.py 246-256: the time step, terminal and reward *)
Definition finish_step (limit : option nat) (terminal_reward : R) (timestep : nat) (reward : R) (terminal : bool)
  : res (nat * nat * R) :=
  let t := S timestep in
  if match limit with Some n => Nat.eqb t n | None => false end then
    do _ <- assert_ terminal "AssertionError"; Ok (t, 2%nat, reward)
  else if terminal then
    do _ <- assert_ (match limit with Some n => Nat.ltb t n | None => true end) "AssertionError";
    Ok (t, 1%nat, (reward + terminal_reward)%R)
  else Ok (t, 0%nat, reward).
