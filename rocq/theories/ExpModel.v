(** Model of experience and pretrain: /repo/tensorforce/agents/tensorforce.py 460-663 and 679-738, and of the
    trace file that the recorder writes, agents/recorder.py 428-481.

    Inputs, arrays and nested dictionaries are those of InpModel.v, with the simplifications stated there.
    Further simplifications: the check for unfinished episodes (484-485) is an argument; what Model.experience
    and Model.update do is a function of the model's state (they are modelled in AgentModel.v), and so are
    their errors; the counters (653-654, 673) and saving (656-657, 675-676) are left out.  The conversion of bool
    terminals (606-609) compares a dtype with a type by [is], which is never true, so it never happens.
    Names of files are given without their directory, and os.listdir in sorted order; the modelled kinds of
    entries of a directory are files with their extension and their content.  A file is a list of names
    (given by their parts) with arrays; random.shuffle is any permutation. *)

From Coq Require Import String List ZArith Bool.
From Verif Require Import Base InpModel.
Import ListNotations.
Open Scope string_scope.
Open Scope list_scope.
Open Scope nat_scope.

(** ** Functions of numpy *)

(** np.repeat(np.expand_dims(x, axis=0), repeats=n, axis=0), agents/tensorforce.py 498 *)
Definition np_repeat {V} (n : nat) (x : arr V) : arr V := Arr (n :: shape x) (concat (repeat (data x) n)).
(** np.tile(x, reps=(n,)), agents/tensorforce.py 531: the last axis is repeated *)
Definition np_tile {V} (n : nat) (x : arr V) : arr V :=
  match rev (shape x) with
  | [] => Arr [n] (concat (repeat (data x) n))
  | d :: r => Arr (rev (d * n :: r))
                  (concat (map (fun i => concat (repeat (firstn d (skipn (i * d) (data x))) n)) (seq 0 (prod r))))
  end.
(** x[last: index], agents/tensorforce.py 622, for 0 <= last <= index *)
Definition np_slice {V} (last index : nat) (x : arr V) : arr V :=
  let k := prod (tl (shape x)) in
  Arr (match shape x with [] => [] | d :: s => Nat.min index d - last :: s end)
      (firstn ((index - last) * k) (skipn (last * k) (data x))).
(** np.concatenate([x, y], axis=0), agents/tensorforce.py 727 *)
Definition np_concat {V} (x y : arr V) : res (arr V) :=
  match shape x, shape y with
  | n :: s, m :: s' => if shape_eqb s s' then Ok (Arr (n + m :: s) (data x ++ data y))
                       else Err "ValueError: all the input array dimensions except for the concatenation axis must match exactly"
  | _, _ => Err "ValueError: zero-dimensional arrays cannot be concatenated"
  end.

Section Experience.
Variable V : Type.
Variable conv : leaf -> V -> option V.            (* conversion of an entry, as in InpModel.v *)
Variables conv_terminal conv_reward : V -> option V. (* terminal_spec, reward_spec: core/utils/tensor_spec.py 149-194 *)
Variable is_zero : V -> bool.                     (* == 0, agents/tensorforce.py 611, 619 *)
Variable one : V.
Variable masking : bool.
Variables states_spec actions_spec internals_spec : tree leaf.
Variable initial : tree (arr V).                  (* initial_internals(), agents/agent.py 354-362 *)
Notation masks := (list (list string * arr V)).

(** The arguments of Model.experience, agents/tensorforce.py 648-651 *)
Record batch := mkBatch {
  b_states : tree (arr V); b_internals : tree (arr V); b_masks : masks;
  b_actions : tree (arr V); b_terminal : arr V; b_reward : arr V }.

Variable M : Type.                                (* the state of the model *)
(** Model.experience and Model.update, core/models/tensorforce.py 661-807 *)
Variable model_experience : M -> batch -> M * res unit.
Variable model_update : M -> M * res unit.

(** ** Inputs *)

(** x[0].fmap(np.stack, zip_values=x[1:]) with x = [ArrayDict(p) for p in ps], agents/tensorforce.py 505-508, 522-525 *)
Definition stack_dicts (ps : list (pv V)) : res (tree (arr V)) :=
  do ts <- map_res array_dict ps;
  match ts with [] => Err "IndexError" | t :: r => stack_trees t r end.

(** list(action) == ['action'], agents/tensorforce.py 516, 550 *)
Definition only_action (p : pv V) : option (pv V) :=
  match p with PDict [([k], x)] => if String.eqb k "action" then Some x else None | _ => None end.
(** all(... for action in actions) and action['action'], agents/tensorforce.py 516-517; list(action) of a
    number raises, of an array or a list it is never equal *)
Fixpoint only_actions (ps : list (pv V)) : res (option (list (pv V))) :=
  match ps with
  | [] => Ok (Some [])
  | PNum _ :: _ => Err "TypeError: not iterable"
  | p :: r => match only_action p with
              | None => Ok None
              | Some x => do xs <- only_actions r; Ok (option_map (cons x) xs)
              end
  end.

(** internals of iter[dict[input]], agents/tensorforce.py 496-508 *)
Definition internals_list (n : nat) (p : option (pv V)) : res (tree (arr V)) :=
  match p with
  | None => Ok (tmap (np_repeat n) initial)
  | Some (PList ps) => stack_dicts ps
  | Some _ => Err "TensorforceError: internals is not tuple/list"
  end.
(** actions of iter[dict[input]], agents/tensorforce.py 511-525 *)
Definition actions_list (p : pv V) : res (tree (arr V)) :=
  match p with
  | PArr a => Ok (Leaf a)
  | PList [] => Err "IndexError"
  | PList (p0 :: ps) =>
      if is_dict V p0 then
        do xs <- only_actions (p0 :: ps);
        match xs with
        | Some xs => do ts <- map_res array_tree xs;
                     match ts with [] => Err "IndexError" | t :: r => stack_trees t r end
        | None => stack_dicts (p0 :: ps)
        end
      else do a <- asarray p; Ok (Leaf a)
  | _ => Err "TensorforceError: actions is not tuple/list"
  end.
(** internals of dict[iter[input]], agents/tensorforce.py 529-538 *)
Definition internals_arrays (n : nat) (p : option (pv V)) : res (tree (arr V)) :=
  match p with
  | None => Ok (tmap (fun x => np_tile n (expand x)) initial)
  | Some (PDict d) => array_dict (PDict d)
  | Some _ => Err "TensorforceError: internals is not dict"
  end.
(** actions of dict[iter[input]], agents/tensorforce.py 541-553 *)
Definition actions_arrays (p : pv V) : res (tree (arr V)) :=
  match p with
  | PArr a => Ok (Leaf a)
  | PDict d => match only_action p with
               | Some x => array_tree x
               | None => array_dict p
               end
  | _ => Err "TensorforceError: actions is not dict"
  end.

(** Number of inputs, agents/tensorforce.py 566-587 *)
Definition check_length (n : nat) (x : arr V) : res unit :=
  do k <- dim0 x; if Nat.eqb k n then Ok tt else Err "TensorforceError: len != len(states)".

(** ** Episodes *)

(** All inputs as arrays, agents/tensorforce.py 555-603; masks as in take_masks *)
Record inputs := mkInputs {
  i_states : tree (arr V); i_internals : tree (arr V); i_masks : list (list string * option (tree (arr V)));
  i_actions : tree (arr V); i_terminal : arr V; i_reward : arr V }.

(** From the arguments to arrays, agents/tensorforce.py 487-603 *)
Definition process (states actions terminal reward : pv V) (internals : option (pv V)) : res inputs :=
  do st <- process_states V states_spec states;
  let '(t, batched, n, iter) := st in
  do i <- match iter with Some true => internals_list n internals | _ => internals_arrays n internals end;
  do a <- match iter with Some true => actions_list actions | _ => actions_arrays actions end;
  let i := if batched then i else tmap expand i in
  let a := if batched then a else tmap expand a in
  do ter <- asarray (if batched then terminal else PList [terminal]);
  do rew <- asarray (if batched then reward else PList [reward]);
  do _ <- map_res (check_length n) (leaves i);
  do _ <- map_res (check_length n) (leaves a);
  do _ <- check_length n ter;
  do _ <- check_length n rew;
  do mt <- take_masks masking (ones V one n) (items actions_spec) t;
  do s <- rename_single states_spec (snd mt);
  Ok (mkInputs s i (fst mt) a ter rew).

(** All entries, core/utils/tensor_spec.py 154-191 *)
Fixpoint conv_entries (f : V -> option V) (vs : list V) : res (list V) :=
  match vs with
  | [] => Ok []
  | v :: r => match f v with
              | Some w => do ws <- conv_entries f r; Ok (w :: ws)
              | None => Err "TensorforceError: invalid value"
              end
  end.
(** terminal_spec.to_tensor, reward_spec.to_tensor, agents/tensorforce.py 640-645: the shape is () *)
Definition scalar_tensor (f : V -> option V) (a : arr V) : res (arr V) :=
  if shape_eqb (tl (shape a)) [] then do vs <- conv_entries f (data a); Ok (Arr (shape a) vs)
  else Err "TensorforceError: invalid value shape".

(** One episode, agents/tensorforce.py 622-645 *)
Definition episode (x : inputs) (last index : nat) : res batch :=
  let f := np_slice last index in
  do s <- to_tensors (to_tensor V conv) states_spec (tmap f (i_states x));
  do i <- to_tensors_rec (to_tensor V conv) internals_spec (tmap f (i_internals x));
  do m <- masks_to_tensors (to_tensor V conv) (items actions_spec)
            (map (fun po => (fst po, option_map (tmap f) (snd po))) (i_masks x));
  do a <- to_tensors (to_tensor V conv) actions_spec (tmap f (i_actions x));
  do t <- scalar_tensor conv_terminal (f (i_terminal x));
  do r <- scalar_tensor conv_reward (f (i_reward x));
  Ok (mkBatch s i m a t r).

(** The loop, agents/tensorforce.py 616-654: [ts] are the terminals from [index] on *)
Fixpoint episodes (x : inputs) (ts : list V) (last index : nat) (m : M) : M * res unit :=
  match ts with
  | [] => (m, Ok tt)
  | t :: r =>
      if is_zero t then episodes x r last (S index) m
      else match episode x last (S index) with
           | Err e => (m, Err e)
           | Ok b => match model_experience m b with
                     | (m', Ok _) => episodes x r (S index) (S index) m'
                     | (m', Err e) => (m', Err e)
                     end
           end
  end.

(** experience(states, actions, terminal, reward, internals), agents/tensorforce.py 460-657; [busy]: some episode is
    unfinished, 484-485; terminal[-1] of a vector, 611-612 *)
Definition experience (busy : bool) (m : M) (states actions terminal reward : pv V) (internals : option (pv V))
  : M * res unit :=
  if busy then (m, Err "TensorforceError: Calling agent.experience is not possible mid-episode.")
  else match process states actions terminal reward internals with
       | Err e => (m, Err e)
       | Ok x =>
           match shape (i_terminal x), rev (data (i_terminal x)) with
           | [_], t :: _ =>
               if is_zero t then (m, Err "TensorforceError: Agent.experience() requires full episodes as input.")
               else episodes x (data (i_terminal x)) 0 0 m
           | [_], [] => (m, Err "IndexError")
           | _, _ => (m, Err "TensorforceError: invalid value shape")
           end
       end.

(** ** pretrain *)

(** The content of a file, agents/recorder.py 479-481, agents/tensorforce.py 722 *)
Definition file := list (list string * arr V).
(** An entry of the directory: extension and content, None if it is no file; agents/tensorforce.py 707-710 *)
Definition entry := (string * option file)%type.

(** sorted(f for f in os.listdir(directory) if os.path.isfile(f) and os.path.splitext(f)[1] == extension),
    agents/tensorforce.py 707-710 *)
Fixpoint traces (ext : string) (d : list entry) : list file :=
  match d with
  | [] => []
  | (e, Some f) :: r => if String.eqb e ext then f :: traces ext r else traces ext r
  | (_, None) :: r => traces ext r
  end.

(** ArrayDict(np.load(file)), agents/tensorforce.py 722 *)
Definition load (f : file) : res (tree (arr V)) := array_dict (PDict (map (fun pa => (fst pa, PArr (snd pa))) f)).

(** batch.fmap(lambda x, y: np.concatenate([x, y], axis=0), zip_values=(trace,)), agents/tensorforce.py 726-728,
    core/utils/nested_dict.py 90-132 *)
Fixpoint concat_trees (t u : tree (arr V)) : res (tree (arr V)) :=
  match t with
  | Leaf a => do b <- value u; do c <- np_concat a b; Ok (Leaf c)
  | Dict d =>
      do e <- (fix go (d : list (string * tree (arr V))) : res (list (string * tree (arr V))) :=
                 match d with
                 | [] => Ok []
                 | (k, x) :: r =>
                     do v <- child k u; do y <- concat_trees x v; do ys <- go r; Ok ((k, y) :: ys)
                 end) d;
      Ok (Dict e)
  end.

(** for index in selection, agents/tensorforce.py 720-728; None: no file *)
Fixpoint load_all (fs : list file) (acc : option (tree (arr V))) : res (option (tree (arr V))) :=
  match fs with
  | [] => Ok acc
  | f :: r =>
      do t <- load f;
      do b <- match acc with None => Ok t | Some b => concat_trees b t end;
      load_all r (Some b)
  end.

(** name.endswith('/mask') and name[:-5] + '_mask', agents/tensorforce.py 731-732 *)
Fixpoint mask_of (p : list string) : option (list string) :=
  match p with
  | [] => None
  | [_] => None
  | [k; m] => if String.eqb m "mask" then Some [(k ++ "_mask")%string] else None
  | k :: r => option_map (cons k) (mask_of r)
  end.
(** for name, value in auxiliaries.items(): batch['states'][...] = value, agents/tensorforce.py 730-732; a single
    state is an array, which has no such entries *)
Fixpoint move_masks (ms : list (list string * arr V)) (states : tree (arr V)) : res (tree (arr V)) :=
  match ms with
  | [] => Ok states
  | (p, a) :: r =>
      match mask_of p, states with
      | None, _ => Err "AssertionError"
      | Some q, Dict d => do d' <- insert q (Leaf a) d; move_masks r (Dict d')
      | Some _, Leaf _ => Err "IndexError"
      end
  end.
(** batch.pop('auxiliaries', dict()), agents/tensorforce.py 730-732; an array has no items() *)
Definition with_masks (b : tree (arr V)) : res (list (string * tree (arr V))) :=
  match b with
  | Leaf _ => Err "AttributeError"
  | Dict d =>
      match dget "auxiliaries" d with
      | None => Ok d
      | Some (Leaf _) => Err "AttributeError"
      | Some (Dict e) =>
          match items (Dict e) with
          | [] => Ok (ddel "auxiliaries" d)
          | ms =>
              do s <- child "states" (Dict (ddel "auxiliaries" d));
              do s' <- move_masks ms s;
              Ok (map (fun kt => if String.eqb "states" (fst kt) then (fst kt, s') else kt) (ddel "auxiliaries" d))
          end
      end
  end.

(** An ArrayDict (or array) as an argument: its keys are the full names, core/utils/nested_dict.py 149-163 *)
Definition as_arg (t : tree (arr V)) : pv V :=
  match t with
  | Leaf a => PArr a
  | Dict _ => PDict (map (fun pa => (fst pa, PArr (snd pa))) (items t))
  end.
(** The names of the parameters, agents/tensorforce.py 460 *)
Definition parameters : list string := ["states"; "actions"; "terminal"; "reward"; "internals"].
(** self.experience with keyword arguments, agents/tensorforce.py 734 *)
Definition experience_kwargs (busy : bool) (m : M) (d : list (string * tree (arr V))) : M * res unit :=
  if forallb (fun kt => existsb (String.eqb (fst kt)) parameters) d then
    match dget "states" d, dget "actions" d, dget "terminal" d, dget "reward" d with
    | Some s, Some a, Some t, Some r =>
        experience busy m (as_arg s) (as_arg a) (as_arg t) (as_arg r) (option_map as_arg (dget "internals" d))
    | _, _, _, _ => (m, Err "TypeError: missing arguments")
    end
  else (m, Err "TypeError: unexpected keyword argument").

(** for _ in range(num_updates): self.update(), agents/tensorforce.py 735-736 *)
Fixpoint updates (n : nat) (m : M) : M * res unit :=
  match n with
  | O => (m, Ok tt)
  | S n => match model_update m with
           | (m', Ok _) => updates n m'
           | (m', Err e) => (m', Err e)
           end
  end.

(** One iteration, agents/tensorforce.py 719-736 *)
Definition iteration (busy : bool) (files : list file) (selection : list nat) (num_updates : Z) (m : M) : M * res unit :=
  match (do fs <- map_res (fun i => match nth_error files i with Some f => Ok f | None => Err "IndexError" end) selection;
         do b <- load_all fs None;
         match b with None => Err "AttributeError" | Some b => with_masks b end) with
  | Err e => (m, Err e)
  | Ok d => match experience_kwargs busy m d with
            | (m', Ok _) => updates (Z.to_nat num_updates) m'
            | (m', Err e) => (m', Err e)
            end
  end.

(** random.shuffle in the i-th iteration, agents/tensorforce.py 714 *)
Variable shuffle : nat -> list nat -> list nat.

(** for _ in range(num_iterations), agents/tensorforce.py 713-736; [i] counts the iterations *)
Fixpoint iterations (busy : bool) (files : list file) (num_traces : option Z) (num_updates : Z)
    (n i : nat) (indices : list nat) (m : M) : M * res unit :=
  match n with
  | O => (m, Ok tt)
  | S n =>
      let indices := shuffle i indices in
      let selection := match num_traces with None => indices | Some k => slice indices 0 k end in
      match iteration busy files selection num_updates m with
      | (m', Ok _) => iterations busy files num_traces num_updates n (S i) indices m'
      | (m', Err e) => (m', Err e)
      end
  end.

(** pretrain(directory, num_iterations, num_traces, num_updates, extension), agents/tensorforce.py 679-736;
    None: there is no such directory *)
Definition pretrain (busy : bool) (m : M) (directory : option (list entry)) (num_iterations : Z) (num_traces : option Z)
    (num_updates : Z) (extension : string) : M * res unit :=
  match directory with
  | None => (m, Err "TensorforceError: invalid value directory")
  | Some d =>
      let files := traces extension d in
      iterations busy files num_traces num_updates (Z.to_nat num_iterations) 0 (seq 0 (length files)) m
  end.

(** ** The recorder's file *)

(** The recorded values of one name: np.stack per episode (agents/recorder.py 431-440), np.concatenate of the
    episodes (479); [rows] are the values of the timesteps of each episode *)
Fixpoint concat_all (x : arr V) (xs : list (arr V)) : res (arr V) :=
  match xs with
  | [] => Ok x
  | y :: r => do z <- np_concat x y; concat_all z r
  end.
(** agents/recorder.py 431-440, 479 *)
Definition column (rows : list (list (arr V))) : res (arr V) :=
  do xs <- map_res np_stack rows;
  match xs with [] => Err "ValueError: need at least one array to concatenate" | x :: r => concat_all x r end.
(** The values of all names of 'states' or 'actions', agents/recorder.py 428-440 *)
Definition columns (top : string) (t : tree (list (list (arr V)))) : res file :=
  map_res (fun pr => do c <- column (snd pr); Ok (top :: fst pr, c)) (items t).
(** The file written after some episodes, agents/recorder.py 428-481 *)
Definition recorded_file (states actions : tree (list (list (arr V)))) (terminal reward : list (list V)) : res file :=
  do s <- columns "states" states;
  do a <- columns "actions" actions;
  do t <- column (map (map (fun v => Arr [] [v])) terminal);
  do r <- column (map (map (fun v => Arr [] [v])) reward);
  Ok (s ++ a ++ [(["terminal"], t); (["reward"], r)]).

End Experience.
