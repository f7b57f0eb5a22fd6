(** /repo/tensorforce/agents/recorder.py: Recorder.initialize, reset, act, observe.

    Simplifications: the components of a state (action) are one value, since the loops over
    names treat all of them alike (256-258, 282-284, 431-440); inputs are given batched, as
    after 171-172 and 331-373; the episode length check (404-410) is in AgentModel.v and
    left out; what fn_act returns is part of the call.  The directory holds only trace
    files, with the number in the file name as name: sorting file names (457-461) sorts the
    numbers as long as they have at most nine digits. *)

From Coq Require Import String List ZArith Bool.
From Verif Require Import Base RecSpec.
Import ListNotations.
Open Scope nat_scope.
Open Scope string_scope.
Open Scope list_scope.

Section Rec.
Context {S A R : Type}.

(** recorder=dict(directory, start, frequency, max-traces), 85-94, with the defaults of
    255, 415, 450, 466 *)
Record config := Config { streams : nat; start : nat; frequency : nat; max_traces : option nat }.

(** the lists of one stream, recorder.py 116-124 *)
Record buffer := Buffer { b_states : list S; b_actions : list A; b_terminal : list Z; b_reward : list R }.
(** self.recorded, recorder.py 128-132 *)
Record recorded := Recorded { r_states : list (list S); r_actions : list (list A);
                              r_terminal : list (list Z); r_reward : list (list R) }.
(** the directory of traces, recorder.py 457-481 *)
Definition files := list (nat * trace S A R).
(** recorder.py 96-132 *)
Record state := State { completed : list bool; num_episodes : nat; buffers : list buffer;
                        record : recorded; directory : files }.

(** recorder.py 116-124 *)
Definition no_buffer : buffer := Buffer [] [] [] [].
(** recorder.py 128-132, 483-485 *)
Definition no_record : recorded := Recorded [] [] [] [].

(** initialize, 96-132 *)
Definition initialize (c : config) (d : files) : state :=
  State (repeat true (streams c)) 0 (repeat no_buffer (streams c)) no_record d.

(** reset, 137-149 *)
Definition reset (s : state) : state :=
  State (map (fun _ => true) (completed s)) (num_episodes s) (map (fun _ => no_buffer) (buffers s)) no_record (directory s).

(** x[parallel] = v (recorder.py 251, 402) *)
Definition set_all {T} (l : list T) (ps : list nat) (v : T) : list T := fold_left (fun l p => update_nth l p v) ps l.
(** x[parallel], an index out of range raises (recorder.py 246, 400) *)
Definition get_all {T} (l : list T) (ps : list nat) : res (list T) :=
  map_res (fun p => match nth_error l p with Some b => Ok b | None => Err "IndexError" end) ps.

(** 257-258: append the states *)
Fixpoint push_states (ps : list nat) (ss : list S) (b : list buffer) : res (list buffer) :=
  match ps, ss with
  | [], [] => Ok b
  | p :: ps', s :: ss' =>
      match nth_error b p with
      | Some x => push_states ps' ss' (update_nth b p (Buffer (b_states x ++ [s]) (b_actions x) (b_terminal x) (b_reward x)))
      | None => Err "IndexError"
      end
  | _, _ => Err "number of states"
  end.

(** 283-284: append the actions *)
Fixpoint push_actions (ps : list nat) (l : list A) (b : list buffer) : res (list buffer) :=
  match ps, l with
  | [], [] => Ok b
  | p :: ps', a :: l' =>
      match nth_error b p with
      | Some x => push_actions ps' l' (update_nth b p (Buffer (b_states x) (b_actions x ++ [a]) (b_terminal x) (b_reward x)))
      | None => Err "IndexError"
      end
  | _, _ => Err "number of actions"
  end.

(** act, 154-327, with independent=False (nothing is recorded or checked otherwise) *)
Definition act (c : config) (ps : list nat) (ss : list S) (actions : list A) (s : state) : res state :=
  do _ <- assert_ (Nat.eqb (length ps) (length ss)) "len(parallel)";
  do done <- get_all (completed s) ps;
  do _ <- assert_ (forallb (fun b => b) done) "act must be preceded by observe";
  let comp := set_all (completed s) ps false in
  do _ <- assert_ (Nat.eqb (length ps) (length actions)) "len(actions)";
  do b <- (if Nat.leb (start c) (num_episodes s)
           then do b <- push_states ps ss (buffers s); push_actions ps actions b
           else Ok (buffers s));
  Ok (State comp (num_episodes s) b (record s) (directory s)).

(** numpy.stack: raises for an empty list (recorder.py 437, 442) *)
Definition stack {T} (l : list T) : res (list T) :=
  match l with [] => Err "ValueError: need at least one array to stack" | _ => Ok l end.

(** os.listdir is sorted by name: the directory is kept sorted; savez_compressed replaces a
    file of the same name (recorder.py 460-464, 477-481) *)
Fixpoint write (n : nat) (t : trace S A R) (d : files) : files :=
  match d with
  | [] => [(n, t)]
  | (m, u) :: r => if Nat.ltb n m then (n, t) :: d else if Nat.eqb n m then (n, t) :: r else (m, u) :: write n t r
  end.

(** 466-470: files[:-max_traces + 1] are removed *)
Definition purge (m : option nat) (d : files) : files :=
  match m with
  | Some m => if (Z.of_nat m - 1 <? Z.of_nat (length d))%Z
              then skipn (length (slice d 0 (- Z.of_nat m + 1))) d else d
  | None => d
  end.

(** 418-482: one entry of the batch *)
Definition observe_one (c : config) (p : nat) (t : Z) (r : R) (s : state) : res state :=
  match nth_error (buffers s) p with
  | None => Err "IndexError"
  | Some x =>
      let x := Buffer (b_states x) (b_actions x) (b_terminal x ++ [t]) (b_reward x ++ [r]) in
      if Z.eqb t 0 then Ok (State (completed s) (num_episodes s) (update_nth (buffers s) p x) (record s) (directory s))
      else
        let n := Datatypes.S (num_episodes s) in
        do bs <- stack (b_states x);
        do ba <- stack (b_actions x);
        let rec := Recorded (r_states (record s) ++ [bs]) (r_actions (record s) ++ [ba])
                            (r_terminal (record s) ++ [b_terminal x]) (r_reward (record s) ++ [b_reward x]) in
        let bufs := update_nth (buffers s) p no_buffer in
        do _ <- assert_ (negb (Nat.eqb (frequency c) 0)) "ZeroDivisionError";
        if negb (Nat.eqb ((n - start c) mod frequency c) 0)
        then Ok (State (completed s) n bufs rec (directory s))
        else
          let d := purge (max_traces c) (directory s) in
          let t := Trace (concat (r_states rec)) (concat (r_actions rec)) (concat (r_terminal rec)) (concat (r_reward rec)) in
          Ok (State (completed s) n bufs no_record (write (n - 1) t d))
  end.

(** the loop recorder.py 421-485 *)
Fixpoint observe_all (c : config) (l : list (nat * Z * R)) (s : state) : res state :=
  match l with
  | [] => Ok s
  | (p, t, r) :: l' => do s' <- observe_one c p t r s; observe_all c l' s'
  end.

(** observe, 329-489 *)
Definition observe (c : config) (l : list (nat * Z * R)) (s : state) : res state :=
  let ps := map (fun x => fst (fst x)) l in
  do _ <- assert_ (negb (Nat.eqb (length l) 0)) "len(parallel)";
  do done <- get_all (completed s) ps;
  do _ <- assert_ (negb (existsb (fun b => b) done)) "observe must be preceded by act";
  let s := State (set_all (completed s) ps true) (num_episodes s) (buffers s) (record s) (directory s) in
  if Nat.ltb (num_episodes s) (start c)
  then Ok (State (completed s) (num_episodes s + length (filter (fun x => Z.ltb 0 (snd (fst x))) l)) (buffers s) (record s) (directory s))
  else observe_all c l s.

(** Calls of the interface, and histories of calls (recorder.py 137-489) *)
Inductive call := Act (ps : list nat) (ss : list S) (actions : list A) | Observe (l : list (nat * Z * R)) | Reset.
(** one call, recorder.py 137-489 *)
Definition run_call (c : config) (x : call) (s : state) : res state :=
  match x with Act ps ss a => act c ps ss a s | Observe l => observe c l s | Reset => Ok (reset s) end.
(** a sequence of calls, recorder.py 137-489 *)
Fixpoint run (c : config) (l : list call) (s : state) : res state :=
  match l with [] => Ok s | x :: r => do s' <- run_call c x s; run c r s' end.

End Rec.
Arguments files : clear implicits.
Arguments state : clear implicits.
Arguments call : clear implicits.
Arguments buffer : clear implicits.
Arguments recorded : clear implicits.
