(** Checks of Model.__init__ and the configuration of saver, summarizer and tracking
    (/repo/tensorforce/core/models/model.py 55-205, /repo/tensorforce/core/models/tensorforce.py
    446-450, /repo/tensorforce/agents/tensorforce.py 331-334), the directories of summaries
    (model.py 249-276), summaries and tracked tensors (/repo/tensorforce/core/module.py 485-488,
    651-788).

    Simplified: of a specification only type and bounds are given, names of nested values are given
    flattened as 'a/b', auxiliaries are left out; texts of errors are shortened; values of the
    configuration other than None, strings and iterables are one value; a call of summary or track
    is given by its arguments and the values of the counters when it is executed; names of modules
    are given as requested; the files in a directory of summaries are given by their number and
    its name by the time when it was created. *)

From Coq Require Import String Ascii List Arith Bool ZArith QArith.
From Verif Require Import Base.
Import ListNotations.
Open Scope string_scope.
Open Scope list_scope.
Open Scope nat_scope.

(** * Names and bounds of values *)

(** a bound: a number or infinite (np.isinf, model.py 82) *)
Inductive num := Fin (q : Q) | Inf (negative : bool).
(** specification of a value: type, min_value and max_value; arrays as lists (model.py 75-87) *)
Record tspec := TSpec { ty : string; lo : option (list num); hi : option (list num) }.
(** the values: one without name or several with names (model.py 90, nested_dict.py 136) *)
Inductive specs := Single (s : tspec) | Named (l : list (string * tspec)).

(** np.isinf(bound).any() (model.py 82, 86, 107, 111) *)
Definition isinf (b : list num) : bool := existsb (fun x => match x with Inf _ => true | Fin _ => false end) b.
(** items(), with name = '' if name is None else ' ' + name (model.py 76-77, 102-103) *)
Definition items (v : specs) : list (string * tspec) :=
  match v with Single s => [("", s)] | Named l => map (fun p => (" " ++ fst p, snd p)%string) l end.
(** the warning for a state (model.py 78-87) *)
Definition state_warning (p : string * tspec) : list string :=
  let (name, s) := p in
  if negb (String.eqb (ty s) "float") then [] else
  match lo s with
  | None => ["No min_value bound specified for state" ++ name]%string
  | Some l => if isinf l then ["Infinite min_value bound for state" ++ name]%string else
      match hi s with
      | None => ["No max_value bound specified for state" ++ name]%string
      | Some h => if isinf h then ["Infinite max_value bound for state" ++ name]%string else []
      end
  end.
(** the warning or error for an action (model.py 104-112) *)
Definition action_check (p : string * tspec) : list string * res unit :=
  let (name, s) := p in
  if negb (String.eqb (ty s) "float") then ([], Ok tt) else
  match lo s with
  | None => (["No min_value specified for action" ++ name]%string, Ok tt)
  | Some l => if isinf l then ([], Err ("Infinite min_value bound for action" ++ name)%string) else
      match hi s with
      | None => (["No max_value specified for action" ++ name]%string, Ok tt)
      | Some h => if isinf h then ([], Err ("Infinite max_value bound for action" ++ name)%string) else ([], Ok tt)
      end
  end.
(** for name, spec in self.actions_spec.items() (model.py 102-112) *)
Fixpoint actions_check (l : list (string * tspec)) : list string * res unit :=
  match l with
  | [] => ([], Ok tt)
  | p :: q => match action_check p with
              | (w, Ok _) => let (w', r) := actions_check q in (w ++ w', r)
              | (w, Err e) => (w, Err e)
              end
  end.
(** for name in ...: if name in self.value_names: raise; self.value_names.add(name) (model.py 95-98,
    121-124, tensorforce.py 447-450) *)
Fixpoint add_names (l : list string) (taken : list string) : res (list string) :=
  match l with
  | [] => Ok taken
  | n :: q => if existsb (String.eqb n) taken then Err ("value name " ++ n)%string else add_names q (n :: taken)
  end.
(** singleton or named values; the error of a singleton shows the variable of the loop before (model.py
    90-98, 116-124) *)
Definition add_values (single : string) (v : specs) (taken : list string) : res (list string) :=
  match v with
  | Single _ => if existsb (String.eqb single) taken then Err "value name " else Ok (single :: taken)
  | Named l => add_names (map fst l) taken
  end.
(** the warnings and the names, or the error (model.py 55-124, tensorforce.py 446-450) *)
Definition construct (states actions : specs) (internals : list string) : list string * res (list string) :=
  let ws := flat_map state_warning (items states) in
  match add_values "state" states ["deterministic"; "parallel"; "reward"; "terminal"] with
  | Err e => (ws, Err e)
  | Ok names =>
      match actions_check (items actions) with
      | (wa, Err e) => (ws ++ wa, Err e)
      | (wa, Ok _) => (ws ++ wa, do names' <- add_values "action" actions names; add_names internals names')
      end
  end.

(** * Configuration *)

(** element of an iterable: a string or something else (model.py 190) *)
Inductive item := IStr (s : string) | IOther.
(** a value: None, a string, a list or another iterable, or something which is not iterable (model.py
    187-205) *)
Inductive value := VNone | VStr (s : string) | VList (l : list item) | VOther.
(** saver, summarizer: None, a path or a dictionary (model.py 145-186) *)
Inductive config := CNone | CPath (s : string) | CDict (l : list (string * value)).
(** 'all' or a set of labels (model.py 188-197) *)
Inductive labels := All | Only (l : list item).

(** the value of a key (model.py 187) *)
Fixpoint lookup (k : string) (d : list (string * value)) : option value :=
  match d with [] => None | (k', v) :: q => if String.eqb k k' then Some v else lookup k q end.
(** key in (...) (model.py 149-152, 171) *)
Definition allowed (ks : list string) (d : list (string * value)) : bool :=
  forallb (fun p => existsb (String.eqb (fst p)) ks) d.
(** x in s for strings (agents/tensorforce.py 331) *)
Definition substring_of (x s : string) : bool := match index 0 x s with Some _ => true | None => false end.
(** if summarizer is not None and 'labels' in summarizer: raise (agents/tensorforce.py 331-334) *)
Definition deprecated (c : config) : bool :=
  match c with
  | CNone => false
  | CPath s => substring_of "labels" s
  | CDict d => existsb (fun p => String.eqb (fst p) "labels") d
  end.
(** saver, summarizer: keys and directory (model.py 145-163, 166-182) *)
Definition checked (ks : list string) (c : config) : res (option (list (string * value))) :=
  match c with
  | CNone => Ok None
  | CPath s => Ok (Some [("directory", VStr s)])
  | CDict d => if negb (allowed ks d) then Err "not from"
               else match lookup "directory" d with None => Err "required" | Some _ => Ok (Some d) end
  end.
(** the keys of saver (model.py 150-151) *)
Definition saver_keys := ["directory"; "filename"; "frequency"; "load"; "max_checkpoints"; "max_hour_frequency"; "unit"].
(** the keys of summarizer (model.py 172) *)
Definition summarizer_keys := ["directory"; "filename"; "flush"; "max_summaries"; "summaries"].
(** the letters of a string, when iterated (model.py 190, 197, 205) *)
Fixpoint letters (s : string) : list item :=
  match s with EmptyString => [] | String a r => IStr (String a EmptyString) :: letters r end.
(** summaries (model.py 187-197) *)
Definition summaries (v : option value) : res labels :=
  match v with
  | None | Some VNone => Ok All
  | Some (VStr s) => if String.eqb s "all" then Ok All else Ok (Only (letters s))
  | Some (VList l) => if forallb (fun x => match x with IStr _ => true | IOther => false end) l then Ok (Only l) else Err "summaries"
  | Some VOther => Err "TypeError"
  end.
(** tracking (model.py 200-205) *)
Definition tracking (v : value) : res labels :=
  match v with
  | VNone => Ok (Only [])
  | VStr s => if String.eqb s "all" then Ok All else Ok (Only (letters s))
  | VList l => Ok (Only l)
  | VOther => Err "TypeError"
  end.
(** the configuration of an agent: saver, summarizer with its labels, tracked labels *)
(** (model.py 145-205, agents/tensorforce.py 331-334) *)
Definition configure (saver summarizer : config) (track : value)
  : res (option (list (string * value)) * option (list (string * value)) * labels * labels) :=
  if deprecated summarizer then Err "deprecated" else
  do s <- checked saver_keys saver;
  do z <- checked summarizer_keys summarizer;
  do l <- match z with None => Ok (Only []) | Some d => summaries (lookup "summaries" d) end;
  do t <- tracking track;
  Ok (s, z, l, t).
(** root.summaries == 'all' or label in root.summaries (module.py 669, 696, 725, 762) *)
Definition selected (l : labels) (label : string) : bool :=
  match l with All => true | Only s => existsb (fun x => match x with IStr y => String.eqb label y | IOther => false end) s end.
(** 'graph' in self.summaries (model.py 382) *)
Definition graph_traced (l : labels) : bool := match l with All => substring_of "graph" "all" | Only _ => selected l "graph" end.

(** * Summaries *)

Section Data.
Variable A : Type.

(** the variables for the last steps (module.py 669-673) *)
Definition steps := list (string * Z).
(** the last step of a name (module.py 726, 746) *)
Fixpoint step_of (k : string) (st : steps) : option Z :=
  match st with [] => None | (k', t) :: q => if String.eqb k k' then Some t else step_of k q end.
(** assignment of a variable (module.py 744-745) *)
Fixpoint assign (k : string) (t : Z) (st : steps) : steps :=
  match st with [] => [] | (k', t') :: q => if String.eqb k k' then (k', t) :: q else (k', t') :: assign k t q end.
(** register_summary; a single name is a list with one element (module.py 651-673) *)
Definition register (l : labels) (label : string) (names : list string) (st : steps) : res steps :=
  match names with
  | [] => Err "IndexError"
  | k :: _ => match step_of k st with
              | Some _ => Err "already exists"
              | None => Ok (if selected l label then (k, -1)%Z :: st else st)
              end
  end.
(** a call of summary: label, names, values and the name and value of the counter (module.py 706) *)
Record scall := SCall { s_label : string; s_names : list string; s_data : list A; s_unit : string; s_time : Z }.
(** the names of the counters (model.py 293-295) *)
Definition units := ["timesteps"; "episodes"; "updates"].
(** what is written: name, step and value (module.py 739, 742) *)
Definition entry := (string * Z * A)%type.
(** summary (module.py 706-752) *)
Definition summary (l : labels) (c : scall) (st : steps) : res (steps * list entry) :=
  match s_names c with
  | [] => Err "IndexError"
  | k :: _ =>
      if negb (existsb (String.eqb (s_unit c)) units) then Err "step" else
      if selected l (s_label c) then
        match step_of k st with
        | None => Err "is not registered"
        | Some t =>
            if (t <? s_time c)%Z
            then Ok (assign k (s_time c) st, map (fun p => (fst p, s_time c, snd p)) (combine (s_names c) (s_data c)))
            else Ok (st, [])
        end
      else Ok (st, [])
  end.
(** calls one after the other and what they write (module.py 706-752) *)
Fixpoint calls (l : labels) (cs : list scall) (st : steps) : res (steps * list entry) :=
  match cs with
  | [] => Ok (st, [])
  | c :: q => do r <- summary l c st; do r' <- calls l q (fst r); Ok (fst r', snd r ++ snd r')
  end.
(** registrations one after the other (module.py 651-673) *)
Fixpoint registers (l : labels) (rs : list (string * list string)) (st : steps) : res steps :=
  match rs with [] => Ok st | (label, names) :: q => do st' <- register l label names st; registers l q st' end.

(** * Tracked tensors *)

(** name.replace('/', '_') (module.py 167) *)
Fixpoint replace (s : string) : string :=
  match s with EmptyString => EmptyString | String a r => String (if Ascii.eqb a "/" then "_"%char else a) (replace r) end.
(** a module: the name requested, its tracking variables with their values, its submodules (module.py
    166-180, 675-700) *)
Inductive module := Module (name : string) (variables : list (string * A)) (subs : list module).
(** the name requested (module.py 166) *)
Definition requested (m : module) : string := match m with Module n _ _ => n end.
(** submodule: any(name == module.name for module in self.this_submodules) (module.py 487-488) *)
Fixpoint subs_ok (taken : list string) (names : list string) : bool :=
  match names with
  | [] => true
  | n :: q => if existsb (String.eqb n) taken then false else subs_ok (replace n :: taken) q
  end.
(** the constructors of all modules succeed (module.py 481-505) *)
Fixpoint created (m : module) : bool :=
  match m with Module _ _ subs => subs_ok [] (map requested subs) && forallb created subs end.
(** full_name/name of the variables of a module and its submodules (module.py 213-214, 778-788; the
    model itself, model.py 212-213) *)
Fixpoint entries (prefix : string) (m : module) : list (string * A) :=
  match m with
  | Module n vs subs =>
      let full := (prefix ++ replace n)%string in
      map (fun p => (full ++ "/" ++ fst p, snd p)%string) vs ++ flat_map (entries (full ++ "/")%string) subs
  end.
(** d[k] = v for dictionaries (module.py 787) *)
Fixpoint set (k : string) (v : A) (d : list (string * A)) : list (string * A) :=
  match d with [] => [(k, v)] | (k', v') :: q => if String.eqb k k' then (k', v) :: q else (k', v') :: set k v q end.
(** tracked_tensors() (module.py 778-788) *)
Definition tracked_tensors (m : module) : list (string * A) :=
  fold_left (fun d p => set (fst p) (snd p) d) (entries "" m) [].
(** register_tracking: initially zeros (module.py 675-700) *)
Definition register_tracking (l : labels) (zero : A) (label name : string) (vs : list (string * A)) : res (list (string * A)) :=
  if existsb (fun p => String.eqb (fst p) name) vs then Err "already exists"
  else Ok (if selected l label then vs ++ [(name, zero)] else vs).
(** track: the variable is assigned (module.py 754-776) *)
Definition track (l : labels) (label name : string) (data : A) (vs : list (string * A)) : res (list (string * A)) :=
  if selected l label
  then if existsb (fun p => String.eqb (fst p) name) vs then Ok (set name data vs) else Err "is not registered"
  else Ok vs.
(** registrations (module.py 675-700) *)
Fixpoint track_registers (l : labels) (zero : A) (rs : list (string * string)) (vs : list (string * A)) : res (list (string * A)) :=
  match rs with [] => Ok vs | (label, name) :: q => do vs' <- register_tracking l zero label name vs; track_registers l zero q vs' end.
(** calls of track (module.py 754-776) *)
Fixpoint tracks (l : labels) (cs : list (string * string * A)) (vs : list (string * A)) : res (list (string * A)) :=
  match cs with [] => Ok vs | (label, name, x) :: q => do vs' <- track l label name x vs; tracks l q vs' end.
End Data.

(** * Directories of summaries *)

(** directories of summaries, by time, with the number of their files (model.py 251-255) *)
Definition dirs := list (nat * nat).
(** for subdir in ...: os.remove(first file); os.rmdir(subdir) (model.py 268-271) *)
Fixpoint prune (n : nat) (d : dirs) : dirs * res unit :=
  match n, d with
  | O, _ | _, [] => (d, Ok tt)
  | S n', (t, files) :: q =>
      match files with
      | O => (d, Err "IndexError")
      | S O => prune n' q
      | S f => ((t, f) :: q, Err "OSError")
      end
  end.
(** the writer creates a file in directory/filename, sorted (model.py 251, 273-282) *)
Fixpoint add_file (t : nat) (d : dirs) : dirs :=
  match d with
  | [] => [(t, 1)]
  | (t', f) :: q => if Nat.eqb t t' then (t', S f) :: q else if Nat.ltb t t' then (t, 1) :: d else (t', f) :: add_file t q
  end.
(** the directory at initialization, without filename (model.py 249-282) *)
Definition initialize (max_summaries : option nat) (t : nat) (d : dirs) : dirs * res unit :=
  let m := match max_summaries with None => 7 | Some m => m end in
  match (if Nat.ltb (m - 1) (length d) then prune (S (length d) - m) d else (d, Ok tt)) with
  | (d', Ok _) => (add_file t d', Ok tt)
  | (d', Err e) => (d', Err e)
  end.
(** several agents one after the other, each without or with an error (model.py 249-282) *)
Fixpoint agents (m : option nat) (ts : list nat) (d : dirs) : dirs * list (res unit) :=
  match ts with
  | [] => (d, [])
  | t :: q => let (d', r) := initialize m t d in let (d'', rs) := agents m q d' in (d'', r :: rs)
  end.
