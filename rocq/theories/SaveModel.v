(** Saving and restoring agents: which files are written, which file is picked
    when restoring, and which variables are overwritten.

    Python strings are lists of characters.  The file system is the content of
    one directory: the files in the order in which os.listdir gives them, and the
    path recorded in TensorFlow's "checkpoint" state file.

    Not modelled: the "saved-model" format (it cannot be restored), the
    CheckpointManager behind the saver argument, the directory part of paths
    (in particular the comparison at agent.py 717), sub-directories, the effect of
    the Model.reset() at the end of Model.restore() on variables other than the
    counters it returns, and non-ASCII digits in int(). *)

From Coq Require Import String Ascii List ZArith Lia Bool.
From Verif Require Import Base.
Import ListNotations.
Open Scope Z_scope.

Notation name := (list ascii).

(** ** Python strings *)

(** A string literal, e.g. '.npz' at agent.py 656. *)
Definition lit (x : string) : name := list_ascii_of_string x.

(** == on strings (agent.py 682, 694). *)
Fixpoint name_eqb (a b : name) : bool :=
  match a, b with
  | [], [] => true
  | x :: a, y :: b => Ascii.eqb x y && name_eqb a b
  | _, _ => false
  end.

(** str.startswith (agent.py 686, 698; model.py 891). *)
Fixpoint starts_with (p x : name) : bool :=
  match p, x with
  | [], _ => true
  | a :: p, b :: x => Ascii.eqb a b && starts_with p x
  | _ :: _, [] => false
  end.

(** str.endswith (agent.py 656, 659, 662, 687). *)
Definition ends_with (e x : name) : bool := starts_with (rev e) (rev x).

(** The position of the first occurrence, for "p in x" and x.index(p)
    (agent.py 653-654). *)
Fixpoint find (p x : name) : option nat :=
  if starts_with p x then Some 0%nat
  else match x with [] => None | _ :: x => option_map S (find p x) end.

(** The position after the last occurrence of a character, for rfind / rindex
    (agent.py 160-161; os.path.splitext at 159). *)
Fixpoint rfind (c : ascii) (x : name) : option nat :=
  match x with
  | [] => None
  | a :: x => match rfind c x with
              | Some k => Some (S k)
              | None => if Ascii.eqb a c then Some 0%nat else None
              end
  end.

(** os.path.splitext(filename)[0] (agent.py 159): the part before the last dot,
    unless only dots precede it. *)
Definition splitext (x : name) : name :=
  match rfind "."%char x with
  | None => x
  | Some k => if forallb (Ascii.eqb "."%char) (firstn k x) then x else firstn k x
  end.

(** A decimal digit, for str.isdigit and int() (agent.py 160, 690, 702). *)
Definition is_digit (c : ascii) : bool :=
  (48 <=? Z.of_nat (nat_of_ascii c)) && (Z.of_nat (nat_of_ascii c) <=? 57).

(** The value of a digit, for int() (agent.py 690, 702). *)
Definition digit_value (c : ascii) : Z := Z.of_nat (nat_of_ascii c) - 48.

(** The digit of a value, for str() (agent.py 725). *)
Definition digit_char (d : Z) : ascii := ascii_of_nat (Z.to_nat (d + 48)).

(** str.isdigit (agent.py 160). *)
Definition isdigit (x : name) : bool :=
  match x with [] => false | _ => forallb is_digit x end.

(** White space that int() ignores around the number (agent.py 690, 702). *)
Definition is_space (c : ascii) : bool :=
  let k := Z.of_nat (nat_of_ascii c) in
  (k =? 32) || ((9 <=? k) && (k <=? 13)) || ((28 <=? k) && (k <=? 31)).

(** Removing it on the left (agent.py 690, 702). *)
Fixpoint lstrip (x : name) : name :=
  match x with c :: r => if is_space c then lstrip r else x | [] => [] end.

(** Removing it on both sides (agent.py 690, 702). *)
Definition strip (x : name) : name := rev (lstrip (rev (lstrip x))).

(** The digits of int() (agent.py 690, 702): single underscores are allowed
    between digits. *)
Fixpoint digits (acc : Z) (x : name) : option Z :=
  match x with
  | [] => Some acc
  | c :: r =>
      if is_digit c then digits (10 * acc + digit_value c) r
      else match r with
           | d :: r => if Ascii.eqb c "_"%char && is_digit d
                       then digits (10 * acc + digit_value d) r else None
           | [] => None
           end
  end.

(** A number without sign, for int() (agent.py 690, 702). *)
Definition unsigned (x : name) : option Z :=
  match x with
  | c :: r => if is_digit c then digits (digit_value c) r else None
  | [] => None
  end.

(** int(x) (agent.py 690, 702). *)
Definition parse_int (x : name) : res Z :=
  let v := match strip x with
           | c :: r => if Ascii.eqb c "-"%char then option_map Z.opp (unsigned r)
                       else if Ascii.eqb c "+"%char then unsigned r
                       else unsigned (c :: r)
           | [] => None
           end in
  match v with
  | Some z => Ok z
  | None => Err "invalid literal for int()"
  end.

(** The decimal digits of a number, for str() (agent.py 725; model.py 803). *)
Fixpoint show_digits (fuel : nat) (n : Z) (acc : name) : name :=
  match fuel with
  | O => acc
  | S fuel => let acc := digit_char (n mod 10) :: acc in
              if n <? 10 then acc else show_digits fuel (n / 10) acc
  end.

(** str(n) (agent.py 725; model.py 803). *)
Definition show (n : Z) : name :=
  if n <? 0 then "-"%char :: show_digits (S (Z.to_nat (Z.log2 (- n)))) (- n) []
  else show_digits (S (Z.to_nat (Z.log2 n))) n [].

(** ** Files *)

(** The formats of agent.py 570 and 629 that can be restored. *)
Inductive format := Checkpoint | Numpy | Hdf5.

(** comparison of formats, agent.py 629-720 *)
Definition format_eqb (a b : format) : bool :=
  match a, b with
  | Checkpoint, Checkpoint | Numpy, Numpy | Hdf5, Hdf5 => true
  | _, _ => false
  end.

(** format in (None, f) (agent.py 682, 686, 693, 698). *)
Definition may_be (fmt : option format) (f : format) : bool :=
  match fmt with None => true | Some g => format_eqb g f end.

(** The counters a filename can end with (model.py 293-295, 803). *)
Inductive unit_ := Timesteps | Episodes | Updates.

Section Save.

(** Values of variables (model.py 892): their shape, and the Python int of a scalar. *)
Variable V : Type.
Variable shape : V -> list nat.
Variable item : V -> Z.
(** Agent specifications as written to the JSON file. *)
Variable spec : Type.

(** What a file contains (agent.py 606-611; model.py 850, 896, 901-909).  A checkpoint holds every variable the model tracks and
    the save counter of tf.train.Checkpoint. *)
Inductive content :=
| NpzFile (variables : list (name * V))
| Hdf5File (variables : list (name * V))
| CheckpointFile (model : name) (variables : list (name * V)) (save_counter : Z)
| SpecFile (s : spec)
| OtherFile.

(** A directory (agent.py 599, 681; model.py 850). *)
Record dir := Dir {
  d_files : list (name * content);
  d_latest : option name          (* the path in the "checkpoint" state file *)
}.

(** The file of a name, or the array stored under a key (model.py 945, 949). *)
Fixpoint lookup {A} (x : name) (l : list (name * A)) : option A :=
  match l with
  | [] => None
  | (y, c) :: l => if name_eqb x y then Some c else lookup x l
  end.

(** Writing a file, or an entry of the dictionary passed to np.savez (model.py
    892-896): an existing one is replaced. *)
Fixpoint put {A} (x : name) (c : A) (l : list (name * A)) : list (name * A) :=
  match l with
  | [] => [(x, c)]
  | (y, e) :: l => if name_eqb x y then (x, c) :: l else (y, e) :: put x c l
  end.

(** os.remove (agent.py 625). *)
Fixpoint remove {A} (x : name) (l : list (name * A)) : list (name * A) :=
  match l with
  | [] => []
  | (y, e) :: l => if name_eqb x y then remove x l else (y, e) :: remove x l
  end.

(** os.path.isfile (agent.py 652, 667-673, 711; model.py 963). *)
Definition isfile (d : dir) (x : name) : bool :=
  match lookup x (d_files d) with Some _ => true | None => false end.

(** Writing a file (agent.py 606; model.py 850, 896, 901). *)
Definition write (x : name) (c : content) (d : dir) : dir :=
  Dir (put x c (d_files d)) (d_latest d).

(** ** The agent *)

(** The model's name, its variables with their TensorFlow names -- those of
    Module.saved_variables (module.py 245-254) and the others -- the save counter,
    and the Agent attributes timesteps, episodes, updates. *)
Record agent := Agent {
  a_name : name;
  a_saved : list (name * V);
  a_unsaved : list (name * V);
  a_save_counter : Z;
  a_counters : Z * Z * Z
}.

(** The name of a counter variable (model.py 338-354, units at 293-295). *)
Definition counter_name (a : agent) (u : unit_) : name :=
  a_name a ++ lit "/" ++
  lit (match u with Timesteps => "timesteps" | Episodes => "episodes" | Updates => "updates" end)
  ++ lit ":0".

(** self.units[append].numpy().item() (model.py 803). *)
Definition counter (a : agent) (u : unit_) : res Z :=
  match lookup (counter_name a u) (a_saved a) with
  | Some v => Ok (item v)
  | None => Err "no such variable"
  end.

(** The key of a variable in a NumPy / HDF5 file (model.py 890-894, 903-909; the
    same at 947-951, 969-973). *)
Definition variable_key (a : agent) (v : name) : res name :=
  do _ <- assert_ (match slice v (-2) (-1) with [c] => Ascii.eqb c ":"%char | _ => false end)
                  "variable.name[-2] == ':'";
  if starts_with (a_name a ++ lit "/") v
  then Ok (slice v (Z.of_nat (length (a_name a)) + 1) (-2))
  else Ok (slice v 0 (-2)).

(** The dictionary passed to np.savez (model.py 888-896). *)
Fixpoint npz_variables (a : agent) (vs acc : list (name * V)) : res (list (name * V)) :=
  match vs with
  | [] => Ok acc
  | (v, x) :: vs =>
      do k <- variable_key a v;
      npz_variables a vs (put k x acc)
  end.

(** The datasets created in the HDF5 file (model.py 901-909): creating a dataset
    under a name already taken raises.  (Names that are used both as a group and
    as a dataset are not modelled.) *)
Fixpoint hdf5_variables (a : agent) (vs acc : list (name * V)) : res (list (name * V)) :=
  match vs with
  | [] => Ok acc
  | (v, x) :: vs =>
      do k <- variable_key a v;
      do _ <- assert_ (match lookup k acc with None => true | Some _ => false end)
                      "Unable to create dataset (name already exists)";
      hdf5_variables a vs (acc ++ [(k, x)])
  end.

(** Model.save (model.py 786-911) with a directory: the agent afterwards, the
    directory afterwards and the path (within the directory) returned.
    tf.train.Checkpoint.save numbers its files itself and records the path. *)
Definition model_save (d : dir) (a : agent) (filename : option name) (fmt : format)
    (append : option unit_) : res (agent * dir * name) :=
  let filename := match filename with Some f => f | None => a_name a end in
  do filename <- (match append with
                  | None => Ok filename
                  | Some u => do n <- counter a u; Ok (filename ++ lit "-" ++ show n)
                  end);
  match fmt with
  | Checkpoint =>
      let k := a_save_counter a + 1 in
      let path := filename ++ lit "-" ++ show k in
      let d := write (path ++ lit ".data-00000-of-00001") OtherFile d in
      let d := write (path ++ lit ".index")
                     (CheckpointFile (a_name a) (a_saved a ++ a_unsaved a) k) d in
      let d := write (lit "checkpoint") OtherFile d in
      Ok (Agent (a_name a) (a_saved a) (a_unsaved a) k (a_counters a),
          Dir (d_files d) (Some path), path)
  | Numpy =>
      do vs <- npz_variables a (a_saved a) [];
      let path := filename ++ lit ".npz" in
      Ok (a, write path (NpzFile vs) d, path)
  | Hdf5 =>
      do vs <- hdf5_variables a (a_saved a) [];
      let path := filename ++ lit ".hdf5" in
      Ok (a, write path (Hdf5File vs) d, path)
  end.

(** Agent.save (agent.py 570-627): the model, then the specification under the
    filename without the counter.  [js] is what could be encoded as JSON -- all of
    the specification, or the states and actions only, or nothing. *)
Definition save (d : dir) (a : agent) (filename : option name) (fmt : format)
    (append : option unit_) (js : option spec) : res (agent * dir * name) :=
  do (a, d, path) <- model_save d a filename fmt append;
  let filename := match filename with Some f => f | None => a_name a end in
  let spec_path := filename ++ lit ".json" in
  match js with
  | Some s => Ok (a, write spec_path (SpecFile s) d, path)
  | None => Ok (a, Dir (remove spec_path (d_files d)) (d_latest d), path)
  end.

(** ** Restoring *)

(** tf.train.latest_checkpoint (agent.py 713): the recorded path, if its files
    exist. *)
Definition latest_checkpoint (d : dir) : option name :=
  match d_latest d with
  | Some path => if isfile d (path ++ lit ".index") then Some path else None
  | None => None
  end.

(** One round of the loop over os.listdir (agent.py 681-704).  [found] is None or
    a format, [latest] is None or an int. *)
Definition scan_step (fmt : option format) (filename x : name)
    (s : option format * option Z) : res (option format * option Z) :=
  let (found, latest) := s in
  let newer n :=
    match latest with
    | None => Err "'>' not supported between instances of 'int' and 'NoneType'"
    | Some l => Ok (if n >? l then n else l)
    end in
  if may_be fmt Numpy && name_eqb x (filename ++ lit ".npz") then
    do _ <- assert_ (match found with None => true | _ => false end) "found is None";
    Ok (Some Numpy, None)
  else if may_be fmt Numpy && starts_with filename x && ends_with (lit ".npz") x then
    do _ <- assert_ (match found with None | Some Numpy => true | _ => false end)
                    "found is None or found == 'numpy'";
    do n <- parse_int (slice x (Z.of_nat (length filename) + 1) (-4));
    do l <- newer n;
    Ok (Some Numpy, Some l)
  else if may_be fmt Hdf5 &&
          (name_eqb x (filename ++ lit ".hdf5") || name_eqb x (filename ++ lit ".h5")) then
    do _ <- assert_ (match found with None => true | _ => false end) "found is None";
    Ok (Some Hdf5, None)
  else if may_be fmt Hdf5 && starts_with filename x &&
          (ends_with (lit ".hdf5") x || ends_with (lit ".h5") x) then
    do _ <- assert_ (match found with None | Some Hdf5 => true | _ => false end)
                    "found is None or found == 'hdf5'";
    do n <- parse_int (slice x (Z.of_nat (length filename) + 1) (-5));
    do l <- newer n;
    Ok (Some Hdf5, Some l)
  else Ok (found, latest).

(** The loop (agent.py 679-704). *)
Fixpoint scan (fmt : option format) (filename : name) (listing : list name)
    (s : option format * option Z) : res (option format * option Z) :=
  match listing with
  | [] => Ok s
  | x :: listing => do s <- scan_step fmt filename x s; scan fmt filename listing s
  end.

(** The format and file that Agent.restore hands to Model.restore
    (agent.py 648-725). *)
Definition select_file (d : dir) (filename : name) (fmt : option format)
    : res (name * format) :=
  let none := match fmt with None => true | Some _ => false end in
  if none && isfile d filename then
    match find (lit ".data-") filename with
    | Some k => Ok (firstn k filename, Checkpoint)
    | None =>
        if ends_with (lit ".npz") filename then Ok (slice filename 0 (-4), Numpy)
        else if ends_with (lit ".hdf5") filename then Ok (slice filename 0 (-5), Hdf5)
        else if ends_with (lit ".h5") filename then Ok (slice filename 0 (-3), Hdf5)
        else Err "assert False"
    end
  else if none && isfile d (filename ++ lit ".index") then Ok (filename, Checkpoint)
  else if none && isfile d (filename ++ lit ".npz") then Ok (filename, Numpy)
  else if none && (isfile d (filename ++ lit ".hdf5") || isfile d (filename ++ lit ".h5"))
  then Ok (filename, Hdf5)
  else
    do (found, latest) <- scan fmt filename (map fst (d_files d)) (None, Some (-1));
    match latest with
    | Some (-1) =>
        do _ <- assert_ (match fmt with None | Some Checkpoint => true | _ => false end)
                        "format == 'checkpoint'";
        if isfile d (filename ++ lit ".index") then Ok (filename, Checkpoint)
        else match latest_checkpoint d with
             | None => Err "Checkpoint does not exist"
             | Some path => Ok (path, Checkpoint)
             end
    | _ =>
        let found := match found with Some f => f | None => Checkpoint (* not reached *) end in
        do _ <- assert_ (match fmt with None => true | Some f => format_eqb f found end)
                        "format == found";
        Ok (match latest with
            | None => filename
            | Some n => filename ++ lit "-" ++ show n
            end, found)
    end.

(** variable.assign(value) (model.py 949-951, 971-973): the shape has to agree. *)
Definition assign (old new : V) : res V :=
  if list_eq_dec Nat.eq_dec (shape old) (shape new) then Ok new
  else Err "Cannot assign value to variable: Shape mismatch".

(** The loop over the saved variables (model.py 946-951, 968-973): the variables
    afterwards, and the error if one was raised on the way. *)
Fixpoint assign_all (a : agent) (stored vs : list (name * V)) : list (name * V) * res unit :=
  match vs with
  | [] => ([], Ok tt)
  | (v, x) :: vs =>
      match (do k <- variable_key a v;
             match lookup k stored with
             | None => Err "KeyError"
             | Some y => assign x y
             end) with
      | Err e => ((v, x) :: vs, Err e)
      | Ok y => let (vs, r) := assign_all a stored vs in ((v, y) :: vs, r)
      end
  end.

(** tf.train.Checkpoint.restore(path).expect_partial() (module.py 296-311): every
    tracked variable present in the checkpoint under the same model name is
    assigned, the others silently keep their value. *)
Fixpoint assign_present (stored vs : list (name * V)) : list (name * V) * res unit :=
  match vs with
  | [] => ([], Ok tt)
  | (v, x) :: vs =>
      match (match lookup v stored with None => Ok x | Some y => assign x y end) with
      | Err e => ((v, x) :: vs, Err e)
      | Ok y => let (vs, r) := assign_present stored vs in ((v, y) :: vs, r)
      end
  end.

(** Model.restore (model.py 915-979) with the directory and file name that
    Agent.restore passes; the counters are those that self.reset() returns. *)
Definition model_restore (d : dir) (a : agent) (filename : name) (fmt : format)
    : agent * res (Z * Z * Z) :=
  let counters a := (do t <- counter a Timesteps; do e <- counter a Episodes;
                     do u <- counter a Updates; Ok (t, e, u)) in
  let from_saved stored :=
    let (vs, r) := assign_all a stored (a_saved a) in
    let a := Agent (a_name a) vs (a_unsaved a) (a_save_counter a) (a_counters a) in
    (a, do _ <- r; counters a) in
  match fmt with
  | Checkpoint =>
      match lookup (filename ++ lit ".index") (d_files d) with
      | Some (CheckpointFile model stored k) =>
          let stored := if name_eqb model (a_name a) then stored else [] in
          let (vs, r) := assign_present stored (a_saved a) in
          let (us, r') := match r with
                          | Ok _ => assign_present stored (a_unsaved a)
                          | Err e => (a_unsaved a, Err e)
                          end in
          let a := Agent (a_name a) vs us (match r' with Ok _ => k | _ => a_save_counter a end)
                         (a_counters a) in
          (a, do _ <- r'; counters a)
      | _ => (a, Err "NotFoundError: no such checkpoint")
      end
  | Numpy =>
      match lookup (filename ++ lit ".npz") (d_files d) with
      | Some (NpzFile stored) => from_saved stored
      | _ => (a, Err "np.load: no such file, or not an npz file")
      end
  | Hdf5 =>
      let path := if isfile d (filename ++ lit ".hdf5") then filename ++ lit ".hdf5"
                  else filename ++ lit ".h5" in
      match lookup path (d_files d) with
      | Some (Hdf5File stored) => from_saved stored
      | _ => (a, Err "h5py.File: no such file, or not an hdf5 file")
      end
  end.

(** Agent.restore (agent.py 629-729). *)
Definition restore (d : dir) (a : agent) (filename : option name) (fmt : option format)
    : agent * res unit :=
  let filename := match filename with Some f => f | None => a_name a end in
  match select_file d filename fmt with
  | Err e => (a, Err e)
  | Ok (filename, fmt) =>
      let (a, r) := model_restore d a filename fmt in
      match r with
      | Err e => (a, Err e)
      | Ok counters =>
          (Agent (a_name a) (a_saved a) (a_unsaved a) (a_save_counter a) counters, Ok tt)
      end
  end.

(** The specification file that Agent.load reads (agent.py 156-171), if any.  The
    directory in front of the file name contains no digit-only part after its last
    dash, since a path separator follows it. *)
Definition load_spec (d : dir) (filename : option name) : option content :=
  let filename := match filename with Some f => f | None => lit "agent" end in
  let stem := splitext filename in
  if isfile d (stem ++ lit ".json") then lookup (stem ++ lit ".json") (d_files d)
  else match rfind "-"%char stem with
       | Some k => if isdigit (skipn (S k) stem)
                   then lookup (firstn k stem ++ lit ".json") (d_files d)
                   else None
       | None => None
       end.

End Save.
