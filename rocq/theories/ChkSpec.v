(** What is expected of the checks, summaries, tracked tensors and directories of ChkModel.v. *)
From Coq Require Import String Ascii List Arith Bool ZArith QArith.
From Verif Require Import Base ChkModel.
Import ListNotations.
Open Scope string_scope.
Open Scope list_scope.
Open Scope nat_scope.

(** a bound with an infinite entry *)
Definition infinite (b : list num) : Prop := exists n, In (Inf n) b.
(** a bound which is given and finite *)
Definition finite (b : option (list num)) : Prop := exists l, b = Some l /\ ~ infinite l.
(** what may be wrong with the bounds of a value; the lower bound comes first *)
Inductive problem := NoMin | InfMin | NoMax | InfMax.
Definition first_problem (s : tspec) (p : problem) : Prop :=
  ty s = "float" /\
  match p with
  | NoMin => lo s = None
  | InfMin => exists l, lo s = Some l /\ infinite l
  | NoMax => finite (lo s) /\ hi s = None
  | InfMax => finite (lo s) /\ exists l, hi s = Some l /\ infinite l
  end.
(** bounds which need no remark *)
Definition faultless (s : tspec) : Prop := ty s = "float" -> finite (lo s) /\ finite (hi s).
(** the texts of the remarks *)
Definition state_text (p : problem) (name : string) : string :=
  (match p with
  | NoMin => "No min_value bound specified for state" | InfMin => "Infinite min_value bound for state"
  | NoMax => "No max_value bound specified for state" | InfMax => "Infinite max_value bound for state"
  end ++ name)%string.
Definition action_text (p : problem) (name : string) : string :=
  (match p with
  | NoMin => "No min_value specified for action" | InfMin => "Infinite min_value bound for action"
  | NoMax => "No max_value specified for action" | InfMax => "Infinite max_value bound for action"
  end ++ name)%string.
(** one remark for each value with a problem, in order *)
Inductive remarks (text : problem -> string -> string) : list (string * tspec) -> list string -> Prop :=
| remarks_nil : remarks text [] []
| remarks_skip name s l ws : faultless s -> remarks text l ws -> remarks text ((name, s) :: l) ws
| remarks_add name s l ws p : first_problem s p -> remarks text l ws -> remarks text ((name, s) :: l) (text p name :: ws).
(** values with the names shown in texts *)
Definition shown (v : specs) : list (string * tspec) :=
  match v with Single s => [("", s)] | Named l => map (fun p => (String " "%char (fst p), snd p)) l end.
(** the names of values *)
Definition own_names (single : string) (v : specs) : list string :=
  match v with Single _ => [single] | Named l => map fst l end.
Definition reserved : list string := ["terminal"; "reward"; "parallel"; "deterministic"].
Definition all_names (states actions : specs) (internals : list string) : list string :=
  reserved ++ own_names "state" states ++ own_names "action" actions ++ internals.
(** an action whose bounds are rejected *)
Definition rejected (s : tspec) : Prop := first_problem s InfMin \/ first_problem s InfMax.

(** the documented keys and counters *)
Definition saver_entries := ["load"; "directory"; "filename"; "unit"; "frequency"; "max_checkpoints"; "max_hour_frequency"].
Definition summarizer_entries := ["summaries"; "directory"; "filename"; "max_summaries"; "flush"].
Definition counters := ["updates"; "episodes"; "timesteps"].
(** a dictionary with keys from a list and a directory *)
Definition proper_dict (ks : list string) (d : list (string * value)) : Prop :=
  (forall k v, In (k, v) d -> In k ks) /\ exists v, In ("directory", v) d.
(** None, a path or such a dictionary *)
Definition proper_config (ks : list string) (c : config) : Prop :=
  match c with CNone => True | CPath _ => True | CDict d => proper_dict ks d end.
(** s contains x *)
Definition contains (x s : string) : Prop := exists a b, s = (a ++ x ++ b)%string.
(** iterables of strings, None and strings *)
Definition label_list (v : value) : Prop :=
  match v with VNone => True | VStr _ => True | VList l => forall x, In x l -> exists s, x = IStr s | VOther => False end.
(** the keys of dictionaries are distinct *)
Definition keyed (c : config) : Prop := match c with CDict d => NoDup (map fst d) | _ => True end.

(** No earlier call with the same first name had this or a later step. *)
Definition fresh {A} (earlier : list (scall A)) (l : labels) (c : scall A) : Prop :=
  forall b, In b earlier -> selected l (s_label _ b) = true -> hd_error (s_names _ b) = hd_error (s_names _ c) -> (s_time _ b < s_time _ c)%Z.
(** what one call writes *)
Definition written {A} (c : scall A) : list (entry A) :=
  map (fun p => (fst p, s_time _ c, snd p)) (combine (s_names _ c) (s_data _ c)).

(** a string without '/' *)
Definition plain (s : string) : Prop := replace s = s.
(** a module with plain names, also of its tracking variables, and distinct names of submodules and variables *)
Inductive tidy {A} : module A -> Prop :=
| tidy_module n vs subs : plain n -> NoDup (map fst vs) -> (forall k x, In (k, x) vs -> plain k) ->
    NoDup (map (requested A) subs) -> (forall m, In m subs -> tidy m) -> tidy (Module A n vs subs).
(** the variable k of the module at a path of names *)
Inductive variable_at {A} : module A -> list string -> string -> A -> Prop :=
| va_here n vs subs k x : In (k, x) vs -> variable_at (Module A n vs subs) [] k x
| va_sub n vs subs m p k x : In m subs -> variable_at m p k x -> variable_at (Module A n vs subs) (requested A m :: p) k x.
(** names separated by '/' *)
Definition joined (ns : list string) (k : string) : string := fold_right (fun n r => (n ++ String "/"%char r)%string) k ns.

(** directories in order of time, each with one file *)
Definition ordered (d : dirs) : Prop := forall a b c t f t' f', d = a ++ (t, f) :: b ++ (t', f') :: c -> t < t'.
Definition single_files (d : dirs) : Prop := forall t f, In (t, f) d -> f = 1.
(** increasing times, later than some time *)
Fixpoint later (t0 : nat) (ts : list nat) : Prop := match ts with [] => True | t :: q => t0 < t /\ later t q end.
(** the last m elements *)
Definition newest {A} (m : nat) (l : list A) : list A := skipn (length l - m) l.
