(** What is expected of variables and of the scripts: independent of their code. *)

From Coq Require Import String Ascii List ZArith QArith Bool Arith.
From Verif Require Import Base CfgModel ToolModel.
Import ListNotations.
Open Scope string_scope.
Open Scope list_scope.
Open Scope Z_scope.

(** ** Variables *)
(** Numbers of a type; bools are ints, too *)
Inductive typed : number -> atype -> Prop :=
| typed_bool b : typed (NBool b) TBool
| typed_bool_int b : typed (NBool b) TInt
| typed_int n : typed (NInt n) TInt
| typed_float q : typed (NFloat q) TFloat.
(** Number of entries *)
Inductive entries : list Z -> Z -> Prop :=
| entries_nil : entries [] 1
| entries_cons x l n : entries l n -> entries (x :: l) (x * n).
(** Initializers which are accepted for a type, a shape and a scale, and their values *)
Inductive initialized (t : atype) (shape : list Z) : initializer -> option number -> values -> Prop :=
| init_number n : typed n t -> initialized t shape (INumber n) None (Filled n)
| init_array : initialized t shape (IArray t shape) None Same
| init_tensor : initialized t shape (ITensor t shape) None Same
| init_zeros n : typed n t -> (n = NBool false \/ n = NInt 0 \/ n = NFloat 0) -> (t = TInt -> n = NInt 0) -> initialized t shape (IName "zeros") None (Filled n)
| init_ones n : typed n t -> (n = NBool true \/ n = NInt 1 \/ n = NFloat 1) -> (t = TInt -> n = NInt 1) -> initialized t shape (IName "ones") None (Filled n)
| init_constant n : typed n t -> initialized t shape (IName "constant") (Some n) (Filled n)
| init_normal ins out n v : t = TFloat -> shape = ins ++ [out] -> entries ins n ->
    v = Qminmax.Qmin (1 # 100) (2 / inject_Z (n + out)) -> initialized t shape (IName "normal") None (Normal v)
| init_normal_relu ins out n v : t = TFloat -> (shape = ins ++ [out] \/ (shape = [] /\ ins = [])) -> entries ins n ->
    v = Qminmax.Qmin (1 # 100) (2 / inject_Z n) -> initialized t shape (IName "normal-relu") None (Normal v)
| init_orthogonal (relu : bool) : t = TFloat -> (2 <= length shape)%nat ->
    initialized t shape (IName (if relu then "orthogonal-relu" else "orthogonal")) None (Orthogonal 1 relu)
| init_orthogonal_one (relu : bool) q : t = TFloat -> (2 <= length shape)%nat -> (q == 1)%Q ->
    initialized t shape (IName (if relu then "orthogonal-relu" else "orthogonal")) (Some (NFloat q)) (Orthogonal 1 relu)
| init_orthogonal_scale (relu : bool) q : t = TFloat -> (2 <= length shape)%nat -> (0 < q)%Q -> ~ (q == 1)%Q ->
    initialized t shape (IName (if relu then "orthogonal-relu" else "orthogonal")) (Some (NFloat q)) (Orthogonal q relu).
(** The same letters, but no slash *)
Inductive renamed : string -> string -> Prop :=
| renamed_nil : renamed "" ""
| renamed_slash s s' : renamed s s' -> renamed (String "/" s) (String "_" s')
| renamed_other c s s' : c <> "/"%char -> renamed s s' -> renamed (String c s) (String c s').

(** ** Lists in strings *)
Definition no_comma (s : string) : Prop := ~ exists a b, s = (a ++ "," ++ b)%string.
(** The words with commas between them *)
Fixpoint join (l : list string) : string :=
  match l with [] => "" | [w] => w | w :: q => (w ++ "," ++ join q)%string end.
(** A directory, or a directory and a filename *)
Inductive location : option string -> option setting -> Prop :=
| location_none : location None None
| location_directory s : no_comma s -> location (Some s) (Some (Text s))
| location_both d f : no_comma d -> no_comma f -> location (Some (d ++ "," ++ f)%string) (Some (Pair d f)).
Inductive hosts : option string -> option setting -> Prop :=
| hosts_none : hosts None None
| hosts_one s : no_comma s -> hosts (Some s) (Some (Text s))
| hosts_many l : (2 <= length l)%nat -> Forall no_comma l -> hosts (Some (join l)) (Some (Texts l)).
Inductive ports (int : string -> option Z) : option string -> option setting -> Prop :=
| ports_none : ports int None None
| ports_one s n : no_comma s -> int s = Some n -> ports int (Some s) (Some (Number n))
| ports_many l ns : (2 <= length l)%nat -> Forall no_comma l -> Forall2 (fun s n => int s = Some n) l ns -> ports int (Some (join l)) (Some (Numbers ns)).
(** The arguments of an environment need one *)
Inductive environments (o : options) : option (list (string * setting)) -> Prop :=
| environments_none : o_environment o = None -> o_level o = None -> o_visualize o = false -> o_visualize_directory o = None -> environments o None
| environments_some e l : o_environment o = Some e -> NoDup (map fst l) ->
    (forall k v, In (k, v) l <->
      (k = "environment" /\ v = Text e) \/ (k = "level" /\ exists x, o_level o = Some x /\ v = Text x) \/
      (k = "visualize" /\ o_visualize o = true /\ v = Flag true) \/
      (k = "visualize_directory" /\ exists x, o_visualize_directory o = Some x /\ v = Text x)) ->
    environments o (Some l).
(** The agent with what is kept and written *)
Definition agents (o : options) (l : list (string * setting)) : Prop :=
  exists a c s, o_agent o = Some a /\ location (o_checkpoints o) c /\ location (o_summaries o) s /\ NoDup (map fst l) /\
    forall k v, In (k, v) l <->
      (k = "agent" /\ v = Text a) \/ (k = "saver" /\ c = Some v) \/ (k = "summarizer" /\ s = Some v) \/
      (k = "recorder" /\ exists x, o_recordings o = Some x /\ v = Text x).

(** No arguments of an environment *)
Definition environment_free (o : options) : Prop := o_level o = None /\ o_visualize o = false /\ o_visualize_directory o = None.
(** A path is a directory, and needs a number of episodes *)
Definition path_ok (o : options) : Prop := forall x, o_path o = Some x -> x = false /\ o_episodes o <> None.
(** One return, or none *)
Definition cell {X} (x : option X) : list X := match x with Some x => [x] | None => [] end.

(** ** Configurations of the tuner *)
Definition within (a x b : Q) : Prop := (a <= x <= b)%Q.
Definition in_space (c : configuration) : Prop :=
  1 <= c_batch_size c <= 20 /\ within (1 # 100000) (c_learning_rate c) (1 # 10) /\ 1 <= c_multi_step c <= 20 /\ 1 <= c_horizon c <= 100 /\
  within (8 # 10) (c_discount c) 1 /\ In (c_importance_sampling c) ["no"; "yes"] /\ within (5 # 100) (c_clipping_value c) (13 # 10) /\
  within (3 # 1000000) (c_entropy_regularization c) 1 /\ In (c_baseline c) ["no"; "same"; "yes"] /\
  (c_baseline c = "no" -> c_baseline_weight c = None /\ c_estimate_advantage c = None) /\
  (c_baseline c <> "no" -> (exists w, c_baseline_weight c = Some w /\ within (1 # 100) w 100) /\
                           (exists e, c_estimate_advantage c = Some e /\ In e ["no"; "yes"])).
