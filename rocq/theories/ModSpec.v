(** Specification of module specifications: what a call results in. *)
From Coq Require Import String List ZArith Bool.
From Verif Require Import Base SigModel ModModel.
Import ListNotations.
Open Scope string_scope.
Open Scope list_scope.

Section Spec.
Variable W : world.
Variable name : string.
Variable ms : option dict.
(** The call returns or raises this. *)
Definition results (a : args) (r : res outcome) : Prop := exists n, run W name ms n a = Some r.
(** Two calls return or raise the same. *)
Definition same (a b : args) : Prop := forall r, results a r <-> results b r.
(** A call always raises. *)
Definition rejected (a : args) : Prop := exists e, results a (Err e).
End Spec.
(** None of the keyword arguments is a parameter of the call or the internal key of first
    arguments. *)
Definition plain (kw : dict) : Prop := forall k, In k (map fst kw) -> ~ In k ("_first_arg" :: parameters).
(** The names of the first dictionary are not in the second. *)
Definition disjoint (a b : dict) : Prop := forall k, In k (map fst a) -> ~ In k (map fst b).
(** The entries of a dictionary without its type. *)
Definition others (d : dict) : dict := filter (fun e => negb (String.eqb "type" (fst e))) d.
(** Values which compare as equal: the same, or a boolean and its number. *)
Inductive equal_atoms : atom -> atom -> Prop :=
| equal_same a : equal_atoms a a
| equal_bool b : equal_atoms (ABool b) (ANum (Z.b2z b))
| equal_num b : equal_atoms (ANum (Z.b2z b)) (ABool b).
(** No type, string or dictionary, and nothing that can be called except Keras models: a number,
    boolean, sequence, object or Keras model. *)
Definition first_argument (v : value) : Prop :=
  match v with
  | PAtom (ABool _) | PAtom (ANum _) | PAtom (AObj _) | PAtom (AKeras _) | PAtom (AClass KKeras _) | PSeq _ _ => True
  | _ => False
  end.
(** A class of modules or function. *)
Definition constructor_value (v : value) : Prop :=
  match v with PAtom (AFun _) | PAtom (AClass (KMulti | KLayer | KModule | KOther) _) => True | _ => False end.
(** The default is None, a keyword or a class of modules. *)
Definition default_value (ms : option dict) (d : value) : Prop :=
  match d with
  | PAtom ANone => True
  | PAtom (AStr s) => exists l, ms = Some l /\ In s (map fst l)
  | PAtom (AClass (KMulti | KLayer | KModule) _) => ms <> None
  | _ => False
  end.
(** The constructor which the default stands for, if there is no file of the default's name. *)
Inductive default_is (W : world) (l : dict) : value -> value -> Prop :=
| DClass k c : In k [KMulti; KLayer; KModule] -> default_is W l (PAtom (AClass k c)) (PAtom (AClass k c))
| DKey s v : m_file W s = None -> plook s l = Some v -> constructor_value v -> default_is W l (str s) v
| DEntry v : plook "default" l = Some v -> constructor_value v -> default_is W l none v.
