(** Keys of nested dictionaries: 'a/b/c' is the list of its components, the key
    [None] the empty list.  Nothing here refers to the model of the code. *)

From Coq Require Import String List Bool.
Import ListNotations.
Open Scope string_scope.

(** The reserved name: as last component it means the same as [None]. *)
Definition single_name : string := "SINGLETON".

Fixpoint norm (key : list string) : list string :=
  match key with
  | [] => []
  | k :: sub => match sub with [] => if k =? single_name then [] else [k] | _ => k :: norm sub end
  end.

Fixpoint is_prefix (a b : list string) : bool :=
  match a, b with
  | [], _ => true
  | x :: a', y :: b' => (x =? y) && is_prefix a' b'
  | _, [] => false
  end.

(** Neither key is under the other. *)
Definition unrelated (a b : list string) : Prop :=
  is_prefix (norm a) (norm b) = false /\ is_prefix (norm b) (norm a) = false.
