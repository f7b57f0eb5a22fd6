(** What saving and restoring should do, in terms of file names and variables. *)

From Coq Require Import String Ascii List ZArith.
From Verif Require Import Base SaveModel.
Import ListNotations.
Open Scope Z_scope.

(** File names. *)
Definition begins (p x : name) : Prop := exists r, x = p ++ r.
Definition ends (e x : name) : Prop := exists r, x = r ++ e.
Definition contains (p x : name) : Prop := exists a b, x = a ++ p ++ b.

(** The checkpoint file of number n. *)
Definition numbered (f : name) (n : Z) (e : name) : name :=
  f ++ lit "-" ++ show n ++ e.

(** The extension with which a format is saved. *)
Definition extension (fmt : format) : name :=
  match fmt with
  | Checkpoint => lit ".index"
  | Numpy => lit ".npz"
  | Hdf5 => lit ".hdf5"
  end.

(** The format is given or left open. *)
Definition admits (fmt : option format) (g : format) : Prop := fmt = None \/ fmt = Some g.

(** [x] looks like a NumPy or HDF5 file saved under [f]. *)
Definition looks_saved (fmt : option format) (f x : name) : Prop :=
  begins f x /\
  (admits fmt Numpy /\ ends (lit ".npz") x \/
   admits fmt Hdf5 /\ (ends (lit ".hdf5") x \/ ends (lit ".h5") x)).

Section Spec.
Variable V : Type.
Variable shape : V -> list nat.
Variable item : V -> Z.
Variable spec : Type.

(** A file of the directory. *)
Definition present (d : dir V spec) (x : name) : Prop := In x (map fst (d_files _ _ d)).

(** [v] is stored under the key [k] by the model called [m]. *)
Definition stored_under (m v k : name) : Prop :=
  exists c, v = m ++ lit "/" ++ k ++ lit ":" ++ [c]
            \/ (~ begins (m ++ lit "/") v /\ v = k ++ lit ":" ++ [c]).

(** Different variables have different names and are stored under different keys
    (TensorFlow allows no colon in the name of a scope). *)
Definition well_named (m : name) (vs : list (name * V)) : Prop :=
  ~ In ":"%char m /\ NoDup (map fst vs) /\
  forall v w k, In v (map fst vs) -> In w (map fst vs) ->
    stored_under m v k -> stored_under m w k -> v = w.

(** The same variables: names and shapes, whatever the values. *)
Definition same_variables (vs ws : list (name * V)) : Prop :=
  Forall2 (fun p q => fst p = fst q /\ shape (snd p) = shape (snd q)) vs ws.

(** [b] is another state of the agent [a]. *)
Definition same_agent (a b : agent V) : Prop :=
  a_name _ a = a_name _ b /\ same_variables (a_saved _ a) (a_saved _ b) /\
  same_variables (a_unsaved _ a) (a_unsaved _ b).

(** A series of saves of the agent states [l], under the file name [f] followed by
    the counter [u], starting with directory [d0]. *)
Inductive saves (f : name) (fmt : format) (u : unit_) (d0 : dir V spec) :
    list (agent V) -> dir V spec -> Prop :=
| saves_nil : saves f fmt u d0 [] d0
| saves_snoc : forall l d a js a' d' path,
    saves f fmt u d0 l d ->
    save V item spec d a (Some f) fmt (Some u) js = Ok (a', d', path) ->
    saves f fmt u d0 (l ++ [a]) d'.

(** The counters of the variables of an agent. *)
Definition counters_of (a : agent V) (t e u : Z) : Prop :=
  counter V item a Timesteps = Ok t /\ counter V item a Episodes = Ok e /\
  counter V item a Updates = Ok u.

End Spec.
