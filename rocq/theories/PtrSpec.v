(** Specification for pretrain: recordings and the files that hold parts of them. *)

From Coq Require Import String List ZArith Bool.
From Verif Require Import Base InpModel InpSpec ExpModel ExpSpec.
Import ListNotations.
Open Scope string_scope.
Open Scope list_scope.
Open Scope nat_scope.

Section Spec.
Variable V : Type.

(** The files of a directory with an extension, in its order *)
Inductive found (ext : string) : list (entry V) -> list (file V) -> Prop :=
| found_nil : found ext [] []
| found_file f d fs : found ext d fs -> found ext ((ext, Some f) :: d) (f :: fs)
| found_other e f d fs : e <> ext -> found ext d fs -> found ext ((e, Some f) :: d) fs
| found_no_file e d fs : found ext d fs -> found ext ((e, None) :: d) fs.

(** A file with [k] timesteps of a recording after the first [o]: the values of all its names as arrays *)
Definition holds (d : list (string * tree (list (arr V)))) (ok : nat * nat) (f : file V) : Prop :=
  f = map (fun e => (fst e, pile V (part (fst ok) (snd ok) (snd e)))) (entries (Dict d)).

(** Numbers as arrays *)
Definition scalars (vs : list V) : list (arr V) := map (fun v => Arr [] [v]) vs.

(** The names of a recording of the [n] timesteps [x]; the internals may be missing if they are the initial ones, masks are
    'auxiliaries' whose names end with '/mask' *)
Record recording (initial : tree (arr V)) (n : nat) (x : trace V) (d : list (string * tree (list (arr V)))) : Prop := {
  names_differ : NoDup (map fst d);
  names_known : forall k, In k (map fst d) -> In k ["states"; "actions"; "terminal"; "reward"; "internals"; "auxiliaries"];
  no_empty_part : Forall (fun kt => no_empty (snd kt)) d;
  has_actions : dget "actions" d = Some (t_actions V x);
  has_terminal : dget "terminal" d = Some (Leaf (scalars (t_terminal V x)));
  has_reward : dget "reward" d = Some (Leaf (scalars (t_reward V x)));
  has_internals : dget "internals" d = Some (t_internals V x) \/
    dget "internals" d = None /\ t_internals V x = always V n initial;
  has_states : dget "auxiliaries" d = None /\ dget "states" d = Some (t_states V x) \/
    exists s masks, dget "auxiliaries" d = Some (Dict (map (fun m => (fst m, Dict [("mask", Leaf (snd m))])) masks)) /\
      dget "states" d = Some (Dict s) /\ t_states V x = Dict (s ++ map (fun m => ((fst m ++ "_mask")%string, Leaf (snd m))) masks)
}.

(** What experience accepts: a single state only with a single action and without internals, and the name 'action' not for
    the only action, internals may be missing if they are numbers *)
Definition usable (initial : tree (arr V)) (x : trace V) (d : list (string * tree (list (arr V)))) : Prop :=
  match t_states V x with
  | Leaf _ => (exists xs, t_actions V x = Leaf xs) /\ dget "internals" d = None
  | Dict _ => (forall xs, t_actions V x <> Dict [("action", Leaf xs)]) /\
              (dget "internals" d = None -> forall p a, In (p, a) (entries initial) -> shape a = [])
  end.

(** A choice of [k] different files, or of all of them *)
Definition choice (files : nat) (num : option Z) (sel : list nat) : Prop :=
  NoDup sel /\ (forall j, In j sel -> j < files) /\
  length sel = match num with None => files | Some k => Nat.min (Z.to_nat k) files end.
End Spec.

Section Recorder.
Variable V : Type.
(** The values of episodes with the given lengths, all of the same shape *)
Definition lengths (ls : list nat) {A} (eps : list (list A)) : Prop := map (@length A) eps = ls.
Definition episodic (ls : list nat) (eps : list (list (arr V))) : Prop :=
  lengths ls eps /\ exists sh, forall e x, In e eps -> In x e -> shape x = sh.
Definition sum (ls : list nat) : nat := fold_right Nat.add 0 ls.
(** The recording of some episodes *)
Definition record_of (S A : tree (list (list (arr V)))) (t r : list (list V)) : list (string * tree (list (arr V))) :=
  [("states", tmap (@concat _) S); ("actions", tmap (@concat _) A); ("terminal", Leaf (scalars V (concat t))); ("reward", Leaf (scalars V (concat r)))].
End Recorder.
