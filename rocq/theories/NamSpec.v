(** Specification of layer names and of the registry of layers. *)
From Coq Require Import String Ascii List Arith Bool.
From Verif Require Import Base NamModel.
Import ListNotations.
Open Scope string_scope.
Open Scope list_scope.
Open Scope nat_scope.

(** The layers of a network specification in order. *)
Fixpoint flat (n : nspec) : list lspec :=
  match n with NLayer l => [l] | NList ns => flat_map flat ns end.
(** How many of the layers have no name of their own and this type. *)
Fixpoint count (t : string) (ls : list lspec) : nat :=
  match ls with
  | [] => 0
  | l :: r => match given_name l with None => if String.eqb (layer_type l) t then S (count t r) else count t r | Some _ => count t r end
  end.
(** The name of a layer after others: its own, or its type and the number of layers before with this
    type and without own name. *)
Definition name_after (before : list lspec) (l : lspec) : string :=
  match given_name l with Some n => n | None => (layer_type l ++ str (count (layer_type l) before))%string end.
Fixpoint names_after (before ls : list lspec) : list string :=
  match ls with [] => [] | l :: r => name_after before l :: names_after (before ++ [l]) r end.
Definition names (ls : list lspec) : list string := names_after [] ls.

(** An object is the layer with this name which the specification describes; the layers of a block
    have names of their own counting. *)
Inductive fits : string -> lspec -> obj -> Prop :=
| fits_plain n a t i : fits n (LPlain a t) (OPlain i n)
| fits_temporal n a t i : fits n (LTemporal a t) (OTemporal i n)
| fits_reuse n a t x i : fits n (LReuse a t x) (OReuse i n x)
| fits_block n a t ls i os : ls <> [] -> NoDup (names ls) -> all_fit (names ls) ls os -> fits n (LBlock a t ls) (OBlock i n os)
with all_fit : list string -> list lspec -> list obj -> Prop :=
| fit_nil : all_fit [] [] []
| fit_cons n ns l ls o os : fits n l o -> all_fit ns ls os -> all_fit (n :: ns) (l :: ls) (o :: os).

(** All layers which belong to a layer, a block before its layers: in the order of their creation. *)
Fixpoint created (o : obj) : list obj :=
  o :: match o with OBlock _ _ os => flat_map created os | _ => [] end.
(** The last of the layers with this name. *)
Inductive last_of (t : string) : list obj -> obj -> Prop :=
| last_intro a x b : oname x = t -> (forall y, In y b -> oname y <> t) -> last_of t (a ++ x :: b) x.
(** A digit. *)
Definition digit (c : ascii) : Prop := 48 <= nat_of_ascii c <= 57.
(** The type does not end with a digit. *)
Definition no_digit (t : string) : Prop := forall a c, t = (a ++ String c "")%string -> ~ digit c.
(** A layer without reuse layers whose blocks are not empty and have layers of different names. *)
Inductive fine : lspec -> Prop :=
| fine_plain n t : fine (LPlain n t)
| fine_temporal n t : fine (LTemporal n t)
| fine_block n t ls : ls <> [] -> NoDup (names ls) -> (forall l, In l ls -> fine l) -> fine (LBlock n t ls).
(** A layer which is neither a block nor a reuse layer. *)
Definition basic (o : obj) : bool := match o with OPlain _ _ | OTemporal _ _ => true | _ => false end.
