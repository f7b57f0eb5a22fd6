(** Specification for OpenAIGym: how values of gym spaces are named, which spaces can be handled. *)

From Coq Require Import String Ascii List ZArith Reals Bool.
From Verif Require Import Base ParModel GymModel GymEnvModel.
Import ListNotations.
Open Scope string_scope.

(** No underscore in a name *)
Fixpoint plain_name (s : string) : bool :=
  match s with EmptyString => true | String c r => negb (Ascii.eqb c "_"%char) && plain_name r end.

(** All numbers of values are the same *)
Definition uniform (nvec : list Z) : bool := match nvec with [] => true | k :: r => forallb (fun x => Z.eqb x k) r end.

(** Spaces that are one tensor *)
Definition one_tensor (s : space) : bool :=
  match s with
  | Discrete _ | MultiBinary _ | Box _ _ _ => true
  | MultiDiscrete _ nvec => uniform nvec
  | Tup _ | Dct _ => false
  end.

Section Named.
Variable V : Type.

(** A component below a name *)
Definition under (key : string) (x : tval V) : list (string * tval V) :=
  match x with
  | TArr _ _ _ => [(key, x)]
  | TDict _ l => map (fun kv => (key ++ "_" ++ fst kv, snd kv)) l
  end.

Section NamedParts.
Variable rec : space -> gval V -> option (tval V).
(** Components of a tuple are called gymtpl0, gymtpl1, ... *)
Fixpoint named_tuple (n : nat) (l : list space) (vs : list (gval V)) : option (list (string * tval V)) :=
  match l, vs with
  | [], [] => Some []
  | s :: l, v :: vs =>
      match rec s v, named_tuple (S n) l vs with
      | Some x, Some r => Some (under ("gymtpl" ++ str n) x ++ r)%list
      | _, _ => None
      end
  | _, _ => None
  end.
(** Entries of a dictionary keep their names. *)
Fixpoint named_dict (l : list (string * space)) (vs : list (string * gval V)) : option (list (string * tval V)) :=
  match l, vs with
  | [], [] => Some []
  | (key, s) :: l, (key', v) :: vs =>
      if String.eqb key key' then
        match rec s v, named_dict l vs with
        | Some x, Some r => Some (under key x ++ r)%list
        | _, _ => None
        end
      else None
  | _, _ => None
  end.
End NamedParts.

(** The tensors of a value of a space, by name ([None] if it is no value of the space); the entries of an array of different numbers of
    values are called gymmdc0_shape, gymmdc1_shape, ...; names of nested spaces are joined by an underscore. *)
Fixpoint named (s : space) (v : gval V) {struct s} : option (tval V) :=
  match s, v with
  | Tup l, GTup _ vs => match named_tuple named 0 l vs with Some d => Some (TDict V d) | None => None end
  | Dct l, GDict _ vs => match named_dict named l vs with Some d => Some (TDict V d) | None => None end
  | MultiDiscrete shape nvec, GArr _ shape' data =>
      if list_eq_dec Nat.eq_dec shape shape' then
        if Nat.eqb (length data) (length nvec) && Nat.eqb (length nvec) (fold_left Nat.mul shape 1%nat) && negb (Nat.eqb (length shape) 0) then
          if uniform nvec then Some (TArr V shape data)
          else Some (TDict V (map (fun iv => ("gymmdc" ++ str (fst iv) ++ "_" ++ join (map str shape), TArr V [] [snd iv]))
                                  (combine (seq 0 (length data)) data)))
        else None
      else None
  | Discrete _, GArr _ shape data => Some (TArr V shape data)
  | MultiBinary _, GArr _ shape data => Some (TArr V shape data)
  | Box _ _ _, GArr _ shape data => Some (TArr V shape data)
  | _, _ => None
  end.

(** All numbers in a value are finite *)
Variable finite : V -> bool.
Fixpoint finite_value (v : gval V) : bool :=
  match v with
  | GArr _ _ data => forallb finite data
  | GTup _ l => forallb finite_value l
  | GDict _ l => forallb (fun kv => finite_value (snd kv)) l
  end.
End Named.

(** Action spaces for which actions are rebuilt: single tensors, arrays of at most ten different numbers, tuples of single tensors,
    dictionaries of such spaces with distinct names without underscore that are not all like the names above. *)
Fixpoint distinct (l : list string) : bool :=
  match l with [] => true | k :: r => negb (existsb (String.eqb k) r) && distinct r end.

Fixpoint rebuildable (s : space) : bool :=
  match s with
  | Discrete _ | MultiBinary _ | Box _ _ _ => true
  | MultiDiscrete _ nvec => uniform nvec || Nat.leb (length nvec) 10
  | Tup l => negb (Nat.eqb (length l) 0) && forallb one_tensor l
  | Dct l =>
      distinct (map fst l) && forallb (fun ks => plain_name (fst ks)) l &&
      existsb (fun ks => negb (String.prefix "gymmdc" (fst ks))) l &&
      existsb (fun ks => negb (String.prefix "gymbox" (fst ks))) l &&
      existsb (fun ks => negb (String.prefix "gymtpl" (fst ks))) l &&
      forallb (fun ks => rebuildable (snd ks)) l
  end.

(** How deep a space is nested *)
Fixpoint depth (s : space) : nat :=
  match s with
  | Dct l => S (list_max (map (fun ks => depth (snd ks)) l))
  | _ => 2
  end.

(** The names of the tensors declared *)
Definition declared (sp : specs) : option (list string) := match sp with SLeaf _ => None | SDict d => Some (map fst d) end.
Definition tensor_names {V} (t : tval V) : option (list string) := match t with TArr _ _ _ => None | TDict _ l => Some (map fst l) end.

(** Order of extended numbers *)
Definition ext_le (x y : ext) : Prop :=
  match x, y with
  | NInf, _ => True | _, PInf => True
  | Fin a, Fin b => (a <= b)%R
  | _, _ => False
  end.

(** The lower and upper bound of an entry *)
Definition lower (b : bound) (i : nat) : ext := match b with Free => NInf | One x => x | Each l => nth i l NInf end.
Definition upper (b : bound) (i : nat) : ext := match b with Free => PInf | One x => x | Each l => nth i l PInf end.

Definition size (shape : list nat) : nat := fold_left Nat.mul shape 1%nat.
(** A number of [k] values *)
Definition value_below (k : Z) (x : R) : Prop := exists z, x = IZR z /\ (0 <= z < k)%Z.

Section Members.
Variable rec : space -> gval R -> Prop.
Fixpoint tuple_members (l : list space) (vs : list (gval R)) : Prop :=
  match l, vs with [], [] => True | s :: l, v :: vs => rec s v /\ tuple_members l vs | _, _ => False end.
Fixpoint dict_members (l : list (string * space)) (vs : list (string * gval R)) : Prop :=
  match l, vs with
  | [], [] => True
  | (key, s) :: l, (key', v) :: vs => key = key' /\ rec s v /\ dict_members l vs
  | _, _ => False
  end.
End Members.

(** The values of a space *)
Fixpoint member (s : space) (v : gval R) {struct s} : Prop :=
  match s, v with
  | Discrete n, GArr _ shape data => shape = [] /\ exists x, data = [x] /\ value_below n x
  | MultiBinary sh, GArr _ shape data => shape = sh /\ length data = size sh /\ Forall (fun x => x = 0%R \/ x = 1%R) data
  | MultiDiscrete sh nvec, GArr _ shape data =>
      shape = sh /\ sh <> [] /\ length nvec = size sh /\ Forall2 (fun x k => value_below k x) data nvec
  | Box sh low high, GArr _ shape data =>
      shape = sh /\ length data = size sh /\ length low = size sh /\ length high = size sh /\
      (forall i x, nth_error data i = Some x -> ext_le (nth i low NInf) (Fin x) /\ ext_le (Fin x) (nth i high PInf))
  | Tup l, GTup _ vs => tuple_members member l vs
  | Dct l, GDict _ vs => dict_members member l vs
  | _, _ => False
  end.

(** A tensor agrees with its specification *)
Definition fits (l : leaf) (t : tval R) : Prop :=
  match t with
  | TDict _ _ => False
  | TArr _ shape data =>
      shape = l_shape l /\ length data = size shape /\
      if String.eqb (l_type l) "int" then exists k, l_num l = Some k /\ Forall (value_below k) data
      else if String.eqb (l_type l) "bool" then Forall (fun x => x = 0%R \/ x = 1%R) data
      else l_type l = "float" /\
           forall i x, nth_error data i = Some x -> ext_le (lower (l_min l) i) (Fin x) /\ ext_le (Fin x) (upper (l_max l) i)
  end.
Definition fits_all (sp : specs) (t : tval R) : Prop :=
  match sp, t with
  | SLeaf l, _ => fits l t
  | SDict d, TDict _ l => Forall2 (fun kl kt => fst kl = fst kt /\ fits (snd kl) (snd kt)) d l
  | _, _ => False
  end.

(** All names of dictionaries are distinct and without underscore, and there are no empty tuples or dictionaries. *)
Fixpoint clean (s : space) : bool :=
  match s with
  | Tup l => negb (Nat.eqb (length l) 0) && forallb clean l
  | Dct l => negb (Nat.eqb (length l) 0) && distinct (map fst l) && forallb (fun ks => plain_name (fst ks)) l && forallb (fun ks => clean (snd ks)) l
  | _ => true
  end.

(** Spaces of states that are handled: tensors, tuples of tensors and dictionaries of tensors *)
Definition flat (s : space) : bool :=
  match s with
  | Tup l => forallb one_tensor l
  | Dct l => forallb (fun ks => one_tensor (snd ks)) l
  | s => one_tensor s
  end.

(** The entries of a list whose positions, from [i], are not in [ix] *)
Fixpoint keep {A} (ix : list Z) (i : nat) (l : list A) : list A :=
  match l with
  | [] => []
  | x :: r => if existsb (Z.eqb (Z.of_nat i)) ix then keep ix (S i) r else x :: keep ix (S i) r
  end.

(** An episode: the results of step before the end, and the last one *)
Fixpoint codes (limit : option nat) (terminal_reward : R) (t : nat) (steps : list (R * bool)) : res (list (nat * R)) :=
  match steps with
  | [] => Ok []
  | (reward, terminal) :: r =>
      match finish_step limit terminal_reward t reward terminal with
      | Err e => Err e
      | Ok (t', code, reward) => match codes limit terminal_reward t' r with Err e => Err e | Ok l => Ok ((code, reward) :: l) end
      end
  end.

(** A name is a version of a level: the level, "-v" and something without "-v" *)
Definition version_of (level name : string) : Prop :=
  exists v, name = level ++ "-v" ++ v /\ ~ (exists a b, v = a ++ "-v" ++ b).
