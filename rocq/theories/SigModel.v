(** /repo/tensorforce/core/utils/dicts.py: SignatureDict, and
    /repo/tensorforce/util.py: is_equal, deep_disjoint_update.

    A signature is a nested dictionary of tensor specifications [S], keyword arguments
    one of tensors [T] ([KNode]; a raw tensor is a [Leaf]) or a tuple of such
    ([KTuple]).  TensorSpec.is_compatible_with is the arbitrary test [compat]; the
    treatment of tf.IndexedSlices (195-206, 261-272) is not modelled. *)

From Coq Require Import String List ZArith Bool.
From Verif Require Import Base DictSpec DictModel.
Import ListNotations.
Open Scope string_scope.

Section Sig.
Variables S T : Type.
Variable compat : S -> T -> bool.

(** Python's keyword-argument collections (dicts.py 170-192) *)
Inductive karg := KNode (n : node T) | KTuple (l : list (node T)).

(** Flattened arguments: tensors in nested tuples or dictionaries (dicts.py 170-220) *)
Inductive args (X : Type) := ATensor (x : X) | ATuple (l : list (args X)) | ADict (l : list (string * args X)).
Arguments ATensor {X}. Arguments ATuple {X}. Arguments ADict {X}.

(** 188-192: the argument of one round.  The local variable [arg] keeps its value of
    the previous round ([stale]) when the name is missing. *)
Definition find_kwarg (kw : karg) (name : string) (index : nat) (stale : option (node T)) : res (option (node T)) :=
  match kw with
  | KTuple l => Ok (match nth_error l index with Some a => Some a | None => stale end)
  | KNode d => do b <- contains [name] d;
               if b then do a <- getitem [name] d; Ok (Some a) else Ok stale
  end.

(** The loop 187-220 of kwargs_to_args; [rec] is the recursive call 216, after which
    [arg] is the converted argument, which passes the checks of the next round only if
    it is a tensor. *)
Section Loop.
Variable rec : node S -> node T -> res (args T).
(** dicts.py 187-220 *)
Fixpoint kwargs_loop (kw : karg) (es : list (string * node S)) (index : nat) (stale : option (node T))
  : res (list (string * args T)) :=
  match es with
  | [] => Ok []
  | (name, spec) :: r =>
      do arg <- find_kwarg kw name index stale;
      match spec with
      | Leaf s =>
          match arg with
          | Some (Leaf t) =>
              do _ <- assert_ (compat s t) "AssertionError: spec";
              do rest <- kwargs_loop kw r (index + 1)%nat arg; Ok ((name, ATensor t) :: rest)
          | _ => Err "AssertionError: not a tensor"
          end
      | Dict _ =>
          if Nat.eqb (length_ spec) 0 then kwargs_loop kw r (index + 1)%nat arg
          else match arg with
               | None => Err "UnboundLocalError"
               | Some a =>
                   do x <- rec spec a;
                   do rest <- kwargs_loop kw r (index + 1)%nat (match x with ATensor t => Some (Leaf t) | _ => None end);
                   Ok ((name, x) :: rest)
               end
      end
  end.
End Loop.

(** 179-182 *)
Definition kwargs_kind (is_outer : bool) (kw : karg) : bool :=
  match kw with KNode (Dict _) => true | KTuple _ => is_outer | KNode (Leaf _) => false end.

(** kwargs_to_args, 161-226 *)
Fixpoint kwargs_to_args (to_dict outer_tuple is_outer : bool) (sig : node S) (kw : karg) {struct sig} : res (args T) :=
  match sig with
  | Leaf _ => Err "not a SignatureDict"
  | Dict es =>
      let regular :=
        do _ <- assert_ (kwargs_kind is_outer kw) "AssertionError";
        do l <- kwargs_loop (fun spec a => kwargs_to_args to_dict false false spec (KNode a)) kw es 0%nat None;
        Ok (if to_dict then if outer_tuple && is_outer then ATuple (map snd l) else ADict l
            else ATuple (map snd l)) in
      match es with
      | [(k0, c)] =>
          if k0 =? single_name then
            match c with
            | Leaf s =>
                match kw with
                | KNode (Leaf t) => do _ <- assert_ (compat s t) "AssertionError: spec"; Ok (ATensor t)
                | KNode (Dict [(k1, Leaf t)]) =>
                    do _ <- assert_ (k1 =? single_name) "AssertionError: singleton";
                    do _ <- assert_ (compat s t) "AssertionError: spec"; Ok (ATensor t)
                | _ => Err "AssertionError: singleton"
                end
            | Dict _ => kwargs_to_args to_dict false false c kw
            end
          else regular
      | _ => regular
      end
  end.

(** spec.fmap(function=..., cls=TensorDict) for a specification without leaves (277-280) *)
Fixpoint fmap_empty (sig : node S) : node T :=
  match sig with
  | Leaf _ => Dict []
  | Dict es => Dict (map (fun e => let '(k, n) := e in (k, fmap_empty n)) es)
  end.

(** dict.get (dicts.py 252-258) *)
Fixpoint dict_get (k : string) (l : list (string * args T)) : option (args T) :=
  match l with [] => None | (k', a) :: r => if k =? k' then Some a else dict_get k r end.

(** 252-258: the argument of one round *)
Definition find_arg (from_dict is_outer : bool) (a : args T) (name : string) (index : nat) : res (option (args T)) :=
  match a with
  | ADict l =>
      if from_dict then Ok (dict_get name l)
      else if Nat.ltb index (length l) then Err "KeyError: dict indexed by position" else Ok None
  | ATuple l =>
      if Nat.ltb index (length l)
      then do _ <- assert_ (negb from_dict || is_outer) "AssertionError"; Ok (nth_error l index)
      else Ok None
  | ATensor _ => Err "unreachable"
  end.

(** The loop 251-285 of args_to_kwargs; [rec] is the recursive call 282. *)
Section ALoop.
Variable rec : node S -> args T -> res (node T).
(** dicts.py 251-285 *)
Fixpoint args_loop (from_dict is_outer : bool) (a : args T) (es : list (string * node S)) (index : nat) (kwargs : node T)
  : res (node T) :=
  match es with
  | [] => Ok kwargs
  | (name, spec) :: r =>
      do arg <- find_arg from_dict is_outer a name index;
      match spec with
      | Leaf s =>
          match arg with
          | Some (ATensor t) =>
              do _ <- assert_ (compat s t) "AssertionError: spec";
              do kwargs' <- setitem true [name] (Leaf t) kwargs;
              args_loop from_dict is_outer a r (index + 1)%nat kwargs'
          | _ => Err "AssertionError: not a tensor"
          end
      | Dict _ =>
          if Nat.eqb (length_ spec) 0 then
            do kwargs' <- setitem true [name] (fmap_empty spec) kwargs;
            args_loop from_dict is_outer a r index kwargs'
          else match arg with
               | None => Err "AssertionError: None"
               | Some x =>
                   do n <- rec spec x;
                   do kwargs' <- setitem true [name] n kwargs;
                   args_loop from_dict is_outer a r (index + 1)%nat kwargs'
               end
      end
  end.
End ALoop.

(** 243-248 *)
Definition args_kind (from_dict is_outer : bool) (a : args T) : bool :=
  if is_outer then match a with ATensor _ => false | _ => true end
  else if from_dict then match a with ADict _ => true | _ => false end
  else match a with ATuple _ => true | _ => false end.

(** args_to_kwargs, 228-289, with outer_tuple=False *)
Fixpoint args_to_kwargs (from_dict is_outer : bool) (sig : node S) (a : args T) {struct sig} : res (node T) :=
  match sig with
  | Leaf _ => Err "not a SignatureDict"
  | Dict es =>
      let regular :=
        do _ <- assert_ (args_kind from_dict is_outer a) "AssertionError";
        args_loop (args_to_kwargs from_dict false) from_dict is_outer a es 0%nat (Dict []) in
      match es with
      | [(k0, c)] =>
          if k0 =? single_name then
            match c with
            | Leaf s =>
                match a with
                | ATensor t => do _ <- assert_ (compat s t) "AssertionError: spec"; Ok (Dict [(single_name, Leaf t)])
                | _ => Err "AssertionError: not a tensor"
                end
            | Dict _ => do n <- args_to_kwargs from_dict false c a; Ok (Dict [(single_name, n)])
            end
          else regular
      | _ => regular
      end
  end.

(** args_to_kwargs with outer_tuple=True (237-240, 286-289): without the outermost dictionary *)
Definition args_to_kwargs_outer (from_dict : bool) (sig : node S) (a : args T) : res karg :=
  do n <- args_to_kwargs from_dict true sig a;
  match sig, n with
  | Dict es, Dict es' =>
      if is_singleton es
      then match es' with [(_, c)] => Ok (KNode c) | _ => Err "unreachable" end
      else Ok (KTuple (map snd es'))
  | _, _ => Err "unreachable"
  end.

(** to_dict, 146-159 *)
Fixpoint to_dict (sig : node S) : args S :=
  match sig with
  | Leaf s => ATensor s
  | Dict es =>
      match es with
      | [(k0, c)] =>
          if k0 =? single_name then to_dict c
          else ADict (if (match c with Leaf _ => true | Dict _ => false end) || negb (Nat.eqb (length_ c) 0)
                      then [(k0, to_dict c)] else [])
      | _ =>
          ADict (flat_map (fun e => let '(k, n) := e in
            if (match n with Leaf _ => true | Dict _ => false end) || negb (Nat.eqb (length_ n) 0)
            then [(k, to_dict n)] else []) es)
      end
  end.

(** to_list, 130-144; a singleton's inner signature forgets the argument to_dict (136) *)
Fixpoint to_list (dict : bool) (sig : node S) : args S :=
  match sig with
  | Leaf s => ATensor s
  | Dict es =>
      let regular :=
        ATuple (flat_map (fun e => let '(k, n) := e in
          match n with
          | Leaf s => [ATensor s]
          | Dict _ => if Nat.eqb (length_ n) 0 then []
                      else [if dict then to_dict n else to_list false n]
          end) es) in
      match es with
      | [(k0, c)] => if k0 =? single_name then to_list false c else regular
      | _ => regular
      end
  end.

End Sig.

Arguments KNode {T}. Arguments KTuple {T}.
Arguments ATensor {X}. Arguments ATuple {X}. Arguments ADict {X}.
Arguments kwargs_to_args {S T}. Arguments args_to_kwargs {S T}. Arguments args_to_kwargs_outer {S T}.
Arguments fmap_empty {S} T. Arguments to_dict {S}. Arguments to_list {S}. Arguments dict_get {T}.
Arguments find_kwarg {T}. Arguments kwargs_loop {S T}. Arguments kwargs_kind {T}.
Arguments find_arg {T}. Arguments args_loop {S T}. Arguments args_kind {T}.

(** Python values as found in specification dictionaries: atoms (numbers, strings,
    classes, arrays), lists/tuples, dictionaries. *)
Section Merge.
Variable A : Type.
(** Python's == on atoms. *)
Variable aeqb : A -> A -> bool.

(** values of util.py 166-191: atoms, sequences, dictionaries *)
Inductive pval := PAtom (a : A) | PSeq (is_tuple : bool) (l : list pval) | PDict (es : list (string * pval)).

(** dict access, util.py 170-190 *)
Fixpoint plook (k : string) (es : list (string * pval)) : option pval :=
  match es with [] => None | (k', v) :: r => if k =? k' then Some v else plook k r end.
(** d[k] = v, util.py 170-190 *)
Fixpoint pput (k : string) (v : pval) (es : list (string * pval)) : list (string * pval) :=
  match es with
  | [] => [(k, v)]
  | (k', v') :: r => if k =? k' then (k', v) :: r else (k', v') :: pput k v r
  end.

(** Python's == (util.py 180-187) *)
Fixpoint peqb (x y : pval) {struct x} : bool :=
  match x, y with
  | PAtom a, PAtom b => aeqb a b
  | PSeq t l, PSeq t' l' =>
      Bool.eqb t t' &&
      (fix all l l' := match l, l' with
                       | [], [] => true
                       | a :: r, b :: r' => peqb a b && all r r'
                       | _, _ => false
                       end) l l'
  | PDict es, PDict es' =>
      Nat.eqb (length es) (length es') &&
      (fix all es := match es with
                     | [] => true
                     | (k, v) :: r => match plook k es' with Some v' => peqb v v' && all r | None => false end
                     end) es
  | _, _ => false
  end.

(** util.py 131-142, is_equal: zip stops at the shorter sequence (133, 135) *)
Fixpoint is_equal (x y : pval) {struct x} : bool :=
  match x, y with
  | PAtom a, PAtom b => aeqb a b
  | PSeq t l, PSeq t' l' =>
      Bool.eqb t t' &&
      (fix all l l' := match l, l' with
                       | a :: r, b :: r' => is_equal a b && all r r'
                       | _, _ => true
                       end) l l'
  | PDict es, PDict es' =>
      Nat.eqb (length es) (length es') &&
      (fix all es := match es with
                     | [] => true
                     | (k, v) :: r => match plook k es' with Some v' => is_equal v v' && all r | None => false end
                     end) es
  | _, _ => false
  end.

(** util.py 166-191, deep_disjoint_update: the target after a successful call.  [rec] is
    the recursive call 177. *)
Section MLoop.
Variable rec : list (string * pval) -> pval -> res (list (string * pval)).
(** util.py 168-191 *)
Fixpoint update_loop (ss target : list (string * pval)) : res (list (string * pval)) :=
  match ss with
  | [] => Ok target
  | (key, value) :: r =>
      match plook key target with
      | None => update_loop r (target ++ [(key, value)])%list
      | Some (PDict ts) =>
          match value with
          | PDict _ => do ts' <- rec ts value; update_loop r (pput key (PDict ts') target)
          | _ => Err "mismatch"
          end
      | Some (PSeq _ l) =>
          match value with
          | PSeq _ l' =>
              if Nat.eqb (length l) (length l') && forallb (fun xy => peqb (fst xy) (snd xy)) (combine l l')
              then update_loop r target else Err "mismatch"
          | _ => Err "mismatch"
          end
      | Some v => if peqb v value then update_loop r target else Err "mismatch"
      end
  end.
End MLoop.
(** util.py 166-191 *)
Fixpoint deep_disjoint_update (target : list (string * pval)) (source : pval) {struct source} : res (list (string * pval)) :=
  match source with
  | PDict ss => update_loop (fun ts v => deep_disjoint_update ts v) ss target
  | _ => Err "not a dict"
  end.

End Merge.
Arguments PAtom {A}. Arguments PSeq {A}. Arguments PDict {A}. Arguments plook {A}. Arguments pput {A}.
Arguments peqb {A}. Arguments is_equal {A}. Arguments deep_disjoint_update {A}. Arguments update_loop {A}.
