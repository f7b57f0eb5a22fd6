(** What is expected of environments which are started first and asked later: independent of their code. *)

From Coq Require Import String Ascii List ZArith QArith Bool Arith.
From Verif Require Import Base RcvModel.
Import ListNotations.
Open Scope string_scope.
Open Scope list_scope.
Open Scope Z_scope.

(** ** Values *)
(** The same number without numpy *)
Inductive plain : value -> value -> Prop :=
| plain_bool b : plain (PBool b) (PBool b)
| plain_int n : plain (PInt n) (PInt n)
| plain_float q : plain (PFloat q) (PFloat q)
| plain_numpy x : plain (PNumpy [x]) x
| plain_other : plain POther POther.
(** Terminals: a bool, or 0, 1 or 2 *)
Inductive terminal_value : value -> Z -> Prop :=
| terminal_bool (b : bool) : terminal_value (PBool b) (if b then 1 else 0)
| terminal_int n : In n [0; 1; 2] -> terminal_value (PInt n) n.
(** Rewards: numbers *)
Inductive reward_value : value -> Prop :=
| reward_bool b : reward_value (PBool b)
| reward_int n : reward_value (PInt n)
| reward_float q : reward_value (PFloat q).

(** ** States *)
Definition mask (k : string) : Prop := exists s, k = (s ++ "_mask")%string.
(** A value, or a dictionary with the state and masks *)
Inductive one_state {V} (f : fits V) (batched : bool) : observed V -> Prop :=
| one_value v : f batched v = true -> one_state f batched (One v)
| one_named l v : NoDup (map fst l) -> In ("state", v) l -> f batched v = true -> (forall k x, In (k, x) l -> k = "state" \/ mask k) -> one_state f batched (Named l).
(** A value for each state, and masks *)
Definition all_states {V} (specs : list (string * fits V)) (l : list (string * V)) : Prop :=
  (forall k f, In (k, f) specs -> exists v, In (k, v) l /\ f false v = true) /\ (forall k v, In (k, v) l -> In k (map fst specs) \/ mask k).

(** ** Calls *)
(** What is waited for after these calls *)
Fixpoint pending {A} (k : option kind) (cs : list (call A)) : option kind :=
  match cs with
  | [] => k
  | Receive _ :: q => pending None q
  | StartReset _ _ :: q => pending (match k with None => Some Resetting | Some k => Some k end) q
  | StartExecute _ _ :: q => pending (match k with None => Some Executing | Some k => Some k end) q
  end.

(** Direct use: each call is a reset or executes actions *)
Inductive request A := Reset | Execute (a : A).
Arguments Reset {A}. Arguments Execute {A}.
Section Direct.
Variables (W S A V : Type) (reset : W -> res S * W) (execute : A -> W -> res (S * value * value) * W) (check : S -> res unit).
(** The replies of the environment, whose first outputs (flags) are checked and converted *)
Inductive direct : bool -> bool -> W -> list (request A) -> list (reply S V) -> W -> Prop :=
| direct_nil r e w : direct r e w [] [] w
| direct_reset r e w x w' q os w'' : reset w = (Ok x, w') -> (r = true -> check x = Ok tt) -> direct false e w' q os w'' ->
    direct r e w (Reset :: q) (Received _ _ x (-1) None :: os) w''
| direct_first r w a x t y t' y' n w' q os w'' : execute a w = (Ok (x, t, y), w') -> check x = Ok tt -> plain t t' -> terminal_value t' n -> plain y y' -> reward_value y' ->
    direct r false w' q os w'' -> direct r true w (Execute a :: q) (Received _ _ x n (Some y') :: os) w''
| direct_later r w a x t y n w' q os w'' : execute a w = (Ok (x, t, y), w') -> int t = Ok n -> direct r false w' q os w'' ->
    direct r false w (Execute a :: q) (Received _ _ x n (Some y) :: os) w''.
End Direct.
(** The two calls for each request *)
Definition both {A} (r : request A) : list (call A) :=
  match r with Reset => [StartReset _ None; Receive _] | Execute a => [StartExecute _ a; Receive _] end.
(** The replies: nothing is returned at the start *)
Definition replies {S V} (os : list (reply S V)) : list (res (reply S V)) := flat_map (fun o => [Ok (Nothing _ _); Ok o]) os.
