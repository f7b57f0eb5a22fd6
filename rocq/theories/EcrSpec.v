(** Specification of Environment.create: when two calls have the same result. *)
From Coq Require Import String List ZArith Bool.
From Verif Require Import Base SigModel EcrModel.
Import ListNotations.
Open Scope string_scope.
Open Scope list_scope.

(** create with these arguments returns or raises this. *)
Definition creates (W : world) (args : dict) (r : res outcome) : Prop := exists n, run W n args = Some r.
(** Two calls return or raise the same. *)
Definition same_result (W : world) (a b : dict) : Prop := forall r, creates W a r <-> creates W b r.
(** A call always raises. *)
Definition raises (W : world) (args : dict) : Prop := exists e, creates W args (Err e).
(** None of the keyword arguments is a parameter of create. *)
Definition plain (kw : dict) : Prop := forall k v, In (k, v) kw -> ~ In k parameters.
(** What a dictionary says about the environment, if anything. *)
Definition kind (d : dict) : value :=
  match plook "environment" d, plook "type" d with Some v, _ => v | None, Some v => v | None, None => str "default" end.
(** An argument of the call, or else of the dictionary. *)
Definition either (v : value) (k : string) (d : dict) : value := if is_none v then arg d k else v.
(** The other entries of a dictionary. *)
Definition others (d : dict) : dict :=
  filter (fun e => negb (existsb (String.eqb (fst e)) ["environment"; "type"; "max_episode_timesteps"; "reward_shaping"])) d.
