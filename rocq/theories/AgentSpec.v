(** What an agent is told, and what should follow from it: the calls made on an
    agent, and per interaction stream the episode in progress.  Nothing here refers
    to the model of the code. *)

From Coq Require Import List ZArith Lia Bool.
From Verif Require Import Field.
Import ListNotations.
Open Scope Z_scope.

Section AgentSpec.
Variable K : field.
Variables St In Au Ac W O : Type.

(** One timestep as seen by the policy: state, recurrent state before the act,
    auxiliaries (e.g. action masks), chosen action. *)
Record X := mkX { x_state : St; x_int : In; x_aux : Au; x_act : Ac }.

(** A completed timestep: also its reward and terminal flag. *)
Notation tstep := (X * K * Z)%type.

(** The calls.  Per item, an act has the stream, the state, the auxiliaries and the
    policy's current parameters and random draws; an observe has the stream, the
    terminal flag, the reward, and the hyperparameter values current at this point. *)
Inductive op :=
| OAct (items : list (Z * St * Au * W))
| OIndAct (items : list (St * In * Au * W))
| OObserve (items : list (Z * Z * K * O))
| OExperience (os : nat -> O) (items : list tstep)
| OUpdate (o : O)
| OReset.

(** The policy's output (action, next recurrent state) and its initial recurrent state. *)
Variable pol : W -> St -> In -> Au -> Ac * In.
Variable init_int : In.

(** One interaction stream: the timesteps of the episode in progress, the timestep
    acted on but not observed yet, and the recurrent state to act with next. *)
Record stream := mkStream { s_open : list tstep; s_pend : option X; s_int : In }.
Definition idle : stream := {| s_open := []; s_pend := None; s_int := init_int |}.

Definition stream_act (s : stream) (st : St) (au : Au) (w : W) : stream :=
  let out := pol w st (s_int s) au in
  {| s_open := s_open s; s_pend := Some (mkX st (s_int s) au (fst out)); s_int := snd out |}.

(** Observing returns the finished episode, if it is one. *)
Definition stream_observe (s : stream) (t : Z) (r : K) : stream * list (list tstep) :=
  match s_pend s with
  | None => (s, [])
  | Some x =>
      let ep := s_open s ++ [(x, r, t)] in
      if t =? 0 then ({| s_open := ep; s_pend := None; s_int := s_int s |}, [])
      else (idle, [ep])
  end.

(** All streams, and the finished episodes in the order in which they finished. *)
Record spec := mkSpec { sp_fin : list (list tstep); sp_st : Z -> stream }.

Definition set_stream (f : Z -> stream) (p : Z) (s : stream) : Z -> stream :=
  fun q => if q =? p then s else f q.

Definition spec_act (sp : spec) (it : Z * St * Au * W) : spec :=
  let '(p, st, au, w) := it in
  {| sp_fin := sp_fin sp; sp_st := set_stream (sp_st sp) p (stream_act (sp_st sp p) st au w) |}.

Definition spec_observe (sp : spec) (it : Z * Z * K * O) : spec :=
  let '(p, t, r, _) := it in
  let '(s', fin) := stream_observe (sp_st sp p) t r in
  {| sp_fin := sp_fin sp ++ fin; sp_st := set_stream (sp_st sp) p s' |}.

(** Cut a sequence of timesteps after every terminal one. *)
Fixpoint cut_episodes (cur items : list tstep) : list (list tstep) :=
  match items with
  | [] => []
  | e :: r => if snd e =? 0 then cut_episodes (cur ++ [e]) r
              else (cur ++ [e]) :: cut_episodes [] r
  end.

Definition spec_op (sp : spec) (x : op) : spec :=
  match x with
  | OAct items => fold_left spec_act items sp
  | OObserve items => fold_left spec_observe items sp
  | OExperience _ items => {| sp_fin := sp_fin sp ++ cut_episodes [] items; sp_st := sp_st sp |}
  | OIndAct _ | OUpdate _ | OReset => sp
  end.

Definition spec0 : spec := {| sp_fin := []; sp_st := fun _ => idle |}.
Definition spec_of (ops : list op) : spec := fold_left spec_op ops spec0.

(** Number of timesteps acted on. *)
Definition op_acts (x : op) : Z :=
  match x with
  | OAct items => Z.of_nat (length items)
  | OExperience _ items => Z.of_nat (length items)
  | _ => 0
  end.
Definition total_acts (ops : list op) : Z := fold_right (fun x n => op_acts x + n) 0 ops.

(** Number of episodes ended. *)
Definition ended_of (ts : list Z) : Z :=
  Z.of_nat (length (filter (fun t => negb (t =? 0)) ts)).
Definition op_episodes (x : op) : Z :=
  match x with
  | OObserve items => ended_of (map (fun it => snd (fst (fst it))) items)
  | OExperience _ items => ended_of (map snd items)
  | _ => 0
  end.
Definition total_episodes (ops : list op) : Z := fold_right (fun x n => op_episodes x + n) 0 ops.

(** Was stream [p] acted on since its last observe (or since the last reset)? *)
Definition pending_op (p : Z) (b : bool) (x : op) : bool :=
  match x with
  | OAct items => if existsb (fun it => fst (fst (fst it)) =? p) items then true else b
  | OObserve items => if existsb (fun it => fst (fst (fst it)) =? p) items then false else b
  | OReset => false
  | _ => b
  end.
Definition pending_after (p : Z) (ops : list op) : bool := fold_left (pending_op p) ops false.

(** No stream occurs twice in one call. *)
Definition distinct (x : op) : Prop :=
  match x with
  | OAct items => NoDup (map (fun it => fst (fst (fst it))) items)
  | OObserve items => NoDup (map (fun it => fst (fst (fst it))) items)
  | _ => True
  end.

(** Number of timesteps observed for stream [p] since its last terminal (or the
    last reset). *)
Definition steps_item (p : Z) (n : Z) (it : Z * Z * K * O) : Z :=
  let '(q, t, _, _) := it in if q =? p then (if 0 <? t then 0 else n + 1) else n.
Definition steps_op (p : Z) (n : Z) (x : op) : Z :=
  match x with
  | OObserve items => fold_left (steps_item p) items n
  | OReset => 0
  | _ => n
  end.
Definition steps_after (p : Z) (ops : list op) : Z := fold_left (steps_op p) ops 0.

(** The acts on stream [p] since its last terminal or reset. *)
Definition acts_item (p : Z) (l : list (St * Au * W)) (it : Z * St * Au * W) : list (St * Au * W) :=
  let '(q, st, au, w) := it in if q =? p then l ++ [(st, au, w)] else l.
Definition ends_item (p : Z) (l : list (St * Au * W)) (it : Z * Z * K * O) : list (St * Au * W) :=
  let '(q, t, _, _) := it in if (q =? p) && negb (t =? 0) then [] else l.
Definition acts_op (p : Z) (l : list (St * Au * W)) (x : op) : list (St * Au * W) :=
  match x with
  | OAct items => fold_left (acts_item p) items l
  | OObserve items => fold_left (ends_item p) items l
  | OReset => []
  | _ => l
  end.
Definition acts_since (p : Z) (ops : list op) : list (St * Au * W) := fold_left (acts_op p) ops [].

(** The recurrent state after some acts, from the initial one. *)
Definition fold_int (acts : list (St * Au * W)) : In :=
  fold_left (fun i a => let '(st, au, w) := a in snd (pol w st i au)) acts init_int.

(** The observations on stream [p], in order. *)
Definition observed_op (p : Z) (x : op) : list (Z * K) :=
  match x with
  | OObserve items =>
      flat_map (fun it => let '(q, t, r, _) := it in if q =? p then [(t, r)] else []) items
  | _ => []
  end.
Definition observed (p : Z) (ops : list op) : list (Z * K) := flat_map (observed_op p) ops.

(** Buffering between the agent and its model: observations of a stream are kept
    until there are [bo] of them ([None]: no limit) or the episode ends, and are then
    passed on in one call.  [CExperience] has one episode. *)
Inductive mcall :=
| CAct (items : list (Z * St * Au * W))
| CIndAct (items : list (St * In * Au * W))
| CObserve (p : Z) (batch : list (Z * K)) (o : O)
| CExperience (o : O) (ep : list tstep)
| CUpdate (o : O)
| CReset.

Definition set_kept (f : Z -> list (Z * K)) (p : Z) (b : list (Z * K)) : Z -> list (Z * K) :=
  fun q => if q =? p then b else f q.

Definition flush_item (bo : option Z) (fc : (Z -> list (Z * K)) * list mcall) (it : Z * Z * K * O)
    : (Z -> list (Z * K)) * list mcall :=
  let '(p, t, r, o) := it in
  let b := fst fc p ++ [(t, r)] in
  if (t =? 0) && match bo with None => true | Some n => Z.of_nat (length b) <? n end
  then (set_kept (fst fc) p b, snd fc)
  else (set_kept (fst fc) p [], snd fc ++ [CObserve p b o]).

Fixpoint numbered (os : nat -> O) (k : nat) (eps : list (list tstep)) : list mcall :=
  match eps with [] => [] | ep :: r => CExperience (os k) ep :: numbered os (S k) r end.

Definition flush_op (bo : option Z) (fc : (Z -> list (Z * K)) * list mcall) (x : op)
    : (Z -> list (Z * K)) * list mcall :=
  match x with
  | OAct items => (fst fc, snd fc ++ [CAct items])
  | OIndAct items => (fst fc, snd fc ++ [CIndAct items])
  | OObserve items => fold_left (flush_item bo) items fc
  | OExperience os items => (fst fc, snd fc ++ numbered os 0 (cut_episodes [] items))
  | OUpdate o => (fst fc, snd fc ++ [CUpdate o])
  | OReset => (fun _ => [], snd fc ++ [CReset])
  end.
Definition flush (bo : option Z) (ops : list op) : (Z -> list (Z * K)) * list mcall :=
  fold_left (flush_op bo) ops (fun _ => [], []).

(** What was passed on for stream [p], in batches. *)
Definition batches_of (p : Z) (calls : list mcall) : list (list (Z * K)) :=
  flat_map (fun c => match c with CObserve q b _ => if q =? p then [b] else [] | _ => [] end) calls.

(** One stream on its own: the calls made for stream [p] and what they add up to. *)
Inductive pcall :=
| PAct (st : St) (au : Au) (w : W)
| PObserve (t : Z) (r : K).

Definition calls_of (p : Z) (x : op) : list pcall :=
  match x with
  | OAct items =>
      flat_map (fun it => let '(q, st, au, w) := it in if q =? p then [PAct st au w] else []) items
  | OObserve items =>
      flat_map (fun it => let '(q, t, r, _) := it in if q =? p then [PObserve t r] else []) items
  | _ => []
  end.

Definition stream_call (se : stream * list (list tstep)) (c : pcall) : stream * list (list tstep) :=
  match c with
  | PAct st au w => (stream_act (fst se) st au w, snd se)
  | PObserve t r => let '(s', fin) := stream_observe (fst se) t r in (s', snd se ++ fin)
  end.
Definition stream_of (cs : list pcall) : stream * list (list tstep) :=
  fold_left stream_call cs (idle, []).

(** What the stream was acted on, and the actions, one per act. *)
Definition acts_call (sa : stream * list X) (c : pcall) : stream * list X :=
  match c with
  | PAct st au w =>
      let i := s_int (fst sa) in
      (stream_act (fst sa) st au w, snd sa ++ [mkX st i au (fst (pol w st i au))])
  | PObserve t r => (fst (stream_observe (fst sa) t r), snd sa)
  end.
Definition acts_of (cs : list pcall) : list X := snd (fold_left acts_call cs (idle, [])).

(** The recurrent states used in an episode: the first is [i], every other is what
    the policy returned at the previous timestep (for some parameters). *)
Fixpoint threaded (i : In) (xs : list X) : Prop :=
  match xs with
  | [] => True
  | x :: r => x_int x = i /\
      exists w, fst (pol w (x_state x) i (x_aux x)) = x_act x /\
                threaded (snd (pol w (x_state x) i (x_aux x))) r
  end.

End AgentSpec.

Arguments X : clear implicits.
Arguments mkX {St In Au Ac}. Arguments x_state {St In Au Ac}. Arguments x_int {St In Au Ac}.
Arguments x_aux {St In Au Ac}. Arguments x_act {St In Au Ac}.
Arguments op : clear implicits.
Arguments OAct {K St In Au Ac W O}. Arguments OIndAct {K St In Au Ac W O}.
Arguments OObserve {K St In Au Ac W O}. Arguments OExperience {K St In Au Ac W O}.
Arguments OUpdate {K St In Au Ac W O}. Arguments OReset {K St In Au Ac W O}.
Arguments stream : clear implicits.
Arguments mkStream {K St In Au Ac}. Arguments s_open {K St In Au Ac}.
Arguments s_pend {K St In Au Ac}. Arguments s_int {K St In Au Ac}.
Arguments spec : clear implicits.
Arguments mkSpec {K St In Au Ac}. Arguments sp_fin {K St In Au Ac}. Arguments sp_st {K St In Au Ac}.
Arguments set_stream {K St In Au Ac}.
Arguments idle {K St In Au Ac}. Arguments stream_act {K St In Au Ac W}.
Arguments stream_observe {K St In Au Ac}. Arguments spec_act {K St In Au Ac W}.
Arguments spec_observe {K St In Au Ac O}. Arguments cut_episodes {K St In Au Ac}.
Arguments spec_op {K St In Au Ac W O}. Arguments spec0 {K St In Au Ac}.
Arguments spec_of {K St In Au Ac W O}. Arguments op_acts {K St In Au Ac W O}.
Arguments total_acts {K St In Au Ac W O}. Arguments calls_of {K St In Au Ac W O}.
Arguments PAct {K St Au W}. Arguments PObserve {K St Au W}.
Arguments stream_of {K St In Au Ac W}. Arguments stream_call {K St In Au Ac W}.
Arguments threaded {St In Au Ac W}.
Arguments acts_call {K St In Au Ac W}. Arguments acts_of {K St In Au Ac W}.
Arguments op_episodes {K St In Au Ac W O}. Arguments total_episodes {K St In Au Ac W O}.
Arguments pending_op {K St In Au Ac W O}. Arguments pending_after {K St In Au Ac W O}.
Arguments distinct {K St In Au Ac W O}.
Arguments steps_item {K O}. Arguments steps_op {K St In Au Ac W O}. Arguments steps_after {K St In Au Ac W O}.
Arguments acts_item {St Au W}. Arguments ends_item {K St Au W O}.
Arguments acts_op {K St In Au Ac W O}. Arguments acts_since {K St In Au Ac W O}.
Arguments fold_int {St In Au Ac W}.
Arguments observed_op {K St In Au Ac W O}. Arguments observed {K St In Au Ac W O}.
Arguments CAct {K St In Au Ac W O}. Arguments CIndAct {K St In Au Ac W O}.
Arguments CObserve {K St In Au Ac W O}. Arguments CExperience {K St In Au Ac W O}.
Arguments CUpdate {K St In Au Ac W O}. Arguments CReset {K St In Au Ac W O}.
Arguments mcall : clear implicits.
Arguments set_kept {K}. Arguments flush_item {K St In Au Ac W O}. Arguments numbered {K St In Au Ac W O}.
Arguments flush_op {K St In Au Ac W O}. Arguments flush {K St In Au Ac W O}.
Arguments batches_of {K St In Au Ac W O}.
