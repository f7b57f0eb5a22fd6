(** Theorems on the episode limit (C34). *)

From Coq Require Import String List ZArith Bool Lia.
From Verif Require Import Base EnvSpec EnvModel.
Import ListNotations.
Open Scope list_scope.
Open Scope Z_scope.

Section Env.
Context {S A R E : Type}.
Variable env : environment S A R E.

(** The answers of the environment, shaped if there is a shaping function *)
Definition proper (g : option (shaping S A R)) (x : start S) (l : list A) (outs : list (res (out S R))) : list (res (out S R)) :=
  match g, x with Some g, StartOne s => shaped g s l outs | _, _ => outs end.

Lemma flags_ended fs : forallb flag fs = true -> forallb (fun f => 0 <? f) fs = forallb (fun f => negb (f =? 0)) fs.
Proof.
  induction fs as [|f fs IH]; [reflexivity|]. cbn. intro H. apply andb_prop in H as [H1 H2]. rewrite (IH H2). f_equal.
  unfold flag in H1. destruct (Z.ltb_spec 0 f), (Z.eqb_spec f 0); try reflexivity; lia.
Qed.
Lemma flags_zero fs : existsb (fun f => f =? 0) fs = negb (forallb (fun f => negb (f =? 0)) fs).
Proof. induction fs as [|f fs IH]; [reflexivity|]. cbn. rewrite IH. destruct (f =? 0), (forallb _ fs); reflexivity. Qed.
Lemma flags_stop fs : forallb flag fs = true -> forallb flag (map stop fs) = true /\ forallb (fun f => negb (f =? 0)) (map stop fs) = true.
Proof.
  induction fs as [|f fs IH]; [split; reflexivity|]. cbn. intro H. apply andb_prop in H as [H1 H2]. destruct (IH H2) as [-> ->].
  rewrite !andb_true_r. unfold stop. destruct (Z.eqb_spec f 0); [split; reflexivity|]. split; [exact H1|]. apply negb_true_iff, Z.eqb_neq; assumption.
Qed.

(** One step of the wrapper within an episode *)
Definition within (w : wrapper S E) (t : nat) : Prop :=
  w_timestep w = Some t /\ match w_limit w with Some m => (t < m)%nat | None => True end.
Definition at_limit (limit : option nat) (t : nat) : bool := match limit with Some m => Nat.eqb (t + 1) m | None => false end.

Lemma limit_output_eq (w : wrapper S E) np t (o : out S R) : within w t -> allowed np o = true ->
  limit_output w (t + 1) o = (if at_limit (w_limit w) t then last_answer o else o) /\
  ended (limit_output w (t + 1) o) = at_limit (w_limit w) t || over o.
Proof.
  intros [Ht Hl] Ha. unfold limit_output, at_limit.
  assert (Hr : (match w_limit w with Some m => Nat.leb m (t + 1) | None => false end) = match w_limit w with Some m => Nat.eqb (t + 1) m | None => false end).
  { destruct (w_limit w) as [m|]; [|reflexivity]. destruct (Nat.leb_spec m (t + 1)), (Nat.eqb_spec (t + 1) m); try reflexivity; lia. }
  rewrite Hr. set (b := match w_limit w with Some m => Nat.eqb (t + 1) m | None => false end). clearbody b.
  destruct np as [n|], o as [s f r|p s fs rs]; try discriminate; cbn [allowed] in Ha.
  - rewrite flags_zero. unfold last_answer. cbn [over]. destruct b.
    + rewrite andb_true_r. destruct (forallb (fun f => negb (f =? 0)) fs) eqn:Eo; cbn [negb ended orb].
      * split; [reflexivity|]. rewrite flags_ended by exact Ha. exact Eo.
      * destruct (flags_stop fs Ha) as [F1 F2]. split; [reflexivity|]. fold stop. change (fun f => if f =? 0 then 2 else f) with stop. rewrite flags_ended; assumption.
    + rewrite andb_false_r. split; [reflexivity|]. cbn [ended]. apply flags_ended. exact Ha.
  - unfold last_answer, stop. cbn [over]. unfold flag in Ha. destruct b.
    + rewrite andb_true_r. destruct (Z.eqb_spec f 0); cbn; [split; reflexivity|]. split; [reflexivity|]. apply Z.ltb_lt. lia.
    + rewrite andb_false_r. split; [reflexivity|]. cbn [ended orb]. destruct (Z.eqb_spec f 0), (Z.ltb_spec 0 f); try reflexivity; lia.
Qed.

Lemma closed_steps g : forall l (w : wrapper S E), w_timestep w = None -> forall i, (i < length l)%nat ->
  exists m, nth_error (steps env g l w) i = Some (Err m).
Proof.
  induction l as [|a l IH]; intros w Hw i Hi; [cbn in Hi; lia|]. cbn [steps]. unfold execute. rewrite Hw.
  destruct i as [|i]; [eexists; reflexivity|]. cbn [nth_error]. apply IH; [exact Hw|]. cbn in Hi. lia.
Qed.

Definition rest (limit : option nat) (t : nat) : option nat := match limit with Some m => Some (m - t)%nat | None => None end.

Lemma takes_place_S limit t outs (o : res (out S R)) i : takes_place (rest limit t) (o :: outs) (Datatypes.S i) <->
  (exists x, o = Ok x /\ over x = false) /\ at_limit limit t = false /\ takes_place (rest limit (t + 1)) outs i \/
  (exists x, o = Ok x /\ over x = false) /\ at_limit limit t = true /\ False.
Proof.
  unfold takes_place, rest, at_limit. split.
  - intros [H1 H2]. left. split; [|split].
    + destruct (H2 0%nat ltac:(lia)) as (x & Hx & Ho). cbn in Hx. injection Hx as ->. eauto.
    + destruct limit; [|reflexivity]. apply Nat.eqb_neq. lia.
    + split; [destruct limit; lia|]. intros j Hj. destruct (H2 (Datatypes.S j) ltac:(lia)) as (x & Hx & Ho). cbn in Hx. eauto.
  - intros [((x & -> & Ho) & Hl & H1 & H2)|(_ & _ & [])]. split.
    + destruct limit; lia.
    + intros [|j] Hj; [exists x; split; [reflexivity|exact Ho]|]. cbn. apply H2. lia.
Qed.

Definition ready (g : option (shaping S A R)) (x : start S) (w : wrapper S E) : Prop :=
  match g with None => True | Some _ => exists s, x = StartOne s /\ w_previous w = Some s /\ w_parallel w = None end.

Lemma steps_exact g : forall l (w : wrapper S E) t x, within w t -> ready g x w ->
  let raws := answers env (w_env w) l in
  let outs := proper g x l raws in
  let limit := rest (w_limit w) t in
  (w_execute_check w = true -> l <> [] -> exists o, nth_error raws 0 = Some (Ok o) /\ documented env (w_parallel w) o = true) ->
  (forall i, (i < length l)%nat -> takes_place limit outs i -> exists o, nth_error outs i = Some (Ok o) /\ allowed (w_parallel w) o = true) ->
  forall i, (i < length l)%nat ->
    (takes_place limit outs i -> exists o, nth_error outs i = Some (Ok o) /\
       nth_error (steps env g l w) i = Some (Ok (if at_limit (w_limit w) (t + i) then last_answer o else o))) /\
    (~ takes_place limit outs i -> exists m, nth_error (steps env g l w) i = Some (Err m)).
Proof.
  induction l as [|a l IH]; intros w t x Hw Hg raws outs limit Hdoc Hall i Hi; [cbn in Hi; lia|].
  cbn [steps]. unfold execute. destruct Hw as [Ht Hm]. rewrite Ht.
  assert (Hc : (match w_limit w with Some m => Nat.leb m t | None => false end) = false) by (destruct (w_limit w); [apply Nat.leb_gt; exact Hm|reflexivity]).
  rewrite Hc. cbn [answers] in raws. destruct (e_execute env a (w_env w)) as [e' r] eqn:Ee.
  assert (H0 : takes_place limit outs 0).
  { unfold limit, takes_place, rest. split; [destruct (w_limit w); lia|]. intros j Hj. lia. }
  destruct (Hall 0%nat ltac:(cbn; lia) H0) as (o & Ho & Ha).
  (* the raw answer and the shaped one *)
  assert (Hraw : exists o0, r = Ok o0 /\ shape g (Wrapper e' (w_limit w) (Some t) (w_previous w) (w_parallel w) (w_reset_check w) (w_execute_check w)) a o0 = Ok o /\
            allowed (w_parallel w) o = true /\
            match w_parallel w, o0 with None, One _ _ _ => True | Some _, Many _ _ _ _ => True | _, _ => False end /\
            outs = Ok o :: proper g (match states_of o with Some s => StartOne s | None => x end) l (answers env e' l) /\
            match g with Some _ => match states_of o with Some s => w_parallel w = None | None => False end | None => True end).
  { subst raws outs. unfold proper, shape in *. destruct g as [g|].
    - destruct Hg as (s & -> & Hp & Hn). rewrite Hn in *. cbn [shaped] in Ho. destruct r as [[s' f r|]|m]; cbn [nth_error] in Ho; try discriminate.
      + cbn [w_previous]. rewrite Hp. destruct (g s a f r s') as [[r' f']|m] eqn:Eg; [|discriminate]. cbn in Ho. injection Ho as <-.
        eexists. split; [reflexivity|]. cbn iota beta. rewrite Eg. cbn [bind].
        split; [reflexivity|]. split; [exact Ha|]. split; [exact I|]. cbn [shaped states_of]. rewrite Eg. split; [reflexivity|reflexivity].
      + injection Ho as <-. discriminate.
    - cbn [nth_error] in Ho. injection Ho as ->. exists o. split; [reflexivity|]. split; [reflexivity|]. split; [exact Ha|].
      split; [|split; [reflexivity|exact I]]. destruct (w_parallel w), o; try discriminate; exact I. }
  destruct Hraw as (o0 & -> & Hs & _ & Hk & Houts & Hst). cbn [w_parallel w_execute_check].
  assert (Hchk : w_execute_check w && negb (check_execute env (Wrapper e' (w_limit w) (Some t) (w_previous w) (w_parallel w) (w_reset_check w) (w_execute_check w)) o0) = false).
  { destruct (w_execute_check w) eqn:Ec; [|reflexivity]. destruct (Hdoc eq_refl ltac:(discriminate)) as (o1 & E1 & D1).
    subst raws. cbn in E1. injection E1 as <-. cbn. apply negb_false_iff. exact D1. }
  rewrite Hchk, Hs. cbn [w_env w_limit w_timestep w_previous w_parallel w_reset_check].
  set (w1 := Wrapper e' (w_limit w) (Some t) (w_previous w) (w_parallel w) (w_reset_check w) (w_execute_check w)).
  assert (Hw1 : within w1 t) by (split; [reflexivity|exact Hm]).
  destruct (limit_output_eq w1 (w_parallel w) t o Hw1 Ha) as [L1 L2]. change (w_limit w1) with (w_limit w) in L1, L2. 
  destruct (w_parallel w) as [n|] eqn:Enp, o0 as [s0 f0 r0|p0 s0 fs0 rs0]; try (exfalso; exact Hk).
  all: rewrite L2; destruct i as [|i].
  1, 3: split; [intros _|intro H; contradiction]; exists o; (split; [exact Ho|]); cbn [nth_error]; rewrite L1, Nat.add_0_r; reflexivity.
  all: cbn [nth_error]; cbn in Hi; rewrite Houts; unfold limit; rewrite takes_place_S; fold limit.
  all: destruct (at_limit (w_limit w) t || over o) eqn:Eend.
  1, 3: match goal with |- context [steps _ ?g ?l ?w] => destruct (closed_steps g l w eq_refl i ltac:(lia)) as [msg Hmsg] end;
        (split; [|intros _; exists msg; exact Hmsg]);
        intros [((y & Hy & Hov) & Hal & _)|(_ & _ & [])]; injection Hy as <-; rewrite Hov, Hal in Eend; discriminate.
  all: apply orb_false_iff in Eend as [Eal Eov].
  all: match goal with |- context [steps _ _ _ ?w] => set (w' := w) end.
  all: assert (Hw' : within w' (t + 1)) by (split; [reflexivity|]; cbn [w_limit w']; unfold at_limit in Eal; destruct (w_limit w); [apply Nat.eqb_neq in Eal; lia|exact I]).
  all: set (x' := match states_of o with Some s => StartOne s | None => x end) in *.
  all: assert (Hg' : ready g x' w') by (unfold ready; destruct g; [|exact I]; destruct (states_of o) eqn:Es; [|contradiction]; first [discriminate Hst|eexists; split; [reflexivity|]; split; [cbn; reflexivity|exact Enp || reflexivity]]).
  all: specialize (IH w' (t + 1)%nat x' Hw' Hg'); cbn zeta in IH; cbn [w_env w_limit w_parallel w_execute_check w'] in IH.
  all: destruct (IH ltac:(discriminate)) with (i := i) as [I1 I2]; [|lia|].
  1, 3: intros j Hj Htp; rewrite Houts in Hall; apply (Hall (Datatypes.S j)); [cbn; lia|]; unfold limit; apply takes_place_S; left; eauto.
  all: split.
  1, 3: intros [(_ & _ & Htp)|(_ & _ & [])]; cbn [nth_error]; replace (t + Datatypes.S i)%nat with (t + 1 + i)%nat by lia; apply I1; exact Htp.
  all: intro Hn; apply I2; intro Htp; apply Hn; left; eauto.
Qed.

Lemma zero_steps g : forall l (w : wrapper S E) t, w_timestep w = Some t -> w_limit w = Some 0%nat -> forall i, (i < length l)%nat ->
  exists m, nth_error (steps env g l w) i = Some (Err m).
Proof.
  induction l as [|a l IH]; intros w t Hw Hl i Hi; [cbn in Hi; lia|]. cbn [steps]. unfold execute. rewrite Hw, Hl. cbn [Nat.leb].
  destruct i as [|i]; [eexists; reflexivity|]. cbn [nth_error]. apply (IH w t); [exact Hw|exact Hl|]. cbn in Hi. lia.
Qed.

Lemma reset_limit g np (w : wrapper S E) : w_limit (fst (reset env g np w)) = w_limit w.
Proof.
  unfold reset. repeat match goal with
  | |- context [if ?b then _ else _] => destruct b
  | |- context [let (_, _) := ?p in _] => destruct p
  | |- context [match ?x with _ => _ end] => destruct x
  end; reflexivity.
Qed.
Lemma execute_limit g a (w : wrapper S E) : w_limit (fst (execute env g a w)) = w_limit w.
Proof.
  unfold execute. destruct (w_timestep w); [|reflexivity]. destruct (match w_limit w with Some _ => _ | None => _ end); [reflexivity|].
  destruct (e_execute env a (w_env w)) as [e [o|m]]; [|reflexivity]. cbn [w_parallel].
  destruct (w_parallel w), o; try reflexivity; (destruct (_ && _); [reflexivity|]; destruct (shape _ _ _ _); reflexivity).
Qed.
Lemma calls_limit g l : forall w : wrapper S E, w_limit (calls env g l w) = w_limit w.
Proof.
  unfold calls. induction l as [|c l IH]; intro w; [reflexivity|]. cbn [fold_left]. rewrite IH. destruct c; cbn [do_call]; [apply reset_limit|apply execute_limit].
Qed.
Lemma reset_ok g np (w w1 : wrapper S E) x : reset env g np w = (w1, Ok x) ->
  w_timestep w1 = Some 0%nat /\ w_limit w1 = w_limit w /\ w_parallel w1 = (if Nat.ltb 1 (e_actors env) then Some (e_actors env) else np) /\
  match x with StartOne s => w_parallel w1 = None | StartMany _ _ => w_parallel w1 <> None end /\
  match g, x with Some _, StartOne s => w_previous w1 = Some s | _, _ => True end.
Proof.
  unfold reset. destruct (match np with None => false | Some _ => _ end); [discriminate|]. cbn [w_env w_limit w_timestep w_previous w_reset_check w_execute_check].
  destruct (e_reset env _ (w_env w)) as [e [y|m]]; [|discriminate]. cbn [w_parallel w_timestep w_env w_limit w_reset_check w_execute_check w_previous].
  destruct (if Nat.ltb 1 (e_actors env) then Some (e_actors env) else np) as [n|] eqn:En, y; try discriminate.
  all: destruct (w_reset_check w && _); [discriminate|]; intro H; injection H as <- <-; cbn; repeat split; try discriminate; destruct g; auto.
Qed.

(** The limit of a wrapper is its argument, or the environment's own one, and never
    exceeds the latter. *)
Theorem C34_limit : forall g (e : E) m (w : wrapper S E) l, init env e m = Ok w ->
  w_limit (calls env g l w) = (match m with Some _ => m | None => e_limit env end) /\
  forall a b, w_limit (calls env g l w) = Some a -> e_limit env = Some b -> (a <= b)%nat.
Proof.
  intros g e m w l. unfold init. destruct (match e_limit env with Some n => _ | None => _ end) eqn:E1; [discriminate|].
  destruct (_ && _); [discriminate|]. intro H. injection H as <-. rewrite calls_limit. cbn. split; [destruct m; reflexivity|].
  intros a b Ha Hb. destruct m as [m|]; rewrite Hb in *; injection Ha as <-; [|lia]. apply Nat.ltb_ge in E1. exact E1.
Qed.

(** After any calls and a reset, the i-th of any list of steps takes place if the limit is
    not reached and no earlier answer ended the episode; it returns the environment's
    answer (shaped by the shaping function, if any), at the last admitted timestep with
    everything unfinished reported as aborted.  All other steps raise an error.

    The environment's first answer must be as documented, the others (after shaping) must
    have terminals 0 to 2. *)
Theorem C34_exact : forall g (e : E) m (w w1 : wrapper S E) h np x l,
  init env e m = Ok w -> reset env g np (calls env g h w) = (w1, Ok x) -> (g = None \/ exists s, x = StartOne s) ->
  let limit := match m with Some _ => m | None => e_limit env end in
  let n := if Nat.ltb 1 (e_actors env) then Some (e_actors env) else np in
  let raws := answers env (w_env w1) l in
  let outs := proper g x l raws in
  (l <> [] -> exists o, nth_error raws 0 = Some (Ok o) /\ documented env n o = true) ->
  (forall i, (i < length l)%nat -> takes_place limit outs i -> exists o, nth_error outs i = Some (Ok o) /\ allowed n o = true) ->
  forall i, (i < length l)%nat ->
    (takes_place limit outs i -> exists o, nth_error outs i = Some (Ok o) /\
       nth_error (steps env g l w1) i = Some (Ok (if match limit with Some m => Nat.eqb (i + 1) m | None => false end then last_answer o else o))) /\
    (~ takes_place limit outs i -> exists msg, nth_error (steps env g l w1) i = Some (Err msg)).
Proof.
  intros g e m w w1 h np x l Hi Hr Hg limit n raws outs Hdoc Hall i Hlt.
  destruct (C34_limit g e m w h Hi) as [Hlim _]. fold limit in Hlim.
  destruct (reset_ok _ _ _ _ _ Hr) as (R1 & R2 & R3 & R4 & R5). rewrite Hlim in R2. fold n in R3.
  destruct limit as [[|k]|] eqn:El.
  - split; [intros [H _]; lia|]. intros _. apply (zero_steps g l w1 0%nat R1 R2 i Hlt).
  - pose proof (steps_exact g l w1 0%nat x) as Hs. cbn zeta in Hs. rewrite R2, R3 in Hs. cbn [rest] in Hs. rewrite Nat.sub_0_r in Hs. 
    destruct (Hs) with (i := i) as [S1 S2]; try assumption.
    + split; [exact R1|]. rewrite R2. lia.
    + unfold ready. destruct g as [g|]; [|exact I]. destruct Hg as [Hg|[s ->]]; [discriminate|]. exists s. split; [reflexivity|]. split; [exact R5|exact R4].
    + intros _. exact Hdoc.
    + split; [|exact S2]. intro Htp. destruct (S1 Htp) as (o & O1 & O2). exists o. split; [exact O1|]. exact O2.
  - pose proof (steps_exact g l w1 0%nat x) as Hs. cbn zeta in Hs. rewrite R2, R3 in Hs. cbn [rest] in Hs.
    destruct (Hs) with (i := i) as [S1 S2]; try assumption.
    + split; [exact R1|]. rewrite R2. exact I.
    + unfold ready. destruct g as [g|]; [|exact I]. destruct Hg as [Hg|[s ->]]; [discriminate|]. exists s. split; [reflexivity|]. split; [exact R5|exact R4].
    + intros _. exact Hdoc.
    + split; [|exact S2]. intro Htp. destruct (S1 Htp) as (o & O1 & O2). exists o. split; [exact O1|]. exact O2.
Qed.

(** Whatever the environment and the shaping function do: at most [limit] steps after a
    reset return something. *)
Definition returned (l : list (res (out S R))) : list (res (out S R)) := filter (fun r => match r with Ok _ => true | Err _ => false end) l.
Lemma execute_time g a (w : wrapper S E) t : w_timestep w = Some t ->
  match execute env g a w with
  | (w', Ok _) => (w_timestep w' = None \/ w_timestep w' = Some (t + 1)%nat) /\ forall m, w_limit w = Some m -> (t < m)%nat
  | (w', Err _) => w_timestep w' = Some t
  end.
Proof.
  intro Ht. unfold execute. rewrite Ht. destruct (match w_limit w with Some m => _ | None => _ end) eqn:El; [exact Ht|].
  destruct (e_execute env a (w_env w)) as [e [o|m]]; [|reflexivity]. cbn [w_parallel].
  destruct (w_parallel w), o; try reflexivity; (destruct (_ && _); [reflexivity|]; destruct (shape _ _ _ _); [|reflexivity]).
  all: split; [cbn [w_timestep]; destruct (ended _); auto|]; intros k Hk; rewrite Hk in El; apply Nat.leb_gt in El; exact El.
Qed.
Lemma at_most g : forall l (w : wrapper S E) t m, w_timestep w = Some t -> w_limit w = Some m -> (length (returned (steps env g l w)) <= m - t)%nat.
Proof.
  assert (Hc : forall l (w : wrapper S E), w_timestep w = None -> returned (steps env g l w) = []).
  { induction l as [|a l IH]; intros w Hw; [reflexivity|]. cbn [steps]. unfold execute. rewrite Hw. cbn. apply IH. exact Hw. }
  induction l as [|a l IH]; intros w t m Hw Hl; [cbn; lia|]. cbn [steps]. pose proof (execute_time g a w t Hw) as H.
  pose proof (execute_limit g a w) as Hl'. destruct (execute env g a w) as [w' [o|e]]; cbn [fst] in Hl'; rewrite Hl in Hl'.
  - destruct H as [[H|H] Hm]; specialize (Hm m Hl); cbn [returned filter length].
    + fold (returned (steps env g l w')). rewrite (Hc l w' H). cbn. lia.
    + specialize (IH w' _ m H Hl'). unfold returned in IH. lia.
  - cbn [returned filter]. exact (IH w' t m H Hl').
Qed.
Theorem C34_at_most : forall g (e : E) m k (w w1 : wrapper S E) h np x l,
  init env e m = Ok w -> reset env g np (calls env g h w) = (w1, Ok x) ->
  (match m with Some _ => m | None => e_limit env end) = Some k -> (length (returned (steps env g l w1)) <= k)%nat.
Proof.
  intros g e m k w w1 h np x l Hi Hr Hk. destruct (C34_limit g e m w h Hi) as [Hlim _].
  destruct (reset_ok _ _ _ _ _ Hr) as (R1 & R2 & _). pose proof (at_most g l w1 0%nat k R1 ltac:(congruence)). lia.
Qed.

(** Before the first reset, and after a step which ended the episode, no step changes the
    environment or the wrapper until the next reset. *)
Definition ends (o : out S R) : Prop := match o with One _ f _ => 0 < f | Many _ _ fs _ => Forall (fun f => 0 < f) fs end.
Lemma closed_calls g : forall l (w : wrapper S E), w_timestep w = None ->
  calls env g (map Execute l) w = w /\ Forall (fun r => exists m, r = Err m) (steps env g l w).
Proof.
  unfold calls. induction l as [|a l IH]; intros w Hw; [split; [reflexivity|constructor]|]. cbn [map fold_left do_call steps]. unfold execute. rewrite Hw. cbn [fst].
  destruct (IH w Hw) as [I1 I2]. split; [exact I1|]. constructor; [eauto|exact I2].
Qed.
Theorem C34_closed : forall g (e : E) m (w : wrapper S E), init env e m = Ok w ->
  (forall l, calls env g (map Execute l) w = w /\ Forall (fun r => exists msg, r = Err msg) (steps env g l w)) /\
  forall h a w1 o, execute env g a (calls env g h w) = (w1, Ok o) -> ends o ->
    forall l, calls env g (map Execute l) w1 = w1 /\ Forall (fun r => exists msg, r = Err msg) (steps env g l w1).
Proof.
  intros g e m w Hi. split.
  - intro l. apply closed_calls. unfold init in Hi. destruct (match e_limit env with Some n => _ | None => _ end); [discriminate|].
    destruct (_ && _); [discriminate|]. injection Hi as <-. reflexivity.
  - intros h a w1 o He Ho l. apply closed_calls. revert He. generalize (calls env g h w). clear w Hi. intros w He. unfold execute in He.
    destruct (w_timestep w) as [t|]; [|discriminate]. destruct (match w_limit w with Some m => _ | None => _ end); [discriminate|].
    destruct (e_execute env a (w_env w)) as [e' [o'|m']]; [|discriminate]. cbn [w_parallel] in He.
    assert (Hend : ended o = true).
    { destruct o as [s f r|p s fs rs]; cbn in *; [apply Z.ltb_lt; exact Ho|]. apply forallb_forall. rewrite Forall_forall in Ho. intros f Hf. apply Z.ltb_lt, Ho, Hf. }
    destruct (w_parallel w), o'; try discriminate; (destruct (_ && _) in He; [discriminate|]; destruct (shape _ _ _ _) in He; [|discriminate]);
      injection He as <- <-; cbn [w_timestep]; rewrite Hend; reflexivity.
Qed.

(** With a shaping function, a step of environments executed in parallel never returns. *)
Theorem C34_shaped_parallel_refuted : forall g a (w : wrapper S E), w_parallel w <> None ->
  exists msg, snd (execute env (Some g) a w) = Err msg.
Proof.
  intros g a w Hp. unfold execute. destruct (w_timestep w); [|eexists; reflexivity].
  destruct (match w_limit w with Some m => _ | None => _ end); [eexists; reflexivity|].
  destruct (e_execute env a (w_env w)) as [e [o|m]]; [|eexists; reflexivity]. cbn [w_parallel].
  destruct (w_parallel w), o; try contradiction; [eexists; reflexivity|]. destruct (_ && _); [eexists; reflexivity|]. cbn. eexists; reflexivity.
Qed.
End Env.

(** ** Examples *)

(** One environment which ends (terminal 1) at its fifth step, with limit 3 and limit 9 *)
Definition count5 : environment nat unit nat nat :=
  Environment (fun _ _ => (0%nat, Ok (StartOne 0%nat)))
    (fun _ e => (e + 1, Ok (One (e + 1) (if Nat.eqb (e + 1) 5 then 1 else 0)%Z e))%nat)
    (Some 9%nat) false 1 (fun _ _ => true) (fun _ => true).
Definition answers_of {S A R E} (env : environment S A R E) g e m np (l : list A) : list (res (out S R)) :=
  match init env e m with Ok w => steps env g l (fst (reset env g np w)) | Err _ => [] end.
Example ex_limit3 : answers_of count5 None 0%nat (Some 3%nat) None [tt; tt; tt; tt] =
  [Ok (One 1%nat 0 0%nat); Ok (One 2%nat 0 1%nat); Ok (One 3%nat 2 2%nat);
   Err "An environment episode has to be initialized by calling reset() first."].
Proof. reflexivity. Qed.
Example ex_limit9 : answers_of count5 None 0%nat None None [tt; tt; tt; tt; tt; tt] =
  [Ok (One 1%nat 0 0%nat); Ok (One 2%nat 0 1%nat); Ok (One 3%nat 0 2%nat); Ok (One 4%nat 0 3%nat); Ok (One 5%nat 1 4%nat);
   Err "An environment episode has to be initialized by calling reset() first."].
Proof. reflexivity. Qed.
(** The hypotheses of C34_exact *)
Example ex_hypotheses : exists w w1 x, init count5 0%nat (Some 3%nat) = Ok w /\ reset count5 None None w = (w1, Ok x) /\
  (exists o, nth_error (answers count5 (w_env w1) [tt; tt; tt; tt]) 0 = Some (Ok o) /\ documented count5 None o = true) /\
  forall i, (i < 4)%nat -> exists o, nth_error (answers count5 (w_env w1) [tt; tt; tt; tt]) i = Some (Ok o) /\ allowed None o = true.
Proof.
  eexists _, _, _. split; [reflexivity|]. split; [reflexivity|]. split; [eexists; split; reflexivity|].
  intros i Hi. destruct i as [|[|[|[|i]]]]; [..|lia]; eexists; split; reflexivity.
Qed.
(** A shaping function which ends the episode at a reward of 1 *)
Example ex_shaping : answers_of count5 (Some (fun _ _ f r s => Ok (r + s, if Nat.eqb r 1 then Some 1%Z else None)%nat)) 0%nat (Some 3%nat) None [tt; tt; tt] =
  [Ok (One 1%nat 0 1%nat); Ok (One 2%nat 1 3%nat); Err "An environment episode has to be initialized by calling reset() first."].
Proof. reflexivity. Qed.
(** Two instances executed in parallel: instance 0 ends at its second step, limit 3 *)
Definition pair2 : environment nat unit nat nat :=
  Environment (fun _ _ => (0%nat, Ok (StartMany [0; 1]%nat 0%nat)))
    (fun _ e => match e with
                | 0%nat => (1%nat, Ok (Many [0; 1]%nat (Some 1%nat) [0; 0] [0; 0]%nat))
                | 1%nat => (2%nat, Ok (Many [1]%nat (Some 2%nat) [1; 0] [0; 0]%nat))
                | _ => (3%nat, Ok (Many [1]%nat (Some 3%nat) [0] [0]%nat))
                end)
    None true 1 (fun _ _ => true) (fun _ => true).
Example ex_parallel : answers_of pair2 None 0%nat (Some 3%nat) (Some 2%nat) [tt; tt; tt; tt] =
  [Ok (Many [0; 1]%nat (Some 1%nat) [0; 0] [0; 0]%nat); Ok (Many [1]%nat (Some 2%nat) [1; 0] [0; 0]%nat); Ok (Many [] None [2] [0]%nat);
   Err "An environment episode has to be initialized by calling reset() first."].
Proof. reflexivity. Qed.

Print Assumptions C34_limit.
Print Assumptions C34_exact.
Print Assumptions C34_at_most.
Print Assumptions C34_closed.
Print Assumptions C34_shaped_parallel_refuted.
