(** Proofs about the registries which all agents share. *)
From Coq Require Import String List Arith Bool Lia.
From Verif Require Import Base GloModel GloSpec.
Import ListNotations.
Open Scope string_scope.
Open Scope list_scope.
Open Scope nat_scope.

(** ** The stack *)
Section CallInd.
Variable P : call -> Prop.
Hypothesis H : forall m cs r, Forall P cs -> P (Call m cs r).
Fixpoint call_all (c : call) : P c :=
  match c with Call m cs r => H m cs r ((fix go (l : list call) : Forall P l := match l with [] => Forall_nil _ | x :: q => Forall_cons _ (call_all x) (go q) end) cs) end.
End CallInd.
Definition execs (a : nat) (raises : bool) := fix go (cs : list call) (stack : list frame) : list frame * option string :=
  match cs with
  | [] => (stack, if raises then Some "raised" else None)
  | x :: q => match exec a x stack with (s, None) => go q s | (s, Some e) => (s, Some e) end
  end.
Lemma exec_eq a m cs r st : exec a (Call m cs r) st = leave (a, m) (fst (execs a r cs ((a, m) :: st))) (snd (execs a r cs ((a, m) :: st))).
Proof. reflexivity. Qed.
Lemma frame_refl f : frame_eqb f f = true.
Proof. unfold frame_eqb. rewrite !Nat.eqb_refl. reflexivity. Qed.
Lemma exec_ok a : forall c st, fst (exec a c st) = st /\ (snd (exec a c st) = None <-> quiet c) /\ (snd (exec a c st) = None \/ snd (exec a c st) = Some "raised").
Proof.
  apply (call_all (fun c => forall st, fst (exec a c st) = st /\ (snd (exec a c st) = None <-> quiet c) /\ (snd (exec a c st) = None \/ snd (exec a c st) = Some "raised"))).
  intros m cs r F st. rewrite exec_eq.
  assert (E : fst (execs a r cs ((a, m) :: st)) = (a, m) :: st /\ (snd (execs a r cs ((a, m) :: st)) = None <-> r = false /\ forall c, In c cs -> quiet c) /\
    (snd (execs a r cs ((a, m) :: st)) = None \/ snd (execs a r cs ((a, m) :: st)) = Some "raised")).
  { generalize ((a, m) :: st) as st'. induction F as [|c q Hc Hq IH]; intro st'; cbn [execs].
    - split; [reflexivity|]. cbn. destruct r; split; try tauto; split; try tauto; try congruence; intros [? ?]; congruence.
    - destruct (Hc st') as (A & B & C). destruct (exec a c st') as [s [e|]]; cbn [fst snd] in *; subst s.
      + split; [reflexivity|]. split; [|exact C]. split; [discriminate|]. intros [_ X]. rewrite (proj2 B (X c (or_introl eq_refl))). reflexivity.
      + destruct (IH st') as (A' & B' & C'). split; [exact A'|]. split; [|exact C']. rewrite B'. split; intros [X Y]; (split; [exact X|]).
        * intros x [<-|Hx]; [apply B; reflexivity|apply Y, Hx].
        * intros x Hx. apply Y. right. exact Hx. }
  destruct E as (A & B & C). rewrite A. cbn [leave fst snd]. rewrite frame_refl. split; [reflexivity|]. split; [|exact C]. rewrite B. split.
  - intros [-> X]. constructor. exact X.
  - intro X. inversion X. split; [reflexivity|assumption].
Qed.

(** ** Histories *)
Definition constructing (x : event * outcome) : option nat := match x with (Construct a, _) => Some a | _ => None end.
Definition closing (x : event * outcome) : bool := match x with (Close _, Done _) => true | _ => false end.
Lemma current_construct h a o b : current (h ++ [(Construct a, o)]) b <-> b = a.
Proof.
  split.
  - intro C. inversion C as [p c o' q Q1 Q2 E]. subst c. destruct (@exists_last _ ((Construct b, o') :: q)) as (l & x & E'); [discriminate|].
    rewrite E' in E. rewrite app_assoc in E. apply app_inj_tail in E. destruct E as [_ E].
    destruct q as [|y q].
    + destruct l; [injection E' as E'; congruence|]. destruct l; discriminate.
    + exfalso. destruct l as [|z l]; [discriminate|]. injection E' as _ E'. apply (Q1 a o). rewrite E', <- E. apply in_or_app. right. left. reflexivity.
  - intros ->. apply current_intro with (p := h) (q := []); intros ? ? [].
Qed.
Lemma current_close h a ls b : ~ current (h ++ [(Close a, Done ls)]) b.
Proof.
  intro C. inversion C as [p c o' q Q1 Q2 E]. subst c. destruct (@exists_last _ ((Construct b, o') :: q)) as (l & x & E'); [discriminate|].
  rewrite E' in E. rewrite app_assoc in E. apply app_inj_tail in E. destruct E as [_ E].
  destruct l as [|z l]; [injection E' as E' _; congruence|]. injection E' as _ E'. apply (Q2 a ls). rewrite E', <- E. apply in_or_app. right. left. reflexivity.
Qed.
Lemma current_other h x b : constructing x = None -> closing x = false -> (current (h ++ [x]) b <-> current h b).
Proof.
  intros N1 N2. split.
  - intro C. inversion C as [p c o' q Q1 Q2 E]. subst c. destruct q as [|y q] using rev_ind.
    + apply app_inj_tail in E. destruct E as [_ E]. subst x. discriminate.
    + clear IHq. rewrite app_comm_cons, app_assoc in E. apply app_inj_tail in E. destruct E as [E _]. rewrite <- E. constructor.
      * intros c x' H. apply (Q1 c x'). apply in_or_app. left. exact H.
      * intros c x' H. apply (Q2 c x'). apply in_or_app. left. exact H.
  - intro C. inversion C as [p c o' q Q1 Q2 E]. subst c. rewrite <- app_assoc. cbn [app]. constructor.
    + intros c o H. apply in_app_or in H. destruct H as [H|[H|[]]]; [exact (Q1 c o H)|]. subst x. discriminate.
    + intros c o H. apply in_app_or in H. destruct H as [H|[H|[]]]; [exact (Q2 c o H)|]. subst x. discriminate.
Qed.
Lemma current_in h a : current h a -> exists o, In (Construct a, o) h.
Proof. intro C. inversion C. exists o. apply in_or_app. right. left. reflexivity. Qed.
Lemma current_unique h a b : current h a -> current h b -> a = b.
Proof.
  intros A. revert b. induction h as [|x h IH] using rev_ind; intros b B.
  - inversion A. destruct p; discriminate.
  - destruct (constructing x) as [c|] eqn:E.
    + destruct x as [[] o]; try discriminate. apply current_construct in A, B. congruence.
    + destruct (closing x) eqn:E2.
      * destruct x as [[] []]; try discriminate. destruct (current_close _ _ _ _ A).
      * apply current_other in A, B; try assumption. exact (IH A b B).
Qed.
Lemma in_snoc {A} (h : list A) x y : In y (h ++ [x]) <-> In y h \/ y = x.
Proof. rewrite in_app_iff. cbn. intuition congruence. Qed.

(** ** What is known about an agent with a status *)
Definition has_c (h : history) a := exists ls, In (Construct a, Done ls) h.
Definition has_a (h : history) a := exists o, In (Initialize a, o) h.
Definition has_i (h : history) a := exists ls, In (Initialize a, Done ls) h.
Definition has_k (h : history) a := exists ls, In (Close a, Done ls) h.
Definition st (h : history) (a : nat) (x : status) : Prop :=
  match x with
  | Absent => forall e o, In (e, o) h -> about e <> a
  | Failed => (exists o, In (Construct a, o) h) /\ ~ has_c h a /\ ~ has_i h a /\ ~ has_k h a
  | Constructed => has_c h a /\ ~ has_a h a /\ ~ has_k h a /\ forall b ls, ~ built h a b ls
  | Attempted => has_c h a /\ has_a h a /\ ~ has_i h a /\ ~ has_k h a
  | Ready g => has_c h a /\ has_i h a /\ ~ has_k h a /\ forall b ls, g b = Some ls <-> built h a b ls
  | Closed => has_c h a /\ has_k h a
  end.
Lemma c_other h e o a : (forall ls, (e, o) <> (Construct a, Done ls)) -> (has_c (h ++ [(e, o)]) a <-> has_c h a).
Proof. intro N. unfold has_c. split; intros [l H]; exists l; [apply in_snoc in H; destruct H as [H|H]; [exact H|destruct (N l); congruence]|apply in_snoc; left; exact H]. Qed.
Lemma a_other h e o a : e <> Initialize a -> (has_a (h ++ [(e, o)]) a <-> has_a h a).
Proof. intro N. unfold has_a. split; intros [l H]; exists l; [apply in_snoc in H; destruct H as [H|H]; [exact H|congruence]|apply in_snoc; left; exact H]. Qed.
Lemma i_other h e o a : (forall ls, (e, o) <> (Initialize a, Done ls)) -> (has_i (h ++ [(e, o)]) a <-> has_i h a).
Proof. intro N. unfold has_i. split; intros [l H]; exists l; [apply in_snoc in H; destruct H as [H|H]; [exact H|destruct (N l); congruence]|apply in_snoc; left; exact H]. Qed.
Lemma k_other h e o a : (forall ls, (e, o) <> (Close a, Done ls)) -> (has_k (h ++ [(e, o)]) a <-> has_k h a).
Proof. intro N. unfold has_k. split; intros [l H]; exists l; [apply in_snoc in H; destruct H as [H|H]; [exact H|destruct (N l); congruence]|apply in_snoc; left; exact H]. Qed.
Lemma built_other h e o a b ls : (forall cs, (e, o) <> (Use a (Some b) cs, Done ls)) -> (built (h ++ [(e, o)]) a b ls <-> built h a b ls).
Proof. intro N. unfold built. split; intros [l H]; exists l; [apply in_snoc in H; destruct H as [H|H]; [exact H|destruct (N l); congruence]|apply in_snoc; left; exact H]. Qed.
Lemma st_other h e o a x : about e <> a -> st h a x -> st (h ++ [(e, o)]) a x.
Proof.
  intros N S.
  assert (Hc := c_other h e o a ltac:(intros ls E; apply N; injection E as -> _; reflexivity)).
  assert (Ha := a_other h e o a ltac:(intros ->; apply N; reflexivity)).
  assert (Hi := i_other h e o a ltac:(intros ls E; apply N; injection E as -> _; reflexivity)).
  assert (Hk := k_other h e o a ltac:(intros ls E; apply N; injection E as -> _; reflexivity)).
  destruct x; cbn [st] in *; rewrite ?Hc, ?Ha, ?Hi, ?Hk; try exact S.
  - intros e' o' H. apply in_snoc in H. destruct H as [H|H]; [exact (S _ _ H)|injection H as -> _; exact N].
  - destruct S as [[o' S] T]. split; [exists o'; apply in_snoc; left; exact S|exact T].
  - destruct S as (S1 & S2 & S3 & S4). repeat split; try assumption. intros b ls. rewrite built_other; [apply S4|]. intros cs E; apply N; injection E as -> _; reflexivity.
  - destruct S as (S1 & S2 & S3 & S4). repeat split; try assumption; rewrite S4, built_other; try tauto; intros cs E; apply N; injection E as -> _; reflexivity.
Qed.
(** An event which does not change the status. *)
Definition idle (h : history) (e : event) (o : outcome) (x : status) : Prop :=
  (forall a, e <> Construct a) /\ (forall a ls, (e, o) <> (Initialize a, Done ls)) /\ (forall a ls, (e, o) <> (Close a, Done ls)) /\
  (x = Constructed -> forall a, e <> Initialize a) /\
  (forall a b cs ls, (e, o) = (Use a (Some b) cs, Done ls) -> built h a b ls) /\ x <> Absent.
Lemma st_idle h e o a x : idle h e o x -> st h a x -> st (h ++ [(e, o)]) a x.
Proof.
  intros (N1 & N2 & N3 & N4 & N5 & N6) S.
  assert (Hc := c_other h e o a ltac:(intros ls E; apply (N1 a); congruence)).
  assert (Hi := i_other h e o a (N2 a)). assert (Hk := k_other h e o a (N3 a)).
  destruct x; cbn [st] in *; rewrite ?Hc, ?Hi, ?Hk; try exact S.
  - congruence.
  - destruct S as [[o' S] T]. split; [exists o'; apply in_snoc; left; exact S|exact T].
  - rewrite (a_other h e o a (N4 eq_refl a)). destruct S as (S1 & S2 & S3 & S4). repeat split; try assumption.
    intros b ls [cs G]. apply in_snoc in G. destruct G as [G|G]; apply (S4 b ls); [exists cs; exact G|]. exact (N5 a b cs ls (eq_sym G)).
  - destruct S as (S1 & [o' S2] & S3). split; [exact S1|]. split; [exists o'; apply in_snoc; left; exact S2|exact S3].
  - destruct S as (S1 & S2 & S3 & S4). repeat split; try assumption.
    + intro G. apply S4 in G. destruct G as [cs G]. exists cs. apply in_snoc. left. exact G.
    + intros [cs G]. apply in_snoc in G. destruct G as [G|G]; apply S4; [exists cs; exact G|]. exact (N5 a b cs ls (eq_sym G)).
Qed.

(** ** The invariant *)
Section Inv.
Variable names : nat -> list string.
Variable targets : nat -> list string.
Variable valid : nat -> bool.
Let step := step names targets valid.
Let run := run names targets valid.

Record inv (h : history) (p : process) : Prop := {
  i_owner : forall a, owner p = Some a <-> current h a;
  i_stack : match owner p with
            | None => stack p = None
            | Some c => (stack p = Some [] /\ agents p c <> Constructed) \/ stack p = Some [(c, 0)]
            end;
  i_agents : forall a, st h a (agents p a)
}.

Lemma inv_start : inv [] start.
Proof.
  split.
  - intro a. cbn. split; [discriminate|]. intro C. inversion C. destruct p; discriminate.
  - reflexivity.
  - intros a e o [].
Qed.

(** The process after an event which leaves the registries. *)
Lemma inv_idle h p e o : inv h p -> constructing (e, o) = None -> closing (e, o) = false -> idle h e o (agents p (about e)) -> inv (h ++ [(e, o)]) p.
Proof.
  intros I N1 N2 Id. destruct I as [A B C]. split.
  - intro a. rewrite A, current_other by assumption. reflexivity.
  - exact B.
  - intro a. destruct (Nat.eq_dec (about e) a) as [<-|N]; [apply st_idle; [exact Id|apply C]|apply st_other; [exact N|apply C]].
Qed.
Lemma inv_become h p e o x : inv h p -> constructing (e, o) = None -> closing (e, o) = false ->
  (x <> Constructed \/ agents p (about e) = Constructed) -> st (h ++ [(e, o)]) (about e) x -> inv (h ++ [(e, o)]) (become (about e) x p).
Proof.
  intros I N1 N2 Hx Hs. destruct I as [A B C]. split.
  - intro a. cbn [become owner]. rewrite A, current_other by assumption. reflexivity.
  - cbn [become owner stack agents]. destruct (owner p) as [c|]; [|exact B]. destruct B as [[B1 B2]|B]; [left; split; [exact B1|]|right; exact B].
    destruct (Nat.eqb_spec c (about e)) as [->|]; [destruct Hx as [Hx|Hx]; [exact Hx|congruence]|exact B2].
  - intro a. cbn [become agents]. destruct (Nat.eqb_spec a (about e)) as [->|N]; [exact Hs|apply st_other; [congruence|apply C]].
Qed.
Lemma process_eta p s : stack p = Some s -> Process (Some s) (owner p) (agents p) = p.
Proof. destruct p as [x y z]. cbn. intros ->. reflexivity. Qed.
(** A call of the model. *)
Lemma use_eq h p a gr cs : inv h p ->
  use names targets a gr cs p =
  match agents p a with
  | Ready g =>
      match stack p with
      | None => (p, Raised "AttributeError: _MODULE_STACK")
      | Some _ =>
          let e := snd (exec a (Call 0 cs false) []) in
          match gr with
          | None => (p, match e with None => Done [] | Some e => Raised e end)
          | Some b =>
              match g b with
              | Some ls => (p, match e with None => Done ls | Some e => Raised e end)
              | None =>
                  match resolve_all names targets p a with
                  | Err e => (p, Raised e)
                  | Ok ls => match e with None => (become a (Ready (fun k => if Bool.eqb k b then Some ls else g k)) p, Done ls) | Some e => (p, Raised e) end
                  end
              end
          end
      end
  | Closed => (p, Raised "AttributeError: model")
  | _ => (p, Raised "AssertionError")
  end.
Proof.
  intro I. unfold use. destruct (agents p a) eqn:EA; try reflexivity. destruct (stack p) as [s|] eqn:ES; [|reflexivity].
  assert (X : forall r, fst (exec a (Call 0 cs r) s) = s) by (intro r; apply exec_ok).
  assert (Y : snd (exec a (Call 0 cs false) s) = snd (exec a (Call 0 cs false) [])).
  { destruct (exec_ok a (Call 0 cs false) s) as (_ & A & B). destruct (exec_ok a (Call 0 cs false) []) as (_ & A' & B').
    destruct B as [B|B], B' as [B'|B']; try congruence; [apply A, A' in B|apply A', A in B']; congruence. }
  destruct gr as [b|].
  - destruct (graphs b) as [ls|]; [rewrite X, Y, process_eta by assumption; reflexivity|].
    destruct (resolve_all names targets p a) as [ls|e]; rewrite X, process_eta by assumption; [rewrite Y; reflexivity|reflexivity].
  - rewrite X, Y, process_eta by assumption. reflexivity.
Qed.
Lemma inv_use h p a gr cs : inv h p -> inv (h ++ [(Use a gr cs, snd (use names targets a gr cs p))]) (fst (use names targets a gr cs p)) \/ agents p a = Absent.
Proof.
  intro I. rewrite (use_eq h p a gr cs I).
  assert (R : agents p a <> Absent -> forall o, (forall b ls, gr = Some b -> o = Done ls -> built h a b ls) -> inv (h ++ [(Use a gr cs, o)]) p).
  { intros NA o Hb. apply inv_idle; [exact I|reflexivity|destruct o; reflexivity|]. cbn [about]. repeat split; try discriminate; try exact NA.
    intros a' b cs' ls E. injection E as -> -> -> ->. apply Hb; reflexivity. }
  destruct (agents p a) as [| | | |g|] eqn:EA; cbn [fst snd]; try (right; reflexivity); left; try (apply R; discriminate).
  destruct (stack p) as [s|] eqn:ES; [|apply R; discriminate]. cbn zeta.
  pose proof (i_agents _ _ I a) as S. rewrite EA in S. destruct S as (S1 & S2 & S3 & S4).
  destruct gr as [b|]; cbn [fst snd].
  - destruct (g b) as [ls|] eqn:Eg; cbn [fst snd].
    + apply R; [discriminate|]. intros b' ls' E1 E2. injection E1 as <-. destruct (snd (exec a (Call 0 cs false) [])); [discriminate|]. injection E2 as <-. apply S4, Eg.
    + destruct (resolve_all names targets p a) as [ls|e]; [|apply R; discriminate].
      destruct (snd (exec a (Call 0 cs false) [])) eqn:EX; [apply R; discriminate|]. cbn [fst snd].
      apply (inv_become h p (Use a (Some b) cs) (Done ls)); [exact I|reflexivity|reflexivity|left; discriminate|]. cbn [about st].
      rewrite c_other by discriminate. rewrite i_other by discriminate. rewrite k_other by discriminate. repeat split; try assumption.
      * destruct (Bool.eqb_spec b0 b) as [->|N]; [intro E; injection E as <-; exists cs; apply in_snoc; right; reflexivity|].
        intro E. apply S4 in E. destruct E as [c E]. exists c. apply in_snoc. left. exact E.
      * intros [c E]. apply in_snoc in E. destruct E as [E|E].
        -- assert (G : g b0 = Some ls0) by (apply S4; exists c; exact E). destruct (Bool.eqb_spec b0 b) as [->|N]; [congruence|exact G].
        -- injection E as -> _ ->. rewrite Bool.eqb_reflx. reflexivity.
  - apply R; discriminate.
Qed.

Lemma inv_construct h p a : inv h p -> agents p a = Absent -> inv (h ++ [(Construct a, snd (construct valid a p))]) (fst (construct valid a p)) /\
  snd (construct valid a p) = (if valid a then Done [] else Raised "constructor").
Proof.
  intros I EA. pose proof (i_agents _ _ I) as C. pose proof (C a) as S. unfold construct. rewrite EA in *. cbn [st] in S.
  assert (N : forall x o, about x = a -> ~ In (x, o) h) by (intros x o E H; exact (S _ _ H E)).
  assert (K : forall x o, st (h ++ [(Construct a, o)]) a x -> x <> Absent -> inv (h ++ [(Construct a, o)]) (become a x (Process (Some [(a, 0)]) (Some a) (agents p)))).
  { intros x o Hx _. split.
    - intro b. cbn. rewrite current_construct. split; congruence.
    - cbn. right. reflexivity.
    - intro b. cbn. destruct (Nat.eqb_spec b a) as [->|Nb]; [exact Hx|]. apply st_other; [cbn; congruence|apply C]. }
  assert (H1 : forall o, ~ has_a (h ++ [(Construct a, o)]) a) by (intros o [x H]; apply in_snoc in H; destruct H as [H|H]; [refine (N _ _ _ H); reflexivity|discriminate]).
  assert (H2 : forall o, ~ has_k (h ++ [(Construct a, o)]) a) by (intros o [x H]; apply in_snoc in H; destruct H as [H|H]; [refine (N _ _ _ H); reflexivity|discriminate]).
  assert (H3 : forall o, ~ has_i (h ++ [(Construct a, o)]) a) by (intros o [x H]; apply in_snoc in H; destruct H as [H|H]; [refine (N _ _ _ H); reflexivity|discriminate]).
  destruct (valid a); cbn [fst snd]; split; try reflexivity; apply K; try discriminate; cbn [st].
  - split; [exists []; apply in_snoc; right; reflexivity|]. split; [apply H1|]. split; [apply H2|].
    intros b ls [cs G]. apply in_snoc in G. destruct G as [G|G]; [refine (N _ _ _ G); reflexivity|discriminate].
  - split; [eexists; apply in_snoc; right; reflexivity|]. split; [|split; [apply H3|apply H2]].
    intros [x H]. apply in_snoc in H. destruct H as [H|H]; [refine (N _ _ _ H); reflexivity|discriminate].
Qed.

Definition can_init (p : process) (a : nat) : Prop := agents p a = Constructed /\ stack p = Some [(a, 0)].
Lemma initialize_eq p a : agents p a <> Absent ->
  (can_init p a /\ initialize names targets a p = (become a (Ready (fun _ => None)) (Process (Some []) (owner p) (agents p)), Done [])) \/
  (~ can_init p a /\ exists e, initialize names targets a p = ((match agents p a with Constructed => become a Attempted p | _ => p end), Raised e)).
Proof.
  intro NA. unfold initialize, can_init. destruct (agents p a) eqn:EA; try (right; split; [intros [X _]; discriminate|eexists; reflexivity]).
  destruct (stack p) as [[|f [|g r]]|]; try (right; split; [intros [_ X]; discriminate|eexists; reflexivity]).
  destruct (frame_eqb f (a, 0)) eqn:E.
  - left. unfold frame_eqb in E. apply andb_true_iff in E. destruct E as [E1 E2]. apply Nat.eqb_eq in E1, E2. destruct f as [f1 f2]. cbn in E1, E2. subst f1 f2. split; [split; reflexivity|].
    unfold use. cbn [become agents stack owner]. rewrite Nat.eqb_refl. rewrite exec_eq. cbn [execs fst snd leave]. rewrite frame_refl. reflexivity.
  - right. split; [|eexists; reflexivity]. intros [_ X]. injection X as ->. rewrite frame_refl in E. discriminate.
Qed.
Lemma inv_initialize h p a : inv h p -> agents p a <> Absent -> inv (h ++ [(Initialize a, snd (initialize names targets a p))]) (fst (initialize names targets a p)).
Proof.
  intros I NA. pose proof (i_agents _ _ I a) as S. destruct (initialize_eq p a NA) as [[[C1 C2] ->]|[C [e ->]]]; cbn [fst snd].
  - rewrite C1 in S. destruct S as (S1 & S2 & S3 & S4).
    destruct I as [A B C]. split.
    + intro b. cbn [become owner]. rewrite A, current_other by reflexivity. reflexivity.
    + cbn [become owner stack agents]. rewrite C2 in B. destruct (owner p) as [c|]; [|discriminate]. left. split; [reflexivity|].
      destruct B as [[B _]|B]; [discriminate|]. injection B as <-. rewrite Nat.eqb_refl. discriminate.
    + intro b. cbn [become agents]. destruct (Nat.eqb_spec b a) as [->|N]; [|apply st_other; [cbn; congruence|apply C]]. cbn [st].
      rewrite c_other by discriminate. rewrite k_other by discriminate. repeat split; try assumption.
      * exists []. apply in_snoc. right. reflexivity.
      * discriminate.
      * intros [cs H]. exfalso. apply in_snoc in H. destruct H as [H|H]; [|discriminate]. apply (S4 b ls). exists cs. exact H.
  - destruct (agents p a) eqn:EA; try congruence;
      try (apply inv_idle; [exact I|reflexivity|reflexivity|]; cbn [about]; rewrite EA; repeat split; discriminate).
    destruct S as (S1 & S2 & S3 & S4). apply (inv_become h p (Initialize a)); [exact I|reflexivity|reflexivity|left; discriminate|]. cbn [about st].
    rewrite c_other by discriminate. rewrite k_other by discriminate. rewrite i_other by discriminate. repeat split; try assumption.
    + eexists. apply in_snoc. right. reflexivity.
    + intros [ls H]. apply S2. exists (Done ls). exact H.
Qed.
Lemma inv_close h p a : inv h p -> agents p a <> Absent -> inv (h ++ [(Close a, snd (close a p))]) (fst (close a p)).
Proof.
  intros I NA. pose proof (i_agents _ _ I a) as S.
  assert (R : forall e, inv (h ++ [(Close a, Raised e)]) p).
  { intro e. apply inv_idle; [exact I|reflexivity|reflexivity|]. cbn [about]. repeat split; try discriminate. exact NA. }
  assert (K : has_c h a -> inv (h ++ [(Close a, Done [])]) (become a Closed (Process None None (agents p)))).
  { intro C. split.
    - intro b. cbn. split; [discriminate|]. intro X. destruct (current_close _ _ _ _ X).
    - reflexivity.
    - intro b. cbn [become agents]. destruct (Nat.eqb_spec b a) as [->|N]; [|apply st_other; [cbn; congruence|apply (i_agents _ _ I)]]. cbn [st].
      rewrite c_other by discriminate. split; [exact C|]. exists []. apply in_snoc. right. reflexivity. }
  unfold close. destruct (agents p a) eqn:EA; try apply R; destruct (stack p); try apply R; apply K, S.
Qed.
Lemma inv_describe h p a : inv h p -> agents p a <> Absent -> inv (h ++ [(Describe a, snd (describe names targets a p))]) (fst (describe names targets a p)).
Proof.
  intros I NA. cbn [describe fst]. apply inv_idle; [exact I|reflexivity|reflexivity|]. cbn [about]. repeat split; try discriminate. exact NA.
Qed.

Lemma run_app es es' p : run (es ++ es') p = (fst (run es' (fst (run es p))), snd (run es p) ++ snd (run es' (fst (run es p)))).
Proof.
  revert p. induction es as [|e r IH]; intro p; [cbn; destruct (run es' p); reflexivity|].
  change (run ((e :: r) ++ es') p) with (let x := step e p in let y := run (r ++ es') (fst x) in (fst y, (e, snd x) :: snd y)). cbn zeta. rewrite IH. reflexivity.
Qed.
Lemma run_events es p : map fst (snd (run es p)) = es.
Proof. revert p. induction es as [|e r IH]; intro p; [reflexivity|]. cbn. f_equal. apply IH. Qed.
Lemma run_in es e o : In (e, o) (snd (run es start)) -> In e es.
Proof. intro H. rewrite <- (run_events es start). exact (in_map fst _ _ H). Qed.
Lemma in_run es e : In e es -> exists o, In (e, o) (snd (run es start)).
Proof. intro H. rewrite <- (run_events es start) in H. apply in_map_iff in H. destruct H as ([e' o] & E & H). cbn in E. subst e'. exists o. exact H. Qed.
Lemma not_absent h p a o : inv h p -> In (Construct a, o) h -> agents p a <> Absent.
Proof. intros I H E. pose proof (i_agents _ _ I a) as S. rewrite E in S. exact (S _ _ H eq_refl). Qed.
Lemma run_inv es : proper es -> inv (snd (run es start)) (fst (run es start)).
Proof.
  intro P. induction P as [|es a P IH N|es e P IH Hin N]; [exact inv_start| |]; rewrite run_app; cbn [fst snd].
  - assert (E : agents (fst (run es start)) a = Absent).
    { pose proof (i_agents _ _ IH a) as S.
      assert (X : forall o, ~ In (Construct a, o) (snd (run es start))) by (intros o H; apply N, (run_in _ _ _ H)).
      assert (Y : ~ has_c (snd (run es start)) a) by (intros [ls H]; exact (X _ H)).
      destruct (agents (fst (run es start)) a); cbn [st] in S; try reflexivity; exfalso; try (apply Y, S). destruct S as [[o S] _]. exact (X o S). }
    destruct (inv_construct _ _ a IH E) as [K _]. exact K.
  - destruct (in_run _ _ Hin) as [o Ho]. pose proof (not_absent _ _ _ _ IH Ho) as NA. destruct e as [a|a|a g cs|a|a]; cbn [about] in *.
    + destruct (N a eq_refl).
    + exact (inv_initialize _ _ a IH NA).
    + destruct (inv_use _ _ a g cs IH) as [K|K]; [exact K|contradiction].
    + exact (inv_describe _ _ a IH NA).
    + exact (inv_close _ _ a IH NA).
Qed.
End Inv.
