(** Saving followed by restoring. *)

From Coq Require Import String Ascii List ZArith Lia Bool.
From Verif Require Import Base SaveModel SaveSpec SaveProofs SaveProofs2.
Import ListNotations.
Open Scope Z_scope.

Section Restore.
Variable V : Type.
Variable shape : V -> list nat.
Variable item : V -> Z.
Variable spec : Type.
Notation dir := (dir V spec).
Notation agent := (agent V).
Notation present := (present V spec).
Notation file d x := (lookup x (d_files V spec d)).

Definition file_of (g : format) (st : list (name * V)) : content V spec :=
  match g with Numpy => NpzFile V spec st | _ => Hdf5File V spec st end.

Definition base (a : agent) (filename : option name) : name :=
  match filename with Some f => f | None => a_name V a end.

(** The stored values are those of the variables [vs] of [a]. *)
Definition holds (a : agent) (st vs : list (name * V)) : Prop :=
  forall v y, In (v, y) vs -> exists k, variable_key V a v = Ok k /\ lookup k st = Some y.

Lemma present_write : forall x c (d : dir) y,
  present (write V spec x c d) y <-> y = x \/ present d y.
Proof. intros x c d y. unfold SaveSpec.present, write. cbn. apply in_put. Qed.

Lemma well_named_keys : forall (a : agent) vs, well_named V (a_name V a) vs ->
  forall v w k, In v (map fst vs) -> In w (map fst vs) ->
  variable_key V a v = Ok k -> variable_key V a w = Ok k -> v = w.
Proof.
  intros a vs [Hc [_ Inj]] v w k Hv Hw Ev Ew.
  apply (Inj v w k Hv Hw); apply variable_key_spec; assumption.
Qed.

Lemma save_file : forall (d : dir) a fo g ap js a' d' path,
  g = Numpy \/ g = Hdf5 ->
  well_named V (a_name V a) (a_saved V a) ->
  save V item spec d a fo g ap js = Ok (a', d', path) ->
  exists stem st,
    (ap = None /\ stem = base a fo \/
     exists u n, ap = Some u /\ counter V item a u = Ok n /\
       stem = base a fo ++ lit "-" ++ show n) /\
    path = stem ++ extension g /\
    file d' path = Some (file_of g st) /\
    holds a st (a_saved V a) /\
    (forall x, present d' x -> x = path \/ x = base a fo ++ lit ".json" \/ present d x).
Proof.
  intros d a fo g ap js a' d' path Hg Wn H. unfold save in H.
  destruct (model_save V item spec d a fo g ap) as [[[a1 d1] p1]|] eqn:E; [|discriminate H].
  cbn [bind] in H.
  assert (exists stem st,
    (ap = None /\ stem = base a fo \/
     exists u n, ap = Some u /\ counter V item a u = Ok n /\
       stem = base a fo ++ lit "-" ++ show n) /\
    p1 = stem ++ extension g /\
    d1 = write V spec p1 (file_of g st) d /\ a1 = a /\ holds a st (a_saved V a)) as
    [stem [st [Hstem [Hp [-> [-> Hh]]]]]].
  { unfold model_save in E. fold (base a fo) in E. cbv zeta in E.
    destruct (match ap with
              | None => Ok (base a fo)
              | Some u => do n <- counter V item a u; Ok (base a fo ++ lit "-" ++ show n)
              end) as [stem|] eqn:Es; [|discriminate E].
    cbn [bind] in E. exists stem.
    assert (ap = None /\ stem = base a fo \/
     exists u n, ap = Some u /\ counter V item a u = Ok n /\
       stem = base a fo ++ lit "-" ++ show n) as Hstem.
    { destruct ap as [u|].
      - destruct (counter V item a u) as [n|] eqn:En; [|discriminate Es]. cbn [bind] in Es.
        right. exists u, n. split; [reflexivity|]. split; [exact En|congruence].
      - left. split; congruence. }
    destruct Hg as [-> | ->].
    - destruct (npz_variables V a (a_saved V a) []) as [st|] eqn:Ev; [|discriminate E].
      cbn [bind] in E. injection E as <- <- <-. exists st. repeat split; try assumption.
      intros v y Hv. apply (npz_own V a _ _ _ Ev); [apply Wn| |exact Hv].
      apply well_named_keys. exact Wn.
    - destruct (hdf5_variables V a (a_saved V a) []) as [st|] eqn:Ev; [|discriminate E].
      cbn [bind] in E. injection E as <- <- <-. exists st. repeat split; try assumption.
      intros v y Hv. exact (hdf5_own V a _ _ _ Ev _ _ Hv). }
  fold (base a fo) in H.
  exists stem, st. split; [exact Hstem|].
  assert (p1 <> base a fo ++ lit ".json") as Hne.
  { rewrite Hp. intros C. apply (f_equal (@rev ascii)) in C. rewrite !rev_app_distr in C.
    destruct Hg as [-> | ->]; discriminate C. }
  destruct js as [s|]; injection H as <- <- <-; (split; [exact Hp|]); (split; [|split; [exact Hh|]]).
  - cbn. rewrite lookup_put_other by exact Hne. apply lookup_put_same.
  - intros x Hx. apply present_write in Hx. destruct Hx as [->|Hx]; [auto|].
    apply present_write in Hx. tauto.
  - cbn. rewrite lookup_remove_other by exact Hne. apply lookup_put_same.
  - intros x Hx. unfold SaveSpec.present in Hx. cbn in Hx. apply in_remove in Hx.
    apply in_put in Hx. destruct Hx as [->|Hx]; auto.
Qed.

Lemma counters_same : forall (a b : agent) u,
  a_name V a = a_name V b -> a_saved V a = a_saved V b ->
  counter V item a u = counter V item b u.
Proof. intros a b u H1 H2. unfold counter, counter_name. rewrite H1, H2. reflexivity. Qed.

Lemma restore_file : forall (d : dir) a s f fmt stem g st t e u,
  g = Numpy \/ g = Hdf5 ->
  select_file V spec d f fmt = Ok (stem, g) ->
  file d (stem ++ extension g) = Some (file_of g st) ->
  a_name V a = a_name V s -> same_variables V shape (a_saved V a) (a_saved V s) ->
  holds s st (a_saved V s) -> counters_of V item s t e u ->
  restore V shape item spec d a (Some f) fmt =
  (Agent V (a_name V a) (a_saved V s) (a_unsaved V a) (a_save_counter V a) (t, e, u), Ok tt).
Proof.
  intros d a s f fmt stem g st t e u Hg Hsel Hl Hn Hv Hh [Ct [Ce Cu]].
  unfold restore. rewrite Hsel.
  assert (assign_all V shape a st (a_saved V a) = (a_saved V s, Ok tt)) as Has.
  { apply assign_all_same; [exact Hv|]. intros v y Hvy.
    rewrite (variable_key_name V a s v Hn). apply Hh. exact Hvy. }
  set (a1 := Agent V (a_name V a) (a_saved V s) (a_unsaved V a) (a_save_counter V a) (a_counters V a)).
  assert (forall c, counter V item a1 c = counter V item s c) as Hc.
  { intros c. apply counters_same; [exact Hn|reflexivity]. }
  assert (model_restore V shape item spec d a stem g = (a1, Ok (t, e, u))) as ->; [|reflexivity].
  unfold model_restore. cbv zeta.
  destruct Hg as [-> | ->]; cbn [extension file_of] in Hl.
  - rewrite Hl, Has. fold a1. cbn [bind]. rewrite !Hc, Ct, Ce, Cu. reflexivity.
  - assert (isfile V spec d (stem ++ lit ".hdf5") = true) as ->.
    { unfold isfile. rewrite Hl. reflexivity. }
    rewrite Hl, Has. fold a1. cbn [bind]. rewrite !Hc, Ct, Ce, Cu. reflexivity.
Qed.

(** ** A series of saves *)

Lemma saves_names : forall f g u (d0 : dir) l d,
  g = Numpy \/ g = Hdf5 ->
  saves V item spec f g u d0 l d ->
  (forall b, In b l -> well_named V (a_name V b) (a_saved V b)) ->
  forall x, present d x ->
  present d0 x \/ x = f ++ lit ".json" \/
  exists b n, In b l /\ counter V item b u = Ok n /\ x = numbered f n (extension g).
Proof.
  intros f g u d0 l d Hg H. induction H as [|l d a js a' d' path H IH Hs]; intros Wn x Hx.
  { left. exact Hx. }
  destruct (save_file d a (Some f) g (Some u) js a' d' path Hg
              ltac:(apply Wn; apply in_or_app; right; left; reflexivity) Hs)
    as [stem [st [[[C _]|[u' [n [Eu [En Es]]]]] [Ep [_ [_ Hp]]]]]]; [discriminate C|].
  injection Eu as <-. cbn [base] in *.
  destruct (Hp x Hx) as [->|[->|Hd]].
  - right. right. exists a, n. split; [apply in_or_app; right; left; reflexivity|].
    split; [exact En|]. rewrite Ep, Es. unfold numbered. rewrite <- !app_assoc. reflexivity.
  - right. left. reflexivity.
  - assert (forall b, In b l -> well_named V (a_name V b) (a_saved V b)) as Wn'
      by (intros b Hb; apply Wn, in_or_app; left; exact Hb).
    destruct (IH Wn' x Hd) as [K|[K|[b [m [Hb K]]]]]; [auto|auto|].
    right. right. exists b, m. split; [apply in_or_app; left; exact Hb|exact K].
Qed.

Lemma json_not_saved : forall fmt f, ~ looks_saved fmt f (f ++ lit ".json").
Proof.
  intros fmt f [_ [[_ H]|[_ [H|H]]]].
  - apply (not_ends (lit ".np") "z" _ "n" (f ++ lit ".jso")) in H; [exact H|discriminate|].
    rewrite <- app_assoc. reflexivity.
  - apply (not_ends (lit ".hdf") "5" _ "n" (f ++ lit ".jso")) in H; [exact H|discriminate|].
    rewrite <- app_assoc. reflexivity.
  - apply (not_ends (lit ".h") "5" _ "n" (f ++ lit ".jso")) in H; [exact H|discriminate|].
    rewrite <- app_assoc. reflexivity.
Qed.

Lemma latest_restored : forall f g u (d0 : dir) l s d a fmt t e up,
  g = Numpy \/ g = Hdf5 -> admits fmt g ->
  saves V item spec f g u d0 (l ++ [s]) d ->
  (forall x, present d0 x -> ~ begins f x) ->
  (forall b, In b (l ++ [s]) -> well_named V (a_name V b) (a_saved V b)) ->
  (forall b m n, In b (l ++ [s]) -> counter V item b u = Ok m -> counter V item s u = Ok n ->
     0 <= m <= n) ->
  same_agent V shape a s -> counters_of V item s t e up ->
  restore V shape item spec d a (Some f) fmt =
  (Agent V (a_name V a) (a_saved V s) (a_unsaved V a) (a_save_counter V a) (t, e, up), Ok tt).
Proof.
  intros f g u d0 l s d a fmt t e up Hg Ha Hs Hd0 Wn Hc Same Cs.
  pose proof (saves_names f g u d0 _ d Hg Hs Wn) as Hnames.
  inversion Hs as [Hnil|l' d1 s' js a' d' path Hs' Hsave El Ed].
  { symmetry in Hnil. apply app_eq_nil in Hnil. destruct Hnil; discriminate. }
  apply app_inj_tail in El. destruct El as [-> ->]. subst d'.
  destruct (save_file d1 s (Some f) g (Some u) js a' d path Hg
              ltac:(apply Wn; apply in_or_app; right; left; reflexivity) Hsave)
    as [stem [st [[[C _]|[u' [n [Eu [En Es]]]]] [Ep [El [Hh Hp]]]]]]; [discriminate C|].
  injection Eu as <-. cbn [base] in *.
  assert (path = numbered f n (extension g)) as Epath.
  { rewrite Ep, Es. unfold numbered. rewrite <- !app_assoc. reflexivity. }
  assert (0 <= n) as Hn.
  { apply (Hc s n n); [apply in_or_app; right; left; reflexivity|exact En|exact En]. }
  assert (forall x, present d x -> begins f x ->
            x = f ++ lit ".json" \/
            exists k, 0 <= k <= n /\ x = numbered f k (extension g)) as Hx.
  { intros x Px Bx. destruct (Hnames x Px) as [K|[K|[b [m [Hb [Em K]]]]]].
    - destruct (Hd0 x K Bx).
    - left. exact K.
    - right. exists m. split; [exact (Hc b m n Hb Em En)|exact K]. }
  assert (forall x, (x = f \/ x = f ++ lit ".index") -> ~ present d x) as Hplain.
  { intros x Hxx Px.
    assert (begins f x) as Bx.
    { destruct Hxx as [-> | ->]; [exists []; symmetry; apply app_nil_r|eexists; reflexivity]. }
    destruct (Hx x Px Bx) as [K|[k [_ K]]].
    - destruct Hxx as [-> | ->].
      + rewrite <- (app_nil_r f) in K at 1. apply app_inv_head in K. discriminate.
      + apply app_inv_head in K. discriminate.
    - unfold numbered in K. destruct Hxx as [-> | ->].
      + rewrite <- (app_nil_r f) in K at 1. apply app_inv_head in K. discriminate.
      + apply app_inv_head in K. discriminate. }
  apply (restore_file d a s f fmt (f ++ lit "-" ++ show n) g st t e up Hg).
  - apply (select_newest V spec d f fmt g n Ha Hg).
    + intros x Px Lx. destruct (Hx x Px (proj1 Lx)) as [->|[k [Hk K]]].
      * destruct (json_not_saved fmt f Lx).
      * exists k. split; [lia|exact K].
    + intros _. split; apply Hplain; auto.
    + exact Hn.
    + unfold SaveSpec.present. apply lookup_in. rewrite <- Epath, El. discriminate.
    + intros k Hk Pk. destruct (Hx _ Pk (numbered_begins f k _)) as [K|[j [Hj K]]].
      * unfold numbered in K. apply app_inv_head in K. discriminate.
      * apply numbered_inj in K; lia.
  - replace ((f ++ lit "-" ++ show n) ++ extension g) with path; [exact El|].
    rewrite Epath. unfold numbered. rewrite <- !app_assoc. reflexivity.
  - apply Same.
  - apply Same.
  - exact Hh.
  - exact Cs.
Qed.

(** ** Checkpoints *)

Lemma save_checkpoint : forall (d : dir) a fo ap js a' d' path,
  save V item spec d a fo Checkpoint ap js = Ok (a', d', path) ->
  exists stem k,
    (ap = None /\ stem = base a fo \/
     exists u n, ap = Some u /\ counter V item a u = Ok n /\
       stem = base a fo ++ lit "-" ++ show n) /\
    path = stem ++ lit "-" ++ show k /\ k = a_save_counter V a + 1 /\
    d_latest V spec d' = Some path /\
    file d' (path ++ lit ".index") =
      Some (CheckpointFile V spec (a_name V a) (a_saved V a ++ a_unsaved V a) k) /\
    (forall x, present d' x ->
       x = path ++ lit ".index" \/ x = path ++ lit ".data-00000-of-00001" \/
       x = lit "checkpoint" \/ x = base a fo ++ lit ".json" \/ present d x).
Proof.
  intros d a fo ap js a' d' path H. unfold save in H.
  destruct (model_save V item spec d a fo Checkpoint ap) as [[[a1 d1] p1]|] eqn:E; [|discriminate H].
  cbn [bind] in H. fold (base a fo) in H.
  unfold model_save in E. fold (base a fo) in E. cbv zeta in E.
  destruct (match ap with
            | None => Ok (base a fo)
            | Some u => do n <- counter V item a u; Ok (base a fo ++ lit "-" ++ show n)
            end) as [stem|] eqn:Es; [|discriminate E].
  cbn [bind] in E. injection E as <- <- <-.
  exists stem, (a_save_counter V a + 1). split.
  { destruct ap as [u|].
    - destruct (counter V item a u) as [n|] eqn:En; [|discriminate Es]. cbn [bind] in Es.
      right. exists u, n. split; [reflexivity|]. split; [exact En|congruence].
    - left. split; congruence. }
  set (p := stem ++ lit "-" ++ show (a_save_counter V a + 1)) in *.
  assert (forall x e, p ++ lit ".index" = x ++ e -> last e " "%char <> "x"%char -> e <> [] -> False) as N.
  { intros x e C L Ne. destruct (exists_last Ne) as [e' [z ->]]. rewrite last_last in L.
    replace (p ++ lit ".index") with ((p ++ lit ".inde") ++ ["x"%char]) in C
      by (rewrite <- app_assoc; reflexivity).
    rewrite app_assoc in C. apply app_inj_tail in C. destruct C. congruence. }
  assert (p ++ lit ".index" <> base a fo ++ lit ".json") as N1
    by (intros C; apply (N _ _ C); [cbn; discriminate|discriminate]).
  assert (p ++ lit ".index" <> lit "checkpoint") as N2.
  { intros C. apply (N [] (lit "checkpoint") C); [cbn; discriminate|discriminate]. }
  destruct js as [s|]; injection H as <- <- <-;
    (split; [reflexivity|]); (split; [reflexivity|]); (split; [reflexivity|]); (split; [cbn|]).
  - rewrite lookup_put_other by exact N1. rewrite lookup_put_other by exact N2. apply lookup_put_same.
  - intros x Hx. unfold SaveSpec.present in *. cbn in Hx. rewrite !in_put in Hx. tauto.
  - rewrite lookup_remove_other by exact N1. rewrite lookup_put_other by exact N2. apply lookup_put_same.
  - intros x Hx. unfold SaveSpec.present in *. cbn in Hx. apply in_remove in Hx.
    rewrite !in_put in Hx. tauto.
Qed.

Lemma restore_checkpoint : forall (d : dir) a s f fmt path k t e u,
  select_file V spec d f fmt = Ok (path, Checkpoint) ->
  file d (path ++ lit ".index") =
    Some (CheckpointFile V spec (a_name V s) (a_saved V s ++ a_unsaved V s) k) ->
  same_agent V shape a s -> NoDup (map fst (a_saved V s ++ a_unsaved V s)) ->
  counters_of V item s t e u ->
  restore V shape item spec d a (Some f) fmt =
  (Agent V (a_name V a) (a_saved V s) (a_unsaved V s) k (t, e, u), Ok tt).
Proof.
  intros d a s f fmt path k t e u Hsel Hl [Hn [Hs Hu]] Nd [Ct [Ce Cu]].
  unfold restore. rewrite Hsel. unfold model_restore. cbv zeta. rewrite Hl, <- Hn, name_eqb_refl.
  set (st := a_saved V s ++ a_unsaved V s) in *.
  rewrite (assign_present_same V shape st (a_saved V a) (a_saved V s) Hs).
  2:{ intros v y H. apply lookup_nodup; [exact Nd|]. apply in_or_app. left. exact H. }
  rewrite (assign_present_same V shape st (a_unsaved V a) (a_unsaved V s) Hu).
  2:{ intros v y H. apply lookup_nodup; [exact Nd|]. apply in_or_app. right. exact H. }
  cbn [bind].
  set (a1 := Agent V (a_name V a) (a_saved V s) (a_unsaved V s) k (a_counters V a)).
  assert (forall c, counter V item a1 c = counter V item s c) as Hc.
  { intros c. apply counters_same; [exact Hn|reflexivity]. }
  rewrite !Hc, Ct, Ce, Cu. reflexivity.
Qed.

End Restore.
