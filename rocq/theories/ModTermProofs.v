(** The resolution of a module specification ends, if files do not refer to each other in cycles. *)
From Coq Require Import String List ZArith Bool Lia Arith.
From Verif Require Import Base SigModel ModModel ModSpec MergeProofs ModProofs.
Import ListNotations.
Open Scope string_scope.
Open Scope list_scope.
Open Scope nat_scope.

Section Term.
Variable W : world.
Variable name : string.
Variable ms : option dict.
Variable cost : string -> nat.

(** The size of a value, where a string counts [cost]. *)
Fixpoint vsize (v : value) : nat :=
  match v with
  | PAtom (AStr s) => cost s
  | PAtom _ => 0
  | PSeq _ l => 0
  | PDict es => S ((fix go (es : dict) := match es with [] => 0 | (_, x) :: r => vsize x + go r end) es)
  end.
Fixpoint tsize (es : dict) : nat := match es with [] => 0 | (_, x) :: r => vsize x + tsize r end.
Lemma vsize_dict es : vsize (PDict es) = S (tsize es).
Proof. cbn [vsize]. f_equal. Qed.
Lemma tsize_app a b : tsize (a ++ b) = tsize a + tsize b.
Proof. induction a as [|[k x] r IH]; [reflexivity|]. cbn [app tsize]. rewrite IH. lia. Qed.
Lemma tsize_put k (w old : value) es : plook k es = Some old -> tsize (pput k w es) + vsize old = tsize es + vsize w.
Proof.
  induction es as [|[k' x] r IH]; cbn [plook pput]; [discriminate|]. destruct (String.eqb k k'); cbn [tsize].
  - intro H. injection H as ->. lia.
  - intro H. specialize (IH H). lia.
Qed.
Lemma ddu_size (v : value) : forall ts ts', deep_disjoint_update atom_eqb ts v = Ok ts' -> tsize ts' + 1 <= tsize ts + vsize v.
Proof.
  induction v as [a|t l|ss IH] using pval_ind_all; intros ts ts' H; try discriminate. rewrite vsize_dict. cbn [deep_disjoint_update] in H.
  revert ts H. induction IH as [|[key value] r Hv Hr IHr]; intros ts H.
  - injection H as <-. lia.
  - apply step_cases in H. destruct H as (ts1 & H & Hc). specialize (IHr _ H). cbn [tsize].
    assert (tsize ts1 <= tsize ts + vsize value); [|lia].
    destruct Hc as [[_ ->]|[(es & es' & vs & Hk & -> & Hd & ->)|(w & _ & _ & _ & _ & ->)]].
    + rewrite tsize_app. cbn. lia.
    + pose proof (tsize_put key (PDict es') _ _ Hk) as P. cbn [snd] in Hv. specialize (Hv _ _ Hd). rewrite !vsize_dict in *. lia.
    + lia.
Qed.
Lemma drop_size k d : tsize (drop k d) + match plook k d with Some v => vsize v | None => 0 end <= tsize d.
Proof.
  unfold drop. induction d as [|[k' x] r IH]; cbn [filter fst plook tsize]; [lia|].
  destruct (String.eqb_spec k k') as [->|N]; cbn [negb].
  - assert (tsize (filter (fun e => negb (k' =? fst e)%string) r) <= tsize r); [|lia]. clear. induction r as [|[a y] q IH]; [reflexivity|]. cbn [filter fst tsize]. destruct (k' =? a)%string; cbn [negb tsize]; lia.
  - cbn [tsize]. lia.
Qed.

Definition total (a : args) : Prop := exists r, results W name ms a r.
Lemma total_step a : match step W name ms a with Done _ => True | Call b => total b end -> total a.
Proof.
  intro H. destruct (step W name ms a) as [r|b] eqn:E.
  - exists r. apply done, E.
  - destruct H as [r H]. exists r. apply results_step. rewrite E. exact H.
Qed.

Lemma ms_case : (exists l, ms = Some l) \/ ms = None.
Proof. destruct ms; eauto. Qed.

(** The modules are classes or functions, and so is what can be imported. *)
Hypothesis registry : forall l k v, ms = Some l -> plook k l = Some v -> constructor_value v.
Hypothesis imports : forall s v, m_import W s = Ok (Some v) -> constructor_value v.
Hypothesis smaller : forall s v, m_file W s = Some (Ok v) -> vsize v < cost s.

Lemma total_constructor m d di kw : constructor_value m -> total (Args m d di kw).
Proof.
  intro H. apply total_step. unfold step. cbn [a_default a_module a_kwargs a_disable]. destruct (check_default ms d); [|exact I].
  destruct m as [[]|?|?]; cbn in H; try contradiction; [exact I|]. destruct k; try contradiction; exact I.
Qed.
Lemma total_call m d di kw : (total (Args m d di kw)) -> match call m d di kw with Done _ => True | Call b => total b end.
Proof. unfold call. destruct (existsb _ _); [intros; exact I|tauto]. Qed.
(** A string which is no file name. *)
Lemma total_word s kw di : m_file W s = None -> (exists l v, ms = Some l /\ plook s l = Some v) -> forall d, total (Args (str s) d di kw).
Proof.
  intros F (l & v & Hm & Hl) d. apply total_step. unfold step. cbn [a_default a_module a_kwargs a_disable str]. destruct (check_default ms d); [|exact I].
  unfold from_string. rewrite F. pose proof (registry l s v Hm Hl) as C. rewrite Hm, Hl. apply total_call. apply total_constructor, C.
Qed.

Definition no_file (d : value) : Prop := match d with PAtom (AStr s) => m_file W s = None | _ => True end.
(** What the default stands for. *)
Lemma total_default d kw di e : no_file d -> check_default ms d = Ok tt -> is_none d = false -> total (Args d e di kw).
Proof.
  unfold check_default. intros F C N. rewrite N in C. destruct ms_case as [[l Em]|Em]; rewrite Em in C; [|discriminate].
  destruct d as [[]|?|?]; try discriminate.
  - destruct (has s l) eqn:H; [|discriminate]. unfold has in H. destruct (plook s l) as [v|] eqn:E; [|discriminate].
    apply total_word; [exact F|eauto].
  - apply total_constructor. destruct k; try discriminate; exact I.
Qed.
Lemma use_total m d kw : no_file d -> check_default ms d = Ok tt -> has_default ms d = Ok true -> match use_default ms m d kw with Done _ => True | Call b => total b end.
Proof.
  intros F C H. unfold use_default. destruct (has _ kw); [exact I|]. apply total_call. unfold default_of. destruct (is_none d) eqn:N.
  - unfold has_default in H. destruct ms_case as [[l Em]|Em]; rewrite Em in H |- *; [|discriminate]. rewrite N, orb_false_r in H. injection H as H. unfold has in H.
    destruct (plook "default" l) as [v|] eqn:E; [|discriminate]. apply total_constructor. exact (registry l "default" v Em E).
  - apply total_default; assumption.
Qed.

Lemma object_total m d kw : no_file d -> check_default ms d = Ok tt -> match from_object name ms m d kw with Done _ => True | Call b => total b end.
Proof.
  intros F C. unfold from_object. destruct (negb (callable m) || is_keras m); [|exact I].
  destruct (has_default ms d) as [[]|] eqn:H; [apply use_total; assumption|destruct (callable m); exact I|exact I].
Qed.

Lemma total_all : forall n a, no_file (a_default a) -> vsize (a_module a) + tsize (a_kwargs a) <= n -> total a.
Proof.
  induction n as [n IH] using lt_wf_ind. intros [m d di kw] F Hn. cbn [a_default a_module a_kwargs] in *.
  apply total_step. unfold step. cbn [a_default a_module a_kwargs a_disable]. destruct (check_default ms d) as [[]|] eqn:C; [|exact I].
  destruct m as [[]|t l|es]; try (apply object_total; assumption).
  - unfold from_string. destruct (m_file W s) as [[v|]|] eqn:Fs; [|exact I|].
    + pose proof (smaller _ _ Fs) as P. apply total_call. cbn [vsize] in Hn. apply (IH (vsize v + tsize kw)); [lia|exact F|cbn; lia].
    + destruct (match ms with Some ms => plook s ms | None => None end) as [v|] eqn:E.
      * apply total_call, total_constructor. destruct ms_case as [[l Em]|Em]; rewrite Em in E; [|discriminate]. exact (registry l s v Em E).
      * unfold from_library. destruct (parent_class ms); [|exact I]. destruct (m_import W s) as [[v|]|] eqn:Ei; [|destruct (has_default ms d) as [[]|] eqn:H; try exact I|exact I].
        -- apply total_call, total_constructor, (imports s v Ei).
        -- destruct (has "_first_arg" kw); [exact I|]. destruct di; [exact I|]. apply use_total; assumption.
  - destruct (deep_disjoint_update atom_eqb kw (PDict es)) as [d'|] eqn:E; [|exact I]. apply ddu_size in E. pose proof (drop_size "type" d') as P. apply total_call.
    destruct (plook "type" d') as [t|].
    + apply (IH (vsize t + tsize (drop "type" d'))); [lia|exact F|cbn; lia].
    + destruct (is_none d) eqn:N; [|apply total_default; assumption].
      apply (IH (vsize d + tsize (drop "type" d'))); [|exact F|cbn; lia]. destruct d as [[]|?|?]; try discriminate. cbn [vsize]. lia.
Qed.
End Term.
