(** Theorems on messages over sockets (C36). *)

From Coq Require Import String List ZArith Bool Lia.
From Verif Require Import Base SockModel.
Import ListNotations.
Open Scope string_scope.
Open Scope list_scope.
Open Scope Z_scope.

(** ** Decimal numbers *)

Definition value (b : bytes) : Z := fold_left (fun v x => 10 * v + (x - 48)) b 0.
Definition is_digit (x : Z) : Prop := 48 <= x <= 57.
Lemma value_acc b : forall v, fold_left (fun v x => 10 * v + (x - 48)) b v = v * 10 ^ len b + value b.
Proof.
  unfold value, len. induction b as [|x b IH]; intro v; [cbn; lia|]. cbn [fold_left length]. rewrite IH, (IH (10 * 0 + (x - 48))).
  rewrite Nat2Z.inj_succ, Z.pow_succ_r by lia. ring.
Qed.
Lemma value_app a b : value (a ++ b) = value a * 10 ^ len b + value b.
Proof. unfold value. rewrite fold_left_app. apply value_acc. Qed.
Lemma value_snoc a x : value (a ++ [x]) = value a * 10 + (x - 48).
Proof. rewrite value_app. unfold value at 2, len. cbn [fold_left length]. change (10 ^ Z.of_nat 1) with 10. lia. Qed.
Lemma value_nonneg b : Forall is_digit b -> 0 <= value b.
Proof.
  induction b as [|x b IH] using rev_ind; intro H; [cbn; lia|]. apply Forall_app in H as [H1 H2]. inversion H2 as [|? ? Hx _]; subst.
  rewrite value_snoc. unfold is_digit in Hx. specialize (IH H1). lia.
Qed.
Lemma parse_digits b : Forall is_digit b -> parse b = Ok (value b).
Proof.
  intro H. unfold parse. replace (forallb _ b) with true; [reflexivity|]. symmetry. apply forallb_forall. rewrite Forall_forall in H.
  intros x Hx. apply H in Hx. unfold is_digit in Hx. lia.
Qed.

Lemma digits_spec f : forall n, 0 <= n -> (Z.to_nat n <= f)%nat ->
  Forall is_digit (digits f n) /\ value (digits f n) = n /\ (0 < n -> exists x r, digits f n = x :: r /\ 48 < x) /\
  (10 <= n -> 10 ^ (len (digits f n) - 1) <= n) /\ digits f n <> [].
Proof.
  induction f as [|f IH]; intros n Hn Hf.
  - assert (n = 0) as -> by lia. cbn. repeat split; try discriminate; try lia. repeat constructor; unfold is_digit; lia.
  - cbn [digits]. destruct (Z.ltb_spec n 10).
    + repeat split; try discriminate; try lia.
      * repeat constructor; unfold is_digit; lia.
      * unfold value. cbn [fold_left]. lia.
      * intros Hp. exists (48 + n), []. split; [reflexivity|lia].
    + destruct (IH (n / 10)) as (I1 & I2 & I3 & I4 & I5).
      { apply Z.div_pos; lia. } { pose proof (Z.div_lt n 10 ltac:(lia) ltac:(lia)). lia. }
      pose proof (Z.mod_pos_bound n 10 ltac:(lia)). pose proof (Z.div_mod n 10 ltac:(lia)). repeat split.
      * apply Forall_app. split; [exact I1|]. repeat constructor; unfold is_digit; lia.
      * rewrite value_snoc, I2. lia.
      * intros _. destruct I3 as (x & r & -> & Hx); [apply Z.div_str_pos; lia|]. exists x, (r ++ [48 + n mod 10]). split; [reflexivity|exact Hx].
      * intros _. unfold len in *. rewrite app_length. cbn [length]. rewrite Nat2Z.inj_add. cbn.
        destruct (Z.leb_spec 10 (n / 10)).
        -- specialize (I4 ltac:(lia)). replace (Z.of_nat (length (digits f (n / 10))) + 1 - 1) with (Z.succ (Z.of_nat (length (digits f (n / 10))) - 1)) by lia.
           rewrite Z.pow_succ_r; [lia|]. destruct (digits f (n / 10)); [congruence|cbn [length]; lia].
        -- assert (length (digits f (n / 10)) = 1%nat) as ->; [|cbn; lia].
           destruct f; [cbn; reflexivity|]. cbn [digits]. destruct (Z.ltb_spec (n / 10) 10); [reflexivity|lia].
      * destruct (digits f (n / 10)); discriminate.
Qed.

Lemma value_zeros k : forall b, value (repeat 48 k ++ b) = value b.
Proof. induction k as [|k IH]; intro b; [reflexivity|]. cbn [repeat app]. unfold value in *. cbn [fold_left]. apply IH. Qed.
Lemma format8_spec n : 0 <= n -> Forall is_digit (format8 n) /\ value (format8 n) = n /\ (8 <= length (format8 n))%nat /\
  (n < 100000000 -> length (format8 n) = 8%nat) /\ (100000000 <= n -> (8 < length (format8 n))%nat).
Proof.
  intro Hn. unfold format8. destruct (digits_spec (Z.to_nat n) n Hn ltac:(lia)) as (D1 & D2 & D3 & D4 & D5). set (d := digits (Z.to_nat n) n) in *.
  split; [|split; [|split; [|split]]].
  - apply Forall_app. split; [|exact D1]. apply Forall_forall. intros x Hx. apply repeat_spec in Hx. rewrite Hx. unfold is_digit. lia.
  - rewrite value_zeros. exact D2.
  - rewrite app_length, repeat_length. lia.
  - intro Hs. rewrite app_length, repeat_length. enough (length d <= 8)%nat by lia.
    destruct (Z.leb_spec 10 n).
    + specialize (D4 ltac:(lia)). destruct (Nat.leb_spec (length d) 8); [assumption|]. exfalso.
      assert (10 ^ 8 <= 10 ^ (len d - 1)) by (apply Z.pow_le_mono_r; unfold len; lia). change (10 ^ 8) with 100000000 in *. lia.
    + unfold d. destruct (Z.to_nat n) eqn:E; cbn [digits]; [cbn; lia|]. destruct (Z.ltb_spec n 10); [cbn; lia|lia].
  - intro Hb. rewrite app_length, repeat_length. destruct (Nat.ltb_spec 8 (length d)); [lia|]. exfalso.
    assert (Hval : forall b, Forall is_digit b -> value b < 10 ^ len b).
    { clear. unfold len. induction b as [|x b IH] using rev_ind; intro H; [cbn; lia|]. apply Forall_app in H as [H1 H2]. inversion H2 as [|? ? Hx _]; subst.
      rewrite value_snoc, app_length. cbn [length]. rewrite Nat2Z.inj_add. change (Z.of_nat 1) with 1. rewrite Z.pow_add_r by lia.
      specialize (IH H1). unfold is_digit in *. change (10 ^ 1) with 10. lia. }
    specialize (Hval d D1). rewrite D2 in Hval. assert (10 ^ len d <= 10 ^ 8) by (apply Z.pow_le_mono_r; unfold len; lia). change (10 ^ 8) with 100000000 in *. lia.
Qed.

(** ** Blocks *)

Section Blocks.
Variable c_recv c_send : nat -> nat.
Notation recv := (recv c_recv).
Notation read_block := (read_block c_recv).
Notation send_block := (send_block c_send).

Lemma recv_spec n c x c' : recv n c = (x, c') -> c_bytes c = x ++ c_bytes c' /\ (0 <= n -> len x <= n).
Proof.
  unfold SockModel.recv. intro H. injection H as <- <-. cbn [c_bytes]. split; [symmetry; apply firstn_skipn|].
  intro Hn. unfold len. rewrite firstn_length. lia.
Qed.
Lemma read_parts_spec k : forall n s c s' c', read_parts c_recv k n s c = Ok (s', c') ->
  s ++ c_bytes c = s' ++ c_bytes c' /\ match k with O => s' = s /\ c' = c | S _ => len s' = (n + Z.of_nat k - 1) * 4096 end.
Proof.
  induction k as [|k IH]; intros n s c s' c' H; cbn [read_parts] in H; [injection H as <- <-; auto|].
  destruct (SockModel.recv c_recv max_bytes c) as [x c1] eqn:Ex. apply recv_spec in Ex as [Ex _]. unfold max_bytes in H.
  destruct (Z.eqb_spec (len (s ++ x)) (n * 4096)) as [El|]; [|discriminate]. apply IH in H as [H1 H2].
  split; [rewrite <- H1, Ex, app_assoc; reflexivity|]. destruct k; [destruct H2 as [-> _]; rewrite El; lia|rewrite H2; lia].
Qed.

(** The first eight bytes are the decimal number of bytes which follow; it is below 4096. *)
Lemma read_block_spec c b c' : read_block c = Ok (b, c') ->
  exists h, length h = 8%nat /\ parse h = Ok (len b) /\ len b < 4096 /\ c_bytes c = h ++ b ++ c_bytes c'.
Proof.
  unfold SockModel.read_block. destruct (SockModel.recv c_recv 8 c) as [h c1] eqn:Eh. apply recv_spec in Eh as [Eh _].
  destruct (Z.eqb_spec (len h) 8) as [Hl|]; [|discriminate]. cbn [negb]. destruct (parse h) as [n|] eqn:En; [|discriminate]. cbn [bind].
  destruct (read_parts c_recv _ 0 [] c1) as [[s c2]|] eqn:Es; [|discriminate]. cbn [bind]. apply read_parts_spec in Es as [Es1 Es2].
  destruct (SockModel.recv c_recv (n mod max_bytes) c2) as [x c3] eqn:Ex. apply recv_spec in Ex as [Ex1 Ex2]. unfold max_bytes in *.
  destruct (Z.eqb_spec (len (s ++ x)) n) as [El|]; [|discriminate]. intro H. injection H as <- <-.
  pose proof (Z.mod_pos_bound n 4096 ltac:(lia)). pose proof (Z.div_mod n 4096 ltac:(lia)). specialize (Ex2 ltac:(lia)).
  exists h. split; [unfold len in Hl; lia|]. rewrite El. split; [exact En|].
  destruct (Z.to_nat (n / 4096)) as [|k] eqn:Ek.
  - split; [lia|]. destruct Es2 as [-> ->]. rewrite Eh. cbn [app]. rewrite Ex1. reflexivity.
  - exfalso. unfold len in *. rewrite app_length in El. lia.
Qed.

(** What a block that was sent looks like: a header too large for the receiver, or the
    length and the content *)
Definition stuck (x : bytes) : Prop := exists h t, x = h ++ t /\ length h = 8%nat /\ Forall is_digit h /\ 4096 <= value h.
Definition block (b x : bytes) : Prop := (len b < 100000000 /\ x = format8 (len b) ++ b) \/ (100000000 <= len b /\ stuck x).

Lemma app_eq_length {A} (a : list A) : forall b c d, a ++ b = c ++ d -> length a = length c -> a = c /\ b = d.
Proof.
  induction a as [|x a IH]; intros b [|y c] d H Hl; try discriminate; [auto|]. cbn in H. injection H as <- H. cbn in Hl.
  destruct (IH b c d H ltac:(lia)) as [-> ->]. auto.
Qed.

Lemma read_block_safe b x rest c b' c' : block b x -> c_bytes c = x ++ rest -> read_block c = Ok (b', c') ->
  b' = b /\ c_bytes c' = rest /\ len b < 4096.
Proof.
  intros Hb Hc H. apply read_block_spec in H as (h & Hl & Hp & Hlt & Hs). rewrite Hc in Hs. destruct Hb as [[Hsmall ->]|[_ (h' & t & -> & Hl' & Hd & Hv)]].
  - destruct (format8_spec (len b) ltac:(unfold len; lia)) as (F1 & F2 & _ & F4 & _). specialize (F4 Hsmall).
    rewrite <- app_assoc in Hs. apply app_eq_length in Hs as [<- Hs]; [|lia]. rewrite (parse_digits _ F1), F2 in Hp. injection Hp as Hp.
    apply app_eq_length in Hs as [-> ->]; [auto|]. unfold len in Hp. lia.
  - exfalso. rewrite <- app_assoc in Hs. apply app_eq_length in Hs as [<- _]; [|lia]. rewrite (parse_digits _ Hd) in Hp. injection Hp as Hp. lia.
Qed.
Lemma stuck_fails x rest c : stuck x -> c_bytes c = x ++ rest -> forall r, read_block c <> Ok r.
Proof.
  intros (h' & t & -> & Hl' & Hd & Hv) Hc [b' c'] H. apply read_block_spec in H as (h & Hl & Hp & Hlt & Hs). rewrite Hc, <- app_assoc in Hs.
  apply app_eq_length in Hs as [<- _]; [|lia]. rewrite (parse_digits _ Hd) in Hp. injection Hp as Hp. lia.
Qed.

Lemma value_ge b : Forall is_digit b -> forall x r, b = x :: r -> 48 < x -> 10 ^ len r <= value b.
Proof.
  intros Hd x r -> Hx. unfold value. cbn [fold_left]. rewrite value_acc. inversion Hd; subst. pose proof (value_nonneg r ltac:(assumption)).
  assert (0 < 10 ^ len r) by (apply Z.pow_pos_nonneg; unfold len; lia). nia.
Qed.
Lemma Forall_firstn' {A} (P : A -> Prop) n l : Forall P l -> Forall P (firstn n l).
Proof. intro H. rewrite <- (firstn_skipn n l) in H. apply Forall_app in H. apply H. Qed.
Lemma big_header n : 100000000 <= n -> forall t k, (8 <= k)%nat -> stuck (firstn k (format8 n ++ t)).
Proof.
  intros Hn t k Hk. destruct (format8_spec n ltac:(lia)) as (F1 & F2 & F3 & _ & F5). specialize (F5 Hn).
  exists (firstn 8 (format8 n)), (skipn 8 (firstn k (format8 n ++ t))). split; [|split; [|split]].
  - rewrite <- (firstn_skipn 8 (firstn k (format8 n ++ t))) at 1. f_equal. rewrite firstn_firstn, Nat.min_l by lia.
    rewrite firstn_app. replace (8 - length (format8 n))%nat with 0%nat by lia. cbn. apply app_nil_r.
  - rewrite firstn_length. lia.
  - apply Forall_firstn'. exact F1.
  - unfold format8 in *. destruct (digits_spec (Z.to_nat n) n ltac:(lia) ltac:(lia)) as (D1 & D2 & D3 & _). destruct D3 as (x & r & Ed & Hx); [lia|].
    rewrite app_length, repeat_length in F5. rewrite Ed in *. replace (8 - length (x :: r))%nat with 0%nat in * by lia. cbn [repeat app] in *.
    pose proof (value_ge (firstn 8 (x :: r)) (Forall_firstn' _ 8 _ D1) x (firstn 7 r) eq_refl Hx) as H.
    assert (len (firstn 7 r) = 7) as E7 by (unfold len; rewrite firstn_length; cbn [length] in F5; lia). rewrite E7 in H. change (10 ^ 7) with 10000000 in H. lia.
Qed.

Lemma send_block_spec b c c' : send_block b c = Ok c' -> exists x, block b x /\ c_bytes c' = c_bytes c ++ x.
Proof.
  unfold SockModel.send_block, send. set (l := format8 (len b) ++ b). set (k := Nat.min (length l) (c_send (c_sends c))).
  destruct (Z.eqb_spec (Z.of_nat k) (len b + 8)) as [Hk|]; [|discriminate]. intro H. injection H as <-. cbn [c_bytes].
  exists (firstn k l). split; [|reflexivity]. unfold block. destruct (format8_spec (len b) ltac:(unfold len; lia)) as (_ & _ & _ & F4 & _).
  destruct (Z.ltb_spec (len b) 100000000) as [Hs|Hs]; [left|right]; (split; [exact Hs|]).
  - specialize (F4 Hs). apply firstn_all2. unfold l. rewrite app_length, F4. unfold len in Hk. lia.
  - apply big_header; [exact Hs|]. unfold len in Hk. lia.
Qed.
Lemma send_block_full b c : len b < 4096 -> (4104 <= c_send (c_sends c))%nat ->
  send_block b c = Ok (Connection (c_bytes c ++ format8 (len b) ++ b) (c_recvs c) (c_sends c + 1)).
Proof.
  intros Hb Hs. unfold SockModel.send_block, send. destruct (format8_spec (len b) ltac:(unfold len; lia)) as (_ & _ & _ & F4 & _). specialize (F4 ltac:(lia)).
  rewrite Nat.min_l by (rewrite app_length, F4; unfold len in Hb; lia). rewrite firstn_all, app_length, F4.
  replace (Z.of_nat (8 + length b) =? len b + 8) with true; [reflexivity|]. symmetry. apply Z.eqb_eq. unfold len. lia.
Qed.
Lemma recv_full a rest n c : c_bytes c = a ++ rest -> len a = n -> (length a <= c_recv (c_recvs c))%nat ->
  recv n c = (a, Connection rest (c_recvs c + 1) (c_sends c)).
Proof.
  intros Hc Hn Ho. unfold SockModel.recv. rewrite Hc. unfold len in Hn. replace (Nat.min (Z.to_nat n) (c_recv (c_recvs c))) with (length a) by lia.
  rewrite firstn_app, skipn_app, firstn_all, skipn_all, Nat.sub_diag. cbn. rewrite app_nil_r. reflexivity.
Qed.
Lemma read_block_full b rest c : len b < 4096 -> c_bytes c = format8 (len b) ++ b ++ rest -> (forall i, 4096 <= c_recv i)%nat ->
  read_block c = Ok (b, Connection rest (c_recvs c + 2) (c_sends c)).
Proof.
  intros Hb Hc Ho. unfold SockModel.read_block. destruct (format8_spec (len b) ltac:(unfold len; lia)) as (F1 & F2 & _ & F4 & _). specialize (F4 ltac:(lia)).
  pose proof (Ho (c_recvs c)) as Ho1. pose proof (Ho (c_recvs c + 1)%nat) as Ho2. clear Ho.
  rewrite (recv_full (format8 (len b)) (b ++ rest)); [|exact Hc|unfold len at 1; lia|lia].
  assert (len (format8 (len b)) = 8) as -> by (unfold len at 1; lia). cbn [Z.eqb Pos.eqb negb]. rewrite (parse_digits _ F1), F2. cbn [bind]. unfold max_bytes.
  assert (Hb0 : 0 <= len b) by (unfold len; lia). rewrite Z.div_small, Z.mod_small by lia. cbn [Z.to_nat read_parts bind].
  rewrite (recv_full b rest); [|reflexivity|reflexivity|cbn [c_recvs]; unfold len in Hb; lia]. cbn [app c_recvs c_sends]. rewrite Z.eqb_refl.
  do 3 f_equal. lia.
Qed.
End Blocks.

(** ** Sequences of messages *)

Definition sent {M} (l : list (op M)) : list M := flat_map (fun o => match o with Send m => [m] | Receive => [] end) l.
Definition received {M} (l : list (op M)) : nat := length (filter (fun o => match o with Send _ => false | Receive => true end) l).

Section Exchange.
Context {M : Type}.
Variable send : M -> connection -> res connection.
Variable receive : connection -> res (M * connection).

Lemma exchange_safe (framed : M -> bytes -> Prop) :
  (forall m c c', send m c = Ok c' -> exists x, framed m x /\ c_bytes c' = c_bytes c ++ x) ->
  (forall m x rest c m' c', framed m x -> c_bytes c = x ++ rest -> receive c = Ok (m', c') -> m' = m /\ c_bytes c' = rest) ->
  (forall c r, c_bytes c = [] -> receive c <> Ok r) ->
  forall l c pending xs, Forall2 framed pending xs -> c_bytes c = concat xs ->
  exists t, pending ++ sent l = fst (exchange send receive l c) ++ t.
Proof.
  intros Hs Hr He. induction l as [|[m|] l IH]; intros c pending xs Hp Hc; cbn [exchange sent flat_map].
  - exists pending. cbn. apply app_nil_r.
  - destruct (send m c) as [c1|e] eqn:Es; [|eexists; reflexivity]. apply Hs in Es as (x & Hx & Hc1).
    destruct (IH c1 (pending ++ [m]) (xs ++ [x])) as [t Ht].
    + apply Forall2_app; [exact Hp|repeat constructor; exact Hx].
    + rewrite Hc1, Hc, concat_app. cbn. rewrite app_nil_r. reflexivity.
    + exists t. rewrite <- Ht, <- app_assoc. reflexivity.
  - destruct (receive c) as [[m' c1]|e] eqn:Er; [|eexists; reflexivity]. inversion Hp as [|m x pending' xs' Hx Hp' E1 E2]; subst.
    + cbn in Hc. exfalso. exact (He _ _ Hc Er).
    + cbn in Hc. destruct (Hr _ _ _ _ _ _ Hx Hc Er) as [-> Hc1]. destruct (IH c1 pending' xs' Hp' Hc1) as [t Ht].
      exists t. destruct (exchange send receive l c1) as [r e]. cbn [fst app] in *. f_equal. exact Ht.
Qed.

Lemma exchange_live (frame : M -> bytes) :
  forall ok : M -> Prop,
  (forall m c, ok m -> exists c', send m c = Ok c' /\ c_bytes c' = c_bytes c ++ frame m) ->
  (forall m rest c, ok m -> c_bytes c = frame m ++ rest -> exists c', receive c = Ok (m, c') /\ c_bytes c' = rest) ->
  forall l c pending, Forall ok pending -> Forall ok (sent l) -> c_bytes c = concat (map frame pending) ->
  (forall a b, l = a ++ b -> (received a <= length pending + length (sent a))%nat) ->
  exchange send receive l c = (firstn (received l) (pending ++ sent l), None).
Proof.
  intros ok Hs Hr. induction l as [|[m|] l IH]; intros c pending Hp Hl Hc Hb; cbn [exchange sent flat_map].
  - reflexivity.
  - cbn in Hl. inversion Hl as [|? ? Hm Hl']; subst. destruct (Hs m c Hm) as (c' & -> & Hc'). rewrite (IH c' (pending ++ [m])).
    + rewrite <- app_assoc. reflexivity.
    + apply Forall_app; auto.
    + exact Hl'.
    + rewrite Hc', Hc, map_app, concat_app. cbn. rewrite app_nil_r. reflexivity.
    + intros a b ->. specialize (Hb (Send m :: a) b eq_refl). cbn in Hb. rewrite app_length. cbn. unfold received, sent in *. lia.
  - destruct pending as [|m pending]; [specialize (Hb [Receive] l eq_refl); cbn in Hb; lia|]. inversion Hp as [|? ? Hm Hp']; subst.
    cbn in Hc. destruct (Hr m _ c Hm Hc) as (c' & -> & Hc'). rewrite (IH c' pending Hp' Hl Hc'); [reflexivity|].
    intros a b ->. specialize (Hb (Receive :: a) b eq_refl). cbn in Hb. unfold received, sent in *. lia.
Qed.
End Exchange.

(** ** The theorems

    Encodings are assumed to be decoded correctly. *)
Section Socket.
Context {F K V : Type}.
Variable c_recv c_send : nat -> nat.
Variable encode : F -> bytes.
Variable decode : bytes -> res F.
Variable pack_kwargs : K -> bytes.
Variable unpack_kwargs : bytes -> res K.
Variable pack : V -> bytes.
Variable unpack : bytes -> res V.
Hypothesis decode_encode : forall f, decode (encode f) = Ok f.
Hypothesis unpack_pack_kwargs : forall k, unpack_kwargs (pack_kwargs k) = Ok k.
Hypothesis unpack_pack : forall v, unpack (pack v) = Ok v.
Let requests := exchange (proxy_send c_send encode pack_kwargs) (remote_receive c_recv decode unpack_kwargs).
Let replies := exchange (remote_send c_send pack) (proxy_receive c_recv unpack).
Definition opened : connection := Connection [] 0 0.

Definition request_framed (m : F * K) (x : bytes) : Prop := exists y z, x = y ++ z /\ block (encode (fst m)) y /\ block (pack_kwargs (snd m)) z.
Definition reply_framed (m : bool * V) (x : bytes) : Prop := exists y, x = (if fst m then 49 else 48) :: y /\ block (pack (snd m)) y.

Lemma request_send m c c' : proxy_send c_send encode pack_kwargs m c = Ok c' -> exists x, request_framed m x /\ c_bytes c' = c_bytes c ++ x.
Proof.
  unfold proxy_send. destruct (send_block c_send (encode (fst m)) c) as [c1|] eqn:E1; [|discriminate]. cbn [bind]. intro E2.
  apply send_block_spec in E1 as (y & Hy & E1). apply send_block_spec in E2 as (z & Hz & E2). exists (y ++ z).
  split; [exists y, z; auto|]. rewrite E2, E1, app_assoc. reflexivity.
Qed.
Lemma request_receive m x rest c m' c' : request_framed m x -> c_bytes c = x ++ rest -> remote_receive c_recv decode unpack_kwargs c = Ok (m', c') ->
  m' = m /\ c_bytes c' = rest /\ len (encode (fst m)) < 4096 /\ len (pack_kwargs (snd m)) < 4096.
Proof.
  intros (y & z & -> & Hy & Hz) Hc. unfold remote_receive. destruct (read_block c_recv c) as [[b c1]|] eqn:E1; [|discriminate]. cbn [bind].
  rewrite <- app_assoc in Hc. destruct (read_block_safe _ _ _ _ _ _ _ Hy Hc E1) as (-> & Hc1 & L1). rewrite decode_encode. cbn [bind].
  destruct (read_block c_recv c1) as [[b2 c2]|] eqn:E2; [|discriminate]. cbn [bind].
  destruct (read_block_safe _ _ _ _ _ _ _ Hz Hc1 E2) as (-> & Hc2 & L2). rewrite unpack_pack_kwargs. cbn [bind]. intro H. injection H as <- <-.
  destruct m; auto.
Qed.
Lemma nothing_read c r : c_bytes c = [] -> read_block c_recv c <> Ok r.
Proof.
  intros Hc H. destruct r as [b c']. apply read_block_spec in H as (h & Hl & _ & _ & Hs). rewrite Hc in Hs. destruct h; [discriminate|discriminate].
Qed.
Lemma reply_send m c c' : remote_send c_send pack m c = Ok c' -> exists x, reply_framed m x /\ c_bytes c' = c_bytes c ++ x.
Proof.
  unfold remote_send, send. cbn [length]. set (k := Nat.min 1 (c_send (c_sends c))). destruct (Z.eqb_spec (Z.of_nat k) 1) as [Hk|]; [|discriminate]. cbn [negb].
  intro H. apply send_block_spec in H as (y & Hy & H). assert (k = 1%nat) as Ek by lia. cbn [c_bytes] in H. rewrite Ek in H. cbn [firstn] in H.
  exists ((if fst m then 49 else 48) :: y). split; [exists y; auto|]. rewrite H, <- app_assoc. reflexivity.
Qed.
Lemma reply_receive m x rest c m' c' : reply_framed m x -> c_bytes c = x ++ rest -> proxy_receive c_recv unpack c = Ok (m', c') ->
  m' = m /\ c_bytes c' = rest /\ len (pack (snd m)) < 4096.
Proof.
  intros (y & -> & Hy) Hc. unfold proxy_receive. destruct (recv c_recv 1 c) as [x c1] eqn:E1. apply recv_spec in E1 as [E1 _].
  destruct x as [|b [|]]; try discriminate. rewrite Hc in E1. cbn [app] in E1. injection E1 as <- E1.
  replace (negb _ && negb _) with false by (destruct (fst m); reflexivity).
  destruct (read_block c_recv c1) as [[b2 c2]|] eqn:E2; [|discriminate]. cbn [bind].
  destruct (read_block_safe _ _ _ _ _ _ _ Hy (eq_sym E1) E2) as (-> & Hc2 & L2). rewrite unpack_pack. cbn [bind]. intro H. injection H as <- <-.
  destruct m as [[|] v]; auto.
Qed.

(** Whatever the sizes, and however bytes are split up in transit: the messages received
    are the first ones sent, in order, until an error is raised. *)
Theorem C36_never_wrong :
  (forall l, exists t, sent l = fst (requests l opened) ++ t) /\ (forall l, exists t, sent l = fst (replies l opened) ++ t).
Proof.
  split; intro l.
  - apply (exchange_safe _ _ request_framed request_send) with (pending := []) (xs := []); [| |constructor|reflexivity].
    + intros m x rest c m' c' H1 H2 H3. destruct (request_receive _ _ _ _ _ _ H1 H2 H3) as (A & B & _). auto.
    + intros c r Hc. unfold remote_receive. destruct (read_block c_recv c) as [x|] eqn:E; [exfalso; exact (nothing_read _ _ Hc E)|discriminate].
  - apply (exchange_safe _ _ reply_framed reply_send) with (pending := []) (xs := []); [| |constructor|reflexivity].
    + intros m x rest c m' c' H1 H2 H3. destruct (reply_receive _ _ _ _ _ _ H1 H2 H3) as (A & B & _). auto.
    + intros c r Hc. unfold proxy_receive. unfold recv. rewrite Hc. rewrite firstn_nil. discriminate.
Qed.

(** Messages below 4096 bytes which are never split up are all received. *)
Definition unsplit : Prop := forall i, (4096 <= c_recv i)%nat /\ (4104 <= c_send i)%nat.
Definition paired {M} (l : list (op M)) : Prop := forall a b, l = a ++ b -> (received a <= length (sent a))%nat.
Theorem C36_small_unsplit_partial : unsplit ->
  (forall l, Forall (fun m => len (encode (fst m)) < 4096 /\ len (pack_kwargs (snd m)) < 4096) (sent l) -> paired l ->
     requests l opened = (firstn (received l) (sent l), None)) /\
  (forall l, Forall (fun m => len (pack (snd m)) < 4096) (sent l) -> paired l ->
     replies l opened = (firstn (received l) (sent l), None)).
Proof.
  intro Hu. assert (Hr : forall i, (4096 <= c_recv i)%nat) by (intro i; apply Hu). split; intros l Hl Hp.
  - apply (exchange_live _ _ (fun m : F * K => (format8 (len (encode (fst m))) ++ encode (fst m)) ++ format8 (len (pack_kwargs (snd m))) ++ pack_kwargs (snd m))
      (fun m => len (encode (fst m)) < 4096 /\ len (pack_kwargs (snd m)) < 4096)) with (pending := []); [| |constructor|exact Hl|reflexivity|exact Hp].
    + intros m c [M1 M2]. unfold proxy_send. rewrite send_block_full by (try apply Hu; assumption). cbn [bind]. rewrite send_block_full by (try apply Hu; assumption).
      eexists. split; [reflexivity|]. cbn [c_bytes]. rewrite <- !app_assoc. reflexivity.
    + intros [f k] rest c [M1 M2] Hc. cbn [fst snd] in *. unfold remote_receive. rewrite <- !app_assoc in Hc. rewrite (read_block_full _ _ _ _ M1 Hc Hr). cbn [bind].
      rewrite decode_encode. cbn [bind]. rewrite (read_block_full _ _ rest _ M2); [|reflexivity|exact Hr]. cbn [bind]. rewrite unpack_pack_kwargs. cbn [bind].
      eexists. split; reflexivity.
  - apply (exchange_live _ _ (fun m : bool * V => (if fst m then 49 else 48) :: format8 (len (pack (snd m))) ++ pack (snd m))
      (fun m => len (pack (snd m)) < 4096)) with (pending := []); [| |constructor|exact Hl|reflexivity|exact Hp].
    + intros m c M1. unfold remote_send, send. cbn [length]. destruct (Hu (c_sends c)) as [_ Hs]. rewrite Nat.min_l by lia. change (Z.of_nat 1 =? 1) with true. cbn [negb].
      rewrite send_block_full by (try apply Hu; assumption). eexists. split; [reflexivity|]. cbn [c_bytes firstn]. rewrite <- !app_assoc. reflexivity.
    + intros [b v] rest c M1 Hc. cbn [fst snd] in *. unfold proxy_receive. cbn [app] in Hc. rewrite <- !app_assoc in Hc.
      rewrite (recv_full c_recv [if b then 49 else 48] (format8 (len (pack v)) ++ pack v ++ rest)); [|exact Hc|reflexivity|cbn [length]; specialize (Hr (c_recvs c)); lia].
      replace (negb _ && negb _) with false by (destruct b; reflexivity).
      rewrite (read_block_full _ _ rest _ M1); [|reflexivity|exact Hr]. cbn [bind]. rewrite unpack_pack. cbn [bind]. eexists. split; [destruct b; reflexivity|reflexivity].
Qed.

(** A message of 4096 bytes or more is never received. *)
Theorem C36_large_refuted :
  (forall m, 4096 <= len (encode (fst m)) \/ 4096 <= len (pack_kwargs (snd m)) -> fst (requests [Send m; Receive] opened) = []) /\
  (forall m, 4096 <= len (pack (snd m)) -> fst (replies [Send m; Receive] opened) = []).
Proof.
  split; intros m Hm; [unfold requests|unfold replies]; cbn [exchange].
  - destruct (proxy_send c_send encode pack_kwargs m opened) as [c|] eqn:Es; [|reflexivity]. apply request_send in Es as (x & Hx & Hc). cbn [opened c_bytes app] in Hc.
    destruct (remote_receive c_recv decode unpack_kwargs c) as [[m' c']|] eqn:Er; [|reflexivity]. exfalso. rewrite <- (app_nil_r x) in Hc.
    destruct (request_receive _ _ _ _ _ _ Hx Hc Er) as (_ & _ & L1 & L2). lia.
  - destruct (remote_send c_send pack m opened) as [c|] eqn:Es; [|reflexivity]. apply reply_send in Es as (x & Hx & Hc). cbn [opened c_bytes app] in Hc.
    destruct (proxy_receive c_recv unpack c) as [[m' c']|] eqn:Er; [|reflexivity]. exfalso. rewrite <- (app_nil_r x) in Hc.
    destruct (reply_receive _ _ _ _ _ _ Hx Hc Er) as (_ & _ & L1). lia.
Qed.

(** A reply whose content does not arrive in one piece is not received (the third call of
    recv is the one for the content). *)
Theorem C36_split_refuted : forall m, (c_recv 2 < length (pack (snd m)))%nat -> fst (replies [Send m; Receive] opened) = [].
Proof.
  intros m Hm. unfold replies; cbn [exchange].
  destruct (remote_send c_send pack m opened) as [c|] eqn:Es; [|reflexivity].
  assert (Hn : c_recvs c = 0%nat).
  { unfold remote_send, send_block, send in Es. destruct (negb _); [discriminate|]. destruct (_ =? _); [|discriminate]. injection Es as <-. reflexivity. }
  apply reply_send in Es as (x & Hx & Hc). cbn [opened c_bytes app] in Hc.
  destruct (proxy_receive c_recv unpack c) as [[m' c']|] eqn:Er; [|reflexivity]. exfalso. rewrite <- (app_nil_r x) in Hc.
  destruct (reply_receive _ _ _ _ _ _ Hx Hc Er) as (E & _ & L1). destruct Hx as (y & -> & [[Hs ->]|[Hs _]]); [|unfold len in *; lia].
  unfold proxy_receive in Er. destruct (recv c_recv 1 c) as [x c1] eqn:E1. destruct x as [|b [|]]; try discriminate.
  destruct (negb _ && negb _) in Er; [discriminate|]. pose proof E1 as E1'. apply recv_spec in E1' as [E1' _]. rewrite Hc in E1'. cbn [app] in E1'. injection E1' as _ Hc1.
  assert (Hn1 : c_recvs c1 = 1%nat) by (unfold recv in E1; injection E1 as _ <-; cbn; lia).
  unfold read_block in Er. destruct (recv c_recv 8 c1) as [h c2] eqn:E2. destruct (Z.eqb_spec (len h) 8) as [Hh|]; [|discriminate].
  assert (Hn2 : c_recvs c2 = 2%nat) by (unfold recv in E2; injection E2 as _ <-; cbn; lia). apply recv_spec in E2 as [E2 _].
  destruct (format8_spec (len (pack (snd m))) ltac:(unfold len; lia)) as (F1 & F2 & _ & F4 & _). specialize (F4 Hs).
  rewrite <- Hc1, <- app_assoc in E2. symmetry in E2. apply app_eq_length in E2 as [-> _]; [|unfold len in Hh; lia].
  cbn [negb] in Er. rewrite (parse_digits _ F1), F2 in Er. cbn [bind] in Er. unfold max_bytes in Er. assert (Hb0 : 0 <= len (pack (snd m))) by (unfold len; lia).
  rewrite Z.div_small, Z.mod_small in Er by lia. cbn [Z.to_nat read_parts bind] in Er. destruct (recv c_recv (len (pack (snd m))) c2) as [z c3] eqn:E3.
  unfold recv in E3. injection E3 as <- _. rewrite Hn2 in Er. cbn [app] in Er.
  match type of Er with context [len ?a =? ?b] => destruct (Z.eqb_spec (len a) b) as [Hz|] end; [|discriminate].
  unfold len in Hz. rewrite firstn_length in Hz. lia.
Qed.
End Socket.

(** ** Examples: replies of lists of bytes *)
Definition ex_receive (split : nat -> nat) l := exchange (remote_send (fun _ => 4500%nat) (fun b : bytes => b)) (proxy_receive split (fun b => Ok b)) l opened.
Example ex_unsplit : ex_receive (fun _ => 4500%nat) [Send (true, [1; 2; 3]); Send (false, []); Receive; Receive] = ([(true, [1; 2; 3]); (false, [])], None).
Proof. vm_compute. reflexivity. Qed.
Example ex_paired : @paired (bool * bytes) [Send (true, [1; 2; 3]); Send (false, []); Receive; Receive].
Proof. intros a b H. destruct a as [|? [|? [|? [|? [|]]]]]; cbn in H; try discriminate; inversion H; subst; cbn; lia. Qed.
Example ex_split : ex_receive (fun i => if Nat.eqb i 2 then 1%nat else 4500%nat) [Send (true, [1; 2; 3]); Receive] = ([], Some "unexpected").
Proof. vm_compute. reflexivity. Qed.
Example ex_format : format8 4096 = [48; 48; 48; 48; 52; 48; 57; 54] /\ parse (format8 4096) = Ok 4096.
Proof. vm_compute. split; reflexivity. Qed.

Print Assumptions C36_never_wrong.
Print Assumptions C36_small_unsplit_partial.
Print Assumptions C36_large_refuted.
Print Assumptions C36_split_refuted.
