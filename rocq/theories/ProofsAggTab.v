(** The invariant of the aggregator's tables, objects and caches. *)
From Verif Require Import Base BaseProofs ModelLabel ModelSTP ModelAuthz ModelNRM ModelState ModelLinkVector ModelProvreg ModelAggregator SpecAggInv ProofsAggInv.

Lemma cnt_snoc {A} (f : A -> bool) l x : cnt f (l ++ [x]) = (cnt f l + (if f x then 1 else 0))%nat.
Proof. unfold cnt. rewrite filter_app, app_length. cbn. destruct (f x); cbn; lia. Qed.

(** What a run leaves behind when the process is started again: the connections that were there then ([dead]: nothing is
    asked for them any more), and whether there was no such start ([whole]). *)
Class ghost := mkGhost { dead : string -> Prop; whole : bool }.
Section Tab.
Context {GH : ghost}.
(** the cached object of a connection *)
Definition cobj (cid : string) (s : st) : option conn := match aget cid (c_conns s) with Some o => aget o (h_conns s) | None => None end.
(** checking is over *)
Definition past (cid : string) (s : st) : Prop := dead cid \/ exists c, cobj cid s = Some c /\ cn_r c <> RChecking.
Definition row_like (c : conn) (s : st) : Prop :=
  exists c', aget (cn_key c) (t_conns s) = Some c' /\ cn_cid c' = cn_cid c /\ cn_requester c' = cn_requester c.
Definition sub_like (x : sub) (s : st) : Prop :=
  exists y, aget (sb_key x) (t_subs s) = Some y /\ sb_cid y = sb_cid x /\ sb_provider y = sb_provider x /\ sb_conn y = sb_conn x /\
    sb_order y = sb_order x /\ sb_src y = sb_src x /\ sb_dst y = sb_dst x.
Record tab (s : st) : Prop := mkTab {
  tb_nc : NoDup (akeys (t_conns s));
  tb_ns : NoDup (akeys (t_subs s));
  tb_nr : NoDup (akeys (resvs s));
  tb_ck : forall k c, aget k (t_conns s) = Some c -> cn_key c = k /\ (k < n_key s)%nat;
  tb_cu : forall k k' c c', aget k (t_conns s) = Some c -> aget k' (t_conns s) = Some c' -> cn_cid c = cn_cid c' -> k = k';
  tb_sk : forall k x, aget k (t_subs s) = Some x -> sb_key x = k /\ (k < n_key s)%nat /\ exists c, aget (sb_conn x) (t_conns s) = Some c;
  tb_su : forall k k' x x', aget k (t_subs s) = Some x -> aget k' (t_subs s) = Some x' -> sb_cid x = sb_cid x' -> sb_provider x = sb_provider x' -> k = k';
  tb_hc : forall o c, aget o (h_conns s) = Some c -> (o < n_obj s)%nat /\ aget (cn_cid c) (c_conns s) = Some o /\ row_like c s;
  tb_cc : forall cid o, aget cid (c_conns s) = Some o -> exists c, aget o (h_conns s) = Some c /\ cn_cid c = cid;
  tb_hs : forall o x, aget o (h_subs s) = Some x -> (o < n_obj s)%nat /\ sub_like x s;
  tb_cs : forall cid o, aget cid (c_subs s) = Some o -> exists x, aget o (h_subs s) = Some x /\ sb_cid x = cid }.

Definition keeps (s s' : st) : Prop :=
  forall k c, aget k (t_conns s) = Some c -> exists c', aget k (t_conns s') = Some c' /\ cn_cid c' = cn_cid c /\ cn_requester c' = cn_requester c.
Lemma keeps_refl s : keeps s s.
Proof. intros k c H. eauto. Qed.
Lemma keeps_trans a b c : keeps a b -> keeps b c -> keeps a c.
Proof. intros H1 H2 k x H. destruct (H1 k x H) as (x1 & A & B & C). destruct (H2 k x1 A) as (x2 & D & E & F). exists x2. repeat split; congruence. Qed.
Lemma row_like_keeps c s s' : keeps s s' -> row_like c s -> row_like c s'.
Proof. intros H (c' & A & B & C). destruct (H _ _ A) as (x2 & D & E & F). exists x2. repeat split; congruence. Qed.

(** acts that touch none of this *)
Definition same_tab (s s' : st) : Prop :=
  t_conns s' = t_conns s /\ t_subs s' = t_subs s /\ n_key s' = n_key s /\ h_conns s' = h_conns s /\ h_subs s' = h_subs s /\ n_obj s' = n_obj s /\
  c_conns s' = c_conns s /\ c_subs s' = c_subs s.
Lemma tab_same s s' : same_tab s s' -> NoDup (akeys (resvs s')) -> tab s -> tab s'.
Proof.
  intros (E1 & E2 & E3 & E4 & E5 & E6 & E7 & E8) HR [A1 A2 A3 A4 A5 A6 A7 A8 A9 A10 A11].
  destruct s as [tc ts nk hc hs no cc cs rv qr qc nc nn rg vv os], s' as [tc' ts' nk' hc' hs' no' cc' cs' rv' qr' qc' nc' nn' rg' vv' os'].
  unfold row_like, sub_like in *.
  cbn -[akeys] in *. subst. constructor; unfold row_like, sub_like; cbn -[akeys]; auto.
Qed.
Lemma keeps_same s s' : t_conns s' = t_conns s -> keeps s s'.
Proof. intros E k c H. exists c. rewrite E. auto. Qed.

(** connections *)
Lemma tab_insert_conn c s : tab s -> (forall k c', aget k (t_conns s) = Some c' -> cn_cid c' <> cn_cid c) ->
  tab (do_act (AInsertConn c) s) /\ keeps s (do_act (AInsertConn c) s).
Proof.
  intros T HN.
  assert (K : keeps s (do_act (AInsertConn c) s)).
  { intros k c0 H. exists c0. destruct s; cbn in *. rewrite aget_aset_ne; auto. intros ->. apply (tb_ck _ T) in H. cbn in H. lia. }
  split; [|exact K].
  destruct T as [A1 A2 A3 A4 A5 A6 A7 A8 A9 A10 A11].
  assert (B8 : forall o x, aget o (h_conns s) = Some x -> row_like x (do_act (AInsertConn c) s)).
  { intros. eapply row_like_keeps; [exact K|eapply A8; eauto]. }
  destruct s as [tc ts nk hc hs no cc cs rv qr qc nc nn rg vv os]. cbn -[akeys] in *.
  constructor; cbn -[akeys]; auto.
  - apply NoDup_akeys_aset; auto.
  - intros k x. rewrite aget_aset. destruct (eqb_ok k nk) as [->|NE].
    + intros E; inversion E; subst; cbn. lia.
    + intros H. apply A4 in H. lia.
  - intros k k' x x'. rewrite !aget_aset. destruct (eqb_ok k nk) as [->|NE], (eqb_ok k' nk) as [->|NE']; intros E E' Ec; auto.
    + inversion E; subst. cbn in Ec. exfalso. eapply HN; eauto.
    + inversion E'; subst. cbn in Ec. exfalso. eapply HN; eauto.
    + eauto.
  - intros k x H. destruct (A6 k x H) as (B1 & B2 & y & B3). repeat split; auto; try lia.
    destruct (K _ _ B3) as (y' & K1 & _). exists y'. exact K1.
  - intros o x H. destruct (A8 o x H) as (B1 & B2 & B3). split; auto. split; auto. apply (B8 o x H).
Qed.
Lemma tab_write_conn c s : tab s -> row_like c s ->
  tab (do_act (AWriteConn c) s) /\ keeps s (do_act (AWriteConn c) s).
Proof.
  intros T (c0 & R1 & R2 & R3).
  assert (K : keeps s (do_act (AWriteConn c) s)).
  { intros k x H. destruct s; cbn in *. rewrite aget_aset. destruct (eqb_ok k (cn_key c)) as [->|NE]; [|eauto].
    exists c. split; auto. assert (x = c0) by congruence. subst. auto. }
  split; [|exact K].
  destruct T as [A1 A2 A3 A4 A5 A6 A7 A8 A9 A10 A11].
  assert (B8 : forall o x, aget o (h_conns s) = Some x -> row_like x (do_act (AWriteConn c) s)).
  { intros. eapply row_like_keeps; [exact K|eapply A8; eauto]. }
  destruct s as [tc ts nk hc hs no cc cs rv qr qc nc nn rg vv os]. cbn -[akeys] in *.
  constructor; cbn -[akeys]; auto.
  - apply NoDup_akeys_aset; auto.
  - intros k x. rewrite aget_aset. destruct (eqb_ok k (cn_key c)) as [->|NE]; [|eauto].
    intros E; inversion E; subst. split; auto. eapply A4; eauto.
  - intros k k' x x'. rewrite !aget_aset. destruct (eqb_ok k (cn_key c)) as [->|NE], (eqb_ok k' (cn_key c)) as [->|NE']; intros E E' Ec; auto.
    + inversion E; subst. eapply A5; eauto. congruence.
    + inversion E'; subst. eapply A5; eauto. congruence.
    + eauto.
  - intros k x H. destruct (A6 k x H) as (B1 & B2 & y & B3). repeat split; auto.
    destruct (K _ _ B3) as (y' & K1 & _). exists y'. exact K1.
  - intros o x H. destruct (A8 o x H) as (B1 & B2 & B3). split; auto. split; auto. apply (B8 o x H).
Qed.
Lemma tab_load_conn c s : tab s -> row_like c s -> aget (cn_cid c) (c_conns s) = None -> tab (do_act (ALoadConn c) s).
Proof.
  intros T HR HN. destruct T as [A1 A2 A3 A4 A5 A6 A7 A8 A9 A10 A11].
  destruct s as [tc ts nk hc hs no cc cs rv qr qc nc nn rg vv os]. unfold row_like, sub_like in *. cbn -[akeys] in *.
  assert (F : aget no hc = None) by (destruct (aget no hc) eqn:E; auto; apply A8 in E; lia).
  constructor; unfold row_like, sub_like; cbn -[akeys]; auto.
  - intros o x. rewrite aget_aset. destruct (eqb_ok o no) as [->|NE].
    + intros E; inversion E; subst. rewrite aget_aset_eq. split; [lia|auto].
    + intros E. destruct (A8 o x E) as (B1 & B2 & B3). split; [lia|]. split; auto.
      rewrite aget_aset_ne; auto. intros E'. rewrite E' in B2. congruence.
  - intros cid o. rewrite aget_aset. destruct (eqb_ok cid (cn_cid c)) as [->|NE].
    + intros E; inversion E; subst. exists c. rewrite aget_aset_eq. auto.
    + intros E. destruct (A9 _ _ E) as (x & E1 & E2). exists x. rewrite aget_aset_ne; auto. intros ->. congruence.
  - intros o x E. apply A10 in E. split; [lia|]. apply E.
Qed.
Lemma tab_set_conn o c0 c s : tab s -> aget o (h_conns s) = Some c0 -> cn_key c = cn_key c0 -> cn_cid c = cn_cid c0 -> cn_requester c = cn_requester c0 ->
  tab (do_act (ASetConn o c) s).
Proof.
  intros T HO E1 E2 E3. destruct T as [A1 A2 A3 A4 A5 A6 A7 A8 A9 A10 A11].
  destruct s as [tc ts nk hc hs no cc cs rv qr qc nc nn rg vv os]. unfold row_like, sub_like in *. cbn -[akeys] in *.
  constructor; unfold row_like, sub_like; cbn -[akeys]; auto.
  - intros o' x. rewrite aget_aset. destruct (eqb_ok o' o) as [->|NE]; [|eauto].
    intros E; inversion E; subst. rewrite E1, E2, E3. eauto.
  - intros cid o' E. destruct (A9 _ _ E) as (x & F1 & F2). rewrite aget_aset. destruct (eqb_ok o' o) as [->|NE]; [|eauto].
    exists c. split; auto. congruence.
Qed.
(** segments *)
Definition sub_fresh (x : sub) (s : st) : Prop := forall k y, aget k (t_subs s) = Some y -> sb_cid y = sb_cid x -> sb_provider y = sb_provider x -> False.
Lemma tab_insert_sub x s : tab s -> sub_fresh x s -> (exists c, aget (sb_conn x) (t_conns s) = Some c) -> tab (do_act (AInsertSub x) s).
Proof.
  intros T HF HR. destruct T as [A1 A2 A3 A4 A5 A6 A7 A8 A9 A10 A11]. unfold sub_fresh in HF.
  destruct s as [tc ts nk hc hs no cc cs rv qr qc nc nn rg vv os]. unfold row_like, sub_like in *. cbn -[akeys] in *.
  constructor; unfold row_like, sub_like; cbn -[akeys]; auto.
  - apply NoDup_akeys_aset; auto.
  - intros k c E. apply A4 in E. lia.
  - intros k y. rewrite aget_aset. destruct (eqb_ok k nk) as [->|NE].
    + intros E; inversion E; subst; cbn. repeat split; auto; lia.
    + intros H. apply A6 in H. destruct H as (B1 & B2 & B3). repeat split; auto; lia.
  - intros k k' y y'. rewrite !aget_aset. destruct (eqb_ok k nk) as [->|NE], (eqb_ok k' nk) as [->|NE']; intros E E' Ec Ep; auto.
    + inversion E; subst. cbn in *. exfalso. eapply HF; eauto.
    + inversion E'; subst. cbn in *. exfalso. eapply HF; eauto.
    + eauto.
  - intros o y H. destruct (A10 o y H) as (B1 & z & B2 & B3). split; auto. exists z. rewrite aget_aset_ne; auto.
    intros E. rewrite E in B2. apply A6 in B2. lia.
Qed.
Lemma tab_write_sub x s : tab s -> sub_like x s -> tab (do_act (AWriteSub x) s).
Proof.
  intros T (x0 & R1 & R2 & R3 & R4 & R5 & R6 & R7). destruct T as [A1 A2 A3 A4 A5 A6 A7 A8 A9 A10 A11].
  destruct s as [tc ts nk hc hs no cc cs rv qr qc nc nn rg vv os]. unfold row_like, sub_like in *. cbn -[akeys] in *.
  constructor; unfold row_like, sub_like; cbn -[akeys]; auto.
  - apply NoDup_akeys_aset; auto.
  - intros k y. rewrite aget_aset. destruct (eqb_ok k (sb_key x)) as [->|NE]; [|eauto].
    intros E; inversion E; subst. apply A6 in R1. rewrite R4 in R1. split; auto. apply R1.
  - intros k k' y y'. rewrite !aget_aset. destruct (eqb_ok k (sb_key x)) as [->|NE], (eqb_ok k' (sb_key x)) as [->|NE']; intros E E' Ec Ep; auto.
    + inversion E; subst. eapply A7; eauto; congruence.
    + inversion E'; subst. eapply A7; eauto; congruence.
    + eauto.
  - intros o y H. destruct (A10 o y H) as (B1 & z & B2 & B3 & B4 & B5 & B6 & B7 & B8). split; auto.
    rewrite aget_aset. destruct (eqb_ok (sb_key y) (sb_key x)) as [E|NE]; [|exists z; auto 9].
    exists x. rewrite E in B2. assert (z = x0) by congruence. subst. repeat split; congruence.
Qed.
Lemma tab_load_sub x s : tab s -> sub_like x s -> tab (do_act (ALoadSub x) s).
Proof.
  intros T HR. destruct T as [A1 A2 A3 A4 A5 A6 A7 A8 A9 A10 A11].
  destruct s as [tc ts nk hc hs no cc cs rv qr qc nc nn rg vv os]. unfold row_like, sub_like in *. cbn -[akeys] in *.
  assert (F : aget no hs = None) by (destruct (aget no hs) eqn:E; auto; apply A10 in E; lia).
  constructor; unfold row_like, sub_like; cbn -[akeys]; auto.
  - intros o c H. destruct (A8 o c H) as (B1 & B2 & B3). split; [lia|auto].
  - intros o y. rewrite aget_aset. destruct (eqb_ok o no) as [->|NE].
    + intros E; inversion E; subst. split; [lia|auto].
    + intros E. destruct (A10 o y E) as (B1 & B2). split; [lia|auto].
  - intros cid o. rewrite aget_aset. destruct (eqb_ok cid (sb_cid x)) as [->|NE].
    + intros E; inversion E; subst. exists x. rewrite aget_aset_eq. auto.
    + intros E. destruct (A11 _ _ E) as (y & E1 & E2). exists y. rewrite aget_aset_ne; auto. intros ->. congruence.
Qed.
Lemma tab_set_sub o x0 x s : tab s -> aget o (h_subs s) = Some x0 -> sb_key x = sb_key x0 -> sb_cid x = sb_cid x0 ->
  sb_provider x = sb_provider x0 -> sb_conn x = sb_conn x0 -> sb_order x = sb_order x0 -> sb_src x = sb_src x0 -> sb_dst x = sb_dst x0 ->
  tab (do_act (ASetSub o x) s).
Proof.
  intros T HO E1 E2 E3 E4 E5 E6 E7. destruct T as [A1 A2 A3 A4 A5 A6 A7 A8 A9 A10 A11].
  destruct s as [tc ts nk hc hs no cc cs rv qr qc nc nn rg vv os]. unfold row_like, sub_like in *. cbn -[akeys] in *.
  constructor; unfold row_like, sub_like; cbn -[akeys]; auto.
  - intros o' y. rewrite aget_aset. destruct (eqb_ok o' o) as [->|NE]; [|eauto].
    intros E; inversion E; subst. rewrite E1, E2, E3, E4, E5, E6, E7. eauto.
  - intros cid o' E. destruct (A11 _ _ E) as (y & F1 & F2). rewrite aget_aset. destruct (eqb_ok o' o) as [->|NE]; [|eauto].
    exists x. split; auto. congruence.
Qed.

End Tab.
