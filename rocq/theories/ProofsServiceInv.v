(** The aggregator's state: why each row, object and message is there. *)
From Verif Require Import Base BaseProofs ModelLabel ModelSTP ModelAuthz ModelNRM ModelState ModelLinkVector ModelProvreg ModelAggregator SpecAggregator SpecAggInv
  ProofsServiceWp.
From Verif Require ModelBackend ModelBackendConc.
From Verif Require Import ModelService SpecService.
Open Scope Z_scope.

(** what of a connection does not change *)
Definition ccore (c : conn) := (cn_key c, cn_cid c, cn_gid c, cn_requester c, (s_network (cn_src c), s_port (cn_src c)),
  (s_network (cn_dst c), s_port (cn_dst c)), (cn_start c, cn_end c, cn_bw c)).
Definition score (x : sub) := (sb_key x, sb_conn x, sb_cid x, sb_provider x, sb_order x, (sb_src x, sb_dst x)).
Definition made (c : conn) (h : header) (q : areq) : Prop :=
  ccore c = (cn_key c, cn_cid c, q_gid q, hd_requester h, (s_network (q_src q), s_port (q_src q)),
    (s_network (q_dst q), s_port (q_dst q)), (q_start q, q_end q, q_bw q)).
Lemma made_core c c' h q : ccore c = ccore c' -> made c h q -> made c' h q.
Proof. unfold made, ccore. intros [= -> -> -> -> -> -> -> -> -> -> ->]. auto. Qed.
Lemma made_fields c h q : made c h q -> cn_gid c = q_gid q /\ cn_requester c = hd_requester h /\ cn_start c = q_start q /\ cn_end c = q_end q /\ cn_bw c = q_bw q.
Proof. unfold made, ccore. intros H. repeat split; congruence. Qed.
Lemma cc_key c c' : ccore c = ccore c' -> cn_key c = cn_key c'. Proof. unfold ccore. congruence. Qed.
Lemma cc_cid c c' : ccore c = ccore c' -> cn_cid c = cn_cid c'. Proof. unfold ccore. congruence. Qed.
Lemma sc_key c c' : score c = score c' -> sb_key c = sb_key c'. Proof. unfold score. congruence. Qed.
Lemma sc_cid c c' : score c = score c' -> sb_cid c = sb_cid c'. Proof. unfold score. congruence. Qed.
Lemma sc_conn c c' : score c = score c' -> sb_conn c = sb_conn c'. Proof. unfold score. congruence. Qed.

Definition has_conn (c : conn) (s : st) : Prop := exists c', aget (cn_key c) (t_conns s) = Some c' /\ ccore c' = ccore c.
Definition has_sub (x : sub) (s : st) : Prop := exists x', aget (sb_key x) (t_subs s) = Some x' /\ score x' = score x.
Definition obj_conn (o : nat) (c : conn) (s : st) : Prop := exists c', aget o (h_conns s) = Some c' /\ ccore c' = ccore c.
Definition obj_sub (o : nat) (x : sub) (s : st) : Prop := exists x', aget o (h_subs s) = Some x' /\ score x' = score x.
(** what stays *)
Record grows (s s' : st) : Prop := {
  r_conn : forall c, has_conn c s -> has_conn c s';
  r_sub : forall x, has_sub x s -> has_sub x s';
  r_oc : forall o c, obj_conn o c s -> obj_conn o c s';
  r_os : forall o x, obj_sub o x s -> obj_sub o x s';
  r_out : incl (outs s) (outs s') }.
Lemma gr_refl s : grows s s. Proof. split; auto. apply incl_refl. Qed.
Lemma gr_trans a b c : grows a b -> grows b c -> grows a c.
Proof. intros [A1 A2 A3 A4 A5] [B1 B2 B3 B4 B5]. split; auto. eapply incl_tran; eauto. Qed.

Lemma seg_incl u a b k p c : incl a b -> seg u a k p c -> seg u b k p c.
Proof. intros I (x1 & x2 & x3 & x4 & x5 & x6 & x7 & x8 & x9 & H & H'). exists x1, x2, x3, x4, x5, x6, x7, x8, x9. auto. Qed.

Section Inv.
Variables (g : cfg) (L : list call).      (* [L]: all calls *)
Definition cj (c : conn) : Prop := exists h q, In (CReserve h q) L /\ made c h q.
(** message [corr] asked [prov] for segment [n] of [c] *)
Definition pl (c : conn) (corr : nat) (prov : string) (n : nat) (s : st) : Prop :=
  exists h q ls p hd gid u v x e bw, In (CReserve h q) L /\ made c h q /\ In (ODown p hd (DReserve gid u v x e bw)) (outs s) /\
    hd_corr hd = corr /\ hd_provider hd = prov /\ path_of g q ls /\ nth_error ls n = Some (u, v).
Lemma pl_gr c k p n s s' : incl (outs s) (outs s') -> pl c k p n s -> pl c k p n s'.
Proof. intros G (x1 & x2 & x3 & x4 & x5 & x6 & x7 & x8 & x9 & x10 & x11 & H1 & H2 & H3 & H). exists x1, x2, x3, x4, x5, x6, x7, x8, x9, x10, x11. auto. Qed.
(** a segment is stored because a provider confirmed it *)
Definition sj (x : sub) (s : st) : Prop :=
  exists h c, In (CReserveConfirmed h (sb_cid x) (sb_src x) (sb_dst x)) L /\ hd_provider h = sb_provider x /\
    has_conn c s /\ cn_key c = sb_conn x /\ seg (a_urn g) (outs s) (hd_corr h) (sb_provider x) (cn_cid c) /\
    pl c (hd_corr h) (sb_provider x) (sb_order x) s.
Definition sa (x : sub) : Prop := sb_active x = true -> exists h v k, In (CDataPlane h (sb_cid x) (true, v, k)) L.
(** [sc] is a segment of [cid] *)
Definition part (cid sc : string) (s : st) : Prop :=
  exists c x, has_conn c s /\ has_sub x s /\ cn_cid c = cid /\ sb_conn x = cn_key c /\ sb_cid x = sc.
Definition oj (x : output) (s : st) : Prop :=
  match x with
  | ODown p hd b => hd_requester hd = a_urn g /\
      match b with
      | DReserve gid u v x e bw =>
          exists c h q, has_conn c s /\ In (CReserve h q) L /\ made c h q /\ hd_trace hd = Some (extended_trace g h (cn_cid c)) /\ hd_sas hd = hd_sas h /\
            gid = q_gid q /\ x = q_start q /\ e = q_end q /\ bw = q_bw q /\ on_path g q u v
      | DCommit sc => exists h cid, (In (CCommit h cid) L /\ hd_sas hd = hd_sas h) /\ part cid sc s
      | DAbort sc => exists h cid, (In (CAbort h cid) L /\ hd_sas hd = hd_sas h) /\ part cid sc s
      | DProvision sc => exists h cid, (In (CProvision h cid) L /\ hd_sas hd = hd_sas h) /\ part cid sc s
      | DRelease sc => exists h cid, (In (CRelease h cid) L /\ hd_sas hd = hd_sas h) /\ part cid sc s
      | DTerminate sc => (exists h cid, (In (CTerminate h cid) L /\ hd_sas hd = hd_sas h) /\ part cid sc s) \/ exists h q, In (CReserve h q) L
      | DQuery _ => True
      end
  | OUp r b => forall cid, about b = Some cid -> exists c h q, has_conn c s /\ cn_cid c = cid /\ In (CReserve h q) L /\ made c h q /\ r = hd_requester h /\ repeats q b
  | _ => True
  end.
Record J0 (s : st) : Prop := {
  j_nc : NoDup (akeys (t_conns s));
  j_ns : NoDup (akeys (t_subs s));
  j_ck : forall k c, aget k (t_conns s) = Some c -> cn_key c = k /\ (k < n_key s)%nat /\ cj c;
  j_cu : forall k k' c c', aget k (t_conns s) = Some c -> aget k' (t_conns s) = Some c' -> cn_cid c = cn_cid c' -> k = k';
  j_hc : forall o c, aget o (h_conns s) = Some c -> (o < n_obj s)%nat /\ has_conn c s;
  j_cc : forall cid o, aget cid (c_conns s) = Some o -> exists c, aget o (h_conns s) = Some c /\ cn_cid c = cid;
  j_sk : forall k x, aget k (t_subs s) = Some x -> sb_key x = k /\ (k < n_key s)%nat /\ sj x s /\ sa x;
  j_hs : forall o x, aget o (h_subs s) = Some x -> (o < n_obj s)%nat /\ has_sub x s /\ sa x;
  j_cs : forall cid o, aget cid (c_subs s) = Some o -> exists x, aget o (h_subs s) = Some x /\ sb_cid x = cid;
  j_out : forall x, In x (outs s) -> oj x s;
  j_lt : forall p hd b, In (ODown p hd b) (outs s) -> (hd_corr hd < n_corr s)%nat;
  j_one : forall p hd b p' hd' b', In (ODown p hd b) (outs s) -> In (ODown p' hd' b') (outs s) -> hd_corr hd = hd_corr hd' -> ODown p hd b = ODown p' hd' b';
  j_su : forall k k' x x', aget k (t_subs s) = Some x -> aget k' (t_subs s) = Some x' -> sb_provider x = sb_provider x' -> sb_cid x = sb_cid x' -> k = k' }.
Definition JR (s : st) : Prop := forall k i, In (k, i) (resvs s) ->
  exists c, has_conn c s /\ cn_key c = ri_conn i /\ seg (a_urn g) (outs s) k (ri_provider i) (cn_cid c) /\ pl c k (ri_provider i) (ri_order i) s.
Definition J (s : st) : Prop := J0 s /\ JR s.

Lemma sj_gr x s s' : grows s s' -> sj x s -> sj x s'.
Proof. intros [A1 A2 A3 A4 A5] (h & c & H1 & H2 & H3 & H4 & H5 & H6). exists h, c. repeat split; auto; [eapply seg_incl; eauto|eapply pl_gr; eauto]. Qed.
Lemma part_gr cid sc s s' : grows s s' -> part cid sc s -> part cid sc s'.
Proof. intros [A1 A2 A3 A4 A5] (c & x & H1 & H2 & H3 & H4 & H5). exists c, x. repeat split; auto. Qed.
Lemma oj_gr x s s' : grows s s' -> oj x s -> oj x s'.
Proof.
  intros G. destruct x as [p hd b|r b|c|c]; cbn; auto.
  2:{ intros H cid E. destruct (H cid E) as (c & h & q & H1 & H2). exists c, h, q. split; [apply (r_conn _ _ G); exact H1|exact H2]. }
  intros [Hr H]. split; [exact Hr|]. destruct b; auto.
  - destruct H as (c & h & q & H & H'). exists c, h, q. split; [apply (r_conn _ _ G); exact H|exact H'].
  - destruct H as (h & c & H1 & H2). exists h, c. split; [exact H1|]. eapply part_gr; eauto.
  - destruct H as (h & c & H1 & H2). exists h, c. split; [exact H1|]. eapply part_gr; eauto.
  - destruct H as (h & c & H1 & H2). exists h, c. split; [exact H1|]. eapply part_gr; eauto.
  - destruct H as (h & c & H1 & H2). exists h, c. split; [exact H1|]. eapply part_gr; eauto.
  - destruct H as [(h & c & H1 & H2)|H]; [left|right; exact H]. exists h, c. split; [exact H1|]. eapply part_gr; eauto.
Qed.
Lemma JR_gr s s' : grows s s' -> (forall k i, In (k, i) (resvs s') -> In (k, i) (resvs s)) -> JR s -> JR s'.
Proof.
  intros G H HJ k i E. destruct (HJ k i (H k i E)) as (c & H1 & H2 & H3 & H4). exists c. split; [apply (r_conn _ _ G); exact H1|]. split; [exact H2|].
  split; [eapply seg_incl; [apply (r_out _ _ G)|exact H3]|eapply pl_gr; [apply (r_out _ _ G)|exact H4]].
Qed.
(** acts that leave rows, objects, caches and messages alone *)
Definition same (s s' : st) : Prop :=
  t_conns s' = t_conns s /\ t_subs s' = t_subs s /\ n_key s' = n_key s /\ h_conns s' = h_conns s /\ h_subs s' = h_subs s /\ n_obj s' = n_obj s /\
  c_conns s' = c_conns s /\ c_subs s' = c_subs s /\ outs s' = outs s /\ (n_corr s <= n_corr s')%nat.
Lemma same_gr s s' : same s s' -> grows s s'.
Proof.
  intros (E1 & E2 & E3 & E4 & E5 & E6 & E7 & E8 & E9 & E10). split; unfold has_conn, has_sub, obj_conn, obj_sub; rewrite ?E1, ?E2, ?E4, ?E5, ?E9; auto. apply incl_refl.
Qed.
Lemma same_J0 s s' : same s s' -> J0 s -> J0 s'.
Proof.
  intros S. pose proof (same_gr _ _ S) as G. destruct S as (E1 & E2 & E3 & E4 & E5 & E6 & E7 & E8 & E9 & E10). intros [A1 A2 A3 A4 A5 A6 A7 A8 A9 A10 A11 A12 A13].
  split; rewrite ?E1, ?E2, ?E3, ?E4, ?E5, ?E6, ?E7, ?E8, ?E9; auto.
  - intros o c H. destruct (A5 o c H) as [B1 B2]. split; [exact B1|]. apply (r_conn _ _ G). exact B2.
  - intros k x H. destruct (A7 k x H) as (B1 & B2 & B3 & B4). repeat split; auto. eapply sj_gr; eauto.
  - intros o x H. destruct (A8 o x H) as (B1 & B2 & B3). repeat split; auto. apply (r_sub _ _ G). exact B2.
  - intros x H. eapply oj_gr; eauto.
  - intros p hd b H. specialize (A11 p hd b H). lia.
Qed.

(** one act at a time *)
Definition fine (s s' : st) : Prop := grows s s' /\ J0 s'.
Lemma a_insert_conn c s : J0 s -> cj c -> (forall k c', aget k (t_conns s) = Some c' -> cn_cid c' <> cn_cid c) ->
  fine s (do_act (AInsertConn c) s) /\ has_conn (cn_set_key (n_key s) c) (do_act (AInsertConn c) s).
Proof.
  intros HJ Hc HN.
  assert (F : forall k x, aget k (t_conns s) = Some x -> k <> n_key s) by (intros k x H; apply (j_ck _ HJ) in H; lia).
  assert (K : forall x, has_conn x s -> has_conn x (do_act (AInsertConn c) s)).
  { intros x (y & H1 & H2). exists y. destruct s; cbn in *. rewrite aget_aset_ne; auto. eapply F; eauto. }
  assert (G : grows s (do_act (AInsertConn c) s)) by (split; [exact K|..]; destruct s; auto; apply incl_refl).
  split; [split; [exact G|]|].
  - pose proof HJ as [A1 A2 A3 A4 A5 A6 A7 A8 A9 A10 A11 A12 A13].
    pose proof (fun k x H => sj_gr x _ _ G (proj1 (proj2 (proj2 (A7 k x H))))) as B7.
    pose proof (fun o x H => r_conn _ _ G _ (proj2 (A5 o x H))) as B5. pose proof (fun o x H => r_sub _ _ G _ (proj1 (proj2 (A8 o x H)))) as B8.
    pose proof (fun x H => oj_gr x _ _ G (A10 x H)) as B10. clear G K.
    destruct s as [tc ts nk hc hs no cc cs rv qr qc nc nn rg vv os]. cbn -[akeys] in *.
    split; cbn -[akeys]; auto.
    + apply NoDup_akeys_aset; auto.
    + intros k x. rewrite aget_aset. destruct (eqb_ok k nk) as [->|NE].
      * intros [= <-]. cbn. split; [auto|]. split; [lia|]. destruct Hc as (h & q & H1 & H2). exists h, q. split; [exact H1|]. unfold made, ccore in *. cbn. congruence.
      * intros H. destruct (A3 _ _ H) as (B1 & B2 & B3). auto with arith.
    + intros k k' x x'. rewrite !aget_aset. destruct (eqb_ok k nk) as [->|NE], (eqb_ok k' nk) as [->|NE']; intros E E' Ec; auto.
      * injection E as <-. cbn in Ec. exfalso. eapply HN; eauto.
      * injection E' as <-. cbn in Ec. exfalso. eapply HN; eauto.
      * eauto.
    + intros o x H. split; [eapply A5; eauto|eauto].
    + intros k x H. destruct (A7 k x H) as (B1 & B2 & B3 & B4). repeat split; auto with arith. eauto.
  - destruct s; unfold has_conn; cbn. rewrite aget_aset_eq. eauto.
Qed.
Lemma a_write_conn c s : J0 s -> has_conn c s -> fine s (do_act (AWriteConn c) s).
Proof.
  intros HJ (c0 & R1 & R2).
  assert (K : forall x, has_conn x s -> has_conn x (do_act (AWriteConn c) s)).
  { intros x (y & H1 & H2). unfold has_conn. destruct s; cbn in *. rewrite aget_aset. destruct (eqb_ok (cn_key x) (cn_key c)) as [E|NE]; [|eauto].
    exists c. split; [reflexivity|]. rewrite E in H1. congruence. }
  assert (G : grows s (do_act (AWriteConn c) s)) by (split; [exact K|..]; destruct s; auto; apply incl_refl).
  split; [exact G|].
  pose proof HJ as [A1 A2 A3 A4 A5 A6 A7 A8 A9 A10 A11 A12 A13].
  pose proof (fun k x H => sj_gr x _ _ G (proj1 (proj2 (proj2 (A7 k x H))))) as B7.
  pose proof (fun o x H => r_conn _ _ G _ (proj2 (A5 o x H))) as B5. pose proof (fun o x H => r_sub _ _ G _ (proj1 (proj2 (A8 o x H)))) as B8.
  pose proof (fun x H => oj_gr x _ _ G (A10 x H)) as B10. clear G K.
  destruct s as [tc ts nk hc hs no cc cs rv qr qc nc nn rg vv os]. cbn -[akeys] in *.
  pose proof (A3 _ _ R1) as (C1 & C2 & C3).
  split; cbn -[akeys]; auto.
  - apply NoDup_akeys_aset; auto.
  - intros k x. rewrite aget_aset. destruct (eqb_ok k (cn_key c)) as [->|NE]; [|eauto].
    intros [= <-]. split; [auto|]. split; [exact C2|]. destruct C3 as (h & q & H1 & H2). exists h, q. split; [exact H1|]. eapply made_core; eauto.
  - intros k k' x x'. rewrite !aget_aset. pose proof (cc_cid _ _ R2) as Rc. destruct (eqb_ok k (cn_key c)) as [->|NE], (eqb_ok k' (cn_key c)) as [->|NE']; intros E E' Ec; auto.
    + injection E as <-. eapply A4; eauto. congruence.
    + injection E' as <-. eapply A4; eauto. congruence.
    + eauto.
  - intros o x H. split; [eapply A5; eauto|eauto].
  - intros k x H. destruct (A7 k x H) as (B1 & B2 & B3 & B4). repeat split; eauto.
Qed.
Lemma a_insert_sub x s : J0 s -> sj x s -> sa x -> (forall k y, aget k (t_subs s) = Some y -> sb_provider y = sb_provider x -> sb_cid y <> sb_cid x) -> fine s (do_act (AInsertSub x) s).
Proof.
  intros HJ Hx Ha HN.
  assert (F : forall k x, aget k (t_subs s) = Some x -> k <> n_key s) by (intros k y H; apply (j_sk _ HJ) in H; lia).
  assert (K : forall x', has_sub x' s -> has_sub x' (do_act (AInsertSub x) s)).
  { intros y (z & H1 & H2). exists z. destruct s; cbn in *. rewrite aget_aset_ne; auto. eapply F; eauto. }
  assert (G : grows s (do_act (AInsertSub x) s)) by (split; [|exact K|..]; destruct s; auto; apply incl_refl).
  split; [exact G|].
  pose proof HJ as [A1 A2 A3 A4 A5 A6 A7 A8 A9 A10 A11 A12 A13].
  pose proof (fun k x H => sj_gr x _ _ G (proj1 (proj2 (proj2 (A7 k x H))))) as B7. pose proof (sj_gr x _ _ G Hx) as Bx.
  pose proof (fun o x H => r_conn _ _ G _ (proj2 (A5 o x H))) as B5. pose proof (fun o x H => r_sub _ _ G _ (proj1 (proj2 (A8 o x H)))) as B8.
  pose proof (fun x H => oj_gr x _ _ G (A10 x H)) as B10. clear G K.
  destruct s as [tc ts nk hc hs no cc cs rv qr qc nc nn rg vv os]. cbn -[akeys] in *.
  split; cbn -[akeys]; auto.
  - apply NoDup_akeys_aset; auto.
  - intros k c H. destruct (A3 _ _ H) as (B1 & B2 & B3). auto with arith.
  - intros k y. rewrite aget_aset. destruct (eqb_ok k nk) as [->|NE].
    + intros [= <-]. cbn. split; [auto|]. split; [lia|]. split; [exact Bx|exact Ha].
    + intros H. destruct (A7 _ _ H) as (B1 & B2 & B3 & B4). split; [auto|]. split; [lia|]. split; [eauto|exact B4].
  - intros o y H. destruct (A8 o y H) as (B1 & B2 & B3). repeat split; eauto.
  - intros k k' y y'. rewrite !aget_aset. destruct (eqb_ok k nk) as [->|NE], (eqb_ok k' nk) as [->|NE']; intros E E' Ep Ec; auto.
    + injection E as <-. cbn in Ep, Ec. exfalso. eapply HN; eauto.
    + injection E' as <-. cbn in Ep, Ec. exfalso. eapply HN; eauto.
    + eauto.
Qed.
Lemma a_write_sub x s : J0 s -> has_sub x s -> sa x -> fine s (do_act (AWriteSub x) s).
Proof.
  intros HJ (x0 & R1 & R2) Ha.
  assert (K : forall y, has_sub y s -> has_sub y (do_act (AWriteSub x) s)).
  { intros y (z & H1 & H2). unfold has_sub. destruct s; cbn in *. rewrite aget_aset. destruct (eqb_ok (sb_key y) (sb_key x)) as [E|NE]; [|eauto].
    exists x. split; [reflexivity|]. rewrite E in H1. congruence. }
  assert (G : grows s (do_act (AWriteSub x) s)) by (split; [|exact K|..]; destruct s; auto; apply incl_refl).
  split; [exact G|].
  pose proof HJ as [A1 A2 A3 A4 A5 A6 A7 A8 A9 A10 A11 A12 A13].
  pose proof (fun k x H => sj_gr x _ _ G (proj1 (proj2 (proj2 (A7 k x H))))) as B7.
  pose proof (fun o x H => r_conn _ _ G _ (proj2 (A5 o x H))) as B5. pose proof (fun o x H => r_sub _ _ G _ (proj1 (proj2 (A8 o x H)))) as B8.
  pose proof (fun x H => oj_gr x _ _ G (A10 x H)) as B10. clear K.
  assert (Bx : sj x (do_act (AWriteSub x) s)).
  { destruct (A7 _ _ R1) as (_ & _ & H & _). apply (sj_gr _ _ _ G) in H. destruct H as (h & c & H). exists h, c. unfold score in R2. injection R2 as E1 E2 E3 E4 E5 E6 E7.
    rewrite <- E2, <- E3, <- E4, <- E5, <- E6, <- E7. exact H. }
  clear G.
  destruct s as [tc ts nk hc hs no cc cs rv qr qc nc nn rg vv os]. cbn -[akeys] in *.
  split; cbn -[akeys]; auto.
  - apply NoDup_akeys_aset; auto.
  - intros k y. rewrite aget_aset. destruct (eqb_ok k (sb_key x)) as [->|NE].
    + intros [= <-]. destruct (A7 _ _ R1) as (C1 & C2 & _). auto.
    + intros H. destruct (A7 _ _ H) as (B1 & B2 & B3 & B4). split; [auto|]. split; [lia|]. split; [eauto|exact B4].
  - intros o y H. destruct (A8 o y H) as (B1 & B2 & B3). repeat split; eauto.
  - assert (Q1 : sb_provider x0 = sb_provider x) by (unfold score in R2; congruence). assert (Q2 : sb_cid x0 = sb_cid x) by (unfold score in R2; congruence).
    intros k k' y y'. rewrite !aget_aset. destruct (eqb_ok k (sb_key x)) as [->|NE], (eqb_ok k' (sb_key x)) as [->|NE']; intros E E' Ep Ec; auto.
    + injection E as <-. eapply A13; eauto; congruence.
    + injection E' as <-. eapply A13; eauto; congruence.
    + eauto.
Qed.
Lemma a_load_conn c s : J0 s -> has_conn c s -> fine s (do_act (ALoadConn c) s) /\ obj_conn (n_obj s) c (do_act (ALoadConn c) s).
Proof.
  intros HJ Hc.
  assert (F : forall o x, aget o (h_conns s) = Some x -> o <> n_obj s) by (intros o y H; apply (j_hc _ HJ) in H; lia).
  assert (K : forall o x, obj_conn o x s -> obj_conn o x (do_act (ALoadConn c) s)).
  { intros o x (z & H1 & H2). exists z. destruct s; cbn in *. rewrite aget_aset_ne; eauto. }
  assert (G : grows s (do_act (ALoadConn c) s)) by (split; [| |exact K|..]; destruct s; auto; apply incl_refl).
  split; [split; [exact G|]|].
  - pose proof HJ as [A1 A2 A3 A4 A5 A6 A7 A8 A9 A10 A11 A12 A13].
    pose proof (fun k x H => sj_gr x _ _ G (proj1 (proj2 (proj2 (A7 k x H))))) as B7. pose proof (r_conn _ _ G _ Hc) as Bc.
    pose proof (fun o x H => r_conn _ _ G _ (proj2 (A5 o x H))) as B5. pose proof (fun o x H => r_sub _ _ G _ (proj1 (proj2 (A8 o x H)))) as B8.
    pose proof (fun x H => oj_gr x _ _ G (A10 x H)) as B10. clear G K.
    destruct s as [tc ts nk hc hs no cc cs rv qr qc nc nn rg vv os]. cbn -[akeys] in *.
    split; cbn -[akeys]; auto.
    + intros o x. rewrite aget_aset. destruct (eqb_ok o no) as [->|NE]; [intros [= <-]; auto|]. intros H. split; [apply A5 in H; lia|eauto].
    + intros cid o. rewrite aget_aset. destruct (eqb_ok cid (cn_cid c)) as [->|NE].
      * intros [= <-]. exists c. rewrite aget_aset_eq. auto.
      * intros H. destruct (A6 _ _ H) as (x & X1 & X2). exists x. rewrite aget_aset_ne; eauto.
    + intros o x H. destruct (A8 o x H) as (B1 & B2 & B3). repeat split; eauto.
  - destruct s; unfold obj_conn; cbn. rewrite aget_aset_eq. eauto.
Qed.
Lemma a_load_sub c s : J0 s -> has_sub c s -> sa c -> fine s (do_act (ALoadSub c) s) /\ obj_sub (n_obj s) c (do_act (ALoadSub c) s).
Proof.
  intros HJ Hc Ha.
  assert (F : forall o x, aget o (h_subs s) = Some x -> o <> n_obj s) by (intros o y H; apply (j_hs _ HJ) in H; lia).
  assert (K : forall o x, obj_sub o x s -> obj_sub o x (do_act (ALoadSub c) s)).
  { intros o x (z & H1 & H2). exists z. destruct s; cbn in *. rewrite aget_aset_ne; eauto. }
  assert (G : grows s (do_act (ALoadSub c) s)) by (split; [| | |exact K|]; destruct s; auto; apply incl_refl).
  split; [split; [exact G|]|].
  - pose proof HJ as [A1 A2 A3 A4 A5 A6 A7 A8 A9 A10 A11 A12 A13].
    pose proof (fun k x H => sj_gr x _ _ G (proj1 (proj2 (proj2 (A7 k x H))))) as B7. pose proof (r_sub _ _ G _ Hc) as Bc.
    pose proof (fun o x H => r_conn _ _ G _ (proj2 (A5 o x H))) as B5. pose proof (fun o x H => r_sub _ _ G _ (proj1 (proj2 (A8 o x H)))) as B8.
    pose proof (fun x H => oj_gr x _ _ G (A10 x H)) as B10. clear G K.
    destruct s as [tc ts nk hc hs no cc cs rv qr qc nc nn rg vv os]. cbn -[akeys] in *.
    split; cbn -[akeys]; auto.
    + intros o x H. split; [apply A5 in H; lia|eauto].
    + intros o x. rewrite aget_aset. destruct (eqb_ok o no) as [->|NE]; [intros [= <-]; auto|]. intros H. destruct (A8 o x H) as (B1 & B2 & B3). repeat split; eauto.
    + intros cid o. rewrite aget_aset. destruct (eqb_ok cid (sb_cid c)) as [->|NE].
      * intros [= <-]. exists c. rewrite aget_aset_eq. auto.
      * intros H. destruct (A9 _ _ H) as (x & X1 & X2). exists x. rewrite aget_aset_ne; eauto.
  - destruct s; unfold obj_sub; cbn. rewrite aget_aset_eq. eauto.
Qed.
Lemma a_set_conn o c0 c s : J0 s -> aget o (h_conns s) = Some c0 -> ccore c = ccore c0 -> fine s (do_act (ASetConn o c) s).
Proof.
  intros HJ E C.
  assert (K : forall o' x, obj_conn o' x s -> obj_conn o' x (do_act (ASetConn o c) s)).
  { intros o' x (z & H1 & H2). unfold obj_conn. destruct s; cbn in *. rewrite aget_aset. destruct (eqb_ok o' o) as [->|NE]; [|eauto]. exists c. split; [reflexivity|congruence]. }
  assert (G : grows s (do_act (ASetConn o c) s)) by (split; [| |exact K|..]; destruct s; auto; apply incl_refl).
  split; [exact G|].
  pose proof HJ as [A1 A2 A3 A4 A5 A6 A7 A8 A9 A10 A11 A12 A13].
  pose proof (fun k x H => sj_gr x _ _ G (proj1 (proj2 (proj2 (A7 k x H))))) as B7.
  pose proof (fun o x H => r_conn _ _ G _ (proj2 (A5 o x H))) as B5. pose proof (fun o x H => r_sub _ _ G _ (proj1 (proj2 (A8 o x H)))) as B8.
  pose proof (fun x H => oj_gr x _ _ G (A10 x H)) as B10. clear G K.
  destruct s as [tc ts nk hc hs no cc cs rv qr qc nc nn rg vv os]. cbn -[akeys] in *.
  split; cbn -[akeys]; auto.
  - intros o' x. rewrite aget_aset. destruct (eqb_ok o' o) as [->|NE].
    + intros [= <-]. destruct (A5 _ _ E) as [C1 _]. split; [exact C1|]. destruct (B5 _ _ E) as (y & Y1 & Y2). exists y. rewrite (cc_key _ _ C). split; [exact Y1|congruence].
    + intros H. split; [apply A5 in H; lia|eauto].
  - intros cid o' H. destruct (A6 _ _ H) as (x & X1 & X2). rewrite aget_aset. destruct (eqb_ok o' o) as [->|NE]; [|eauto]. exists c. split; [reflexivity|].
    assert (x = c0) by congruence. subst x. rewrite (cc_cid _ _ C). exact X2.
Qed.
Lemma a_set_sub o c0 c s : J0 s -> aget o (h_subs s) = Some c0 -> score c = score c0 -> sa c -> fine s (do_act (ASetSub o c) s).
Proof.
  intros HJ E C Ha.
  assert (K : forall o' x, obj_sub o' x s -> obj_sub o' x (do_act (ASetSub o c) s)).
  { intros o' x (z & H1 & H2). unfold obj_sub. destruct s; cbn in *. rewrite aget_aset. destruct (eqb_ok o' o) as [->|NE]; [|eauto]. exists c. split; [reflexivity|congruence]. }
  assert (G : grows s (do_act (ASetSub o c) s)) by (split; [| | |exact K|]; destruct s; auto; apply incl_refl).
  split; [exact G|].
  pose proof HJ as [A1 A2 A3 A4 A5 A6 A7 A8 A9 A10 A11 A12 A13].
  pose proof (fun k x H => sj_gr x _ _ G (proj1 (proj2 (proj2 (A7 k x H))))) as B7.
  pose proof (fun o x H => r_conn _ _ G _ (proj2 (A5 o x H))) as B5. pose proof (fun o x H => r_sub _ _ G _ (proj1 (proj2 (A8 o x H)))) as B8.
  pose proof (fun x H => oj_gr x _ _ G (A10 x H)) as B10. clear G K.
  destruct s as [tc ts nk hc hs no cc cs rv qr qc nc nn rg vv os]. cbn -[akeys] in *.
  split; cbn -[akeys]; auto.
  - intros o' x. rewrite aget_aset. destruct (eqb_ok o' o) as [->|NE].
    + intros [= <-]. destruct (A8 _ _ E) as (C1 & _). split; [exact C1|]. split; [|exact Ha]. destruct (B8 _ _ E) as (y & Y1 & Y2). exists y. rewrite (sc_key _ _ C). split; [exact Y1|congruence].
    + intros H. destruct (A8 o' x H) as (B1 & B2 & B3). repeat split; eauto.
  - intros cid o' H. destruct (A9 _ _ H) as (x & X1 & X2). rewrite aget_aset. destruct (eqb_ok o' o) as [->|NE]; [|eauto]. exists c. split; [reflexivity|].
    assert (x = c0) by congruence. subst x. rewrite (sc_cid _ _ C). exact X2.
Qed.
Lemma a_out x s : J0 s -> oj x s -> (forall p hd b, x = ODown p hd b -> (hd_corr hd < n_corr s)%nat /\
  forall p' hd' b', In (ODown p' hd' b') (outs s) -> hd_corr hd' <> hd_corr hd) -> fine s (do_act (AOut x) s).
Proof.
  intros HJ Hx Hd.
  assert (G : grows s (do_act (AOut x) s)) by (split; destruct s; auto; cbn; apply incl_appl, incl_refl).
  split; [exact G|].
  pose proof HJ as [A1 A2 A3 A4 A5 A6 A7 A8 A9 A10 A11 A12 A13].
  pose proof (fun k x H => sj_gr x _ _ G (proj1 (proj2 (proj2 (A7 k x H))))) as B7.
  pose proof (fun o x H => r_conn _ _ G _ (proj2 (A5 o x H))) as B5. pose proof (fun o x H => r_sub _ _ G _ (proj1 (proj2 (A8 o x H)))) as B8.
  pose proof (fun x H => oj_gr x _ _ G (A10 x H)) as B10. pose proof (oj_gr x _ _ G Hx) as Bx. clear G.
  destruct s as [tc ts nk hc hs no cc cs rv qr qc nc nn rg vv os]. cbn -[akeys] in *.
  split; cbn -[akeys]; auto.
  - intros k y H. destruct (A7 k y H) as (B1 & B2 & B3 & B4). repeat split; eauto.
  - intros y Hy. apply in_app_or in Hy as [Hy|[<-|[]]]; auto.
  - intros p hd b Hy. apply in_app_or in Hy as [Hy|[Hy|[]]]; [eapply A11; eauto|]. subst x. eapply Hd; reflexivity.
  - intros p hd b p' hd' b' H H' E. apply in_app_or in H'. apply in_app_or in H as [H|[H|[]]]; destruct H' as [H'|H'].
    + eapply A12; eauto.
    + destruct H' as [H'|[]]. subst x. exfalso. destruct (Hd _ _ _ eq_refl) as [_ X]. eapply X; eauto.
    + subst x. exfalso. destruct (Hd _ _ _ eq_refl) as [_ X]. eapply X; eauto.
    + destruct H' as [H'|[]]. congruence.
Qed.
End Inv.
