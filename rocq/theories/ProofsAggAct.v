(** The whole invariant, and what each act does to it. *)
From Verif Require Import Base BaseProofs ModelLabel ModelSTP ModelAuthz ModelNRM ModelState ModelLinkVector ModelProvreg ModelAggregator SpecAggInv ProofsAggInv ProofsAggTab.

Definition ocnt (f : ubody -> bool) (s : st) : nat := cnt (says f) (outs s).
Inductive kind := KProv | KRel | K2pc.
Definition m_kind (x : kind) (cid : string) : ubody -> bool := match x with KProv => m_prov cid | KRel => m_rel cid | K2pc => m_2pc cid end.
Definition q_kind (x : kind) (cid : string) : call -> bool := match x with KProv => q_prov cid | KRel => q_rel cid | K2pc => q_2pc cid end.
Definition one (b : bool) : nat := if b then 1 else 0.
Definition busy (x : kind) (y : states) : nat :=
  one match x with
      | KProv => eqb (st_p y) PProvisioning
      | KRel => eqb (st_p y) PReleasing
      | K2pc => eqb (st_r y) RCommitting || eqb (st_r y) RAborting
      end.
Definition obusy (x : kind) (o : option conn) : nat := match o with Some c => busy x (cn_states c) | None => 0 end.
Definition token := option (kind * string).
Definition tok (t : token) (x : kind) (cid : string) : nat :=
  match t, x with
  | Some (KProv, c), KProv | Some (KRel, c), KRel | Some (K2pc, c), K2pc => one (eqb cid c)
  | _, _ => 0
  end.
Definition counts (t : token) (log : list call) (s : st) : Prop :=
  forall x cid, (ocnt (m_kind x cid) s + obusy x (cobj cid s) + tok t x cid <= cnt (q_kind x cid) log)%nat.
(** what the rows say, to an object made of one or after a restart *)
Definition rows (t : token) (log : list call) (s : st) : Prop :=
  forall x k c, aget k (t_conns s) = Some c ->
    match cobj (cn_cid c) s with
    | None => (ocnt (m_kind x (cn_cid c)) s + busy x (cn_states c) + tok t x (cn_cid c) <= cnt (q_kind x (cn_cid c)) log)%nat
    | Some c' => (busy x (cn_states c) <= busy x (cn_states c'))%nat
    end.
Definition terms (s : st) : Prop := forall cid, (ocnt (m_term cid) s <= 1)%nat /\
  ((0 < ocnt (m_term cid) s)%nat -> exists c, cobj cid s = Some c /\ cn_l c = LTerminated).
(** what is put off for a while: the account of a segment asked for, the labels of a connection *)
Inductive xmp := XSeg (corr : nat) (cid : string) | XLab (cid : string).
Definition slog (log : list call) (x : sub) : Prop :=
  (sb_p x = PProvisioned -> exists h, In (CProvisionConfirmed h (sb_cid x)) log) /\
  (sb_l x = LTerminated -> exists h, In (CTerminateConfirmed h (sb_cid x)) log) /\
  (exists h, In (CReserveConfirmed h (sb_cid x) (sb_src x) (sb_dst x)) log /\ hd_provider h = sb_provider x).
Definition subl (log : list call) (s : st) : Prop :=
  (forall k x, aget k (t_subs s) = Some x -> slog log x) /\ (forall o x, aget o (h_subs s) = Some x -> slog log x).
Definition asked_entry (corr : nat) (prov cid : string) (s : st) : Prop :=
  exists i c, aget corr (resvs s) = Some i /\ ri_provider i = prov /\ aget (ri_conn i) (t_conns s) = Some c /\ cn_cid c = cid.
Definition no_entry (cid : string) (s : st) : Prop :=
  forall k i c, aget k (resvs s) = Some i -> aget (ri_conn i) (t_conns s) = Some c -> cn_cid c <> cid.
(** the first segment is asked for and stored once *)
Definition ords (s : st) : Prop := forall k i, aget k (resvs s) = Some i -> ri_order i = 0%nat ->
  (forall k' y, aget k' (t_subs s) = Some y -> sb_conn y = ri_conn i -> sb_order y <> 0%nat) /\
  (forall k' i', aget k' (resvs s) = Some i' -> ri_conn i' = ri_conn i -> ri_order i' = 0%nat -> k' = k).
(** the labels of a connection *)
Definition final (y : sub) (s : st) : Prop := newest y s /\ S (sb_order y) = List.length (subs_of (sb_conn y) s).
Definition labels (y : sub) (s : st) (c : conn) : Prop :=
  (sb_order y = 0%nat -> s_label (cn_src c) = s_label (sb_src y)) /\ (final y s -> s_label (cn_dst c) = s_label (sb_dst y)).
Lemma len_aset_old {V} (f : V -> bool) k v v0 (l : list (nat * V)) : aget k l = Some v0 -> f v0 = f v ->
  List.length (filter f (map snd (aset k v l))) = List.length (filter f (map snd l)).
Proof.
  intros H E. induction l as [|[k' v'] l IH]; [discriminate|]. cbn in *. destruct (eqb k k').
  - injection H as ->. cbn. rewrite E. destruct (f v); reflexivity.
  - cbn. destruct (f v'); cbn; auto.
Qed.
Lemma len_aset_new {V} (f : V -> bool) k v (l : list (nat * V)) : aget k l = None ->
  List.length (filter f (map snd (aset k v l))) = (List.length (filter f (map snd l)) + if f v then 1 else 0)%nat.
Proof.
  intros H. induction l as [|[k' v'] l IH]; cbn in *; [destruct (f v); reflexivity|]. destruct (eqb k k'); [discriminate|].
  cbn. destruct (f v'); cbn; auto.
Qed.
Section Inv.
Context {GH : ghost}.
Definition labs (x : option xmp) (s : st) : Prop := forall k y cr, aget k (t_subs s) = Some y -> aget (sb_conn y) (t_conns s) = Some cr ->
  dead (cn_cid cr) \/ (x = Some (XLab (cn_cid cr)) /\ newest y s) \/ exists c, cobj (cn_cid cr) s = Some c /\ labels y s c.
Lemma newest_row y s : tab s -> (newest y s <-> forall k' y', aget k' (t_subs s) = Some y' -> sb_conn y' = sb_conn y -> (k' <= sb_key y)%nat).
Proof.
  intros T. unfold newest, subs_of. split; intros H.
  - intros k' y' E Q. pose proof (tb_sk _ T _ _ E) as [KE _]. rewrite <- KE. apply H. apply filter_In. split; [|rewrite Q; apply eqb_refl].
    apply in_map_iff. exists (k', y'). split; auto. apply aget_In, E.
  - intros y' Hy. apply filter_In in Hy. destruct Hy as [Hy Q]. apply (proj1 (eqb_true (sb_conn y') (sb_conn y))) in Q.
    apply in_map_iff in Hy. destruct Hy as ([k' y''] & E & Hy). cbn in E. subst y''. apply In_aget in Hy; [|apply T].
    destruct (tb_sk _ T _ _ Hy) as [-> _]. eapply H; eauto.
Qed.
Lemma labs_mono x s s' : labs x s -> t_subs s' = t_subs s ->
  (forall k c', aget k (t_conns s') = Some c' -> (exists k' y, aget k' (t_subs s) = Some y /\ sb_conn y = k) -> exists c, aget k (t_conns s) = Some c /\ cn_cid c = cn_cid c') ->
  (forall cid c, cobj cid s = Some c -> exists c', cobj cid s' = Some c' /\ s_label (cn_src c') = s_label (cn_src c) /\ s_label (cn_dst c') = s_label (cn_dst c)) -> labs x s'.
Proof.
  intros H E HC HO k y cr. rewrite E. intros Hy Hc. destruct (HC _ _ Hc) as (c & C1 & C2); [eauto|].
  assert (N : newest y s' <-> newest y s) by (unfold newest, subs_of; rewrite E; reflexivity).
  destruct (H k y c Hy C1) as [D|[[D D']|(c0 & D & D')]]; rewrite <- C2; auto; [right; left; split; auto; apply N; auto|].
  right; right. destruct (HO _ _ D) as (c1 & O1 & O2 & O3). exists c1. split; auto.
  destruct D' as [L1 L2]. split; [rewrite O2; exact L1|]. intros [F1 F2]. rewrite O3. apply L2. split; [apply N; auto|].
  unfold subs_of in *. rewrite E in F2. exact F2.
Qed.
Lemma ords_mono s s' : ords s -> t_subs s' = t_subs s -> resvs s' = resvs s -> ords s'.
Proof. intros H E1 E2. unfold ords. rewrite E1, E2. exact H. Qed.
(** a segment is written *)
Lemma labs_write x y s s' : labs x s -> tab s -> tab s' -> sub_like y s -> t_subs s' = aset (sb_key y) y (t_subs s) -> t_conns s' = t_conns s ->
  (forall cid, cobj cid s' = cobj cid s) -> labs x s'.
Proof.
  intros H T T' (y0 & R1 & R2 & R3 & R4 & R5 & R6 & R7) E EC EO.
  assert (A : forall k z, aget k (t_subs s') = Some z -> exists z0, aget k (t_subs s) = Some z0 /\ sb_conn z0 = sb_conn z /\ sb_order z0 = sb_order z /\
     sb_src z0 = sb_src z /\ sb_dst z0 = sb_dst z /\ sb_key z0 = sb_key z).
  { intros k z Hz. pose proof (tb_sk _ T' _ _ Hz) as [Kz _]. rewrite E, aget_aset in Hz. destruct (eqb_ok k (sb_key y)) as [->|NE]; [|exists z; auto 9]. injection Hz as <-.
    exists y0. destruct (tb_sk _ T _ _ R1) as [K0 _]. repeat split; auto. }
  assert (B : forall k z, aget k (t_subs s) = Some z -> exists z', aget k (t_subs s') = Some z' /\ sb_conn z' = sb_conn z).
  { intros k z Hz. rewrite E, aget_aset. destruct (eqb_ok k (sb_key y)) as [->|NE]; [|eauto]. exists y. split; auto. congruence. }
  intros k z cr Hz Hc. destruct (A _ _ Hz) as (z0 & A1 & A2 & A3 & A4 & A5 & A6).
  assert (N : newest z s' <-> newest z0 s).
  { rewrite (newest_row z s' T'), (newest_row z0 s T), A2, A6. split; intros G k' y' Hy Q.
    - destruct (B _ _ Hy) as (y1 & B1 & B2). eapply G; eauto. congruence.
    - destruct (A _ _ Hy) as (y1 & B1 & B2 & _). eapply G; eauto. congruence. }
  assert (L : forall q, List.length (subs_of q s') = List.length (subs_of q s)).
  { intros q. unfold subs_of. rewrite E. eapply len_aset_old; [exact R1|]. rewrite R4. reflexivity. }
  destruct (H k z0 cr A1) as [D|[[D D']|(c0 & D & D')]]; auto; [rewrite A2, <- EC; exact Hc|right; left; split; auto; apply N; auto|].
  right; right. exists c0. rewrite EO. split; auto. unfold labels, final in *. rewrite L, <- A2, <- A3, <- A4, <- A5.
  destruct D' as [L1 L2]. split; auto. intros [F1 F2]. apply L2. split; auto. apply N; auto.
Qed.
Lemma ords_write y s s' : ords s -> sub_like y s -> t_subs s' = aset (sb_key y) y (t_subs s) -> resvs s' = resvs s -> ords s'.
Proof.
  intros H (y0 & R1 & R2 & R3 & R4 & R5 & _) E1 E2 k i. unfold ords in H. rewrite E1, E2. intros Hi H0. destruct (H k i Hi H0) as [O1 O2].
  split; [|exact O2]. intros k' z. rewrite aget_aset. destruct (eqb_ok k' (sb_key y)) as [->|NE]; [|apply O1].
  intros Q Q'. injection Q as <-. rewrite <- R5. eapply O1; eauto. congruence.
Qed.
Record res (urn : string) (x : option xmp) (log : list call) (s : st) : Prop := mkRes {
  rs_ok : forall k i, aget k (resvs s) = Some i -> (k < n_corr s)%nat /\ exists c, aget (ri_conn i) (t_conns s) = Some c;
  rs_one : forall cid, (ocnt (m_conf cid) s <= 1)%nat;
  rs_conf : forall cid, (0 < ocnt (m_conf cid) s)%nat -> past cid s /\ ocnt (m_fail cid) s = 0%nat /\ no_entry cid s;
  rs_fail : forall cid, (0 < ocnt (m_fail cid) s)%nat -> past cid s;
  rs_seg : forall corr prov cid, seg urn (outs s) corr prov cid ->
     (corr < n_corr s)%nat /\ (x = Some (XSeg corr cid) \/ asked_entry corr prov cid s \/ confirmed_by log corr prov \/ past cid s);
  rs_all : forall corr prov cid, (0 < ocnt (m_conf cid) s)%nat -> seg urn (outs s) corr prov cid -> confirmed_by log corr prov;
  rs_dead : forall cid, dead cid -> no_entry cid s /\ exists k c, aget k (t_conns s) = Some c /\ cn_cid c = cid }.
Record inv (urn : string) (x : option xmp) (t : token) (log : list call) (s : st) : Prop := mkInv {
  i_tab : tab s; i_res : res urn x log s; i_cnt : counts t log s; i_term : whole = true -> terms s; i_sub : subl log s; i_row : rows t log s; i_lab : labs x s; i_ord : ords s }.

Section Act.
  Context (urn : string) (log : list call).
  Lemma res_mono x s s' : res urn x log s -> keeps s s' -> resvs s' = resvs s -> outs s' = outs s -> (n_corr s <= n_corr s')%nat ->
    (forall cid c, cobj cid s = Some c -> cn_r c <> RChecking -> past cid s') -> res urn x log s'.
  Proof.
    intros [A1 A2 A3 A4 A5 A6 A7] HK ER EO EN HP0.
    assert (HP : forall cid, past cid s -> past cid s') by (intros cid [H|(c & H1 & H2)]; [left; auto|eauto]).
    unfold ocnt in *.
    constructor; unfold ocnt, no_entry, asked_entry; try rewrite ER; try rewrite EO; auto.
    - intros k i H. destruct (A1 k i H) as (B1 & c & B2). split; [lia|]. destruct (HK _ _ B2) as (c' & B3 & _). eauto.
    - intros cid H. destruct (A3 cid H) as (B1 & B2 & B3). split; auto. split; auto.
      intros k i c E1 E2. destruct (A1 k i E1) as (_ & c0 & F1). destruct (HK _ _ F1) as (c1 & F2 & F3 & _).
      assert (c1 = c) by congruence. subst. rewrite F3. eapply B3; eauto.
    - intros corr prov cid H. destruct (A5 corr prov cid H) as (B1 & B2). split; [lia|].
      destruct B2 as [B2|[(i & c & B2 & B3 & B4 & B5)|[B2|B2]]]; auto.
      right; left. destruct (HK _ _ B4) as (c' & F1 & F2 & _). exists i, c'. repeat split; auto. congruence.
    - intros cid H. destruct (A7 cid H) as (B1 & k & c & B2 & B3). destruct (HK _ _ B2) as (c' & B4 & B5 & _).
      split; [|exists k, c'; split; congruence].
      intros k' i c0 E1 E2. destruct (A1 k' i E1) as (_ & c1 & F1). destruct (HK _ _ F1) as (c2 & F2 & F3 & _).
      assert (c2 = c0) by congruence. subst. rewrite F3. eapply B1; eauto.
  Qed.
  Lemma counts_mono t t' s s' : counts t log s -> outs s' = outs s ->
    (forall x cid, obusy x (cobj cid s') + tok t' x cid <= obusy x (cobj cid s) + tok t x cid)%nat -> counts t' log s'.
  Proof. intros H E HB x cid. specialize (H x cid). specialize (HB x cid). unfold ocnt in *. rewrite E. lia. Qed.
  Lemma rows_mono t s s' : rows t log s -> outs s' = outs s -> t_conns s' = t_conns s -> (forall cid, cobj cid s' = cobj cid s) -> rows t log s'.
  Proof. intros H E1 E2 E3 x k c. unfold ocnt. rewrite E1, E2, E3. apply H. Qed.
  Lemma terms_mono s s' : terms s -> outs s' = outs s ->
    (forall cid c, cobj cid s = Some c -> cn_l c = LTerminated -> exists c', cobj cid s' = Some c' /\ cn_l c' = LTerminated) -> terms s'.
  Proof. intros H E HB cid. destruct (H cid) as [H1 H2]. unfold ocnt in *. rewrite E. split; auto. intros H3. destruct (H2 H3) as (c & H4 & H5). eauto. Qed.

  (** nothing relevant *)
  Lemma inv_same x t s s' : inv urn x t log s -> same_tab s s' -> resvs s' = resvs s -> outs s' = outs s -> (n_corr s <= n_corr s')%nat ->
    inv urn x t log s' /\ keeps s s'.
  Proof.
    intros [I1 I2 I3 I4 I5 I6 I7 I8] HS ER EO EN. pose proof HS as (E1 & E2 & E3 & E4 & E5 & E6 & E7 & E8).
    assert (K : keeps s s') by (apply keeps_same; auto).
    assert (C : forall cid, cobj cid s' = cobj cid s) by (intros; unfold cobj; rewrite E4, E7; auto).
    split; [|exact K]. constructor.
    - eapply tab_same; eauto. rewrite ER. apply I1.
    - eapply res_mono; eauto. intros cid c H. right. exists c. rewrite C. auto.
    - eapply counts_mono; eauto. intros; rewrite C; lia.
    - intros HW. specialize (I4 HW). eapply terms_mono; eauto. intros; rewrite C; eauto.
    - unfold subl. rewrite E2, E5. auto.
    - eapply rows_mono; eauto.
    - eapply labs_mono; eauto; [rewrite E1; eauto|]. intros cid c. rewrite C. eauto.
    - eapply ords_mono; eauto.
  Qed.
  Lemma idle_busy c k : (cn_r c = RStart \/ cn_r c = RChecking) -> cn_p c = PReleased -> busy k (cn_states c) = 0%nat.
  Proof.
    intros H1 H2. unfold busy. fold (cn_r c) (cn_p c). rewrite H2. destruct k; try reflexivity. destruct H1 as [H1|H1]; rewrite H1; reflexivity.
  Qed.
  Lemma rows_write t c s : counts t log s -> rows t log s -> (forall k, busy k (cn_states c) <= obusy k (cobj (cn_cid c) s))%nat -> rows t log (do_act (AWriteConn c) s).
  Proof.
    intros I3 I6 H1 k key c0 E. assert (O : ocnt (m_kind k (cn_cid c0)) (do_act (AWriteConn c) s) = ocnt (m_kind k (cn_cid c0)) s) by (destruct s; reflexivity).
    assert (C : cobj (cn_cid c0) (do_act (AWriteConn c) s) = cobj (cn_cid c0) s) by (destruct s; reflexivity).
    rewrite C, O. pose proof (I3 k (cn_cid c0)) as B3. pose proof (I6 k key c0) as B6. specialize (H1 k).
    assert (E' : (key = cn_key c /\ c0 = c) \/ aget key (t_conns s) = Some c0).
    { destruct s; cbn in E. rewrite aget_aset in E. destruct (eqb_ok key (cn_key c)) as [->|NE]; [injection E as <-|]; auto. }
    destruct E' as [[-> ->]|E']; [|apply B6, E'].
    destruct (cobj (cn_cid c) s); [exact H1|]. cbn [obusy] in *. lia.
  Qed.
  Lemma inv_insert_conn x t c s : inv urn x t log s -> (forall k c', aget k (t_conns s) = Some c' -> cn_cid c' <> cn_cid c) ->
    (cn_r c = RStart \/ cn_r c = RChecking) -> cn_p c = PReleased ->
    inv urn x t log (do_act (AInsertConn c) s) /\ keeps s (do_act (AInsertConn c) s).
  Proof.
    intros [I1 I2 I3 I4 I5 I6 I7 I8] HN H1 H2. destruct (tab_insert_conn c s I1 HN) as [T K]. split; [|exact K].
    assert (C : forall cid, cobj cid (do_act (AInsertConn c) s) = cobj cid s) by (destruct s; reflexivity).
    constructor; auto.
    - eapply res_mono; eauto; try (destruct s; reflexivity). intros cid c0 H. right. exists c0. rewrite C. auto.
    - eapply counts_mono; eauto; [destruct s; reflexivity|]. intros; rewrite C; lia.
    - intros HW. specialize (I4 HW). eapply terms_mono; eauto; [destruct s; reflexivity|]. intros; rewrite C; eauto.
    - destruct s; exact I5.
    - intros k key c0 E. rewrite C. assert (O : ocnt (m_kind k (cn_cid c0)) (do_act (AInsertConn c) s) = ocnt (m_kind k (cn_cid c0)) s) by (destruct s; reflexivity).
      rewrite O. pose proof (I3 k (cn_cid c0)) as B3. pose proof (I6 k key c0) as B6.
      destruct s as [tc ts nk hc hs no cc cs rv qr qc nc nn rg vv os]; cbn [do_act t_conns] in *. rewrite aget_aset in E.
      destruct (eqb_ok key nk) as [->|NE]; [|exact (B6 E)]. assert (Z : busy k (cn_states c0) = 0%nat) by (inversion E; exact (idle_busy c k H1 H2)). rewrite Z.
      match goal with |- context[cobj (cn_cid c0) ?x] => destruct (cobj (cn_cid c0) x) end; cbn [obusy] in B3; lia.
    - eapply labs_mono; eauto; [destruct s; reflexivity| |intros cid c0; rewrite C; eauto].
      intros k c' E (k' & y & Y1 & Y2). destruct (tb_sk _ I1 _ _ Y1) as (_ & _ & c2 & Y3). rewrite Y2 in Y3. exists c2. split; auto.
      destruct (K _ _ Y3) as (c3 & Y4 & Y5 & _). congruence.
    - eapply ords_mono; eauto; destruct s; reflexivity.
  Qed.
  Lemma inv_write_conn x t c s : inv urn x t log s -> row_like c s ->
    (forall k, busy k (cn_states c) <= obusy k (cobj (cn_cid c) s))%nat ->
    inv urn x t log (do_act (AWriteConn c) s) /\ keeps s (do_act (AWriteConn c) s).
  Proof.
    intros [I1 I2 I3 I4 I5 I6 I7 I8] HN H1. destruct (tab_write_conn c s I1 HN) as [T K]. split; [|exact K].
    assert (C : forall cid, cobj cid (do_act (AWriteConn c) s) = cobj cid s) by (destruct s; reflexivity).
    constructor; auto.
    - eapply res_mono; eauto; try (destruct s; reflexivity). intros cid c0 H. right. exists c0. rewrite C. auto.
    - eapply counts_mono; eauto; [destruct s; reflexivity|]. intros; rewrite C; lia.
    - intros HW. specialize (I4 HW). eapply terms_mono; eauto; [destruct s; reflexivity|]. intros; rewrite C; eauto.
    - destruct s; exact I5.
    - eapply rows_write; eauto.
    - eapply labs_mono; eauto; [destruct s; reflexivity| |intros cid c0; rewrite C; eauto].
      intros k c' E (k' & y & Y1 & Y2). destruct (tb_sk _ I1 _ _ Y1) as (_ & _ & c2 & Y3). rewrite Y2 in Y3. exists c2. split; auto.
      destruct (K _ _ Y3) as (c3 & Y4 & Y5 & _). congruence.
    - eapply ords_mono; eauto; destruct s; reflexivity.
  Qed.
  Lemma cobj_load c s cid : tab s -> aget (cn_cid c) (c_conns s) = None ->
    cobj cid (do_act (ALoadConn c) s) = if eqb cid (cn_cid c) then Some c else cobj cid s.
  Proof.
    intros T HN. unfold cobj. destruct s as [tc ts nk hc hs no cc cs rv qr qc nc nn rg vv os]; cbn in *. rewrite aget_aset.
    destruct (eqb_ok cid (cn_cid c)) as [->|NE]; [apply aget_aset_eq|].
    destruct (aget cid cc) as [o|] eqn:E; auto. rewrite aget_aset_ne; auto. intros ->.
    destruct (tb_cc _ T cid _ E) as (c' & F & _). apply (tb_hc _ T) in F. cbn in F. lia.
  Qed.
  Lemma inv_load_conn x t c s : inv urn x t log s -> aget (cn_key c) (t_conns s) = Some c -> aget (cn_cid c) (c_conns s) = None ->
    inv urn x t log (do_act (ALoadConn c) s) /\ keeps s (do_act (ALoadConn c) s).
  Proof.
    intros [I1 I2 I3 I4 I5 I6 I7 I8] HR HN.
    assert (T : tab (do_act (ALoadConn c) s)) by (apply tab_load_conn; auto; exists c; auto).
    assert (K : keeps s (do_act (ALoadConn c) s)) by (apply keeps_same; destruct s; reflexivity).
    assert (C : forall cid, cobj cid (do_act (ALoadConn c) s) = if eqb cid (cn_cid c) then Some c else cobj cid s) by (intros; apply cobj_load; auto).
    assert (N : cobj (cn_cid c) s = None) by (unfold cobj; rewrite HN; auto).
    split; [|exact K]. constructor; auto.
    - eapply res_mono; eauto; try (destruct s; reflexivity). intros cid c0 H H'. right. exists c0. rewrite C.
      destruct (eqb_ok cid (cn_cid c)) as [->|NE]; [congruence|auto].
    - intros k cid. rewrite C.
      assert (O : ocnt (m_kind k cid) (do_act (ALoadConn c) s) = ocnt (m_kind k cid) s) by (destruct s; reflexivity). rewrite O.
      destruct (eqb_ok cid (cn_cid c)) as [->|NE]; [|apply I3]. pose proof (I6 k _ _ HR) as B. rewrite N in B. cbn [obusy]. lia.
    - intros HW. specialize (I4 HW). eapply terms_mono; eauto; [destruct s; reflexivity|]. intros cid c0 H1 H2. rewrite C.
      destruct (eqb_ok cid (cn_cid c)) as [->|NE]; [congruence|eauto].
    - destruct s; exact I5.
    - intros k key c0 E. assert (O : ocnt (m_kind k (cn_cid c0)) (do_act (ALoadConn c) s) = ocnt (m_kind k (cn_cid c0)) s) by (destruct s; reflexivity).
      rewrite O, C. assert (E' : aget key (t_conns s) = Some c0) by (destruct s; exact E).
      destruct (eqb_ok (cn_cid c0) (cn_cid c)) as [Q|NE]; [|apply (I6 k key c0 E')].
      assert (key = cn_key c) by (eapply (tb_cu _ I1); eauto). subst key. assert (c0 = c) by congruence. subst. lia.
    - eapply labs_mono; eauto; [destruct s; reflexivity|destruct s; cbn; eauto|]. intros cid c0 H. rewrite C.
      destruct (eqb_ok cid (cn_cid c)) as [->|NE]; [congruence|eauto].
    - eapply ords_mono; eauto; destruct s; reflexivity.
  Qed.
  Lemma cobj_set o c0 c s cid : tab s -> aget o (h_conns s) = Some c0 -> cn_cid c = cn_cid c0 ->
    cobj cid (do_act (ASetConn o c) s) = if eqb cid (cn_cid c0) then Some c else cobj cid s.
  Proof.
    intros T HO E. pose proof (tb_hc _ T _ _ HO) as (_ & HC & _). unfold cobj. destruct s as [tc ts nk hc hs no cc cs rv qr qc nc nn rg vv os]; cbn in *.
    destruct (eqb_ok cid (cn_cid c0)) as [->|NE]; [rewrite HC; apply aget_aset_eq|].
    destruct (aget cid cc) as [o'|] eqn:E'; auto. rewrite aget_aset_ne; auto. intros ->.
    destruct (tb_cc _ T cid _ E') as (c' & F & F'). cbn in F. congruence.
  Qed.
  Lemma cobj_obj o c s : tab s -> aget o (h_conns s) = Some c -> cobj (cn_cid c) s = Some c.
  Proof. intros T H. pose proof (tb_hc _ T _ _ H) as (_ & HC & _). unfold cobj. rewrite HC. auto. Qed.
  Lemma set_conn_core x t t' o c0 c s : inv urn x t log s -> aget o (h_conns s) = Some c0 -> cn_key c = cn_key c0 -> cn_cid c = cn_cid c0 -> cn_requester c = cn_requester c0 ->
    (forall k cid, (if eqb cid (cn_cid c0) then busy k (cn_states c) else 0) + tok t' k cid <= (if eqb cid (cn_cid c0) then busy k (cn_states c0) else 0) + tok t k cid)%nat ->
    (cn_r c = RChecking -> cn_r c0 = RChecking) -> (cn_l c0 = LTerminated -> cn_l c = LTerminated) ->
    (tab (do_act (ASetConn o c) s) /\ res urn x log (do_act (ASetConn o c) s) /\ counts t' log (do_act (ASetConn o c) s) /\
     (whole = true -> terms (do_act (ASetConn o c) s)) /\ subl log (do_act (ASetConn o c) s)) /\ keeps s (do_act (ASetConn o c) s).
  Proof.
    intros [I1 I2 I3 I4 I5 I6 I7 I8] HO E1 E2 E3 HB HR HL.
    assert (T : tab (do_act (ASetConn o c) s)) by (eapply tab_set_conn; eauto).
    assert (K : keeps s (do_act (ASetConn o c) s)) by (apply keeps_same; destruct s; reflexivity).
    assert (C : forall cid, cobj cid (do_act (ASetConn o c) s) = if eqb cid (cn_cid c0) then Some c else cobj cid s) by (intros; eapply cobj_set; eauto).
    pose proof (cobj_obj o c0 s I1 HO) as N.
    split; [|exact K]. split; [exact T|]. split; [|split; [|split]].
    - eapply res_mono; eauto; try (destruct s; reflexivity). intros cid c1 H H'. right. rewrite C.
      destruct (eqb_ok cid (cn_cid c0)) as [->|NE]; [|eauto]. exists c. split; auto. intros Q. apply H'. assert (c1 = c0) by congruence. subst. auto.
    - eapply counts_mono; eauto; [destruct s; reflexivity|]. intros k cid. specialize (HB k cid). rewrite C. revert HB.
      destruct (eqb_ok cid (cn_cid c0)) as [E|NE]; [|lia]. rewrite E, N. cbn [obusy]. lia.
    - intros HW. specialize (I4 HW). eapply terms_mono; eauto; [destruct s; reflexivity|]. intros cid c1 H1 H2. rewrite C.
      destruct (eqb_ok cid (cn_cid c0)) as [->|NE]; [|eauto]. exists c. split; auto. apply HL. congruence.
    - destruct s; exact I5.
  Qed.
  Lemma res_lab cid s : res urn (Some (XLab cid)) log s <-> res urn None log s.
  Proof.
    split; intros [A1 A2 A3 A4 A5 A6 A7]; constructor; auto; intros corr prov c H; destruct (A5 _ _ _ H) as [B1 [B2|B2]]; auto; discriminate.
  Qed.
  (** the labels put off are set *)
  Lemma inv_set_conn t o c0 c s : inv urn (Some (XLab (cn_cid c0))) t log s -> aget o (h_conns s) = Some c0 -> cn_key c = cn_key c0 -> cn_cid c = cn_cid c0 -> cn_requester c = cn_requester c0 ->
    cn_states c = cn_states c0 -> (forall k y, aget k (t_subs s) = Some y -> sb_conn y = cn_key c0 -> labels y s c) ->
    inv urn None t log (do_act (ASetConn o c) s) /\ keeps s (do_act (ASetConn o c) s).
  Proof.
    intros I HO E1 E2 E3 E4 HLB. destruct (set_conn_core _ t t o c0 c s I HO E1 E2 E3) as [(B1 & B2 & B3 & B4 & B5) K].
    { intros k cid. rewrite E4. lia. } { unfold cn_r. rewrite E4. auto. } { unfold cn_l. rewrite E4. auto. }
    split; [|exact K]. destruct I as [I1 I2 I3 I4 I5 I6 I7 I8]. constructor; auto.
    { apply res_lab in B2. exact B2. }
    2: { intros k y cr Hy Hc. assert (Hy' : aget k (t_subs s) = Some y) by (destruct s; exact Hy). assert (Hc' : aget (sb_conn y) (t_conns s) = Some cr) by (destruct s; exact Hc).
      assert (LB : forall z d, labels z (do_act (ASetConn o c) s) d <-> labels z s d) by (destruct s; reflexivity).
      destruct (eqb_ok (cn_cid cr) (cn_cid c0)) as [Q|NE].
      - right; right. exists c. rewrite (cobj_set o c0 c s _ I1 HO E2), Q, eqb_refl. split; auto. apply LB. apply (HLB k y Hy').
        destruct (tb_hc _ I1 _ _ HO) as (_ & _ & r & R1 & R2 & _). eapply (tb_cu _ I1); eauto. congruence.
      - destruct (I7 k y cr Hy' Hc') as [D|[[D _]|(d & D & D')]]; auto; [congruence|]. right; right. exists d.
        rewrite (cobj_set o c0 c s _ I1 HO E2), (eqb_neq _ _ NE). split; auto. apply LB, D'. }
    2: { eapply ords_mono; eauto; destruct s; reflexivity. }
    intros k key c1 E. assert (O : ocnt (m_kind k (cn_cid c1)) (do_act (ASetConn o c) s) = ocnt (m_kind k (cn_cid c1)) s) by (destruct s; reflexivity).
    rewrite O, (cobj_set o c0 c s _ I1 HO E2). assert (E' : aget key (t_conns s) = Some c1) by (destruct s; exact E).
    specialize (I6 k key c1 E'). destruct (eqb_ok (cn_cid c1) (cn_cid c0)) as [Q|NE]; [|exact I6].
    rewrite Q, (cobj_obj o c0 s I1 HO) in I6. rewrite E4. exact I6.
  Qed.
  (** a change of states, with the row written at once *)
  Lemma inv_state_conn x t t' o c0 c s : inv urn x t log s -> aget o (h_conns s) = Some c0 -> cn_key c = cn_key c0 -> cn_cid c = cn_cid c0 -> cn_requester c = cn_requester c0 ->
    (forall k cid, (if eqb cid (cn_cid c0) then busy k (cn_states c) else 0) + tok t' k cid <= (if eqb cid (cn_cid c0) then busy k (cn_states c0) else 0) + tok t k cid)%nat ->
    (cn_r c = RChecking -> cn_r c0 = RChecking) -> (cn_l c0 = LTerminated -> cn_l c = LTerminated) -> cn_src c = cn_src c0 -> cn_dst c = cn_dst c0 ->
    inv urn x t' log (do_act (AWriteConn c) (do_act (ASetConn o c) s)) /\ keeps s (do_act (ASetConn o c) s) /\
    keeps (do_act (ASetConn o c) s) (do_act (AWriteConn c) (do_act (ASetConn o c) s)).
  Proof.
    intros I HO E1 E2 E3 HB HR HL E4 E5. destruct (set_conn_core x t t' o c0 c s I HO E1 E2 E3 HB HR HL) as [(B1 & B2 & B3 & B4 & B5) K].
    pose proof (fun cid => cobj_set o c0 c s cid (i_tab _ _ _ _ _ I) HO E2) as C. destruct I as [I1 I2 I3 I4 I5 I6 I7 I8].
    assert (RL : row_like c s). { destruct (tb_hc _ I1 _ _ HO) as (_ & _ & R). unfold row_like in *. rewrite E1, E2, E3. exact R. }
    assert (RW : forall key c1, key <> cn_key c -> aget key (t_conns s) = Some c1 -> cn_cid c1 <> cn_cid c0).
    { intros key c1 NE E Q. apply NE. destruct RL as (r & R1 & R2 & _). eapply (tb_cu _ I1); eauto. congruence. }
    assert (O : forall f, ocnt f (do_act (ASetConn o c) s) = ocnt f s) by (destruct s; reflexivity).
    assert (TC : t_conns (do_act (ASetConn o c) s) = t_conns s) by (destruct s; reflexivity).
    assert (TS : t_subs (do_act (ASetConn o c) s) = t_subs s) by (destruct s; reflexivity).
    assert (TR : resvs (do_act (ASetConn o c) s) = resvs s) by (destruct s; reflexivity).
    pose proof (cobj_obj o c0 s I1 HO) as CO.
    set (s1 := do_act (ASetConn o c) s) in *. clearbody s1.
    destruct (tab_write_conn c s1 B1) as [T K']; [unfold row_like; rewrite TC; exact RL|].
    assert (C' : forall cid, cobj cid (do_act (AWriteConn c) s1) = cobj cid s1) by (destruct s1; reflexivity).
    split; [|split; assumption]. constructor; auto.
    - eapply res_mono; eauto; try (destruct s1; reflexivity). intros cid c1 H. right. exists c1. rewrite C'. auto.
    - eapply counts_mono; eauto; [destruct s1; reflexivity|]. intros; rewrite C'; lia.
    - intros HW. specialize (B4 HW). eapply terms_mono; eauto; [destruct s1; reflexivity|]. intros; rewrite C'; eauto.
    - destruct s1; exact B5.
    - intros k key c1 E. assert (O' : ocnt (m_kind k (cn_cid c1)) (do_act (AWriteConn c) s1) = ocnt (m_kind k (cn_cid c1)) s1) by (destruct s1; reflexivity).
      rewrite O', O, C', C. assert (E' : aget key (aset (cn_key c) c (t_conns s)) = Some c1) by (rewrite <- TC; destruct s1; exact E).
      rewrite aget_aset in E'. destruct (eqb_ok key (cn_key c)) as [->|NE].
      + injection E' as <-. rewrite E2, eqb_refl. lia.
      + specialize (HB k (cn_cid c1)). pose proof (RW key c1 NE E') as N. rewrite (eqb_neq _ _ N) in *. specialize (I6 k key c1 E').
        destruct (cobj (cn_cid c1) s); [exact I6|lia].
    - eapply labs_mono; [exact I7|rewrite <- TS; destruct s1; reflexivity| |].
      + intros k c' E (k' & y & Y1 & Y2). destruct (tb_sk _ I1 _ _ Y1) as (_ & _ & c2 & Y3). rewrite Y2 in Y3. exists c2. split; auto.
        rewrite <- TC in Y3. destruct (K' _ _ Y3) as (c3 & Y4 & Y5 & _). congruence.
      + intros cid d. rewrite C', C. destruct (eqb_ok cid (cn_cid c0)) as [->|NE]; [|eauto]. intros Hd. assert (d = c0) by congruence. subst d.
        exists c. rewrite E4, E5. auto.
    - eapply ords_mono; eauto; [rewrite <- TS|rewrite <- TR]; destruct s1; reflexivity.
  Qed.
  Lemma inv_subs x t s s' : inv urn x t log s -> tab s' -> subl log s' -> labs x s' -> ords s' ->
    t_conns s' = t_conns s -> h_conns s' = h_conns s -> c_conns s' = c_conns s -> resvs s' = resvs s -> outs s' = outs s -> n_corr s' = n_corr s ->
    inv urn x t log s' /\ keeps s s'.
  Proof.
    intros [I1 I2 I3 I4 I5 I6 I7 I8] HT HS HLB HOR ET EH EC ER EO EN.
    assert (K : keeps s s') by (apply keeps_same; auto).
    assert (C : forall cid, cobj cid s' = cobj cid s) by (intros; unfold cobj; rewrite EH, EC; auto).
    split; [|exact K]. constructor; auto.
    - eapply res_mono; eauto; [lia|]. intros cid c H. right. exists c. rewrite C. auto.
    - eapply counts_mono; eauto. intros; rewrite C; lia.
    - intros HW. specialize (I4 HW). eapply terms_mono; eauto. intros; rewrite C; eauto.
    - eapply rows_mono; eauto.
  Qed.
  Lemma inv_insert_sub t y s c : inv urn None t log s -> sub_fresh y s -> aget (sb_conn y) (t_conns s) = Some c -> slog log y ->
    (forall k i, aget k (resvs s) = Some i -> ri_conn i = sb_conn y -> ri_order i = 0%nat -> sb_order y <> 0%nat) ->
    inv urn (Some (XLab (cn_cid c))) t log (do_act (AInsertSub y) s) /\ keeps s (do_act (AInsertSub y) s).
  Proof.
    intros I HF HC HS HO.
    assert (T : tab (do_act (AInsertSub y) s)) by (apply tab_insert_sub; eauto; apply I).
    assert (F : aget (n_key s) (t_subs s) = None) by (destruct (aget (n_key s) (t_subs s)) eqn:E; auto; apply (tb_sk _ (i_tab _ _ _ _ _ I)) in E; lia).
    assert (E : t_subs (do_act (AInsertSub y) s) = aset (n_key s) (sb_set_key (n_key s) y) (t_subs s)) by (destruct s; reflexivity).
    assert (CO : forall cid, cobj cid (do_act (AInsertSub y) s) = cobj cid s) by (destruct s; reflexivity).
    assert (TC : t_conns (do_act (AInsertSub y) s) = t_conns s) by (destruct s; reflexivity).
    apply inv_subs; auto; try (destruct s; reflexivity).
    - destruct I as [I1 I2 I3 I4 I5 I6 I7 I8]. constructor; auto; [apply res_lab; auto|].
      intros k z cr H1 H2. destruct (I7 k z cr H1 H2) as [D|[[D _]|D]]; auto. discriminate.
    - destruct (i_sub _ _ _ _ _ I) as [S1 S2]. destruct s; cbn in *. split; cbn; auto.
      intros k z. rewrite aget_aset. destruct (eqb k _); [intros Q; inversion Q; subst; exact HS|eauto].
    - intros k z cr Hz Hc. rewrite TC in Hc. pose proof (i_tab _ _ _ _ _ I) as T0. rewrite CO.
      assert (NW : newest (sb_set_key (n_key s) y) (do_act (AInsertSub y) s)).
      { apply newest_row; auto. intros k' y' Hy _. cbn. rewrite E, aget_aset in Hy. destruct (eqb_ok k' (n_key s)) as [->|NE]; [lia|].
        apply (tb_sk _ T0) in Hy. lia. }
      pose proof Hz as Hz0. rewrite E, aget_aset in Hz. destruct (eqb_ok k (n_key s)) as [->|NE].
      + injection Hz as <-. cbn in Hc. assert (cr = c) by congruence. subst cr. auto.
      + destruct (i_lab _ _ _ _ _ I k z cr Hz Hc) as [D|[[D _]|(d & D & L1 & L2)]]; auto; [discriminate|]. right; right. exists d. split; auto.
        split; auto. intros [F1 F2]. apply L2. destruct (tb_sk _ T0 _ _ Hz) as (KZ & KL & _).
        assert (NC : sb_conn z <> sb_conn y).
        { intros Q. rewrite (newest_row z _ T) in F1. specialize (F1 (n_key s) (sb_set_key (n_key s) y)). rewrite E, aget_aset_eq in F1.
          specialize (F1 eq_refl (eq_sym Q)). lia. }
        split.
        * apply newest_row; auto. intros k' y' Hy Q. rewrite (newest_row z _ T) in F1. apply (F1 k' y'); auto. rewrite E, aget_aset_ne; auto. intros ->. congruence.
        * unfold subs_of in *. rewrite E, len_aset_new in F2 by auto. cbn [sb_set_key sb_conn] in F2.
          rewrite (eqb_neq (sb_conn y) (sb_conn z)) in F2 by congruence. lia.
    - intros k i Hi H0. assert (Hi' : aget k (resvs s) = Some i) by (destruct s; exact Hi). destruct (i_ord _ _ _ _ _ I k i Hi' H0) as [O1 O2].
      split; [|destruct s; exact O2]. intros k' z. rewrite E, aget_aset. destruct (eqb_ok k' (n_key s)) as [->|NE]; [|apply O1].
      intros Q Q'. injection Q as <-. cbn in *. eapply HO; eauto.
  Qed.
  Lemma inv_write_sub x t y s : inv urn x t log s -> sub_like y s -> slog log y ->
    inv urn x t log (do_act (AWriteSub y) s) /\ keeps s (do_act (AWriteSub y) s).
  Proof.
    intros I HF HS. assert (T : tab (do_act (AWriteSub y) s)) by (apply tab_write_sub; auto; apply I).
    apply inv_subs; auto; try (destruct s; reflexivity).
    2: { apply (labs_write x y s); auto; try (destruct s; reflexivity); [exact (i_lab _ _ _ _ _ I)|apply I]. }
    2: { apply (ords_write y s); auto; try (destruct s; reflexivity). exact (i_ord _ _ _ _ _ I). }
    - destruct (i_sub _ _ _ _ _ I) as [S1 S2]. destruct s; cbn in *. split; cbn; auto.
      intros k z. rewrite aget_aset. destruct (eqb k (sb_key y)); [intros E; inversion E; subst; exact HS|eauto].
  Qed.
  Lemma inv_load_sub x t y s : inv urn x t log s -> sub_like y s -> slog log y ->
    inv urn x t log (do_act (ALoadSub y) s) /\ keeps s (do_act (ALoadSub y) s).
  Proof.
    intros I HF HS. apply inv_subs; auto; try (destruct s; reflexivity).
    3: { eapply labs_mono; [exact (i_lab _ _ _ _ _ I)|destruct s; reflexivity|destruct s; cbn; eauto|destruct s; cbn; eauto]. }
    3: { eapply ords_mono; [exact (i_ord _ _ _ _ _ I)| |]; destruct s; reflexivity. }
    - apply tab_load_sub; auto. apply I.
    - destruct (i_sub _ _ _ _ _ I) as [S1 S2]. destruct s; cbn in *. split; cbn; auto.
      intros k z. rewrite aget_aset. destruct (eqb k _); [intros E; inversion E; subst; exact HS|eauto].
  Qed.
  Lemma inv_set_sub x t o y0 y s : inv urn x t log s -> aget o (h_subs s) = Some y0 -> sb_key y = sb_key y0 -> sb_cid y = sb_cid y0 ->
    sb_provider y = sb_provider y0 -> sb_conn y = sb_conn y0 -> sb_order y = sb_order y0 -> sb_src y = sb_src y0 -> sb_dst y = sb_dst y0 -> slog log y ->
    inv urn x t log (do_act (ASetSub o y) s) /\ keeps s (do_act (ASetSub o y) s).
  Proof.
    intros I HF E1 E2 E3 E4 E5 E6 E7 HS. apply inv_subs; auto; try (destruct s; reflexivity).
    3: { eapply labs_mono; [exact (i_lab _ _ _ _ _ I)|destruct s; reflexivity|destruct s; cbn; eauto|destruct s; cbn; eauto]. }
    3: { eapply ords_mono; [exact (i_ord _ _ _ _ _ I)| |]; destruct s; reflexivity. }
    - eapply tab_set_sub; eauto. apply I.
    - destruct (i_sub _ _ _ _ _ I) as [S1 S2]. destruct s; cbn in *. split; cbn; auto.
      intros k z. rewrite aget_aset. destruct (eqb k o); [intros E; inversion E; subst; exact HS|eauto].
  Qed.
  (** correlation table *)
  Lemma inv_resv x t k i s c : inv urn x t log s -> aget k (resvs s) = None -> (k < n_corr s)%nat -> aget (ri_conn i) (t_conns s) = Some c ->
    ocnt (m_conf (cn_cid c)) s = 0%nat -> ~ dead (cn_cid c) ->
    (ri_order i = 0%nat -> (forall k' y, aget k' (t_subs s) = Some y -> sb_conn y <> ri_conn i) /\ (forall k' i', aget k' (resvs s) = Some i' -> ri_conn i' <> ri_conn i)) ->
    inv urn x t log (do_act (AResv k i) s) /\ keeps s (do_act (AResv k i) s).
  Proof.
    intros [I1 I2 I3 I4 I5 I6 I7 I8] HN HK HC H0 HD HF0.
    split; [|apply keeps_same; destruct s; reflexivity]. constructor.
    - eapply tab_same; [| |exact I1]; [destruct s; cbn; repeat split|]. destruct s; cbn -[akeys] in *. apply NoDup_akeys_aset. apply I1.
    - destruct I2 as [A1 A2 A3 A4 A5 A6 A7]. destruct s as [tc ts nk hc hs no cc cs rv qr qc nc nn rg vv os]; unfold no_entry, asked_entry, ocnt in *; cbn in *.
      constructor; unfold no_entry, asked_entry, ocnt; cbn; auto.
      + intros k' i'. rewrite aget_aset. destruct (eqb_ok k' k) as [->|NE]; [|eauto]. intros E; inversion E; subst. eauto.
      + intros cid H. destruct (A3 cid H) as (B1 & B2 & B3). split; auto. split; auto.
        intros k' i' c'. rewrite aget_aset. destruct (eqb_ok k' k) as [->|NE]; [|eauto]. intros E; inversion E; subst.
        intros E'. assert (c' = c) by congruence. subst c'. intros Q. rewrite <- Q in H. lia.
      + intros corr prov cid H. destruct (A5 corr prov cid H) as (B1 & B2). split; auto.
        destruct B2 as [B2|[(i' & c' & B2 & B3)|B2]]; auto. right; left. exists i', c'. rewrite aget_aset_ne; auto. congruence.
      + intros cid H. destruct (A7 cid H) as (B1 & B2). split; auto.
        intros k' i' c'. rewrite aget_aset. destruct (eqb_ok k' k) as [->|NE]; [|eauto]. intros E; inversion E; subst.
        intros E'. assert (c' = c) by congruence. subst c'. intros Q. apply HD. congruence.
    - destruct s; exact I3.
    - destruct s; exact I4.
    - destruct s; exact I5.
    - destruct s; exact I6.
    - destruct s; exact I7.
    - unfold ords in *. destruct s as [tc ts nk hc hs no cc cs rv qr qc nc nn rg vv os]; cbn in *. intros k' i' Hi' Z'.
      rewrite aget_aset in Hi'. destruct (eqb_ok k' k) as [->|NE].
      + injection Hi' as <-. destruct (HF0 Z') as [G1 G2]. split; [intros k1 y Hy Q; exfalso; eapply G1; eauto|].
        intros k1 i1 Hi1 Q1 Z1. rewrite aget_aset in Hi1. destruct (eqb_ok k1 k) as [->|NE]; auto. exfalso. eapply G2; eauto.
      + destruct (I8 _ _ Hi' Z') as [O1 O2]. split; auto. intros k1 i1 Hi1 Q1 Z1. rewrite aget_aset in Hi1. destruct (eqb_ok k1 k) as [->|NE1]; [|eauto].
        injection Hi1 as <-. destruct (HF0 Z1) as [G1 G2]. exfalso. eapply G2; eauto.
  Qed.
  Lemma inv_resv_pop t k i s c x : inv urn None t log s -> aget k (resvs s) = Some i -> aget (ri_conn i) (t_conns s) = Some c ->
    (confirmed_by log k (ri_provider i) \/ x = Some (XSeg k (cn_cid c))) ->
    inv urn x t log (do_act (AResvPop k) s) /\ keeps s (do_act (AResvPop k) s).
  Proof.
    intros [I1 I2 I3 I4 I5 I6 I7 I8] HN HC HX.
    split; [|apply keeps_same; destruct s; reflexivity]. constructor.
    - eapply tab_same; [| |exact I1]; [destruct s; cbn; repeat split|]. destruct s; cbn -[akeys] in *. apply NoDup_akeys_adel. apply I1.
    - destruct I2 as [A1 A2 A3 A4 A5 A6 A7]. pose proof (tb_nr _ I1) as ND.
      destruct s as [tc ts nk hc hs no cc cs rv qr qc nc nn rg vv os]; unfold no_entry, asked_entry, ocnt in *; cbn -[akeys] in *.
      assert (D : forall k' i', aget k' (adel k rv) = Some i' -> k' <> k /\ aget k' rv = Some i').
      { intros k' i' H. destruct (Nat.eq_dec k' k) as [->|NE]; [rewrite aget_adel_eq in H by auto; discriminate|]. rewrite aget_adel_ne in H; auto. }
      constructor; unfold no_entry, asked_entry, ocnt; cbn; auto.
      + intros k' i' H. apply D in H. destruct H. eauto.
      + intros cid H. destruct (A3 cid H) as (B1 & B2 & B3). split; auto. split; auto. intros k' i' c' E. apply D in E. destruct E. eauto.
      + intros corr prov cid H. destruct (A5 corr prov cid H) as (B1 & B2). split; auto.
        destruct B2 as [B2|[(i' & c' & B2 & B3 & B4 & B5)|B2]]; auto; [discriminate|].
        destruct (Nat.eq_dec corr k) as [->|NE].
        * assert (i' = i) by congruence. subst i'. assert (c' = c) by congruence. subst c'. destruct HX as [HX|HX].
          -- right; right; left. congruence.
          -- left. congruence.
        * right; left. exists i', c'. rewrite aget_adel_ne; auto.
      + intros cid H. destruct (A7 cid H) as (B1 & B2). split; auto. intros k' i' c' E. apply D in E. destruct E. eauto.
    - destruct s; exact I3.
    - destruct s; exact I4.
    - destruct s; exact I5.
    - destruct s; exact I6.
    - intros k' y cr. pose proof (I7 k' y cr) as B7. destruct s; cbn in *. intros H1 H2. destruct (B7 H1 H2) as [D|[[D _]|D]]; auto. discriminate.
    - pose proof (tb_nr _ I1) as ND. unfold ords in *. destruct s as [tc ts nk hc hs no cc cs rv qr qc nc nn rg vv os]; cbn -[akeys] in *.
      assert (D : forall k' i', aget k' (adel k rv) = Some i' -> k' <> k /\ aget k' rv = Some i').
      { intros k' i' H. destruct (Nat.eq_dec k' k) as [->|NE]; [rewrite aget_adel_eq in H by auto; discriminate|]. rewrite aget_adel_ne in H; auto. }
      intros k' i' Hi Z. apply D in Hi. destruct Hi as [_ Hi]. destruct (I8 _ _ Hi Z) as [O1 O2]. split; auto.
      intros k1 i1 H1. apply D in H1. destruct H1 as [_ H1]. eauto.
  Qed.
  (** the exempted segment's connection is past checking *)
  Lemma inv_unexempt t k cid s : inv urn (Some (XSeg k cid)) t log s -> past cid s -> inv urn None t log s.
  Proof.
    intros [I1 I2 I3 I4 I5 I6 I7 I8] HP. constructor; auto.
    2: { intros k' y cr H1 H2. destruct (I7 k' y cr H1 H2) as [D|[[D _]|D]]; auto. discriminate. }
    destruct I2 as [A1 A2 A3 A4 A5 A6 A7]. constructor; auto.
    intros corr prov cid' H. destruct (A5 corr prov cid' H) as (B1 & B2). split; auto.
    destruct B2 as [B2|B2]; auto. inversion B2; subst. auto.
  Qed.
  Lemma inv_drop x t s : inv urn x t log s -> inv urn x None log s.
  Proof. intros [I1 I2 I3 I4 I5 I6 I7 I8]. constructor; auto.
    - eapply counts_mono; eauto. intros. cbn. lia.
    - intros k key c E. specialize (I6 k key c E). destruct (cobj (cn_cid c) s); [exact I6|]. cbn [tok]. lia.
  Qed.

  (** messages *)
  Lemma ocnt_out f o s : ocnt f (do_act (AOut o) s) = (ocnt f s + (if says f o then 1 else 0))%nat.
  Proof. unfold ocnt. destruct s; cbn. apply cnt_snoc. Qed.
  Lemma seg_out o s corr prov cid : seg urn (outs (do_act (AOut o) s)) corr prov cid ->
    seg urn (outs s) corr prov cid \/ exists p hd gid a b x e bw t, o = ODown p hd (DReserve gid a b x e bw) /\ hd_corr hd = corr /\ hd_provider hd = prov /\ hd_trace hd = Some (t ++ [urn +++ ":" +++ cid]).
  Proof.
    intros (p & hd & gid & a & b & x & e & bw & t & H & H1 & H2 & H3). destruct s; cbn in *. rewrite in_app_iff in H.
    destruct H as [H|[H|[]]]; [left; repeat eexists; eauto|right; repeat eexists; eauto].
  Qed.
  Definition plain (o : output) : Prop :=
    match o with
    | ODown _ _ (DReserve _ _ _ _ _ _) => False
    | ODown _ _ _ => True
    | OUp _ (UReserveConfirmed _ _ _ _ _ _ _) | OUp _ (UReserveFailed _ _) | OUp _ (UCommitConfirmed _) | OUp _ (UAbortConfirmed _)
    | OUp _ (UProvisionConfirmed _) | OUp _ (UReleaseConfirmed _) | OUp _ (UTerminateConfirmed _) => False
    | _ => True
    end.
  Lemma tab_out o s : tab s -> tab (do_act (AOut o) s).
  Proof. intros T. eapply tab_same; [| |exact T]; [destruct s; cbn; repeat split|]. destruct s; apply T. Qed.
  Lemma keeps_out o s : keeps s (do_act (AOut o) s).
  Proof. apply keeps_same; destruct s; reflexivity. Qed.
  Lemma cobj_out o s cid : cobj cid (do_act (AOut o) s) = cobj cid s.
  Proof. destruct s; reflexivity. Qed.
  Lemma subl_out o s : subl log s -> subl log (do_act (AOut o) s).
  Proof. destruct s; auto. Qed.
  Lemma no_entry_out o s cid : no_entry cid (do_act (AOut o) s) <-> no_entry cid s.
  Proof. destruct s; reflexivity. Qed.
  Lemma past_out o s cid : past cid (do_act (AOut o) s) <-> past cid s.
  Proof. unfold past. rewrite cobj_out. reflexivity. Qed.
  Lemma asked_out o s corr prov cid : asked_entry corr prov cid (do_act (AOut o) s) <-> asked_entry corr prov cid s.
  Proof. destruct s; reflexivity. Qed.
  (** the general case of sending something that is no request for a segment *)
  Lemma inv_out x t t' o s :
    inv urn x t log s ->
    match o with ODown _ _ (DReserve _ _ _ _ _ _) => False | _ => True end ->
    (forall k cid, (if says (m_kind k cid) o then 1 else 0) + tok t' k cid <= tok t k cid)%nat ->
    (whole = true -> forall cid, says (m_term cid) o = true -> ocnt (m_term cid) s = 0%nat /\ exists c, cobj cid s = Some c /\ cn_l c = LTerminated) ->
    (forall cid, says (m_conf cid) o = true -> ocnt (m_conf cid) s = 0%nat /\ past cid s /\ ocnt (m_fail cid) s = 0%nat /\ no_entry cid s /\
       forall corr prov, seg urn (outs s) corr prov cid -> confirmed_by log corr prov) ->
    (forall cid, says (m_fail cid) o = true -> ocnt (m_conf cid) s = 0%nat /\ past cid s) ->
    (forall cid, says (m_conf cid) o = true -> says (m_fail cid) o = false) ->
    inv urn x t' log (do_act (AOut o) s) /\ keeps s (do_act (AOut o) s).
  Proof.
    intros [I1 I2 I3 I4 I5 I6 I7 I8] HD HK HT HC HF HX. split; [|apply keeps_out]. constructor.
    - apply tab_out; auto.
    - destruct I2 as [A1 A2 A3 A4 A5 A6 A7].
      assert (SG : forall corr prov cid, seg urn (outs (do_act (AOut o) s)) corr prov cid -> seg urn (outs s) corr prov cid).
      { intros corr prov cid H. apply seg_out in H. destruct H as [H|H]; auto. destruct H as (p' & h' & g' & a' & b' & x' & e' & w' & t0 & E & _). subst o. contradiction. }
      assert (SL : forall k i, aget k (resvs (do_act (AOut o) s)) = Some i -> aget k (resvs s) = Some i) by (destruct s; auto).
      constructor.
      + destruct s; exact A1.
      + intros cid. rewrite ocnt_out. destruct (says (m_conf cid) o) eqn:E; [apply HC in E; lia|]. specialize (A2 cid). lia.
      + intros cid. rewrite !ocnt_out, past_out, no_entry_out. destruct (says (m_conf cid) o) eqn:E.
        * intros _. rewrite (HX _ E). apply HC in E. destruct E as (B1 & B2 & B3 & B4 & B5). repeat split; auto; lia.
        * rewrite Nat.add_0_r. intros H. destruct (A3 cid H) as (B1 & B2 & B3). repeat split; auto.
          destruct (says (m_fail cid) o) eqn:E2; [apply HF in E2; lia|lia].
      + intros cid. rewrite ocnt_out, past_out. destruct (says (m_fail cid) o) eqn:E; [intros _; apply HF; auto|]. rewrite Nat.add_0_r. auto.
      + intros corr prov cid H. apply SG in H. rewrite asked_out, past_out. destruct (A5 corr prov cid H) as [B1 B2]. split; auto. destruct s; exact B1.
      + intros corr prov cid. rewrite ocnt_out. intros H Hs. apply SG in Hs. destruct (says (m_conf cid) o) eqn:E.
        * apply HC in E. apply E. exact Hs.
        * rewrite Nat.add_0_r in H. eapply A6; eauto.
      + destruct s; exact A7.
    - intros k cid. rewrite ocnt_out, cobj_out. specialize (I3 k cid). specialize (HK k cid). lia.
    - intros HW cid. specialize (HT HW). rewrite ocnt_out, cobj_out. destruct (I4 HW cid) as [J1 J2]. destruct (says (m_term cid) o) eqn:E.
      + apply HT in E. destruct E as (E1 & E2). split; [lia|auto].
      + rewrite Nat.add_0_r. auto.
    - apply subl_out; auto.
    - intros k key c E. rewrite ocnt_out, cobj_out. assert (E' : aget key (t_conns s) = Some c) by (destruct s; exact E).
      specialize (I6 k key c E'). specialize (HK k (cn_cid c)). destruct (cobj (cn_cid c) s); [exact I6|lia].
    - destruct s; exact I7.
    - destruct s; exact I8.
  Qed.
  Lemma inv_out_plain x t o s : inv urn x t log s -> plain o -> inv urn x t log (do_act (AOut o) s) /\ keeps s (do_act (AOut o) s).
  Proof.
    intros I HP. apply inv_out with t; auto; try (intros cid; destruct o as [p h []|r []|c|c]; cbn in *; discriminate || contradiction).
    - destruct o as [p h []|r []|c|c]; cbn in *; auto.
    - intros k cid. destruct o as [p h []|r []|c|c]; cbn in *; try contradiction; destruct k; cbn; lia.
  Qed.
  Lemma inv_out_kind x k cid r b s : inv urn x (Some (k, cid)) log s ->
    match k, b with KProv, UProvisionConfirmed c | KRel, UReleaseConfirmed c | K2pc, UCommitConfirmed c | K2pc, UAbortConfirmed c => c = cid | _, _ => False end ->
    inv urn x None log (do_act (AOut (OUp r b)) s) /\ keeps s (do_act (AOut (OUp r b)) s).
  Proof.
    intros I HP. apply inv_out with (Some (k, cid)); auto; try (intros c0; destruct k, b; cbn in *; discriminate || contradiction).
    intros k' c0. destruct k, b; cbn in HP; try contradiction; subst; destruct k'; cbn; try lia;
      (match goal with |- context[eqb ?a ?b] => destruct (eqb_ok a b) as [->|NE] end); try rewrite eqb_refl; cbn; try lia;
      rewrite (eqb_neq c0 cid) by congruence; cbn; lia.
  Qed.
  Lemma inv_out_term x t cid r s : inv urn x t log s -> (whole = true -> ocnt (m_term cid) s = 0%nat) -> (exists c, cobj cid s = Some c /\ cn_l c = LTerminated) ->
    inv urn x t log (do_act (AOut (OUp r (UTerminateConfirmed cid))) s) /\ keeps s (do_act (AOut (OUp r (UTerminateConfirmed cid))) s).
  Proof.
    intros I H1 H2. apply inv_out with t; cbn; auto; try (intros; discriminate).
    - intros k c0. destruct k; cbn; lia.
    - intros HW c0 E. apply (proj1 (eqb_true cid c0)) in E. subst. auto.
  Qed.
  Lemma inv_out_fail x t cid r e s : inv urn x t log s -> ocnt (m_conf cid) s = 0%nat -> past cid s ->
    inv urn x t log (do_act (AOut (OUp r (UReserveFailed cid e))) s) /\ keeps s (do_act (AOut (OUp r (UReserveFailed cid e))) s).
  Proof.
    intros I H1 H2. apply inv_out with t; cbn; auto; try (intros; discriminate).
    - intros k c0. destruct k; cbn; lia.
    - intros c0 E. apply (proj1 (eqb_true cid c0)) in E. subst. auto.
  Qed.
  Lemma inv_out_conf x t cid r gid a b u v bw s : inv urn x t log s -> ocnt (m_conf cid) s = 0%nat -> past cid s -> ocnt (m_fail cid) s = 0%nat -> no_entry cid s ->
    (forall corr prov, seg urn (outs s) corr prov cid -> confirmed_by log corr prov) ->
    inv urn x t log (do_act (AOut (OUp r (UReserveConfirmed cid gid a b u v bw))) s) /\ keeps s (do_act (AOut (OUp r (UReserveConfirmed cid gid a b u v bw))) s).
  Proof.
    intros I H1 H2 H3 H4 H5. apply inv_out with t; cbn; auto; try (intros; discriminate).
    - intros k c0. destruct k; cbn; lia.
    - intros c0 E. apply (proj1 (eqb_true cid c0)) in E. subst. auto.
  Qed.
  Lemma inv_out_reserve t p h gid a b u v bw tr cid s : inv urn None t log s -> (hd_corr h < n_corr s)%nat ->
    hd_trace h = Some (tr ++ [urn +++ ":" +++ cid]) -> asked_entry (hd_corr h) (hd_provider h) cid s -> ocnt (m_conf cid) s = 0%nat ->
    inv urn None t log (do_act (AOut (ODown p h (DReserve gid a b u v bw))) s) /\ keeps s (do_act (AOut (ODown p h (DReserve gid a b u v bw))) s).
  Proof.
    intros [I1 I2 I3 I4 I5 I6 I7 I8] H1 H2 H3 H4. split; [|apply keeps_out].
    assert (ID : forall cid' t', hd_trace h = Some (t' ++ [urn +++ ":" +++ cid']) -> cid' = cid).
    { intros cid' t' E. rewrite H2 in E. injection E as E. apply app_inj_tail in E. destruct E as [_ E]. apply append_inj_r in E. injection E as E. auto. }
    constructor.
    - apply tab_out; auto.
    - destruct I2 as [A1 A2 A3 A4 A5 A6 A7]. constructor; auto.
      + destruct s; exact A1.
      + intros c0. rewrite ocnt_out. cbn. rewrite Nat.add_0_r. auto.
      + intros c0. rewrite !ocnt_out, past_out, no_entry_out. cbn. rewrite !Nat.add_0_r. auto.
      + intros c0. rewrite ocnt_out, past_out. cbn. rewrite Nat.add_0_r. auto.
      + intros corr prov c0 H. apply seg_out in H. rewrite asked_out, past_out. destruct H as [H|H].
        * destruct (A5 _ _ _ H) as [B1 B2]. split; auto. destruct s; exact B1.
        * destruct H as (p' & h' & g' & a' & b' & x' & e' & w' & t' & E & E1 & E2 & E3). inversion E; subst.
          apply ID in E3. subst. split; [destruct s; exact H1|auto].
      + intros corr prov c0. rewrite ocnt_out. cbn. rewrite Nat.add_0_r. intros HC H. apply seg_out in H. destruct H as [H|H]; [eauto|].
        destruct H as (p' & h' & g' & a' & b' & x' & e' & w' & t' & E & E1 & E2 & E3). inversion E; subst. apply ID in E3. subst. lia.
      + destruct s; exact A7.
    - intros k c0. rewrite ocnt_out, cobj_out. cbn [says]. specialize (I3 k c0). lia.
    - intros HW c0. rewrite ocnt_out, cobj_out. cbn. rewrite Nat.add_0_r. apply I4; auto.
    - apply subl_out; auto.
    - intros k key c E. rewrite ocnt_out, cobj_out. assert (E' : aget key (t_conns s) = Some c) by (destruct s; exact E).
      specialize (I6 k key c E'). cbn [says]. destruct (cobj (cn_cid c) s); [exact I6|lia].
    - destruct s; exact I7.
    - destruct s; exact I8.
  Qed.
End Act.

(** a call arrives *)
Lemma slog_later log log' x : incl log log' -> slog log x -> slog log' x.
Proof.
  intros H (H1 & H2 & h0 & H3 & H4). split; [|split; [|exists h0; auto]]; intros E; [destruct (H1 E) as (h & Hh)|destruct (H2 E) as (h & Hh)]; exists h; auto.
Qed.
Lemma confirmed_later log log' k p : incl log log' -> confirmed_by log k p -> confirmed_by log' k p.
Proof. intros H (h & c & a & b & H1 & H2). exists h, c, a, b. auto. Qed.
Definition call_token (c : call) : token :=
  match c with
  | CProvision _ i => Some (KProv, i) | CRelease _ i => Some (KRel, i) | CCommit _ i | CAbort _ i => Some (K2pc, i)
  | _ => None
  end.
Lemma inv_call urn c log s : inv urn None None log s -> inv urn None (call_token c) (log ++ [c]) s.
Proof.
  intros [I1 I2 I3 I4 I5 I6 I7 I8]. assert (L : incl log (log ++ [c])) by (intros y; rewrite in_app_iff; auto).
  assert (TK : forall k cid, (tok (call_token c) k cid <= if q_kind k cid c then 1 else 0)%nat).
  { intros k cid. destruct c; cbn; try lia; destruct k; cbn; try lia; match goal with |- context[eqb cid ?b] => destruct (eqb_ok cid b) as [->|NE]; [rewrite eqb_refl|] end; cbn; lia. }
  constructor; auto.
  - destruct I2 as [A1 A2 A3 A4 A5 A6 A7]. constructor; auto.
    + intros corr prov cid H. destruct (A5 _ _ _ H) as [B1 B2]. split; auto. intuition eauto using confirmed_later.
    + intros. eapply confirmed_later; eauto.
  - intros k cid. rewrite cnt_snoc. specialize (I3 k cid). cbn [tok] in I3. specialize (TK k cid). lia.
  - destruct I5 as [S1 S2]. split; intros; eapply slog_later; eauto.
  - intros k key c1 E. specialize (I6 k key c1 E). specialize (TK k (cn_cid c1)). cbn [tok] in I6.
    destruct (cobj (cn_cid c1) s); [exact I6|rewrite cnt_snoc; lia].
Qed.
End Inv.
