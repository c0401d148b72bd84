(** The remaining methods, and whole runs. *)
From Verif Require Import Base BaseProofs ModelLabel ModelSTP ModelAuthz ModelNRM ModelState ModelLinkVector ModelProvreg ModelAggregator SpecAggInv ProofsAggInv ProofsAggTab ProofsAggAct ProofsAggHelp ProofsAggRun.

Section Run2.
  Context {GH : ghost} (g : cfg).
  Notation IM := (inv (a_urn g) None None).
  Notation W := (wp IM keeps okact).
  Notation fin := (fun _ : string => IM).

  Lemma w_save_val x t c s log (Q : unit -> list call -> st -> Prop) (E : list call -> st -> Prop) :
    inv (a_urn g) x t log s -> row_like c s -> (cn_r c = RStart \/ cn_r c = RChecking) -> cn_p c = PReleased ->
    (forall s', inv (a_urn g) x t log s' -> keeps s s' -> c_conns s' = c_conns s -> aget (cn_key c) (t_conns s') = Some c ->
       t_subs s' = t_subs s -> resvs s' = resvs s -> Q tt log s') -> W (save_conn_val c) Q E log s.
  Proof.
    intros I HR H1 H2 HQ. unfold save_conn_val, await. cbn [wp bind act1].
    destruct (inv_write_conn _ log x t c s I HR) as [I' K]; [intros k; rewrite (idle_busy c k H1 H2); lia|].
    split; [split; exact Logic.I|]. split; [exact K|]. apply HQ; auto; destruct s; auto. cbn. apply aget_aset_eq.
  Qed.
  Lemma w_own_state x t op c s log (Q : conn -> list call -> st -> Prop) (E : list call -> st -> Prop) :
    inv (a_urn g) x t log s -> row_like c s ->
    (forall y, op_mem op (cn_states c) = (y, None) -> (st_r y = RStart \/ st_r y = RChecking) /\ st_p y = PReleased) ->
    (forall y s', op_mem op (cn_states c) = (y, None) -> inv (a_urn g) x t log s' -> keeps s s' -> c_conns s' = c_conns s -> aget (cn_key c) (t_conns s') = Some (cn_set_states y c) ->
       t_subs s' = t_subs s -> resvs s' = resvs s -> Q (cn_set_states y c) log s') -> E log s -> W (own_state op c) Q E log s.
  Proof.
    intros I HR HY HQ HE. unfold own_state. destruct (op_mem op (cn_states c)) as [y [e|]] eqn:EO; [exact HE|].
    destruct (HY y eq_refl) as [Y1 Y2]. apply wp_bind. apply (w_save_val x t); auto. intros s' I' K HC HT HS HV. cbn [wp]. apply HQ; auto.
  Qed.

  Definition untouched (key : nat) (s : st) : Prop :=
    (forall k y, aget k (t_subs s) = Some y -> sb_conn y <> key) /\ (forall k i, aget k (resvs s) = Some i -> ri_conn i <> key).
  Lemma w_reserve_link h c ci s log (Q : string * string -> list call -> st -> Prop) :
    ~ dead (cn_cid c) -> (fst ci = 0%nat -> untouched (cn_key c) s) -> inv (a_urn g) None None log s -> row_like c s -> aget (cn_cid c) (c_conns s) = None ->
    (forall u s', inv (a_urn g) None None log s' -> row_like c s' -> aget (cn_cid c) (c_conns s') = None -> Q u log s') ->
    W (reserve_link g h c ci) Q IM log s.
  Proof.
    intros HD HU I HR HN HQ. destruct ci as [idx [src dst]]. cbn [fst] in HU. unfold reserve_link. unfold get at 1. cbn [wp bind].
    apply wp_bind, w_lift; [|exact I]. intros p _. apply wp_bind, w_lift; [|exact I]. intros u _.
    apply wp_bind. eapply w_new_corr; [exact I|]. intros s1 E1 I1 K1.
    pose proof (row_like_keeps _ _ _ K1 HR) as HR1.
    assert (HN1 : aget (cn_cid c) (c_conns s1) = None) by (subst s1; destruct s; exact HN).
    assert (N1 : n_corr s1 = S (n_corr s)) by (subst s1; destruct s; reflexivity).
    assert (RV1 : resvs s1 = resvs s) by (subst s1; destruct s; reflexivity).
    assert (Z : forall s2, inv (a_urn g) None None log s2 -> aget (cn_cid c) (c_conns s2) = None -> ocnt (m_conf (cn_cid c)) s2 = 0%nat).
    { intros s2 I2 HN2. destruct (ocnt (m_conf (cn_cid c)) s2) eqn:EC; auto.
      destruct (rs_conf _ _ _ _ (i_res _ _ _ _ _ I2) (cn_cid c)) as ([|(c' & P1 & _)] & _); [lia|contradiction|]. unfold cobj in P1. rewrite HN2 in P1. discriminate. }
    destruct HR1 as (c' & R1 & R2 & R3).
    destruct (inv_resv _ log None None (n_corr s) (mkRInfo u (cn_key c) idx) s1 c' I1) as [I2 K2].
    { destruct (aget (n_corr s) (resvs s1)) eqn:EA; auto. rewrite RV1 in EA. apply (rs_ok _ _ _ _ (i_res _ _ _ _ _ I)) in EA. lia. }
    { lia. } { exact R1. } { rewrite R2. apply Z; auto. } { rewrite R2. exact HD. }
    { cbn. intros Z0. destruct (HU Z0) as [U1 U2]. rewrite RV1. split; [|exact U2]. subst s1. destruct s; exact U1. }
    apply wp_bind. apply w_act; [split; exact Logic.I|exact K2|].
    set (s2 := do_act (AResv _ _) s1) in *.
    assert (HN2 : aget (cn_cid c) (c_conns s2) = None) by (unfold s2; destruct s1; exact HN1).
    assert (T2 : t_conns s2 = t_conns s1) by (unfold s2; destruct s1; reflexivity).
    apply wp_bind. set (hh := mkHeader _ _ _ _ _). set (bb := DReserve _ _ _ _ _ _).
    destruct (inv_out_reserve _ log None p hh (cn_gid c) src dst (cn_start c) (cn_end c) (cn_bw c) (match hd_trace h with Some t => t | None => [] end) (cn_cid c) s2 I2) as [I3 K3].
    { cbn. unfold s2. destruct s1; cbn in *. lia. }
    { reflexivity. }
    { exists (mkRInfo u (cn_key c) idx), c'. repeat split; auto; [unfold s2; destruct s1; cbn; apply aget_aset_eq|cbn; rewrite T2; auto]. }
    { apply Z; auto. }
    apply w_act; [split; exact Logic.I|exact K3|]. cbn [wp]. apply HQ; auto.
    - eapply row_like_keeps; [exact K3|]. eapply row_like_keeps; [exact K2|]. exists c'. auto.
    - destruct s2; exact HN2.
  Qed.

  Lemma w_cleanup h u l s log (Q : unit -> list call -> st -> Prop) : IM log s -> (forall s', IM log s' -> keeps s s' -> Q tt log s') ->
    W (iterP (cleanup_one g h u) l) Q IM log s.
  Proof.
    intros I HQ. apply (w_iterP (a_urn g) (fun s' => IM log s' /\ keeps s s')); [|split; auto using keeps_refl|intros s' [H1 H2]; auto].
    intros sn s1 Q1 _ [I1 K1] HQ1. unfold cleanup_one. unfold get. cbn [wp bind]. apply wp_bind, w_lift; [|exact I1]. intros p _.
    apply wp_bind. eapply w_new_corr; [exact I1|]. intros s2 _ I2 K2. eapply w_out_plain; [exact I2|exact Logic.I|split; exact Logic.I|].
    intros s3 _ I3 K3. apply HQ1. split; auto. eapply keeps_trans; [exact K1|]. eapply keeps_trans; eauto.
  Qed.
  Definition checking (c : conn) : Prop := (cn_r c = RStart \/ cn_r c = RChecking) /\ cn_p c = PReleased.
  Lemma w_reserve_acks h c info s log : IM log s -> row_like c s -> checking c -> W (reserve_acks g h c info) fin IM log s.
  Proof.
    intros I HR [C1 C2]. unfold reserve_acks. apply wp_bind. cbn [wp await_acks]. split; [exact I|]. intros log1 s1 a K1 I1 Ha.
    destruct a; try discriminate. cbn [wp bind]. destruct (all_acked l); [exact I1|].
    assert (L : forall op y c, op = OpTerminating \/ op = OpTerminated -> op_mem op (cn_states c) = (y, None) -> st_r y = cn_r c /\ st_p y = cn_p c).
    { intros op y [? ? ? ? [r p l'] ? ? ? ? ?] [->| ->] EO; unfold cn_r, cn_p; cbn [cn_states] in *; destruct l'; vm_compute in EO; try discriminate; injection EO as <-; auto. }
    apply wp_bind. apply (w_own_state None None); auto.
    { eapply row_like_keeps; eauto. }
    { intros y EO. destruct (L OpTerminating y c) as [L1 L2]; auto. rewrite L1, L2. auto. }
    intros y s2 EO I2 K2 _ T2 _ _. destruct (L OpTerminating y c) as [L1 L2]; auto. apply wp_bind. apply w_cleanup; auto. intros s3 I3 K3.
    apply wp_bind. cbn [wp await_acks]. split; [exact I3|]. intros log4 s4 a4 K4 I4 Ha4. destruct a4; try discriminate. cbn [wp].
    apply wp_bind. apply (w_own_state None None); auto.
    { eapply row_like_keeps; [exact K4|]. eapply row_like_keeps; [exact K3|]. exists (cn_set_states y c). auto. }
    { intros y' EO'. destruct (L OpTerminated y' (cn_set_states y c)) as [L3 L4]; auto. rewrite L3, L4. unfold cn_r, cn_p. cbn. rewrite L1, L2. auto. }
  Qed.
  Lemma number_ge {A} (l : list A) : forall n ci, In ci (number n l) -> (n <= fst ci)%nat.
  Proof. induction l as [|a l IH]; intros n ci []; [subst; cbn; lia|]. apply IH in H. lia. Qed.
  Lemma w_reserve h q s log : IM log s -> W (reserve g h q) fin IM log s.
  Proof.
    intros I. unfold reserve. destruct (q_cid q) as [cid|].
    - unfold await, get. cbn [wp bind]. destruct (find_conn cid s); exact I.
    - apply wp_bind. unfold await at 1. cbn [wp]. split; [exact I|]. intros log1 s1 a _ I1 Ha. destruct a; try discriminate; [|exact I1].
      cbn [wp]. unfold get at 1. cbn [wp bind]. apply wp_bind, w_lift; [|exact I1]. intros _ _. apply wp_bind, w_lift; [|exact I1]. intros _ _.
      apply wp_bind. unfold await_id. cbn [wp]. split; [exact I1|]. intros log2 s2 a _ I2 Ha2. destruct a; try discriminate; [exact I2|]. cbn [wp].
      set (c0 := mkConn _ _ _ _ _ _ _ _ _ _).
      apply wp_bind. unfold insert_conn, await, get. cbn [wp bind].
      destruct (find_conn (cn_cid c0) s2) as [cx|] eqn:EF; [exact I2|]. cbn [orb].
      destruct (negb (span_ok (cn_start c0) (cn_end c0))); [exact I2|]. cbn [wp bind act1].
      destruct (inv_insert_conn _ log2 None None c0 s2 I2) as [I3 K3]; [intros k c' H; eapply find_conn_none; eauto|left; reflexivity|reflexivity|].
      split; [split; exact Logic.I|]. split; [exact K3|].
      assert (N2 : aget (cn_cid c0) (c_conns s2) = None).
      { destruct (aget (cn_cid c0) (c_conns s2)) as [o|] eqn:EC; auto. destruct (tb_cc _ (i_tab _ _ _ _ _ I2) _ _ EC) as (c1 & D1 & D2).
        destruct (tb_hc _ (i_tab _ _ _ _ _ I2) _ _ D1) as (_ & _ & c2 & D3 & D4 & _). exfalso. eapply find_conn_none; eauto. congruence. }
      assert (D2 : ~ dead (cn_cid c0)).
      { intros HD. destruct (rs_dead _ _ _ _ (i_res _ _ _ _ _ I2) _ HD) as (_ & k & c' & B1 & B2). eapply find_conn_none; eauto. }
      set (c1 := cn_set_key (n_key s2) c0).
      set (s3 := do_act (AInsertConn c0) s2) in *.
      assert (R3 : row_like c1 s3). { exists c1. repeat split; auto. unfold s3, c1. destruct s2; cbn. apply aget_aset_eq. }
      assert (N3 : aget (cn_cid c1) (c_conns s3) = None) by (unfold s3; destruct s2; exact N2).
      assert (D3 : ~ dead (cn_cid c1)) by exact D2.
      assert (U3 : untouched (cn_key c1) s3).
      { change (cn_key c1) with (n_key s2). split.
        - intros k y Hy Q. assert (Hy' : aget k (t_subs s2) = Some y) by (unfold s3 in Hy; destruct s2; exact Hy).
          destruct (tb_sk _ (i_tab _ _ _ _ _ I2) _ _ Hy') as (_ & _ & c' & Hc). apply (tb_ck _ (i_tab _ _ _ _ _ I2)) in Hc. lia.
        - intros k i Hi Q. assert (Hi' : aget k (resvs s2) = Some i) by (unfold s3 in Hi; destruct s2; exact Hi).
          destruct (rs_ok _ _ _ _ (i_res _ _ _ _ _ I2) _ _ Hi') as (_ & c' & Hc). apply (tb_ck _ (i_tab _ _ _ _ _ I2)) in Hc. lia. }
      clearbody s3. assert (S1 : cn_states c1 = mkStates RStart PReleased LCreated) by reflexivity. clearbody c1.
      apply wp_bind. apply (w_own_state None None); auto.
      { rewrite S1. intros y EO. vm_compute in EO. injection EO as <-. auto. }
      intros y s4 EO I4 K4 C4 T4 TS4 TV4. rewrite S1 in EO. vm_compute in EO. injection EO as <-.
      set (c2 := cn_set_states _ c1) in *.
      assert (R4 : row_like c2 s4) by (exists c2; auto).
      assert (N4 : aget (cn_cid c2) (c_conns s4) = None) by (rewrite C4; exact N3).
      assert (D4 : ~ dead (cn_cid c2)) by exact D3.
      assert (U4 : untouched (cn_key c2) s4) by (unfold untouched; rewrite TS4, TV4; exact U3).
      assert (CK : checking c2) by (split; [right|]; reflexivity).
      clearbody c2. apply wp_bind, w_lift; [|exact I4]. intros links _. apply wp_bind, w_lift; [|exact I4]. intros _ _.
      apply wp_bind. destruct links as [|l links]; [cbn [number mapP wp]; apply w_reserve_acks; auto|]. cbn [number mapP]. apply wp_bind, w_reserve_link; auto.
      intros u s5 I5 R5 N5. apply wp_bind. apply (w_mapP (a_urn g) (fun s => IM log2 s /\ row_like c2 s /\ aget (cn_cid c2) (c_conns s) = None)); auto.
      + intros ci s6 Q Hci (I6 & R6 & N6) HQ. apply w_reserve_link; auto. intros Z0. exfalso. apply number_ge in Hci. lia.
      + intros info s6 (I6 & R6 & N6) _. cbn [wp]. apply w_reserve_acks; auto.
  Qed.

  Lemma known_ok h s i : known_reservation h s = Ok i -> aget (hd_corr h) (resvs s) = Some i /\ hd_provider h = ri_provider i.
  Proof.
    unfold known_reservation. destruct (aget (hd_corr h) (resvs s)) as [j|]; [|discriminate].
    destruct (eqb_ok (hd_provider h) (ri_provider j)) as [E|NE]; [|discriminate]. intros H. injection H as <-. auto.
  Qed.
  Lemma not_past_zero o c s log : ~ dead (cn_cid c) -> IM log s -> aget o (h_conns s) = Some c -> cn_r c = RChecking ->
    ocnt (m_conf (cn_cid c)) s = 0%nat /\ ocnt (m_fail (cn_cid c)) s = 0%nat /\ ~ past (cn_cid c) s.
  Proof.
    intros HD I Ho HR.
    assert (NP : ~ past (cn_cid c) s).
    { intros [P0|(c' & P1 & P2)]; [auto|]. pose proof (cobj_obj _ _ _ (i_tab _ _ _ _ _ I) Ho). assert (c' = c) by congruence. subst. auto. }
    split; [|split; auto].
    - destruct (ocnt (m_conf (cn_cid c)) s) eqn:EC; auto. exfalso. apply NP. apply (rs_conf _ _ _ _ (i_res _ _ _ _ _ I)). lia.
    - destruct (ocnt (m_fail (cn_cid c)) s) eqn:EC; auto. exfalso. apply NP. apply (rs_fail _ _ _ _ (i_res _ _ _ _ _ I)). lia.
  Qed.
  Lemma w_reserve_failed h e s log : IM log s -> W (reserve_failed g h e) fin IM log s.
  Proof.
    intros I. unfold reserve_failed. unfold get at 1. cbn [wp bind]. apply wp_bind, w_lift; [|exact I]. intros i HK.
    apply known_ok in HK. destruct HK as [HK HP]. destruct (rs_ok _ _ _ _ (i_res _ _ _ _ _ I) _ _ HK) as (_ & c0 & R0).
    assert (Z0 : ocnt (m_conf (cn_cid c0)) s = 0%nat).
    { destruct (ocnt (m_conf (cn_cid c0)) s) eqn:EC; auto. destruct (rs_conf _ _ _ _ (i_res _ _ _ _ _ I) (cn_cid c0)) as (_ & _ & NE); [lia|].
      exfalso. eapply NE; eauto. }
    destruct (inv_resv_pop _ log None (hd_corr h) i s c0 (Some (XSeg (hd_corr h) (cn_cid c0))) I HK R0 (or_intror eq_refl)) as [I1 K1].
    apply wp_bind. apply w_act; [split; exact Logic.I|exact K1|]. set (s1 := do_act (AResvPop _) s) in *.
    assert (R1 : aget (ri_conn i) (t_conns s1) = Some c0) by (unfold s1; destruct s; exact R0).
    assert (Z1 : ocnt (m_conf (cn_cid c0)) s1 = 0%nat) by (unfold s1; destruct s; exact Z0). clearbody s1.
    apply wp_bind. eapply w_get_by_key; [exact I1|exact R1|]. intros o c s2 I2 HX2 _ Ho Hc Hk.
    apply wp_bind, (w_conn_obj _ _ _ _ _ _ Ho).
    assert (Z2 : ocnt (m_conf (cn_cid c)) s2 = 0%nat) by (unfold ocnt in *; destruct (ex_out _ _ HX2) as (-> & _); rewrite Hc; exact Z1).
    assert (END : forall s3 c3, inv (a_urn g) (Some (XSeg (hd_corr h) (cn_cid c0))) None log s3 -> aget o (h_conns s3) = Some c3 -> cn_cid c3 = cn_cid c -> cn_r c3 <> RChecking ->
      ocnt (m_conf (cn_cid c)) s3 = 0%nat -> W (c <- conn_obj o ;; up (cn_requester c) (UReserveFailed (cn_cid c) e) ;;; Ret "") fin IM log s3).
    { intros s3 c3 I3 Ho3 Hc3 NR Z3. apply wp_bind, (w_conn_obj _ _ _ _ _ _ Ho3).
      assert (P3 : past (cn_cid c3) s3) by (right; exists c3; split; auto; apply (cobj_obj o); auto; apply I3).
      assert (I3' : IM log s3) by (eapply inv_unexempt; [exact I3|rewrite <- Hc, <- Hc3; exact P3]).
      destruct (inv_out_fail _ log None None (cn_cid c3) (cn_requester c3) e s3 I3') as [I4 K4]; [rewrite Hc3; auto|auto|].
      apply wp_bind. unfold up, out. apply w_act; [|exact K4|exact I4]. split; [exact Logic.I|]. cbn. intros cid E. injection E as <-.
      destruct (tb_hc _ (i_tab _ _ _ _ _ I3) _ _ Ho3) as (_ & _ & r' & Q1 & Q2 & Q3). exists (cn_key c3), r'. auto. }
    apply wp_bind. destruct (eqb_ok (cn_r c) RFailed) as [ER|NR].
    - cbn [wp]. apply (END s2 c); auto. congruence.
    - eapply (w_op g _ None None); [apply fits_failed|exact I2|exact Ho| |].
      + intros y s3 EO I3 (K3 & _ & (O3 & _)) Ho3. apply (END s3 (cn_set_states y c)); auto.
        * unfold cn_r. cbn. destruct (cn_states c) as [r p l]; destruct r; vm_compute in EO; try discriminate; injection EO as <-; discriminate.
        * unfold ocnt in *. rewrite O3. exact Z2.
      + intros ex EO. eapply inv_unexempt; [exact I2|]. right. exists c. split; [rewrite <- Hc; apply (cobj_obj o); auto; apply I2|].
        intros EC. unfold cn_r in EC. destruct (cn_states c) as [r p l]. cbn in EC. subst r. vm_compute in EO. discriminate.
  Qed.
  Lemma w_reserve_confirmed h cid src dst s log : In (CReserveConfirmed h cid src dst) log -> IM log s -> W (reserve_confirmed g h cid src dst) fin IM log s.
  Proof.
    intros HL I. unfold reserve_confirmed. unfold get at 1. cbn [wp bind]. apply wp_bind, w_lift; [|exact I]. intros i HK.
    apply known_ok in HK. destruct HK as [HK HP]. destruct (rs_ok _ _ _ _ (i_res _ _ _ _ _ I) _ _ HK) as (_ & c0 & R0).
    assert (ND : ~ dead (cn_cid c0)) by (intros HD; destruct (rs_dead _ _ _ _ (i_res _ _ _ _ _ I) _ HD) as [NE _]; exact (NE _ _ _ HK R0 eq_refl)).
    assert (CB : confirmed_by log (hd_corr h) (ri_provider i)) by (exists h, cid, src, dst; auto).
    destruct (inv_resv_pop _ log None (hd_corr h) i s c0 None I HK R0 (or_introl CB)) as [I1 K1].
    assert (EP : forall k j, aget k (resvs (do_act (AResvPop (hd_corr h)) s)) = Some j -> k <> hd_corr h /\ aget k (resvs s) = Some j).
    { pose proof (tb_nr _ (i_tab _ _ _ _ _ I)) as ND0. intros k j. destruct s; cbn -[akeys] in *. destruct (Nat.eq_dec k (hd_corr h)) as [->|NE]; [rewrite aget_adel_eq by auto; discriminate|].
      rewrite aget_adel_ne; auto. }
    pose proof (i_ord _ _ _ _ _ I _ _ HK) as OR.
    apply wp_bind. apply w_act; [split; exact Logic.I|exact K1|]. set (s1 := do_act (AResvPop _) s) in *.
    assert (R1 : aget (ri_conn i) (t_conns s1) = Some c0) by (unfold s1; destruct s; exact R0).
    assert (TS1 : t_subs s1 = t_subs s) by (unfold s1; destruct s; reflexivity). clearbody s1.
    apply wp_bind. unfold insert_sub, await. unfold get at 1. cbn [wp bind]. set (x := mkSub _ _ _ _ _ _ _ _ _ _ _).
    destruct (find_sub (sb_provider x) (sb_cid x) s1) eqn:EF; [exact I1|]. cbn [wp bind act1].
    destruct (inv_insert_sub _ log None x s1 c0 I1) as [I2 K2].
    { intros k y. apply find_sub_none; auto. } { exact R1. }
    { split; [discriminate|]. split; [discriminate|]. exists h. split; [exact HL|exact HP]. }
    { intros k j E1 E2 E3 Z0. apply EP in E1. destruct E1 as [N1 E1]. destruct (OR Z0) as [_ O2]. apply N1. eapply O2; eauto. }
    split; [split; exact Logic.I|]. split; [exact K2|]. set (s2 := do_act (AInsertSub x) s1) in *.
    assert (R2 : aget (ri_conn i) (t_conns s2) = Some c0) by (unfold s2; destruct s1; exact R1).
    assert (TS2 : t_subs s2 = aset (n_key s1) (sb_set_key (n_key s1) x) (t_subs s1)) by (unfold s2; destruct s1; reflexivity).
    assert (KN : forall k y, aget k (t_subs s1) = Some y -> (k < n_key s1)%nat) by (intros k y E; apply (tb_sk _ (i_tab _ _ _ _ _ I1)) in E; lia). clearbody s2.
    apply wp_bind. eapply w_get_by_key; [exact I2|exact R2|]. intros o c s3 I3 HX3 (TS3 & _) Ho Hc Hk.
    apply wp_bind, (w_conn_obj _ _ _ _ _ _ Ho). apply wp_bind. eapply w_get_subs_all; [exact I3|]. intros os s4 I4 HX4 SC4 HK4 HE4 TS4 LN4.
    pose proof (ex_hc _ _ HX4 _ _ Ho) as Ho4. apply wp_bind, (w_conn_obj _ _ _ _ _ _ Ho4).
    cbv zeta. set (c5 := if eqb (Z.of_nat (ri_order i)) _ then _ else _).
    assert (F5 : cn_key c5 = cn_key c /\ cn_cid c5 = cn_cid c /\ cn_requester c5 = cn_requester c /\ cn_states c5 = cn_states c).
    { unfold c5. destruct (eqb (ri_order i) 0%nat), (eqb (Z.of_nat (ri_order i)) _); repeat split. }
    assert (LB : forall k y, aget k (t_subs s4) = Some y -> sb_conn y = cn_key c -> labels y s4 c5).
    { intros k y Hy Q.
      assert (SC : s_label (cn_src c5) = if eqb (ri_order i) 0%nat then s_label src else s_label (cn_src c)) by (unfold c5; destruct (eqb (ri_order i) 0%nat), (eqb (Z.of_nat (ri_order i)) _); reflexivity).
      assert (HY : k = n_key s1 /\ y = sb_set_key (n_key s1) x \/ k <> n_key s1 /\ aget k (t_subs s1) = Some y).
      { rewrite TS4, TS3, TS2, aget_aset in Hy. destruct (eqb_ok k (n_key s1)) as [->|NE]; [injection Hy as <-|]; auto. }
      destruct HY as [[-> ->]|[NE Hy1]].
      - split.
        + cbn. intros Z0. rewrite SC, Z0. reflexivity.
        + intros [_ LN]. cbn [sb_set_key sb_order sb_conn x] in LN. unfold c5. rewrite (proj2 (eqb_true (Z.of_nat (ri_order i)) (Z.of_nat (List.length os) - 1)%Z)); [reflexivity|].
          rewrite LN4, Hk. unfold subs_of in *. rewrite <- TS4, <- LN. lia.
      - assert (NW : ~ newest y s4).
        { rewrite (newest_row y s4 (i_tab _ _ _ _ _ I4)). intros NW. specialize (NW (n_key s1) (sb_set_key (n_key s1) x)).
          rewrite TS4, TS3, TS2, aget_aset_eq in NW. specialize (NW eq_refl). cbn [sb_set_key sb_conn x] in NW. rewrite Q, Hk in NW. specialize (NW eq_refl).
          destruct (tb_sk _ (i_tab _ _ _ _ _ I1) _ _ Hy1) as (KY & KL & _). lia. }
        split; [|intros [NW' _]; contradiction]. intros Z0. rewrite SC. destruct (eqb_ok (ri_order i) 0%nat) as [Z1|NZ].
        + exfalso. destruct (OR Z1) as [O1 _]. apply (O1 k y); auto; [rewrite <- TS1; exact Hy1|congruence].
        + destruct (tb_hc _ (i_tab _ _ _ _ _ I4) _ _ Ho4) as (_ & _ & r & Q1 & Q2 & _).
          destruct (i_lab _ _ _ _ _ I4 k y r Hy) as [D|[[_ D]|(d & D & D' & _)]]; [rewrite Q; exact Q1| |contradiction|].
          * exfalso. apply ND. congruence.
          * rewrite <- D' by exact Z0. rewrite Q2, (cobj_obj o c s4 (i_tab _ _ _ _ _ I4) Ho4) in D. congruence. }
    clearbody c5. destruct F5 as (F1 & F2 & F3 & F4).
    destruct (inv_set_conn (a_urn g) log None o c c5 s4) as [I5 K5]; auto; [rewrite Hc; exact I4|].
    split; [split; exact Logic.I|]. split; [exact K5|]. match goal with |- ?G => change G with (W (save_conn o ;;; s <- get ;; if existsb (fun e => eqb (ri_conn (snd e)) (ri_conn i)) (resvs s) then Ret "" else xs <- sub_objs os ;; c <- conn_obj o ;; if forallb (fun x => eqb (sb_r x) RHeld) xs && negb (eqb (cn_r c) RHeld) then conn_state OpReserveHeld o ;;; c <- conn_obj o ;; up (cn_requester c) (UReserveConfirmed (cn_cid c) (cn_gid c) (cn_src c) (cn_dst c) (cn_start c) (cn_end c) (cn_bw c)) ;;; Ret "" else Ret "") fin IM log (do_act (ASetConn o c5) s4)) end. set (s5 := do_act (ASetConn o c5) s4) in *.
    assert (Ho5 : aget o (h_conns s5) = Some c5) by (unfold s5; destruct s4; cbn; apply aget_aset_eq).
    assert (SS5 : same_subs s4 s5) by (unfold s5; destruct s4; repeat split).
    clearbody s5. apply wp_bind. eapply w_save_conn; [exact I5|exact Ho5|]. intros s6 I6 HX6 HS6 HH6.
    pose proof (same_subs_trans _ _ _ SS5 HS6) as SS6.
    unfold get at 1. cbn [wp bind]. destruct (existsb _ (resvs s6)) eqn:EX; [exact I6|].
    assert (HE6 : subs_exist os s6) by (destruct SS6 as (_ & HS & _); eapply subs_exist_same; eauto).
    apply wp_bind, (w_sub_objs _ _ _ _ _ HE6). intros xs HXS.
    assert (Ho6 : aget o (h_conns s6) = Some c5) by (rewrite HH6; exact Ho5).
    apply wp_bind, (w_conn_obj _ _ _ _ _ _ Ho6).
    destruct (forallb _ xs && negb (eqb (cn_r c5) RHeld)) eqn:EB; [|exact I6]. apply andb_prop in EB. destruct EB as [EB _].
    apply wp_bind. eapply (w_op g _ None None); [apply fits_held|exact I6|exact Ho6| |auto].
    intros y s7 EO I7 HX7 Ho7.
    assert (RC : cn_r c5 = RChecking /\ st_r y = RHeld).
    { unfold cn_r. destruct (cn_states c5) as [r p l]; destruct r; vm_compute in EO; try discriminate; injection EO as <-; auto. }
    destruct RC as [RC RH]. destruct (not_past_zero o c5 s6 log) as (Z1 & Z2 & NP); [rewrite F2, Hc; exact ND|exact I6|exact Ho6|exact RC|].
    destruct HX7 as (K7 & SS7 & (O7 & RV7 & _)).
    assert (NE6 : no_entry (cn_cid c5) s6).
    { intros k j c' E1 E2 E3. assert (KK : ri_conn j = cn_key c5).
      { destruct (tb_hc _ (i_tab _ _ _ _ _ I6) _ _ Ho6) as (_ & _ & c'' & Q1 & Q2 & _). eapply (tb_cu _ (i_tab _ _ _ _ _ I6)); eauto. congruence. }
      apply aget_In in E1. assert (X : existsb (fun e => eqb (ri_conn (snd e)) (ri_conn i)) (resvs s6) = true).
      { apply existsb_exists. exists (k, j). split; auto. cbn. rewrite KK, F1, Hk. apply eqb_refl. }
      congruence. }
    apply wp_bind, (w_conn_obj _ _ _ _ _ _ Ho7). cbn [cn_set_states cn_requester cn_cid cn_gid cn_src cn_dst cn_start cn_end cn_bw].
    assert (P7 : past (cn_cid c5) s7).
    { right. exists (cn_set_states y c5). split; [apply (cobj_obj o _ _ (i_tab _ _ _ _ _ I7) Ho7)|]. unfold cn_r. cbn. rewrite RH. discriminate. }
    destruct (inv_out_conf _ log None None (cn_cid c5) (cn_requester c5) (cn_gid c5) (cn_src c5) (cn_dst c5) (cn_start c5) (cn_end c5) (cn_bw c5) s7 I7) as [I8 K8]; auto.
    { unfold ocnt in *. rewrite O7. auto. } { unfold ocnt in *. rewrite O7. auto. }
    { intros k j c' E1 E2. rewrite RV7 in E1. destruct (rs_ok _ _ _ _ (i_res _ _ _ _ _ I6) _ _ E1) as (_ & c6 & G1).
      destruct (K7 _ _ G1) as (c7 & G2 & G3 & _). assert (c7 = c') by congruence. subst c7. rewrite G3. eapply NE6; eauto. }
    { intros corr prov HS. rewrite O7 in HS. destruct (rs_seg _ _ _ _ (i_res _ _ _ _ _ I6) _ _ _ HS) as (_ & [D|[D|[D|D]]]); auto; [discriminate| |contradiction].
      destruct D as (j & c' & D1 & D2 & D3 & D4). exfalso. eapply NE6; eauto. }
    apply wp_bind. unfold up, out. apply w_act; [|exact K8|exact I8]. split.
    - cbn. split.
      2: { destruct (tb_hc _ (i_tab _ _ _ _ _ I7) _ _ Ho7) as (_ & _ & r & Q1 & Q2 & _). exists (cn_key c5), r. split; [exact Q1|]. split; [exact Q2|].
           intros z Hz. unfold subs_of in Hz. apply filter_In in Hz. destruct Hz as [Hz HC]. apply (proj1 (eqb_true (sb_conn z) (cn_key c5))) in HC.
           destruct (sub_row 0 _ _ (i_tab _ _ _ _ _ I7) Hz) as [HR _]. split; [apply (proj1 (i_sub _ _ _ _ _ I7) _ _ HR)|].
           destruct (i_lab _ _ _ _ _ I7 _ z r HR) as [D|[[D _]|(d & D & D1 & D2)]]; [rewrite HC; exact Q1| |discriminate|].
           - exfalso. apply ND. rewrite Q2 in D. cbn in D. congruence.
           - rewrite Q2, (cobj_obj o _ s7 (i_tab _ _ _ _ _ I7) Ho7) in D. injection D as <-. split; [exact D1|]. intros N1 N2. apply D2. split; [exact N1|]. rewrite HC. exact N2. }
      apply (all_segments_of _ o (cn_set_states y c5) os xs s6 s7); auto; [apply I7| |].
      + cbn [cn_set_states cn_key]. rewrite F1. eapply known_same; eauto.
      + intros z Hz. rewrite forallb_forall in EB. apply EB in Hz. apply (proj1 (eqb_true (sb_r z) RHeld)) in Hz. exact Hz.
    - cbn. intros c' E'. injection E' as <-. destruct (tb_hc _ (i_tab _ _ _ _ _ I7) _ _ Ho7) as (_ & _ & r' & Q1 & Q2 & Q3). exists (cn_key c5), r'. auto.
  Qed.

  (** the common part of the notifications *)
  Lemma w_around so s log (k : nat -> conn -> list nat -> prog string) : going (a_urn g) (log := log) None None [so] s ->
    (forall o c os s', IM log s' -> aget o (h_conns s') = Some c -> known (subs_of (cn_key c) s') os s' -> subs_exist os s' -> W (k o c os) fin IM log s') ->
    W (sc <- sub_obj so ;; o <- get_connection_by_key (sb_conn sc) ;; c <- conn_obj o ;; os <- get_subs (cn_key c) ;; k o c os) fin IM log s.
  Proof.
    intros [I2 E2] HK. destruct (E2 so (or_introl eq_refl)) as (sc & Hsc). apply wp_bind, (w_sub_obj _ _ _ _ _ _ Hsc).
    destruct (tb_hs _ (i_tab _ _ _ _ _ I2) _ _ Hsc) as (_ & row & R1 & R2 & R3 & R4 & _).
    destruct (tb_sk _ (i_tab _ _ _ _ _ I2) _ _ R1) as (_ & _ & c0 & R5). rewrite R4 in R5.
    apply wp_bind. eapply w_get_by_key; [exact I2|exact R5|]. intros o c s3 I3 HX3 HS3 Ho Hc Hk.
    apply wp_bind, (w_conn_obj _ _ _ _ _ _ Ho). apply wp_bind. eapply w_get_subs; [exact I3|]. intros os s4 I4 HX4 HS4 HK4 HE4.
    apply HK; auto. apply (ex_hc _ _ HX4 _ _ Ho).
  Qed.
  Lemma addressed_obj o c s log b : IM log s -> aget o (h_conns s) = Some c -> (forall cid, about b = Some cid -> cid = cn_cid c) -> addressed s (AOut (OUp (cn_requester c) b)).
  Proof.
    intros I Ho HB. cbn. intros cid E. apply HB in E. subst cid. destruct (tb_hc _ (i_tab _ _ _ _ _ I) _ _ Ho) as (_ & _ & r' & Q1 & Q2 & Q3). exists (cn_key c), r'. auto.
  Qed.
  Lemma w_reserve_timeout h cid n a b s log : IM log s -> W (reserve_timeout h cid n a b) fin IM log s.
  Proof.
    intros I. unfold reserve_timeout. apply wp_bind. eapply w_get_sub; [exact I| |exact I]. intros so y s1 I1 _ Hso _.
    apply wp_bind. apply (w_sub_benign g OpReserveTimeout Logic.I so y); auto. intros s2 G2.
    apply (w_around so s2 log (fun o c os => xs <- sub_objs os ;; c <- conn_obj o ;; _)); auto. intros o c os s3 I3 Ho HK HE.
    apply wp_bind, (w_sub_objs _ _ _ _ _ HE). intros xs HXS. apply wp_bind, (w_conn_obj _ _ _ _ _ _ Ho).
    destruct (eqb (cn_r c) RFailed); [exact I3|]. destruct (_ =? 1)%nat; [|exact I3]. unfold up. apply wp_bind.
    eapply w_out_plain; [exact I3|exact Logic.I|split; [exact Logic.I|eapply addressed_obj; eauto; cbn; congruence]|]. intros s4 _ I4 _. exact I4.
  Qed.
  Lemma w_data_plane h cid d s log : IM log s -> W (data_plane h cid d) fin IM log s.
  Proof.
    intros I. unfold data_plane. destruct d as [[a v] k]. apply wp_bind. eapply w_get_sub; [exact I| |exact I]. intros so y s1 I1 _ Hso _.
    apply wp_bind, (w_sub_obj _ _ _ _ _ _ Hso).
    destruct (inv_set_sub _ log None None so y (sb_set_dp a v k y) s1 I1 Hso) as [I2 K2]; auto.
    { exact (proj2 (i_sub _ _ _ _ _ I1) _ _ Hso). }
    apply wp_bind. apply w_act; [split; exact Logic.I|exact K2|].
    apply wp_bind. apply (w_save_sub_going _ None None so _ _ _ [so]); [|left; reflexivity|].
    { split; auto. intros o' [<-|[]]. exists (sb_set_dp a v k y). destruct s1; cbn. apply aget_aset_eq. }
    intros s2 G2.
    apply (w_around so s2 log (fun o c os => xs <- sub_objs os ;; c <- conn_obj o ;; _)); auto. intros o c os s3 I3 Ho HK HE.
    apply wp_bind, (w_sub_objs _ _ _ _ _ HE). intros xs HXS. apply wp_bind, (w_conn_obj _ _ _ _ _ _ Ho). unfold up. apply wp_bind.
    eapply w_out_plain; [exact I3|exact Logic.I| |].
    - split; [|eapply addressed_obj; eauto; cbn; congruence]. cbn. exists xs. split; auto.
      apply (all_segments_of _ o c os xs s3 s3); auto; [apply I3|repeat split].
    - intros s4 _ I4 _. exact I4.
  Qed.
  Lemma w_error h a b c s log : IM log s -> W (error h a b c) fin IM log s.
  Proof.
    intros I. unfold error. destruct (eqb (hd_provider h) a); [|exact I]. unfold up. apply wp_bind.
    eapply w_out_plain; [exact I|exact Logic.I|split; [exact Logic.I|cbn; discriminate]|]. intros s4 _ I4 _. exact I4.
  Qed.
  Lemma w_error_event h cid n e s log : IM log s -> W (error_event h cid n e) fin IM log s.
  Proof.
    intros I. unfold error_event. apply wp_bind. eapply w_get_sub; [exact I| |exact I]. intros so y s1 I1 _ Hso _.
    apply (w_around so s1 log (fun o c os => c <- conn_obj o ;; _)); [split; auto; intros o' [<-|[]]; eauto|]. intros o c os s3 I3 Ho HK HE.
    apply wp_bind, (w_conn_obj _ _ _ _ _ _ Ho). destruct os as [|o1 [|]]; [exact I3| |exact I3]. unfold up. apply wp_bind.
    eapply w_out_plain; [exact I3|exact Logic.I|split; [exact Logic.I|eapply addressed_obj; eauto; cbn; congruence]|]. intros s4 _ I4 _. exact I4.
  Qed.

  Theorem w_call c log s : IM log s -> W (call_prog g c) fin IM (log ++ [c]) s.
  Proof.
    intros I0. pose proof (inv_call _ c log s I0) as I.
    assert (L : In c (log ++ [c])) by (rewrite in_app_iff; cbn; auto).
    destruct c; cbn [call_token] in I; cbn [call_prog].
    - apply w_reserve; auto.
    - apply w_commit; auto.
    - apply w_abort; auto.
    - apply w_provision; auto.
    - apply w_release; auto.
    - apply w_terminate; auto.
    - apply w_query_summary; auto.
    - apply w_query_recursive; auto.
    - apply w_reserve_confirmed; auto.
    - apply w_reserve_failed; auto.
    - apply w_commit_confirmed; auto.
    - apply w_abort_confirmed; auto.
    - apply w_provision_confirmed; eauto.
    - apply w_release_confirmed; auto.
    - apply w_terminate_confirmed; eauto.
    - apply w_reserve_timeout; auto.
    - apply w_data_plane; auto.
    - apply w_error; auto.
    - apply w_error_event; auto.
    - apply w_query_recursive_confirmed; auto.
  Qed.

  Lemma keeps_top s reg rv : keeps s (set_topology reg rv s).
  Proof. apply keeps_same. destruct s; reflexivity. Qed.
  Lemma inv_top log s reg rv : IM log s -> IM log (set_topology reg rv s).
  Proof. intros I. apply (inv_same _ log None None s); auto; destruct s; repeat split. Qed.
End Run2.

(** at the start *)
Definition ghost0 : ghost := mkGhost (fun _ => False) true.
Lemma inv_init urn reg rv : @inv ghost0 urn None None [] (init_st reg rv).
Proof.
  constructor.
  - constructor; cbn; try discriminate; constructor.
  - constructor; cbn; try discriminate; unfold ocnt, cnt; cbn; try lia; try contradiction.
    intros corr prov cid (p & hd & gid & a & b & x & e & bw & t & [] & _).
  - intros k cid. destruct k; cbn; lia.
  - intros _ cid. cbn. unfold ocnt, cnt. cbn. lia.
  - split; cbn; discriminate.
  - intros k key c. cbn. discriminate.
  - intros k y cr. cbn. discriminate.
  - intros k i. cbn. discriminate.
Qed.
(** when the process is started again *)
Definition has_row (s : st) (cid : string) : Prop := exists k c, aget k (t_conns s) = Some c /\ cn_cid c = cid.
Definition restarted (s : st) : ghost := mkGhost (has_row s) false.
Lemma past_row {GH : ghost} urn log s cid : inv urn None None log s -> past cid s -> has_row s cid.
Proof.
  intros I [H|(c & H & _)].
  - apply (rs_dead _ _ _ _ (i_res _ _ _ _ _ I)) in H. apply H.
  - unfold cobj in H. destruct (aget cid (c_conns s)) as [o|] eqn:E; [|discriminate].
    destruct (tb_cc _ (i_tab _ _ _ _ _ I) _ _ E) as (c' & H1 & H2). assert (c' = c) by congruence. subst c'.
    destruct (tb_hc _ (i_tab _ _ _ _ _ I) _ _ H1) as (_ & _ & r & R1 & R2 & _). exists (cn_key c), r. split; congruence.
Qed.
Lemma inv_restart {GH : ghost} urn log s reg rv : inv urn None None log s -> @inv (restarted s) urn None None log (restart_st reg rv s).
Proof.
  intros I. pose proof (past_row urn log s) as HP. pose proof I as [T [A1 A2 A3 A4 A5 A6 A7] C _ [S1 S2] R _ _].
  assert (P : forall cid, past cid s -> @past (restarted s) cid (restart_st reg rv s)) by (intros cid H; left; cbn; auto).
  constructor; try (cbn; discriminate).
  - destruct T as [B1 B2 B3 B4 B5 B6 B7 B8 B9 B10 B11]. constructor; cbn -[akeys]; auto; try discriminate. constructor.
  - constructor; cbn [restart_st resvs n_corr t_conns]; try discriminate.
    + intros cid. apply A2.
    + intros cid H. destruct (A3 cid H) as (C1 & C2 & _). split; [auto|]. split; [exact C2|]. intros k i c. cbn. discriminate.
    + intros cid H. apply P, A4, H.
    + intros corr prov cid H. destruct (A5 corr prov cid H) as (C1 & [C2|[C2|[C2|C2]]]); (split; [exact C1|]); auto 7.
      right; right; right. left. cbn. destruct C2 as (i & c & _ & _ & C3 & C4). exists (ri_conn i), c. auto.
    + exact A6.
    + intros cid H. split; [intros k i c; cbn; discriminate|exact H].
  - intros k cid. specialize (C k cid). unfold cobj. cbn [restart_st c_conns aget obusy]. unfold ocnt in *. cbn [restart_st outs]. lia.
  - split; cbn; [exact S1|discriminate].
  - intros k key c E. specialize (R k key c E). specialize (C k (cn_cid c)). unfold cobj at 1. cbn [restart_st c_conns aget]. unfold ocnt in *. cbn [restart_st outs].
    destruct (cobj (cn_cid c) s); cbn [obusy] in C; lia.
  - intros k y cr _ H. left. cbn. exists (sb_conn y), cr. auto.
Qed.
Section Run3.
  Context (g : cfg).
  Definition ginv (GH : ghost) (m : mach) : Prop := minv (inv (a_urn g) None None) keeps okact m /\ mfresh m.
  Lemma ginv_step GH m e : ginv GH m ->
    exists GH' : ghost, ginv GH' (mstep g true m e) /\ (@whole GH = true -> (forall reg rv, e <> EvRestart reg rv) -> @whole GH' = true) /\
      forall s a, In (s, a) (step_acts g true m e) -> okact (m_log (mstep g true m e)) s a.
  Proof.
    intros [I F]. destruct e as [c|i a|reg rv|reg rv].
    4: { exists (restarted (m_st m)). split; [|split; [intros _ H; exfalso; eapply H; eauto|contradiction]].
         split; [|apply mstep_fresh; auto]. split; cbn [mstep m_log m_st m_tasks]; [apply inv_restart, I|discriminate]. }
    1: pose (e := EvCall c). 2: pose (e := EvAnswer i a). 3: pose (e := EvTopology reg rv).
    all: destruct (mstep_inv (inv (a_urn g) None None) keeps okact keeps_refl keeps_trans g (w_call g) keeps_top (inv_top g) m e F) as [I' J]; [discriminate|exact I|];
      exists GH; split; [split; [exact I'|apply mstep_fresh; auto]|auto].
  Qed.
  Lemma ginv_run l : forall GH m, ginv GH m -> exists GH' : ghost, ginv GH' (mrun g true m l) /\ (@whole GH = true -> no_restart l -> @whole GH' = true).
  Proof.
    induction l as [|e l IH]; intros GH m H; [exists GH; auto|]. destruct (ginv_step GH m e H) as (G1 & H1 & W1 & _).
    destruct (IH G1 _ H1) as (G2 & H2 & W2). exists G2. split; [exact H2|]. intros HW HC. apply W2; [|intros reg rv Hi; eapply HC; cbn; eauto].
    apply W1; auto. intros reg rv ->. eapply HC. cbn. eauto.
  Qed.
  Lemma run_inv reg rv l : exists GH : ghost, (minv (inv (a_urn g) None None) keeps okact (mrun g true (minit reg rv) l) /\ mfresh (mrun g true (minit reg rv) l)) /\ (no_restart l -> whole = true).
  Proof.
    destruct (ginv_run l ghost0 (minit reg rv)) as (GH & H & W).
    - split; [split; cbn; [apply inv_init|discriminate]|split; cbn; [constructor|contradiction]].
    - exists GH. split; [exact H|apply W; reflexivity].
  Qed.
  Lemma step_ok reg rv l e s a : In (s, a) (step_acts g true (mrun g true (minit reg rv) l) e) -> okact (m_log (mstep g true (mrun g true (minit reg rv) l) e)) s a.
  Proof.
    destruct (run_inv reg rv l) as (GH & H & _). destruct (ginv_step GH _ e H) as (_ & _ & _ & J). apply J.
  Qed.
End Run3.
