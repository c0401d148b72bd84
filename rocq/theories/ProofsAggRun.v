(** Every method of the aggregator keeps the invariant. *)
From Verif Require Import Base BaseProofs ModelLabel ModelSTP ModelAuthz ModelNRM ModelState ModelLinkVector ModelProvreg ModelAggregator SpecAggInv ProofsAggInv ProofsAggTab ProofsAggAct ProofsAggHelp.

Definition ind (a : option kind) (k : kind) : nat :=
  match a, k with Some KProv, KProv | Some KRel, KRel | Some K2pc, K2pc => 1 | _, _ => 0 end.
Definition toks (a : option kind) (cid : string) : token := match a with Some k => Some (k, cid) | None => None end.
Lemma tok_toks a cid k cid' : tok (toks a cid) k cid' = if eqb cid' cid then ind a k else 0%nat.
Proof. destruct a as [[]|], k; cbn; destruct (eqb cid' cid); reflexivity. Qed.
(** the operation spends token [a] and yields token [b] *)
Definition fits (op : state_op) (a b : option kind) : Prop :=
  forall st y, op_mem op st = (y, None) ->
    (forall k, busy k y + ind b k <= busy k st + ind a k)%nat /\
    (st_r y = RChecking -> st_r st = RChecking) /\ (st_l st = LTerminated -> st_l y = LTerminated).
Ltac fits := intros [r p l] y H; destruct r, p, l; vm_compute in H; try discriminate; injection H as <-;
  (split; [intros []; vm_compute; lia|split; cbn; congruence]).
Lemma fits_commit : fits OpReserveCommit (Some K2pc) None. Proof. fits. Qed.
Lemma fits_abort : fits OpReserveAbort (Some K2pc) None. Proof. fits. Qed.
Lemma fits_provisioning : fits OpProvisioning (Some KProv) None. Proof. fits. Qed.
Lemma fits_releasing : fits OpReleasing (Some KRel) None. Proof. fits. Qed.
Lemma fits_terminating : fits OpTerminating None None. Proof. fits. Qed.
Lemma fits_terminated : fits OpTerminated None None. Proof. fits. Qed.
Lemma fits_held : fits OpReserveHeld None None. Proof. fits. Qed.
Lemma fits_failed : fits OpReserveFailed None None. Proof. fits. Qed.
Lemma fits_reserved : fits OpReserved None (Some K2pc). Proof. fits. Qed.
Lemma fits_provisioned : fits OpProvisioned None (Some KProv). Proof. fits. Qed.
Lemma fits_released : fits OpReleased None (Some KRel). Proof. fits. Qed.

Section Run.
  Context {GH : ghost} (g : cfg).
  Notation IM := (inv (a_urn g) None None).
  Notation W := (wp IM keeps okact).
  Context {log : list call}.
  Notation fin := (fun _ : string => IM).

  Lemma w_op x a b op o c s (Q : unit -> list call -> st -> Prop) (E : list call -> st -> Prop) :
    fits op a b -> inv (a_urn g) x (toks a (cn_cid c)) log s -> aget o (h_conns s) = Some c ->
    (forall y s', op_mem op (cn_states c) = (y, None) -> inv (a_urn g) x (toks b (cn_cid c)) log s' -> ext2 s s' -> aget o (h_conns s') = Some (cn_set_states y c) -> Q tt log s') ->
    (forall e, snd (op_mem op (cn_states c)) = Some e -> E log s) -> W (conn_state op o) Q E log s.
  Proof.
    intros HF I Ho HQ HE. eapply w_conn_state with (t' := toks b (cn_cid c)); eauto.
    intros y EO. destruct (HF _ _ EO) as (F1 & F2 & F3). split; [|split; auto].
    intros k cid. rewrite !tok_toks. destruct (eqb cid (cn_cid c)); [apply F1|lia].
  Qed.
  Lemma w_open a cid s (Q : nat * conn -> list call -> st -> Prop) : inv (a_urn g) None (toks a cid) log s ->
    (forall o c s', inv (a_urn g) None (toks a cid) log s' -> aget o (h_conns s') = Some c -> cn_cid c = cid -> Q (o, c) log s') ->
    W (open_connection cid) Q IM log s.
  Proof.
    intros I HQ. unfold open_connection. apply wp_bind. eapply w_get_connection; [exact I| |intros; eapply inv_drop; eauto].
    intros o c s' I' HX HS Ho Hc. apply wp_bind, (w_conn_obj _ _ _ _ _ _ Ho). destruct (eqb (cn_l c) LTerminated); cbn; [eapply inv_drop; eauto|auto].
  Qed.
  Lemma w_finish cid act urns s : IM log s -> W (finish cid act urns) fin IM log s.
  Proof.
    intros I. unfold finish. apply wp_bind. cbn. split; auto. intros log' s' a K I' Ha. destruct a; try discriminate. cbn.
    destruct (all_acked l); exact I'.
  Qed.
  Lemma w_calls h b cid act os s : (forall c, match b c with DReserve _ _ _ _ _ _ => False | _ => True end) ->
    going (a_urn g) (log := log) None None os s -> W (urns <- mapP (call_sub g h b) os ;; finish cid act urns) fin IM log s.
  Proof.
    intros HB G. apply wp_bind. apply (w_mapP (a_urn g) (going (a_urn g) (log := log) None None os)); auto.
    - intros o s1 Q Ho G1 HQ. eapply w_call_sub; eauto.
    - intros urns s' [I' _] _. apply w_finish; auto.
  Qed.
  Lemma w_commit h cid s : inv (a_urn g) None (Some (K2pc, cid)) log s -> W (reserve_commit g h cid) fin IM log s.
  Proof.
    intros I. unfold reserve_commit. apply wp_bind, (w_open (Some K2pc)); auto. intros o c s1 I1 Ho <-. cbn [fst snd].
    apply wp_bind. eapply w_op; [apply fits_commit|exact I1|exact Ho| |intros; eapply inv_drop; eauto].
    intros y s2 _ I2 _ Ho2. apply wp_bind. eapply w_get_subs; [exact I2|]. intros os s3 I3 _ _ _ HE.
    apply w_calls; [cbn; auto|split; auto].
  Qed.
  Lemma w_abort h cid s : inv (a_urn g) None (Some (K2pc, cid)) log s -> W (reserve_abort g h cid) fin IM log s.
  Proof.
    intros I. unfold reserve_abort. apply wp_bind, (w_open (Some K2pc)); auto. intros o c s1 I1 Ho <-. cbn [fst snd].
    apply wp_bind. eapply w_op; [apply fits_abort|exact I1|exact Ho| |intros; eapply inv_drop; eauto].
    intros y s2 _ I2 _ Ho2. apply wp_bind. eapply w_get_subs; [exact I2|]. intros os s3 I3 _ _ _ HE.
    apply wp_bind. apply (w_mapP (a_urn g) (going (a_urn g) (log := log) None None os)).
    - intros o' s4 Q Ho' G4 HQ. apply wp_bind. eapply w_set_sub_state; [exact G4|exact Ho'|exact Logic.I| |auto].
      intros s5 G5. eapply w_call_sub; eauto.
    - split; auto.
    - intros urns s4 G4 _. apply wp_bind. apply (w_iterP (a_urn g) (going (a_urn g) (log := log) None None os)); auto.
      + intros o' s5 Q Ho' G5 HQ. eapply w_save_sub_going; eauto.
      + intros s5 [I5 _]. apply wp_bind. cbn. split; auto. intros log' s' a K I' Ha. destruct a; try discriminate. cbn.
        destruct (all_acked l); exact I'.
  Qed.
  Lemma w_provision h cid s : inv (a_urn g) None (Some (KProv, cid)) log s -> W (provision g h cid) fin IM log s.
  Proof.
    intros I. unfold provision. apply wp_bind, (w_open (Some KProv)); auto. intros o c s1 I1 Ho <-. cbn [fst snd].
    apply wp_bind. eapply w_op; [apply fits_provisioning|exact I1|exact Ho| |intros; eapply inv_drop; eauto].
    intros y s2 _ I2 _ Ho2. apply wp_bind. eapply w_get_subs; [exact I2|]. intros os s3 I3 _ _ _ HE.
    apply wp_bind.
    assert (M : forall l s, incl l os -> going (a_urn g) (log := log) None None os s ->
      forall (Q : list (list nat) -> list call -> st -> Prop), (forall bs s', incl (List.concat bs) os -> going (a_urn g) (log := log) None None os s' -> Q bs log s') ->
      W (mapP (fun o => x <- sub_obj o ;; if eqb (sb_p x) PProvisioning then Ret [] else set_sub_state OpProvisioning o ;;; Ret [o]) l) Q IM log s).
    { induction l as [|o' l IH]; intros s4 HI G4 Q HQ; cbn [mapP]; [cbn; apply HQ; auto; intros z []|].
      destruct (proj2 G4 o' (HI o' (or_introl eq_refl))) as (x & Hx).
      assert (HI' : incl l os) by (intros z Hz; apply HI; right; exact Hz).
      apply wp_bind. apply wp_bind. apply (w_sub_obj _ _ _ _ _ _ Hx). destruct (eqb (sb_p x) PProvisioning).
      - cbn [wp]. apply wp_bind, IH; auto. intros bs s5 HB G5. cbn. apply HQ; auto.
      - apply wp_bind. eapply w_set_sub_state; [exact G4|apply HI; left; reflexivity|exact Logic.I| |auto].
        intros s5 G5. cbn [wp]. apply wp_bind, IH; auto. intros bs s6 HB G6. cbn [wp]. apply HQ; auto. cbn.
        intros z [<-|Hz]; [apply HI; left; reflexivity|auto]. }
    apply M; [apply incl_refl|split; auto|]. intros bs s4 HB G4.
    apply wp_bind. apply (w_iterP (a_urn g) (going (a_urn g) (log := log) None None os)); auto.
    - intros o' s5 Q Ho' G5 HQ. eapply w_save_sub_going; eauto.
    - intros s5 G5. apply w_calls; [cbn; auto|auto].
  Qed.
  Lemma w_release h cid s : inv (a_urn g) None (Some (KRel, cid)) log s -> W (release g h cid) fin IM log s.
  Proof.
    intros I. unfold release. apply wp_bind, (w_open (Some KRel)); auto. intros o c s1 I1 Ho <-. cbn [fst snd].
    apply wp_bind. eapply w_op; [apply fits_releasing|exact I1|exact Ho| |intros; eapply inv_drop; eauto].
    intros y s2 _ I2 _ Ho2. apply wp_bind. eapply w_get_subs; [exact I2|]. intros os s3 I3 _ _ _ HE.
    apply wp_bind. apply (w_iterP (a_urn g) (going (a_urn g) (log := log) None None os)).
    - intros o' s5 Q Ho' G5 HQ. eapply w_set_sub_state; eauto. exact Logic.I.
    - split; auto.
    - intros s4 G4. apply wp_bind. apply (w_iterP (a_urn g) (going (a_urn g) (log := log) None None os)); auto.
      + intros o' s5 Q Ho' G5 HQ. eapply w_save_sub_going; eauto.
      + intros s5 G5. apply w_calls; [cbn; auto|auto].
  Qed.
  Lemma w_terminate h cid s : IM log s -> W (terminate g h cid) fin IM log s.
  Proof.
    intros I. unfold terminate. apply wp_bind. eapply w_get_connection; [exact I| |auto]. intros o c s1 I1 _ _ Ho Hc.
    apply wp_bind, (w_conn_obj _ _ _ _ _ _ Ho). destruct (eqb (cn_l c) LTerminated); [exact I1|].
    apply wp_bind. eapply (w_op None None None); [apply fits_terminating|exact I1|exact Ho| |auto].
    intros y s2 _ I2 _ Ho2. apply wp_bind. eapply w_get_subs; [exact I2|]. intros os s3 I3 _ _ _ HE.
    apply w_calls; [cbn; auto|split; auto].
  Qed.

  (** queries *)
  Lemma w_query_summary h cids gids s : IM log s -> W (query_summary g h cids gids) fin IM log s.
  Proof.
    intros I. unfold query_summary, await, get. cbn [wp bind]. apply wp_bind, w_lift; [|exact I]. intros cs _. cbn [wp bind].
    apply wp_bind. apply (w_mapP (a_urn g) (fun s => IM log s)); auto.
    - intros c s1 Q _ I1 HQ. apply wp_bind. eapply w_get_subs; [exact I1|]. intros os s2 I2 _ _ _ HE.
      apply wp_bind, (w_sub_objs _ _ _ _ _ HE). intros xs _. apply wp_bind. eapply w_note; [exact I2|]. intros s3 _ I3 _. cbn. auto.
    - intros rs s1 I1 _. unfold up. apply wp_bind. eapply w_out_plain; [exact I1|exact Logic.I|split; [exact Logic.I|cbn; discriminate]|].
      intros s2 _ I2 _. exact I2.
  Qed.
  Lemma going_same x t os s s' : inv (a_urn g) x t log s' -> h_subs s' = h_subs s -> going (a_urn g) (log := log) x t os s -> going (a_urn g) (log := log) x t os s'.
  Proof. intros I E [_ H]. split; auto. eapply subs_exist_same; eauto. Qed.
  Lemma w_query_recursive h cids gids s : IM log s -> W (query_recursive g h cids gids) fin IM log s.
  Proof.
    intros I. unfold query_recursive. destruct gids; [|exact I]. destruct cids as [|cid [|]]; [exact I| |exact I].
    apply wp_bind. eapply w_get_connection; [exact I| |auto]. intros o c s1 I1 _ _ Ho Hc.
    apply wp_bind, (w_conn_obj _ _ _ _ _ _ Ho). apply wp_bind. eapply w_get_subs; [exact I1|]. intros os s2 I2 _ _ _ HE.
    apply wp_bind. set (a := AQreq _ _).
    destruct (inv_same _ log None None s2 (do_act a s2) I2) as [I3 K]; try (destruct s2; cbn; auto; repeat split; fail).
    apply w_act; [split; exact Logic.I|exact K|].
    assert (G : going (a_urn g) (log := log) None None os (do_act a s2)) by (split; auto; eapply subs_exist_same; [|exact HE]; destruct s2; reflexivity).
    clearbody a. apply wp_bind. apply (w_mapP (a_urn g) (going (a_urn g) (log := log) None None os)); auto.
    - intros so s3 Q Hso G3 HQ. destruct (proj2 G3 so Hso) as (x & Hx). apply wp_bind, (w_sub_obj _ _ _ _ _ _ Hx).
      unfold get. cbn [wp bind]. apply wp_bind, w_lift; [|apply G3]. intros p _. apply wp_bind. eapply w_new_corr; [apply G3|].
      intros s4 E4 I4 _. apply wp_bind. eapply w_out_plain; [exact I4|exact Logic.I|split; exact Logic.I|]. intros s5 E5 I5 _.
      apply wp_bind. set (b := AQcall _ _).
      destruct (inv_same _ log None None s5 (do_act b s5) I5) as [I6 K6]; try (destruct s5; cbn; auto; repeat split; fail).
      apply w_act; [split; exact Logic.I|exact K6|]. cbn [wp]. apply HQ. apply going_same with s3; auto. subst. destruct s3; reflexivity.
    - intros urns s3 [I4 _] _. apply wp_bind. cbn. split; auto. intros log' s' a' K' I' Ha. destruct a'; try discriminate. cbn.
      destruct (all_acked l); exact I'.
  Qed.
  Ltac same3 s I3 I4 K := destruct (inv_same _ log None None s _ I3) as [I4 K]; [destruct s; repeat split|destruct s; reflexivity|destruct s; reflexivity|destruct s; cbn; lia|].
  Lemma w_inert a s (Q : unit -> list call -> st -> Prop) (E : list call -> st -> Prop) : IM log s ->
    match a with AQreq _ _ | AQreqPop _ | AQcall _ _ | AQcallPop _ | ANote => True | _ => False end ->
    (IM log (do_act a s) -> Q tt log (do_act a s)) -> W (act1 a) Q E log s.
  Proof.
    intros I HA HQ. destruct (inv_same _ log None None s (do_act a s) I) as [I3 K]; try (destruct s, a; cbn in *; try contradiction; auto; repeat split; fail).
    apply w_act; auto. split; destruct a; cbn in *; contradiction || exact Logic.I.
  Qed.
  Lemma w_query_recursive_confirmed h res s : IM log s -> W (query_recursive_confirmed g h res) fin IM log s.
  Proof.
    intros I. unfold query_recursive_confirmed. unfold get at 1. cbn [wp bind].
    destruct (aget (hd_corr h) (qcalls s)) as [[req rs]|]; [|exact I].
    assert (M : W (act1 (AQcall (hd_corr h) (req, Some res)) ;;; s <- get ;;
      match aget req (qreqs s) with
      | None => throw EKey
      | Some (requester, o, count) =>
          let scr := sub_results req s in
          if (List.length scr =? count)%nat then
            act1 (AQreqPop req) ;;;
            act1 (AQcallPop req) ;;;
            c <- conn_obj o ;;
            os <- get_subs (cn_key c) ;;
            xs <- sub_objs os ;;
            d <- lift (recursive_status xs) ;;
            n <- notification_id ;;
            c <- conn_obj o ;;
            up requester (UQueryRecursive req [conn_info g c d n n scr]) ;;;
            Ret ""
          else Ret ""
      end) fin IM log s).
    { apply wp_bind. apply w_inert; [exact I|exact Logic.I|]. generalize (do_act (AQcall (hd_corr h) (req, Some res)) s) as s1. intros s1 I1.
      unfold get. cbn [wp bind]. destruct (aget req (qreqs s1)) as [[[r o] n]|]; [|exact I1].
      cbv zeta. destruct (_ =? n)%nat; [|exact I1].
      apply wp_bind. apply w_inert; [exact I1|exact Logic.I|]. intros I2.
      apply wp_bind. apply w_inert; [exact I2|exact Logic.I|]. generalize dependent (do_act (AQcallPop req) (do_act (AQreqPop req) s1)). intros s3 I3. generalize (sub_results req s1). intros scr.
      apply wp_bind. destruct (aget o (h_conns s3)) as [c|] eqn:Ho; [|unfold conn_obj, get; cbn [wp bind]; rewrite Ho; exact I3].
      apply (w_conn_obj _ _ _ _ _ _ Ho). apply wp_bind. eapply w_get_subs; [exact I3|]. intros os s4 I4 HX _ _ HE.
      apply wp_bind, (w_sub_objs _ _ _ _ _ HE). intros xs _. apply wp_bind, w_lift; [|exact I4]. intros d _.
      apply wp_bind. eapply w_note; [exact I4|]. intros s5 E5 I5 _.
      apply wp_bind. apply (w_conn_obj _ _ c). { subst s5. pose proof (ex_hc _ _ HX _ _ Ho). destruct s4; auto. }
      unfold up. apply wp_bind. eapply w_out_plain; [exact I5|exact Logic.I|split; [exact Logic.I|cbn; discriminate]|]. intros s6 _ I6 _. exact I6. }
    destruct rs as [[|y l]|]; [exact M|exact I|exact M].
  Qed.

  (** segment confirmations *)
  Lemma w_collect (chg : nat -> prog unit) sub_ok conn_ok op msg (after : list (string -> output)) b (P : sub -> Prop) h cid s :
    (forall o y s1 (Q : unit -> list call -> st -> Prop), inv (a_urn g) None None log s1 -> aget o (h_subs s1) = Some y -> sb_cid y = cid ->
       (forall s2, going (a_urn g) (log := log) None None [o] s2 -> Q tt log s2) -> W (chg o) Q IM log s1) ->
    fits op None b -> (forall x, sub_ok x = true -> slog log x -> P x) -> (forall f c, In f after -> plain (f c) /\ forall s, okact log s (AOut (f c))) ->
    (forall c0 r s1, honest log s1 (AOut (OUp r (msg c0))) <-> all_segments P c0 s1) -> (forall c0, about (msg c0) = Some c0) ->
    (forall o c y s1 s2, inv (a_urn g) None None log s1 -> aget o (h_conns s1) = Some c -> conn_ok c = false -> op_mem op (cn_states c) = (y, None) ->
       inv (a_urn g) None (toks b (cn_cid c)) log s2 -> ext2 s1 s2 -> aget o (h_conns s2) = Some (cn_set_states y c) ->
       IM log (do_act (AOut (OUp (cn_requester c) (msg (cn_cid c)))) s2)) ->
    IM log s -> W (collect chg sub_ok conn_ok op msg after h cid) fin IM log s.
  Proof.
    intros HC HF HP HA HM HAb HS I. unfold collect. apply wp_bind. eapply w_get_sub; [exact I| |exact I].
    intros so y s1 I1 _ Hso Hcid. apply wp_bind. eapply HC; eauto. intros s2 [I2 E2].
    destruct (E2 so (or_introl eq_refl)) as (sc & Hsc). apply wp_bind, (w_sub_obj _ _ _ _ _ _ Hsc).
    destruct (tb_hs _ (i_tab _ _ _ _ _ I2) _ _ Hsc) as (_ & row & R1 & R2 & R3 & R4 & _).
    destruct (tb_sk _ (i_tab _ _ _ _ _ I2) _ _ R1) as (_ & _ & c0 & R5). rewrite R4 in R5.
    apply wp_bind. eapply w_get_by_key; [exact I2|exact R5|]. intros o c s3 I3 HX3 HS3 Ho Hc Hk.
    apply wp_bind, (w_conn_obj _ _ _ _ _ _ Ho). apply wp_bind. eapply w_get_subs; [exact I3|]. intros os s4 I4 HX4 HS4 HK4 HE4.
    apply wp_bind, (w_sub_objs _ _ _ _ _ HE4). intros xs HXS.
    pose proof (ex_hc _ _ HX4 _ _ Ho) as Ho4. apply wp_bind, (w_conn_obj _ _ _ _ _ _ Ho4).
    destruct (forallb sub_ok xs && negb (conn_ok c)) eqn:EB; [|exact I4].
    apply andb_prop in EB. destruct EB as [EB1 EB2]. apply negb_true_iff in EB2.
    apply wp_bind. eapply (w_op None None b); [exact HF|exact I4|exact Ho4| |auto].
    intros z s5 EO I5 HX5 Ho5. apply wp_bind, (w_conn_obj _ _ _ _ _ _ Ho5).
    pose proof (HS o c z s4 s5 I4 Ho4 EB2 EO I5 HX5 Ho5) as I6. cbn [cn_set_states cn_requester cn_cid].
    apply wp_bind. unfold up, out. apply w_act.
    - split.
      + apply HM. apply (all_segments_of _ o (cn_set_states z c) os xs s4 s5); auto; [apply I5|apply HX5|].
        intros x Hx. apply HP; [rewrite forallb_forall in EB1; auto|].
        destruct (Forall2_in_r _ _ _ HXS x Hx) as (ox & _ & Hox). exact (proj2 (i_sub _ _ _ _ _ I4) _ _ Hox).
      + cbn. intros c' E'. rewrite HAb in E'. inversion E'; subst c'.
        destruct (tb_hc _ (i_tab _ _ _ _ _ I5) _ _ Ho5) as (_ & _ & r' & Q1 & Q2 & Q3). exists (cn_key c), r'. auto.
    - apply keeps_out.
    - apply wp_bind. set (s6 := do_act _ s5) in *. clearbody s6.
      apply (w_iterP (a_urn g) (fun s => IM log s)); auto.
      intros f s7 Q Hf I7 HQ. destruct (HA f (cn_cid c) Hf) as [A1 A2]. eapply w_out_plain; [exact I7|exact A1|apply A2|]. intros s8 _ I8 _. auto.
  Qed.
  Lemma w_force_r r : forall o y s1 (Q : unit -> list call -> st -> Prop), inv (a_urn g) None None log s1 -> aget o (h_subs s1) = Some y ->
       (forall s2, going (a_urn g) (log := log) None None [o] s2 -> Q tt log s2) -> W (force_sub_r r o) Q IM log s1.
  Proof.
    intros o y s1 Q I Hy HQ. unfold force_sub_r. apply wp_bind, (w_sub_obj _ _ _ _ _ _ Hy). apply wp_bind.
    apply (w_set_sub _ None None o y (fun z => mkStates r (st_p z) (st_l z)) s1 _ _ [o]).
    - split; auto. intros o' [<-|[]]. eauto.
    - auto.
    - exact (proj2 (i_sub _ _ _ _ _ I) _ _ Hy).
    - intros s2 G2 _ _ _ _. eapply w_save_sub_going; eauto. left; reflexivity.
  Qed.
  Lemma w_force_l : forall cid, (exists h, In (CTerminateConfirmed h cid) log) ->
    forall o y s1 (Q : unit -> list call -> st -> Prop), inv (a_urn g) None None log s1 -> aget o (h_subs s1) = Some y -> sb_cid y = cid ->
       (forall s2, going (a_urn g) (log := log) None None [o] s2 -> Q tt log s2) -> W (force_sub_l LTerminated o) Q IM log s1.
  Proof.
    intros cid HL o y s1 Q I Hy Hc HQ. unfold force_sub_l. apply wp_bind, (w_sub_obj _ _ _ _ _ _ Hy). apply wp_bind.
    apply (w_set_sub _ None None o y (fun z => mkStates (st_r z) (st_p z) LTerminated) s1 _ _ [o]).
    - split; auto. intros o' [<-|[]]. eauto.
    - auto.
    - destruct (proj2 (i_sub _ _ _ _ _ I) _ _ Hy) as (S1 & S2 & S3). split; [exact S1|]. split; [|exact S3]. intros _. cbn. rewrite Hc. exact HL.
    - intros s2 G2 _ _ _ _. eapply w_save_sub_going; eauto. left; reflexivity.
  Qed.
  Lemma w_sub_provisioned : forall cid, (exists h, In (CProvisionConfirmed h cid) log) ->
    forall o y s1 (Q : unit -> list call -> st -> Prop), inv (a_urn g) None None log s1 -> aget o (h_subs s1) = Some y -> sb_cid y = cid ->
       (forall s2, going (a_urn g) (log := log) None None [o] s2 -> Q tt log s2) -> W (sub_state OpProvisioned o) Q IM log s1.
  Proof.
    intros cid HL o y s1 Q I Hy Hc HQ. unfold sub_state, set_sub_state. apply wp_bind. apply wp_bind, (w_sub_obj _ _ _ _ _ _ Hy).
    destruct (op_mem OpProvisioned (sb_states y)) as [z [e|]] eqn:EO; [exact I|].
    apply (w_set_sub _ None None o y (fun _ => z) s1 _ _ [o]).
    - split; auto. intros o' [<-|[]]. eauto.
    - auto.
    - destruct (proj2 (i_sub _ _ _ _ _ I) _ _ Hy) as (S1 & S2 & S3). split; [intros _; cbn; rewrite Hc; exact HL|]. split; [|exact S3].
      cbn. intros E. apply S2. unfold sb_l in *. destruct (sb_states y) as [r p l]; destruct p; vm_compute in EO; try discriminate; injection EO as <-; exact E.
    - intros s2 G2 _ _ _ _. eapply w_save_sub_going; eauto. left; reflexivity.
  Qed.
  Lemma w_sub_benign op : benign op -> forall o y s1 (Q : unit -> list call -> st -> Prop), inv (a_urn g) None None log s1 -> aget o (h_subs s1) = Some y ->
       (forall s2, going (a_urn g) (log := log) None None [o] s2 -> Q tt log s2) -> W (sub_state op o) Q IM log s1.
  Proof.
    intros HB o y s1 Q I Hy HQ. unfold sub_state. apply wp_bind.
    assert (G : going (a_urn g) (log := log) None None [o] s1) by (split; auto; intros o' [<-|[]]; eauto).
    eapply w_set_sub_state; [exact G|left; reflexivity|exact HB| |auto]. intros s2 G2. eapply w_save_sub_going; eauto. left; reflexivity.
  Qed.
  Lemma after_none : forall (f : string -> output) (c : string), In f [] -> plain (f c) /\ forall s, okact log s (AOut (f c)).
  Proof. intros f c []. Qed.
  Lemma w_commit_confirmed h cid s : IM log s -> W (commit_confirmed h cid) fin IM log s.
  Proof.
    intros I. unfold commit_confirmed. apply (w_collect _ _ _ _ _ _ (Some K2pc) (fun z => sb_r z = RStart)); auto.
    - intros o y s1 Q I1 Hy _ HQ. eapply w_force_r; eauto.
    - apply fits_reserved.
    - intros x E _. apply (proj1 (eqb_true (sb_r x) RStart)) in E. exact E.
    - intros f c [<-|[]]. split; [exact Logic.I|]. intros; split; exact Logic.I.
    - reflexivity.
    - intros o c y s1 s2 I1 _ _ _ I2 _ _. eapply inv_out_kind; [exact I2|reflexivity].
  Qed.
  Lemma w_abort_confirmed h cid s : IM log s -> W (abort_confirmed h cid) fin IM log s.
  Proof.
    intros I. unfold abort_confirmed. apply (w_collect _ _ _ _ _ _ (Some K2pc) (fun z => sb_r z = RStart)); auto using after_none.
    - intros o y s1 Q I1 Hy _ HQ. eapply w_force_r; eauto.
    - apply fits_reserved.
    - intros x E _. apply (proj1 (eqb_true (sb_r x) RStart)) in E. exact E.
    - reflexivity.
    - intros o c y s1 s2 I1 _ _ _ I2 _ _. eapply inv_out_kind; [exact I2|reflexivity].
  Qed.
  Lemma w_provision_confirmed h cid s : (exists h, In (CProvisionConfirmed h cid) log) -> IM log s -> W (provision_confirmed h cid) fin IM log s.
  Proof.
    intros HL I. unfold provision_confirmed. apply (w_collect _ _ _ _ _ _ (Some KProv) (fun z => sb_p z = PProvisioned /\ exists h, In (CProvisionConfirmed h (sb_cid z)) log)); auto using after_none.
    - intros o y s1 Q I1 Hy Hc HQ. eapply w_sub_provisioned; eauto.
    - apply fits_provisioned.
    - intros x E [SL _]. apply (proj1 (eqb_true (sb_p x) PProvisioned)) in E. auto.
    - reflexivity.
    - intros o c y s1 s2 I1 _ _ _ I2 _ _. eapply inv_out_kind; [exact I2|reflexivity].
  Qed.
  Lemma w_release_confirmed h cid s : IM log s -> W (release_confirmed h cid) fin IM log s.
  Proof.
    intros I. unfold release_confirmed. apply (w_collect _ _ _ _ _ _ (Some KRel) (fun z => sb_p z = PReleased)); auto using after_none.
    - intros o y s1 Q I1 Hy Hc HQ. eapply w_sub_benign; eauto. exact Logic.I.
    - apply fits_released.
    - intros x E _. apply (proj1 (eqb_true (sb_p x) PReleased)) in E. exact E.
    - reflexivity.
    - intros o c y s1 s2 I1 _ _ _ I2 _ _. eapply inv_out_kind; [exact I2|reflexivity].
  Qed.
  Lemma w_terminate_confirmed h cid s : (exists h, In (CTerminateConfirmed h cid) log) -> IM log s -> W (terminate_confirmed h cid) fin IM log s.
  Proof.
    intros HL I. unfold terminate_confirmed. apply (w_collect _ _ _ _ _ _ None (fun z => sb_l z = LTerminated /\ exists h, In (CTerminateConfirmed h (sb_cid z)) log)); auto.
    - intros o y s1 Q I1 Hy Hc HQ. eapply w_force_l; eauto.
    - apply fits_terminated.
    - intros x E (_ & SL & _). apply (proj1 (eqb_true (sb_l x) LTerminated)) in E. auto.
    - intros f c [<-|[]]. split; [exact Logic.I|]. intros; split; exact Logic.I.
    - reflexivity.
    - intros o c y s1 s2 I1 Ho HN EO I2 (_ & _ & (HO & _)) Ho2. apply inv_out_term; auto.
      + intros HW. destruct (i_term _ _ _ _ _ I1 HW (cn_cid c)) as [_ J]. unfold ocnt in *. rewrite HO.
        destruct (cnt (says (m_term (cn_cid c))) (outs s1)) eqn:EC; auto. destruct J as (c' & J1 & J2); [lia|].
        pose proof (cobj_obj _ _ _ (i_tab _ _ _ _ _ I1) Ho) as J3. assert (c' = c) by congruence. subst c'.
        rewrite J2, eqb_refl in HN. discriminate.
      + exists (cn_set_states y c). split; [apply (cobj_obj _ _ _ (i_tab _ _ _ _ _ I2) Ho2)|].
        unfold cn_l. cbn. destruct (cn_states c) as [r p l]; destruct l; vm_compute in EO; try discriminate; injection EO as <-; reflexivity.
  Qed.
End Run.
