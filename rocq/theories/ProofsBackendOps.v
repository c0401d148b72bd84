(** What the internal methods of the backend do to the local invariant. *)
From Coq Require Import Permutation.
From Verif Require Import Base ModelLabel ModelSTP ModelAuthz ModelNRM ModelCalendar ModelState ModelScheduler ModelBackend
  SpecCalendar SpecBackend ProofsCalendar ProofsScheduler ProofsBackendWp ProofsBackendFoc.
Open Scope Z_scope.

Definition down (v : view) : view := mkView false (v_com v) (v_exp v) (false :: v_hist v).
Definition quiet (y : output) : bool :=
  match y with OSetupDone _ true | OTeardown _ _ _ | OCommitConfirmed _ | OReserveTimeout _ => false | _ => true end.

Section Ops.
Variables (arm : Z -> option (task * Z) -> row -> Prop) (g : cfg) (cid : string) (D : list (string * row)) (R : list entry) (H : list (nat * row)) (o : nat) (Dl : Z -> Prop).
Notation F := (Foc arm g cid D R H o).
Notation WP := (wp Dl).

Lemma w_quiet y x s (Q : unit -> st -> Prop) (E : exn -> st -> Prop) : out_id y = cid -> quiet y = true -> F x s ->
  (forall s', F x s' -> now s' = now s -> Q tt s') -> WP (emits y) Q E s.
Proof.
  intros Hy Hq Fx K. eapply w_emits; [exact Hy|exact Fx|intros ->; discriminate Hq|]. intros s' F1 N1. apply K; [|exact N1].
  replace (see cid (lv x) y) with (lv x) in F1; [destruct x; exact F1|].
  unfold see. rewrite Hy, eqb_refl. destruct y; try reflexivity; try discriminate. destruct ok; [discriminate|reflexivity].
Qed.

Lemma w_teardown x s (Q : unit -> st -> Prop) (E : exn -> st -> Prop) : F x s ->
  (forall s', F (mkLoc (set_active false (lo x)) (lheld x) (ltm x) (down (lv x)) (set_active false (lo x)) (lrd x)) s' -> now s <= now s' -> Q tt s') ->
  WP (do_teardown g o) Q E s.
Proof.
  intros Fx K. pose proof (foc_oid _ _ _ _ _ _ _ _ _ Fx) as Hid.
  unfold do_teardown. apply w_bind. eapply w_obj; [exact Fx|].
  apply w_bind. eapply w_emits; [exact Hid|exact Fx|discriminate|]. intros s1 F1 N1.
  replace (see cid (lv x) (OTeardown (c_id (lo x)) (get_target g (c_sport (lo x)) (c_slabel (lo x))) (get_target g (c_dport (lo x)) (c_dlabel (lo x))))) with (down (lv x)) in F1
    by (unfold see; cbn [out_id]; rewrite Hid, eqb_refl; reflexivity).
  cbn [wp]. intros y dt _. cbn [answer]. pose proof (now_tick dt s1) as N2.
  apply (foc_tick arm g cid D R H o _ s1 dt) in F1. revert F1 N2. generalize (tick dt s1). intros s2 F2 N2.
  apply w_bind. eapply w_quiet; [exact Hid|reflexivity|exact F2|]. cbn [lr lheld ltm lv lo lrd]. intros s3 F3 N3.
  apply w_bind. eapply w_modify; [exact F3|reflexivity|]. cbn [lr lheld ltm lv lo lrd]. intros s4 F4 N4.
  destruct y as [y|].
  - apply w_bind. eapply w_save; [exact F4|]. cbn [lr lheld ltm lv lo lrd]. intros s5 F5 N5.
    eapply w_quiet; [exact Hid|reflexivity|exact F5|]. intros s6 F6 N6. apply K; [exact F6|lia].
  - apply w_catch. apply w_bind. eapply w_save; [exact F4|]. cbn [lr lheld ltm lv lo lrd]. intros s5 F5 N5.
    eapply w_quiet; [exact Hid|reflexivity|exact F5|]. intros s6 F6 N6. apply K; [exact F6|lia].
Qed.

Definition free_loc (x : loc) : loc :=
  if c_active (lo x) then mkLoc (set_active false (lo x)) false (ltm x) (down (lv x)) (set_active false (lo x)) (lrd x)
  else if c_alloc (lo x) || eqb (c_r (lo x)) RHeld then mkLoc (lr x) false (ltm x) (lv x) (lo x) (lrd x)
  else x.
Lemma free_loc_idle x : c_active (lo x) = false -> c_alloc (lo x) = false -> c_r (lo x) <> RHeld -> free_loc x = x.
Proof. intros H1 H2 H3. unfold free_loc. rewrite H1, H2, (eqb_neq _ _ H3). reflexivity. Qed.
Lemma w_free x s (Q : unit -> st -> Prop) (E : exn -> st -> Prop) : F x s ->
  (c_active (lo x) = true \/ c_alloc (lo x) = true \/ c_r (lo x) = RHeld -> lheld x = true) ->
  (forall s', F (free_loc x) s' -> now s <= now s' -> Q tt s') -> WP (do_free g o) Q E s.
Proof.
  intros Fx Hh K. unfold do_free, free_loc in *. apply w_bind. eapply w_obj; [exact Fx|].
  destruct (c_active (lo x)) eqn:Ea.
  - apply w_bind. eapply w_teardown; [exact Fx|]. intros s1 F1 N1. apply w_bind. eapply w_obj; [exact F1|]. cbn [lo].
    eapply w_remove; [exact F1|cbn; auto|reflexivity|]. cbn [lr lheld ltm lv lo lrd]. intros s2 F2 N2. apply K; [exact F2|lia].
  - destruct (c_alloc (lo x) || eqb (c_r (lo x)) RHeld) eqn:Eb.
    + eapply w_remove; [exact Fx| |apply Fx|].
      * apply Hh. right. apply orb_true_iff in Eb as [Eb|Eb]; [auto|]. right. apply eqb_true. exact Eb.
      * intros s2 F2 N2. apply K; [exact F2|lia].
    + cbn. apply K; [exact Fx|lia].
Qed.

Lemma w_endtime_bad x s (Q : unit -> st -> Prop) (E : exn -> st -> Prop) : F x s -> c_l (lo x) <> LCreated -> E EInvalidTransition s -> WP (do_endtime g o) Q E s.
Proof.
  intros Fx Hl K. unfold do_endtime. apply w_bind. eapply w_obj; [exact Fx|]. rewrite eqb_neq by exact Hl. exact K.
Qed.
Lemma w_endtime x s (Q : unit -> st -> Prop) (E : exn -> st -> Prop) : F x s -> c_l (lo x) = LCreated ->
  (c_active (lo x) = true \/ c_alloc (lo x) = true \/ c_r (lo x) = RHeld -> lheld x = true) ->
  (forall s', F (free_loc (mkLoc (with_l LPassedEnd (lo x)) (lheld x) None (lv x) (with_l LPassedEnd (lo x)) (lrd x))) s' -> now s <= now s' -> Q tt s') ->
  WP (do_endtime g o) Q E s.
Proof.
  intros Fx Hl Hh K. pose proof (foc_oid _ _ _ _ _ _ _ _ _ Fx) as Hid.
  unfold do_endtime. apply w_bind. eapply w_obj; [exact Fx|]. rewrite Hl. cbn [eqb EqB_lstate lstate_eqb negb].
  rewrite Hid. apply w_bind. eapply w_cancel; [exact Fx|]. intros s1 F1 N1.
  apply w_bind. eapply (w_state arm g cid D R H o Dl OpPassedEndtime); [exact F1| |].
  { cbn [lo op_mem]. unfold set_l, switch_state. fold (c_l (lo x)). rewrite Hl. cbn. reflexivity. }
  cbn [lr lheld ltm lv lo lrd]. intros s2 F2 N2.
  eapply w_free; [exact F2|exact Hh|]. intros s3 F3 N3. apply K; [exact F3|lia].
Qed.

(** rolling back a held reservation *)
Definition rolled (l : lstate) (tm : option (task * Z)) (x : loc) : loc :=
  let r := set_states (mkStates RStart (c_p (lo x)) l) (lo x) in mkLoc r false tm (lv x) r (lrd x).
Definition rollback_out (n : Z) (x x' : loc) : Prop :=
  (c_end (lo x) = None /\ x' = rolled (c_l (lo x)) None x) \/
  (exists e t1, c_end (lo x) = Some e /\ t1 <= e /\ t1 <= n /\ x' = rolled (c_l (lo x)) (Some (TEndtime o, e)) x) \/
  (exists e, c_end (lo x) = Some e /\ e < n /\ x' = rolled LPassedEnd None x).
Lemma op_abort c : op_mem OpReserveAbort c =
  match st_r c with RHeld | RFailed | RTimeout => (mkStates RAborting (st_p c) (st_l c), None) | _ => (c, Some EInternalServer) end.
Proof. destruct c as [[] p l]; reflexivity. Qed.
Lemma w_rollback x s (Q : unit -> st -> Prop) (E : exn -> st -> Prop) : F x s ->
  c_r (lo x) = RHeld \/ c_r (lo x) = RTimeout -> c_l (lo x) = LCreated -> c_alloc (lo x) = false -> c_active (lo x) = false -> lheld x = true ->
  (forall x' s', F x' s' -> now s <= now s' -> rollback_out (now s') x x' -> Q tt s') -> WP (do_rollback g o) Q E s.
Proof.
  intros Fx Hr Hl Ha Hact Hh K. pose proof (foc_oid _ _ _ _ _ _ _ _ _ Fx) as Hid.
  unfold do_rollback. apply w_catch. apply w_bind. eapply (w_state arm g cid D R H o Dl OpReserveAbort); [exact Fx|rewrite op_abort; fold (c_r (lo x)); destruct Hr as [-> | ->]; reflexivity|].
  cbn [lr lheld ltm lv lo lrd]. intros s1 F1 N1.
  apply w_bind. eapply w_obj; [exact F1|]. cbn [lo]. change (c_id (set_states _ (lo x))) with (c_id (lo x)). rewrite Hid.
  apply w_bind. eapply w_cancel; [exact F1|]. cbn [lr lheld ltm lv lo lrd]. intros s2 F2 N2.
  apply w_bind. eapply w_remove; [exact F2|exact Hh|reflexivity|]. cbn [lr lheld ltm lv lo lrd]. intros s3 F3 N3.
  apply w_bind. eapply (w_state arm g cid D R H o Dl OpReserved); [exact F3|reflexivity|].
  cbn [lr lheld ltm lv lo lrd]. intros s4 F4 N4.
  apply w_bind. eapply w_obj; [exact F4|]. cbn [lo]. apply w_bind. cbn [get wp].
  change (c_end (set_states _ (set_states _ (lo x)))) with (c_end (lo x)).
  change (c_id (set_states _ (set_states _ (lo x)))) with (c_id (lo x)). rewrite Hid.
  assert (N : now s <= now s4) by lia.
  assert (Hrow : set_states (mkStates RStart (st_p (c_states (set_states (mkStates RAborting (st_p (c_states (lo x))) (st_l (c_states (lo x)))) (lo x))))
                   (st_l (c_states (set_states (mkStates RAborting (st_p (c_states (lo x))) (st_l (c_states (lo x)))) (lo x)))))
                   (set_states (mkStates RAborting (st_p (c_states (lo x))) (st_l (c_states (lo x)))) (lo x))
                 = set_states (mkStates RStart (c_p (lo x)) (c_l (lo x))) (lo x)) by reflexivity.
  rewrite Hrow in F4. clear Hrow.
  destruct (c_end (lo x)) as [e|] eqn:Ee.
  - destruct (now s4 >? e) eqn:Et.
    + eapply w_endtime; [exact F4|exact Hl| |].
      { cbn. change (c_active (set_states _ (lo x))) with (c_active (lo x)). change (c_alloc (set_states _ (lo x))) with (c_alloc (lo x)).
        rewrite Ha, Hact. intros [?|[?|?]]; discriminate. }
      cbn [lr lheld ltm lv lo lrd]. intros s5 F5 N5. eapply K; [exact F5|lia|]. right. right. exists e. split; [exact Ee|]. split; [lia|].
      rewrite free_loc_idle; [reflexivity|exact Hact|exact Ha|discriminate].
    + eapply w_schedule; [exact F4|reflexivity| |].
      * intros _ s5 F5 N5. cbn [lr lheld ltm lv lo lrd] in F5. eapply K; [exact F5|lia|]. right. left. exists e, (now s4).
        split; [exact Ee|]. split; [lia|]. split; [lia|]. unfold rolled. rewrite Z.max_l by lia. reflexivity.
      * intros Hlt. exfalso. unfold second in Hlt. lia.
  - cbn. eapply K; [exact F4|exact N|]. left. split; [exact Ee|reflexivity].
Qed.
Lemma w_rollback_illegal x s (Q : unit -> st -> Prop) (E : exn -> st -> Prop) : F x s ->
  c_r (lo x) <> RHeld -> c_r (lo x) <> RTimeout -> c_r (lo x) <> RFailed ->
  (forall s', F x s' -> now s <= now s' -> Q tt s') -> WP (do_rollback g o) Q E s.
Proof.
  intros Fx H1 H2 H3 K. unfold do_rollback. apply w_catch. apply w_bind.
  eapply (w_state arm g cid D R H o Dl OpReserveAbort _ _ _ _ (c_states (lo x)) (Some EInternalServer)); [exact Fx| |].
  { rewrite op_abort. fold (c_r (lo x)). destruct (c_r (lo x)); congruence. }
  intros s1 F1 N1. cbn. apply K; [|exact N1]. destruct x as [r h t v [] rd]. exact F1.
Qed.
(** rolling back one whose entries are not in the calendar: gives up half way *)
Lemma w_rollback_absent x s (Q : unit -> st -> Prop) (E : exn -> st -> Prop) : F x s ->
  c_r (lo x) = RHeld -> lheld x = false -> (forall e, In e (bk g (lr x)) -> ~ In e R) ->
  (forall s', F (mkLoc (with_r RAborting (lo x)) false None (lv x) (with_r RAborting (lo x)) (lrd x)) s' -> now s <= now s' -> Q tt s') ->
  WP (do_rollback g o) Q E s.
Proof.
  intros Fx Hr Hh Hno K. pose proof (foc_oid _ _ _ _ _ _ _ _ _ Fx) as Hid.
  unfold do_rollback. apply w_catch. apply w_bind. eapply (w_state arm g cid D R H o Dl OpReserveAbort); [exact Fx|rewrite op_abort; fold (c_r (lo x)); rewrite Hr; reflexivity|].
  cbn [lr lheld ltm lv lo lrd]. intros s1 F1 N1.
  apply w_bind. eapply w_obj; [exact F1|]. cbn [lo]. change (c_id (set_states _ (lo x))) with (c_id (lo x)). rewrite Hid.
  apply w_bind. eapply w_cancel; [exact F1|]. cbn [lr lheld ltm lv lo lrd]. intros s2 F2 N2.
  apply w_bind. eapply w_remove_absent; [exact F2|exact Hh|reflexivity| |].
  { cbn [lr]. intros e. rewrite (core_bk g _ (lr x)) by (cbn; apply (f_core _ _ _ _ _ _ _ _ _ Fx)). apply Hno. }
  cbn. rewrite Hh in F2. apply K; [exact F2|lia].
Qed.

(** setting up the link; an object without a pending timer *)
Definition up_view (v : view) : view := mkView true (v_com v) (v_exp v) (true :: v_hist v).
Definition activated (n : Z) (x x' : loc) : Prop :=
  x' = mkLoc (set_active false (lo x)) (lheld x) None (lv x) (set_active false (lo x)) (lrd x) \/
  (c_end (lo x) = None /\ x' = mkLoc (set_active true (lo x)) (lheld x) None (up_view (lv x)) (set_active true (lo x)) (lrd x)) \/
  exists e due, c_end (lo x) = Some e /\ e <= due /\ due <= Z.max e n /\
    x' = mkLoc (set_active true (lo x)) (lheld x) (Some (TEndtime o, due)) (up_view (lv x)) (set_active true (lo x)) (lrd x).
Lemma w_activate x s (Q : unit -> st -> Prop) (E : exn -> st -> Prop) : F x s -> ltm x = None ->
  (forall k r', aget k D = Some r' -> c_active r' = true -> apart g (lr x) r') ->
  (forall x' s', F x' s' -> now s <= now s' -> activated (now s') x x' -> Q tt s') -> WP (do_activate g o) Q E s.
Proof.
  intros Fx Htm Hap K. pose proof (foc_oid _ _ _ _ _ _ _ _ _ Fx) as Hid.
  unfold do_activate. apply w_bind. eapply w_obj; [exact Fx|].
  apply w_bind. eapply w_quiet; [exact Hid|reflexivity|exact Fx|]. intros s1 F1 N1.
  cbn [wp]. intros y dt _. cbn [answer]. pose proof (now_tick dt s1) as N2.
  apply (foc_tick arm g cid D R H o x s1 dt) in F1. revert F1 N2. generalize (tick dt s1). intros s2 F2 N2.
  apply w_bind. eapply w_emits; [exact Hid|exact F2|intros _; exact Hap|]. intros s3 F3 N3.
  destruct y as [y|].
  - replace (see cid (lv x) (OSetupDone (c_id (lo x)) false)) with (lv x) in F3 by (unfold see; destruct (eqb _ _); reflexivity).
    apply w_bind. eapply w_modify; [exact F3|reflexivity|]. cbn [lr lheld ltm lv lo lrd]. intros s4 F4 N4.
    apply w_bind. eapply w_save; [exact F4|]. cbn [lr lheld ltm lv lo lrd]. intros s5 F5 N5.
    eapply w_quiet; [exact Hid|reflexivity|exact F5|]. intros s6 F6 N6. rewrite Htm in F6. eapply K; [exact F6|lia|]. left. reflexivity.
  - replace (see cid (lv x) (OSetupDone (c_id (lo x)) true)) with (up_view (lv x)) in F3
      by (unfold see; cbn [out_id]; rewrite Hid, eqb_refl; reflexivity).
    apply w_catch. apply w_bind. eapply w_modify; [exact F3|reflexivity|]. cbn [lr lheld ltm lv lo lrd]. intros s4 F4 N4.
    apply w_bind. eapply w_save; [exact F4|]. cbn [lr lheld ltm lv lo lrd]. intros s5 F5 N5. rewrite Htm in F5.
    apply w_bind. cbn [get wp]. apply w_bind. rewrite Hid. destruct (c_end (lo x)) as [e|] eqn:Ee.
    + eapply w_schedule; [exact F5|reflexivity| |].
      * intros _ s6 F6 N6. cbn [lr lheld ltm lv lo lrd] in F6. eapply w_quiet; [reflexivity|reflexivity|exact F6|].
        intros s7 F7 N7. eapply K; [exact F7|lia|]. right. right. eexists e, _. split; [exact Ee|]. split; [|split; [|reflexivity]].
        { destruct (e <? now s5) eqn:E5; lia. }
        { destruct (e <? now s5) eqn:E5; lia. }
      * intros Hlt. exfalso. unfold second in Hlt. destruct (e <? now s5) eqn:E5; lia.
    + cbn [wp]. eapply w_quiet; [reflexivity|reflexivity|exact F5|].
      intros s6 F6 N6. eapply K; [exact F6|lia|]. right. left. split; [exact Ee|reflexivity].
Qed.

(** expiry *)
Lemma op_timeout c : op_mem OpReserveTimeout c =
  match st_r c with RHeld => (mkStates RTimeout (st_p c) (st_l c), None) | _ => (c, Some EInternalServer) end.
Proof. destruct c as [[] p l]; reflexivity. Qed.
Definition exp_view (v : view) : view := mkView (v_up v) (v_com v) true (v_hist v).
Definition with_v (v : view) (x : loc) : loc := mkLoc (lr x) (lheld x) (ltm x) v (lo x) (lrd x).
Lemma w_timeout x s (Q : unit -> st -> Prop) (E : exn -> st -> Prop) : F x s ->
  c_r (lo x) = RHeld -> c_l (lo x) = LCreated -> c_alloc (lo x) = false -> c_active (lo x) = false -> lheld x = true ->
  (forall x' s', F (with_v (if self_cancel g then lv x else exp_view (lv x)) x') s' -> now s <= now s' -> rollback_out (now s') x x' ->
     (self_cancel g = false -> In (OReserveTimeout cid) (outs s')) -> Q tt s') ->
  WP (do_timeout g o) Q E s.
Proof.
  intros Fx Hr Hl Ha Hact Hh K. pose proof (foc_oid _ _ _ _ _ _ _ _ _ Fx) as Hid.
  unfold do_timeout. apply w_catch. apply w_bind.
  eapply (w_state arm g cid D R H o Dl OpReserveTimeout); [exact Fx|rewrite op_timeout; fold (c_r (lo x)); rewrite Hr; reflexivity|].
  cbn [lr lheld ltm lv lo lrd]. intros s1 F1 N1.
  apply w_bind. eapply w_rollback; [exact F1|right; reflexivity|exact Hl|exact Ha|exact Hact|exact Hh|].
  intros x' s2 F2 N2 Hout. cbn [lo lv lrd] in Hout.
  assert (Hout' : rollback_out (now s2) x x').
  { unfold rollback_out in *. exact Hout. }
  assert (Hlv : lv x' = lv x /\ c_id (lo x') = cid).
  { split; [|apply (foc_oid _ _ _ _ _ _ _ _ _ F2)]. destruct Hout' as [(_ & ->)|[(e & t1 & _ & _ & _ & ->)|(e & _ & _ & ->)]]; reflexivity. }
  destruct Hlv as [Hlv Hid']. apply w_bind. destruct (self_cancel g) eqn:Es.
  - cbn. apply (K x'); [|lia|exact Hout'|discriminate]. unfold with_v. rewrite <- Hlv. destruct x'; exact F2.
  - cbn [wp]. apply w_bind. eapply w_obj; [exact F2|]. rewrite Hid'.
    pose proof (foc_emit _ _ _ _ _ _ _ _ _ (OReserveTimeout cid) F2 eq_refl ltac:(discriminate)) as F3.
    cbn [emits upd wp]. apply (K x').
    + unfold with_v. replace (exp_view (lv x)) with (see cid (lv x') (OReserveTimeout cid)); [exact F3|].
      unfold see. cbn [out_id]. rewrite eqb_refl, Hlv. reflexivity.
    + unfold now in *. cbn. lia.
    + exact Hout'.
    + intros _. cbn. apply in_app_iff. right. left. reflexivity.
Qed.

(** the task that follows a reservation *)
Lemma w_reserve_task corr x s (Q : unit -> st -> Prop) (E : exn -> st -> Prop) : F x s ->
  c_r (lo x) = RStart -> ltm x = None ->
  (forall x' s', F x' s' -> now s <= now s' ->
     (exists t1 due, now s <= t1 <= now s' /\ due = Z.max (match c_end (lo x) with Some e => Z.min (t1 + TPC_TIMEOUT) e | None => t1 + TPC_TIMEOUT end) t1 /\
        x' = mkLoc (with_r RHeld (lo x)) (lheld x) (Some (TTimeout o, due)) (lv x) (with_r RHeld (lo x)) (lrd x)) ->
     Q tt s') ->
  (forall x' s' e, F x' s' -> now s <= now s' -> c_end (lo x) = Some e -> e < now s' - second ->
     x' = mkLoc (with_r RHeld (lo x)) (lheld x) None (lv x) (with_r RHeld (lo x)) (lrd x) -> E EAssertion s') ->
  WP (do_reserve o corr) Q E s.
Proof.
  intros Fx Hr Htm K1 K2. pose proof (foc_oid _ _ _ _ _ _ _ _ _ Fx) as Hid.
  unfold do_reserve. apply w_bind.
  eapply (w_state arm g cid D R H o Dl (OpReserveMulti [RChecking; RHeld])); [exact Fx| |].
  { cbn [op_mem multi_switch]. unfold set_r, switch_state. fold (c_r (lo x)). rewrite Hr. cbn. reflexivity. }
  cbn [lr lheld ltm lv lo lrd]. intros s1 F1 N1.
  cbn [st_p st_l] in F1. change (set_states (mkStates RHeld (st_p (c_states (lo x))) (st_l (c_states (lo x)))) (lo x)) with (with_r RHeld (lo x)) in F1.
  apply w_bind. eapply w_obj; [exact F1|]. cbn [lo]. change (c_id (with_r RHeld (lo x))) with (c_id (lo x)). rewrite Hid.
  apply w_bind. cbn [get wp]. apply w_bind.
  set (y := mkLoc (with_r RHeld (lo x)) (lheld x) None (lv x) (with_r RHeld (lo x)) (lrd x)).
  rewrite Htm in F1. fold y in F1.
  assert (Hgo : forall s2, F y s2 -> now s1 <= now s2 <= now s1 -> WP
     (schedule cid match c_end (with_r RHeld (lo x)) with Some e => Z.min (now s1 + TPC_TIMEOUT) e | None => now s1 + TPC_TIMEOUT end (TTimeout o) ;;;
      emits (OReserveConfirmed cid corr) ;;; await WParent) Q E s2).
  { intros s2 F2 N2. apply w_bind. change (c_end (with_r RHeld (lo x))) with (c_end (lo x)).
    eapply w_schedule; [exact F2|reflexivity| |].
    - intros _ s3 F3 N3. cbn [lr lheld ltm lv lo lrd y] in F3.
      apply w_bind. eapply w_quiet; [reflexivity|reflexivity|exact F3|]. intros s4 F4 N4.
      eapply w_await; [discriminate|exact F4|]. intros s5 F5 N5. eapply K1; [exact F5|lia|].
      assert (Hn2 : now s2 = now s1) by lia. rewrite Hn2 in F5. eexists (now s1), _. split; [lia|]. split; [reflexivity|]. rewrite Hn2. reflexivity.
    - intros Hlt. unfold TPC_TIMEOUT, second in *. destruct (c_end (lo x)) as [e|] eqn:Ee; [|lia].
      eapply (K2 y); [exact F2|lia|reflexivity|lia|reflexivity]. }
  destruct (has_scheduled_call cid (sch s1)).
  - eapply w_cancel; [exact F1|]. intros s2 F2 N2. apply Hgo; [exact F2|lia].
  - cbn [wp]. apply Hgo; [exact F1|lia].
Qed.
End Ops.
