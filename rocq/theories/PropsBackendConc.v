(** Properties C34 and C36: the backend with overlapping operations. *)
From Verif Require Import Base ModelLabel ModelSTP ModelAuthz ModelNRM ModelCalendar ModelState ModelScheduler ModelBackend ModelBackendConc
  SpecBackend SpecBackendConc ProofsConcEnd ProofsConcSetup ProofsConcRefuse PropsBackend.
Open Scope Z_scope.

(** ** C34 *)
(** whatever the interleaving, the answers and the times: a link is only set up
    for ports and labels for which an acceptable reservation, an authorized commit and an authorized
    provision before the end time were received for that connection *)
Theorem C34_setup : forall g t0 l cid a b, let m := mrun g (minit t0) l in
  In (OSetup cid a b) (outs (m_st m)) ->
  exists sp sl dp dl en, a = get_target g sp sl /\ b = get_target g dp dl /\
    reserved g (m_log m) cid sp sl dp dl en /\ committed g (m_log m) cid sp dp /\ provisioned g (m_log m) cid sp dp en.
Proof. exact setup_justified. Qed.
Print Assumptions C34_setup.

(** a request on a connection that is unknown, not authorized or terminated when
    looked up fails and changes nothing, whatever the others do meanwhile *)
Theorem C34_refused : forall g o h cid s u r, aimed o h cid -> among (refusable g o h cid) [] (op_prog g o) s u r ->
  (exists e, r = Err e) /\ Forall (fun x => quiet (fst x) (snd x)) u.
Proof. exact refused. Qed.
Print Assumptions C34_refused.

(** all the answers method [i] needs, successes *)
Definition answers (i n : nat) : list event := repeat (EAnswer i None) n.
(** reserve, its second part, commit; then provision up to the start of the activation *)
Definition cx_resv (en : option Z) : list event :=
  ECall (Reserve ex_hdr (ex_req "A" 105 106 None en)) :: answers 0 3 ++ EStart 0 :: answers 1 3 ++
  ECall (Commit ex_hdr "A") :: answers 2 5.
Definition cx_prov (en : option Z) : list event := cx_resv en ++ ECall (Provision ex_hdr "A") :: answers 3 4 ++ [EStart 0] ++ answers 3 2.
Definition cx_run (l : list event) : mach := mrun (ex_cfg false false) (minit 0) l.

Example C34_ex : let m := cx_run (cx_prov (Some (sec 100))) in
  outs (m_st m) = [OReserveConfirmed "A" "corr"; OCommitConfirmed "A"; OSetup "A" "ps#105" "bon#105"; OProvisionConfirmed "A"] /\
  map snd (m_done m) = [Ok "A"; Ok ""; Ok "A"; Ok "A"] /\ map fst (m_tasks m) = [4%nat] /\
  m_log m = [(0, Reserve ex_hdr (ex_req "A" 105 106 None (Some (sec 100)))); (0, Commit ex_hdr "A"); (0, Provision ex_hdr "A")] /\
  (* not committed, or after the end: no set up *)
  outs (m_st (cx_run (firstn 8 (cx_resv None) ++ ECall (Provision ex_hdr "A") :: answers 2 5))) = [OReserveConfirmed "A" "corr"] /\
  map snd (m_done (cx_run (firstn 8 (cx_resv None) ++ ECall (Provision ex_hdr "A") :: answers 2 5))) = [Ok "A"; Ok ""; Err EConnection] /\
  map snd (m_done (cx_run (cx_resv (Some (sec 100)) ++ ETick (sec 100) :: ECall (Provision ex_hdr "A") :: answers 3 5))) = [Ok "A"; Ok ""; Ok "A"; Err EConnectionGone].
Proof. vm_compute. repeat split; reflexivity. Qed.
(** a refused request among others: provision of an unknown connection *)
Example C34_ex_refused : exists u r, among (refusable (ex_cfg false false) (Provision ex_hdr "B") ex_hdr "B") [] (op_prog (ex_cfg false false) (Provision ex_hdr "B"))
  (m_st (cx_run (cx_resv None))) u r.
Proof.
  assert (E : aget "B" (db (m_st (cx_run (cx_resv None)))) = None) by (vm_compute; reflexivity).
  revert E. generalize (m_st (cx_run (cx_resv None))). intros s E. exists [], (Err EConnectionNonExistent).
  cbn [op_prog]. unfold provision, open_connection, get_connection, await. cbn [bind]. apply (among_wait _ _ _ _ _ None s).
  - intros r X. congruence.
  - reflexivity.
  - cbn [bind get]. apply among_get. rewrite E. cbn [bind]. apply (among_wait _ _ _ _ _ None s).
    + intros r X. congruence.
    + reflexivity.
    + apply among_throw.
Qed.
(** and of a terminated one: an object is loaded *)
Definition cx_ended : list event := cx_resv None ++ ECall (Terminate ex_hdr "A") :: answers 3 7.
Example C34_ex_terminated : let m := cx_run cx_ended in
  (exists r, aget "A" (db (m_st m)) = Some r /\ c_l r = LTerminated) /\
  let m' := mrun (ex_cfg false false) m (ECall (Provision ex_hdr "A") :: answers 4 5) in
  m_done m' = m_done m ++ [(4%nat, Err EConnectionGone)] /\ outs (m_st m') = outs (m_st m) /\ db (m_st m') = db (m_st m).
Proof. vm_compute. split; [eexists; split; reflexivity|]. repeat split; reflexivity. Qed.

(** ** C36 *)
Definition is_terminated (d : option row) : bool := match d with Some r => eqb (c_l r) LTerminated | None => false end.
Lemma back_false d1 d2 : is_terminated d1 = true -> is_terminated d2 = false ->
  (forall r, d1 = Some r -> c_l r = LTerminated -> exists r', d2 = Some r' /\ c_l r' = LTerminated) -> False.
Proof.
  intros V1 V2 H. destruct d1 as [r|]; [|discriminate]. cbn in V1. apply (proj1 (eqb_true (c_l r) LTerminated)) in V1.
  destruct (H r eq_refl V1) as (r' & -> & L). cbn in V2. rewrite L, eqb_refl in V2. discriminate.
Qed.
Definition left_up (cid : string) (m : mach) : bool :=
  is_terminated (aget cid (db (m_st m))) && link_up cid (outs (m_st m)) &&
  match m_tasks m, ready (m_st m), s_queue (sch (m_st m)) with [], [], [] => true | _, _, _ => false end.
Lemma left_up_settled cid m : left_up cid m = true ->
  (exists r, aget cid (db (m_st m)) = Some r /\ c_l r = LTerminated) /\ settled cid m /\ link_up cid (outs (m_st m)) = true.
Proof.
  unfold left_up. rewrite !andb_true_iff. intros [[V1 V2] V3]. split; [|split; [|exact V2]].
  - destruct (aget cid (db (m_st m))) as [r|]; [|discriminate]. apply (proj1 (eqb_true (c_l r) LTerminated)) in V1. eauto.
  - destruct (m_tasks m) eqn:E1; [|discriminate]. destruct (ready (m_st m)) eqn:E2; [|discriminate]. destruct (s_queue (sch (m_st m))) eqn:E3; [|discriminate].
    split; [|split]; [rewrite E1; intros ? ? ? []|rewrite E2; intros ? []|rewrite E3; intros id t _ X; discriminate].
Qed.
Definition cx_back1 : list event := cx_prov None ++ ECall (Terminate ex_hdr "A") :: answers 5 8.
Definition cx_back2 : list event := EAnswer 4 None :: answers 4 3.
Definition cx_up : list event := cx_prov None ++ ECall (Terminate ex_hdr "A") :: answers 5 3 ++ EAnswer 4 None :: answers 4 3 ++ answers 5 8.
(** The stored lifecycle state goes back from Terminated: an activation waiting for
    the device keeps its own copy of the row, and saves it after the
    connection was terminated *)
Theorem C36_lifecycle_refuted : ~ (forall g t0 l1 l2 cid r, aget cid (db (m_st (mrun g (minit t0) l1))) = Some r -> c_l r = LTerminated ->
  exists r', aget cid (db (m_st (mrun g (minit t0) (l1 ++ l2)))) = Some r' /\ c_l r' = LTerminated).
Proof.
  intros H. refine (back_false _ _ _ _ (H (ex_cfg false false) 0 cx_back1 cx_back2 "A")); vm_compute; reflexivity.
Qed.
Print Assumptions C36_lifecycle_refuted.
Example C36_ex_back : let m := cx_run (cx_prov None ++ ECall (Terminate ex_hdr "A") :: answers 5 8 ++ EAnswer 4 None :: answers 4 3) in
  map (fun kr => (fst kr, (c_l (snd kr), c_p (snd kr), c_active (snd kr)))) (db (m_st m)) = [("A", (LCreated, PProvisioned, true))] /\
  cal (m_st m) = [] /\ m_tasks m = [] /\ link_up "A" (outs (m_st m)) = true /\
  outs (m_st m) = [OReserveConfirmed "A" "corr"; OCommitConfirmed "A"; OSetup "A" "ps#105" "bon#105"; OProvisionConfirmed "A";
                   OTerminateConfirmed "A"; OSetupDone "A" true; ODataPlane "A" true].
Proof. vm_compute. repeat split; reflexivity. Qed.

(** ** C35, with overlapping operations *)
(** A requester is told that the data plane of a connection is up only if the device has
    set it up, and down only if the device has taken it down; *)
Theorem C35_told : forall g t0 l cid active, let m := mrun g (minit t0) l in In (ODataPlane cid active) (outs (m_st m)) ->
  In (if active then OSetupDone cid true else OTeardownDone cid true) (outs (m_st m)).
Proof. intros g t0 l cid active. exact (out_justified g t0 l (ODataPlane cid active)). Qed.
Print Assumptions C35_told.
(** that one of these failed only if the device has failed at it. *)
Theorem C35_told_failed : forall g t0 l cid event, let m := mrun g (minit t0) l in In (OErrorEvent cid event) (outs (m_st m)) ->
  event = "activateFailed" /\ In (OSetupDone cid false) (outs (m_st m)) \/ event = "deactivateFailed" /\ In (OTeardownDone cid false) (outs (m_st m)).
Proof. intros g t0 l cid event. exact (out_justified g t0 l (OErrorEvent cid event)). Qed.
Print Assumptions C35_told_failed.
Example C35_ex_told : let up := cx_prov None ++ EAnswer 4 None :: answers 4 5 in let told l := skipn 4 (outs (m_st (cx_run l))) in
  told (up ++ ECall (Release ex_hdr "A") :: answers 5 10) =
    [OSetupDone "A" true; ODataPlane "A" true; OTeardown "A" "ps#105" "bon#105"; OTeardownDone "A" true; ODataPlane "A" false; OReleaseConfirmed "A"] /\
  told (up ++ ECall (Terminate ex_hdr "A") :: answers 5 4 ++ EAnswer 5 (Some EValue) :: answers 5 10) =
    [OSetupDone "A" true; ODataPlane "A" true; OTeardown "A" "ps#105" "bon#105"; OTeardownDone "A" false; OErrorEvent "A" "deactivateFailed"; OTerminateConfirmed "A"] /\
  told (cx_prov None ++ EAnswer 4 (Some EValue) :: answers 4 5) = [OSetupDone "A" false; OErrorEvent "A" "activateFailed"].
Proof. vm_compute. repeat split; reflexivity. Qed.

(** A terminated connection's link is left up, with nothing going on any more that
    would take it down: the device answers while the termination, which has
    already looked at the row, is waiting *)
Theorem C36_link_refuted : ~ (forall g t0 l cid r, let m := mrun g (minit t0) l in
  aget cid (db (m_st m)) = Some r -> c_l r = LTerminated -> settled cid m -> link_up cid (outs (m_st m)) = false).
Proof.
  intros H. specialize (H (ex_cfg false false) 0 cx_up "A"). cbn zeta in H.
  assert (V : left_up "A" (mrun (ex_cfg false false) (minit 0) cx_up) = true) by (vm_compute; reflexivity).
  revert H V. generalize (mrun (ex_cfg false false) (minit 0) cx_up). intros m H V.
  apply left_up_settled in V as ((r & E & L) & S & U). rewrite (H r E L S) in U. discriminate.
Qed.
Print Assumptions C36_link_refuted.

(** What holds: once nothing is going on for a terminated connection (no method
    on it is suspended or about to start, no call is scheduled), its row stays as
    it is and nothing is ever sent or done for it again, in every interleaving of
    whatever follows, restarts included *)
Theorem C36_terminated_partial : forall g t0 l1 l2 cid r, let m := mrun g (minit t0) l1 in let m' := mrun g m l2 in
  settled cid m -> aget cid (db (m_st m)) = Some r -> c_l r = LTerminated ->
  aget cid (db (m_st m')) = Some r /\ exists l, outs (m_st m') = outs (m_st m) ++ l /\ Forall (fun x => conn_of x <> cid) l.
Proof. exact terminated_stays. Qed.
Print Assumptions C36_terminated_partial.
Example C36_ex : let m := cx_run cx_ended in settled "A" m /\ m_tasks m = [] /\ link_up "A" (outs (m_st m)) = false /\
  (exists r, aget "A" (db (m_st m)) = Some r /\ c_l r = LTerminated) /\
  (* other connections go on, the same id is refused *)
  let m' := mrun (ex_cfg false false) m (ECall (Reserve ex_hdr (ex_req "A" 105 106 None None)) :: answers 4 5 ++ ECall (Reserve ex_hdr (ex_req "B" 107 107 None None)) :: answers 5 5) in
  m_done m' = m_done m ++ [(4%nat, Err EDatabase); (5%nat, Ok "B")].
Proof.
  split; [|vm_compute; split; [reflexivity|]; split; [reflexivity|]; split; [eexists; split; reflexivity|reflexivity]].
  split; [|split]; vm_compute; try tauto. intros id t _ X. discriminate.
Qed.
