(** Properties C41-C43 and C46: runs of the aggregator.

    [mrun g true] runs with a database that answers at once: calls interleave where
    they wait for providers, not in the middle of reading or writing rows.  In
    [mrun g false] they interleave at every wait.  A run may have any number of
    restarts of the process in it ([EvRestart]), which keep the rows and nothing
    else. *)
From Verif Require Import ProofsAggregator ProofsAggKinds Base ModelLabel ModelSTP ModelAuthz ModelNRM ModelState ModelLinkVector ModelProvreg ModelAggregator SpecAggregator
  SpecAggInv ProofsAggInv ProofsAggTab ProofsAggAct ProofsAggHelp ProofsAggRun ProofsAggRun2 ProofsAggQRun ProofsAggTokens ProofsAggOrder ProofsConnId PropsAggregator.
Open Scope Z_scope.

Definition ag_conf (u : string) (k : nat) (id : string) : event := EvCall (CReserveConfirmed (re u k) id (mkSTP "A" "src" ag_label) (mkSTP "A" "p1" ag_label)).

(** ** C41 *)
(** Missing in the partial ones: interleaving within database operations, see
    [C41_once_refuted]. *)
Theorem C41_once_partial : forall g reg rv l cid, (sent (m_conf cid) (mrun g true (minit reg rv) l) <= 1)%nat.
Proof. intros g reg rv l cid. destruct (run_inv g reg rv l) as (GH & [[I _] _] & HW). apply (rs_one _ _ _ _ (i_res _ _ _ _ _ I)). Qed.
Print Assumptions C41_once_partial.
(** only after every agent asked for a segment has confirmed *)
Theorem C41_all_partial : forall g reg rv l cid corr prov, let m := mrun g true (minit reg rv) l in
  (0 < sent (m_conf cid) m)%nat -> seg (a_urn g) (outs (m_st m)) corr prov cid -> confirmed_by (m_log m) corr prov.
Proof. intros g reg rv l cid corr prov m H S. destruct (run_inv g reg rv l) as (GH & [[I _] _] & HW). eapply (rs_all _ _ _ _ (i_res _ _ _ _ _ I)); eauto. Qed.
Print Assumptions C41_all_partial.
(** never together with a failure *)
Theorem C41_failed_partial : forall g reg rv l cid, let m := mrun g true (minit reg rv) l in
  (0 < sent (m_fail cid) m)%nat -> sent (m_conf cid) m = 0%nat.
Proof.
  intros g reg rv l cid m H. destruct (run_inv g reg rv l) as (GH & [[I _] _] & HW). fold m in I.
  pose proof (rs_conf _ _ _ _ (i_res _ _ _ _ _ I) cid) as C. unfold ocnt, sent in *. destruct (cnt (says (m_conf cid)) (outs (m_st m))); auto.
  destruct C as (_ & C & _); [apply Nat.lt_0_succ|]. rewrite C in H. inversion H.
Qed.
Print Assumptions C41_failed_partial.
(** at the moment of sending, every stored segment is held *)
Theorem C41_held_partial : forall g reg rv l e s r cid gid a b x y z, let m := mrun g true (minit reg rv) l in
  In (s, AOut (OUp r (UReserveConfirmed cid gid a b x y z))) (step_acts g true m e) -> all_segments (fun sc => sb_r sc = RHeld) cid s.
Proof. intros g reg rv l e s r cid gid a b x y z m H. apply (step_ok g reg rv l) in H. apply H. Qed.
Print Assumptions C41_held_partial.
(** the answer comes from an agent which was not asked, or answers no question *)
Theorem C41_refused : forall g prompt reg rv l h c, let m := mrun g prompt (minit reg rv) l in
  reply_of h c -> ~ asked_of (outs (m_st m)) (hd_corr h) (hd_provider h) ->
  m_st (mstep g prompt m (EvCall c)) = m_st m /\ exists e, m_done (mstep g prompt m (EvCall c)) = m_done m ++ [(m_next m, inr (e, ""))] /\
    (e = EConnectionNonExistent \/ e = ESecurity /\ exists u, asked_of (outs (m_st m)) (hd_corr h) u).
Proof. exact stranger. Qed.
Print Assumptions C41_refused.
(** every question is answered once *)
Theorem C41_duplicate : forall g prompt reg rv l1 h c l2 h' c',
  let m1 := mrun g prompt (minit reg rv) l1 in
  let m2 := mrun g prompt (mstep g prompt m1 (EvCall c)) l2 in
  reply_of h c -> reply_of h' c' -> asked_of (outs (m_st m1)) (hd_corr h) (hd_provider h) -> hd_corr h' = hd_corr h ->
  m_st (mstep g prompt m2 (EvCall c')) = m_st m2 /\ m_done (mstep g prompt m2 (EvCall c')) = m_done m2 ++ [(m_next m2, inr (EConnectionNonExistent, ""))].
Proof. exact second. Qed.
Print Assumptions C41_duplicate.

Example C41_ex : forall l, In l [[0; 1; 2]; [2; 0; 1]; [1; 2; 0]; [2; 1; 0]; [0; 2; 1]; [1; 0; 2]]%nat ->
  let ev k := ag_conf (match k with 2%nat => "urn:X" | _ => "agg" end) k (match k with O => "s0" | 1%nat => "s1" | _ => "s2" end) in
  map (fun n => sent (m_conf "C") (ag_run (ag_reserve ++ map ev (firstn n l)))) [0; 1; 2; 3]%nat = [0; 0; 0; 1]%nat /\
  sent (m_conf "C") (ag_run (ag_reserve ++ map ev (firstn 2 l) ++ [ev (nth 1 l O); ag_conf "other" 1 "s9"; ag_conf "agg" 77 "s9"])) = 0%nat /\
  (let m := ag_run (ag_reserve ++ [ev (nth 0 l O); EvCall (CReserveFailed (re (match nth 1 l O with 2%nat => "urn:X" | _ => "agg" end) (nth 1 l O)) "no"); ev (nth 2 l O)]) in
   (sent (m_conf "C") m, sent (m_fail "C") m) = (0%nat, 1%nat)).
Proof. intros l H. cbn in H. repeat (destruct H as [<-|H]); [..|contradiction]; repeat split; vm_compute; reflexivity. Qed.
Example C41_ex_refused : m_done (ag_run (ag_reserve ++ [ag_conf "other" 1 "s9"; ag_conf "agg" 77 "s9"])) = [(1%nat, inr (ESecurity, "")); (2%nat, inr (EConnectionNonExistent, ""))].
Proof. vm_compute. reflexivity. Qed.
Example C41_ex_hyps :
  seg "agg" (ag_outs ag_three) 2 "urn:X" "C" /\ asked_of (ag_outs ag_reserve) 1 "agg" /\ ~ asked_of (ag_outs ag_reserve) 2 "agg".
Proof.
  split; [|split].
  - do 8 eexists. exists ["up:1"]. split; [vm_compute; right; right; left; reflexivity|repeat split].
  - do 8 eexists. split; [vm_compute; right; left; reflexivity|repeat split].
  - intros (p & hd & gid & a & b & x & y & z & H & H1 & H2). vm_compute in H. destruct H as [H|[H|[H|[]]]]; inversion H; subst; discriminate.
Qed.

(** two confirmations handled at the same time: each finds every segment held, on an
    object of its own, and reports so *)
Definition ag_half : areq := mkAReq None "gid" (mkSTP "A" "src" ag_label) (mkSTP "B" "p2" ag_label) (Some 10) (Some 20) 7.
Definition ag_twice : list event :=
  [EvCall (CReserve (ag_hdr "req" 100) ag_half); EvAnswer 0 AnsOk; EvAnswer 0 (AnsId "C")] ++ repeat (EvAnswer 0 AnsOk) 4 ++
  [ag_conf "agg" 0 "s0"; ag_conf "agg" 1 "s1"] ++ List.concat (repeat [EvAnswer 1 AnsOk; EvAnswer 2 AnsOk] 20).
Theorem C41_once_refuted : ~ (forall g reg rv l cid, (sent (m_conf cid) (mrun g false (minit reg rv) l) <= 1)%nat).
Proof.
  intros H. specialize (H (ag_cfg false false false) ag_reg ag_rv ag_twice "C").
  assert (V : sent (m_conf "C") (mrun (ag_cfg false false false) false (minit ag_reg ag_rv) ag_twice) = 2%nat) by (vm_compute; reflexivity).
  rewrite V in H. inversion H as [|? H']. inversion H'.
Qed.
Print Assumptions C41_once_refuted.

(** ** C42 *)
(** not more confirmations than requests; a termination is confirmed once.
    Missing in the partial ones: interleaving within database operations
    ([C42_bounded_refuted]); commit and abort told apart ([C42_commit_refuted]);
    segments whose id is not their own ([C42_provisioned_refuted]); for terminations,
    restarts ([C42_terminated_refuted]). *)
Theorem C42_bounded_partial : forall g reg rv l cid, let m := mrun g true (minit reg rv) l in
  (sent (m_prov cid) m <= received (q_prov cid) m)%nat /\ (sent (m_rel cid) m <= received (q_rel cid) m)%nat /\
  (sent (m_2pc cid) m <= received (q_2pc cid) m)%nat.
Proof.
  intros g reg rv l cid m. destruct (run_inv g reg rv l) as (GH & [[I _] _] & _). fold m in I.
  pose proof (fun x => i_cnt _ _ _ _ _ I x cid) as C. pose proof (C KProv) as C1. pose proof (C KRel) as C2. pose proof (C K2pc) as C3.
  cbn [m_kind q_kind] in *. unfold ocnt, sent, received in *. repeat split; lia.
Qed.
Print Assumptions C42_bounded_partial.
Theorem C42_terminated_partial : forall g reg rv l cid, no_restart l -> (sent (m_term cid) (mrun g true (minit reg rv) l) <= 1)%nat.
Proof.
  intros g reg rv l cid HN. destruct (run_inv g reg rv l) as (GH & [[I _] _] & HW). apply (i_term _ _ _ _ _ I (HW HN) cid).
Qed.
Print Assumptions C42_terminated_partial.
(** the reservation is given up while the connection is already terminated: its row is
    overwritten with an older one, and a process started then confirms again *)
Definition ag_undone : list event := ag_reserve ++
  [ag_conf "agg" 0 "s0"; EvCall (CTerminate (ag_hdr "req" 103) "C"); EvCall (CTerminateConfirmed (re "agg" 50) "s0");
   EvAnswer 0 (AnsAcks [Acked "s0"; Acked "s1"; Nacked EConnection "gone"]); EvRestart ag_reg ag_rv; EvCall (CTerminateConfirmed (re "agg" 51) "s0")].
Theorem C42_terminated_refuted : ~ (forall g reg rv l cid, (sent (m_term cid) (mrun g true (minit reg rv) l) <= 1)%nat).
Proof.
  intros H. specialize (H (ag_cfg false false false) ag_reg ag_rv ag_undone "C").
  assert (V : sent (m_term "C") (mrun (ag_cfg false false false) true (minit ag_reg ag_rv) ag_undone) = 2%nat) by (vm_compute; reflexivity).
  rewrite V in H. inversion H as [|? H']. inversion H'.
Qed.
Print Assumptions C42_terminated_refuted.
(** after a restart two confirmations handled at the same time each read an object of
    their own for the connection, and each reports that it is provisioned *)
Definition ag_run_call (i : nat) (c : call) : list event := EvCall c :: repeat (EvAnswer i AnsOk) 20.
Definition ag_both : list event :=
  [EvCall (CReserve (ag_hdr "req" 100) ag_half); EvAnswer 0 AnsOk; EvAnswer 0 (AnsId "C")] ++ repeat (EvAnswer 0 AnsOk) 4 ++
  ag_conf "agg" 0 "s0" :: repeat (EvAnswer 1 AnsOk) 20 ++ ag_conf "agg" 1 "s1" :: repeat (EvAnswer 2 AnsOk) 20 ++ EvAnswer 0 (AnsAcks [Acked "s0"; Acked "s1"]) ::
  ag_run_call 3 (CCommit (ag_hdr "req" 101) "C") ++ EvAnswer 3 (AnsAcks [Acked "s0"; Acked "s1"]) ::
  ag_run_call 4 (CCommitConfirmed (re "agg" 50) "s0") ++ ag_run_call 5 (CCommitConfirmed (re "agg" 51) "s1") ++
  ag_run_call 6 (CProvision (ag_hdr "req" 102) "C") ++ EvAnswer 6 (AnsAcks [Acked "s0"; Acked "s1"]) ::
  EvRestart ag_reg ag_rv :: EvCall (CProvisionConfirmed (re "agg" 52) "s0") :: EvCall (CProvisionConfirmed (re "agg" 53) "s1") ::
  List.concat (repeat [EvAnswer 7 AnsOk; EvAnswer 8 AnsOk] 20).
Theorem C42_bounded_refuted : ~ (forall g reg rv l cid, let m := mrun g false (minit reg rv) l in (sent (m_prov cid) m <= received (q_prov cid) m)%nat).
Proof.
  intros H. specialize (H (ag_cfg false false false) ag_reg ag_rv ag_both "C").
  assert (V : (sent (m_prov "C") (mrun (ag_cfg false false false) false (minit ag_reg ag_rv) ag_both) <=?
               received (q_prov "C") (mrun (ag_cfg false false false) false (minit ag_reg ag_rv) ag_both))%nat = false) by (vm_compute; reflexivity).
  apply Nat.leb_gt in V. exact (proj1 (Nat.lt_nge _ _) V H).
Qed.
Print Assumptions C42_bounded_refuted.
(** at the moment of sending, every stored segment with an id of its own has reached
    the state; provisioned and terminated segments have been confirmed *)
Theorem C42_honest_partial : forall g reg rv l e s a, let m := mrun g true (minit reg rv) l in
  In (s, a) (step_acts g true m e) -> honest (m_log (mstep g true m e)) s a.
Proof. intros g reg rv l e s a m H. apply (step_ok g reg rv l) in H. apply H. Qed.
Print Assumptions C42_honest_partial.
(** one message up at the most for each message received, and of its kind *)
Theorem C42_kinds : forall (P : st -> Prop) Q g c l r, exec P Q (call_prog g c) l r ->
  (List.length (ups l) <= 1)%nat /\ forall to b, In (to, b) (ups l) -> follows c b.
Proof.
  intros P Q g c l r E. split; [exact (all_use _ _ _ _ (one_up P Q g c) l r E)|].
  intros to b H. pose proof (all_use _ _ _ _ (kinds P Q g c) l r E) as F. rewrite Forall_forall in F.
  unfold ups in H. apply in_flat_map in H as (a & Ha & Hb). unfold acts in Ha. apply in_flat_map in Ha as (o & Ho & Ha).
  destruct o as [a'|]; [|destruct Ha]. destruct Ha as [->|[]]. apply F in Ho. destruct a; try contradiction. match goal with x : output |- _ => destruct x end; try contradiction. destruct Hb as [[= -> ->]|[]]. exact Ho.
Qed.
Print Assumptions C42_kinds.
(** beyond the property: to whom, however calls interleave *)
Theorem C42_addressed : forall g prompt reg rv l e s a, let m := mrun g prompt (minit reg rv) l in
  In (s, a) (step_acts g prompt m e) -> addressed s a.
Proof. intros g prompt reg rv l e s a m H. exact (all_addressed g prompt reg rv l e s a H). Qed.
Print Assumptions C42_addressed.

Definition ag_each (f : header -> string -> call) (l : list nat) : list event :=
  map (fun k => EvCall (match k with O => f (re "agg" 50) "s0" | 1%nat => f (re "agg" 51) "s1" | _ => f (re "urn:X" 52) "s2" end)) l.
Definition ag_committed : list event := ag_three ++ EvCall (CCommit (ag_hdr "req" 101) "C") :: ag_each CCommitConfirmed [0; 1; 2]%nat.
Definition ag_provisioned : list event := ag_committed ++ EvCall (CProvision (ag_hdr "req" 102) "C") :: ag_each CProvisionConfirmed [2; 0; 1]%nat.
Example C42_ex :
  map (fun n => sent (m_2pc "C") (ag_run (firstn n ag_committed))) [7; 8; 9; 10; 11]%nat = [0; 0; 0; 0; 1]%nat /\
  map (fun n => sent (m_prov "C") (ag_run (firstn n ag_provisioned))) [12; 13; 14; 15]%nat = [0; 0; 0; 1]%nat /\
  sent (m_prov "C") (ag_run (ag_provisioned ++ ag_each CProvisionConfirmed [0; 1; 2]%nat)) = 1%nat /\
  sent (m_prov "C") (ag_run (ag_committed ++ EvCall (CProvision (ag_hdr "req" 102) "C") :: ag_each CProvisionConfirmed [2; 0; 0; 2; 0]%nat)) = 0%nat /\
  sent (m_rel "C") (ag_run (ag_provisioned ++ EvCall (CRelease (ag_hdr "req" 103) "C") :: ag_each CReleaseConfirmed [2; 1; 0]%nat)) = 1%nat /\
  sent (m_term "C") (ag_run (ag_provisioned ++ EvCall (CTerminate (ag_hdr "req" 103) "C") :: ag_each CTerminateConfirmed [2; 1]%nat)) = 0%nat /\
  sent (m_term "C") (ag_run (ag_provisioned ++ EvCall (CTerminate (ag_hdr "req" 103) "C") :: ag_each CTerminateConfirmed [2; 1; 0; 0; 1; 2]%nat)) = 1%nat /\
  map snd (ups (fst (behave (m_st (ag_run ag_three)) (call_prog (ag_cfg false false false) (CError (re "urn:X" 7) "urn:X" "s0" "no")) []))) = [UError "urn:X" "s0" "no"] /\
  existsb (fun sa => says (m_prov "C") (match snd sa with AOut o => o | _ => OCreated "" end))
    (step_acts (ag_cfg false false false) true (ag_run (firstn 14 ag_provisioned)) (nth 14 ag_provisioned (EvAnswer 0 AnsOk))) = true.
Proof. repeat split; vm_compute; reflexivity. Qed.

(** restarts: what was asked before is answered after if the rows tell (provision),
    else refused (reservations) *)
Definition ag_again : event := EvRestart ag_reg ag_rv.
Example C42_ex_restart :
  let l := ag_committed ++ EvCall (CProvision (ag_hdr "req" 102) "C") :: ag_again :: ag_each CProvisionConfirmed [2; 0]%nat ++ ag_again :: ag_each CProvisionConfirmed [0; 1; 1]%nat in
  map (fun n => sent (m_prov "C") (ag_run (firstn n l))) [15; 16; 17; 18; 19]%nat = [0; 0; 0; 1; 1]%nat /\
  sent (m_prov "C") (ag_run (l ++ [ag_again; EvCall (CProvision (ag_hdr "req" 103) "C")] ++ ag_each CProvisionConfirmed [0; 1; 2]%nat)) = 1%nat /\
  sent (m_rel "C") (ag_run (l ++ [ag_again; EvCall (CRelease (ag_hdr "req" 103) "C"); ag_again] ++ ag_each CReleaseConfirmed [2; 1; 0]%nat)) = 1%nat /\
  (let m := ag_run (ag_reserve ++ [ag_conf "agg" 0 "s0"; ag_again; ag_conf "agg" 1 "s1"; ag_conf "urn:X" 2 "s2"]) in
   sent (m_conf "C") m = 0%nat /\ map (fun kc => cn_r (snd kc)) (t_conns (m_st m)) = [RChecking] /\ List.length (t_subs (m_st m)) = 1%nat).
Proof. repeat split; vm_compute; reflexivity. Qed.

(** two providers use the same connection id: one of them confirms and the
    connection is reported provisioned *)
Definition ag_same : list event := ag_reserve ++
  [ag_conf "agg" 0 "s0"; ag_conf "agg" 1 "s"; ag_conf "urn:X" 2 "s"; EvCall (CCommit (ag_hdr "req" 101) "C");
   EvCall (CCommitConfirmed (re "agg" 0) "s0"); EvCall (CCommitConfirmed (re "agg" 0) "s"); EvCall (CProvision (ag_hdr "req" 102) "C");
   EvCall (CProvisionConfirmed (re "agg" 0) "s0"); EvCall (CProvisionConfirmed (re "agg" 0) "s")].
Theorem C42_provisioned_refuted : ~ (forall g reg rv l cid k c y, let m := mrun g true (minit reg rv) l in
  (0 < sent (m_prov cid) m)%nat -> aget k (t_conns (m_st m)) = Some c -> cn_cid c = cid -> In y (subs_of k (m_st m)) ->
  exists h, In (CProvisionConfirmed h (sb_cid y)) (m_log m) /\ hd_provider h = sb_provider y).
Proof.
  intros H. specialize (H (ag_cfg false false false) ag_reg ag_rv ag_same "C" 0%nat).
  set (m := mrun (ag_cfg false false false) true (minit ag_reg ag_rv) ag_same) in *.
  assert (V : sent (m_prov "C") m = 1%nat) by (vm_compute; reflexivity).
  assert (Vc : match aget 0%nat (t_conns (m_st m)) with Some c => eqb (cn_cid c) "C" | None => false end = true) by (vm_compute; reflexivity).
  assert (Vy : existsb (fun y => eqb (sb_provider y) "urn:X") (subs_of 0 (m_st m)) = true) by (vm_compute; reflexivity).
  assert (L : forallb (fun x => match x with CProvisionConfirmed h _ => negb (eqb (hd_provider h) "urn:X") | _ => true end) (m_log m) = true) by (vm_compute; reflexivity).
  clearbody m. destruct (aget 0%nat (t_conns (m_st m))) as [c|] eqn:Eg; [|discriminate]. apply (proj1 (eqb_true (cn_cid c) "C")) in Vc.
  apply existsb_exists in Vy. destruct Vy as (y & Vy & Ey). apply (proj1 (eqb_true (sb_provider y) "urn:X")) in Ey.
  destruct (H c y) as (h & H1 & H2); [rewrite V; apply Nat.lt_0_succ|exact Eg|exact Vc|exact Vy|].
  rewrite forallb_forall in L. apply L in H1. rewrite H2, Ey in H1. discriminate H1.
Qed.
Print Assumptions C42_provisioned_refuted.
(** a commit confirmation that arrives while the connection is being aborted is
    passed on, though nobody asked for a commit *)
Definition ag_stray : list event := ag_one ++ [EvCall (CAbort (ag_hdr "req" 101) "C"); EvCall (CCommitConfirmed (re "agg" 0) "s0")].
Theorem C42_commit_refuted : ~ (forall g reg rv l cid, let m := mrun g true (minit reg rv) l in
  (0 < sent (fun b => match b with UCommitConfirmed c => eqb c cid | _ => false end) m)%nat ->
  (0 < received (fun c => match c with CCommit _ i => eqb i cid | _ => false end) m)%nat).
Proof.
  intros H. specialize (H (ag_cfg false false false) ag_reg ag_rv ag_stray "C"). cbv zeta in H.
  match type of H with (_ < ?a)%nat -> (_ < ?b)%nat => assert (Va : a = 1%nat) by (vm_compute; reflexivity); assert (Vb : b = 0%nat) by (vm_compute; reflexivity) end.
  rewrite Va, Vb in H. specialize (H (Nat.lt_0_succ 0)). inversion H.
Qed.
Print Assumptions C42_commit_refuted.

(** ** C43 *)
(** what is notified is computed from a list with every stored segment in it *)
Theorem C43_notified_run_partial : forall g reg rv l e s r cid d, let m := mrun g true (minit reg rv) l in
  In (s, AOut (OUp r (UDataPlane cid d))) (step_acts g true m e) ->
  exists zs, d = notify_status zs /\ all_segments (fun z => In z zs) cid s.
Proof. intros g reg rv l e s r cid d m H. apply (step_ok g reg rv l) in H. apply H. Qed.
Print Assumptions C43_notified_run_partial.
Definition ag_dp (id u : string) (d : dps) : event := EvCall (CDataPlane (re u 0) id d).
Example C43_ex_run :
  flat_map (fun rb => match snd rb with UDataPlane c d => [(fst rb, c, d)] | _ => [] end)
    (ag_ups (ag_provisioned ++ [ag_dp "s0" "agg" (true, 1, true); ag_dp "s2" "urn:X" (true, 3, true); ag_dp "s1" "agg" (true, 2, true); ag_dp "s0" "agg" (false, 4, true)])) =
    [("req", "C", (false, 1, false)); ("req", "C", (false, 3, false)); ("req", "C", (true, 3, true)); ("req", "C", (false, 4, false))].
Proof. vm_compute. reflexivity. Qed.

(** ** C46 *)
(** Missing in the partial ones: interleaving within database operations; that the
    answer is sent ([C46_answered_refuted]). *)
(** one answer at the most for each query, however calls interleave *)
Theorem C46_once : forall g prompt reg rv l corr,
  (sent (m_query corr) (mrun g prompt (minit reg rv) l) <= received (q_query corr) (mrun g prompt (minit reg rv) l))%nat.
Proof. intros g prompt reg rv l corr. apply query_once_any. Qed.
Print Assumptions C46_once.
(** the answer to a query has, in the order they were asked, one result for each
    segment asked, taken from the answer to that question *)
Theorem C46_children_partial : forall g reg rv l1 h cids gids l2,
  let m1 := mrun g true (minit reg rv) l1 in
  let m2 := mstep g true m1 (EvCall (CQueryRecursive h cids gids)) in
  let m3 := mrun g true m2 l2 in
  received (q_query (hd_corr h)) m3 = 1%nat ->
  forall r x, In (OUp r (UQueryRecursive (hd_corr h) x)) (outs (m_st m3)) ->
  exists mid i, outs (m_st m2) = outs (m_st m1) ++ mid /\ x = [i] /\ Forall2 (answered_with (m_log m3)) (query_corrs mid) (ci_children i).
Proof. exact query_answer. Qed.
Print Assumptions C46_children_partial.
(** answers to what was not asked, and second answers, change nothing, however calls
    interleave *)
Theorem C46_unknown : forall g prompt reg rv l h res, let m := mrun g prompt (minit reg rv) l in
  ~ In (hd_corr h) (query_corrs (outs (m_st m))) -> m_st (mstep g prompt m (EvCall (CQueryRecursiveConfirmed h res))) = m_st m.
Proof. intros g prompt reg rv l h res m. exact (query_unknown_any g prompt reg rv l h res). Qed.
Print Assumptions C46_unknown.
Theorem C46_duplicate : forall g prompt reg rv l1 h x r h' res l2,
  let m1 := mrun g prompt (minit reg rv) l1 in
  let m2 := mrun g prompt (mstep g prompt m1 (EvCall (CQueryRecursiveConfirmed h (x :: r)))) l2 in
  In (hd_corr h) (query_corrs (outs (m_st m1))) -> hd_corr h' = hd_corr h ->
  m_st (mstep g prompt m2 (EvCall (CQueryRecursiveConfirmed h' res))) = m_st m2.
Proof. exact query_twice_any. Qed.
Print Assumptions C46_duplicate.

Definition ag_q (requester : string) (corr : nat) : event := EvCall (CQueryRecursive (ag_hdr requester corr) ["C"] []).
Definition ag_qa (k : nat) (id : string) : event := EvCall (CQueryRecursiveConfirmed (re "any" k) [ag_info id]).
Definition ag_children (l : list event) : list (string * nat * list string) :=
  flat_map (fun rb => match snd rb with UQueryRecursive k x => [(fst rb, k, List.concat (map (fun i => map ci_cid (ci_children i)) x))] | _ => [] end) (ag_ups l).
Definition ag_up : list event := ag_provisioned ++ [ag_dp "s0" "agg" (true, 1, true); ag_dp "s2" "urn:X" (true, 3, true); ag_dp "s1" "agg" (true, 2, true)].
(** two queries at the same time, answers out of order, repeated and unknown *)
Example C46_ex :
  let l := ag_up ++ [ag_q "req" 200; ag_q "admin" 201] in
  query_corrs (ag_outs l) = [9; 10; 11; 12; 13; 14]%nat /\
  ag_children (l ++ [ag_qa 11 "c"; ag_qa 13 "y"; ag_qa 9 "a"; ag_qa 9 "A"; ag_qa 99 "?"]) = [] /\
  ag_children (l ++ [ag_qa 11 "c"; ag_qa 13 "y"; ag_qa 9 "a"; ag_qa 9 "A"; ag_qa 99 "?"; ag_qa 10 "b"; ag_qa 10 "B"; ag_qa 14 "z"; ag_qa 12 "x"; ag_qa 12 "X"]) =
    [("req", 200%nat, ["a"; "b"; "c"]); ("admin", 201%nat, ["x"; "y"; "z"])].
Proof. repeat split; vm_compute; reflexivity. Qed.

(** every segment has answered, and no answer is sent: the status of a connection with
    segments that never reported theirs cannot be computed.  The same for a
    connection without segments. *)
Definition ag_silent : list event := ag_three ++ [ag_q "req" 200; ag_qa 3 "a"; ag_qa 4 "b"; ag_qa 5 "c"].
Definition ag_empty : list event := ag_reserve ++ [ag_q "req" 200; EvAnswer 1 (AnsAcks [])].
Theorem C46_answered_refuted : ~ (forall g reg rv l k, let m := mrun g true (minit reg rv) l in
  received (q_query k) m = 1%nat -> m_tasks m = [] \/ (exists i a, In (i, inl a) (m_done m) /\ nth_error (m_log m) i = Some (CQueryRecursive (ag_hdr "req" k) ["C"] [])) ->
  (forall q, In q (query_corrs (outs (m_st m))) -> exists x, answered_with (m_log m) q x) -> sent (m_query k) m = 1%nat).
Proof.
  intros H. specialize (H (ag_cfg false false false) ag_reg ag_rv ag_empty 200%nat). cbv zeta in H.
  match type of H with _ -> _ -> _ -> ?a = _ => assert (V : a = 0%nat) by (vm_compute; reflexivity) end.
  rewrite V in H. discriminate H; [vm_compute; reflexivity| |].
  - right. exists 1%nat, "". split; vm_compute; auto.
  - intros q Hq. match type of Hq with In _ ?a => assert (W : a = []) by (vm_compute; reflexivity) end. rewrite W in Hq. destruct Hq.
Qed.
Print Assumptions C46_answered_refuted.
Theorem C46_status_refuted : ~ (forall g reg rv l k, let m := mrun g true (minit reg rv) l in
  received (q_query k) m = 1%nat -> query_corrs (outs (m_st m)) <> [] ->
  (forall q, In q (query_corrs (outs (m_st m))) -> exists x, answered_with (m_log m) q x) -> sent (m_query k) m = 1%nat).
Proof.
  intros H. specialize (H (ag_cfg false false false) ag_reg ag_rv ag_silent 200%nat). cbv zeta in H.
  match type of H with _ -> _ -> _ -> ?a = _ => assert (V : a = 0%nat) by (vm_compute; reflexivity) end.
  match type of H with _ -> ?a <> _ -> _ -> _ => assert (W : a = [3; 4; 5]%nat) by (vm_compute; reflexivity) end.
  rewrite V, W in H. discriminate H; [vm_compute; reflexivity|discriminate|].
  intros q [<-|[<-|[<-|[]]]]; [exists (ag_info "a"), (re "any" 3), []|exists (ag_info "b"), (re "any" 4), []|exists (ag_info "c"), (re "any" 5), []];
    (split; [vm_compute; auto 20|reflexivity]).
Qed.
Print Assumptions C46_status_refuted.
(** a correlation id used by two requesters: the second gets the answer to the
    question asked for the first *)
Definition ag_told (o : output) : list (string * nat * list cinfo) := match o with OUp r (UQueryRecursive k x) => [(r, k, x)] | _ => [] end.
Definition ag_mixed (g : cfg) reg rv l1 h cids gids l2 : Prop :=
  let m1 := mrun g true (minit reg rv) l1 in
  let m2 := mstep g true m1 (EvCall (CQueryRecursive h cids gids)) in
  let m3 := mrun g true m2 l2 in
  map fst (flat_map ag_told (outs (m_st m3))) = [(hd_requester h, hd_corr h)] /\
  query_corrs (outs (m_st m1)) = [1%nat] /\ query_corrs (outs (m_st m2)) = [1; 2]%nat /\
  forallb (fun c => match c with CQueryRecursiveConfirmed h _ => eqb (hd_corr h) 1%nat | _ => true end) (m_log m3) = true.
Lemma ag_mixed_ex : ag_mixed (ag_cfg false false false) ag_reg ag_rv (ag_one ++ [ag_q "req" 200]) (ag_hdr "other" 200) ["C"] [] [ag_qa 1 "s0"].
Proof. repeat split; vm_compute; reflexivity. Qed.
Lemma ag_mixed_no g reg rv l1 h cids gids l2 : ag_mixed g reg rv l1 h cids gids l2 ->
  ~ (let m1 := mrun g true (minit reg rv) l1 in
     let m2 := mstep g true m1 (EvCall (CQueryRecursive h cids gids)) in
     let m3 := mrun g true m2 l2 in
     forall x, In (OUp (hd_requester h) (UQueryRecursive (hd_corr h) x)) (outs (m_st m3)) ->
     exists mid i, outs (m_st m2) = outs (m_st m1) ++ mid /\ x = [i] /\ Forall2 (answered_with (m_log m3)) (query_corrs mid) (ci_children i)).
Proof.
  unfold ag_mixed. set (m1 := mrun g true (minit reg rv) l1). set (m2 := mstep g true m1 _). set (m3 := mrun g true m2 l2).
  clearbody m3. clearbody m2. clearbody m1. cbv zeta. intros (V & C1 & C2 & L) H.
  assert (V' : exists x, In (OUp (hd_requester h) (UQueryRecursive (hd_corr h) x)) (outs (m_st m3))).
  { destruct (flat_map ag_told (outs (m_st m3))) as [|[rk x] l] eqn:E; [discriminate|]. cbn in V. inversion V; subst rk.
    assert (I : In ((hd_requester h, hd_corr h), x) (((hd_requester h, hd_corr h), x) :: l)) by (left; reflexivity).
    rewrite <- E in I. apply in_flat_map in I. destruct I as (o & I1 & I2). exists x.
    destruct o as [| r b | |]; try contradiction. destruct b; try contradiction. destruct I2 as [I2|[]]. inversion I2; subst. exact I1. }
  destruct V' as (x0 & V'). destruct (H x0 V') as (mid & i' & E & _ & F).
  rewrite E in C2. unfold query_corrs in *. rewrite flat_map_app, C1 in C2. injection C2 as C2. rewrite C2 in F.
  inversion F as [|k x ks xs A B]; subst. destruct A as (h' & r & A1 & A2).
  rewrite forallb_forall in L. apply L in A1. rewrite A2 in A1. discriminate A1.
Qed.
Theorem C46_mixed_refuted : ~ (forall g reg rv l1 h cids gids l2,
  let m1 := mrun g true (minit reg rv) l1 in
  let m2 := mstep g true m1 (EvCall (CQueryRecursive h cids gids)) in
  let m3 := mrun g true m2 l2 in
  forall x, In (OUp (hd_requester h) (UQueryRecursive (hd_corr h) x)) (outs (m_st m3)) ->
  exists mid i, outs (m_st m2) = outs (m_st m1) ++ mid /\ x = [i] /\ Forall2 (answered_with (m_log m3)) (query_corrs mid) (ci_children i)).
Proof. intros H. exact (ag_mixed_no _ _ _ _ _ _ _ _ ag_mixed_ex (H _ _ _ _ _ _ _ _)). Qed.
Print Assumptions C46_mixed_refuted.
