(** Property C91: what a requester is told about the connection reserved. *)
From Verif Require Import ProofsAggregator Base ModelLabel ModelSTP ModelAuthz ModelNRM ModelState ModelLinkVector ModelProvreg ModelAggregator SpecAggregator
  SpecAggInv ProofsAggInv ProofsAggTab ProofsAggAct ProofsAggHelp ProofsAggRun ProofsAggRun2 PropsAggregator PropsAggInv.
From Verif Require Import ModelService SpecService ProofsServiceInv ProofsServiceWp ProofsServiceProg ProofsService.
Open Scope Z_scope.

Lemma run_good g prompt reg rv l : ProofsServiceProg.good g (m_log (mrun g prompt (minit reg rv) l)) (mrun g prompt (minit reg rv) l).
Proof. apply good_run; [apply good_init|apply incl_refl]. Qed.

(** ** C91 *)
(** Whatever the interleaving, and with restarts: a message about a connection goes
    to the requester of a request that was received, for which the connection is
    stored; and a confirmation repeats that request. *)
Theorem C91_request : forall g prompt reg rv l r b cid, let m := mrun g prompt (minit reg rv) l in
  In (OUp r b) (outs (m_st m)) -> about b = Some cid ->
  exists h q k c, In (CReserve h q) (m_log m) /\ aget k (t_conns (m_st m)) = Some c /\ cn_cid c = cid /\ made_for c h q /\ r = hd_requester h /\ repeats q b.
Proof.
  intros g prompt reg rv l r b cid m H Hb. destruct (run_good g prompt reg rv l) as [[HJ _] _]. fold m in HJ.
  destruct (j_out _ _ _ HJ _ H cid Hb) as (c & h & q & (c' & R1 & R2) & H2 & H3 & H4 & H5 & H6).
  apply (made_core c c') in H4; [|auto]. exists h, q, (cn_key c), c'. repeat (split; [solve [auto|apply cc_cid in R2; congruence]|]). split; [|auto].
  unfold made, ccore in H4. unfold made_for. repeat split; congruence.
Qed.
Print Assumptions C91_request.
(** Missing: the destination label when the last segment is not the last to be
    stored, see [C91_destination_refuted]. *)
Theorem C91_labels_partial : forall g reg rv l e s r cid gid a b x y z, let m := mrun g true (minit reg rv) l in
  In (s, AOut (OUp r (UReserveConfirmed cid gid a b x y z))) (step_acts g true m e) -> told_ends g (m_log (mstep g true m e)) s a b cid.
Proof.
  intros g reg rv l e s r cid gid a b x y z m H.
  assert (HJ : J0 g (m_log (mstep g true m e)) s).
  { destruct (a_log g true m e) as (l1 & E1 & C1 & _).
    assert (G : ProofsServiceProg.good g (m_log (mstep g true m e)) m) by (apply good_run; [apply good_init|]; fold m; rewrite E1; apply incl_appl, incl_refl).
    eapply good_step; [exact G| |exact H]. intros c Ec. rewrite E1, (C1 c Ec). apply in_or_app. right. left. reflexivity. }
  apply (ProofsAggRun2.step_ok g reg rv l) in H. fold m in H. destruct H as [[_ (k & c & K1 & K2 & K3)] _]. exists k, c. split; [exact K1|]. split; [exact K2|]. intros t Ht.
  destruct (K3 t Ht) as (_ & L1 & L2). unfold subs_of in Ht. apply filter_In in Ht as [Ht Hk]. apply (proj1 (eqb_true _ _)) in Hk.
  apply in_map_iff in Ht as ([k' t'] & Et & Ht). cbn in Et. subst t'. apply In_aget in Ht; [|apply (j_ns _ _ _ HJ)].
  destruct (j_sk _ _ _ HJ _ _ Ht) as (_ & _ & (h & c0 & S1 & S2 & (c1 & S3 & S3') & S4 & _ & S5) & _).
  destruct S5 as (hr & q & ls & p & hd & gi & u & v & x' & e' & bw & P1 & P2 & P3 & P4 & P5 & P6 & P7).
  rewrite S4, Hk, K1 in S3. injection S3 as <-. apply (made_core c0 c) in P2; [|auto].
  exists hr, q, ls, p, hd, gi, u, v, x', e', bw, h. split; [exact P1|]. split; [unfold made, ccore in P2; unfold made_for; repeat split; congruence|].
  split; [exact P6|]. split; [exact P7|]. split; [exact P3|]. split; [exact S1|]. split; [auto|]. split; [congruence|].
  destruct P6 as (route & Q1 & Q2 & Q3 & _). split.
  - intros E0. rewrite E0 in P7. specialize (Q2 _ P7). cbn in Q2. auto.
  - intros E0. assert (En : sb_order t = List.length route) by congruence. rewrite En in P7. specialize (Q3 _ P7). cbn in Q3. split; [auto|].
    intros El Hn. apply L2; [exact Hn|congruence].
Qed.
Print Assumptions C91_labels_partial.

(** three segments, each confirmed with labels of its own *)
Definition ag_vlan (n : Z) : option label := Some (mkLabel "vlan" [(n, n)]).
Definition ag_at (k : nat) : event := EvCall match k with
  | O => CReserveConfirmed (re "agg" 0) "s0" (mkSTP "A" "src" (ag_vlan 101)) (mkSTP "A" "p1" (ag_vlan 102))
  | 1%nat => CReserveConfirmed (re "agg" 1) "s1" (mkSTP "B" "q1" (ag_vlan 103)) (mkSTP "B" "p2" (ag_vlan 104))
  | _ => CReserveConfirmed (re "urn:X" 2) "s2" (mkSTP "X" "in" (ag_vlan 105)) (mkSTP "X" "out" (ag_vlan 106))
  end.
Definition ag_said (l : list nat) : list (string * option label * option label) :=
  flat_map (fun o => match o with OUp r (UReserveConfirmed _ _ a b _ _ _) => [(r, s_label a, s_label b)] | _ => [] end) (outs (m_st (ag_run (ag_reserve ++ map ag_at l)))).
Definition ag_path : list link :=
  [(mkSTP "A" "src" ag_label, mkSTP "A" "p1" ag_label); (mkSTP "B" "q1" ag_label, mkSTP "B" "p2" ag_label); (mkSTP "X" "in" ag_label, mkSTP "X" "out" ag_label)].
Definition ag_news : output := OUp "req" (UReserveConfirmed "C" "gid" (mkSTP "A" "src" (ag_vlan 101)) (mkSTP "X" "out" (ag_vlan 106)) (Some 10) (Some 20) 7).
Example C91_ex :
  ag_said [0; 1; 2]%nat = [("req", ag_vlan 101, ag_vlan 106)] /\ ag_said [1; 0; 2]%nat = [("req", ag_vlan 101, ag_vlan 106)] /\
  In ag_news (outs (m_st (ag_run (ag_reserve ++ map ag_at [0; 1; 2]%nat)))) /\ path_of (ag_cfg false false false) ag_req ag_path.
Proof.
  split; [vm_compute; reflexivity|]. split; [vm_compute; reflexivity|]. split; [vm_compute; do 3 right; left; reflexivity|].
  exists [("A", "p1"); ("B", "p2")]. split; [reflexivity|]. split; [intros l [= <-]; reflexivity|]. split; [intros l [= <-]; reflexivity|].
  intros [|[|i]] n p l m; cbn; [intros [= <- <-] [= <-] [= <-]..|destruct i; discriminate]; repeat (split; [reflexivity|]); do 2 eexists; repeat split.
Qed.
(** the premise of the partial one, and what is stored then *)
Example C91_ex_hyps : exists s, In (s, AOut ag_news) (step_acts (ag_cfg false false false) true (ag_run (ag_reserve ++ map ag_at [0; 1]%nat)) (ag_at 2)) /\
  map (fun y => (sb_key y, sb_order y, s_label (sb_src y), s_label (sb_dst y))) (subs_of 0 s) =
    [(1, 0, ag_vlan 101, ag_vlan 102); (2, 1, ag_vlan 103, ag_vlan 104); (3, 2, ag_vlan 105, ag_vlan 106)]%nat.
Proof.
  set (l := step_acts _ _ _ _).
  assert (E : exists s, last l (m_st ag_start, ACorr) = (s, AOut ag_news) /\ map (fun y => (sb_key y, sb_order y, s_label (sb_src y), s_label (sb_dst y))) (subs_of 0 s) =
    [(1, 0, ag_vlan 101, ag_vlan 102); (2, 1, ag_vlan 103, ag_vlan 104); (3, 2, ag_vlan 105, ag_vlan 106)]%nat) by (vm_compute; eexists; split; reflexivity).
  destruct E as (s & E1 & E2). exists s. split; [|exact E2]. rewrite <- E1. destruct (@exists_last _ l) as (l' & x & ->); [vm_compute; discriminate|].
  rewrite last_last. apply in_or_app. right. left. reflexivity.
Qed.

(** the last segment is confirmed before another one *)
Theorem C91_destination_refuted : ~ (forall g reg rv l r cid gid a b x e bw p hd gid' u v x' e' bw' t h id c d, let m := mrun g true (minit reg rv) l in
  In (OUp r (UReserveConfirmed cid gid a b x e bw)) (outs (m_st m)) ->
  In (ODown p hd (DReserve gid' u v x' e' bw')) (outs (m_st m)) -> hd_trace hd = Some (t ++ [a_urn g +++ ":" +++ cid]) -> s_network v = s_network b -> s_port v = s_port b ->
  In (CReserveConfirmed h id c d) (m_log m) -> hd_corr h = hd_corr hd -> hd_provider h = hd_provider hd ->
  s_label b = s_label d).
Proof.
  intros H. specialize (H (ag_cfg false false false) ag_reg ag_rv (ag_reserve ++ map ag_at [2; 1; 0]%nat) "req" "C" "gid" (mkSTP "A" "src" (ag_vlan 101)) (mkSTP "X" "out" (ag_vlan 104)) (Some 10) (Some 20) 7).
  specialize (H 2%nat (mkHeader "agg" "urn:X" 2 [] (Some ["up:1"; "agg:C"])) "gid" (mkSTP "X" "in" ag_label) (mkSTP "X" "out" ag_label) (Some 10) (Some 20) 7 ["up:1"]).
  specialize (H (re "urn:X" 2) "s2" (mkSTP "X" "in" (ag_vlan 105)) (mkSTP "X" "out" (ag_vlan 106))). cbv zeta in H.
  assert (E : s_label (mkSTP "X" "out" (ag_vlan 104)) = s_label (mkSTP "X" "out" (ag_vlan 106))); [|discriminate].
  apply H; [vm_compute; do 3 right; left; reflexivity|vm_compute; right; right; left; reflexivity|reflexivity|reflexivity|reflexivity|vm_compute; right; left; reflexivity|reflexivity|reflexivity].
Qed.
Print Assumptions C91_destination_refuted.
(** a provider confirms another label than was asked for: it is passed on *)
Definition ag_far : event := EvCall (CReserveConfirmed (re "agg" 0) "s0" (mkSTP "A" "src" (ag_vlan 999)) (mkSTP "A" "p1" (ag_vlan 102))).
Theorem C91_asked_refuted : ~ (forall g reg rv l r cid gid a b x e bw h q la lq, let m := mrun g true (minit reg rv) l in
  In (OUp r (UReserveConfirmed cid gid a b x e bw)) (outs (m_st m)) -> In (CReserve h q) (m_log m) -> (forall h' q', In (CReserve h' q') (m_log m) -> q' = q) ->
  s_label a = Some la -> s_label (q_src q) = Some lq -> forall i j, In (i, j) (lvalues la) -> exists i' j', In (i', j') (lvalues lq) /\ i' <= i /\ j <= j').
Proof.
  intros H. specialize (H (ag_cfg false false false) ag_reg ag_rv (ag_reserve ++ [ag_far; ag_at 1; ag_at 2]) "req" "C" "gid" (mkSTP "A" "src" (ag_vlan 999)) (mkSTP "X" "out" (ag_vlan 106)) (Some 10) (Some 20) 7
    (ag_hdr "req" 100) ag_req (mkLabel "vlan" [(999, 999)]) (mkLabel "vlan" [(100, 110)])). cbv zeta in H.
  assert (E : exists i' j', In (i', j') (lvalues (mkLabel "vlan" [(100, 110)])) /\ i' <= 999 /\ 999 <= j').
  { apply H; [vm_compute; do 3 right; left; reflexivity|vm_compute; left; reflexivity| |reflexivity|reflexivity|left; reflexivity].
    set (lg := m_log _). assert (El : lg = [CReserve (ag_hdr "req" 100) ag_req] ++ flat_map (fun e => match e with EvCall c => [c] | _ => [] end) [ag_far; ag_at 1; ag_at 2]) by (vm_compute; reflexivity).
    clearbody lg. subst lg. intros h' q' [[= <- <-]|[Q|[Q|[Q|[]]]]]; [reflexivity|discriminate..]. }
  destruct E as (i & j & [[= <- <-]|[]] & _ & E). lia.
Qed.
Print Assumptions C91_asked_refuted.
