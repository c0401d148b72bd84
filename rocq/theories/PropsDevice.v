(** Property C93: the device is given what was told. *)
From Verif Require Import Base BaseProofs ModelLabel ModelSTP ModelAuthz ModelNRM ModelState ModelLinkVector ModelProvreg ModelAggregator SpecAggregator SpecAggInv.
From Verif Require ModelBackend ModelBackendConc SpecBackend PropsBackend.
From Verif Require Import ModelService SpecService SpecDevice ProofsService ProofsDevice PropsAggregator PropsService.
Open Scope Z_scope.

(** ** C93 *)
(** Whatever the interleaving, and with restarts: a link set up or taken down for a
    reservation has the ports and labels with which it was confirmed.  Missing:
    ids given twice, messages of other agents about the backend's reservations
    ([C93_apart_refuted]). *)
Theorem C93_confirmed_partial : forall g reg rv t l sc t1 t2 h a b, let v := srun g (sinit reg rv t) l in
  NoDup (given v) -> apart v -> on_device v sc t1 t2 -> asked v (CReserveConfirmed h sc a b) ->
  s_network a = ModelBackend.network (sv_back g) /\ s_network b = ModelBackend.network (sv_back g) /\ t1 = named g a /\ t2 = named g b.
Proof. exact device_confirmed. Qed.
Print Assumptions C93_confirmed_partial.
(** What a requester was told of the ends of its connection is what the device is
    given there.  Missing: the destination, when its segment is not the last to be
    stored ([C93_destination_refuted]). *)
Theorem C93_told_partial : forall g reg rv t l e l' s r cid gid a b x y z, let v := srun g (sinit reg rv t) l in let v' := srun g (sstep g v e) l' in
  sv_prompt g = true -> NoDup (given v') -> apart v' -> reports g v e s r (UReserveConfirmed cid gid a b x y z) -> as_told g v' s a b cid.
Proof. exact device_told. Qed.
Print Assumptions C93_told_partial.

(** one segment, told and used *)
Definition dv_100 : option label := Some (mkLabel "vlan" [(100, 100)]).
Definition dv_told : ubody := UReserveConfirmed "C" "gid" (mkSTP "A" "src" dv_100) (mkSTP "A" "out" dv_100) None None 7.
Definition dv_before : list sevent :=
  [SCall (CReserve (ag_hdr "req" 100) sx_req); SAnswer 0 AnsOk; SAnswer 0 (AnsId "C"); sx_down 0 "s0"] ++ sx_ans 0 3 ++ [SBack (ModelBackendConc.EStart 0)] ++ sx_ans 1 3.
Definition dv_after : list sevent := SAnswer 0 (AnsAcks [Acked "s0"]) :: skipn (S (S (List.length dv_before))) (sx_end "req").
Lemma srun_parts g v l e l' : srun g (sstep g (srun g v l) e) l' = srun g v ((l ++ [e]) ++ l').
Proof. unfold srun. rewrite !fold_left_app. reflexivity. Qed.
Example C93_ex : let v := sx_run dv_before in let v' := srun sx_cfg (sstep sx_cfg v (sx_up 0 0)) dv_after in
  v' = sx_run (sx_end "req") /\ NoDup (given v') /\ apart v' /\ on_device v' "s0" "src#100" "out#100" /\ did v' (ModelBackend.OTeardown "s0" "src#100" "out#100") /\
  asked v' (CReserveConfirmed (re "agg" 0) "s0" (mkSTP "A" "src" dv_100) (mkSTP "A" "out" dv_100)) /\
  (exists s, reports sx_cfg v (sx_up 0 0) s "req" dv_told /\ map (fun y => (sb_cid y, sb_order y)) (subs_of 0 s) = [("s0", 0%nat)]) /\
  named sx_cfg (mkSTP "A" "src" dv_100) = "src#100" /\ named sx_cfg (mkSTP "A" "out" dv_100) = "out#100".
Proof.
  cbv zeta. assert (E : (dv_before ++ [sx_up 0 0]) ++ dv_after = sx_end "req") by (vm_compute; reflexivity).
  assert (E' : srun sx_cfg (sstep sx_cfg (sx_run dv_before) (sx_up 0 0)) dv_after = sx_run (sx_end "req")).
  { exact (eq_trans (srun_parts sx_cfg (sinit sx_reg sx_rv 0) dv_before (sx_up 0 0) dv_after) (f_equal (srun sx_cfg (sinit sx_reg sx_rv 0)) E)). }
  rewrite E'. split; [reflexivity|]. split; [assert (X : given (sx_run (sx_end "req")) = ["s0"]) by (vm_compute; reflexivity); rewrite X; repeat constructor; intros []|].
  split; [apply apart_sx; vm_compute; reflexivity|]. split; [left; vm_compute; do 2 right; left; reflexivity|]. split; [vm_compute; do 6 right; left; reflexivity|].
  split; [vm_compute; right; left; reflexivity|]. split; [|split; vm_compute; reflexivity].
  set (ev := EvCall (CReserveConfirmed (re "agg" 0) "s0" (mkSTP "A" "src" dv_100) (mkSTP "A" "out" dv_100))).
  assert (E1 : agg_event sx_cfg (sx_run dv_before) (sx_up 0 0) = Some ev) by (vm_compute; reflexivity).
  set (l := step_acts (sv_agg sx_cfg) (sv_prompt sx_cfg) (v_agg (sx_run dv_before)) ev).
  assert (E2 : exists s, last l (m_st ag_start, ACorr) = (s, AOut (OUp "req" dv_told)) /\ map (fun y => (sb_cid y, sb_order y)) (subs_of 0 s) = [("s0", 0%nat)]) by (vm_compute; eexists; split; reflexivity).
  destruct E2 as (s & E2 & E3). exists s. split; [|exact E3]. exists ev. split; [exact E1|]. fold l. rewrite <- E2. destruct (@exists_last _ l) as (l0 & x & ->); [vm_compute; discriminate|].
  rewrite last_last. apply in_or_app. right. left. reflexivity.
Qed.

(** Another agent confirms the backend's segment as its own, with other labels. *)
Definition dv_claim : list sevent := sx_prov "req" ++ [SCall (CReserveConfirmed (re "urn:X" 2) "s0" (mkSTP "X" "in" ag_label) (mkSTP "X" "far" ag_label))].
Theorem C93_apart_refuted : ~ (forall g reg rv t l sc t1 t2 h a b, let v := srun g (sinit reg rv t) l in
  NoDup (given v) -> on_device v sc t1 t2 -> asked v (CReserveConfirmed h sc a b) -> t1 = named g a).
Proof.
  intros H. specialize (H sx_cfg sx_reg sx_rv 0 dv_claim "s0" "src#100" "out#100" (re "urn:X" 2) (mkSTP "X" "in" ag_label) (mkSTP "X" "far" ag_label)). cbv zeta in H.
  assert (E : "src#100" = named sx_cfg (mkSTP "X" "in" ag_label)).
  { apply H.
    - assert (X : given (srun sx_cfg (sinit sx_reg sx_rv 0) dv_claim) = ["s0"]) by (vm_compute; reflexivity). rewrite X. repeat constructor. intros [].
    - left. vm_compute. do 2 right. left. reflexivity.
    - vm_compute. do 5 right. left. reflexivity. }
  vm_compute in E. discriminate.
Qed.
Print Assumptions C93_apart_refuted.

(** Two networks, A and B; the backend is that of B, where the connection ends.  B
    confirms before A: the requester is told a range as the label at B, of which
    the device uses one. *)
Definition dv_ports : list (string * nrm_port) := [("q1", ag_port "q1" (Some "A") (Some "p1")); ("p2", ag_port "p2" (Some "X") (Some "in"))].
Definition dv_back : bcfg := ModelBackend.mkCfg "B" dv_ports (PropsBackend.ex_res ":") (PropsBackend.ex_res "#") None (fun _ => false) 60 false.
Definition dv_cfg : scfg := mkSCfg (ag_cfg false false false) true dv_back 1.
Definition dv_req : areq := mkAReq None "gid" (mkSTP "A" "src" ag_label) (mkSTP "B" "p2" ag_label) None None 7.
Definition dv_vlan (n : Z) : option label := Some (mkLabel "vlan" [(n, n)]).
Definition dv_start : list sevent :=
  [SCall (CReserve (ag_hdr "req" 100) dv_req); SAnswer 0 AnsOk; SAnswer 0 (AnsId "C"); sx_down 1 "s1"] ++ sx_ans 0 3 ++ [SBack (ModelBackendConc.EStart 0)] ++ sx_ans 1 3.
Definition dv_far : sevent := SCall (CReserveConfirmed (re "agg" 0) "s0" (mkSTP "A" "src" (dv_vlan 107)) (mkSTP "A" "p1" (dv_vlan 108))).
Definition dv_run (l : list sevent) : svc := srun dv_cfg (sinit ag_reg ag_rv 0) l.
Definition dv_rest (n m : nat) : list sevent := [SAnswer 0 (AnsAcks [Acked "s0"; Acked "s1"]); SCall (CCommit (ag_hdr "req" 101) "C"); sx_down n ""] ++ sx_ans 2 5 ++
  [sx_up 1 50; SCall (CCommitConfirmed (re "agg" 51) "s0"); SCall (CProvision (ag_hdr "req" 102) "C"); sx_down m ""] ++ sx_ans 3 4 ++ [SBack (ModelBackendConc.EStart 0)] ++ sx_ans 3 2.
Definition dv_wrong : list sevent := dv_start ++ [sx_up 0 1; dv_far] ++ dv_rest 3 7.
Theorem C93_destination_refuted : ~ (forall g reg rv t l r cid gid a b x y z sc t1 t2 hd gid' u w x' y' z' tr, let v := srun g (sinit reg rv t) l in
  NoDup (given v) -> apart v -> In (OUp r (UReserveConfirmed cid gid a b x y z)) (outs (m_st (v_agg v))) ->
  told g v hd (DReserve gid' u w x' y' z') -> hd_trace hd = Some (tr ++ [a_urn (sv_agg g) +++ ":" +++ cid]) -> local_id v sc (py_str (Z.of_nat (hd_corr hd))) ->
  s_network w = s_network b -> s_port w = s_port b -> on_device v sc t1 t2 -> t2 = named g b).
Proof.
  intros H. specialize (H dv_cfg ag_reg ag_rv 0 dv_wrong "req" "C" "gid" (mkSTP "A" "src" (dv_vlan 107)) (mkSTP "B" "p2" ag_label) None None 7 "s1" "q1#100" "p2#100").
  specialize (H (mkHeader "agg" "agg" 1 [] (Some ["up:1"; "agg:C"])) "gid" (mkSTP "B" "q1" ag_label) (mkSTP "B" "p2" ag_label) None None 7 ["up:1"]). cbv zeta in H.
  assert (E : "p2#100" = named dv_cfg (mkSTP "B" "p2" ag_label)).
  { apply H; clear H.
    - assert (X : given (srun dv_cfg (sinit ag_reg ag_rv 0) dv_wrong) = ["s1"]) by (vm_compute; reflexivity). rewrite X. repeat constructor. intros [].
    - apply apart_sx. vm_compute. reflexivity.
    - vm_compute. do 2 right. left. reflexivity.
    - vm_compute. right. left. reflexivity.
    - reflexivity.
    - apply local_ids. vm_compute. left. reflexivity.
    - reflexivity.
    - reflexivity.
    - left. vm_compute. do 2 right. left. reflexivity. }
  vm_compute in E. discriminate.
Qed.
Print Assumptions C93_destination_refuted.
(** the other way round it is as told *)
Example C93_ex_two : let v := dv_run (dv_start ++ [dv_far; sx_up 0 1] ++ dv_rest 4 8) in
  NoDup (given v) /\ apart v /\ on_device v "s1" "q1#100" "p2#100" /\
  In (OUp "req" (UReserveConfirmed "C" "gid" (mkSTP "A" "src" (dv_vlan 107)) (mkSTP "B" "p2" dv_100) None None 7)) (outs (m_st (v_agg v))) /\
  named dv_cfg (mkSTP "B" "p2" dv_100) = "p2#100" /\ map (fun y => (sb_cid y, sb_order y, sb_key y)) (subs_of 0 (m_st (v_agg v))) = [("s0", 0, 1); ("s1", 1, 2)]%nat.
Proof.
  cbv zeta. set (l := _ ++ _).
  split; [assert (X : given (dv_run l) = ["s1"]) by (vm_compute; reflexivity); rewrite X; repeat constructor; intros []|].
  split; [apply apart_sx; vm_compute; reflexivity|]. split; [left; vm_compute; do 2 right; left; reflexivity|]. split; [vm_compute; do 2 right; left; reflexivity|].
  split; vm_compute; reflexivity.
Qed.
