(** C101: routers of the VPLS backend join the two ends of every link that is up,
    each link in an instance of its own. *)
From Verif Require Import Base BaseProofs ModelLabel ModelAuthz ModelNRM ModelDrivers ModelManager SpecDrivers SpecVplsRouter ProofsDrivers ProofsSwitches ProofsJoined ProofsVplsRouter PropsDrivers.
Open Scope Z_scope.

(** After any history of links set up and torn down, the unit of a VLAN takes its
    traffic exactly if it did at the start or is at an end of a link that is up. *)
Theorem C101_carries : forall asn pm may d0 d ks, vr_ports pm -> vr_fresh pm may d0 -> reach (vpls asn pm) vr_exec may d0 d ks ->
  forall itf v, vr_carries d itf v <-> vr_carries d0 itf v \/ link_on pm ks itf v.
Proof. intros asn pm may d0 d ks Hp Hf Hr. exact (vp_carries asn pm Hp may d0 d Hf ks Hr). Qed.
Print Assumptions C101_carries.

(** Two interfaces are the two sites of one VPLS instance for a VLAN exactly if
    they were at the start or are the two ends of one link that is up. *)
Theorem C101_joined : forall asn pm may d0 d ks, vr_ports pm -> vr_fresh pm may d0 -> reach (vpls asn pm) vr_exec may d0 d ks ->
  forall a b v, a <> b -> vr_joined d a b v <-> vr_joined d0 a b v \/ link_between pm ks a b v.
Proof. intros asn pm may d0 d ks Hp Hf Hr. exact (vp_joined asn pm Hp may d0 d Hf ks Hr). Qed.
Print Assumptions C101_joined.

(** Nothing else is left behind: every statement was there at the start, or is
    about the unit or the instance of a link that is up. *)
Theorem C101_left : forall asn pm may d0 d ks, vr_ports pm -> vr_fresh pm may d0 -> reach (vpls asn pm) vr_exec may d0 d ks ->
  forall q, In q d -> In q d0 \/ match q with OfUnit i u _ => exists v, u = py_str v /\ link_on pm ks i v | OfInstance c _ => exists k, In k ks /\ k_id k = c end.
Proof. intros asn pm may d0 d ks Hp Hf Hr. exact (vp_left asn pm Hp may d0 d Hf ks Hr). Qed.
Print Assumptions C101_left.
(** And what was there at the start is still there. *)
Theorem C101_kept : forall asn pm may d0 d ks, vr_ports pm -> vr_fresh pm may d0 -> reach (vpls asn pm) vr_exec may d0 d ks ->
  forall q, In q d0 -> In q d.
Proof. intros asn pm may d0 d ks Hp Hf Hr q H. apply (vp_in asn pm Hp may d0 d Hf ks Hr). auto. Qed.
Print Assumptions C101_kept.

(** Every link that is up has one route distinguisher, in the AS of the router,
    and takes the traffic of that VPN only. *)
Theorem C101_vpn : forall asn pm may d0 d ks, vr_ports pm -> vr_fresh pm may d0 -> reach (vpls asn pm) vr_exec may d0 d ks ->
  forall k, In k ks -> exists n, forall x,
    (vr_distinguisher d (k_id k) x <-> x = asn +++ ":" +++ n) /\ (vr_target d (k_id k) x <-> x = "target:" +++ asn +++ ":" +++ n).
Proof. intros asn pm may d0 d ks Hp Hf Hr k Hk. exists (vpls_unique (k_id k)). intros x. exact (vp_vpns asn pm Hp may d0 d Hf ks Hr k x Hk). Qed.
Print Assumptions C101_vpn.

(** Two links that are up have VPNs of their own, unless their ids agree in the
    first five letters and in the eighth and ninth.  Missing from the full
    statement: that they always do (C101_own_vpn_refuted). *)
Theorem C101_own_vpn_partial : forall asn pm may d0 d ks, vr_ports pm -> vr_fresh pm may d0 -> reach (vpls asn pm) vr_exec may d0 d ks ->
  forall k k' x, In k ks -> In k' ks -> vr_distinguisher d (k_id k) x -> vr_distinguisher d (k_id k') x \/ vr_target d (k_id k') ("target:" +++ x) -> alike (k_id k) (k_id k').
Proof.
  intros asn pm may d0 d ks Hp Hf Hr k k' x Hk Hk' A B. apply unique_alike.
  apply (vp_vpns asn pm Hp may d0 d Hf ks Hr k x Hk) in A.
  assert (E : x = vp_vpn asn k').
  { destruct B as [B|B].
    - apply (vp_vpns asn pm Hp may d0 d Hf ks Hr k' x Hk') in B. exact B.
    - apply (vp_vpns asn pm Hp may d0 d Hf ks Hr k' _ Hk') in B. exact (append_inj_r "target:" _ _ B). }
  unfold vp_vpn in *. rewrite A in E. apply append_inj_r in E. apply (append_inj_r ":") in E. exact E.
Qed.
Print Assumptions C101_own_vpn_partial.

(** A link between known ports with one VLAN can be set up, and torn down again. *)
Theorem C101_setup : forall asn pm k a b v, aget (k_sp k) pm = Some a -> aget (k_dp k) pm = Some b ->
  k_sl k = Some (mkLabel "vlan" [(v, v)]) -> k_dl k = Some (mkLabel "vlan" [(v, v)]) -> 1 <= v <= 4095 ->
  exists cs, dr_setup (vpls asn pm) (k_id k) (k_sp k) (k_sl k) (k_dp k) (k_dl k) = Ok cs.
Proof. exact vp_setup_total. Qed.
Print Assumptions C101_setup.
Theorem C101_teardown : forall asn pm k cs,
  dr_setup (vpls asn pm) (k_id k) (k_sp k) (k_sl k) (k_dp k) (k_dl k) = Ok cs ->
  exists cs', dr_teardown (vpls asn pm) (k_id k) (k_sp k) (k_sl k) (k_dp k) (k_dl k) = Ok cs'.
Proof. exact vp_teardown_total. Qed.
Print Assumptions C101_teardown.

(** Two links up, then one of them down again; the router has an instance and a
    unit of other users. *)
Definition vr_k1 := mkLink "00042CS17" "ps" (vl 1781) "pa" (vl 1781).
Definition vr_k2 := mkLink "00042CS18" "pa" (vl 1782) "pb" (vl 1782).
Definition vr_start : list vstmt := [OfInstance "customers" "instance-type vpls"; OfUnit "ge-0/0/9" "1781" "family inet"].
Lemma vr_pm : vr_ports pm_ex.
Proof.
  split; [plain; split; reflexivity|]. intros p p' i H H'. apply aget_In in H, H'. cbn [In pm_ex] in H, H'.
  repeat destruct H as [H|H]; try contradiction; repeat destruct H' as [H'|H']; try contradiction; congruence.
Qed.
Definition vr_may (k : link) : Prop := In (k_id k) ["00042CS17"; "00042CS18"; "00042ES17"].
Lemma vr_new : vr_fresh pm_ex vr_may vr_start.
Proof.
  split.
  - intros k H. split; [cbn in H; repeat destruct H as [<-|H]; try contradiction; reflexivity|].
    intros rest I. cbn in I. destruct I as [I|[I|[]]]; [injection I as E _|discriminate I].
    unfold vr_may in H. rewrite <- E in H. cbn in H. repeat destruct H as [H|H]; try contradiction; discriminate H.
  - intros port itf u rest H I. apply aget_In in H. cbn [In pm_ex] in H. cbn in I. destruct I as [I|[I|[]]]; [discriminate I|]. injection I as E _ _.
    repeat destruct H as [H|H]; try contradiction; injection H as _ H; congruence.
Qed.
Ltac vr_up d kk := apply (reach_up _ _ _ _ d _ kk); [|vm_compute; auto|go_picked|go_nameable|go_apart|vm_compute; reflexivity].
Ltac vr_in := vm_compute; repeat (first [left; reflexivity|right]).
Ltac vr_mem s := split; [vr_in|]; split; [vr_in|]; exists s; split; [reflexivity|vr_in].
Example C101_ex : vr_ports pm_ex /\ vr_fresh pm_ex vr_may vr_start /\
  (exists d, reach (vpls "6509" pm_ex) vr_exec vr_may vr_start d [vr_k2; vr_k1] /\
     vr_joined d "ge-0/0/0" "ge-0/0/1" 1781 /\ vr_joined d "ge-0/0/2" "ge-0/0/1" 1782 /\
     vr_distinguisher d "00042CS17" "6509:0004217" /\ vr_target d "00042CS18" "target:6509:0004218") /\
  exists d, reach (vpls "6509" pm_ex) vr_exec vr_may vr_start d [vr_k2] /\ vr_joined d "ge-0/0/1" "ge-0/0/2" 1782 /\ List.length d = 12%nat /\ ~ link_on pm_ex [vr_k2] "ge-0/0/1" 1781.
Proof.
  split; [exact vr_pm|]. split; [exact vr_new|]. pose (D := vpls "6509" pm_ex).
  pose (d1 := fold_left vr_exec (run_link D vr_k1) vr_start). pose (d2 := fold_left vr_exec (run_link D vr_k2) d1).
  assert (R : reach D vr_exec vr_may vr_start d2 [vr_k2; vr_k1]) by (vr_up d1 vr_k2; vr_up vr_start vr_k1; constructor).
  split.
  - exists d2. split; [exact R|]. split; [|split; [|split; vr_in]].
    + exists "00042CS17", 1, 2. split; [vr_in|]. split; [vr_mem "MTRL1"|]. split; [vr_mem "MTRL2"|]. lia.
    + exists "00042CS18", 2, 1. split; [vr_in|]. split; [vr_mem "MTRL2"|]. split; [vr_mem "MTRL1"|]. lia.
  - exists (fold_left vr_exec (stop_link D vr_k1) d2). split; [apply (reach_down _ _ _ _ d2 [vr_k2] vr_k1 []); [exact R|vm_compute; reflexivity]|].
    split; [|split; [vm_compute; reflexivity|]].
    + exists "00042CS18", 1, 2. split; [vr_in|]. split; [vr_mem "MTRL1"|]. split; [vr_mem "MTRL2"|]. lia.
    + intros (k & port & [<-|[]] & He & _). destruct He as [[_ He]|[_ He]]; discriminate He.
Qed.

(** Refuted: two links that are up can be in one VPN, by their ids. *)
Definition vr_k3 := mkLink "00042ES17" "pa" (vl 1782) "pb" (vl 1782).
Theorem C101_own_vpn_refuted : ~ forall asn pm may d0 d ks, vr_ports pm -> vr_fresh pm may d0 -> reach (vpls asn pm) vr_exec may d0 d ks ->
  forall k k' x, In k ks -> In k' ks -> k_id k <> k_id k' -> ~ (vr_distinguisher d (k_id k) x /\ vr_distinguisher d (k_id k') x).
Proof.
  intros All. pose (D := vpls "6509" pm_ex). pose (d1 := fold_left vr_exec (run_link D vr_k1) vr_start). pose (d2 := fold_left vr_exec (run_link D vr_k3) d1).
  assert (R : reach D vr_exec vr_may vr_start d2 [vr_k3; vr_k1]) by (vr_up d1 vr_k3; vr_up vr_start vr_k1; constructor).
  refine (All "6509" pm_ex vr_may vr_start d2 [vr_k3; vr_k1] vr_pm vr_new R vr_k3 vr_k1 "6509:0004217" _ _ _ _); [cbn; auto|cbn; auto|discriminate|].
  split; vr_in.
Qed.
Print Assumptions C101_own_vpn_refuted.
