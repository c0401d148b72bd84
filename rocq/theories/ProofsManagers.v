(** The drivers one by one, under the generic backend. *)
From Verif Require Import Base BaseProofs ModelLabel ModelSTP ModelAuthz ModelNRM ModelCalendar ModelBackend ModelDrivers ModelJunos ModelOess ModelManager
  SpecLabel SpecCalendar SpecBackend SpecDrivers SpecJunos SpecDeployment SpecManager ProofsLabel ProofsDrivers ProofsSwitches ProofsJunos ProofsDriversUp ProofsManager.
Open Scope Z_scope.

(** What the general lemmas ask of a manager. *)
Record able {C} (m : manager C) (ports : list (string * nrm_port)) (hi : Z) : Prop := {
  ab_res : forall port p v, aget port ports = Some p -> exists r, dr_resource (mg_driver m) port (Some (mkLabel "vlan" [(v, v)])) = Ok r;
  ab_tgt : forall port p v, aget port ports = Some p -> 1 <= v <= hi -> mg_target m port (Some (mkLabel "vlan" [(v, v)])) = Ok tt;
  ab_id : forall x, exists i, mg_id m x = Ok i;
  ab_mk : forall k, vlan_link m ports hi k -> makes (mg_driver m) k }.

Lemma port_there ports port p : aget port ports = Some p -> port_of (interface_map ports) port = Ok (p_interface p).
Proof. intros H. unfold port_of. rewrite interface_map_get, H. reflexivity. Qed.
Lemma port_get ports port p : aget port ports = Some p -> aget port (interface_map ports) = Some (p_interface p).
Proof. intros H. rewrite interface_map_get, H. reflexivity. Qed.
Lemma within v hi : 1 <= v <= hi -> (1 <=? v) && (v <=? hi) = true.
Proof. intros H. apply andb_true_intro. split; apply Z.leb_le; lia. Qed.
Lemma vlan_type : eqb "vlan" "vlan" = true.
Proof. reflexivity. Qed.

(** a target for a VLAN *)
Ltac target := cbn [ltype]; rewrite ?vlan_type; cbv iota; rewrite ?label_value_single, ?int_of_py_str; cbn [Base.bind].

Lemma ex_able ports : able (ex_manager ports) ports 4095.
Proof.
  constructor; cbn [ex_manager mg_driver mg_target mg_id mg_swap].
  - intros port p v _. cbn [dr_resource juniperex]. unfold ex_resource. target. eauto.
  - intros port p v Hp Hv. unfold ex_target. target. rewrite (within _ _ Hv), (port_there _ _ _ Hp). reflexivity.
  - eauto.
  - intros k (p & d & v & w & Hp & Hd & E1 & E2 & Rv & _ & Hs). rewrite <- (Hs eq_refl) in E2.
    destruct (ex_setup_total (interface_map ports) k _ _ v (port_get _ _ _ Hp) (port_get _ _ _ Hd) E1 E2 Rv) as (cs & Hcs). split; [eauto|].
    apply (ex_teardown_total _ k cs); [|exact Hcs].
    intros port l [[_ H]|[_ H]]; [rewrite E1 in H|rewrite E2 in H]; injection H as ->; unfold single_value; cbn [lvalues]; apply Z.eqb_refl.
Qed.
Lemma brocade_able ports : plain_interfaces (interface_map ports) -> able (brocade_manager ports) ports 4095.
Proof.
  intros Hpl. constructor; cbn [brocade_manager mg_driver mg_target mg_id mg_swap].
  - intros port p v _. cbn [dr_resource brocade]. unfold br_resource. target. eauto.
  - intros port p v Hp Hv. unfold br_target. target. rewrite (port_there _ _ _ Hp). reflexivity.
  - eauto.
  - intros k (p & d & v & w & Hp & Hd & E1 & E2 & Rv & _ & Hs). rewrite <- (Hs eq_refl) in E2.
    destruct (br_setup_total (interface_map ports) k _ _ v Hpl (port_get _ _ _ Hp) (port_get _ _ _ Hd) E1 E2) as (cs & Hcs). split; [eauto|].
    apply (br_teardown_total _ k cs); [|exact Hcs].
    intros port l [[_ H]|[_ H]]; [rewrite E1 in H|rewrite E2 in H]; injection H as ->; unfold single_value; cbn [lvalues]; apply Z.eqb_refl.
Qed.
Lemma pica8_able db ports : p8_ports (interface_map ports) -> able (pica8_manager db ports) ports 4095.
Proof.
  intros Hpl. constructor; cbn [pica8_manager mg_driver mg_target mg_id mg_swap].
  - intros port p v _. cbn [dr_resource pica8]. unfold p8_resource. eauto.
  - intros port p v Hp Hv. unfold p8_target. target. rewrite (within _ _ Hv), (port_there _ _ _ Hp). reflexivity.
  - eauto.
  - intros k (p & d & v & w & Hp & Hd & E1 & E2 & Rv & Rw & _).
    destruct (p8_setup_total db (interface_map ports) k _ _ v w Hpl (port_get _ _ _ Hp) (port_get _ _ _ Hd) E1 E2 Rv Rw) as (cs & Hcs). split; [eauto|].
    exact (p8_teardown_total _ _ k cs Hcs).
Qed.
Lemma oess_able group ports : able (oess_manager group ports) ports 4094.
Proof.
  constructor; cbn [oess_manager mg_driver mg_target mg_id mg_swap dr_resource dr_setup dr_teardown].
  - intros port p v _. unfold oe_resource. eauto.
  - intros port p v Hp Hv. unfold oe_target. target. cbn [negb]. target. rewrite (within _ _ Hv), (port_there _ _ _ Hp). reflexivity.
  - eauto.
  - intros k (p & d & v & w & Hp & Hd & E1 & E2 & Rv & Rw & _). unfold makes. cbn [dr_setup dr_teardown]. unfold oe_setup, oe_teardown, oe_target.
    rewrite E1, E2. target. cbn [negb]. target. rewrite (within _ _ Rv), (within _ _ Rw), (port_there _ _ _ Hp), (port_there _ _ _ Hd). cbn [Base.bind]. eauto.
Qed.
Lemma dud_able ports : able (dud_manager ports) ports 4095.
Proof.
  constructor; cbn [dud_manager mg_driver mg_target mg_id mg_swap dr_resource dr_setup dr_teardown].
  - intros port p v Hp. unfold dud_resource. rewrite (port_there _ _ _ Hp). cbn [Base.bind]. eauto.
  - intros port p v Hp Hv. unfold dud_target. rewrite (port_there _ _ _ Hp). reflexivity.
  - eauto.
  - intros k (p & d & v & w & Hp & Hd & E1 & E2 & _). unfold makes. cbn [dr_setup dr_teardown]. unfold via_targets, dud_target.
    rewrite (port_there _ _ _ Hp), (port_there _ _ _ Hd). cbn [Base.bind]. eauto.
Qed.
Lemma nrm_there pm port p : aget port pm = Some p -> nrm_of pm port = Ok p.
Proof. intros H. unfold nrm_of. rewrite H. reflexivity. Qed.
Lemma vlan_target p x l : p_label p = Some l -> ltype l = "vlan" -> is_vlan (mkTarget p x) = true /\ is_mpls (mkTarget p x) = false /\ jt_type (mkTarget p x) = Some "vlan".
Proof. intros H E. unfold is_vlan, is_mpls, jt_type. cbn. rewrite H. cbn. rewrite E. repeat split. Qed.
Lemma jx_able ports : vlan_ports ports -> able (jx_manager ports) ports 4095.
Proof.
  intros Hv. constructor; cbn [jx_manager mg_driver mg_target mg_id mg_swap].
  - intros port p v _. cbn [dr_resource junosex]. unfold jx_resource. eauto.
  - intros port p v Hp _. unfold jx_target. rewrite (nrm_there _ _ _ Hp). reflexivity.
  - eauto.
  - intros k (p & d & v & w & Hp & Hd & E1 & E2 & _). unfold makes. cbn [dr_setup dr_teardown junosex]. unfold via_targets, jx_target.
    rewrite E1, E2, (nrm_there _ _ _ Hp), (nrm_there _ _ _ Hd). cbn [Base.bind]. unfold jx_up, jx_down.
    destruct (Hv _ _ Hp) as (lp & Lp & Tp). destruct (Hv _ _ Hd) as (ld & Ld & Td).
    destruct (vlan_target p (Some (label_value (mkLabel "vlan" [(v, v)]))) lp Lp Tp) as (_ & _ & ->).
    destruct (vlan_target d (Some (label_value (mkLabel "vlan" [(w, w)]))) ld Ld Td) as (_ & _ & ->). eauto.
Qed.
Lemma mx_able routers net ports : vlan_ports ports -> able (mx_manager routers net ports) ports 4095.
Proof.
  intros Hv. constructor; cbn [mx_manager mg_driver mg_target mg_id mg_swap].
  - intros port p v _. cbn [dr_resource junosmx]. unfold mx_resource. cbn [ltype]. change (mem "vlan" ["mpls"; "vlan"]) with true. cbv iota. eauto.
  - intros port p v Hp _. unfold mx_target. rewrite (nrm_there _ _ _ Hp). reflexivity.
  - eauto.
  - intros k (p & d & v & w & Hp & Hd & E1 & E2 & _). unfold makes. cbn [dr_setup dr_teardown junosmx]. unfold via_targets, mx_target.
    rewrite E1, E2, (nrm_there _ _ _ Hp), (nrm_there _ _ _ Hd). cbn [Base.bind option_map].
    destruct (Hv _ _ Hp) as (lp & Lp & Tp). destruct (Hv _ _ Hd) as (ld & Ld & Td).
    destruct (vlan_target p (Some (label_value (mkLabel "vlan" [(v, v)]))) lp Lp Tp) as (V1 & M1 & T1).
    destruct (vlan_target d (Some (label_value (mkLabel "vlan" [(w, w)]))) ld Ld Td) as (V2 & M2 & T2).
    set (s := mkTarget p _) in *. set (t := mkTarget d _) in *.
    unfold mx_up, mx_down. destruct (is_local s) eqn:L1, (is_local t) eqn:L2; cbn [andb negb].
    + eauto.
    + unfold mx_remote_up, mx_remote_down, mx_sides. rewrite L1, M2, V2, T1, T2. cbn [Base.bind].
      change (eqb "vlan" "vlan") with true. change (eqb "vlan" "mpls") with false. cbv iota. cbn [Base.bind]. eauto.
    + unfold mx_remote_up, mx_remote_down, mx_sides. rewrite L1, M1, V1, T1, T2. cbn [Base.bind].
      change (eqb "vlan" "vlan") with true. change (eqb "vlan" "mpls") with false. cbv iota. cbn [Base.bind]. eauto.
    + unfold mx_transit_up, mx_transit_down. rewrite M1, M2, V1, V2, T1, T2. cbn [Base.bind].
      change (eqb "vlan" "mpls") with false. cbn [orb Base.bind]. eauto.
Qed.
