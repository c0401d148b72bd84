(** Links between known ports with usable labels can be set up. *)
From Verif Require Import Base BaseProofs ModelLabel ModelAuthz ModelNRM ModelSTP ModelDrivers ModelJunos SpecDrivers SpecJunos
  ProofsDrivers ProofsSwitches ProofsJoined ProofsJunos.
Open Scope Z_scope.
#[local] Arguments vlan_name : simpl never.
#[local] Arguments label_value : simpl never.
#[local] Arguments py_str : simpl never.

Lemma in_range a b v : a <= v <= b -> (a <=? v) && (v <=? b) = true.
Proof. intros H. apply andb_true_intro. split; apply Z.leb_le; lia. Qed.

Lemma ex_setup_total pm k a b v : aget (k_sp k) pm = Some a -> aget (k_dp k) pm = Some b ->
  k_sl k = Some (mkLabel "vlan" [(v, v)]) -> k_dl k = Some (mkLabel "vlan" [(v, v)]) -> 1 <= v <= 4095 ->
  exists cs, dr_setup (juniperex pm) (k_id k) (k_sp k) (k_sl k) (k_dp k) (k_dl k) = Ok cs.
Proof.
  intros Ha Hb Hs Hd Hv. rewrite Hs, Hd. cbn [dr_setup juniperex]. unfold via_targets, ex_target. cbn [ltype].
  rewrite label_value_single, int_of_py_str. change (eqb "vlan" "vlan") with true. cbv iota. cbn [bind]. rewrite (in_range _ _ _ Hv).
  unfold port_of. rewrite Ha, Hb. cbn [bind]. unfold ex_setup. cbn [fst snd]. rewrite eqb_refl. eauto.
Qed.
Lemma br_setup_total pm k a b v : plain_interfaces pm -> aget (k_sp k) pm = Some a -> aget (k_dp k) pm = Some b ->
  k_sl k = Some (mkLabel "vlan" [(v, v)]) -> k_dl k = Some (mkLabel "vlan" [(v, v)]) ->
  exists cs, dr_setup (brocade pm) (k_id k) (k_sp k) (k_sl k) (k_dp k) (k_dl k) = Ok cs.
Proof.
  intros Hp Ha Hb Hs Hd. rewrite Hs, Hd. cbn [dr_setup brocade]. unfold via_targets, br_target. cbn [ltype].
  rewrite label_value_single. change (eqb "vlan" "vlan") with true. cbv iota. unfold port_of. rewrite Ha, Hb. cbn [bind].
  unfold br_setup. rewrite (port_vlan_plain a v (proj2 (Hp _ _ Ha))). cbn [bind]. rewrite (port_vlan_plain b v (proj2 (Hp _ _ Hb))). cbn [bind].
  rewrite eqb_refl. eauto.
Qed.
Lemma p8_setup_total db pm k a b v w : p8_ports pm -> aget (k_sp k) pm = Some a -> aget (k_dp k) pm = Some b ->
  k_sl k = Some (mkLabel "vlan" [(v, v)]) -> k_dl k = Some (mkLabel "vlan" [(w, w)]) -> 1 <= v <= 4095 -> 1 <= w <= 4095 ->
  exists cs, dr_setup (pica8 db pm) (k_id k) (k_sp k) (k_sl k) (k_dp k) (k_dl k) = Ok cs.
Proof.
  intros [Hp _] Ha Hb Hs Hd Hv Hw. rewrite Hs, Hd. cbn [dr_setup pica8]. unfold via_targets, p8_target. cbn [ltype].
  rewrite !label_value_single, !int_of_py_str. change (eqb "vlan" "vlan") with true. cbv iota. cbn [bind].
  rewrite (in_range _ _ _ Hv), (in_range _ _ _ Hw). unfold port_of. rewrite Ha, Hb. cbn [bind].
  destruct (Hp _ _ Ha) as (_ & n & Na). destruct (Hp _ _ Hb) as (_ & n' & Nb). apply p8_number_flow in Na, Nb.
  unfold p8_configure. cbn [fst snd]. rewrite Na, Nb. cbn [bind]. eauto.
Qed.
Lemma mx_setup_total routers net pm k : own_interfaces pm -> mx_kind pm k ->
  (forall port l rn v, end_of k port l -> mpls_at pm port l rn v -> exists ip, router_of routers rn ip) ->
  exists cs, dr_setup (junosmx routers net pm) (k_id k) (k_sp k) (k_sl k) (k_dp k) (k_dl k) = Ok cs.
Proof.
  intros Ho Hk Hr. cbn [dr_setup junosmx]. unfold via_targets.
  destruct Hk as [e e' H H' L L'|p v p' v' H H'|e rn v H H' L|e rn v H' H L].
  - destruct (target_end pm Ho _ _ _ H) as (t & Et & Ht & Hl). destruct (target_end pm Ho _ _ _ H') as (t' & Et' & Ht' & Hl').
    rewrite Et, Et'. cbn [bind]. apply Hl in L. apply Hl' in L'. unfold mx_up. rewrite L, L'. cbn [andb]. eauto.
  - destruct (target_end pm Ho _ _ _ H) as (t & Et & Ht & Hl). destruct (target_end pm Ho _ _ _ H') as (t' & Et' & Ht' & Hl').
    rewrite Et, Et'. cbn [bind].
    pose proof (t_end_vlan _ _ _ Ht) as (V & M & Ty). pose proof (t_end_vlan _ _ _ Ht') as (V' & M' & Ty').
    unfold mx_up. destruct (is_local t) eqn:E, (is_local t') eqn:E'; cbn [andb negb]; [eauto| | |].
    + unfold mx_remote_up, mx_sides. rewrite E, M', V', Ty. cbn [bind]. eauto.
    + unfold mx_remote_up, mx_sides. rewrite E, M, V, Ty'. cbn [bind]. eauto.
    + unfold mx_transit_up. rewrite V, V', M, M'. cbn [bind]. eauto.
  - destruct (target_end pm Ho _ _ _ H) as (t & Et & Ht & Hl). destruct (target_mpls pm _ _ _ _ H') as (t' & Et' & Ht').
    rewrite Et, Et'. cbn [bind]. pose proof (t_mpls_kind _ _ _ Ht') as (V' & M' & L'). pose proof (t_end_not_mpls _ _ Ht) as M.
    destruct (Hr (k_dp k) (k_dl k) rn v (or_intror (conj eq_refl eq_refl)) H') as [ip Hip].
    pose proof Ht' as (_ & _ & Rn). unfold mx_up. rewrite L', andb_false_r. cbn [negb]. rewrite andb_true_r.
    destruct (is_local t) eqn:E; cbn [negb].
    + unfold mx_remote_up, mx_sides, mx_lsp_up, remote_of. rewrite E, M', V', Rn. cbn [bind]. unfold loopback. rewrite Hip. cbn [bind]. eauto.
    + unfold mx_transit_up, mx_lsp_up, remote_of. rewrite M, M', Rn. cbn [bind]. unfold loopback. rewrite Hip. cbn [bind]. eauto.
  - destruct (target_end pm Ho _ _ _ H) as (t & Et & Ht & Hl). destruct (target_mpls pm _ _ _ _ H') as (t' & Et' & Ht').
    rewrite Et, Et'. cbn [bind]. pose proof (t_mpls_kind _ _ _ Ht') as (V' & M' & L'). pose proof (t_end_not_mpls _ _ Ht) as M.
    destruct (Hr (k_sp k) (k_sl k) rn v (or_introl (conj eq_refl eq_refl)) H') as [ip Hip].
    pose proof Ht' as (_ & _ & Rn). unfold mx_up. rewrite L'. cbn [andb negb].
    destruct (is_local t) eqn:E; cbn [negb].
    + unfold mx_remote_up, mx_sides, mx_lsp_up, remote_of. rewrite L', M', V', Rn. cbn [bind]. unfold loopback. rewrite Hip. cbn [bind]. eauto.
    + unfold mx_transit_up, mx_lsp_up, remote_of. rewrite M, M', Rn. cbn [bind]. unfold loopback. rewrite Hip. cbn [bind]. eauto.
Qed.
