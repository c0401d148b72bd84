(** C77, C78: Juniper routers and EX4550 switches connect the ends of the links
    that are up, and no others. *)
From Verif Require Import Base ModelLabel ModelAuthz ModelNRM ModelSTP ModelDrivers ModelJunos SpecDrivers SpecJunos
  ProofsDrivers ProofsSwitches ProofsJoined ProofsJunos ProofsJunosEx PropsDrivers ProofsDriversUp.
Open Scope Z_scope.

(** * C77: Juniper routers *)

(** The links asked for are of the kinds of [mx_kind].  That no others are asked
    for is what makes these theorems partial, as well as that networks differ in
    their first six letters. *)
Definition mx_asked (pm : list (string * nrm_port)) (may : link -> Prop) : Prop :=
  forall k, may k -> word (k_id k) /\ mx_kind pm k.
Definition mx_world (routers : list (string * string)) (net : string) (pm : list (string * nrm_port)) : Prop :=
  own_interfaces pm /\ own_networks pm /\ word (substring 0 6 net) /\ (forall n ip, aget n routers = Some ip -> word ip).

(** Two logical interfaces are cross-connected exactly if they were at the start
    or are the two Ethernet ends of a link that is up. *)
Theorem C77_switched_partial : forall routers net pm may d0 d ks,
  mx_world routers net pm -> mx_asked pm may -> junos_fresh pm "NSI-" d0 ->
  reach (junosmx routers net pm) junos_exec may d0 d ks ->
  forall a b, a <> b ->
    switched d a b <-> switched d0 a b \/ exists e e', joins pm ks e e' /\ a = sub e /\ b = sub e'.
Proof. intros routers net pm may d0 d ks (H1 & H2 & H3 & H4). exact (mx_switched routers net pm H1 H2 H3 H4 may d0 d ks). Qed.
Print Assumptions C77_switched_partial.
(** A logical interface goes into a path to another router exactly if it is the
    Ethernet end of a link that is up with an MPLS end to the network of that
    router; the paths both ways are named after the two networks and the label. *)
Theorem C77_tunnelled_partial : forall routers net pm may d0 d ks,
  mx_world routers net pm -> mx_asked pm may -> junos_fresh pm "NSI-" d0 ->
  reach (junosmx routers net pm) junos_exec may d0 d ks ->
  forall a out ip inn,
    tunnelled d a out ip inn <->
    exists e rn v, leads pm ks e rn v /\ a = tunnel_sub e /\ out = path_name rn net v /\ inn = path_name net rn v /\ router_of routers rn ip.
Proof. intros routers net pm may d0 d ks (H1 & H2 & H3 & H4). exact (mx_tunnelled routers net pm H1 H2 H3 H4 may d0 d ks). Qed.
Print Assumptions C77_tunnelled_partial.
(** The Ethernet ends of a link that is up are set up for its VLANs. *)
Theorem C77_ready_partial : forall routers net pm may d0 d ks,
  mx_world routers net pm -> mx_asked pm may -> junos_fresh pm "NSI-" d0 ->
  reach (junosmx routers net pm) junos_exec may d0 d ks ->
  forall k port l e, In k ks -> end_of k port l -> end_at pm port l e -> mx_ready d e.
Proof.
  intros routers net pm may d0 d ks (H1 & H2 & H3 & H4) Hm Hf Hr k port l e Hk He Ha.
  apply (mx_ends routers net pm H1 H2 H3 H4 may d0 d ks Hm Hf Hr k e Hk). exists port, l. auto.
Qed.
Print Assumptions C77_ready_partial.
(** No unit is left behind by a link that is no longer up. *)
Theorem C77_units_partial : forall routers net pm may d0 d ks,
  mx_world routers net pm -> mx_asked pm may -> junos_fresh pm "NSI-" d0 ->
  reach (junosmx routers net pm) junos_exec may d0 d ks ->
  forall p u r, In ("interfaces" :: p :: "unit" :: u :: r) d ->
    In ("interfaces" :: p :: "unit" :: u :: r) d0 \/
    exists k port l e, In k ks /\ end_of k port l /\ end_at pm port l e /\
      ((e = CPort p /\ u = "0") \/ exists v, e = CVlan p v /\ u = py_str v).
Proof.
  intros routers net pm may d0 d ks (H1 & H2 & H3 & H4) Hm Hf Hr p u r H.
  destruct (mx_units routers net pm H1 H2 H3 H4 may d0 d ks Hm Hf Hr p u r H) as [H'|(k & e & Hk & (port & l & He & Ha) & Hu)]; [left; exact H'|right].
  exists k, port, l, e. auto.
Qed.
Print Assumptions C77_units_partial.
(** A link that could be set up can be torn down. *)
Theorem C77_teardown_partial : forall routers net pm k cs, mx_world routers net pm -> word (k_id k) -> mx_kind pm k ->
  dr_setup (junosmx routers net pm) (k_id k) (k_sp k) (k_sl k) (k_dp k) (k_dl k) = Ok cs ->
  exists cs', dr_teardown (junosmx routers net pm) (k_id k) (k_sp k) (k_sl k) (k_dp k) (k_dl k) = Ok cs'.
Proof.
  intros routers net pm k cs (H1 & H2 & H3 & H4) Hw Hk H. exact (mx_teardown_total routers net pm H1 H2 H3 H4 k cs (conj Hw Hk) H).
Qed.
Print Assumptions C77_teardown_partial.
(** A link can be set up if the routers its labels lead to are known. *)
Theorem C77_setup_partial : forall routers net pm k, own_interfaces pm -> mx_kind pm k ->
  (forall port l rn v, end_of k port l -> mpls_at pm port l rn v -> exists ip, router_of routers rn ip) ->
  exists cs, dr_setup (junosmx routers net pm) (k_id k) (k_sp k) (k_sl k) (k_dp k) (k_dl k) = Ok cs.
Proof. exact mx_setup_total. Qed.
Print Assumptions C77_setup_partial.
(** Links of these kinds, and links between two MPLS labels, are never turned down
    for their labels. *)
Definition mx_end_label (pm : list (string * nrm_port)) (port : string) (l : option label) : Prop :=
  (exists e, end_at pm port l e) \/ exists net v, mpls_at pm port l net v.
Theorem C77_admitted : forall pm k,
  mx_end_label pm (k_sp k) (k_sl k) -> mx_end_label pm (k_dp k) (k_dl k) -> mx_can_connect (k_sl k) (k_dl k) = true.
Proof.
  assert (L : forall pm port l, mx_end_label pm port l -> l = None \/ exists v, l = Some (mkLabel "vlan" [(v, v)]) \/ l = Some (mkLabel "mpls" [(v, v)])).
  { intros pm port l [(e & p & _ & H)|(net & v & p & pl & _ & _ & _ & -> & _)]; [|right; exists v; right; reflexivity].
    destruct (p_label p) as [pl|], l as [l|]; try contradiction; [|left; reflexivity].
    destruct H as (_ & v & -> & _). right. exists v. left. reflexivity. }
  intros pm k H H'. destruct (L _ _ _ H) as [->|(v & [->| ->])], (L _ _ _ H') as [->|(w & [->| ->])]; reflexivity.
Qed.
Print Assumptions C77_admitted.
Example C77_admitted_ex : mx_end_label [("pa", mkPort "ethernet" "" (Some "surfnet.nl:topology") None None None (Some (mkLabel "mpls" [(1, 9)])) 1000 "ge-0/0/0" [] [] false)] "pa" (Some (mkLabel "mpls" [(7, 7)])).
Proof. right. exists "surfnet.nl:topology", 7. eexists. eexists. repeat split. Qed.

(** Two routers with links that lead to each other with the same label value
    agree on the paths: what one sends into the other takes out, both ways. *)
Theorem C77_two_routers_partial : forall rs rs' net net' pm pm' may may' d0 d0' d d' ks ks',
  mx_world rs net pm -> mx_asked pm may -> junos_fresh pm "NSI-" d0 -> reach (junosmx rs net pm) junos_exec may d0 d ks ->
  mx_world rs' net' pm' -> mx_asked pm' may' -> junos_fresh pm' "NSI-" d0' -> reach (junosmx rs' net' pm') junos_exec may' d0' d' ks' ->
  forall e e' v ip ip', leads pm ks e net' v -> leads pm' ks' e' net v -> router_of rs net' ip' -> router_of rs' net ip ->
  exists there back, tunnelled d (tunnel_sub e) there ip' back /\ tunnelled d' (tunnel_sub e') back ip there.
Proof.
  intros rs rs' net net' pm pm' may may' d0 d0' d d' ks ks' W M F R W' M' F' R' e e' v ip ip' L L' I I'.
  exists (path_name net' net v), (path_name net net' v). split.
  - apply (C77_tunnelled_partial _ _ _ _ _ _ _ W M F R). exists e, net', v. auto.
  - apply (C77_tunnelled_partial _ _ _ _ _ _ _ W' M' F' R'). exists e', net, v. auto.
Qed.
Print Assumptions C77_two_routers_partial.

(** ** Cases *)
Definition rt (net : option string) (l : option label) (itf : string) : nrm_port :=
  mkPort "ethernet" "" net None None None l 1000 itf [] [] false.
Definition vr : option label := Some (mkLabel "vlan" [(100, 200)]).
Definition mr : option label := Some (mkLabel "mpls" [(1, 9)]).
Definition ml (v : Z) : option label := Some (mkLabel "mpls" [(v, v)]).
Definition pm_mx : list (string * nrm_port) :=
  [("pa", rt None vr "ge-0/0/0"); ("pb", rt None vr "ge-0/0/1"); ("pc", rt (Some "surfnet.nl:topology") mr "ge-0/0/2"); ("pd", rt None None "ge-0/0/3")].
Definition rs_mx : list (string * string) := [("surfnet.nl", "10.0.0.2"); ("nordu.net", "10.0.0.1")].
Definition k1_mx := mkLink "c1" "pa" (vl 100) "pb" (vl 101).
Definition k2_mx := mkLink "c2" "pa" (vl 102) "pc" (ml 7).
Definition k3_mx := mkLink "c3" "pc" (ml 8) "pd" None.
Definition asked_mx (k : link) : Prop := k = k1_mx \/ k = k2_mx \/ k = k3_mx.
Ltac go_up' d kk ask := apply (reach_up _ _ _ _ d _ kk); [|ask|go_picked|go_nameable|go_apart|vm_compute; reflexivity].
Ltac walk H := apply aget_In in H; cbn in H; repeat destruct H as [H|H]; try contradiction; injection H as <- <-.

Lemma world_mx : mx_world rs_mx "nordu.net:topology" pm_mx.
Proof.
  split; [|split; [|split; [reflexivity|]]].
  - split; [intros port p H; walk H; split; reflexivity|]. intros port port' p p' H H' E. walk H; walk H'; first [reflexivity|discriminate E].
  - split; [intros port p n H Hn; walk H; try discriminate Hn; injection Hn as <-; reflexivity|].
    intros port port' p p' n n' H H' Hn Hn' _. walk H; try discriminate Hn; walk H'; try discriminate Hn'; reflexivity.
  - intros n ip H. walk H; reflexivity.
Qed.
Lemma ends_mx :
  end_at pm_mx "pa" (vl 100) (CVlan "ge-0/0/0" 100) /\ end_at pm_mx "pb" (vl 101) (CVlan "ge-0/0/1" 101) /\
  end_at pm_mx "pa" (vl 102) (CVlan "ge-0/0/0" 102) /\ end_at pm_mx "pd" None (CPort "ge-0/0/3") /\
  (forall v, mpls_at pm_mx "pc" (ml v) "surfnet.nl:topology" v).
Proof.
  split; [|split; [|split; [|split]]]; try (eexists; split; [reflexivity|]; split; [reflexivity|]; eexists; split; reflexivity).
  - eexists. split; reflexivity.
  - intros v. eexists. eexists. repeat split.
Qed.
Lemma asks_mx : mx_asked pm_mx asked_mx.
Proof.
  destruct ends_mx as (E1 & E2 & E3 & E4 & E5). intros k [->|[->| ->]]; (split; [reflexivity|]).
  - exact (kind_vlan pm_mx k1_mx _ _ _ _ E1 E2).
  - apply (kind_out pm_mx k2_mx _ _ _ E3 (E5 7)). discriminate.
  - apply (kind_in pm_mx k3_mx _ _ _ (E5 8) E4). intros p _. eexists. split; reflexivity.
Qed.
Definition d0_mx : list path := [["system"; "host-name"; "mx1"]; ["protocols"; "connections"; "interface-switch"; "old"; "interface"; "ge-0/0/9.1"]].
Lemma fresh_mx : junos_fresh pm_mx "NSI-" d0_mx.
Proof. intros q [<-|[<-|[]]]; (split; [intros port p H; walk H; reflexivity|]); repeat split. Qed.

(** Three links up, then the second one down. *)
Example C77_ex : exists d, reach (junosmx rs_mx "nordu.net:topology" pm_mx) junos_exec asked_mx d0_mx d [k3_mx; k2_mx; k1_mx] /\
  switched d "ge-0/0/0.100" "ge-0/0/1.101" /\
  tunnelled d "ge-0/0/0.102" "T-surfne-F-nordu.-mpls7" "10.0.0.2" "T-nordu.-F-surfne-mpls7" /\
  tunnelled d "ge-0/0/3" "T-surfne-F-nordu.-mpls8" "10.0.0.2" "T-nordu.-F-surfne-mpls8" /\
  exists d', reach (junosmx rs_mx "nordu.net:topology" pm_mx) junos_exec asked_mx d0_mx d' [k3_mx; k1_mx] /\
    switched d' "ge-0/0/0.100" "ge-0/0/1.101" /\ tunnelled d' "ge-0/0/3" "T-surfne-F-nordu.-mpls8" "10.0.0.2" "T-nordu.-F-surfne-mpls8" /\
    mem ["interfaces"; "ge-0/0/0"; "unit"; "102"; "vlan-id"; "102"] d' = false.
Proof.
  pose (D := junosmx rs_mx "nordu.net:topology" pm_mx). pose (d1 := fold_left junos_exec (run_link D k1_mx) d0_mx).
  pose (d2 := fold_left junos_exec (run_link D k2_mx) d1). pose (d3 := fold_left junos_exec (run_link D k3_mx) d2).
  assert (R : reach D junos_exec asked_mx d0_mx d3 [k3_mx; k2_mx; k1_mx]).
  { go_up' d2 k3_mx ltac:(right; right; reflexivity). go_up' d1 k2_mx ltac:(right; left; reflexivity). go_up' d0_mx k1_mx ltac:(left; reflexivity). constructor. }
  exists d3. split; [exact R|]. split; [exists "NSI-c1"; split; inside|]. split; [exists "c2"; (split; [|split; [|split]]); inside|].
  split; [exists "c3"; (split; [|split; [|split]]); inside|].
  exists (fold_left junos_exec (stop_link D k2_mx) d3). split; [apply (reach_down _ _ _ _ d3 [k3_mx] k2_mx [k1_mx]); [exact R|vm_compute; reflexivity]|].
  split; [exists "NSI-c1"; split; inside|]. split; [exists "c3"; (split; [|split; [|split]]); inside|]. vm_compute. reflexivity.
Qed.
(** The router at the other side. *)
Definition pm_mx' : list (string * nrm_port) := [("qa", rt None vr "xe-1/0/0"); ("qc", rt (Some "nordu.net:topology") mr "xe-1/0/1")].
Definition k1_mx' := mkLink "z" "qc" (ml 7) "qa" (vl 120).
Example C77_two_routers_ex :
  exists d d', reach (junosmx rs_mx "nordu.net:topology" pm_mx) junos_exec asked_mx d0_mx d [k2_mx] /\
    reach (junosmx rs_mx "surfnet.nl:topology" pm_mx') junos_exec (eq k1_mx') [] d' [k1_mx'] /\
    mx_world rs_mx "surfnet.nl:topology" pm_mx' /\ mx_asked pm_mx' (eq k1_mx') /\ junos_fresh pm_mx' "NSI-" [] /\
    leads pm_mx [k2_mx] (CVlan "ge-0/0/0" 102) "surfnet.nl:topology" 7 /\ leads pm_mx' [k1_mx'] (CVlan "xe-1/0/0" 120) "nordu.net:topology" 7 /\
    router_of rs_mx "surfnet.nl:topology" "10.0.0.2" /\ router_of rs_mx "nordu.net:topology" "10.0.0.1" /\
    tunnelled d' "xe-1/0/0.120" "T-nordu.-F-surfne-mpls7" "10.0.0.1" "T-surfne-F-nordu.-mpls7".
Proof.
  assert (E1 : end_at pm_mx' "qa" (vl 120) (CVlan "xe-1/0/0" 120)) by (eexists; split; [reflexivity|]; split; [reflexivity|]; eexists; split; reflexivity).
  assert (E2 : mpls_at pm_mx' "qc" (ml 7) "nordu.net:topology" 7) by (eexists; eexists; repeat split).
  destruct ends_mx as (_ & _ & F1 & _ & F2). eexists. eexists.
  split; [go_up' d0_mx k2_mx ltac:(right; left; reflexivity); constructor|].
  split; [go_up' (@nil path) k1_mx' ltac:(reflexivity); constructor|].
  split; [|split; [|split; [intros q []|]]].
  - split; [|split; [|split; [reflexivity|]]].
    + split; [intros port p H; walk H; split; reflexivity|]. intros port port' p p' H H' E. walk H; walk H'; first [reflexivity|discriminate E].
    + split; [intros port p n H Hn; walk H; try discriminate Hn; injection Hn as <-; reflexivity|].
      intros port port' p p' n n' H H' Hn Hn' _. walk H; try discriminate Hn; walk H'; try discriminate Hn'; reflexivity.
    + intros n ip H. walk H; reflexivity.
  - intros k <-. split; [reflexivity|]. apply (kind_in pm_mx' k1_mx' _ _ _ E2 E1). discriminate.
  - split; [exists k2_mx; split; [left; reflexivity|left; split; [exact F1|apply F2]]|].
    split; [exists k1_mx'; split; [left; reflexivity|right; split; [exact E2|exact E1]]|].
    split; [reflexivity|]. split; [reflexivity|]. exists "z". (split; [|split; [|split]]); inside.
Qed.

(** ** What does not hold *)

(** A link from a whole port to a port without a label that leads to another
    network passes every check before it is set up, and is set up without an
    error, but connects nothing and cannot be torn down. *)
Definition pm_mx2 : list (string * nrm_port) := [("pa", rt None None "ge-0/0/0"); ("pb", rt (Some "surfnet.nl:topology") None "ge-0/0/1")].
Definition k_mx2 := mkLink "c1" "pa" None "pb" None.
Theorem C77_whole_ports_refuted : exists pm k cs,
  own_interfaces pm /\ picked k /\ nameable (junosmx rs_mx "nordu.net:topology" pm) k /\
  mx_can_connect (k_sl k) (k_dl k) = true /\
  end_at pm (k_sp k) (k_sl k) (CPort "ge-0/0/0") /\ end_at pm (k_dp k) (k_dl k) (CPort "ge-0/0/1") /\
  dr_setup (junosmx rs_mx "nordu.net:topology" pm) (k_id k) (k_sp k) (k_sl k) (k_dp k) (k_dl k) = Ok cs /\
  ~ switched (fold_left junos_exec cs []) "ge-0/0/0.0" "ge-0/0/1.0" /\
  dr_teardown (junosmx rs_mx "nordu.net:topology" pm) (k_id k) (k_sp k) (k_sl k) (k_dp k) (k_dl k) = Err EAttribute.
Proof.
  exists pm_mx2, k_mx2. eexists. split.
  { split; [intros port p H; walk H; split; reflexivity|]. intros port port' p p' H H' E. walk H; walk H'; first [reflexivity|discriminate E]. }
  split; [go_picked|]. split; [go_nameable|]. split; [reflexivity|]. split; [eexists; split; reflexivity|]. split; [eexists; split; reflexivity|].
  split; [vm_compute; reflexivity|]. split; [|vm_compute; reflexivity].
  intros (s & H & _). vm_compute in H. repeat destruct H as [H|H]; try discriminate H; exact H.
Qed.
Print Assumptions C77_whole_ports_refuted.

(** Paths to two networks that begin with the same six letters have the same
    name for the same label value: the path of the first link now leads to the
    router of the second, and ends when the second link is torn down. *)
Definition pm_mx3 : list (string * nrm_port) :=
  [("pa", rt None vr "ge-0/0/0"); ("pb", rt (Some "surfnet.nl:topology") mr "ge-0/0/1"); ("pc", rt (Some "surfnet6.nl:topology") mr "ge-0/0/2")].
Definition rs_mx3 : list (string * string) := [("surfnet.nl", "10.0.0.2"); ("surfnet6.nl", "10.0.0.6")].
Definition k1_mx3 := mkLink "c1" "pa" (vl 100) "pb" (ml 7).
Definition k2_mx3 := mkLink "c2" "pa" (vl 101) "pc" (ml 7).
Theorem C77_path_names_refuted : exists pm may d d' k k',
  own_interfaces pm /\ mx_asked pm may /\
  reach (junosmx rs_mx3 "nordu.net:topology" pm) junos_exec may [] d [k'; k] /\
  reach (junosmx rs_mx3 "nordu.net:topology" pm) junos_exec may [] d' [k] /\
  leads pm [k] (CVlan "ge-0/0/0" 100) "surfnet.nl:topology" 7 /\ router_of rs_mx3 "surfnet.nl:topology" "10.0.0.2" /\
  (forall out ip inn, tunnelled d "ge-0/0/0.100" out ip inn -> ip = "10.0.0.6") /\
  (forall out ip inn, ~ tunnelled d' "ge-0/0/0.100" out ip inn).
Proof.
  pose (D := junosmx rs_mx3 "nordu.net:topology" pm_mx3). pose (d1 := fold_left junos_exec (run_link D k1_mx3) []).
  pose (d2 := fold_left junos_exec (run_link D k2_mx3) d1).
  assert (E1 : forall v, end_at pm_mx3 "pa" (vl v) (CVlan "ge-0/0/0" v)) by (intros v; eexists; split; [reflexivity|]; split; [reflexivity|]; eexists; split; reflexivity).
  assert (M1 : mpls_at pm_mx3 "pb" (ml 7) "surfnet.nl:topology" 7) by (eexists; eexists; repeat split).
  assert (M2 : mpls_at pm_mx3 "pc" (ml 7) "surfnet6.nl:topology" 7) by (eexists; eexists; repeat split).
  exists pm_mx3, (fun k => k = k1_mx3 \/ k = k2_mx3), d2, (fold_left junos_exec (stop_link D k2_mx3) d2), k1_mx3, k2_mx3.
  split. { split; [intros port p H; walk H; split; reflexivity|]. intros port port' p p' H H' E. walk H; walk H'; first [reflexivity|discriminate E]. }
  split. { intros k [->| ->]; (split; [reflexivity|]).
    - apply (kind_out pm_mx3 k1_mx3 _ _ _ (E1 100) M1). discriminate.
    - apply (kind_out pm_mx3 k2_mx3 _ _ _ (E1 101) M2). discriminate. }
  assert (R : reach D junos_exec (fun k => k = k1_mx3 \/ k = k2_mx3) [] d2 [k2_mx3; k1_mx3]).
  { go_up' d1 k2_mx3 ltac:(right; reflexivity). go_up' (@nil path) k1_mx3 ltac:(left; reflexivity). constructor. }
  split; [exact R|]. split; [apply (reach_down _ _ _ _ d2 [] k2_mx3 [k1_mx3]); [exact R|vm_compute; reflexivity]|].
  split; [exists k1_mx3; split; [left; reflexivity|left; split; [apply E1|exact M1]]|]. split; [reflexivity|]. split.
  - intros out ip inn (s & _ & _ & _ & H). vm_compute in H. repeat destruct H as [H|H]; try discriminate H; try contradiction; injection H as <- <-; reflexivity.
  - intros out ip inn (s & _ & _ & _ & H). vm_compute in H. repeat destruct H as [H|H]; try discriminate H; exact H.
Qed.
Print Assumptions C77_path_names_refuted.

(** * C78: EX4550 switches *)

(** Here, a VLAN belongs to one link at a time on the whole switch, so that
    ports may share interfaces.  PARTIAL: for links between VLANs. *)
Definition jx_world (pm : list (string * nrm_port)) : Prop :=
  forall port p, aget port pm = Some p -> word (p_interface p) /\ shas "." (p_interface p) = false.
Definition jx_asked (pm : list (string * nrm_port)) (may : link -> Prop) : Prop :=
  forall k, may k -> word (k_id k) /\ exists p v p' v', end_at pm (k_sp k) (k_sl k) (CVlan p v) /\ end_at pm (k_dp k) (k_dl k) (CVlan p' v').

Theorem C78_switched_partial : forall pm may d0 d ks, jx_world pm -> jx_asked pm may -> junos_fresh pm "OpenNSA-local-" d0 ->
  reach (junosex pm) junos_exec may d0 d ks ->
  forall a b, a <> b ->
    switched d a b <-> switched d0 a b \/ exists e e', joins pm ks e e' /\ a = sub e /\ b = sub e'.
Proof. intros pm may d0 d ks H. exact (jx_switched pm H may d0 d ks). Qed.
Print Assumptions C78_switched_partial.
Theorem C78_ready_partial : forall pm may d0 d ks, jx_world pm -> jx_asked pm may -> junos_fresh pm "OpenNSA-local-" d0 ->
  reach (junosex pm) junos_exec may d0 d ks ->
  forall k port l e, In k ks -> end_of k port l -> end_at pm port l e -> jx_ready d e.
Proof. intros pm may d0 d ks H. exact (jx_ends_ready pm H may d0 d ks). Qed.
Print Assumptions C78_ready_partial.
Theorem C78_units_partial : forall pm may d0 d ks, jx_world pm -> jx_asked pm may -> junos_fresh pm "OpenNSA-local-" d0 ->
  reach (junosex pm) junos_exec may d0 d ks ->
  forall p u r, In ("interfaces" :: p :: "unit" :: u :: r) d ->
    In ("interfaces" :: p :: "unit" :: u :: r) d0 \/
    exists k port l v, In k ks /\ end_of k port l /\ end_at pm port l (CVlan p v) /\ u = py_str v.
Proof. intros pm may d0 d ks H. exact (jx_units pm H may d0 d ks). Qed.
Print Assumptions C78_units_partial.
(** Every link between VLANs can be set up and torn down. *)
Theorem C78_commands_partial : forall pm k, jx_world pm -> word (k_id k) ->
  (exists p v p' v', end_at pm (k_sp k) (k_sl k) (CVlan p v) /\ end_at pm (k_dp k) (k_dl k) (CVlan p' v')) ->
  exists cs cs', dr_setup (junosex pm) (k_id k) (k_sp k) (k_sl k) (k_dp k) (k_dl k) = Ok cs /\
    dr_teardown (junosex pm) (k_id k) (k_sp k) (k_sl k) (k_dp k) (k_dl k) = Ok cs'.
Proof. intros pm k H Hw He. exact (jx_total pm H k (conj Hw He)). Qed.
Print Assumptions C78_commands_partial.

Definition pm_jx : list (string * nrm_port) :=
  [("pa", rt None vr "xe-0/0/0"); ("pb", rt (Some "surfnet.nl:topology") vr "xe-0/0/1"); ("pb2", rt None vr "xe-0/0/1")].
Definition k1_jx := mkLink "c1" "pa" (vl 100) "pb" (vl 101).
Definition k2_jx := mkLink "c2" "pb2" (vl 102) "pa" (vl 103).
Definition asked_jx (k : link) : Prop := k = k1_jx \/ k = k2_jx.
Example C78_ex : jx_world pm_jx /\ jx_asked pm_jx asked_jx /\ junos_fresh pm_jx "OpenNSA-local-" d0_mx /\
  exists d, reach (junosex pm_jx) junos_exec asked_jx d0_mx d [k2_jx; k1_jx] /\
    switched d "xe-0/0/0.100" "xe-0/0/1.101" /\ switched d "xe-0/0/1.102" "xe-0/0/0.103" /\
    exists d', reach (junosex pm_jx) junos_exec asked_jx d0_mx d' [k2_jx] /\ switched d' "xe-0/0/1.102" "xe-0/0/0.103" /\
      mem ["interfaces"; "xe-0/0/1"; "unit"; "101"; "vlan-id"; "101"] d' = false.
Proof.
  pose (D := junosex pm_jx). pose (d1 := fold_left junos_exec (run_link D k1_jx) d0_mx). pose (d2 := fold_left junos_exec (run_link D k2_jx) d1).
  assert (A : forall v, end_at pm_jx "pa" (vl v) (CVlan "xe-0/0/0" v)) by (intros v; eexists; split; [reflexivity|]; split; [reflexivity|]; eexists; split; reflexivity).
  assert (B : forall v, end_at pm_jx "pb" (vl v) (CVlan "xe-0/0/1" v)) by (intros v; eexists; split; [reflexivity|]; split; [reflexivity|]; eexists; split; reflexivity).
  assert (B2 : forall v, end_at pm_jx "pb2" (vl v) (CVlan "xe-0/0/1" v)) by (intros v; eexists; split; [reflexivity|]; split; [reflexivity|]; eexists; split; reflexivity).
  split; [intros port p H; walk H; split; reflexivity|].
  split. { intros k [->| ->]; (split; [reflexivity|]); do 4 eexists; (split; [apply A || apply B2|apply A || apply B]). }
  split. { intros q [<-|[<-|[]]]; (split; [intros port p H; walk H; reflexivity|]); repeat split. }
  assert (R : reach D junos_exec asked_jx d0_mx d2 [k2_jx; k1_jx]).
  { go_up' d1 k2_jx ltac:(right; reflexivity). go_up' d0_mx k1_jx ltac:(left; reflexivity). constructor. }
  exists d2. split; [exact R|]. split; [exists "OpenNSA-local-c1"; split; inside|]. split; [exists "OpenNSA-local-c2"; split; inside|].
  exists (fold_left junos_exec (stop_link D k1_jx) d2). split; [apply (reach_down _ _ _ _ d2 [k2_jx] k1_jx []); [exact R|vm_compute; reflexivity]|].
  split; [exists "OpenNSA-local-c2"; split; inside|]. vm_compute. reflexivity.
Qed.

(** No port without a label has a name for its resource, so no reservation of
    one gets beyond a TypeError. *)
Theorem C78_no_label_refuted : forall pm port p, aget port pm = Some p -> dr_resource (junosex pm) port None = Err EType.
Proof. intros pm port p H. cbn. unfold nrm_of. rewrite H. reflexivity. Qed.
Print Assumptions C78_no_label_refuted.
(** Labels of other types are taken, but links with different labels at one
    port are connected to one and the same logical interface. *)
Definition pm_jx2 : list (string * nrm_port) := [("pa", rt None mr "xe-0/0/0"); ("pb", rt None mr "xe-0/0/1"); ("pc", rt None mr "xe-0/0/2")].
Definition k1_jx2 := mkLink "c1" "pa" (ml 1) "pb" (ml 2).
Definition k2_jx2 := mkLink "c2" "pa" (ml 3) "pc" (ml 4).
Theorem C78_other_labels_refuted : exists pm d k k', jx_world pm /\ reach (junosex pm) junos_exec any [] d [k'; k] /\
  k_sp k = k_sp k' /\ k_sl k <> k_sl k' /\ switched d "xe-0/0/0.0" "xe-0/0/1.0" /\ switched d "xe-0/0/0.0" "xe-0/0/2.0".
Proof.
  pose (D := junosex pm_jx2). pose (d1 := fold_left junos_exec (run_link D k1_jx2) []). exists pm_jx2, (fold_left junos_exec (run_link D k2_jx2) d1), k1_jx2, k2_jx2.
  split; [intros port p H; walk H; split; reflexivity|]. split; [go_up d1 k2_jx2; go_up (@nil path) k1_jx2; constructor|].
  split; [reflexivity|]. split; [discriminate|]. split; [exists "OpenNSA-local-c1"|exists "OpenNSA-local-c2"]; split; inside.
Qed.
Print Assumptions C78_other_labels_refuted.
