(** C86: the backends and their drivers together. *)
From Verif Require Import Base BaseProofs ModelLabel ModelSTP ModelAuthz ModelNRM ModelCalendar ModelState ModelScheduler ModelBackend ModelDrivers ModelJunos ModelOess
  SpecLabel SpecCalendar SpecBackend SpecDrivers SpecJunos SpecDeployment ProofsLabel ProofsDrivers ProofsSwitches ProofsJoined ProofsJunos ProofsJunosEx ProofsBackendInv ProofsBackendSerial
  ProofsDeployment PropsDrivers PropsJunos PropsDeployment ModelManager SpecManager ProofsManager ProofsManagers.
Open Scope Z_scope.

(** Requests for proper VLANs are answered as the protocol wants it and not
    otherwise; what is refused leaves nothing behind; what is accepted can be set up
    and torn down. *)
Definition sound {C} (m : manager C) (ports : list (string * nrm_port)) (hi : Z) : Prop :=
  serves m ports hi /\ tidy m ports hi /\ keeps_its_word m ports hi.
Lemma able_sound {C} (m : manager C) ports hi : vlan_ports ports -> able m ports hi -> sound m ports hi.
Proof.
  intros Hv [A B D E]. split; [|split].
  - exact (able_serves m ports hi Hv A B D).
  - exact (able_tidy m ports hi Hv A B D).
  - exact (able_word m ports hi Hv A B D E).
Qed.
Theorem C86_ex_partial : forall ports, vlan_ports ports -> sound (ex_manager ports) ports 4095.
Proof. intros ports H. exact (able_sound _ _ _ H (ex_able ports)). Qed.
Print Assumptions C86_ex_partial.
Theorem C86_brocade_partial : forall ports, vlan_ports ports -> plain_interfaces (interface_map ports) -> sound (brocade_manager ports) ports 4095.
Proof. intros ports H P. exact (able_sound _ _ _ H (brocade_able ports P)). Qed.
Print Assumptions C86_brocade_partial.
Theorem C86_pica8_partial : forall db ports, vlan_ports ports -> p8_ports (interface_map ports) -> sound (pica8_manager db ports) ports 4095.
Proof. intros db ports H P. exact (able_sound _ _ _ H (pica8_able db ports P)). Qed.
Print Assumptions C86_pica8_partial.
Theorem C86_mx_partial : forall routers net ports, vlan_ports ports -> sound (mx_manager routers net ports) ports 4095.
Proof. intros routers net ports H. exact (able_sound _ _ _ H (mx_able routers net ports H)). Qed.
Print Assumptions C86_mx_partial.
Theorem C86_ex4550_partial : forall ports, vlan_ports ports -> sound (jx_manager ports) ports 4095.
Proof. intros ports H. exact (able_sound _ _ _ H (jx_able ports H)). Qed.
Print Assumptions C86_ex4550_partial.
Theorem C86_oess_partial : forall group ports, vlan_ports ports -> sound (oess_manager group ports) ports 4094.
Proof. intros group ports H. exact (able_sound _ _ _ H (oess_able group ports)). Qed.
Print Assumptions C86_oess_partial.
Theorem C86_dud_partial : forall ports, vlan_ports ports -> sound (dud_manager ports) ports 4095.
Proof. intros ports H. exact (able_sound _ _ _ H (dud_able ports)). Qed.
Print Assumptions C86_dud_partial.

(** Someone who asks for one VLAN at each end gets two different ends. *)
Theorem C86_ends_partial : forall ports, vlan_ports ports ->
  let one hi q := asks_one q /\ asks hi q in
  two_ends (ex_manager ports) ports (one 4095) /\ two_ends (brocade_manager ports) ports (one 4095) /\
  (forall db, two_ends (pica8_manager db ports) ports (one 4095)) /\ (forall routers net, two_ends (mx_manager routers net ports) ports (one 4095)) /\
  two_ends (jx_manager ports) ports (one 4095) /\ (forall group, two_ends (oess_manager group ports) ports (one 4094)) /\
  two_ends (dud_manager ports) ports (one 4095).
Proof.
  intros ports H one.
  assert (G : forall C (m : manager C) hi, able m ports hi -> two_ends m ports (one hi)).
  { intros C m hi [A B D _]. exact (able_ends m ports hi H A B D). }
  split; [apply G, ex_able|]. split.
  { apply able_ends; cbn [brocade_manager mg_driver mg_target mg_id]; [exact H| | |eauto].
    - intros port p v _. cbn [dr_resource brocade]. unfold br_resource. target. eauto.
    - intros port p v Hp _. unfold br_target. target. rewrite (port_there _ _ _ Hp). reflexivity. }
  split.
  { intros db. apply able_ends; cbn [pica8_manager mg_driver mg_target mg_id]; [exact H| | |eauto].
    - intros port p v _. cbn [dr_resource pica8]. unfold p8_resource. eauto.
    - intros port p v Hp Hr. unfold p8_target. target. rewrite (within _ _ Hr), (port_there _ _ _ Hp). reflexivity. }
  split; [intros; apply G, mx_able, H|]. split; [apply G, jx_able, H|]. split; [intros; apply G, oess_able|apply G, dud_able].
Qed.
Print Assumptions C86_ends_partial.

(** * Over time
    The device of a backend carries the traffic of the active connections and no
    other (C79), with nothing left to be said about the driver. *)
Definition vlan_config (ports : list (string * nrm_port)) (g : cfg) (hi : Z) (t : Z) (l : list (op * env)) : Prop :=
  vlan_ports ports /\ all_ask hi l /\
  let s := serial_run g (start t) l in
  legal g (start t) l /\ teardowns_work (outs s) /\ timely g (db s) (outs s).

Theorem C86_ex_joined_partial : forall ports net mind sc t l d0, plain_interfaces (interface_map ports) -> ex_fresh d0 ->
  let g := cfg_of (ex_manager ports) net ports mind sc in let s := serial_run g (start t) l in
  vlan_config ports g 4095 t l -> forall a b v, a <> b ->
    ex_joined (device (juniperex (interface_map ports)) junos_exec (db s) d0 (outs s)) a b v <->
    ex_joined d0 a b v \/ active_between (interface_map ports) (db s) a b v.
Proof.
  intros ports net mind sc t l d0 Hp Hf g s (Hv & Ha & L & Hdn & Htm). pose proof (ex_able ports) as [A B D E].
  apply (C79_ex_joined_partial (interface_map ports) (vlan_link (ex_manager ports) ports 4095) g t l d0 Hp Hf L); [|exact Hdn|exact Htm].
  apply (stored_deployed (ex_manager ports) ports 4095 Hv A E (vlan_link (ex_manager ports) ports 4095) net mind sc t l L Ha). auto.
Qed.
Print Assumptions C86_ex_joined_partial.
Theorem C86_brocade_joined_partial : forall ports net mind sc t l d0, plain_interfaces (interface_map ports) ->
  br_fresh (vlan_link (brocade_manager ports) ports 4095) d0 ->
  let g := cfg_of (brocade_manager ports) net ports mind sc in let s := serial_run g (start t) l in
  vlan_config ports g 4095 t l -> forall a b v, a <> b ->
    br_joined (device (brocade (interface_map ports)) br_exec (db s) d0 (outs s)) a b v <->
    br_joined d0 a b v \/ active_between (interface_map ports) (db s) a b v.
Proof.
  intros ports net mind sc t l d0 Hp Hf g s (Hv & Ha & L & Hdn & Htm). pose proof (brocade_able ports Hp) as [A B D E].
  apply (C79_brocade_joined_partial (interface_map ports) (vlan_link (brocade_manager ports) ports 4095) g t l d0
    ltac:(intros port itf H; exact (proj1 (Hp port itf H))) Hf L); [|exact Hdn|exact Htm].
  apply (stored_deployed (brocade_manager ports) ports 4095 Hv A E (vlan_link (brocade_manager ports) ports 4095) net mind sc t l L Ha). auto.
Qed.
Print Assumptions C86_brocade_joined_partial.
Theorem C86_pica8_flows_partial : forall bridge ports net mind sc t l d0, word bridge -> p8_ports (interface_map ports) -> p8_fresh (interface_map ports) d0 ->
  let g := cfg_of (pica8_manager bridge ports) net ports mind sc in let s := serial_run g (start t) l in
  vlan_config ports g 4095 t l ->
  let d := device (pica8 bridge (interface_map ports)) p8_exec (db s) d0 (outs s) in
  exists ks, (forall k, In k ks <-> active_link (db s) k) /\
    (forall i v o w, In ((i, v), (o, w)) (p8_flows d) <-> In ((i, v), (o, w)) (p8_flows d0) \/ link_flow (interface_map ports) ks i v o w) /\
    (forall itf v, In (itf, v) (p8_trunks d) <-> In (itf, v) (p8_trunks d0) \/ link_on (interface_map ports) ks itf v).
Proof.
  intros bridge ports net mind sc t l d0 Hb Hp Hf g s (Hv & Ha & L & Hdn & Htm). pose proof (pica8_able bridge ports Hp) as [A B D E].
  apply (C79_pica8_partial bridge (interface_map ports) (vlan_link (pica8_manager bridge ports) ports 4095) g t l d0 Hb Hp Hf L); [|exact Hdn|exact Htm].
  apply (stored_deployed (pica8_manager bridge ports) ports 4095 Hv A E (vlan_link (pica8_manager bridge ports) ports 4095) net mind sc t l L Ha). auto.
Qed.
Print Assumptions C86_pica8_flows_partial.

Definition word_link {C} (m : manager C) ports hi (k : link) : Prop := word (k_id k) /\ vlan_link m ports hi k.
Lemma vlan_ends {C} (m : manager C) ports hi k : vlan_ports ports -> vlan_link m ports hi k ->
  exists p v p' v', end_at ports (k_sp k) (k_sl k) (CVlan p v) /\ end_at ports (k_dp k) (k_dl k) (CVlan p' v').
Proof.
  intros Hv (p & d & v & w & Hp & Hd & -> & -> & _). exists (p_interface p), v, (p_interface d), w. unfold end_at.
  destruct (Hv _ _ Hp) as (x & Lx & Tx). destruct (Hv _ _ Hd) as (y & Ly & Ty).
  split; [exists p; split; [exact Hp|]; rewrite Lx|exists d; split; [exact Hd|]; rewrite Ly]; (split; [assumption|]); eexists; split; reflexivity.
Qed.
Lemma word_deployed {C} (m : manager C) ports hi net mind sc t l : vlan_ports ports -> able m ports hi ->
  let g := cfg_of m net ports mind sc in let s := serial_run g (start t) l in
  legal g (start t) l -> all_ask hi l -> plain_ids l -> deployed (mg_driver m) (word_link m ports hi) g (db s) (outs s).
Proof.
  intros Hv [A B D E] g s L Ha Hw. apply (stored_deployed m ports hi Hv A E (word_link m ports hi) net mind sc t l L Ha).
  intros cid r H V. split; [|exact V]. cbn [k_id link_of].
  apply (stored_words m ports net mind sc l (start t)) with (k := cid); [apply inv_start|exact L|exact Hw|discriminate|exact H].
Qed.
Theorem C86_mx_switched_partial : forall routers topo ports net mind sc t l d0, mx_world routers topo ports -> junos_fresh ports "NSI-" d0 ->
  let g := cfg_of (mx_manager routers topo ports) net ports mind sc in let s := serial_run g (start t) l in
  vlan_config ports g 4095 t l -> plain_ids l ->
  let d := device (junosmx routers topo ports) junos_exec (db s) d0 (outs s) in
  exists ks, (forall k, In k ks <-> active_link (db s) k) /\
    forall a b, a <> b -> switched d a b <-> switched d0 a b \/ exists e e', joins ports ks e e' /\ a = sub e /\ b = sub e'.
Proof.
  intros routers topo ports net mind sc t l d0 Hw Hf g s (Hv & Ha & L & Hdn & Htm) Hi d.
  destruct (C79_mx_switched_partial routers topo ports (word_link (mx_manager routers topo ports) ports 4095) g t l d0 Hw) as (ks & Hk & Hsw & _); auto.
  - intros k [W V]. split; [exact W|]. destruct (vlan_ends _ _ _ _ Hv V) as (p & v & p' & v' & E1 & E2). exact (kind_vlan _ _ p v p' v' E1 E2).
  - apply (word_deployed (mx_manager routers topo ports) ports 4095 net mind sc t l Hv (mx_able _ _ _ Hv) L Ha Hi).
  - exists ks. split; [exact Hk|exact Hsw].
Qed.
Print Assumptions C86_mx_switched_partial.
Theorem C86_ex4550_switched_partial : forall ports net mind sc t l d0, jx_world ports -> junos_fresh ports "OpenNSA-local-" d0 ->
  let g := cfg_of (jx_manager ports) net ports mind sc in let s := serial_run g (start t) l in
  vlan_config ports g 4095 t l -> plain_ids l ->
  let d := device (junosex ports) junos_exec (db s) d0 (outs s) in
  exists ks, (forall k, In k ks <-> active_link (db s) k) /\
    forall a b, a <> b -> switched d a b <-> switched d0 a b \/ exists e e', joins ports ks e e' /\ a = sub e /\ b = sub e'.
Proof.
  intros ports net mind sc t l d0 Hw Hf g s (Hv & Ha & L & Hdn & Htm) Hi d.
  apply (C79_ex4550_switched_partial ports (word_link (jx_manager ports) ports 4095) g t l d0 Hw); auto.
  - intros k [W V]. split; [exact W|]. exact (vlan_ends _ _ _ _ Hv V).
  - apply (word_deployed (jx_manager ports) ports 4095 net mind sc t l Hv (jx_able _ Hv) L Ha Hi).
Qed.
Print Assumptions C86_ex4550_switched_partial.

(** * Concrete cases *)
Definition mg_port (n itf : string) : nrm_port := mkPort "ethernet" n None None None None (Some (mkLabel "vlan" [(100, 110)])) 1000 itf [] [] false.
Definition mg_ports : list (string * nrm_port) := [("pa", mg_port "pa" "te-1/1/5"); ("pb", mg_port "pb" "te-1/1/6")].
Definition mg_req (cid : option string) (sp : string) (sv : list (Z * Z)) (dp : string) (dv : list (Z * Z)) : resv :=
  mkResv cid "gid" true (mkSTP "net" sp (Some (mkLabel "vlan" sv))) (mkSTP "net" dp (Some (mkLabel "vlan" dv)))
    (Some (10 * second)) (Some (100 * second)) 10 "x1".
Definition try_out {C} (m : manager C) (ports : list (string * nrm_port)) (q : resv) : calendar * result (string * option label * option label) :=
  m_reserve m (cfg_of m "net" ports 60 false) 0 [] dp_hdr q.
Lemma mg_vlan : vlan_ports mg_ports.
Proof.
  intros port p H. unfold mg_ports in H. cbn [aget] in H.
  destruct (eqb port "pa"); [|destruct (eqb port "pb"); [|discriminate]]; injection H as <-; eexists; split; reflexivity.
Qed.
Lemma one_wf a b : 0 <= a <= b -> wf_olabel (Some (mkLabel "vlan" [(a, b)])).
Proof. intros H. split; [discriminate|]. split; [apply normal_one; lia|]. intros lo hi [[= <- <-]|[]]. lia. Qed.
Lemma asks_of hi cid sp a b dp a' b' : 1 <= a -> a <= b -> b <= hi -> 1 <= a' -> a' <= b' -> b' <= hi -> asks hi (mg_req cid sp [(a, b)] dp [(a', b')]).
Proof.
  intros. split; (split; [apply one_wf; lia|]); intros x v [= <-] (lo & hi' & [[= <- <-]|[]] & R); lia.
Qed.
Definition mg_two : resv := mg_req None "pa" [(105, 106)] "pb" [(106, 107)].
Definition accepted (r : calendar * result (string * option label * option label)) : option (string * option label * option label) :=
  match snd r with Ok x => Some x | Err _ => None end.
(** The VLAN both ends have where the device cannot swap it; the first of each
    end where it can. *)
Example C86_ex : asks 4095 mg_two /\
  accepted (try_out (ex_manager mg_ports) mg_ports mg_two) = Some ("EX-x1", vl 106, vl 106) /\
  accepted (try_out (brocade_manager mg_ports) mg_ports mg_two) = Some ("B-x1", vl 106, vl 106) /\
  accepted (try_out (pica8_manager "br0" mg_ports) mg_ports mg_two) = Some ("Pica8-x1", vl 105, vl 106) /\
  accepted (try_out (mx_manager [] "net" mg_ports) mg_ports mg_two) = Some ("JUNOS-x1", vl 105, vl 106) /\
  accepted (try_out (jx_manager mg_ports) mg_ports mg_two) = Some ("JuniperEx4550-x1", vl 105, vl 106) /\
  accepted (try_out (oess_manager "grp" mg_ports) mg_ports mg_two) = Some ("OESS-x1", vl 105, vl 106) /\
  accepted (try_out (dud_manager mg_ports) mg_ports mg_two) = Some ("DUD-x1", vl 105, vl 106).
Proof. split; [apply asks_of; lia|]. repeat split; vm_compute; reflexivity. Qed.
(** a request that is turned down *)
Example C86_ex_refused : asks 4095 (mg_req None "pa" [(105, 105)] "pb" [(106, 107)]) /\
  try_out (ex_manager mg_ports) mg_ports (mg_req None "pa" [(105, 105)] "pb" [(106, 107)]) = ([], Err EVLANInterchange).
Proof. split; [apply asks_of; lia|vm_compute; reflexivity]. Qed.
Example C86_ex_ends : asks_one (mg_req None "pa" [(105, 105)] "pa" [(106, 106)]) /\
  accepted (try_out (pica8_manager "br0" mg_ports) mg_ports (mg_req None "pa" [(105, 105)] "pa" [(106, 106)])) = Some ("Pica8-x1", vl 105, vl 106).
Proof. split; [exists 105, 106; split; reflexivity|vm_compute; reflexivity]. Qed.
(** the histories of C79, for a backend with its manager *)
Definition mg_ports3 : list (string * nrm_port) := [("pa", mg_port "pa" "ge-0/0/1"); ("pb", mg_port "pb" "ge-0/0/2")].
Example C86_ex_history : let g := cfg_of (ex_manager mg_ports3) "net" mg_ports3 60 false in let s := serial_run g (start 0) dp_one_over in
  plain_interfaces (interface_map mg_ports3) /\ vlan_config mg_ports3 g 4095 0 dp_one_over /\ plain_ids dp_one_over /\
  map (fun kr => (fst kr, c_active (snd kr))) (db s) = [("A", false); ("B", true)] /\
  active_between (interface_map mg_ports3) (db s) "ge-0/0/1" "ge-0/0/2" 106.
Proof.
  intros g s. assert (Hy : ends s = [("A", kA); ("B", kB)]) by (vm_compute; reflexivity).
  split.
  { intros port itf H. unfold mg_ports3, interface_map in H. cbn [map fst snd p_interface mg_port aget] in H.
    destruct (eqb port "pa"); [|destruct (eqb port "pb"); [|discriminate]]; injection H as <-; split; reflexivity. }
  split.
  { split; [|split; [|split; [|split]]].
    - intros port p H. unfold mg_ports3 in H. cbn [aget] in H.
      destruct (eqb port "pa"); [|destruct (eqb port "pb"); [|discriminate]]; injection H as <-; eexists; split; reflexivity.
    - intros h q e H. unfold dp_one_over, quiet, dp_two in H. cbn [app map In] in H.
      repeat destruct H as [H|H]; try contradiction; try discriminate H; injection H as <- <- <-;
        (split; (split; [apply one_wf; lia|])); intros x v [= <-] (lo & hi' & [[= <- <-]|[]] & R); lia.
    - unfold dp_one_over, dp_two; legal_tac.
    - apply no_failures; vm_compute; reflexivity.
    - eapply dp_timely; [exact Hy|timely_tac]. }
  split.
  { intros h q e H. unfold dp_one_over, quiet, dp_two in H. cbn [app map In] in H.
    repeat destruct H as [H|H]; try contradiction; try discriminate H; injection H as <- <- <-; reflexivity. }
  split; [vm_compute; reflexivity|].
  assert (Ha : option_map (fun r => (c_active r, link_of r)) (aget "B" (db s)) = Some (true, kB)) by (vm_compute; reflexivity).
  destruct (aget "B" (db s)) as [r|] eqn:Er; [|discriminate Ha]. cbn [option_map] in Ha. unfold link_of in Ha. injection Ha as H1 H2 H3 H4 H5 H6.
  exists "B", r. split; [exact Er|]. split; [exact H1|]. split; [exact H4|]. split; [exact H6|]. right. rewrite H3, H5. split; reflexivity.
Qed.

(** * Where it goes wrong *)

(** Force10 and NCS: no request is ever accepted. *)
Lemma mute {C} (m : manager C) : (forall port l, exists e, dr_resource (mg_driver m) port l = Err e) ->
  forall g now c h q, exists e, m_reserve m g now c h q = (c, Err e).
Proof.
  intros Hm g now c h q.
  assert (F1 : forall port b e ls, exists x, m_first_free m now c port b e ls = Err x).
  { intros port b e [|l r]; cbn [m_first_free]; [eauto|]. destruct (Hm port l) as (x & ->). cbn [Base.bind]. eauto. }
  assert (F2 : forall sp dp b e ls, exists x, m_first_free2 m now c sp dp b e ls = Err x).
  { intros sp dp b e [|l r]; cbn [m_first_free2]; [eauto|]. destruct (Hm sp l) as (x & ->). cbn [Base.bind]. eauto. }
  assert (P : exists e, m_admission m g now c h q = Err e).
  { unfold m_admission. repeat match goal with
      | |- exists e, Err _ = Err e => eauto
      | |- exists e, m_pick _ _ _ _ _ _ _ = Err e => unfold m_pick
      | |- exists e, (do! _ <- m_first_free ?a1 ?a2 ?a3 ?a4 ?a5 ?a6 ?a7; _) = Err e => destruct (F1 a4 a5 a6 a7) as (? & ->); cbn [Base.bind]
      | |- exists e, (do! _ <- m_first_free2 ?a1 ?a2 ?a3 ?a4 ?a5 ?a6 ?a7 ?a8; _) = Err e => destruct (F2 a4 a5 a6 a7 a8) as (? & ->); cbn [Base.bind]
      | |- exists e, (do! _ <- ?x; _) = Err e => destruct x as [?|?]; cbn [Base.bind]
      | |- exists e, (if ?b then _ else _) = Err e => destruct b
      | |- exists e, match ?x with _ => _ end = Err e => destruct x
      end. }
  destruct P as (e & E). exists e. unfold m_reserve. rewrite E. reflexivity.
Qed.
Theorem C86_force10_refuted : forall ports net mind sc now c h q, exists e,
  m_reserve (force10_manager ports) (cfg_of (force10_manager ports) net ports mind sc) now c h q = (c, Err e).
Proof. intros. apply mute. intros port [l|]; cbn; eauto. Qed.
Print Assumptions C86_force10_refuted.
Theorem C86_ncs_refuted : forall ports net mind sc now c h q, exists e,
  m_reserve (ncs_manager ports) (cfg_of (ncs_manager ports) net ports mind sc) now c h q = (c, Err e).
Proof. intros. apply mute. intros port [l|]; cbn; [destruct (eqb (ltype l) "vlan")|]; eauto. Qed.
Print Assumptions C86_ncs_refuted.

(** Juniper VPLS: a request without an id of its own, which the aggregator never
    gives, is never accepted; if there is nothing against it, it leaves both
    resources booked. *)
Theorem C86_vpls_refuted : forall as_number ports net mind sc now c h q, vlan_ports ports -> asks 4095 q -> rs_cid q = None ->
  let m := vpls_manager as_number ports in let g := cfg_of m net ports mind sc in
  m_reserve m g now c h q =
  match admission g now c h q with
  | Err e => (c, Err e)
  | Ok (l1, l2) =>
      (cal_add (cal_add c (get_resource g (s_port (rs_src q)) l1) (rs_start q) (rs_end q)) (get_resource g (s_port (rs_dst q)) l2) (rs_start q) (rs_end q),
       Err ENotImplemented)
  end.
Proof.
  intros as_number ports net mind sc now c h q Hv A Hc m g.
  assert (Hres : forall port p v, aget port ports = Some p -> exists r, dr_resource (mg_driver m) port (Some (mkLabel "vlan" [(v, v)])) = Ok r).
  { intros port p v Hp. cbn. unfold vpls_resource. target. rewrite (port_there _ _ _ Hp). cbn [Base.bind]. eauto. }
  unfold m_reserve. subst g. rewrite (admission_same m ports Hv Hres net mind sc now c h q).
  destruct (admission (cfg_of m net ports mind sc) now c h q) as [[l1 l2]|e] eqn:Ad; cbn [Base.bind fst snd]; [|reflexivity].
  destruct (admitted m ports 4095 Hv net mind sc now c h q l1 l2 A Ad "") as (p & d & v & w & Hp & Hd & E1 & E2 & Rv & Rw & _).
  cbn [k_sp k_dp k_sl k_dl] in *. subst l1 l2. destruct (Hres _ p v Hp) as (x & Hx). destruct (Hres _ d w Hd) as (y & Hy).
  cbn [get_resource cfg_of]. rewrite Hx, Hy. cbn [Base.bind].
  assert (T : forall port n z, aget port ports = Some n -> 1 <= z <= 4095 -> mg_target m port (Some (mkLabel "vlan" [(z, z)])) = Ok tt).
  { intros port n z Hn Hz. subst m. cbn [vpls_manager mg_target]. unfold vpls_target. target. rewrite (port_there _ _ _ Hn). cbn [Base.bind]. rewrite (within _ _ Hz). reflexivity. }
  rewrite (T _ p v Hp Rv), (T _ d w Hd Rw), Hc. reflexivity.
Qed.
Print Assumptions C86_vpls_refuted.
Example C86_vpls : asks 4095 mg_two /\ vlan_ports mg_ports /\ rs_cid mg_two = None /\
  try_out (vpls_manager "6509" mg_ports) mg_ports mg_two =
  ([("pa.106", (Some (10 * second), Some (100 * second))); ("pb.106", (Some (10 * second), Some (100 * second)))], Err ENotImplemented).
Proof. split; [apply asks_of; lia|]. split; [exact mg_vlan|]. split; vm_compute; reflexivity. Qed.

(** A request may be for more VLANs than a port has, and the VLAN is picked from
    what is asked for.  The value 0 is within that, but no target: the request fails,
    and the bookings stay. *)
Theorem C86_tidy_refuted : ~ (forall ports, vlan_ports ports -> forall net mind sc now c h q c' e,
  wf_olabel (s_label (rs_src q)) -> wf_olabel (s_label (rs_dst q)) ->
  m_reserve (ex_manager ports) (cfg_of (ex_manager ports) net ports mind sc) now c h q = (c', Err e) -> c' = c).
Proof.
  intros H.
  assert (E : exists c', try_out (ex_manager mg_ports) mg_ports (mg_req None "pa" [(0, 200)] "pb" [(0, 200)]) = (c', Err EAssertion) /\ length c' = 2%nat)
    by (eexists; split; vm_compute; reflexivity).
  destruct E as (c' & E & L). apply (H mg_ports mg_vlan) in E; [subst c'; discriminate L|apply one_wf; lia|apply one_wf; lia].
Qed.
Print Assumptions C86_tidy_refuted.

(** An interface with a dot in its name: accepted, but cannot be set up. *)
Definition mg_dots : list (string * nrm_port) := [("pa", mg_port "pa" "1.1"); ("pb", mg_port "pb" "1.2")].
Theorem C86_brocade_refuted : ~ (forall ports, vlan_ports ports -> keeps_its_word (brocade_manager ports) ports 4095).
Proof.
  intros H. assert (V : vlan_ports mg_dots).
  { intros port p K. unfold mg_dots in K. cbn [aget] in K.
    destruct (eqb port "pa"); [|destruct (eqb port "pb"); [|discriminate]]; injection K as <-; eexists; split; reflexivity. }
  assert (E : exists c', try_out (brocade_manager mg_dots) mg_dots mg_two = (c', Ok ("B-x1", vl 106, vl 106))) by (eexists; vm_compute; reflexivity).
  destruct E as (c' & E). apply (H mg_dots V) in E; [|apply asks_of; lia]. destruct E as [(cs & E) _].
  vm_compute in E. discriminate E.
Qed.
Print Assumptions C86_brocade_refuted.

(** Ports without labels: what could be a connection between two ports is an
    error of the driver that is no NSI error. *)
Definition mg_bare (n : string) : nrm_port := mkPort "ethernet" n None None None None None 1000 n [] [] false.
Theorem C86_bare_ports_refuted : ~ (forall ports net mind sc now c h q,
  s_label (rs_src q) = None -> s_label (rs_dst q) = None ->
  snd (m_reserve (ex_manager ports) (cfg_of (ex_manager ports) net ports mind sc) now c h q) <> Err EAttribute).
Proof.
  intros H. apply (H [("pa", mg_bare "pa"); ("pb", mg_bare "pb")] "net" 60 false 0 [] dp_hdr
    (mkResv None "gid" true (mkSTP "net" "pa" None) (mkSTP "net" "pb" None) (Some (10 * second)) (Some (100 * second)) 10 "x1")); vm_compute; reflexivity.
Qed.
Print Assumptions C86_bare_ports_refuted.

(** A connection of a VLAN with itself: the check for that compares what is asked
    for, not what is picked. *)
Theorem C86_ends_refuted :
  ~ (forall ports, vlan_ports ports -> two_ends (ex_manager ports) ports (asks 4095)) /\
  ~ (forall db ports, vlan_ports ports -> two_ends (pica8_manager db ports) ports (asks 4095)).
Proof.
  split; intros H.
  - assert (E : exists c', try_out (ex_manager mg_ports) mg_ports (mg_req None "pa" [(105, 105)] "pa" [(105, 106)]) = (c', Ok ("EX-x1", vl 105, vl 105)))
      by (eexists; vm_compute; reflexivity).
    destruct E as (c' & E). apply (H mg_ports mg_vlan) in E; [apply E; reflexivity|apply asks_of; lia].
  - assert (E : exists c', try_out (pica8_manager "br0" mg_ports) mg_ports (mg_req None "pa" [(105, 105)] "pa" [(105, 106)]) = (c', Ok ("Pica8-x1", vl 105, vl 105)))
      by (eexists; vm_compute; reflexivity).
    destruct E as (c' & E). apply (H "br0" mg_ports mg_vlan) in E; [apply E; reflexivity|apply asks_of; lia].
Qed.
Print Assumptions C86_ends_refuted.

(** * Swapping VLANs
    If two ports can be joined in one VLAN, and in another, then a device that
    swaps labels joins the one with the other, and one that does not says so. *)
Definition one_vlan (v : Z) : option label := Some (mkLabel "vlan" [(v, v)]).
Definition with_vlans (q : resv) (v w : Z) : resv :=
  mkResv (rs_cid q) (rs_gid q) (rs_p2p q) (mkSTP (s_network (rs_src q)) (s_port (rs_src q)) (one_vlan v))
    (mkSTP (s_network (rs_dst q)) (s_port (rs_dst q)) (one_vlan w)) (rs_start q) (rs_end q) (rs_bw q) (rs_new q).
Definition accepts {C} (m : manager C) (g : cfg) (now : Z) (c : calendar) (h : hdr) (q : resv) : Prop :=
  exists c' r, m_reserve m g now c h q = (c', Ok r).
Definition swaps {C} (m : manager C) (ports : list (string * nrm_port)) (hi : Z) : Prop :=
  forall net mind sc now c h q v w, let g := cfg_of m net ports mind sc in 1 <= v <= hi -> 1 <= w <= hi -> v <> w ->
  accepts m g now c h (with_vlans q v v) -> accepts m g now c h (with_vlans q w w) ->
  exists c' cid, m_reserve m g now c h (with_vlans q v w) = (c', Ok (cid, one_vlan v, one_vlan w)).
Definition cannot_swap {C} (m : manager C) (ports : list (string * nrm_port)) (hi : Z) : Prop :=
  forall net mind sc now c h q v w, let g := cfg_of m net ports mind sc in 1 <= v <= hi -> 1 <= w <= hi -> v <> w ->
  accepts m g now c h (with_vlans q v v) -> accepts m g now c h (with_vlans q w w) ->
  m_reserve m g now c h (with_vlans q v w) = (c, Err EVLANInterchange).
Lemma enum_one v : label_enum (one_vlan v) = [one_vlan v].
Proof.
  unfold one_vlan, label_enum, enumerate_values. cbn [lvalues flat_map ltype fst snd]. unfold zrange.
  replace (v + 1 - v) with 1 by lia. change (Z.to_nat 1) with 1%nat. cbn [seq map Z.of_nat]. rewrite Z.add_0_r. reflexivity.
Qed.
Lemma one_asks hi q v w : 1 <= v <= hi -> 1 <= w <= hi -> asks hi (with_vlans q v w).
Proof. intros. split; (split; [apply one_wf; lia|]); intros x u [= <-] (lo & hi' & [[= <- <-]|[]] & R); lia. Qed.
Lemma mixed_admission g now c h q v w r1 r2 : v <> w -> 0 <= v -> 0 <= w ->
  match can_connect g with Some f => f (s_port (rs_src q)) (s_port (rs_dst q)) (one_vlan v) (one_vlan w) = true | None => True end ->
  admission g now c h (with_vlans q v v) = Ok r1 -> admission g now c h (with_vlans q w w) = Ok r2 ->
  admission g now c h (with_vlans q v w) = if can_swap g (Some "vlan") then Ok (one_vlan v, one_vlan w) else Err EVLANInterchange.
Proof.
  intros N Pv Pw Hc Hv Hw. unfold admission in *. cbv zeta in *. cbn [with_vlans rs_src rs_dst rs_start rs_end s_network s_port s_label] in *.
  destruct (negb (eqb (s_network (rs_src q)) _)); [discriminate|]. destruct (negb (eqb (s_network (rs_dst q)) _)); [discriminate|].
  destruct (aget (s_port (rs_src q)) _) as [p|]; [|discriminate]. destruct (aget (s_port (rs_dst q)) _) as [d|]; [|discriminate].
  destruct (match rs_start q, rs_end q with Some b, Some e => _ | _, _ => _ end); [discriminate|].
  destruct (authorize _ _ _ h) as [un|]; cbn [Base.bind] in *; [|discriminate]. destruct (p_restricted p && p_restricted d); [discriminate|].
  assert (Same : forall x, olabel_eqb (one_vlan x) (one_vlan x) = true) by (intros x; cbn [olabel_eqb one_vlan]; apply label_eqb_refl).
  rewrite Same in Hv, Hw. destruct (eqb (s_port (rs_src q)) (s_port (rs_dst q))); [discriminate|]. cbn [andb] in *.
  assert (Cc : negb (match can_connect g with
    | Some f => f (s_port (rs_src q)) (s_port (rs_dst q)) (one_vlan v) (one_vlan w)
    | None => eqb (label_type (one_vlan v)) (label_type (one_vlan w)) end) = false).
  { destruct (can_connect g); [rewrite Hc; reflexivity|]. change (label_type (one_vlan ?x)) with (Some "vlan"). rewrite eqb_refl. reflexivity. }
  rewrite Cc. match type of Hv with (if negb ?b then _ else _) = _ => destruct b; [|discriminate] end.
  match type of Hw with (if negb ?b then _ else _) = _ => destruct b; [|discriminate] end. cbn [negb] in *.
  destruct (can_match (p_label p) (one_vlan v)) as [[]|]; cbn [Base.bind negb] in *; try discriminate.
  destruct (can_match (p_label d) (one_vlan v)) as [[]|]; cbn [Base.bind negb] in *; try discriminate.
  destruct (can_match (p_label p) (one_vlan w)) as [[]|]; cbn [Base.bind negb] in *; try discriminate.
  destruct (can_match (p_label d) (one_vlan w)) as [[]|]; cbn [Base.bind negb] in *; try discriminate.
  unfold pick_labels in *. cbn [s_label s_port] in *. rewrite !enum_one in *. change (label_type (one_vlan ?x)) with (Some "vlan") in *.
  destruct (can_swap g (Some "vlan")); cbn [andb] in *.
  - cbn [first_free] in *.
    destruct (cal_check now c (get_resource g (s_port (rs_src q)) (one_vlan v)) _ _) as [[]|[]]; cbn [Base.bind] in *; try discriminate.
    destruct (cal_check now c (get_resource g (s_port (rs_src q)) (one_vlan w)) _ _) as [[]|[]]; cbn [Base.bind] in *; try discriminate.
    destruct (cal_check now c (get_resource g (s_port (rs_dst q)) (one_vlan w)) _ _) as [[]|[]]; cbn [Base.bind] in *; try discriminate.
    reflexivity.
  - assert (I : intersect (mkLabel "vlan" [(v, v)]) (mkLabel "vlan" [(w, w)]) = Err EEmptyLabelSet).
    { destruct (intersect_spec (mkLabel "vlan" [(v, v)]) (mkLabel "vlan" [(w, w)])) as [(l & E & _ & _ & (z & Z) & D)|(E & _)]; [apply one_wf; lia|apply one_wf; lia|reflexivity| |exact E].
      apply D in Z as [(a & b & [[= <- <-]|[]] & Za) (a' & b' & [[= <- <-]|[]] & Zb)]. lia. }
    cbn [one_vlan]. rewrite I. reflexivity.
Qed.
Lemma able_accepts {C} (m : manager C) ports hi net mind sc now c h q : vlan_ports ports -> able m ports hi -> asks hi q ->
  accepts m (cfg_of m net ports mind sc) now c h q -> exists r, admission (cfg_of m net ports mind sc) now c h q = Ok r.
Proof.
  intros Hv A Q (c' & r & E). destruct A as [A B D _]. pose proof (able_serves m ports hi Hv A B D net mind sc now c h q Q) as S. cbv zeta in S.
  destruct (admission _ now c h q) as [x|]; [eauto|]. rewrite S in E. discriminate.
Qed.
Lemma able_mixed {C} (m : manager C) ports hi : vlan_ports ports -> able m ports hi ->
  match mg_connect m with Some f => forall a b v w, f a b (one_vlan v) (one_vlan w) = true | None => True end ->
  if mg_swap m (Some "vlan") then swaps m ports hi else cannot_swap m ports hi.
Proof.
  intros Hv A Hc.
  assert (M : forall net mind sc now c h q v w, let g := cfg_of m net ports mind sc in 1 <= v <= hi -> 1 <= w <= hi -> v <> w ->
    accepts m g now c h (with_vlans q v v) -> accepts m g now c h (with_vlans q w w) ->
    admission g now c h (with_vlans q v w) = if mg_swap m (Some "vlan") then Ok (one_vlan v, one_vlan w) else Err EVLANInterchange).
  { intros net mind sc now c h q v w g Rv Rw N A1 A2. apply (able_accepts m ports hi) in A1 as (r1 & A1); auto using one_asks. apply (able_accepts m ports hi) in A2 as (r2 & A2); auto using one_asks.
    apply (mixed_admission g now c h q v w r1 r2); auto; try lia. cbn [g can_connect cfg_of]. destruct (mg_connect m); auto. }
  destruct A as [A B D _].
  destruct (mg_swap m (Some "vlan")); intros net mind sc now c h q v w g Rv Rw N A1 A2; specialize (M net mind sc now c h q v w Rv Rw N A1 A2);
    pose proof (able_serves m ports hi Hv A B D net mind sc now c h _ (one_asks hi q v w Rv Rw)) as S; cbv zeta in S; rewrite M in S; [|exact S].
  destruct S as (c' & cid & S & _). eauto.
Qed.
Theorem C86_swap_partial : forall ports, vlan_ports ports ->
  cannot_swap (ex_manager ports) ports 4095 /\ (plain_interfaces (interface_map ports) -> cannot_swap (brocade_manager ports) ports 4095) /\
  (forall db, p8_ports (interface_map ports) -> swaps (pica8_manager db ports) ports 4095) /\ (forall routers net, swaps (mx_manager routers net ports) ports 4095) /\
  swaps (jx_manager ports) ports 4095 /\ (forall group, swaps (oess_manager group ports) ports 4094) /\ swaps (dud_manager ports) ports 4095.
Proof.
  intros ports H. split; [exact (able_mixed _ ports 4095 H (ex_able ports) I)|]. split; [intros P; exact (able_mixed _ ports 4095 H (brocade_able ports P) I)|].
  split; [intros db P; exact (able_mixed _ ports 4095 H (pica8_able db ports P) I)|].
  split; [intros routers net; exact (able_mixed _ ports 4095 H (mx_able routers net ports H) (fun _ _ _ _ => eq_refl))|].
  split; [exact (able_mixed _ ports 4095 H (jx_able ports H) I)|]. split; [intros group; exact (able_mixed _ ports 4094 H (oess_able group ports) I)|].
  exact (able_mixed _ ports 4095 H (dud_able ports) (fun _ _ _ _ => eq_refl)).
Qed.
Print Assumptions C86_swap_partial.
(** 105 to 105 and 106 to 106 are accepted, so 105 to 106 is where labels are swapped. *)
Example C86_ex_swap :
  let q := mg_req None "pa" [(105, 105)] "pb" [(106, 106)] in
  vlan_ports mg_ports /\ with_vlans q 105 106 = q /\
  (exists r, accepted (try_out (jx_manager mg_ports) mg_ports (with_vlans q 105 105)) = Some r) /\ (exists r, accepted (try_out (jx_manager mg_ports) mg_ports (with_vlans q 106 106)) = Some r) /\
  accepted (try_out (jx_manager mg_ports) mg_ports q) = Some ("JuniperEx4550-x1", vl 105, vl 106) /\
  try_out (ex_manager mg_ports) mg_ports q = ([], Err EVLANInterchange).
Proof. split; [exact mg_vlan|]. split; [reflexivity|]. repeat split; try eexists; vm_compute; reflexivity. Qed.
(** Whatever the ports: labels of different types are joined by no backend but
    that for Junos MX, which has its own rules (C77). *)
Definition one_type {C} (m : manager C) : Prop := forall g now c h q c' r,
  m_reserve m g now c h q = (c', Ok r) -> option_map ltype (s_label (rs_src q)) = option_map ltype (s_label (rs_dst q)).
Lemma types_ok {C} (m : manager C) : match mg_connect m with Some f => forall a b x y, f a b x y = true -> option_map ltype x = option_map ltype y | None => True end -> one_type m.
Proof.
  intros Hc g now c h q c' r H. unfold m_reserve in H.
  destruct (m_admission m g now c h q) as [ll|] eqn:A; cbn [Base.bind] in H; [|discriminate]. clear H. unfold m_admission in A. cbv zeta in A.
  destruct (negb (eqb (s_network (rs_src q)) _)); [discriminate|]. destruct (negb (eqb (s_network (rs_dst q)) _)); [discriminate|].
  destruct (aget (s_port (rs_src q)) _) as [p|]; [|discriminate]. destruct (aget (s_port (rs_dst q)) _) as [d|]; [|discriminate].
  destruct (match rs_start q, rs_end q with Some b, Some e => _ | _, _ => _ end); [discriminate|].
  destruct (authorize _ _ _ h) as [un|]; cbn [Base.bind] in A; [|discriminate]. destruct (p_restricted p && p_restricted d); [discriminate|].
  destruct (eqb (s_port (rs_src q)) (s_port (rs_dst q)) && _); [discriminate|].
  destruct (mg_connect m) as [f|].
  - destruct (f _ _ _ _) eqn:F; [|discriminate]. exact (Hc _ _ _ _ F).
  - destruct (eqb_ok (label_type (s_label (rs_src q))) (label_type (s_label (rs_dst q)))) as [E|]; [exact E|discriminate].
Qed.
Theorem C86_types_partial : forall ports,
  one_type (ex_manager ports) /\ one_type (brocade_manager ports) /\ (forall db, one_type (pica8_manager db ports)) /\ one_type (jx_manager ports) /\
  (forall group, one_type (oess_manager group ports)) /\ one_type (dud_manager ports) /\ one_type (force10_manager ports).
Proof.
  intros ports. repeat split; intros; try (apply types_ok; exact I). apply types_ok. intros _ _ [x|] [y|] H; try discriminate; [|reflexivity].
  cbn [option_map]. apply (proj1 (eqb_true (ltype x) (ltype y))) in H. congruence.
Qed.
Print Assumptions C86_types_partial.
(** A VLAN and an MPLS label: the dud backend refuses to join them; equal types are fine. *)
Example C86_ex_types :
  let port n t := (n, mkPort "ethernet" n None None None None (Some (mkLabel t [(100, 110)])) 1000 n [] [] false) in
  let ports := [port "pa" "vlan"; port "pb" "mpls"; port "pc" "mpls"] in
  let ask sp st dp dt := mkResv None "gid" true (mkSTP "net" sp (Some (mkLabel st [(105, 105)]))) (mkSTP "net" dp (Some (mkLabel dt [(105, 105)])))
    (Some (10 * second)) (Some (100 * second)) 10 "x1" in
  try_out (dud_manager ports) ports (ask "pa" "vlan" "pb" "mpls") = ([], Err ETopology) /\
  accepted (try_out (dud_manager ports) ports (ask "pb" "mpls" "pc" "mpls")) = Some ("DUD-x1", Some (mkLabel "mpls" [(105, 105)]), Some (mkLabel "mpls" [(105, 105)])).
Proof. split; vm_compute; reflexivity. Qed.
