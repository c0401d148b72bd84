(** C75, C76: Ethernet switches carry the traffic of the links that are up, and
    no other. *)
From Verif Require Import Base BaseProofs ModelLabel ModelDrivers SpecDrivers SpecForce10 ProofsDrivers ProofsSwitches ProofsJoined ProofsDriversUp.
Open Scope Z_scope.

(** * C75: Juniper EX and Brocade switches *)

(** After any history of links set up and torn down, an interface carries a VLAN
    exactly if it did at the start or is an end of a link that is up. *)
Theorem C75_ex_carries : forall pm, plain_interfaces pm -> forall may d0 d ks, ex_fresh d0 ->
  reach (juniperex pm) junos_exec may d0 d ks ->
  forall itf v, ex_carries d itf v <-> ex_carries d0 itf v \/ link_on pm ks itf v.
Proof. exact ex_vlans. Qed.
Print Assumptions C75_ex_carries.
(** Two interfaces exchange the traffic of a VLAN exactly if they did at the
    start or are the two ends of one link that is up. *)
Theorem C75_ex_joined : forall pm, plain_interfaces pm -> forall may d0 d ks, ex_fresh d0 ->
  reach (juniperex pm) junos_exec may d0 d ks ->
  forall a b v, a <> b -> ex_joined d a b v <-> ex_joined d0 a b v \/ link_between pm ks a b v.
Proof. exact ex_join. Qed.
Print Assumptions C75_ex_joined.
(** A link that could be set up can be torn down. *)
Theorem C75_ex_teardown : forall pm k cs, picked k ->
  dr_setup (juniperex pm) (k_id k) (k_sp k) (k_sl k) (k_dp k) (k_dl k) = Ok cs ->
  exists cs', dr_teardown (juniperex pm) (k_id k) (k_sp k) (k_sl k) (k_dp k) (k_dl k) = Ok cs'.
Proof. exact ex_teardown_total. Qed.
Print Assumptions C75_ex_teardown.

(** A link between known ports with one VLAN can be set up. *)
Theorem C75_ex_setup : forall pm k a b v, aget (k_sp k) pm = Some a -> aget (k_dp k) pm = Some b ->
  k_sl k = Some (mkLabel "vlan" [(v, v)]) -> k_dl k = Some (mkLabel "vlan" [(v, v)]) -> 1 <= v <= 4095 ->
  exists cs, dr_setup (juniperex pm) (k_id k) (k_sp k) (k_sl k) (k_dp k) (k_dl k) = Ok cs.
Proof. exact ex_setup_total. Qed.
Print Assumptions C75_ex_setup.

(** The same for Brocade switches, where nothing else may be using the VLANs
    that can be asked for. *)
Theorem C75_brocade_carries : forall pm, (forall port itf, aget port pm = Some itf -> word itf) -> forall may d0 d ks,
  br_fresh may d0 -> reach (brocade pm) br_exec may d0 d ks ->
  forall itf v, br_carries d itf v <-> br_carries d0 itf v \/ link_on pm ks itf v.
Proof. intros pm H may. exact (br_vlans pm H may). Qed.
Print Assumptions C75_brocade_carries.
Theorem C75_brocade_joined : forall pm may, (forall port itf, aget port pm = Some itf -> word itf) -> forall d0 d ks,
  br_fresh may d0 -> reach (brocade pm) br_exec may d0 d ks ->
  forall a b v, a <> b -> br_joined d a b v <-> br_joined d0 a b v \/ link_between pm ks a b v.
Proof. exact br_join. Qed.
Print Assumptions C75_brocade_joined.
Theorem C75_brocade_teardown : forall pm k cs, picked k ->
  dr_setup (brocade pm) (k_id k) (k_sp k) (k_sl k) (k_dp k) (k_dl k) = Ok cs ->
  exists cs', dr_teardown (brocade pm) (k_id k) (k_sp k) (k_sl k) (k_dp k) (k_dl k) = Ok cs'.
Proof. exact br_teardown_total. Qed.
Print Assumptions C75_brocade_teardown.
Theorem C75_brocade_setup : forall pm k a b v, plain_interfaces pm -> aget (k_sp k) pm = Some a -> aget (k_dp k) pm = Some b ->
  k_sl k = Some (mkLabel "vlan" [(v, v)]) -> k_dl k = Some (mkLabel "vlan" [(v, v)]) ->
  exists cs, dr_setup (brocade pm) (k_id k) (k_sp k) (k_sl k) (k_dp k) (k_dl k) = Ok cs.
Proof. exact br_setup_total. Qed.
Print Assumptions C75_brocade_setup.

(** The commands for Force10 switches do to a VLAN that has no members what they
    should: after those for setting up, exactly the two interfaces carry it, and after
    those for tearing down, none; no other VLAN is touched either time, and the switch
    is told to leave the configuration of the VLAN.  Missing for the rest of the claim:
    no link ever gets so far (C86_force10_refuted). *)
Lemma after_app p s : after p (p +++ s) = Some s.
Proof. unfold after. assert (E : starts_with p (p +++ s) = true) by (induction p as [|c p IH]; [reflexivity|]; cbn; rewrite Ascii.eqb_refl; exact IH). rewrite E. f_equal. clear E. induction p as [|c p IH]; [reflexivity|exact IH]. Qed.
Lemma f10_config d v : f10_exec d ("interface vlan " +++ py_str v) = mkF10 (Some v) (f10_members d) (f10_up d).
Proof. unfold f10_exec. rewrite (after_app "interface vlan "). rewrite py_int_str. reflexivity. Qed.
Lemma f10_tag d v i : f10_at d = Some v -> f10_exec d ("tagged " +++ i) = mkF10 (Some v) ((v, i) :: f10_members d) (f10_up d).
Proof. intros E. unfold f10_exec. rewrite (after_app "tagged "). change (after "interface vlan " ("tagged " +++ i)) with (@None string). rewrite E. reflexivity. Qed.
Lemma f10_name d n : f10_exec d ("name " +++ n) = d.
Proof. unfold f10_exec. change (after ?p ("name " +++ n)) with (@None string). reflexivity. Qed.
Theorem C75_force10_commands_partial : forall a b v, shas "." a = false -> shas "." b = false ->
  (exists cs, f10_setup (a +++ "." +++ py_str v) (b +++ "." +++ py_str v) = Ok cs /\
    forall d, (forall i, ~ In (v, i) (f10_members d)) -> let d' := fold_left f10_exec cs d in
      f10_at d' = None /\ (forall i, f10_carries d' i v <-> i = a \/ i = b) /\ forall i w, w <> v -> (f10_carries d' i w <-> f10_carries d i w)) /\
  (exists cs, f10_teardown (a +++ "." +++ py_str v) (b +++ "." +++ py_str v) = Ok cs /\
    forall d, let d' := fold_left f10_exec cs d in
      f10_at d' = None /\ (forall i, ~ f10_carries d' i v) /\ forall i w, w <> v -> (f10_carries d' i w <-> f10_carries d i w)).
Proof.
  intros a b v Ha Hb. unfold f10_setup, f10_teardown. rewrite !port_vlan_plain by assumption. cbn [Base.bind]. rewrite eqb_refl. split.
  - eexists. split; [reflexivity|]. intros d Hd. cbn [fold_left]. rewrite f10_config, f10_name.
    rewrite (f10_tag _ v) by reflexivity. rewrite (f10_tag _ v) by reflexivity. cbn [f10_members f10_up].
    change (f10_exec (mkF10 (Some v) ?m ?u) "no shutdown") with (mkF10 (Some v) m (v :: u)).
    change (f10_exec (mkF10 ?o ?m ?u) "end") with (mkF10 None m u).
    unfold f10_carries. cbn [f10_at f10_members f10_up In]. split; [reflexivity|]. split.
    + intros i. split.
      * intros [[E|[E|E]] _]; [right|left|destruct (Hd _ E)]; congruence.
      * intros [->| ->]; auto.
    + intros i w Hw. split; [intros [[E|[E|E]] [F|F]]; try congruence; auto|intros [E F]; auto].
  - eexists. split; [reflexivity|]. intros d. cbn [fold_left].
    assert (E : f10_exec d ("no interface vlan " +++ py_str v) = mkF10 None (filter (fun m => negb (eqb (fst m) v)) (f10_members d)) (filter (fun u => negb (eqb u v)) (f10_up d))).
    { unfold f10_exec. rewrite (after_app "no interface vlan "). change (after "interface vlan " ("no interface vlan " +++ py_str v)) with (@None string).
      change (after "tagged " ("no interface vlan " +++ py_str v)) with (@None string). rewrite py_int_str. reflexivity. }
    rewrite E. change (f10_exec (mkF10 ?o ?m ?u) "end") with (mkF10 None m u).
    unfold f10_carries. cbn [f10_at f10_members f10_up]. split; [reflexivity|]. split.
    + intros i [H _]. apply filter_In in H as [_ H]. cbn [fst] in H. rewrite eqb_refl in H. discriminate H.
    + intros i w Hw. rewrite !filter_In. cbn [fst]. rewrite (eqb_neq w v) by exact Hw. cbn [negb]. tauto.
Qed.
Print Assumptions C75_force10_commands_partial.
(** Ends with different VLANs are refused. *)
Theorem C75_force10_same : forall a b v w, shas "." a = false -> shas "." b = false -> v <> w ->
  f10_setup (a +++ "." +++ py_str v) (b +++ "." +++ py_str w) = Err EAssertion /\ f10_teardown (a +++ "." +++ py_str v) (b +++ "." +++ py_str w) = Err EAssertion.
Proof. intros a b v w Ha Hb N. unfold f10_setup, f10_teardown. rewrite !port_vlan_plain by assumption. cbn [Base.bind]. rewrite (eqb_neq v w) by exact N. split; reflexivity. Qed.
Print Assumptions C75_force10_same.
Example C75_force10_ex : exists cs, f10_setup "TenGigabitEthernet 0/1.1781" "TenGigabitEthernet 0/2.1781" = Ok cs /\
  fold_left f10_exec cs (mkF10 None [(5, "Po 1")] [5]) = mkF10 None [(1781, "TenGigabitEthernet 0/2"); (1781, "TenGigabitEthernet 0/1"); (5, "Po 1")] [1781; 5].
Proof. eexists. vm_compute. split; reflexivity. Qed.

(** Two links set up, the first one torn down. *)
Definition vl (v : Z) : option label := Some (mkLabel "vlan" [(v, v)]).
Definition pm_ex : list (string * string) := [("ps", "ge-0/0/0"); ("pa", "ge-0/0/1"); ("pb", "ge-0/0/2")].
Definition k1_ex := mkLink "c1" "ps" (vl 1781) "pa" (vl 1781).
Definition k2_ex := mkLink "c2" "pa" (vl 1782) "pb" (vl 1782).
Definition d0_ex : list path := [["vlans"; "mgmt"; "vlan-id"; "1781"]; ["interfaces"; "ge-0/0/9"; "unit"; "0"]].

Ltac ends H := destruct H as [[-> ->]|[-> ->]].
Ltac go_picked := intros ? ? [[_ H]|[_ H]]; cbn in H; try discriminate H; injection H as ->; reflexivity.
Ltac go_nameable := intros ? ? He; ends He; vm_compute; eexists; reflexivity.
Ltac go_apart := cbn [In]; intros ? Hk; repeat destruct Hk as [<-|Hk]; try contradiction;
  (split; [discriminate|]); intros ? [(? & ? & He & Hr) (? & ? & He' & Hr')]; ends He; ends He'; vm_compute in Hr, Hr'; congruence.
Ltac go_up d kk := apply (reach_up _ _ _ _ d _ kk); [|exact I|go_picked|go_nameable|go_apart|vm_compute; reflexivity].

Definition run_link {C} (D : driver C) (k : link) : list C :=
  match dr_setup D (k_id k) (k_sp k) (k_sl k) (k_dp k) (k_dl k) with Ok cs => cs | Err _ => [] end.
Definition stop_link {C} (D : driver C) (k : link) : list C :=
  match dr_teardown D (k_id k) (k_sp k) (k_sl k) (k_dp k) (k_dl k) with Ok cs => cs | Err _ => [] end.
Definition any (_ : link) : Prop := True.

Ltac plain := intros port itf H; apply aget_In in H; cbn [In pm_ex] in H;
  repeat destruct H as [H|H]; try contradiction; injection H as <- <-.

Ltac inside := apply mem_In; vm_compute; reflexivity.

Example C75_ex : plain_interfaces pm_ex /\ ex_fresh d0_ex /\
  (exists d, reach (juniperex pm_ex) junos_exec any d0_ex d [k2_ex; k1_ex] /\
     ex_joined d "ge-0/0/0" "ge-0/0/1" 1781 /\ ex_joined d "ge-0/0/1" "ge-0/0/2" 1782) /\
  exists d, reach (juniperex pm_ex) junos_exec any d0_ex d [k2_ex] /\
     ex_joined d "ge-0/0/1" "ge-0/0/2" 1782 /\ ~ link_on pm_ex [k2_ex] "ge-0/0/0" 1781.
Proof.
  split; [plain; split; reflexivity|]. 
  split. { intros q v H. cbn [In d0_ex] in H. repeat destruct H as [<-|H]; try contradiction; (split; [reflexivity|intros itf; cbn; rewrite ?andb_false_r; reflexivity]). }
  pose (D := juniperex pm_ex). pose (d1 := fold_left junos_exec (run_link D k1_ex) d0_ex). pose (d2 := fold_left junos_exec (run_link D k2_ex) d1).
  assert (R : reach D junos_exec any d0_ex d2 [k2_ex; k1_ex]).
  { go_up d1 k2_ex. go_up d0_ex k1_ex. constructor. }
  split.
  - exists d2. split; [exact R|]. split; [exists (vlan_name 1781)|exists (vlan_name 1782)]; (split; [|split]); inside.
  - exists (fold_left junos_exec (stop_link D k1_ex) d2). split.
    + apply (reach_down _ _ _ _ d2 [k2_ex] k1_ex []); [exact R|vm_compute; reflexivity].
    + split; [exists (vlan_name 1782); (split; [|split]); inside|]. intros (k & port & [<-|[]] & He & _). destruct He as [[_ He]|[_ He]]; discriminate He.
Qed.
Definition pm_br : list (string * string) := [("ps", "1/1"); ("pa", "1/2"); ("pb", "2/1")].
Example C75_brocade_ex : br_fresh any (mkBr None []) /\
  exists d, reach (brocade pm_br) br_exec any (mkBr None []) d [k2_ex; k1_ex] /\
     br_joined d "1/1" "1/2" 1781 /\ br_joined d "2/1" "1/2" 1782 /\ ~ br_carries d "2/1" 1781.
Proof.
  split; [intros k port v itf _ _ []|].
  pose (D := brocade pm_br). pose (d1 := fold_left br_exec (run_link D k1_ex) (mkBr None [])).
  exists (fold_left br_exec (run_link D k2_ex) d1). split.
  - go_up d1 k2_ex. go_up (mkBr None []) k1_ex. constructor.
  - split; [split; inside|]. split; [split; inside|]. intros H. vm_compute in H. repeat destruct H as [H|H]; try discriminate H; exact H.
Qed.

(** * C76: Pica8 switches *)

(** What comes in at a port with a VLAN goes out at another port exactly as the
    links that are up (and the flows there at the start) say, in both
    directions, and an interface lets in exactly the VLANs of the links.  PARTIAL:
    for port maps in which no two ports have the same flow number. *)
Theorem C76_forwarding_partial : forall db pm, word db -> p8_ports pm -> forall may d0 d ks, p8_fresh pm d0 ->
  reach (pica8 db pm) p8_exec may d0 d ks ->
  (forall i v o w, In ((i, v), (o, w)) (p8_flows d) <-> In ((i, v), (o, w)) (p8_flows d0) \/ link_flow pm ks i v o w) /\
  (forall itf v, In (itf, v) (p8_trunks d) <-> In (itf, v) (p8_trunks d0) \/ link_on pm ks itf v).
Proof. exact p8_forwarding. Qed.
Print Assumptions C76_forwarding_partial.
Theorem C76_teardown : forall db pm k cs,
  dr_setup (pica8 db pm) (k_id k) (k_sp k) (k_sl k) (k_dp k) (k_dl k) = Ok cs ->
  exists cs', dr_teardown (pica8 db pm) (k_id k) (k_sp k) (k_sl k) (k_dp k) (k_dl k) = Ok cs'.
Proof. exact p8_teardown_total. Qed.
Print Assumptions C76_teardown.
(** A link between known ports can be set up, whatever its two VLANs. *)
Theorem C76_setup : forall db pm k a b v w, p8_ports pm -> aget (k_sp k) pm = Some a -> aget (k_dp k) pm = Some b ->
  k_sl k = Some (mkLabel "vlan" [(v, v)]) -> k_dl k = Some (mkLabel "vlan" [(w, w)]) -> 1 <= v <= 4095 -> 1 <= w <= 4095 ->
  exists cs, dr_setup (pica8 db pm) (k_id k) (k_sp k) (k_sl k) (k_dp k) (k_dl k) = Ok cs.
Proof. exact p8_setup_total. Qed.
Print Assumptions C76_setup.

(** Two ports on different interfaces can have the same flow number: te-1/1/5
    and te-1/2/5.  Setting up a link on the second then takes the traffic of the
    link on the first. *)
Definition pm_p8 : list (string * string) := [("pa", "te-1/1/5"); ("pb", "te-1/2/5"); ("pc", "te-1/1/6"); ("pd", "te-1/1/7")].
Definition k1_p8 := mkLink "c1" "pa" (vl 100) "pc" (vl 100).
Definition k2_p8 := mkLink "c2" "pb" (vl 100) "pd" (vl 200).
Theorem C76_forwarding_refuted : exists pm d ks,
  (forall port itf, aget port pm = Some itf -> word itf /\ exists n, p8_number itf n) /\
  (forall p p' i, aget p pm = Some i -> aget p' pm = Some i -> p = p') /\
  reach (pica8 "db" pm) p8_exec any (mkP8 [] []) d ks /\
  exists i v o w, link_flow pm ks i v o w /\ ~ In ((i, v), (o, w)) (p8_flows d).
Proof.
  exists pm_p8. pose (D := pica8 "db" pm_p8). pose (d1 := fold_left p8_exec (run_link D k1_p8) (mkP8 [] [])).
  exists (fold_left p8_exec (run_link D k2_p8) d1), [k2_p8; k1_p8].
  split. { intros port itf H; apply aget_In in H; cbn [In pm_p8] in H; repeat destruct H as [H|H]; try contradiction; injection H as <- <-;
    (split; [reflexivity|]); eexists; [exists "te-1", "1", "5", 5|exists "te-1", "2", "5", 5|exists "te-1", "1", "6", 6|exists "te-1", "1", "7", 7];
    repeat split. }
  split. { intros p p' i H H'; apply aget_In in H, H'; cbn [In pm_p8] in H, H'.
    repeat destruct H as [H|H]; try contradiction; injection H as <- <-; repeat destruct H' as [H'|H']; try contradiction; injection H'; congruence. }
  split. { go_up d1 k2_p8. go_up (mkP8 [] []) k1_p8. constructor. }
  exists "133", 100, "134", 100. split.
  - exists k1_p8, "pa", "pc", "te-1/1/5", "te-1/1/6". split; [right; left; reflexivity|]. split; [left; auto|].
    split; [reflexivity|]. split; [reflexivity|]. split; [exists "te-1", "1", "5", 5|exists "te-1", "1", "6", 6]; repeat split.
  - intros H. vm_compute in H. repeat destruct H as [H|H]; try discriminate H; exact H.
Qed.
Print Assumptions C76_forwarding_refuted.

Lemma p8_number_fun itf n m : p8_number itf n -> p8_number itf m -> n = m.
Proof.
  intros (a & b & t & i & -> & A & B & T & I & ->) (a' & b' & t' & i' & E & A' & B' & T' & I' & ->).
  assert (X : forall x y z, shas "/" x = false -> shas "/" y = false -> shas "/" z = false -> split_on "/" (x +++ "/" +++ y +++ "/" +++ z) = [x; y; z]).
  { intros x y z Hx Hy Hz. change (x +++ "/" +++ y +++ "/" +++ z) with (join "/" [x; y; z]). apply BaseProofs.split_on_join; [discriminate|].
    intros s [<-|[<-|[<-|[]]]]; assumption. }
  pose proof (X a b t A B T) as E1. rewrite E, (X a' b' t' A' B' T') in E1. injection E1 as -> -> ->. congruence.
Qed.
Definition pm_p8' : list (string * string) := [("pa", "te-1/1/5"); ("pb", "te-1/1/6"); ("pc", "te-1/1/7")].
Definition k3_p8 := mkLink "c3" "pa" (vl 100) "pb" (vl 200).
Example C76_ex : word "10.0.0.1" /\ p8_ports pm_p8' /\ p8_fresh pm_p8' (mkP8 [] []) /\
  exists d, reach (pica8 "10.0.0.1" pm_p8') p8_exec any (mkP8 [] []) d [k3_p8] /\
    p8_flows d = [(("134", 200), ("133", 100)); (("133", 100), ("134", 200))] /\
    p8_trunks d = [("te-1/1/6", 200); ("te-1/1/5", 100)].
Proof.
  split; [reflexivity|]. split.
  - assert (N : p8_number "te-1/1/5" "133" /\ p8_number "te-1/1/6" "134" /\ p8_number "te-1/1/7" "135").
    { repeat split; [exists "te-1", "1", "5", 5|exists "te-1", "1", "6", 6|exists "te-1", "1", "7", 7]; repeat split. }
    destruct N as (N1 & N2 & N3). split.
    + intros port itf H; apply aget_In in H; cbn [In pm_p8'] in H; repeat destruct H as [H|H]; try contradiction; injection H as <- <-;
      (split; [reflexivity|]); eauto.
    + intros p p' i i' n H H' Hn Hn'; apply aget_In in H, H'; cbn [In pm_p8'] in H, H'.
      repeat destruct H as [H|H]; try contradiction; injection H as <- <-; repeat destruct H' as [H'|H']; try contradiction;
        injection H' as <- <-; try reflexivity; exfalso;
      repeat match goal with
      | N : p8_number "te-1/1/5" ?x |- _ => tryif constr_eq x "133" then fail else pose proof (p8_number_fun _ _ _ N N1); clear N
      | N : p8_number "te-1/1/6" ?x |- _ => tryif constr_eq x "134" then fail else pose proof (p8_number_fun _ _ _ N N2); clear N
      | N : p8_number "te-1/1/7" ?x |- _ => tryif constr_eq x "135" then fail else pose proof (p8_number_fun _ _ _ N N3); clear N
      end; congruence.
  - split; [intros ? ? ? ? ? _ _; split; intros []|].
    eexists. split; [go_up (mkP8 [] []) k3_p8; constructor|vm_compute; split; reflexivity].
Qed.
