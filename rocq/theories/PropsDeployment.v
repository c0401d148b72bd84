(** C79: the devices carry the traffic of the active connections, and no other. *)
From Verif Require Import Base ModelLabel ModelSTP ModelAuthz ModelNRM ModelCalendar ModelState ModelScheduler ModelBackend ModelDrivers ModelJunos
  SpecLabel SpecCalendar SpecBackend SpecDrivers SpecJunos SpecDeployment ProofsDrivers ProofsSwitches ProofsJoined ProofsJunos ProofsJunosEx
  ProofsDeployment PropsDrivers PropsJunos.
Open Scope Z_scope.

(** After any legal history of requests, timers and restarts, whatever the
    device answers: the device has gone through a history of links set up and torn
    down one by one, none of them in the way of another, and the links that are
    up are those of the connections the table says are active.  Partial: see
    [deployed]. *)
Theorem C79_active_links_partial : forall {C S : Type} (D : driver C) (exec : S -> C -> S) (may : link -> Prop) g t l (d0 : S),
  let s := serial_run g (start t) l in
  legal g (start t) l -> deployed D may g (db s) (outs s) -> undoes D may -> teardowns_work (outs s) -> timely g (db s) (outs s) ->
  exists ks, reach D exec may d0 (device D exec (db s) d0 (outs s)) ks /\ NoDup (map k_id ks) /\
    forall k, In k ks <-> active_link (db s) k.
Proof. intros C S. exact deployment. Qed.
Print Assumptions C79_active_links_partial.

(** An active connection with one end at each of the two interfaces, both with
    the VLAN. *)
Definition active_between (pm : list (string * string)) (rows : list (string * row)) (a b : string) (v : Z) : Prop :=
  exists cid r, aget cid rows = Some r /\ c_active r = true /\
    c_slabel r = Some (mkLabel "vlan" [(v, v)]) /\ c_dlabel r = Some (mkLabel "vlan" [(v, v)]) /\
    ((aget (c_sport r) pm = Some a /\ aget (c_dport r) pm = Some b) \/ (aget (c_sport r) pm = Some b /\ aget (c_dport r) pm = Some a)).
Lemma between_active pm rows ks a b v : (forall k, In k ks <-> active_link rows k) -> link_between pm ks a b v <-> active_between pm rows a b v.
Proof.
  intros Hk. split.
  - intros (k & Hin & H1 & H2 & H3). apply Hk in Hin as (cid & r & Er & Ha & ->). exists cid, r. auto.
  - intros (cid & r & Er & Ha & H1 & H2 & H3). exists (link_of r). split; [apply Hk; exists cid, r; auto|]. auto.
Qed.

(** Juniper EX: two interfaces exchange the traffic of a VLAN exactly if they did
    at the start or an active connection has them as its ends. *)
Theorem C79_ex_joined_partial : forall pm may g t l d0, plain_interfaces pm -> ex_fresh d0 ->
  let s := serial_run g (start t) l in
  legal g (start t) l -> deployed (juniperex pm) may g (db s) (outs s) -> teardowns_work (outs s) -> timely g (db s) (outs s) ->
  forall a b v, a <> b ->
    ex_joined (device (juniperex pm) junos_exec (db s) d0 (outs s)) a b v <-> ex_joined d0 a b v \/ active_between pm (db s) a b v.
Proof.
  intros pm may g t l d0 Hp Hf s L Dp Hdn Htm a b v Hab.
  destruct (deployment (juniperex pm) junos_exec may g t l d0 L Dp) as (ks & Hr & _ & Hk).
  { intros k cs _ Hpk. apply C75_ex_teardown, Hpk. }
  { exact Hdn. } { exact Htm. }
  rewrite <- (between_active pm (db s) ks a b v Hk). exact (C75_ex_joined pm Hp may d0 _ ks Hf Hr a b v Hab).
Qed.
Print Assumptions C79_ex_joined_partial.

(** Brocade. *)
Theorem C79_brocade_joined_partial : forall pm may g t l d0, (forall port itf, aget port pm = Some itf -> word itf) -> br_fresh may d0 ->
  let s := serial_run g (start t) l in
  legal g (start t) l -> deployed (brocade pm) may g (db s) (outs s) -> teardowns_work (outs s) -> timely g (db s) (outs s) ->
  forall a b v, a <> b ->
    br_joined (device (brocade pm) br_exec (db s) d0 (outs s)) a b v <-> br_joined d0 a b v \/ active_between pm (db s) a b v.
Proof.
  intros pm may g t l d0 Hp Hf s L Dp Hdn Htm a b v Hab.
  destruct (deployment (brocade pm) br_exec may g t l d0 L Dp) as (ks & Hr & _ & Hk).
  { intros k cs _ Hpk. apply C75_brocade_teardown, Hpk. }
  { exact Hdn. } { exact Htm. }
  rewrite <- (between_active pm (db s) ks a b v Hk). exact (C75_brocade_joined pm may Hp d0 _ ks Hf Hr a b v Hab).
Qed.
Print Assumptions C79_brocade_joined_partial.

(** Pica8. *)
Theorem C79_pica8_partial : forall bridge pm may g t l d0, word bridge -> p8_ports pm -> p8_fresh pm d0 ->
  let s := serial_run g (start t) l in
  legal g (start t) l -> deployed (pica8 bridge pm) may g (db s) (outs s) -> teardowns_work (outs s) -> timely g (db s) (outs s) ->
  let d := device (pica8 bridge pm) p8_exec (db s) d0 (outs s) in
  exists ks, (forall k, In k ks <-> active_link (db s) k) /\
    (forall i v o w, In ((i, v), (o, w)) (p8_flows d) <-> In ((i, v), (o, w)) (p8_flows d0) \/ link_flow pm ks i v o w) /\
    (forall itf v, In (itf, v) (p8_trunks d) <-> In (itf, v) (p8_trunks d0) \/ link_on pm ks itf v).
Proof.
  intros bridge pm may g t l d0 Hw Hp Hf s L Dp Hdn Htm d.
  destruct (deployment (pica8 bridge pm) p8_exec may g t l d0 L Dp) as (ks & Hr & _ & Hk).
  { intros k cs _ _. apply C76_teardown. }
  { exact Hdn. } { exact Htm. }
  exists ks. split; [exact Hk|]. exact (C76_forwarding_partial bridge pm Hw Hp may d0 _ ks Hf Hr).
Qed.
Print Assumptions C79_pica8_partial.

(** Juniper routers. *)
Theorem C79_mx_switched_partial : forall routers net pm may g t l d0, mx_world routers net pm -> mx_asked pm may -> junos_fresh pm "NSI-" d0 ->
  let s := serial_run g (start t) l in
  legal g (start t) l -> deployed (junosmx routers net pm) may g (db s) (outs s) -> teardowns_work (outs s) -> timely g (db s) (outs s) ->
  let d := device (junosmx routers net pm) junos_exec (db s) d0 (outs s) in
  exists ks, (forall k, In k ks <-> active_link (db s) k) /\
    (forall a b, a <> b -> switched d a b <-> switched d0 a b \/ exists e e', joins pm ks e e' /\ a = sub e /\ b = sub e') /\
    (forall a out ip inn, tunnelled d a out ip inn <->
      exists e rn v, leads pm ks e rn v /\ a = tunnel_sub e /\ out = path_name rn net v /\ inn = path_name net rn v /\ router_of routers rn ip).
Proof.
  intros routers net pm may g t l d0 Hw Ha Hf s L Dp Hdn Htm d.
  destruct (deployment (junosmx routers net pm) junos_exec may g t l d0 L Dp) as (ks & Hr & _ & Hk).
  { intros k cs Hm _. destruct (Ha k Hm). apply C77_teardown_partial; assumption. }
  { exact Hdn. } { exact Htm. }
  exists ks. split; [exact Hk|]. split.
  - exact (C77_switched_partial routers net pm may d0 _ ks Hw Ha Hf Hr).
  - exact (C77_tunnelled_partial routers net pm may d0 _ ks Hw Ha Hf Hr).
Qed.
Print Assumptions C79_mx_switched_partial.

(** Juniper EX4550. *)
Theorem C79_ex4550_switched_partial : forall pm may g t l d0, jx_world pm -> jx_asked pm may -> junos_fresh pm "OpenNSA-local-" d0 ->
  let s := serial_run g (start t) l in
  legal g (start t) l -> deployed (junosex pm) may g (db s) (outs s) -> teardowns_work (outs s) -> timely g (db s) (outs s) ->
  let d := device (junosex pm) junos_exec (db s) d0 (outs s) in
  exists ks, (forall k, In k ks <-> active_link (db s) k) /\
    forall a b, a <> b -> switched d a b <-> switched d0 a b \/ exists e e', joins pm ks e e' /\ a = sub e /\ b = sub e'.
Proof.
  intros pm may g t l d0 Hw Ha Hf s L Dp Hdn Htm d.
  destruct (deployment (junosex pm) junos_exec may g t l d0 L Dp) as (ks & Hr & _ & Hk).
  { intros k cs Hm _ _. destruct (Ha k Hm) as [Hwd He]. destruct (C78_commands_partial pm k Hw Hwd He) as (x & y & _ & H). eauto. }
  { exact Hdn. } { exact Htm. }
  exists ks. split; [exact Hk|]. exact (C78_switched_partial pm may d0 _ ks Hw Ha Hf Hr).
Qed.
Print Assumptions C79_ex4550_switched_partial.

(** * Concrete histories *)

(** A backend with three ports, all with the VLANs 100-110, whose resources a
    driver names. *)
Definition dp_port (n : string) : nrm_port := mkPort "ethernet" n None None None None (Some (mkLabel "vlan" [(100, 110)])) 1000 n [] [] false.
Definition cfg_of {C} (D : driver C) : cfg :=
  mkCfg "net" [("pa", dp_port "pa"); ("pb", dp_port "pb"); ("pc", dp_port "pc"); ("ps", dp_port "ps")]
    (fun p l => match dr_resource D p l with Ok r => r | Err _ => "" end) (fun p _ => p) None (fun _ => false) 60 false.
Definition dp_hdr : hdr := mkHdr "nsa" "corr" [] (mkRI None).
Definition dp_req (id src dst : string) (v b e : Z) : resv :=
  mkResv None "gid" true (mkSTP "net" src (vl v)) (mkSTP "net" dst (vl v)) (Some (b * second)) (Some (e * second)) 10 id.
Definition quiet (l : list op) : list (op * env) := map (fun o => (o, [])) l.
(** two connections up *)
Definition dp_two : list op :=
  [Reserve dp_hdr (dp_req "A" "pa" "pb" 105 10 100); Reserve dp_hdr (dp_req "B" "pb" "pa" 106 10 200);
   Commit dp_hdr "A"; Commit dp_hdr "B"; Provision dp_hdr "A"; Provision dp_hdr "B"; Tick (10 * second); Fire 4; Fire 5; Tick (90 * second)].
(** the first one comes to its end *)
Definition dp_one_over : list (op * env) := quiet (dp_two ++ [Fire 6]).
Definition kA := mkLink "A" "pa" (vl 105) "pb" (vl 105).
Definition kB := mkLink "B" "pb" (vl 106) "pa" (vl 106).
Definition abk (k : link) : Prop := k = kA \/ k = kB.

(** the links of the stored connections of a state *)
Definition ends (s : st) : list (string * link) := map (fun kr => (fst kr, link_of (snd kr))) (db s).
Lemma ends_row s y k r : ends s = y -> aget k (db s) = Some r -> In (k, link_of r) y.
Proof. intros <- H. apply aget_In in H. exact (in_map (fun kr : string * row => (fst kr, link_of (snd kr))) _ _ H). Qed.
Lemma dp_deployed {C} (D : driver C) (may : link -> Prop) s y : ends s = y ->
  Forall (fun kl => may (snd kl) /\ nameable D (snd kl) /\
    exists cs, dr_setup D (k_id (snd kl)) (k_sp (snd kl)) (k_sl (snd kl)) (k_dp (snd kl)) (k_dl (snd kl)) = Ok cs) y ->
  deployed D may (cfg_of D) (db s) (outs s).
Proof.
  intros Hy Hall. rewrite Forall_forall in Hall. split.
  - intros port lb res H. unfold cfg_of. cbn [get_resource]. rewrite H. reflexivity.
  - intros k r Hk. apply (ends_row s y k r Hy), Hall in Hk. tauto.
  - intros k r _ Hk. apply (ends_row s y k r Hy), Hall in Hk. tauto.
Qed.
Definition resources (g : cfg) (k : link) : list string := [get_resource g (k_sp k) (k_sl k); get_resource g (k_dp k) (k_dl k)].
(** connections with resources of their own are never in each other's way *)
Lemma dp_timely g s y : ends s = y ->
  (forall k k' x x' r, In (k, x) y -> In (k', x') y -> k' <> k -> In r (resources g x) -> In r (resources g x') -> False) -> timely g (db s) (outs s).
Proof.
  intros Hy Ha pre cid post _ cid' r r' Hne _ Hr Hr' res U U'. exfalso. apply (ends_row s y _ _ Hy) in Hr, Hr'.
  apply (Ha _ _ _ _ res Hr Hr' Hne); unfold resources; cbn [In link_of k_sp k_sl k_dp k_dl]; [destruct U as [->| ->]|destruct U' as [->| ->]]; auto.
Qed.
Definition failures (l : list output) : bool := existsb (fun x => match x with OTeardownDone _ false => true | _ => false end) l.
Lemma no_failures l : failures l = false -> teardowns_work l.
Proof.
  intros H cid Hin. assert (E : failures l = true) by (apply existsb_exists; eexists; split; [exact Hin|reflexivity]). congruence.
Qed.
Ltac legal_tac := cbn [legal quiet map app];
  repeat match goal with |- _ /\ _ => split | |- True => exact I end; try exact I;
  try (split; [intros; vm_compute; reflexivity|split; [discriminate|]]; vm_compute; congruence).
Ltac timely_tac := intros ? ? ? ? ? Hi Hi' Hne Hr Hr'; cbn [In] in Hi, Hi';
  repeat destruct Hi as [Hi|Hi]; try contradiction; injection Hi as <- <-; repeat destruct Hi' as [Hi'|Hi']; try contradiction; injection Hi' as <- <-;
  try congruence; vm_compute in Hr, Hr'; repeat destruct Hr as [<-|Hr]; try contradiction; repeat destruct Hr' as [Hr'|Hr']; try contradiction; discriminate Hr'.
Ltac deployed_tac ask :=
  repeat (apply Forall_cons; [cbn [snd]; split; [ask|split; [go_nameable|vm_compute; eexists; reflexivity]]|]); apply Forall_nil.

(** the switched interfaces of a Juniper configuration *)
Definition crossed (d : list path) : list path := filter (below ["protocols"; "connections"]) d.
(** Two connections, the first one over: only the second one's ends exchange
    traffic. *)
Definition one_over {C S V} (D : driver C) (exec : S -> C -> S) (may : link -> Prop) (d0 : S) (look : S -> V) (v : V) : Prop :=
  let s := serial_run (cfg_of D) (start 0) dp_one_over in
  legal (cfg_of D) (start 0) dp_one_over /\ deployed D may (cfg_of D) (db s) (outs s) /\ teardowns_work (outs s) /\ timely (cfg_of D) (db s) (outs s) /\
  map (fun kr => (fst kr, c_active (snd kr))) (db s) = [("A", false); ("B", true)] /\ look (device D exec (db s) d0 (outs s)) = v.
Ltac over_tac ask := unfold one_over;
  match goal with |- legal ?g _ ?l /\ _ =>
    let s := constr:(serial_run g (start 0) l) in
    assert (Hy : ends s = [("A", kA); ("B", kB)]) by (vm_compute; reflexivity);
    split; [unfold dp_one_over, dp_two; legal_tac|];
    split; [eapply dp_deployed; [exact Hy|]; deployed_tac ask|];
    split; [apply no_failures; vm_compute; reflexivity|];
    split; [eapply dp_timely; [exact Hy|timely_tac]|];
    split; vm_compute; reflexivity
  end.

Example C79_ex : one_over (juniperex pm_ex) junos_exec any d0_ex id
  ([["interfaces"; "ge-0/0/1"; "unit"; "0"; "family"; "ethernet-switching"; "vlan"; "members"; "opennsa-106"];
    ["interfaces"; "ge-0/0/2"; "unit"; "0"; "family"; "ethernet-switching"; "vlan"; "members"; "opennsa-106"];
    ["vlans"; "opennsa-106"; "vlan-id"; "106"]] ++ d0_ex).
Proof. over_tac ltac:(exact I). Qed.
Example C79_brocade : one_over (brocade pm_br) br_exec any (mkBr None []) id (mkBr None [(106, "1/2"); (106, "2/1")]).
Proof. over_tac ltac:(exact I). Qed.
Example C79_pica8 : one_over (pica8 "10.0.0.1" pm_p8') p8_exec any (mkP8 [] []) id
  (mkP8 [("te-1/1/5", 106); ("te-1/1/6", 106)] [(("133", 106), ("134", 106)); (("134", 106), ("133", 106))]).
Proof. over_tac ltac:(exact I). Qed.
Ltac vend := eexists; split; [reflexivity|]; split; [reflexivity|]; eexists; split; reflexivity.
Example C79_mx : mx_asked pm_mx abk /\ one_over (junosmx rs_mx "nordu.net:topology" pm_mx) junos_exec abk d0_mx crossed
  [["protocols"; "connections"; "interface-switch"; "NSI-B"; "interface"; "ge-0/0/0.106"];
   ["protocols"; "connections"; "interface-switch"; "NSI-B"; "interface"; "ge-0/0/1.106"];
   ["protocols"; "connections"; "interface-switch"; "old"; "interface"; "ge-0/0/9.1"]].
Proof.
  split.
  - intros k [->| ->]; (split; [reflexivity|]).
    + apply (kind_vlan pm_mx kA "ge-0/0/0" 105 "ge-0/0/1" 105); vend.
    + apply (kind_vlan pm_mx kB "ge-0/0/1" 106 "ge-0/0/0" 106); vend.
  - over_tac ltac:(first [left; reflexivity|right; reflexivity]).
Qed.
Example C79_ex4550 : jx_asked pm_jx abk /\ one_over (junosex pm_jx) junos_exec abk d0_mx crossed
  [["protocols"; "connections"; "interface-switch"; "OpenNSA-local-B"; "interface"; "xe-0/0/0.106"];
   ["protocols"; "connections"; "interface-switch"; "OpenNSA-local-B"; "interface"; "xe-0/0/1.106"];
   ["protocols"; "connections"; "interface-switch"; "old"; "interface"; "ge-0/0/9.1"]].
Proof.
  split.
  - intros k [->| ->]; (split; [reflexivity|]).
    + exists "xe-0/0/0", 105, "xe-0/0/1", 105; split; vend.
    + exists "xe-0/0/1", 106, "xe-0/0/0", 106; split; vend.
  - over_tac ltac:(first [left; reflexivity|right; reflexivity]).
Qed.

(** ** The two conditions cannot be left out *)

(** A second connection has the VLAN of the first one for a later time, and the
    backend is not running from before the end of the first one to after the start
    of the second.  When it starts again it brings up the second one before it takes
    down the first, which takes the VLAN away from both. *)
Notation dp_ex := (cfg_of (juniperex pm_ex)).
Definition dp_again : list op :=
  [Reserve dp_hdr (dp_req "B" "ps" "pb" 105 200 300); Reserve dp_hdr (dp_req "A" "ps" "pa" 105 10 100);
   Commit dp_hdr "A"; Commit dp_hdr "B"; Provision dp_hdr "A"; Provision dp_hdr "B"; Tick (10 * second); Fire 4; Tick (240 * second); Restart].
Lemma again_legal : legal dp_ex (start 0) (quiet dp_again).
Proof.
  unfold dp_again. legal_tac. intros k r.
  match goal with |- aget k (db ?s) = _ -> _ =>
    assert (Hd : map (fun kr => c_end (snd kr)) (db s) = [Some (300 * second); Some (100 * second)]) by (vm_compute; reflexivity); generalize dependent s end.
  intros s Hd Hk _ _ Hn. apply aget_In in Hk. apply (in_map (fun kr : string * row => c_end (snd kr))) in Hk. rewrite Hd in Hk. cbn [snd] in Hk.
  rewrite Hn in Hk. cbn [In] in Hk. destruct Hk as [Hk|[Hk|[]]]; discriminate Hk.
Qed.
Theorem C79_ex_joined_refuted : ~ (forall pm may g t l d0, plain_interfaces pm -> ex_fresh d0 ->
  let s := serial_run g (start t) l in
  legal g (start t) l -> deployed (juniperex pm) may g (db s) (outs s) -> teardowns_work (outs s) ->
  forall a b v, a <> b ->
    ex_joined (device (juniperex pm) junos_exec (db s) d0 (outs s)) a b v <-> ex_joined d0 a b v \/ active_between pm (db s) a b v).
Proof.
  intros H. specialize (H pm_ex any dp_ex 0 (quiet dp_again) [] (proj1 C75_ex) ltac:(intros q v []) again_legal).
  set (s := serial_run dp_ex (start 0) (quiet dp_again)) in H. cbv zeta in H.
  assert (Hy : ends s = [("B", mkLink "B" "ps" (vl 105) "pb" (vl 105)); ("A", mkLink "A" "ps" (vl 105) "pa" (vl 105))]) by (vm_compute; reflexivity).
  specialize (H ltac:(eapply dp_deployed; [exact Hy|]; deployed_tac ltac:(exact I))).
  specialize (H ltac:(apply no_failures; vm_compute; reflexivity) "ge-0/0/0" "ge-0/0/2" 105 ltac:(discriminate)).
  assert (E : device (juniperex pm_ex) junos_exec (db s) [] (outs s) =
    [["interfaces"; "ge-0/0/2"; "unit"; "0"; "family"; "ethernet-switching"; "vlan"; "members"; "opennsa-105"]]) by (vm_compute; reflexivity).
  rewrite E in H. assert (A : active_between pm_ex (db s) "ge-0/0/0" "ge-0/0/2" 105).
  { assert (Ha : option_map (fun r => (c_active r, link_of r)) (aget "B" (db s)) = Some (true, mkLink "B" "ps" (vl 105) "pb" (vl 105))) by (vm_compute; reflexivity).
    destruct (aget "B" (db s)) as [r|] eqn:Er; [|discriminate Ha]. cbn [option_map] in Ha. unfold link_of in Ha. injection Ha as H1 H2 H3 H4 H5 H6.
    exists "B", r. split; [exact Er|]. split; [exact H1|]. split; [exact H4|]. split; [exact H6|]. left. rewrite H3, H5. split; reflexivity. }
  destruct (proj2 H (or_intror A)) as (n & Hn & _). destruct Hn as [Hn|[]]. discriminate Hn.
Qed.
Print Assumptions C79_ex_joined_refuted.

(** A teardown that fails leaves the link as it was, but the table says that the
    connection is not active and its resources are free. *)
Definition dp_fails : list (op * env) := quiet dp_two ++ [(Fire 6, repeat (Some EConnectionCreate, 0) 5)].
Theorem C79_ex_failed_refuted : ~ (forall pm may g t l d0, plain_interfaces pm -> ex_fresh d0 ->
  let s := serial_run g (start t) l in
  legal g (start t) l -> deployed (juniperex pm) may g (db s) (outs s) -> timely g (db s) (outs s) ->
  forall a b v, a <> b ->
    ex_joined (device (juniperex pm) junos_exec (db s) d0 (outs s)) a b v <-> ex_joined d0 a b v \/ active_between pm (db s) a b v).
Proof.
  intros H. specialize (H pm_ex any dp_ex 0 dp_fails [] (proj1 C75_ex) ltac:(intros q v [])).
  assert (L : legal dp_ex (start 0) dp_fails) by (unfold dp_fails, dp_two; legal_tac). specialize (H L).
  set (s := serial_run dp_ex (start 0) dp_fails) in H. cbv zeta in H.
  assert (Hy : ends s = [("A", kA); ("B", kB)]) by (vm_compute; reflexivity).
  specialize (H ltac:(eapply dp_deployed; [exact Hy|]; deployed_tac ltac:(exact I))).
  specialize (H ltac:(eapply dp_timely; [exact Hy|timely_tac]) "ge-0/0/1" "ge-0/0/2" 105 ltac:(discriminate)).
  assert (J : ex_joined (device (juniperex pm_ex) junos_exec (db s) [] (outs s)) "ge-0/0/1" "ge-0/0/2" 105).
  { assert (E : device (juniperex pm_ex) junos_exec (db s) [] (outs s) = fold_left junos_exec (ex_configure "ge-0/0/2" "ge-0/0/1" 106) (fold_left junos_exec (ex_configure "ge-0/0/1" "ge-0/0/2" 105) [])) by (vm_compute; reflexivity).
    rewrite E. exists "opennsa-105". vm_compute. tauto. }
  apply H in J as [(n & [] & _)|(k & r & Hr & Ha & Hl & _)].
  assert (Hact : map (fun kr => (c_active (snd kr), c_slabel (snd kr))) (db s) = [(false, vl 105); (true, vl 106)]) by (vm_compute; reflexivity).
  apply aget_In in Hr. apply (in_map (fun kr : string * row => (c_active (snd kr), c_slabel (snd kr)))) in Hr. rewrite Hact in Hr. cbn [snd] in Hr.
  rewrite Ha, Hl in Hr. destruct Hr as [Hr|[Hr|[]]]; discriminate Hr.
Qed.
Print Assumptions C79_ex_failed_refuted.
