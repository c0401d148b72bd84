(** C92: the circuits on a Junos Space server are those of the links that are up. *)
From Verif Require Import Base BaseProofs ModelLabel ModelAuthz ModelNRM ModelSTP ModelRest ModelDrivers ModelJunos SpecDrivers SpecJunos ModelSpace SpecSpace
  ProofsDrivers ProofsJunos ProofsSpace PropsDrivers PropsJunos
  ModelCalendar ModelState ModelScheduler ModelBackend SpecLabel SpecCalendar SpecBackend SpecDeployment ProofsLabel ProofsBackendInv ProofsBackendSerial ProofsDeployment PropsDeployment
  ModelManager SpecManager ProofsManager ProofsManagers PropsManager.
Open Scope Z_scope.

(** After any history of links set up and torn down, the server has the circuits it
    had at the start, one for every link that is up, and no others. *)
Theorem C92_circuits : forall ids routers net pm (may : link -> Prop) s0 s ks,
  own_configlets ids -> (forall k, may k -> space_fit pm k) -> space_fresh s0 ->
  reach (junosspace ids routers net pm) (space_exec ids) may s0 s ks ->
  (forall k, In k ks -> exists! c, circuit_of routers net pm k c) /\
  (forall c, s c <-> s0 c \/ exists k, In k ks /\ circuit_of routers net pm k c).
Proof.
  intros ids routers net pm may s0 s ks O F Fr H. destruct (reach_links ids routers net pm O may F s0 Fr s ks H) as (_ & IC & IS).
  split; [|exact IS]. intros k Hk. destruct (IC k Hk) as (_ & c & Hc). exists c. split; [exact Hc|]. intros c' Hc'. exact (circuit_det routers net pm k c c' Hc Hc').
Qed.
Print Assumptions C92_circuits.
(** A link can be set up exactly if there is a circuit for it.  PARTIAL: not every
    link that passes the checks before has one, see below. *)
Theorem C92_setup_partial : forall ids routers net pm k,
  space_fit pm k -> picked k -> nameable (junosspace ids routers net pm) k ->
  (exists cs, dr_setup (junosspace ids routers net pm) (k_id k) (k_sp k) (k_sl k) (k_dp k) (k_dl k) = Ok cs) <-> exists c, circuit_of routers net pm k c.
Proof.
  intros ids routers net pm k F P N. split.
  - intros (cs & H). destruct (space_setup ids routers net pm k cs F P N H) as (c & Hc & _). exists c. exact Hc.
  - intros (c & Hc). destruct (sp_complete routers net pm (si_up ids) (si_up_remote ids) k c Hc) as (cs & E & _). exists cs. exact E.
Qed.
Print Assumptions C92_setup_partial.
(** What could be set up can be torn down, and what could not be set up fails
    with the same error. *)
Theorem C92_teardown : forall ids routers net pm cid sp sl dp dl,
  match dr_setup (junosspace ids routers net pm) cid sp sl dp dl, dr_teardown (junosspace ids routers net pm) cid sp sl dp dl with
  | Ok cs, Ok cs' => map sq_body cs = map sq_body cs'
  | Err e, Err e' => e = e'
  | _, _ => False
  end.
Proof.
  assert (L : forall a a' routers net cid s d, match sp_local a routers net cid s d, sp_local a' routers net cid s d with
    | Ok cs, Ok cs' => map sq_body cs = map sq_body cs' | Err e, Err e' => e = e' | _, _ => False end).
  { intros. unfold sp_local. destruct (sp_device routers net); cbn [Base.bind]; cbv iota; reflexivity. }
  assert (T : forall a a' routers net cid s d, match sp_tunnel a routers net cid s d, sp_tunnel a' routers net cid s d with
    | Ok cs, Ok cs' => map sq_body cs = map sq_body cs' | Err e, Err e' => e = e' | _, _ => False end).
  { intros. unfold sp_tunnel. destruct (sp_device routers net); cbn [Base.bind]; cbv iota; [|reflexivity]. destruct (remote_of d) as [rn|]; cbn [Base.bind]; cbv iota; [|reflexivity].
    destruct (sp_device routers rn); cbn [Base.bind]; cbv iota. all: reflexivity. }
  intros. cbn [dr_setup dr_teardown junosspace]. unfold via_targets. destruct (mx_target pm sp sl) as [s|]; cbn [Base.bind]; cbv iota; [|reflexivity].
  destruct (mx_target pm dp dl) as [d|]; cbn [Base.bind]; cbv iota; [|reflexivity]. unfold sp_generate, sp_transit, sp_remote.
  destruct (is_local s && is_local d); [apply L|]. destruct (negb (is_local s) && negb (is_local d)).
  - destruct (jt_type s), (jt_type d); cbv iota; try reflexivity. destruct (is_vlan s && is_vlan d); [apply L|]. destruct (is_mpls s && is_mpls d); [reflexivity|]. cbv zeta.
    destruct (is_vlan _ && is_mpls _); [apply T|reflexivity].
  - cbv zeta. destruct (jt_type _) as [ty|]; [|reflexivity]. destruct (eqb ty "vlan"); [apply L|apply T].
Qed.
Print Assumptions C92_teardown.
Lemma space_undoes ids routers net pm may : undoes (junosspace ids routers net pm) may.
Proof.
  intros k cs _ _ H. pose proof (C92_teardown ids routers net pm (k_id k) (k_sp k) (k_sl k) (k_dp k) (k_dl k)) as T. rewrite H in T.
  destruct (dr_teardown _ _ _ _ _ _) as [cs'|]; [exists cs'; reflexivity|contradiction].
Qed.
(** The server under a backend: its circuits are those of the active connections.
    PARTIAL: for histories in which no teardown fails and no link comes up while
    another one is still up that has a resource of it for another time; see C79. *)
Theorem C92_active_partial : forall ids routers topo pm (may : link -> Prop) g t l s0,
  own_configlets ids -> (forall k, may k -> space_fit pm k) -> space_fresh s0 ->
  let s := serial_run g (start t) l in let D := junosspace ids routers topo pm in
  legal g (start t) l -> deployed D may g (db s) (outs s) -> teardowns_work (outs s) -> timely g (db s) (outs s) ->
  forall c, device D (space_exec ids) (db s) s0 (outs s) c <-> s0 c \/ exists k, active_link (db s) k /\ circuit_of routers topo pm k c.
Proof.
  intros ids routers topo pm may g t l s0 O F Fr s D L Dp Hdn Htm c.
  destruct (deployment D (space_exec ids) may g t l s0 L Dp (space_undoes ids routers topo pm may) Hdn Htm) as (ks & Hr & _ & Hk).
  destruct (C92_circuits ids routers topo pm may s0 _ ks O F Fr Hr) as [_ H]. apply (iff_trans (H c)). split; (intros [H1|(k & H1 & H2)]; [left; exact H1|right; exists k; split; [apply Hk; exact H1|exact H2]]).
Qed.
Print Assumptions C92_active_partial.
(** With VLANs only, requests are answered soundly (as in C86), and no more is asked
    of the driver: what the backend accepts has a circuit. *)
Lemma space_able ids routers net ports id ip : vlan_ports ports -> space_router routers net id ip -> able (sp_manager ids routers net ports) ports 4095.
Proof.
  intros Hv R. constructor; cbn [sp_manager mg_driver mg_target mg_id mg_swap].
  - intros port p v _. cbn [dr_resource junosspace]. unfold mx_resource. cbn [ltype]. change (mem "vlan" ["mpls"; "vlan"]) with true. cbv iota. eauto.
  - intros port p v Hp _. unfold mx_target. rewrite (nrm_there _ _ _ Hp). reflexivity.
  - eauto.
  - intros k (p & d & v & w & Hp & Hd & E1 & E2 & _). unfold makes.
    destruct (Hv _ _ Hp) as (lp & Lp & Tp). destruct (Hv _ _ Hd) as (ld & Ld & Td).
    assert (C : exists c, circuit_of routers net ports k c).
    { eexists. eapply of_two; [| |right; exists p, lp; auto|right; exists d, ld; auto|exact R].
      - exists p. split; [exact Hp|]. rewrite Lp, E1. split; [exact Tp|]. exists v. split; reflexivity.
      - exists d. split; [exact Hd|]. rewrite Ld, E2. split; [exact Td|]. exists w. split; reflexivity. }
    destruct C as (c & C). destruct (sp_complete routers net ports (si_up ids) (si_up_remote ids) k c C) as (cs & E & _).
    destruct (sp_complete routers net ports (si_down ids) (si_down_remote ids) k c C) as (cs' & E' & _).
    split; [exists cs; exact E|exists cs'; exact E'].
Qed.
Theorem C92_requests : forall ids routers net ports id ip, vlan_ports ports -> space_router routers net id ip -> sound (sp_manager ids routers net ports) ports 4095.
Proof. intros ids routers net ports id ip H R. exact (able_sound _ _ _ H (space_able ids routers net ports id ip H R)). Qed.
Print Assumptions C92_requests.
Theorem C92_vlans_partial : forall ids routers topo ports id ip net mind sc t l s0,
  own_configlets ids -> space_router routers topo id ip -> space_fresh s0 ->
  let g := cfg_of (sp_manager ids routers topo ports) net ports mind sc in let s := serial_run g (start t) l in
  vlan_config ports g 4095 t l ->
  forall c, device (junosspace ids routers topo ports) (space_exec ids) (db s) s0 (outs s) c <->
    s0 c \/ exists k, active_link (db s) k /\ circuit_of routers topo ports k c.
Proof.
  intros ids routers topo ports id ip net mind sc t l s0 O R Fr g s (Hv & Ha & L & Hdn & Htm).
  pose proof (space_able ids routers topo ports id ip Hv R) as [A B D E].
  apply (C92_active_partial ids routers topo ports (vlan_link (sp_manager ids routers topo ports) ports 4095) g t l s0 O); [|exact Fr|exact L| |exact Hdn|exact Htm].
  - intros k (p & d & v & w & Hp & Hd & E1 & E2 & _). destruct (Hv _ _ Hp) as (lp & Lp & Tp). destruct (Hv _ _ Hd) as (ld & Ld & Td).
    intros port lb [[-> ->]|[-> ->]]; [exists p|exists d]; (split; [assumption|]); [rewrite Lp, E1|rewrite Ld, E2]; assumption.
  - apply (stored_deployed (sp_manager ids routers topo ports) ports 4095 Hv A E (vlan_link (sp_manager ids routers topo ports) ports 4095) net mind sc t l L Ha). auto.
Qed.
Print Assumptions C92_vlans_partial.
(** The routers are those of the configuration; of two entries for one network the
    later one counts. *)
Lemma split_entry g n r : sp_router g = Ok (n, r) <-> shas ":" n = false /\ shas ":" (sr_id r) = false /\ g = n +++ ":" +++ sr_id r +++ ":" +++ sr_ip r.
Proof.
  destruct r as [id ip]. cbn [sr_id sr_ip]. unfold sp_router. split.
  - intros H. destruct (split1 ":" g) as [[a b]|] eqn:S; [|discriminate H]. destruct (split1 ":" b) as [[a' b']|] eqn:S'; [|discriminate H].
    apply ok_inj in H. injection H as <- <- <-. apply split1_Some in S as [-> N]. apply split1_Some in S' as [-> N']. auto.
  - intros (N & N' & ->). change (":" +++ id +++ ":" +++ ip) with (String ":" (id +++ String ":" ip)). rewrite (split1_app _ _ _ N), (split1_app _ _ _ N'). reflexivity.
Qed.
Lemma entry_inj n x n' x' : shas ":" n = false -> shas ":" n' = false -> n +++ ":" +++ x = n' +++ ":" +++ x' -> n = n' /\ x = x'.
Proof.
  intros N N' H. apply (f_equal (split1 ":")) in H. change (":" +++ x) with (String ":" x) in H. change (":" +++ x') with (String ":" x') in H.
  rewrite (split1_app _ _ _ N), (split1_app _ _ _ N') in H. injection H as H1 H2. auto.
Qed.
Lemma routers_cons g gs rs : sp_routers (g :: gs) = Ok rs -> exists n r rs', sp_router g = Ok (n, r) /\ sp_routers gs = Ok rs' /\
  forall m, aget m rs = match aget m rs' with Some r => Some r | None => if eqb m n then Some r else None end.
Proof.
  intros H. cbn [sp_routers] in H. destruct (sp_router g) as [[n r]|]; [|discriminate H]. cbn [Base.bind] in H. destruct (sp_routers gs) as [rs'|]; [|discriminate H].
  cbn [Base.bind fst] in H. apply ok_inj in H. exists n, r, rs'. split; [reflexivity|]. split; [reflexivity|]. intros m. subst rs.
  destruct (aget n rs') as [r1|] eqn:A0.
  - destruct (aget m rs') as [r2|] eqn:A1; [reflexivity|]. destruct (eqb m n) eqn:EN; [|reflexivity]. apply (proj1 (eqb_true _ _)) in EN. congruence.
  - cbn [aget]. destruct (eqb m n) eqn:EN; [|destruct (aget m rs'); reflexivity]. apply (proj1 (eqb_true _ _)) in EN. subst n. rewrite A0. reflexivity.
Qed.
Lemma no_router gs : forall rs n, sp_routers gs = Ok rs -> shas ":" n = false -> aget n rs = None <-> forall x, ~ In (n +++ ":" +++ x) gs.
Proof.
  induction gs as [|g gs IH]; intros rs n H N; [injection H as <-; split; [intros _ x []|reflexivity]|].
  destruct (routers_cons g gs rs H) as (m & r & rs' & E & E' & A). rewrite A. specialize (IH rs' n E' N). apply split_entry in E as (M & _ & E). split.
  - intros G x [G'|G'].
    + rewrite E in G'. destruct (entry_inj _ _ _ _ M N G') as [-> _]. rewrite eqb_refl in G. destruct (aget n rs'); discriminate G.
    + destruct (aget n rs'); [discriminate G|]. exact (proj1 IH eq_refl x G').
  - intros G. rewrite (proj2 IH) by (intros x G'; exact (G x (or_intror G'))). destruct (eqb n m) eqn:EN; [|reflexivity].
    apply (proj1 (eqb_true _ _)) in EN. subst m. contradiction (G _ (or_introl E)).
Qed.
Theorem C92_routers : forall gs rs, sp_routers gs = Ok rs -> forall n id ip,
  aget n rs = Some (mkSRouter id ip) <->
  shas ":" n = false /\ shas ":" id = false /\
  exists before after, gs = before ++ (n +++ ":" +++ id +++ ":" +++ ip) :: after /\ forall x, ~ In (n +++ ":" +++ x) after.
Proof.
  induction gs as [|g gs IH]; intros rs H n id ip.
  - injection H as <-. split; [discriminate|]. intros (_ & _ & before & after & E & _). destruct before; discriminate E.
  - destruct (routers_cons g gs rs H) as (m & r & rs' & E & E' & A). rewrite A. specialize (IH rs' E' n id ip). apply split_entry in E as (M & M' & E). split.
    + intros G. destruct (aget n rs') as [r'|] eqn:G'.
      * apply IH in G as (N & N' & before & after & -> & Hx). split; [exact N|]. split; [exact N'|]. exists (g :: before), after. split; [reflexivity|exact Hx].
      * destruct (eqb n m) eqn:EN; [|discriminate G]. apply (proj1 (eqb_true _ _)) in EN. subst m. injection G as ->. cbn [sr_id sr_ip] in *.
        split; [exact M|]. split; [exact M'|]. exists [], gs. split; [rewrite E; reflexivity|]. exact (proj1 (no_router gs rs' n E' M) G').
    + intros (N & N' & before & after & Eg & Hx). destruct before as [|g0 before]; cbn [app] in Eg; injection Eg as -> ->.
      * rewrite (proj2 (no_router after rs' n E' N) Hx).
        destruct (entry_inj _ _ _ _ N M E) as [-> E2]. rewrite eqb_refl. destruct (entry_inj _ _ _ _ N' M' E2) as [-> ->]. destruct r; reflexivity.
      * rewrite (proj2 IH); [reflexivity|]. split; [exact N|]. split; [exact N'|]. exists before, after. auto.
Qed.
Print Assumptions C92_routers.
(** Two routers with links that lead to each other with the same label value agree
    on the paths: what one sends into the other takes out, both ways. *)
Definition leads_to (pm : list (string * nrm_port)) (k : link) (far : string) (v : Z) : Prop :=
  mpls_at pm (k_sp k) (k_sl k) far v \/ mpls_at pm (k_dp k) (k_dl k) far v.
Lemma leads_far : forall rs net pm k c far v id ip, circuit_of rs net pm k c -> leads_to pm k far v -> space_router rs far id ip ->
    ci_name c = JStr ("GTS-local-" +++ k_id k) /\ ci_far c = FarPath (JStr ip) (JStr (path_name far net v)) (JStr (path_name net far v)).
Proof.
  intros rs net pm k c far v id ip Hc L R. split; [exact (circuit_name rs net pm k c Hc)|].
    assert (X : forall port l a, mpls_at pm port l far v -> local_port pm port \/ vlan_port pm port -> arm_at pm port l a -> False).
    { intros port l a (p & pl & H1 & H2 & H3 & _ & H4) [(q & G & H5)|(q & ql & G & H5 & H6)] _; rewrite H1 in G; injection G as <-; congruence. }
    assert (Y : forall port l far' v', mpls_at pm port l far v -> mpls_at pm port l far' v' -> far' = far /\ v' = v).
    { intros port l far' v' (p & pl & H1 & H2 & H3 & H4 & H5) (q & ql & G1 & G2 & G3 & G4 & G5). rewrite H1 in G1. injection G1 as <-. split; [congruence|].
      rewrite H4 in G4. injection G4 as E. symmetry. exact E. }
    unfold space_router in R. destruct Hc as [a a' i j A A' P P' _|a f u i j i' j' A M P _ R'|a f u i j i' j' M A P _ R']; cbn [ci_far].
    - destruct L as [L|L]; [destruct (X _ _ _ L P A)|destruct (X _ _ _ L P' A')].
    - destruct L as [L|L]; [destruct (X _ _ _ L P A)|]. destruct (Y _ _ _ _ L M) as [-> ->]. unfold space_router in R'. rewrite R in R'. injection R' as <- <-. reflexivity.
    - destruct L as [L|L]; [|destruct (X _ _ _ L P A)]. destruct (Y _ _ _ _ L M) as [-> ->]. unfold space_router in R'. rewrite R in R'. injection R' as <- <-. reflexivity.
Qed.
Theorem C92_two_routers : forall ids ids' rs rs' net net' pm pm' (may may' : link -> Prop) s0 s0' s s' ks ks',
  own_configlets ids -> (forall k, may k -> space_fit pm k) -> space_fresh s0 ->
  reach (junosspace ids rs net pm) (space_exec ids) may s0 s ks ->
  own_configlets ids' -> (forall k, may' k -> space_fit pm' k) -> space_fresh s0' ->
  reach (junosspace ids' rs' net' pm') (space_exec ids') may' s0' s' ks' ->
  forall k k' v, In k ks -> In k' ks' -> leads_to pm k net' v -> leads_to pm' k' net v ->
  forall id ip id' ip', space_router rs net' id' ip' -> space_router rs' net id ip ->
  exists c c' out inn, s c /\ s' c' /\ ci_name c = JStr ("GTS-local-" +++ k_id k) /\ ci_name c' = JStr ("GTS-local-" +++ k_id k') /\
    ci_far c = FarPath (JStr ip') out inn /\ ci_far c' = FarPath (JStr ip) inn out.
Proof.
  intros ids ids' rs rs' net net' pm pm' may may' s0 s0' s s' ks ks' O F Fr H O' F' Fr' H' k k' v Hk Hk' L L' id ip id' ip' R R'.
  destruct (C92_circuits _ _ _ _ _ _ _ _ O F Fr H) as [C S]. destruct (C92_circuits _ _ _ _ _ _ _ _ O' F' Fr' H') as [C' S'].
  destruct (C k Hk) as (c & Hc & _). destruct (C' k' Hk') as (c' & Hc' & _).
  destruct (leads_far _ _ _ _ _ _ _ _ _ Hc L R) as [N E]. destruct (leads_far _ _ _ _ _ _ _ _ _ Hc' L' R') as [N' E'].
  exists c, c', (JStr (path_name net' net v)), (JStr (path_name net net' v)).
  split; [apply S; right; exists k; auto|]. split; [apply S'; right; exists k'; auto|]. auto.
Qed.
Print Assumptions C92_two_routers.
(** Links to networks that differ in their first six letters, or with other label
    values, have paths of their own.  PARTIAL: names are cut to six letters. *)
Lemma path_name_back a b b' v v' : path_name a b v = path_name a b' v' -> substring 0 6 b = substring 0 6 b' /\ v = v'.
Proof.
  intros H. unfold path_name in H.
  assert (S : forall x n, "T-" +++ substring 0 6 a +++ "-F-" +++ x +++ "-mpls" +++ py_str n =
    ("T-" +++ substring 0 6 a +++ "-F-" +++ x +++ "-mpl") +++ String "s" (py_str n)).
  { intros x n. rewrite !append_assoc. reflexivity. }
  assert (N : forall n, shas "s" (py_str n) = false).
  { intros n. pose proof (py_str_chars n) as P. revert P. generalize (py_str n) as s. induction s as [|c s IH]; intros P; [reflexivity|].
    cbn [sall] in P. apply andb_prop in P as [P1 P2]. rewrite shas_cons, (IH P2), orb_false_r.
    destruct (Ascii.eqb_spec "s" c) as [<-|NE]; [discriminate P1|reflexivity]. }
  rewrite !S in H. apply (f_equal (rsplit1 "s")) in H. rewrite !rsplit1_app in H by apply N.
  apply (f_equal (fun o => match o with Some p => p | None => (EmptyString, EmptyString) end)) in H.
  pose proof (f_equal fst H) as H1. pose proof (f_equal snd H) as H2. cbn [fst snd] in H1, H2. apply py_str_inj in H2. split; [|exact H2].
  do 3 apply append_inj_r in H1. apply append_inj_l in H1. exact H1.
Qed.
Theorem C92_paths_partial : forall routers net pm k k' c c' far far' v v' id jp id' jp' ip out inn ip' out' inn',
  circuit_of routers net pm k c -> circuit_of routers net pm k' c' -> leads_to pm k far v -> leads_to pm k' far' v' ->
  space_router routers far id jp -> space_router routers far' id' jp' ->
  ci_far c = FarPath ip out inn -> ci_far c' = FarPath ip' out' inn' ->
  substring 0 6 far <> substring 0 6 far' \/ v <> v' -> out <> out' /\ inn <> inn'.
Proof.
  intros routers net pm k k' c c' far far' v v' id jp id' jp' ip out inn ip' out' inn' C C' L L' R R' E E' N.
  destruct (leads_far _ _ _ _ _ _ _ _ _ C L R) as [_ F]. destruct (leads_far _ _ _ _ _ _ _ _ _ C' L' R') as [_ F']. rewrite E in F. rewrite E' in F'.
  injection F as _ -> ->. injection F' as _ -> ->. split; intros H; apply (f_equal (fun j => match j with JStr s => s | _ => EmptyString end)) in H; cbv beta iota in H.
  - change (path_name far net v = path_name far' net v') in H. apply path_name_inj in H. destruct H as [H1 H2], N; contradiction.
  - change (path_name net far v = path_name net far' v') in H. apply path_name_back in H. destruct H as [H1 H2], N; contradiction.
Qed.
Print Assumptions C92_paths_partial.

(** ** Cases *)
Definition ids_sp : sids := mkSIds "101" "102" "103" "104".
Definition rs_sp : list (string * srouter) := [("surfnet.nl", mkSRouter "2002" "10.0.0.2"); ("nordu.net", mkSRouter "2001" "10.0.0.1")].
Definition D_sp := junosspace ids_sp rs_sp "nordu.net:topology" pm_mx.
Definition old_sp : circuit := mkCircuit (JStr "2001") (JStr "old") (mkArm (JStr "port") (JStr "ge-0/0/9") (JInt 0)) (FarArm (mkArm (JStr "port") (JStr "ge-0/0/8") (JInt 0))).
Definition c1_sp : circuit := mkCircuit (JStr "2001") (JStr "GTS-local-c1") (mkArm (JStr "vlan") (JStr "ge-0/0/0") (JStr "100")) (FarArm (mkArm (JStr "vlan") (JStr "ge-0/0/1") (JStr "101"))).
Definition c2_sp : circuit := mkCircuit (JStr "2001") (JStr "GTS-local-c2") (mkArm (JStr "vlan") (JStr "ge-0/0/0") (JStr "102"))
  (FarPath (JStr "10.0.0.2") (JStr "T-surfne-F-nordu.-mpls7") (JStr "T-nordu.-F-surfne-mpls7")).
Definition c3_sp : circuit := mkCircuit (JStr "2001") (JStr "GTS-local-c3") (mkArm (JStr "port") (JStr "ge-0/0/3") (JInt 0))
  (FarPath (JStr "10.0.0.2") (JStr "T-surfne-F-nordu.-mpls8") (JStr "T-nordu.-F-surfne-mpls8")).
(** The routers as they are configured. *)
Example C92_routers_ex : exists rs, sp_routers ["nordu.net:2001:10.0.0.1"; "surfnet.nl:2002:10.0.0.2"] = Ok rs /\
  space_router rs "nordu.net:topology" "2001" "10.0.0.1" /\ space_router rs "surfnet.nl:topology" "2002" "10.0.0.2".
Proof. eexists. split; [reflexivity|]. split; reflexivity. Qed.
Lemma fit_sp k : asked_mx k -> space_fit pm_mx k.
Proof.
  intros [->|[->| ->]] port l [[-> ->]|[-> ->]]; cbn; eexists; (split; [reflexivity|]); first [reflexivity|exact I].
Qed.
(** Three links up, then the second one down. *)
Example C92_ex : own_configlets ids_sp /\ (forall k, asked_mx k -> space_fit pm_mx k) /\ space_fresh (eq old_sp) /\
  exists s, reach D_sp (space_exec ids_sp) asked_mx (eq old_sp) s [k3_mx; k2_mx; k1_mx] /\ s c1_sp /\ s c2_sp /\ s c3_sp /\ s old_sp /\
    exists s', reach D_sp (space_exec ids_sp) asked_mx (eq old_sp) s' [k3_mx; k1_mx] /\ s' c1_sp /\ ~ s' c2_sp /\ s' c3_sp /\ s' old_sp.
Proof.
  split; [repeat (constructor; [intros H; cbn in H; intuition discriminate|]); constructor|]. split; [exact fit_sp|].
  split; [intros c x <- E; discriminate E|].
  pose (s1 := fold_left (space_exec ids_sp) (run_link D_sp k1_mx) (eq old_sp)). pose (s2 := fold_left (space_exec ids_sp) (run_link D_sp k2_mx) s1).
  pose (s3 := fold_left (space_exec ids_sp) (run_link D_sp k3_mx) s2).
  assert (R : reach D_sp (space_exec ids_sp) asked_mx (eq old_sp) s3 [k3_mx; k2_mx; k1_mx]).
  { go_up' s2 k3_mx ltac:(right; right; reflexivity). go_up' s1 k2_mx ltac:(right; left; reflexivity). go_up' (eq old_sp) k1_mx ltac:(left; reflexivity). constructor. }
  exists s3. split; [exact R|]. split; [vm_compute; auto 8|]. split; [vm_compute; auto 8|]. split; [vm_compute; auto 8|]. split; [vm_compute; auto 8|].
  exists (fold_left (space_exec ids_sp) (stop_link D_sp k2_mx) s3).
  split; [apply (reach_down _ _ _ _ s3 [k3_mx] k2_mx [k1_mx]); [exact R|vm_compute; reflexivity]|].
  split; [vm_compute; split; [discriminate|auto 8]|]. split; [vm_compute; intros [H _]; apply H; reflexivity|].
  split; [vm_compute; split; [discriminate|auto 8]|]. vm_compute; split; [discriminate|auto 8].
Qed.
(** The router at the other side. *)
Example C92_two_routers_ex : (forall k, eq k1_mx' k -> space_fit pm_mx' k) /\
  (exists s, reach D_sp (space_exec ids_sp) asked_mx (eq old_sp) s [k2_mx]) /\
  (exists s, reach (junosspace ids_sp rs_sp "surfnet.nl:topology" pm_mx') (space_exec ids_sp) (eq k1_mx') (eq old_sp) s [k1_mx']) /\
  leads_to pm_mx k2_mx "surfnet.nl:topology" 7 /\ leads_to pm_mx' k1_mx' "nordu.net:topology" 7.
Proof.
  split; [intros k <- port l [[-> ->]|[-> ->]]; cbn; eexists; (split; [reflexivity|]); reflexivity|].
  split; [eexists; go_up' (eq old_sp) k2_mx ltac:(right; left; reflexivity); constructor|].
  split; [eexists; go_up' (eq old_sp) k1_mx' ltac:(reflexivity); constructor|].
  split; [right|left]; eexists; eexists; repeat split.
Qed.

(** A backend with this driver: a request accepted, and a history of C79. *)
Example C92_requests_ex : vlan_ports mg_ports /\ asks 4095 mg_two /\
  accepted (try_out (sp_manager ids_sp rs_sp "nordu.net:topology" mg_ports) mg_ports mg_two) = Some ("JUNOSSPACE-x1", vl 105, vl 106).
Proof. split; [exact mg_vlan|]. split; [apply asks_of; lia|vm_compute; reflexivity]. Qed.
Example C92_vlans_ex : let g := cfg_of (sp_manager ids_sp rs_sp "nordu.net:topology" mg_ports3) "net" mg_ports3 60 false in let s := serial_run g (start 0) dp_one_over in
  vlan_config mg_ports3 g 4095 0 dp_one_over /\ map (fun kr => (fst kr, c_active (snd kr))) (db s) = [("A", false); ("B", true)].
Proof.
  intros g s. assert (Hy : ends s = [("A", kA); ("B", kB)]) by (vm_compute; reflexivity). split; [|vm_compute; reflexivity].
  split; [|split; [|split; [|split]]].
  - intros port p H. unfold mg_ports3 in H. cbn [aget] in H.
    destruct (eqb port "pa"); [|destruct (eqb port "pb"); [|discriminate]]; injection H as <-; eexists; split; reflexivity.
  - intros h q e H. unfold dp_one_over, quiet, dp_two in H. cbn [app map In] in H.
    repeat destruct H as [H|H]; try contradiction; try discriminate H; injection H as <- <- <-;
      (split; (split; [apply one_wf; lia|])); intros x v [= <-] (lo & hi' & [[= <- <-]|[]] & R); lia.
  - unfold dp_one_over, dp_two; legal_tac.
  - apply no_failures; vm_compute; reflexivity.
  - eapply dp_timely; [exact Hy|timely_tac].
Qed.

(** ** What does not hold *)

(** Links that pass every check before they are set up, and then cannot be: two MPLS
    labels on the way through; a whole port on the way through; and a whole port at
    the end that leads to another network. *)
Definition pm_sp2 : list (string * nrm_port) :=
  [("pa", rt None None "ge-0/0/0"); ("pb", rt (Some "surfnet.nl:topology") None "ge-0/0/1"); ("pc", rt (Some "surfnet.nl:topology") mr "ge-0/0/2"); ("pd", rt (Some "nordu.net:topology") mr "ge-0/0/3")].
Theorem C92_accepted_refuted : exists pm k k' k'',
  (forall x, In x [k; k'; k''] -> space_fit pm x /\ picked x /\ nameable (junosspace ids_sp rs_sp "geant.net:topology" pm) x /\ sp_can_connect (k_sl x) (k_dl x) = true) /\
  dr_setup (junosspace ids_sp rs_sp "nordu.net:topology" pm) (k_id k) (k_sp k) (k_sl k) (k_dp k) (k_dl k) = Err EInternalNRM /\
  dr_setup (junosspace ids_sp rs_sp "nordu.net:topology" pm) (k_id k') (k_sp k') (k_sl k') (k_dp k') (k_dl k') = Err EInternalNRM /\
  dr_setup (junosspace ids_sp rs_sp "nordu.net:topology" pm) (k_id k'') (k_sp k'') (k_sl k'') (k_dp k'') (k_dl k'') = Err EAttribute.
Proof.
  exists pm_sp2, (mkLink "c1" "pc" (ml 1) "pd" (ml 2)), (mkLink "c2" "pb" None "pc" (ml 3)), (mkLink "c3" "pa" None "pb" None).
  split; [|split; [|split]; reflexivity].
  intros x [<-|[<-|[<-|[]]]]; (split; [intros port l [[-> ->]|[-> ->]]; cbn; eexists; (split; [reflexivity|]); first [reflexivity|exact I]|]);
    (split; [go_picked|split; [go_nameable|reflexivity]]).
Qed.
Print Assumptions C92_accepted_refuted.
(** Two networks that begin with the same six letters: circuits to different routers
    go by the same paths. *)
Definition rs_sp3 : list (string * srouter) := [("surfnet.nl", mkSRouter "2002" "10.0.0.2"); ("surfnet6.nl", mkSRouter "2006" "10.0.0.6"); ("nordu.net", mkSRouter "2001" "10.0.0.1")].
Theorem C92_path_names_refuted : exists pm k k' c c' out inn ip ip' (s : server),
  reach (junosspace ids_sp rs_sp3 "nordu.net:topology" pm) (space_exec ids_sp) (space_fit pm) (fun _ => False) s [k'; k] /\
  s c /\ s c' /\ ci_far c = FarPath ip out inn /\ ci_far c' = FarPath ip' out inn /\ ip <> ip'.
Proof.
  pose (D := junosspace ids_sp rs_sp3 "nordu.net:topology" pm_mx3). pose (s1 := fold_left (space_exec ids_sp) (run_link D k1_mx3) (fun _ => False)).
  pose (o := JStr "T-surfne-F-nordu.-mpls7"). pose (i := JStr "T-nordu.-F-surfne-mpls7").
  exists pm_mx3, k1_mx3, k2_mx3, (mkCircuit (JStr "2001") (JStr "GTS-local-c1") (mkArm (JStr "vlan") (JStr "ge-0/0/0") (JStr "100")) (FarPath (JStr "10.0.0.2") o i)),
    (mkCircuit (JStr "2001") (JStr "GTS-local-c2") (mkArm (JStr "vlan") (JStr "ge-0/0/0") (JStr "101")) (FarPath (JStr "10.0.0.6") o i)), o, i, (JStr "10.0.0.2"), (JStr "10.0.0.6").
  exists (fold_left (space_exec ids_sp) (run_link D k2_mx3) s1).
  assert (F : space_fit pm_mx3 k1_mx3 /\ space_fit pm_mx3 k2_mx3)
    by (split; intros port l [[-> ->]|[-> ->]]; cbn; eexists; (split; [reflexivity|]); reflexivity).
  split; [go_up' s1 k2_mx3 ltac:(exact (proj2 F)); go_up' (fun _ : circuit => False) k1_mx3 ltac:(exact (proj1 F)); constructor|].
  split; [vm_compute; right; left; reflexivity|]. split; [vm_compute; left; reflexivity|]. split; [reflexivity|]. split; [reflexivity|]. discriminate.
Qed.
Print Assumptions C92_path_names_refuted.
(** A network whose name has a colon in it, other than that of ":topology", has no
    router, however the routers are configured: the entry is cut at its first colons.
    No link of such a network can be set up. *)
Theorem C92_network_names_refuted : forall ids gs routers net pm cid sp sl dp dl,
  sp_routers gs = Ok routers -> shas ":" (remove_all ":topology" 0 net) = true ->
  (forall id ip, ~ space_router routers net id ip) /\
  forall cs, dr_setup (junosspace ids routers net pm) cid sp sl dp dl <> Ok cs.
Proof.
  assert (K : forall gs routers n r, sp_routers gs = Ok routers -> aget n routers = Some r -> shas ":" n = false).
  { induction gs as [|g gs IH]; intros routers n r H G; cbn in H; [injection H as <-; discriminate G|].
    destruct (sp_router g) as [[n0 r0]|] eqn:E; [|discriminate H]. cbn [Base.bind] in H. destruct (sp_routers gs) as [rs|] eqn:E'; [|discriminate H]. cbn [Base.bind fst] in H. apply ok_inj in H.
    specialize (IH rs n r eq_refl). destruct (aget n0 rs) eqn:A; subst routers; [exact (IH G)|].
    cbn in G. destruct (eqb n n0) eqn:EN; [|exact (IH G)]. apply (proj1 (eqb_true _ _)) in EN. subst n.
    unfold sp_router in E. destruct (split1 ":" g) as [[a b]|] eqn:S; [|discriminate E]. destruct (split1 ":" b) as [[a' b']|]; [|discriminate E]. apply ok_inj in E. injection E as <- _.
    exact (proj2 (split1_Some _ _ _ _ S)). }
  intros ids gs routers net pm cid sp sl dp dl H C.
  assert (N : aget (remove_all ":topology" 0 net) routers = None).
  { destruct (aget _ routers) as [r|] eqn:E; [|reflexivity]. rewrite (K _ _ _ _ H E) in C. discriminate C. }
  split; [intros id ip R; unfold space_router in R; congruence|]. intros cs X. cbn in X. unfold via_targets in X.
  destruct (mx_target pm sp sl) as [s|]; [|discriminate X]. cbn [Base.bind] in X. destruct (mx_target pm dp dl) as [d|]; [|discriminate X]. cbn [Base.bind] in X.
  unfold sp_generate, sp_transit, sp_remote, sp_local, sp_tunnel, sp_device in X. rewrite N in X. cbn [Base.bind] in X.
  repeat match type of X with context [match ?x with _ => _ end] => destruct x; try discriminate X end.
Qed.
Print Assumptions C92_network_names_refuted.
(** The network of the developer guide. *)
Example C92_network_names_ex : shas ":" (remove_all ":topology" 0 "dockertest.net:2021:topology") = true /\
  sp_routers ["dockertest.net:2021:2001:10.0.0.1"] = Ok [("dockertest.net", mkSRouter "2021" "2001:10.0.0.1")].
Proof. split; reflexivity. Qed.
