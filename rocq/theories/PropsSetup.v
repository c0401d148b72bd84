(** C72, C73, C74: setting up a service, publishing its description, and
    learning from descriptions. *)
From Verif Require Import Base BaseProofs ModelXml ModelSTP ModelNRM ModelLinkVector SpecLinkVector ModelProvreg ModelDiscovery SpecDiscovery
  ModelConfig SpecConfig ProofsConfig ModelSetup SpecSetup ProofsSetup ProofsLearn.
Open Scope Z_scope.

(** ** C72 *)

(** A configuration file gives every backend a name of its own. *)
Theorem C72_names : forall ex c v, file_ok c -> load_config ex c = Ok v -> NoDup (map fst (vc_backends v)).
Proof. intros ex c v H E. exact (proj1 (ct_backends _ _ (c71_contents ex c v H E))). Qed.
Print Assumptions C72_names.
(** The backends are set up exactly when each has a name, a map that can be
    read, a kind with a constructor that succeeds, and no port to another
    network has path vectors. *)
Theorem C72_starts : forall file_lines construct domain bs, NoDup (map fst bs) ->
  (exists s, setup_backends file_lines construct domain bs = Ok s) <->
  exists nets, Forall2 (network_of file_lines construct domain) bs nets /\ forall n ps, In (n, ps) nets -> plain_ports ps.
Proof. exact c72_starts. Qed.
Print Assumptions C72_starts.
(** The whole service then starts unless there are no backends or the address
    of a peer is not http. *)
Theorem C72_service : forall file_lines construct domain v fqdn version now, NoDup (map fst (vc_backends v)) ->
  match setup_service file_lines construct domain v fqdn version now with
  | Ok (s, pol, doc) => setup_backends file_lines construct domain (vc_backends v) = Ok s /\ pol = vc_policy v /\
      discovery_xml domain v fqdn version now s (sv_prov s) = Ok doc /\
      vc_backends v <> [] /\ forall l, vc_peers v = Some l -> forall u, In u l -> starts_with "http" u = true
  | Err e => vc_backends v = [] \/ setup_backends file_lines construct domain (vc_backends v) = Err e \/
      exists l u, vc_peers v = Some l /\ In u l /\ starts_with "http" u = false
  end.
Proof. exact c72_service. Qed.
Print Assumptions C72_service.
(** Every backend serves the network domain:name with its own ports, and is the
    provider of it under the agent's urn; there are no other networks. *)
Theorem C72_networks : forall file_lines construct domain bs s nets, NoDup (map fst bs) ->
  setup_backends file_lines construct domain bs = Ok s -> Forall2 (network_of file_lines construct domain) bs nets ->
  (forall i net ps, nth_error nets i = Some (net, ps) ->
     aget net (sv_nets s) = Some (i, ps) /\ In net (lv_local (sv_lv s)) /\
     aget net (pr_providers (sv_prov s)) = Some i /\ get_provider_urn net (sv_prov s) = Ok (URN_NETWORK +++ domain +++ ":nsa")) /\
  (forall net, ~ In net (map fst nets) ->
     aget net (sv_nets s) = None /\ ~ In net (lv_local (sv_lv s)) /\ aget net (pr_providers (sv_prov s)) = None /\
     get_provider_urn net (sv_prov s) = Err EKey).
Proof. exact c72_networks. Qed.
Print Assumptions C72_networks.
(** A port is found under its network and name; of several ports of a name it
    is the last. *)
Theorem C72_ports : forall file_lines construct domain bs s nets, NoDup (map fst bs) ->
  setup_backends file_lines construct domain bs = Ok s -> Forall2 (network_of file_lines construct domain) bs nets -> forall net name p,
  (exists d, aget net (sv_ports s) = Some d /\ aget name d = Some p) <-> exists ps, In (net, ps) nets /\ port_named ps name p.
Proof. exact c72_ports. Qed.
Print Assumptions C72_ports.
(** The vectors of the ports are the configured links, at cost one. *)
Theorem C72_links : forall file_lines construct domain bs s nets, NoDup (map fst bs) ->
  setup_backends file_lines construct domain bs = Ok s -> Forall2 (network_of file_lines construct domain) bs nets -> forall u p v c,
  edge (lv_table (sv_lv s)) u p v c <-> c = 1 /\ configured nets u p v.
Proof. exact c72_links. Qed.
Print Assumptions C72_links.
(** A route between networks is a shortest chain of configured links, if one of
    at most five links exists. *)
Theorem C72_routes : forall file_lines construct domain bs s nets, NoDup (map fst bs) ->
  setup_backends file_lines construct domain bs = Ok s -> Forall2 (network_of file_lines construct domain) bs nets ->
  forall dst src, In src (map fst nets) -> dst <> src ->
  (exists hops, lv_path dst src (sv_lv s) = Ok (Some hops) /\ chain nets src dst hops /\ (List.length hops <= 5)%nat /\
     forall hops', chain nets src dst hops' -> (List.length hops <= List.length hops')%nat) \/
  (lv_path dst src (sv_lv s) = Ok None /\ forall hops, chain nets src dst hops -> (5 < List.length hops)%nat).
Proof. exact c72_routes. Qed.
Print Assumptions C72_routes.
(** A network at the other end of a port is reached directly. *)
Theorem C72_neighbour : forall file_lines construct domain bs s nets, NoDup (map fst bs) ->
  setup_backends file_lines construct domain bs = Ok s -> Forall2 (network_of file_lines construct domain) bs nets ->
  forall net port r, configured nets net port r -> r <> net -> exists port',
  lv_path r net (sv_lv s) = Ok (Some [(net, port')]) /\ lv_vector r net (sv_lv s) = Ok (Some (net, port')) /\ configured nets net port' r.
Proof. exact c72_neighbour. Qed.
Print Assumptions C72_neighbour.

(** an example: two backends of nordu.net *)
Definition fl (f : string) : option (list string) :=
  if eqb f "/mx" then Some ["ethernet ps - vlan:1780-1789 1000 em0 -"; "ethernet uva uva.net:topo#nordu-(in|out) vlan:1-99 500 em1 -";
                            "ethernet ex nordu.net:ex#mx-(in|out) vlan:1-99 500 em2 -"]
  else if eqb f "/ex" then Some ["ethernet mx nordu.net:mx#ex-(in|out) vlan:1-99 500 e1 -"; "ethernet mx - vlan:7 500 e2 -"]
  else if eqb f "/pv" then Some ["ethernet uva uva.net:topo#nordu-(in|out) vlan:1-99 500 em1 vector=sunet:topo@2"] else None.
Definition con (kind : string) (options : list (string * string)) : option exn := None.
Definition bs_ex : list backend := [("mx", ("junosmx", [("nrmmap", "/mx")])); ("ex", ("junosex", [("nrmmap", "/ex")]))].
Lemma bs_nodup : NoDup (map fst bs_ex).
Proof. repeat constructor; cbn; intuition congruence. Qed.
Definition vc (peers : option (list string)) (bs : list backend) : vconf :=
  mkVC "nordu.net" "" None true peers (Some "nsi.nordu.net") true 9443 None None None [] None "" "" None "" None "" true None [] bs.
Definition look (r : result service) :=
  match r with
  | Ok s => Some (map fst (sv_nets s), map (fun n => (fst n, map (fun p => (fst p, p_interface (snd p))) (snd n))) (sv_ports s),
                  lv_path "uva.net:topo" "nordu.net:ex" (sv_lv s), pr_providers (sv_prov s))
  | Err _ => None
  end.
Example C72_ex : look (setup_backends fl con "nordu.net" bs_ex) =
  Some (["nordu.net:mx"; "nordu.net:ex"],
        [("nordu.net:mx", [("ps", "em0"); ("uva", "em1"); ("ex", "em2")]); ("nordu.net:ex", [("mx", "e2")])],
        Ok (Some [("nordu.net:ex", "mx"); ("nordu.net:mx", "uva")]), [("nordu.net:mx", 0%nat); ("nordu.net:ex", 1%nat)]).
Proof. vm_compute. reflexivity. Qed.
Lemma ex_nets : exists s nets, setup_backends fl con "nordu.net" bs_ex = Ok s /\ Forall2 (network_of fl con "nordu.net") bs_ex nets /\
  configured nets "nordu.net:mx" "uva" "uva.net:topo".
Proof.
  assert (E : exists s, setup_backends fl con "nordu.net" bs_ex = Ok s) by (eexists; vm_compute; reflexivity).
  destruct (proj1 (C72_starts _ _ _ _ bs_nodup) E) as (nets & Hf & _). destruct E as [s E]. exists s, nets. split; [exact E|]. split; [exact Hf|].
  inversion Hf as [|b e r1 r2 H1 H2 E1 E2]; subst. destruct e as [n ps]. destruct H1 as [Hn (_ & (f & ls & A1 & A2 & A3) & _)]. cbn [fst snd] in *.
  vm_compute in A1. injection A1 as <-. vm_compute in A2. injection A2 as <-. vm_compute in A3. injection A3 as <-.
  eexists. eexists. split; [left; rewrite Hn; reflexivity|]. split; [right; left; reflexivity|]. split; reflexivity.
Qed.
Example C72_neighbour_ex : exists s, setup_backends fl con "nordu.net" bs_ex = Ok s /\
  lv_path "uva.net:topo" "nordu.net:mx" (sv_lv s) = Ok (Some [("nordu.net:mx", "uva")]).
Proof. eexists. split; vm_compute; reflexivity. Qed.

(** A map with path vectors, which [parse_port_spec] accepts, stops the setup
    with a TypeError. *)
Theorem C72_path_vectors_refuted :
  ~ (forall file_lines construct domain bs nets, NoDup (map fst bs) -> Forall2 (network_of file_lines construct domain) bs nets ->
     exists s, setup_backends file_lines construct domain bs = Ok s).
Proof.
  intros H. destruct (H fl con "nordu.net" [("mx", ("junosmx", [("nrmmap", "/pv")]))]
    [("nordu.net:mx", match parse_port_spec ["ethernet uva uva.net:topo#nordu-(in|out) vlan:1-99 500 em1 vector=sunet:topo@2"] with Ok p => p | Err _ => [] end)]) as [s E].
  - repeat constructor. intros [].
  - constructor; [|constructor]. split; [reflexivity|]. split; [discriminate|]. split; [|split; [right; left; reflexivity|reflexivity]].
    eexists. eexists. split; [reflexivity|]. split; [reflexivity|]. vm_compute. reflexivity.
  - vm_compute in E. discriminate.
Qed.
Print Assumptions C72_path_vectors_refuted.
(** Without backends ("aggregator-only mode", setup.py:219-222) the setup ends
    with a KeyError. *)
Theorem C72_aggregator_only_refuted : forall file_lines construct domain v fqdn version now,
  vc_backends v = [] -> (forall l, vc_peers v = Some l -> forall u, In u l -> starts_with "http" u = true) ->
  setup_service file_lines construct domain v fqdn version now = Err EKey.
Proof.
  intros fl0 con0 dom v fqdn ver now E Hp. unfold setup_service. rewrite E. cbn [setup_backends setup_all Base.bind].
  unfold fetcher_init. destruct (vc_peers v) as [l|]; [|reflexivity]. specialize (Hp l eq_refl).
  rewrite (proj2 (forallb_forall _ _) Hp). reflexivity.
Qed.
Print Assumptions C72_aggregator_only_refuted.
(** The policies of a service without backends are the configured ones, and
    those of an aggregator; the other services keep what is configured. *)
Theorem C72_policies : forall bs policy p,
  In p (setup_policy bs policy) <-> In p policy \/ (bs = [] /\ p = "aggregator").
Proof. exact c72_policies. Qed.
Print Assumptions C72_policies.
(** Further ways not to start: no such file (an AttributeError, not a
    ConfigurationError), peers on lines of their own, the kind 'asyncfail'. *)
Example C72_no_start :
  setup_backends fl con "nordu.net" [("mx", ("junosmx", [("nrmmap", "/none")]))] = Err EAttribute /\
  setup_service fl con "nordu.net" (vc (Some [""; "http://uva.net"]) bs_ex) "h" "v" "t" = Err EAssertion /\
  setup_backends fl con "nordu.net" [("mx", ("asyncfail", [("nrmmap", "/mx")]))] = Err EConfiguration /\
  setup_backends fl con "nordu.net" [("", ("dud", [("nrmmap", "/mx")]))] = Err EConfiguration.
Proof. vm_compute. repeat split; reflexivity. Qed.
(** A backend called 'nsa' is set up, but its provider is never found. *)
Example C72_nsa : match setup_backends fl con "nordu.net" [("nsa", ("dud", [("nrmmap", "/mx")]))] with
                  | Ok s => Some (get_provider "nordu.net:nsa" (sv_prov s), aget "nordu.net:nsa" (pr_providers (sv_prov s)))
                  | Err _ => None end = Some (Err EValue, Some 0%nat).
Proof. vm_compute. reflexivity. Qed.

(** ** C73 *)

(** What a peer makes of the published XML is what it makes of a description
    that says the agent's urn, its endpoint, its networks, and no reachability. *)
Theorem C73_read : forall domain v fqdn version now s p doc, discovery_xml domain v fqdn version now s p = Ok doc ->
  exists d, describes d (URN_NETWORK +++ domain +++ ":nsa") (endpoint v fqdn) (map fst (sv_nets s)) /\
    forall pt x, got_xml pt (wire doc) x = got_document pt d x.
Proof.
  intros domain v fqdn version now s p doc H. exists (doc_of domain v fqdn s). split; [apply doc_describes|].
  intros pt x. exact (c73_read domain v fqdn version now s p doc pt x H).
Qed.
Print Assumptions C73_read.
(** Every published interface is under the address the service is reached under. *)
Theorem C73_addresses : forall domain v fqdn version now s p doc at_, discovery_xml domain v fqdn version now s p = Ok doc -> address v fqdn at_ ->
  endpoint v fqdn = at_ +++ "/NSI/services/CS2" /\
  findall "interface" doc = map (fun i => Elem "interface" [] None [leaf "type" (Some (fst i)); leaf "href" (Some (at_ +++ snd i))])
    ([("application/vnd.ogf.nsi.cs.v2.provider+soap", "/NSI/services/CS2"); ("application/vnd.org.ogf.nsi.cs.v2+soap", "/NSI/services/CS2")] ++
     (if vc_rest v then [("application/vnd.net.nordu.opennsa+rest", "/connections")] else []) ++
     map (fun n => ("application/vnd.ogf.nsi.topology.v2+xml", "/NSI/" +++ fst n +++ ".nml.xml")) (sv_nets s)).
Proof. exact c73_addresses. Qed.
Print Assumptions C73_addresses.
(** There is always such an address. *)
Theorem C73_address_known : forall v fqdn, exists a, address v fqdn a /\ forall b, address v fqdn b -> b = a.
Proof. exact address_known. Qed.
Print Assumptions C73_address_known.
(** The published peers are the agents with a provider, each once, except the
    agent itself. *)
Theorem C73_peers : forall domain v fqdn version now s p doc, discovery_xml domain v fqdn version now s p = Ok doc ->
  exists l, NoDup l /\ findall "peersWith" doc = map (fun u => leaf "peersWith" (Some u)) l /\
    forall u, In u l <-> u <> URN_NETWORK +++ domain +++ ":nsa" /\ exists n, In (n, u) (pr_urns p).
Proof. exact c73_peers. Qed.
Print Assumptions C73_peers.
(** The document itself: what kind it is, whose it is, the networks as urns, and
    the roles: of an agent with networks, and of one that has peers. *)
Theorem C73_document : forall domain v fqdn version now s p doc, discovery_xml domain v fqdn version now s p = Ok doc ->
  e_tag doc = "{http://schemas.ogf.org/nsi/2014/02/discovery/nsa}nsa" /\
  e_get "id" doc = Some ("urn:ogf:network:" +++ domain +++ ":nsa") /\ e_get "version" doc = Some now /\
  findtext "name" doc = Some domain /\ findtext "softwareVersion" doc = Some version /\ findtext "startTime" doc = Some now /\
  map e_text (findall "networkId" doc) = map (fun n => Some ("urn:ogf:network:" +++ fst n)) (sv_nets s) /\
  (forall f, In f (findall "feature" doc) <->
     (f = Elem "feature" [("type", "vnd.ogf.nsi.cs.v2.role.uPA")] None [] /\ sv_nets s <> []) \/
     (f = Elem "feature" [("type", "vnd.ogf.nsi.cs.v2.role.aggregator")] None [] /\ exists u l, vc_peers v = Some (u :: l))).
Proof.
  intros domain v fqdn version now s p doc H. unfold discovery_xml in H. destruct (peers_with domain p) as [peers|e]; cbn [Base.bind] in H; [|discriminate].
  apply ok_inj in H. subst doc. split; [reflexivity|]. split; [reflexivity|]. split; [reflexivity|].
  split; [reflexivity|]. split; [reflexivity|]. split; [reflexivity|]. unfold findall. cbn [e_kids]. rewrite !filter_app.
  rewrite !(filter_tag (fun x => leaf "networkId" (Some (URN_NETWORK +++ fst x))) _ "networkId") by reflexivity.
  rewrite !(filter_tag interface_xml _ "interface") by reflexivity.
  rewrite !(filter_tag feature_xml _ "feature") by reflexivity.
  rewrite !(filter_tag (fun x => leaf "peersWith" (Some x)) _ "peersWith") by reflexivity.
  change (eqb "networkId" "networkId") with true. change (eqb "interface" "networkId") with false.
  change (eqb "feature" "networkId") with false. change (eqb "peersWith" "networkId") with false. change (eqb "feature" "feature") with true.
  change (eqb "networkId" "feature") with false. change (eqb "interface" "feature") with false. change (eqb "peersWith" "feature") with false.
  cbv iota. rewrite !app_nil_r. cbn [app]. split.
  - cbn [filter]. change (eqb (e_tag (leaf "name" (Some domain))) "networkId") with false. change (eqb (e_tag (leaf "softwareVersion" (Some version))) "networkId") with false.
    change (eqb (e_tag (leaf "startTime" (Some now))) "networkId") with false. cbv iota. cbn [app]. rewrite map_map. reflexivity.
  - intros f. change (filter (fun k => eqb (e_tag k) "feature") [leaf "name" (Some domain); leaf "softwareVersion" (Some version); leaf "startTime" (Some now)]) with (@nil element).
    cbn [app]. unfold features. rewrite map_app, in_app_iff. assert (Or : forall A B C D : Prop, (A <-> B) -> (C <-> D) -> (A \/ C <-> B \/ D)) by tauto. apply Or; clear Or.
    + destruct (sv_nets s) as [|n ns]; cbn [map In]; split.
      * intros [].
      * intros [_ N]. exact (N eq_refl).
      * intros [<-|[]]. split; [reflexivity|discriminate].
      * intros [-> _]. left. reflexivity.
    + destruct (vc_peers v) as [[|u l]|]; cbn [map In]; split; try (intros []; fail); try (intros [_ (u' & l' & X)]; discriminate X).
      * intros [<-|[]]. split; [reflexivity|]. exists u, l. reflexivity.
      * intros [-> _]. left. reflexivity.
Qed.
Print Assumptions C73_document.
(** Reading: the document of an agent with these networks, interfaces and
    reachable networks with their costs is taken for the description that says just
    that (then C48 and C74 say what is learned from it); other documents, and
    costs that are not numbers, change nothing. *)
Definition document_of (d : document) (topology : string) : element :=
  Elem "{http://schemas.ogf.org/nsi/2014/02/discovery/nsa}nsa" [("id", d_id d)] None
    (map (fun n => Elem "networkId" [] (Some n) []) (d_networks d) ++
     map (fun i => Elem "interface" [] None [Elem "type" [] (Some (fst i)) []; Elem "href" [] (Some (snd i)) []]) (d_interface d) ++
     [Elem "other" [] None [Elem "{http://nordu.net/namespaces/2013/12/gnsbod}TopologyReachability" [] None
        (map (fun t => Elem topology [("id", fst t); ("cost", py_str (snd t))] None []) (d_reach d))]]).
Theorem C73_understood : forall pt d topology s, d_interface d <> [] -> got_xml pt (document_of d topology) s = got_document pt d s.
Proof.
  intros pt d topology s N. rewrite <- (got_description_document pt d s N). unfold got_xml.
  assert (R : mapM topology_build (map (fun t => Elem topology [("id", fst t); ("cost", py_str (snd t))] None []) (d_reach d)) = Ok (map (fun t => (Some (fst t), snd t)) (d_reach d))).
  { induction (d_reach d) as [|[i c] l IH]; [reflexivity|]. cbn [map mapM fst snd]. unfold topology_build at 1.
    change (e_get "cost" (Elem topology [("id", i); ("cost", py_str c)] None [])) with (Some (py_str c)). cbv iota. rewrite BaseProofs.py_int_str. cbn [Base.bind]. rewrite IH. reflexivity. }
  assert (E : discovery_parse (document_of d topology) = Ok (mkDescr (Some (d_id d)) (map Some (d_networks d))
    (Some (map (fun i => (Some (fst i), Some (snd i))) (d_interface d))) (Some [Some (map (fun t => (Some (fst t), snd t)) (d_reach d))]))).
  { unfold discovery_parse, document_of. cbn [e_tag]. change (eqb _ T_NSA) with true. cbv iota. unfold nsa_build, findall. cbn [e_kids]. rewrite !filter_app.
    rewrite !(filter_tag (fun n => Elem "networkId" [] (Some n) []) _ "networkId") by reflexivity.
    rewrite !(filter_tag (fun i => Elem "interface" [] None [Elem "type" [] (Some (fst i)) []; Elem "href" [] (Some (snd i)) []]) _ "interface") by reflexivity.
    change (eqb "networkId" "networkId") with true. change (eqb "interface" "networkId") with false. change (eqb "networkId" "interface") with false.
    change (eqb "interface" "interface") with true. change (eqb "networkId" "other") with false. change (eqb "interface" "other") with false.
    cbv iota. cbn [filter app]. cbn [e_tag]. change (eqb "other" "other") with true. change (eqb "other" "networkId") with false. change (eqb "other" "interface") with false.
    cbv iota. rewrite !app_nil_r. cbn [mapM]. unfold holder_build, find1, findall. cbn [e_kids filter e_tag].
    change (eqb _ T_REACH) with true. cbv iota. cbn [e_kids]. rewrite R. cbn [Base.bind]. rewrite map_map. cbn [e_text].
    destruct (d_interface d) as [|i l] eqn:Ei; [contradiction|]. cbn [map]. f_equal. f_equal. rewrite map_map. reflexivity. }
  rewrite E. reflexivity.
Qed.
Print Assumptions C73_understood.
Theorem C73_not_understood : forall pt e s, e_tag e <> "{http://schemas.ogf.org/nsi/2014/02/discovery/nsa}nsa" -> exists x, got_xml pt e s = (s, Some x).
Proof. intros pt e s N. unfold got_xml, discovery_parse. rewrite (eqb_neq (e_tag e) T_NSA) by exact N. eauto. Qed.
Print Assumptions C73_not_understood.
(** Any description whose texts are all there is read as the model of C48 has it. *)
Theorem C73_any : forall pt d s, d_interface d <> [] ->
  got_description pt (mkDescr (Some (d_id d)) (map Some (d_networks d)) (Some (map (fun i => (Some (fst i), Some (snd i))) (d_interface d)))
                        (Some [Some (map (fun t => (Some (fst t), snd t)) (d_reach d))])) s = got_document pt d s.
Proof. exact got_description_document. Qed.
Print Assumptions C73_any.

(** ** C74 *)

(** After any descriptions, the vectors of a service are the configured links
    at cost one, and what the first description that says so says of a network. *)
Theorem C74_routes : forall file_lines construct domain bs s nets, NoDup (map fst bs) ->
  setup_backends file_lines construct domain bs = Ok s -> Forall2 (network_of file_lines construct domain) bs nets ->
  forall docs u p v c, edge (lv_table (dc_vec (read_documents s docs))) u p v c <->
  (c = 1 /\ configured nets u p v) \/ (~ configured nets u p v /\ learned nets docs u p v c).
Proof. exact c74_edges. Qed.
Print Assumptions C74_routes.
(** No description takes a network from its backend. *)
Theorem C74_backends : forall file_lines construct domain bs s nets, NoDup (map fst bs) ->
  setup_backends file_lines construct domain bs = Ok s -> Forall2 (network_of file_lines construct domain) bs nets ->
  forall docs i net ps, nth_error nets i = Some (net, ps) ->
  aget net (pr_providers (dc_prov (read_documents s docs))) = Some i /\
  get_provider_urn net (dc_prov (read_documents s docs)) = Ok (URN_NETWORK +++ domain +++ ":nsa").
Proof. exact c74_backends. Qed.
Print Assumptions C74_backends.
(** Any other network belongs to the agent whose description was the first to
    list it. *)
Theorem C74_agents : forall file_lines construct domain bs s nets, NoDup (map fst bs) ->
  setup_backends file_lines construct domain bs = Ok s -> Forall2 (network_of file_lines construct domain) bs nets ->
  forall docs m urn, ~ In m (map fst nets) ->
  (get_provider_urn m (dc_prov (read_documents s docs)) = Ok urn <-> claimed docs m urn).
Proof. exact c74_agents. Qed.
Print Assumptions C74_agents.
(** All the networks of another agent have one provider, made for that agent and
    an address from its description. *)
Theorem C74_providers : forall file_lines construct domain bs s nets, NoDup (map fst bs) ->
  setup_backends file_lines construct domain bs = Ok s -> Forall2 (network_of file_lines construct domain) bs nets ->
  forall docs m urn, ~ In m (map fst nets) -> claimed docs m urn -> urn <> URN_NETWORK +++ domain +++ ":nsa" ->
  exists q d url, In d docs /\ usable d /\ d_id d = urn /\ url_of (d_interface d) url /\
    In (q, mkAgent urn (Some CS2_SERVICE_TYPE) (strip url)) (pr_spawned (dc_prov (read_documents s docs))) /\
    forall m', get_provider_urn m' (dc_prov (read_documents s docs)) = Ok urn -> aget m' (pr_providers (dc_prov (read_documents s docs))) = Some q.
Proof. exact c74_providers. Qed.
Print Assumptions C74_providers.
(** After the description of a neighbour, all of the neighbour's networks are
    reached through a port to it. *)
Theorem C74_neighbour : forall file_lines construct domain bs s nets, NoDup (map fst bs) ->
  setup_backends file_lines construct domain bs = Ok s -> Forall2 (network_of file_lines construct domain) bs nets ->
  forall d urn url networks net port r, describes d (URN_NETWORK +++ urn) url networks ->
  configured nets net port r -> In r networks -> forall n, In n networks -> n <> net -> exists port' r',
  lv_path n net (dc_vec (read_documents s [d])) = Ok (Some [(net, port')]) /\ configured nets net port' r' /\ (In r' networks \/ r' = n).
Proof. exact c74_neighbour. Qed.
Print Assumptions C74_neighbour.

(** an example: uva.net has two networks and publishes them *)
Definition fl2 (f : string) : option (list string) := Some ["ethernet nordu nordu.net:mx#uva-(in|out) vlan:1-99 500 em1 -"].
Definition bs2 : list backend := [("topo", ("dud", [("nrmmap", "/a")])); ("lab", ("dud", [("nrmmap", "/b")]))].
Example C73_addresses_ex : address (vc None bs_ex) "h" "https://nsi.nordu.net:9443" /\
  endpoint (vc None bs_ex) "h" = "https://nsi.nordu.net:9443/NSI/services/CS2".
Proof. split; [apply (at_host (vc None bs_ex) "h" "nsi.nordu.net"); left; reflexivity|reflexivity]. Qed.
Example C73_ex : match setup_service fl2 con "uva.net" (vc (Some ["https://nsi.nordu.net"]) bs2) "h" "v" "t", setup_backends fl con "nordu.net" bs_ex with
  | Ok (_, _, doc), Ok s =>
      let '(x, e) := got_xml (fetcher_table s) (wire doc) (fetcher_state s) in
      Some (e, lv_path "uva.net:lab" "nordu.net:mx" (dc_vec x), lv_path "uva.net:lab" "nordu.net:ex" (dc_vec x),
            get_provider_urn "uva.net:lab" (dc_prov x), pr_spawned (dc_prov x))
  | _, _ => None end =
  Some (None, Ok (Some [("nordu.net:mx", "uva")]), Ok (Some [("nordu.net:ex", "mx"); ("nordu.net:mx", "uva")]),
        Ok "urn:ogf:network:uva.net:nsa",
        [(2%nat, mkAgent "urn:ogf:network:uva.net:nsa" (Some CS2_SERVICE_TYPE) "https://nsi.nordu.net:9443/NSI/services/CS2")]).
Proof. vm_compute. reflexivity. Qed.
Definition d_uva : document := mkDoc "urn:ogf:network:uva.net:nsa" [(CS2_PROVIDER, "https://uva.net")]
  ["urn:ogf:network:uva.net:topo"; "urn:ogf:network:uva.net:lab"; "urn:ogf:network:nordu.net:mx"] [("urn:ogf:network:surf:net", 1)].
Example C73_understood_ex : d_interface d_uva <> [] /\ match setup_backends fl con "nordu.net" bs_ex with
  | Ok s => let '(x, e) := got_xml (fetcher_table s) (document_of d_uva "{http://nordu.net/namespaces/2013/12/gnsbod}Topology") (fetcher_state s) in
            Some (e, lv_path "surf:net" "nordu.net:mx" (dc_vec x), get_provider_urn "uva.net:lab" (dc_prov x))
  | Err _ => None end = Some (None, Ok (Some [("nordu.net:mx", "uva")]), Ok "urn:ogf:network:uva.net:nsa").
Proof. split; [discriminate|]. vm_compute. reflexivity. Qed.
Lemma d_uva_usable : usable d_uva.
Proof. split; [exists "https://uva.net"; apply (url_provider _ [] _ []); [reflexivity|intros x []]|exists "uva.net:nsa"; reflexivity]. Qed.
(** the hypotheses of C74 are met: nordu.net:mx stays with its backend although
    the description lists it *)
Example C74_ex : exists s nets, setup_backends fl con "nordu.net" bs_ex = Ok s /\ Forall2 (network_of fl con "nordu.net") bs_ex nets /\
  learned nets [d_uva] "nordu.net:mx" "uva" "surf:net" 2 /\ claimed [d_uva] "uva.net:lab" "urn:ogf:network:uva.net:nsa" /\
  aget "nordu.net:mx" (pr_providers (dc_prov (read_documents s [d_uva]))) = Some 0%nat /\
  edge (lv_table (dc_vec (read_documents s [d_uva]))) "nordu.net:mx" "uva" "surf:net" 2.
Proof.
  destruct ex_nets as (s & nets & E & Hf & Hc). exists s, nets. split; [exact E|]. split; [exact Hf|].
  assert (L : learned nets [d_uva] "nordu.net:mx" "uva" "surf:net" 2).
  { exists [], d_uva, []. split; [reflexivity|]. split; [|intros ? ? []]. split; [exact d_uva_usable|]. split.
    - exists "uva.net:topo". split; [exact Hc|left; reflexivity].
    - apply (want_other d_uva "surf:net" 1); [intros [H|[H|[H|[]]]]; discriminate|]. exists [], []. split; [reflexivity|intros c []]. }
  split; [exact L|]. split.
  - exists [], d_uva, []. split; [reflexivity|]. split; [exact d_uva_usable|]. split; [right; left; reflexivity|]. split; [reflexivity|intros ? []].
  - assert (Es : setup_backends fl con "nordu.net" bs_ex = Ok s) by exact E. vm_compute in E. injection E as <-. split; [vm_compute; reflexivity|].
    vm_compute. eexists. split; reflexivity.
Qed.
(** A description with the agent's own urn makes a backend the provider of the
    networks it lists: the exception of C74_providers. *)
Example C74_own_urn : match setup_backends fl con "nordu.net" bs_ex with
  | Ok s => let x := read_documents s [mkDoc "urn:ogf:network:nordu.net:nsa" [(CS2_PROVIDER, "https://evil.net")] ["urn:ogf:network:evil:net"] []] in
            Some (aget "evil:net" (pr_providers (dc_prov x)), pr_spawned (dc_prov x))
  | Err _ => None end = Some (Some 0%nat, []).
Proof. vm_compute. reflexivity. Qed.
