(** What setting up a service should achieve. *)
From Verif Require Import Base ModelSTP ModelNRM ModelLinkVector ModelProvreg ModelDiscovery SpecDiscovery ModelConfig ModelSetup.
Open Scope Z_scope.

(** a configured backend: its name, its kind and its options *)
Definition backend := (string * (string * list (string * string)))%type.
(** a backend has a name, a map of ports that exists and can be read, and can be made *)
Definition backend_ok (file_lines : string -> option (list string)) (construct : string -> list (string * string) -> option exn)
    (b : backend) (ports : list nrm_port) : Prop :=
  let '(name, (kind, options)) := b in
  name <> "" /\ (exists f ls, aget "nrmmap" options = Some f /\ file_lines f = Some ls /\ parse_port_spec ls = Ok ports) /\
  In kind ["dud"; "junosmx"; "force10"; "juniperex"; "junipervpls"; "brocade"; "ncsvpn"; "pica8ovs"; "junosspace"; "junosex"; "oess"; "custombackend"] /\
  construct kind options = None.
(** no port to another network has path vectors *)
Definition plain_ports (ports : list nrm_port) : Prop := forall p, In p ports -> p_remote_network p <> None -> p_vectors p = [].
(** the last port of a map with a name *)
Definition port_named (ports : list nrm_port) (name : string) (p : nrm_port) : Prop :=
  exists a b, ports = a ++ p :: b /\ p_name p = name /\ forall q, In q b -> p_name q <> name.
(** a configured connection to another network *)
Definition configured (nets : list (string * list nrm_port)) (u p v : string) : Prop :=
  exists ports np, In (u, ports) nets /\ In np ports /\ p_name np = p /\ p_remote_network np = Some v.
(** the network of a backend, and its ports *)
Definition network_of (file_lines : string -> option (list string)) (construct : string -> list (string * string) -> option exn)
    (domain : string) (b : backend) (e : string * list nrm_port) : Prop :=
  fst e = domain +++ ":" +++ fst b /\ backend_ok file_lines construct b (snd e).
(** a chain of ports, each configured to lead to the network of the next *)
Inductive chain (nets : list (string * list nrm_port)) : string -> string -> list (string * string) -> Prop :=
| chain_one u p v : configured nets u p v -> chain nets u v [(u, p)]
| chain_more u p v w hops : configured nets u p v -> chain nets v w hops -> chain nets u w ((u, p) :: hops).

(** ** the description of an agent *)

(** the address a service is reached under: the configured one, or the one of
    the host and port it listens on *)
Inductive address (v : vconf) (fqdn : string) : string -> Prop :=
| at_configured u : vc_base_url v = Some u -> u <> "" -> address v fqdn u
| at_host h : (vc_base_url v = None \/ vc_base_url v = Some "") -> (vc_host v = Some h \/ (vc_host v = None /\ h = fqdn)) ->
    address v fqdn ((if vc_tls v then "https" else "http") +++ "://" +++ h +++ ":" +++ py_str (vc_port v)).
(** an agent whose description is not empty of what a peer needs *)
Definition describes (doc : document) (urn url : string) (networks : list string) : Prop :=
  d_id doc = urn /\ url_of (d_interface doc) url /\ (forall n, own_network doc n <-> In n networks) /\ d_reach doc = [].
(** a description a fetcher can use *)
Definition usable (d : document) : Prop := (exists url, url_of (d_interface d) url) /\ exists i, d_id d = URN_NETWORK +++ i.
(** a port whose other end is in one of the networks of the described agent *)
Definition borders (nets : list (string * list nrm_port)) (d : document) (net port : string) : Prop :=
  exists r, configured nets net port r /\ own_network d r.
(** a description says a cost for a port of ours and a network *)
Definition tells (nets : list (string * list nrm_port)) (d : document) (net port n : string) (c : Z) : Prop :=
  usable d /\ borders nets d net port /\ wanted d n (Some c).
(** the cost said by the first of the descriptions that says one *)
Definition learned (nets : list (string * list nrm_port)) (docs : list document) (net port n : string) (c : Z) : Prop :=
  exists a d b, docs = a ++ d :: b /\ tells nets d net port n c /\ forall d' c', In d' a -> ~ tells nets d' net port n c'.
(** the agent of the first of the descriptions that lists a network as its own *)
Definition claimed (docs : list document) (m urn : string) : Prop :=
  exists a d b, docs = a ++ d :: b /\ usable d /\ own_network d m /\ d_id d = urn /\
                forall d', In d' a -> usable d' -> ~ own_network d' m.
