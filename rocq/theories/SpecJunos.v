(** What a link that is up means on a Juniper router or EX4550 switch: circuit
    cross-connects between interface units, and label switched paths to other
    routers.  Configurations and commands are those of SpecDrivers.v. *)
From Verif Require Import Base ModelLabel ModelAuthz ModelNRM ModelSTP ModelDrivers SpecDrivers.
Open Scope Z_scope.

(** An Ethernet end of a circuit: a whole port, or a VLAN on a port. *)
Inductive cend := CPort (itf : string) | CVlan (itf : string) (v : Z).
Definition e_itf (e : cend) : string := match e with CPort p => p | CVlan p _ => p end.
(** The logical interface of an end. *)
Definition sub (e : cend) : string :=
  match e with CPort p => p +++ ".0" | CVlan p v => p +++ "." +++ py_str v end.

(** The end a port and label stand for; the label is as the port wants it. *)
Definition end_at (pm : list (string * nrm_port)) (port : string) (l : option label) (e : cend) : Prop :=
  exists p, aget port pm = Some p /\
    match p_label p, l with
    | None, None => e = CPort (p_interface p)
    | Some pl, Some l => ltype pl = "vlan" /\ exists v, l = mkLabel "vlan" [(v, v)] /\ e = CVlan (p_interface p) v
    | _, _ => False
    end.

(** An MPLS end: the network on the other side, and the value of the label. *)
Definition mpls_at (pm : list (string * nrm_port)) (port : string) (l : option label) (net : string) (v : Z) : Prop :=
  exists p pl, aget port pm = Some p /\ p_label p = Some pl /\ ltype pl = "mpls" /\ l = Some (mkLabel "mpls" [(v, v)]) /\
    p_remote_network p = Some net.

(** A port that leads to no other network. *)
Definition local_port (pm : list (string * nrm_port)) (port : string) : Prop :=
  exists p, aget port pm = Some p /\ p_remote_network p = None.

(** A router takes traffic in and out at an end. *)
Definition mx_ready (cfg : list path) (e : cend) : Prop :=
  match e with
  | CPort p => In ["interfaces"; p; "encapsulation"; "ethernet-ccc"] cfg /\ In ["interfaces"; p; "unit"; "0"; "family"; "ccc"] cfg
  | CVlan p v =>
      In ["interfaces"; p; "flexible-vlan-tagging"] cfg /\
      In ["interfaces"; p; "encapsulation"; "flexible-ethernet-services"] cfg /\
      In ["interfaces"; p; "unit"; py_str v; "encapsulation"; "vlan-ccc"] cfg /\
      In ["interfaces"; p; "unit"; py_str v; "vlan-id"; py_str v] cfg /\
      In ["interfaces"; p; "unit"; py_str v; "input-vlan-map"; "pop"] cfg /\
      In ["interfaces"; p; "unit"; py_str v; "output-vlan-map"; "push"] cfg
  end.
(** An EX4550 switch does. *)
Definition jx_ready (cfg : list path) (e : cend) : Prop :=
  match e with
  | CPort p => False
  | CVlan p v =>
      In ["interfaces"; p; "vlan-tagging"] cfg /\ In ["interfaces"; p; "encapsulation"; "vlan-ccc"] cfg /\
      In ["interfaces"; p; "unit"; py_str v; "encapsulation"; "vlan-ccc"] cfg /\
      In ["interfaces"; p; "unit"; py_str v; "vlan-id"; py_str v] cfg
  end.

(** Two logical interfaces are cross-connected. *)
Definition switched (cfg : list path) (a b : string) : Prop :=
  exists s, In ["protocols"; "connections"; "interface-switch"; s; "interface"; a] cfg /\
            In ["protocols"; "connections"; "interface-switch"; s; "interface"; b] cfg.

(** A logical interface is connected to a path to another router and one from
    it. *)
Definition tunnelled (cfg : list path) (a out ip inn : string) : Prop :=
  exists s, In ["protocols"; "connections"; "remote-interface-switch"; s; "interface"; a] cfg /\
            In ["protocols"; "connections"; "remote-interface-switch"; s; "transmit-lsp"; out] cfg /\
            In ["protocols"; "connections"; "remote-interface-switch"; s; "receive-lsp"; inn] cfg /\
            In ["protocols"; "mpls"; "label-switched-path"; out; "to"; ip] cfg.

(** A link that is up has these two Ethernet ends. *)
Definition joins (pm : list (string * nrm_port)) (ks : list link) (e e' : cend) : Prop :=
  exists k, In k ks /\
    ((end_at pm (k_sp k) (k_sl k) e /\ end_at pm (k_dp k) (k_dl k) e') \/
     (end_at pm (k_sp k) (k_sl k) e' /\ end_at pm (k_dp k) (k_dl k) e)).
(** A link that is up has this Ethernet end and this MPLS end. *)
Definition leads (pm : list (string * nrm_port)) (ks : list link) (e : cend) (net : string) (v : Z) : Prop :=
  exists k, In k ks /\
    ((end_at pm (k_sp k) (k_sl k) e /\ mpls_at pm (k_dp k) (k_dl k) net v) \/
     (mpls_at pm (k_sp k) (k_sl k) net v /\ end_at pm (k_dp k) (k_dl k) e)).

(** The kinds of links a router can make.  Whole ports only connect to ports
    that lead nowhere else, or to an MPLS port; see C77 for the rest. *)
Inductive mx_kind (pm : list (string * nrm_port)) (k : link) : Prop :=
| kind_local e e' : end_at pm (k_sp k) (k_sl k) e -> end_at pm (k_dp k) (k_dl k) e' ->
    local_port pm (k_sp k) -> local_port pm (k_dp k) -> mx_kind pm k
| kind_vlan p v p' v' : end_at pm (k_sp k) (k_sl k) (CVlan p v) -> end_at pm (k_dp k) (k_dl k) (CVlan p' v') -> mx_kind pm k
| kind_out e net v : end_at pm (k_sp k) (k_sl k) e -> mpls_at pm (k_dp k) (k_dl k) net v ->
    (forall p, e = CPort p -> local_port pm (k_sp k)) -> mx_kind pm k
| kind_in e net v : mpls_at pm (k_sp k) (k_sl k) net v -> end_at pm (k_dp k) (k_dl k) e ->
    (forall p, e = CPort p -> local_port pm (k_dp k)) -> mx_kind pm k.

(** No two ports share an interface, and interfaces have plain names. *)
Definition own_interfaces (pm : list (string * nrm_port)) : Prop :=
  (forall port p, aget port pm = Some p -> word (p_interface p) /\ shas "." (p_interface p) = false) /\
  (forall port port' p p', aget port pm = Some p -> aget port' pm = Some p' -> p_interface p = p_interface p' -> port = port').

(** MPLS ports lead to networks that differ in their first six letters, which
    are all that goes into the name of a path, and those letters have no blank. *)
Definition own_networks (pm : list (string * nrm_port)) : Prop :=
  (forall port p net, aget port pm = Some p -> p_remote_network p = Some net -> word (substring 0 6 net)) /\
  (forall port port' p p' net net', aget port pm = Some p -> aget port' pm = Some p' ->
     p_remote_network p = Some net -> p_remote_network p' = Some net' ->
     substring 0 6 net = substring 0 6 net' -> port = port').

(** What the router had at the start has nothing to do with what OpenNSA makes. *)
Definition junos_fresh (pm : list (string * nrm_port)) (prefix : string) (cfg : list path) : Prop :=
  forall q, In q cfg ->
    (forall port p, aget port pm = Some p -> below ["interfaces"; p_interface p] q = false) /\
    (forall x, below ["protocols"; "connections"; "interface-switch"; prefix +++ x] q = false) /\
    below ["protocols"; "connections"; "remote-interface-switch"] q = false /\
    (forall x, below ["protocols"; "mpls"; "label-switched-path"; "T-" +++ x] q = false).

(** The name of the path from one network to another for a label value. *)
Definition path_name (dst src : string) (v : Z) : string :=
  "T-" +++ substring 0 6 dst +++ "-F-" +++ substring 0 6 src +++ "-mpls" +++ py_str v.
(** The router of a network, by the name of the network without [:topology]. *)
Definition router_of (routers : list (string * string)) (net ip : string) : Prop :=
  aget (remove_all ":topology" 0 net) routers = Some ip.
(** The logical interface of an end as it is given to a tunnel; without a unit it
    is unit 0. *)
Definition tunnel_sub (e : cend) : string := match e with CPort p => p | CVlan p v => p +++ "." +++ py_str v end.
