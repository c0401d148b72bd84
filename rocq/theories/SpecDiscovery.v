(** What a discovery document says, independently of the code. *)
From Verif Require Import Base ModelSTP ModelLinkVector ModelDiscovery.
Open Scope Z_scope.

(** the agent's own networks: those with a proper URN *)
Definition own_network (d : document) (n : string) : Prop := In (URN_NETWORK +++ n) (d_networks d).
(** the (last) advertised cost of a network *)
Definition advertised (d : document) (n : string) (c : Z) : Prop :=
  exists a b, d_reach d = a ++ (URN_NETWORK +++ n, c) :: b /\ forall c', ~ In (URN_NETWORK +++ n, c') b.
Definition not_advertised (d : document) (n : string) : Prop := forall c, ~ In (URN_NETWORK +++ n, c) (d_reach d).
(** the cost a port next to the agent should have for a network *)
Inductive wanted (d : document) (n : string) : option Z -> Prop :=
| want_own : own_network d n -> wanted d n (Some 1)
| want_other c : ~ own_network d n -> advertised d n c -> wanted d n (Some (c + 1))
| want_none : ~ own_network d n -> not_advertised d n -> wanted d n None.
(** a port of ours whose other end is in one of the agent's networks *)
Definition next_to (pt : port_table) (d : document) (net port : string) : Prop :=
  exists ports r, In (net, ports) pt /\ In (port, Some r) ports /\ own_network d r.

(** the types of interfaces that speak the protocol: of a provider, and the old one *)
Definition provider_interface : string := "application/vnd.ogf.nsi.cs.v2.provider+soap".
Definition old_interface : string := "application/vnd.org.ogf.nsi.cs.v2+soap".
(** the URL to use: the last provider interface, or else the first interface of
    the old type *)
Inductive url_of (ifs : list (string * string)) : string -> Prop :=
| url_provider a u b : ifs = a ++ (provider_interface, u) :: b -> (forall x, ~ In (provider_interface, x) b) -> url_of ifs u
| url_compat a u b : ifs = a ++ (old_interface, u) :: b -> (forall x, ~ In (old_interface, x) a) ->
    (forall x, ~ In (provider_interface, x) ifs) -> url_of ifs u.
