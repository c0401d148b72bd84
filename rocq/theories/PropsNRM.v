(** Property C24: port configuration lines. *)
From Verif Require Import Base ModelLabel ModelAuthz ModelNRM SpecNRM ProofsNRM.

(** an accepted file gives, in file order, one port per content line, as the line says *)
Theorem C24_ports : forall lines ports, parse_port_spec lines = Ok ports -> file_means lines ports.
Proof. exact parse_sound. Qed.
Print Assumptions C24_ports.

(** the meaning of a line is unique (up to the order of the vector table) *)
Theorem C24_functional : forall line p q, line_means line p -> line_means line q -> same_port p q.
Proof. exact c24_functional. Qed.
Print Assumptions C24_functional.

(** exactly the files are accepted all of whose content lines have a meaning *)
Theorem C24_accepts : forall lines,
  (exists ports, parse_port_spec lines = Ok ports) <-> (forall l, In l lines -> content l -> exists p, line_means l p).
Proof. exact c24_accepts. Qed.
Print Assumptions C24_accepts.

(** a wrong number of fields, unknown port type, label type or attribute rejects the file *)
Theorem C24_rejects : forall lines l, In l lines -> content l ->
  ((forall ws, spaced (strip l) ws -> List.length ws <> 7%nat) \/
   (exists ty rest, spaced (strip l) (ty :: rest) /\ ty <> "ethernet") \/
   (exists ty n r t v rest, spaced (strip l) (ty :: n :: r :: (t +++ ":" +++ v) :: rest) /\ shas ":" t = false /\ ~ In t ["vlan"; "mpls"]) \/
   (exists ty n r lb b i texts t, spaced (strip l) [ty; n; r; lb; b; i; join "," texts] /\ join "," texts <> "-" /\
      (forall x, In x texts -> shas "," x = false) /\ In t texts /\ (forall a, ~ attr_means t a))) ->
  exists e, parse_port_spec lines = Err e.
Proof. exact c24_rejects. Qed.
Print Assumptions C24_rejects.

Theorem C24_unknown_attribute : forall k v, shas "=" k = false ->
  ~ In k ["nsa"; "user"; "group"; "token"; "hostdn"; "vector"] -> forall a, ~ attr_means (k +++ "=" +++ v) a.
Proof. exact unknown_attr. Qed.
Print Assumptions C24_unknown_attribute.

Example C24_ex :
  parse_port_spec
    ["# comment"; "  ";
     "ethernet  ps  -  vlan:1780-1783,1790  1000 em0  user=u@x.org,restricttransit";
     "ethernet nl netherlight#nordunet-(in|out) - 500 em1 vector=a:t@2,vector=b:t@3,vector=a:t@7"] =
  Ok [mkPort "ethernet" "ps" None None None None (Some (mkLabel "vlan" [(1780, 1783); (1790, 1790)])) 1000 "em0"
        [mkRule "user" "u@x.org"] [] true;
      mkPort "ethernet" "nl" (Some "netherlight") (Some "nordunet-") (Some "netherlight:nordunet-in")
        (Some "netherlight:nordunet-out") None 500 "em1" [] [("a:t", 7%Z); ("b:t", 3%Z)] false] /\
  parse_port_spec ["ethernet ps - vlan:1 1000 em0 -"; "ether x - - 1 e -"] = Err ETopology /\
  parse_port_spec ["ethernet ps - vlan:1 1000 em0"] = Err ENRMSpecification /\
  parse_port_spec ["ethernet ps - vlan:1 1000 em0 foo=1"] = Err EConfiguration.
Proof. repeat split; reflexivity. Qed.
