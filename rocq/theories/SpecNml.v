(** What reading an exported topology should give. *)
From Verif Require Import Base ModelXml ModelLabel SpecLabel ModelAuthz ModelNRM ModelNml.

(** The labels of the configuration that can be exported *)
Definition label_ok (l : option label) : Prop :=
  match l with None => True | Some l => (ltype l = "vlan" \/ ltype l = "mpls") /\ wf_values (lvalues l) end.
Definition ports_ok (ports : list nrm_port) : Prop :=
  NoDup (map p_name ports) /\ forall p, In p ports -> p_name p <> "" /\ label_ok (p_label p).

(** A label as named in NML: the values are kept, the type is the NML name of the type *)
Definition nml_name (t : string) : string :=
  if String.eqb t "vlan" then "http://schemas.ogf.org/nml/2012/10/ethernet#vlan" else "http://nsi.nordu.net/nml#mpls".
Definition nml_port (p : nport) : nport :=
  mkNPort (np_id p) (np_name p) (match np_label p with None => None | Some l => Some (mkLabel (nml_name (ltype l)) (lvalues l)) end) (np_remote p).
(** a bidirectional port: the same pair of ports; its own remote is not exported *)
Definition nml_bport (b : bport) : bport := mkBPort (bp_id b) (bp_name b) (nml_port (bp_in b)) (nml_port (bp_out b)) None.

(** The network a list of configured ports describes: for every port an in and
    an out port named after it, with its label, each an alias of the opposite
    port of the neighbour, and the pair of the two. *)
Definition in_port (net : string) (p : nrm_port) : nport :=
  mkNPort (net +++ ":" +++ p_name p +++ "-in") (p_name p +++ "-in") (p_label p) (p_remote_out p).
Definition out_port (net : string) (p : nrm_port) : nport :=
  mkNPort (net +++ ":" +++ p_name p +++ "-out") (p_name p +++ "-out") (p_label p) (p_remote_in p).
Definition described (net readable : string) (ports : list nrm_port) : network :=
  mkNet net readable (map (in_port net) ports) (map (out_port net) ports)
    (map (fun p => mkBPort (net +++ ":" +++ p_name p) (p_name p) (in_port net p) (out_port net p) (p_remote_port p)) ports).
(** the attribute with which a document's switching services tell whether labels
    can be swapped, by the element's name *)
Fixpoint swapping (e : element) : list (option string) :=
  let 'Elem tag attrs _ kids := e in
  (if String.eqb tag "nml:SwitchingService" then [e_get "labelSwapping" e] else []) ++ flat_map swapping kids.
