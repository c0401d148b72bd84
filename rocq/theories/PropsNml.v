(** C54: exporting and importing topologies. *)
From Verif Require Import Base ModelXml ModelLabel SpecLabel ModelAuthz ModelNRM ModelNml SpecNml ProofsNml.
Open Scope Z_scope.

(** Everything the import reads out of an exported document is right: the id, the
    name, all ports in order with ids, names, remote ports and label values, and
    the pairing of in and out ports.  Missing from the full statement: the label
    types come back under their NML names, the remote of a bidirectional port is
    not exported, and the last step of the import fails (below). *)
Theorem C54_document_contents_partial :
  forall ports net readable n version swap,
  create_network ports net readable = Ok n -> readable <> "" -> ports_ok ports ->
  exists e, topology_xml version swap n = Ok e /\
  parse_parts (wire e) = Ok (net, Some readable, map nml_port (nw_in n), map nml_port (nw_out n), map nml_bport (nw_bi n)).
Proof.
  intros ports net readable n version swap C R P. destruct (create_good _ _ _ _ C R P) as (G & <- & <-).
  destruct (export_ok version swap n G) as (e & E). exists e. split; [exact E|]. exact (parts_round _ _ _ _ G E).
Qed.
Print Assumptions C54_document_contents_partial.

Definition ex_nrm (name : string) (l : option label) : nrm_port :=
  mkPort "ethernet" name (Some "b.net") (Some "b.net:b") (Some "b.net:b-in") (Some "b.net:b-out") l 1000 "eth0" [] [] false.
Definition ex_ports : list nrm_port := [ex_nrm "ps" (Some (mkLabel "vlan" [(1780, 1789); (1800, 1800)])); ex_nrm "plain" None].
Example C54_ex_hypotheses : (exists n, create_network ex_ports "a.net" "A network" = Ok n) /\ ports_ok ex_ports.
Proof.
  split; [eexists; vm_compute; reflexivity|]. split.
  - cbn. constructor; [intros [E|[]]; discriminate E|]. constructor; [intros []|constructor].
  - intros p [<-|[<-|[]]]; (split; [discriminate|]); cbn; [|exact I]. split; [left; reflexivity|]. split; [discriminate|]. split.
    + constructor; [lia|lia|]. constructor. lia.
    + intros lo hi [E|[E|[]]]; injection E as <- <-; lia.
Qed.
Example C54_ex :
  (do! n <- create_network ex_ports "a.net" "A network"; do! e <- topology_xml "v" true n; do! x <- parse_parts (wire e);
   let '(i, nm, ins, outs, bis) := x in Ok (i, nm, map np_id ins, map np_remote outs, map (fun b => (bp_name b, np_name (bp_in b), np_name (bp_out b))) bis)) =
  Ok ("a.net", Some "A network", ["a.net:ps-in"; "a.net:plain-in"], [Some "b.net:b-in"; Some "b.net:b-in"],
      [("ps", "ps-in", "ps-out"); ("plain", "plain-in", "plain-out")]).
Proof. vm_compute. reflexivity. Qed.

(** What is exported is the network that the configured ports describe: an in
    and an out port per configured port with its label, the in port an alias of
    the neighbour's out port and the other way round, and their pairing. *)
Theorem C54_described : forall ports net readable n,
  create_network ports net readable = Ok n -> n = described net readable ports.
Proof. exact create_described. Qed.
Print Assumptions C54_described.
Example C54_described_ex :
  match create_network ex_ports "a.net" "A network" with
  | Ok n => map (fun p => (np_id p, np_remote p)) (nw_in n) ++ map (fun p => (np_id p, np_remote p)) (nw_out n)
  | Err _ => []
  end = [("a.net:ps-in", Some "b.net:b-out"); ("a.net:plain-in", Some "b.net:b-out"); ("a.net:ps-out", Some "b.net:b-in"); ("a.net:plain-out", Some "b.net:b-in")].
Proof. vm_compute. reflexivity. Qed.

(** The document says, once, whether labels can be swapped. *)
Theorem C54_label_swapping : forall version swap n e, topology_xml version swap n = Ok e ->
  swapping (wire e) = [Some (if swap then "true" else "false")].
Proof. exact export_swap. Qed.
Print Assumptions C54_label_swapping.

(** The import itself never succeeds, on any document: the port lists are handed
    over as dictionary views, which the network's constructor rejects. *)
Theorem C54_import_refuted :
  (forall e n, parse_topology e <> Ok n) /\
  ~ (forall ports net readable n version swap, create_network ports net readable = Ok n -> readable <> "" -> ports_ok ports ->
     exists e, topology_xml version swap n = Ok e /\ parse_topology (wire e) = Ok n).
Proof.
  assert (forall e n, parse_topology e <> Ok n) as K.
  { intros e n. destruct (import_fails e) as [E|(x & E)]; rewrite E; discriminate. }
  split; [exact K|]. intros H. destruct C54_ex_hypotheses as ((n & C) & P).
  destruct (H ex_ports "a.net" "A network" n "v" true C ltac:(discriminate) P) as (e & _ & E). exact (K _ _ E).
Qed.
Print Assumptions C54_import_refuted.

(** Even the parts differ: a label's type does not come back. *)
Theorem C54_label_type_refuted :
  exists ports net readable n e, create_network ports net readable = Ok n /\ ports_ok ports /\ topology_xml "v" true n = Ok e /\
  match parse_parts (wire e) with Ok (_, _, ins, _, _) => map np_label ins <> map np_label (nw_in n) | Err _ => False end.
Proof.
  destruct C54_ex_hypotheses as ((n & C) & P). exists ex_ports, "a.net", "A network".
  vm_compute in C. eexists. eexists. split; [vm_compute; reflexivity|]. split; [exact P|]. split; [vm_compute; reflexivity|].
  vm_compute. discriminate.
Qed.
Print Assumptions C54_label_type_refuted.
