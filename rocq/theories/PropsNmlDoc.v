(** C100: topology documents say what NML requires and are read so. *)
From Verif Require Import Base BaseProofs ModelXml ModelLabel SpecLabel ModelAuthz ModelNRM ModelNml SpecNml ProofsNml SpecNmlDoc ProofsNmlDoc PropsNml.
Open Scope Z_scope.

(** The document of a configured network says exactly its ports, with labels and
    aliases, the pairs of them, the switching service and its definition. *)
Theorem C100_written : forall ports net readable n version swap,
  create_network ports net readable = Ok n -> readable <> "" -> ports_ok ports ->
  exists e, topology_xml version swap n = Ok e /\
  topology_says (wire e) net readable (map nml_port (map (in_port net) ports)) (map nml_port (map (out_port net) ports)) (map nml_bport (nw_bi (described net readable ports))) /\
  switching_says (wire e) net swap /\ service_says (wire e) net /\ attr_of "version" (wire e) version.
Proof. exact network_written. Qed.
Print Assumptions C100_written.
Example C100_written_ex : exists n e, create_network ex_ports "a.net" "A network" = Ok n /\ ports_ok ex_ports /\ topology_xml "v" true n = Ok e /\
  map e_tag (e_kids e) = ["nml:name"; "nml:BidirectionalPort"; "nml:BidirectionalPort"; "nml:Relation"; "nml:Relation"; "nsidef:serviceDefinition"; "nml:Relation"] /\
  map (fun k => (e_get "id" k, map e_tag (e_kids k))) (listed "hasInboundPort" e) =
    [(Some "urn:ogf:network:a.net:ps-in", ["nml:LabelGroup"; "nml:Relation"]); (Some "urn:ogf:network:a.net:plain-in", ["nml:Relation"])].
Proof.
  destruct C54_ex_hypotheses as ((n & C) & P). vm_compute in C. injection C as <-. do 2 eexists. split; [vm_compute; reflexivity|]. split; [exact P|].
  split; [vm_compute; reflexivity|]. split; vm_compute; reflexivity.
Qed.

(** A document that says a topology, whoever wrote it and whatever the order of
    its parts, is read as that topology.  Missing from the full statement: the
    last step of the import fails on every document (C100_read_refuted). *)
Theorem C100_read_partial : forall e id name ins outs bis,
  topology_says e id name ins outs bis -> parse_parts e = Ok (id, Some name, ins, outs, bis).
Proof. exact topology_read. Qed.
Print Assumptions C100_read_partial.

(** a document of another agent: the pairs come last, one of them the other way
    round, the ports are in two relations, labels are written as single numbers *)
Definition ex_vlan : string := "http://schemas.ogf.org/nml/2012/10/ethernet#vlan".
Definition ex_rel (kind : string) (kids : list element) : element := Elem "nml:Relation" [("type", "http://schemas.ogf.org/nml/2013/05/base#" +++ kind)] None kids.
Definition ex_port_el (tag id : string) (kids : list element) : element := Elem tag [("id", "urn:ogf:network:" +++ id)] None kids.
Definition ex_label : element := Elem "nml:LabelGroup" [("labeltype", "http://schemas.ogf.org/nml/2012/10/ethernet#vlan")] (Some "7-9,5,6") [].
Definition ex_foreign : element := Elem "nml:Topology" [("version", "20130529T121112Z"); ("id", "urn:ogf:network:x.net:2013:topology")] None
  [ex_rel "hasService" [Elem "nml:SwitchingService" [] None []];
   ex_rel "hasOutboundPort" [ex_port_el "nml:PortGroup" "x.net:2013:east-out" [ex_label]; ex_port_el "nml:Port" "x.net:2013:west-out" [leaf "nml:name" (Some "w")]];
   Elem "nml:Lifetime" [] None [];
   ex_rel "hasInboundPort" [ex_port_el "nml:PortGroup" "x.net:2013:east-in"
     [ex_rel "hasLink" []; ex_rel "isAlias" [ex_port_el "nml:PortGroup" "y.net:2013:x-out" []]; ex_label]];
   ex_rel "hasInboundPort" [ex_port_el "nml:Port" "x.net:2013:west-in" []];
   ex_port_el "nml:BidirectionalPort" "x.net:2013:west" [ex_port_el "nml:Port" "x.net:2013:west-out" []; ex_port_el "nml:Port" "x.net:2013:west-in" []; leaf "nml:name" (Some "west")];
   ex_port_el "nml:BidirectionalPort" "x.net:2013:east" [leaf "nml:name" (Some "east"); ex_port_el "nml:PortGroup" "x.net:2013:east-in" []; ex_port_el "nml:PortGroup" "x.net:2013:east-out" []];
   leaf "nml:name" (Some "X")].
Definition ex_lab : option label := Some (mkLabel ex_vlan [(5, 9)]).
Definition ex_east_in : nport := mkNPort "x.net:2013:east-in" "east-in" ex_lab (Some "y.net:2013:x-out").
Definition ex_east_out : nport := mkNPort "x.net:2013:east-out" "east-out" ex_lab None.
Definition ex_west_in : nport := mkNPort "x.net:2013:west-in" "west-in" None None.
Definition ex_west_out : nport := mkNPort "x.net:2013:west-out" "w" None None.
Definition ex_bis : list bport :=
  [mkBPort "x.net:2013:west" "west" ex_west_in ex_west_out None; mkBPort "x.net:2013:east" "east" ex_east_in ex_east_out None].
Example C100_read_ex : parse_parts ex_foreign = Ok ("x.net:2013:topology", Some "X", [ex_east_in; ex_west_in], [ex_east_out; ex_west_out], ex_bis).
Proof. vm_compute. reflexivity. Qed.
Ltac ex_attr := split; [cbn; auto 4|intros w Hw; cbn in Hw; repeat (destruct Hw as [Hw|Hw]; [first [discriminate Hw|injection Hw as <-; reflexivity]|]); destruct Hw].
Lemma ex_label_says : label_says ex_vlan "7-9,5,6" (mkLabel ex_vlan [(5, 9)]).
Proof.
  exists ["7-9"; "5"; "6"], [(7, 9); (5, 5); (6, 6)]. split; [reflexivity|]. split; [discriminate|]. split; [intros s [<-|[<-|[<-|[]]]]; reflexivity|].
  split; [repeat apply Forall2_cons; [apply (item_interval "7" "9"); [reflexivity|reflexivity|reflexivity|lia]|apply item_single; reflexivity|apply item_single; reflexivity|constructor]|].
  split; [reflexivity|]. split; [constructor; lia|]. intros z. unfold denotes. cbn. split.
  - intros (lo & hi & [E|[]] & H). injection E as <- <-. destruct (Z.leb_spec 7 z); [exists 7, 9; split; [auto|lia]|]. destruct (Z.eqb_spec z 5); [exists 5, 5; split; [auto|lia]|exists 6, 6; split; [auto|lia]].
  - intros (lo & hi & [E|[E|[E|[]]]] & H); injection E as <- <-; exists 5, 9; split; auto; lia.
Qed.
Example C100_read_hypotheses : topology_says ex_foreign "x.net:2013:topology" "X" [ex_east_in; ex_west_in] [ex_east_out; ex_west_out] ex_bis.
Proof.
  constructor.
  - reflexivity.
  - ex_attr.
  - eexists. split; reflexivity.
  - intros r Hr. cbn in Hr. repeat (destruct Hr as [<-|Hr]; [eexists; ex_attr|]). destruct Hr.
  - apply Forall2_cons; [|apply Forall2_cons; [|constructor]]; constructor.
    all: try (cbn; auto; fail).
    all: try (ex_attr; fail).
    + split; [reflexivity|]. right. exists "x.net:2013". reflexivity.
    + do 3 eexists. split; [ex_attr|]. split; [reflexivity|]. split; [apply ex_label_says|reflexivity].
    + intros r Hr. cbn in Hr. repeat (destruct Hr as [<-|Hr]; [eexists; ex_attr|]). destruct Hr.
    + do 3 eexists. split; [reflexivity|]. split; [ex_attr|reflexivity].
    + split; [reflexivity|]. right. exists "x.net:2013". reflexivity.
    + intros r [].
  - apply Forall2_cons; [|apply Forall2_cons; [|constructor]]; constructor.
    all: try (cbn; auto; fail).
    all: try (ex_attr; fail).
    + split; [reflexivity|]. right. exists "x.net:2013". reflexivity.
    + do 3 eexists. split; [ex_attr|]. split; [reflexivity|]. split; [apply ex_label_says|reflexivity].
    + intros r [].
    + intros r [].
  - cbn. repeat (apply NoDup_cons; [intros H; repeat (destruct H as [H|H]; [discriminate H|]); destruct H|]). constructor.
  - apply Forall2_cons; [|apply Forall2_cons; [|constructor]]; constructor.
    all: try (cbn; auto; fail).
    all: try (ex_attr; fail).
    + eexists. split; reflexivity.
    + do 2 eexists. split; [reflexivity|]. right. split; ex_attr.
    + eexists. split; reflexivity.
    + do 2 eexists. split; [reflexivity|]. left. split; ex_attr.
  - intros b [<-|[<-|[]]]; cbn; auto.
Qed.

Theorem C100_read_refuted :
  (forall e n, parse_topology e <> Ok n) /\
  exists e id name ins outs bis, topology_says e id name ins outs bis /\ parse_topology e <> Ok (mkNet id name ins outs bis).
Proof.
  split; [exact (proj1 C54_import_refuted)|]. do 6 eexists. split; [exact C100_read_hypotheses|]. apply (proj1 C54_import_refuted).
Qed.
Print Assumptions C100_read_refuted.
