(** What a topology document in NML says.  Taken from the schema: the names of
    the elements, attributes and relations are written out. *)
From Verif Require Import Base ModelXml ModelLabel SpecLabel ModelNml.
Open Scope Z_scope.

(** the children of an element with one of some names *)
Definition among (ts : list string) (e : element) : list element :=
  filter (fun k => existsb (String.eqb (e_tag k)) ts) (e_kids e).
Definition attr_of (name : string) (e : element) (v : string) : Prop := In (name, v) (e_attrs e) /\ forall w, In (name, w) (e_attrs e) -> w = v.
(** an element is about the resource with this id *)
Definition about (e : element) (id : string) : Prop := attr_of "id" e ("urn:ogf:network:" +++ id).
Definition ports_in : list string := ["nml:Port"; "nml:PortGroup"].
(** the relations of an element of one kind *)
Definition relb (kind : string) (r : element) : bool :=
  existsb (fun a => String.eqb (fst a) "type" && String.eqb (snd a) ("http://schemas.ogf.org/nml/2013/05/base#" +++ kind)) (e_attrs r).
Definition relations (kind : string) (e : element) : list element := filter (relb kind) (among ["nml:Relation"] e).
(** every relation says of what kind it is, once *)
Definition kinds_clear (e : element) : Prop := forall r, In r (among ["nml:Relation"] e) -> exists ty, attr_of "type" r ty.

(** the text of a label: numbers and ranges, separated by commas *)
Definition label_says (ty v : string) (l : label) : Prop :=
  exists items rs, v = join "," items /\ items <> [] /\ (forall s, In s items -> shas "," s = false) /\ Forall2 item_range items rs /\
  ltype l = ty /\ normal (lvalues l) /\ forall z, denotes (lvalues l) z <-> denotes rs z.

(** the part of an id after its last colon *)
Definition last_part (id nm : string) : Prop := shas ":" nm = false /\ (id = nm \/ exists a, id = a +++ ":" +++ nm).

(** a port with its name, label and the port of the neighbour it is an alias of *)
Record port_says (e : element) (p : nport) : Prop := {
  q_tag : In (e_tag e) ports_in;
  q_id : about e (np_id p);
  q_plain : starts_with "urn:" (np_id p) = false /\ shas ":" (np_name p) = false;
  q_name : match among ["nml:name"] e with
           | [] => last_part (np_id p) (np_name p)
           | [k] => e_text k = Some (np_name p)
           | _ => False
           end;
  q_label : match among ["nml:Label"; "nml:LabelGroup"] e with
            | [] => np_label p = None
            | [k] => exists ty v l, attr_of "labeltype" k ty /\ e_text k = Some v /\ label_says ty v l /\ np_label p = Some l
            | _ => False
            end;
  q_kinds : kinds_clear e;
  q_alias : match relations "isAlias" e with
            | [] => np_remote p = None
            | [r] => exists k ks x, e_kids r = k :: ks /\ about k x /\ np_remote p = Some x
            | _ => False
            end }.

(** a pair of an in and an out port, in either order *)
Record pair_says (e : element) (b : bport) : Prop := {
  b_about : about e (bp_id b);
  b_plain : starts_with "urn:" (bp_id b) = false;
  b_named : exists k, among ["nml:name"] e = [k] /\ e_text k = Some (bp_name b);
  b_ports : exists x y, among ports_in e = [x; y] /\
              (about x (np_id (bp_in b)) /\ about y (np_id (bp_out b)) \/ about x (np_id (bp_out b)) /\ about y (np_id (bp_in b)));
  b_label : match np_label (bp_in b), np_label (bp_out b) with
            | None, None => True
            | Some l, Some l' => ltype l = ltype l'
            | _, _ => False
            end;
  b_alone : bp_remote b = None }.

(** the ports an element lists in its relations of one kind *)
Definition listed (kind : string) (e : element) : list element := flat_map (among ports_in) (relations kind e).

Record topology_says (e : element) (id name : string) (ins outs : list nport) (bis : list bport) : Prop := {
  t_tag : e_tag e = "nml:Topology";
  t_about : about e id;
  t_name : exists k, among ["nml:name"] e = [k] /\ e_text k = Some name;
  t_kinds : kinds_clear e;
  t_ins : Forall2 port_says (listed "hasInboundPort" e) ins;
  t_outs : Forall2 port_says (listed "hasOutboundPort" e) outs;
  t_ids : NoDup (map np_id ins ++ map np_id outs);
  t_bis : Forall2 pair_says (among ["nml:BidirectionalPort"] e) bis;
  t_pairs : forall b, In b bis -> In (bp_in b) ins /\ In (bp_out b) outs }.

(** the switching service of a document: its id, what kind of labels it can swap or not *)
Definition switching_says (e : element) (id : string) (swap : bool) : Prop :=
  exists r s d, relations "hasService" e = [r] /\ e_kids r = [s] /\ e_tag s = "nml:SwitchingService" /\ about s (id +++ ":switch:EVTS.A-GOLE") /\
  attr_of "labelSwapping" s (if swap then "true" else "false") /\ attr_of "labelType" s "http://schemas.ogf.org/nml/2012/10/ethernet#vlan" /\
  e_kids s = [d] /\ e_tag d = "nsidef:serviceDefinition" /\ about d (id +++ ":sd:EVTS.A-GOLE").
(** the service the switching service refers to *)
Definition service_says (e : element) (id : string) : Prop :=
  exists d, among ["nsidef:serviceDefinition"] e = [d] /\ about d (id +++ ":sd:EVTS.A-GOLE") /\
  exists t, among ["serviceType"] d = [t] /\ e_text t = Some "http://services.ogf.org/nsi/2013/07/descriptions/EVTS.A-GOLE".
