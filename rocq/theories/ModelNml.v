(** Model of topology documents: /repo/opennsa/topology/nml.py:24-166, 349-375
    and /repo/opennsa/topology/nmlxml.py. *)
From Verif Require Import Base ModelXml ModelLabel ModelSTP ModelAuthz ModelNRM.
Open Scope Z_scope.

(** nml.py:24-36 (and InternalPort 60-66; the bandwidth is not exported and is left out) *)
Record nport := mkNPort { np_id : string; np_name : string; np_label : option label; np_remote : option string }.
(** nml.py:78-95 *)
Record bport := mkBPort { bp_id : string; bp_name : string; bp_in : nport; bp_out : nport; bp_remote : option string }.
(** nml.py:125-143, without the version *)
Record network := mkNet { nw_id : string; nw_name : string; nw_in : list nport; nw_out : list nport; nw_bi : list bport }.

(** nml.py:26-36 *)
Definition nport_new (id name : string) (l : option label) (remote : option string) : result nport :=
  if starts_with "urn:" id then Err EAssertion else
  if shas ":" name then Err EAssertion else Ok (mkNPort id name l remote).
(** nml.py:80-95; [name] may be [None] when read from a document; [None.type_] is
    an AttributeError *)
Definition bport_new (id : string) (name : option string) (i o : nport) (remote : option string) : result bport :=
  match name with
  | None => Err EAssertion
  | Some name =>
      do! _ <- match np_label i, np_label o with
               | None, None => Ok tt
               | Some a, Some b => if eqb (ltype a) (ltype b) then Ok tt else Err EAssertion
               | _, _ => Err EAttribute
               end;
      if starts_with "urn:" id then Err EAssertion else Ok (mkBPort id name i o remote)
  end.
(** nml.py:127-143; [lists]: the in and out ports were given as lists *)
Definition network_new (lists : bool) (id : string) (name : option string) (i o : list nport) (b : list bport) : result network :=
  match name with
  | None => Err EAssertion
  | Some name =>
      if negb lists then Err EAssertion else
      if starts_with "urn:" id then Err EAssertion else Ok (mkNet id name i o b)
  end.

(** nml.py:356-373, one port *)
Definition create_ports (network_name : string) (p : nrm_port) : result (nport * nport * bport) :=
  if negb (eqb (p_type p) "ethernet") then Err EAssertion else
  do! i <- nport_new (network_name +++ ":" +++ (p_name p +++ "-in")) (p_name p +++ "-in") (p_label p) (p_remote_out p);
  do! o <- nport_new (network_name +++ ":" +++ (p_name p +++ "-out")) (p_name p +++ "-out") (p_label p) (p_remote_in p);
  do! b <- bport_new (network_name +++ ":" +++ p_name p) (Some (p_name p)) i o (p_remote_port p);
  Ok (i, o, b).
(** nml.py:349-375 *)
Definition create_network (ports : list nrm_port) (network_name readable : string) : result network :=
  do! l <- mapM (create_ports network_name) ports;
  network_new true network_name (Some readable) (map (fun x => fst (fst x)) l) (map (fun x => snd (fst x)) l) (map snd l).

(** nml.py:146-152 *)
Inductive any_port := AIn (p : nport) | AOut (p : nport) | ABi (p : bport).
(** nml.py:148, [p.id_] *)
Definition any_id (p : any_port) : string := match p with AIn p | AOut p => np_id p | ABi p => bp_id p end.
(** nml.py:147 *)
Definition all_ports (n : network) : list any_port := map AIn (nw_in n) ++ map AOut (nw_out n) ++ map ABi (nw_bi n).
(** nml.py:146-152 [getPort] *)
Definition get_port (n : network) (id : string) : result any_port :=
  match find (fun p => eqb (any_id p) id) (all_ports n) with Some p => Ok p | None => Err ESTPUnavailable end.

(** nmlxml.py:55-58 with constants.py:30-38 *)
Definition NML_LABEL_MAPPING : list (string * string) :=
  [("vlan", "http://schemas.ogf.org/nml/2012/10/ethernet#vlan"); ("mpls", "http://nsi.nordu.net/nml#mpls")].
(** nmlxml.py:47-52 *)
Definition HAS_IN : string := "http://schemas.ogf.org/nml/2013/05/base#hasInboundPort".
(** nmlxml.py:49 *)
Definition HAS_OUT : string := "http://schemas.ogf.org/nml/2013/05/base#hasOutboundPort".
(** nmlxml.py:51 *)
Definition IS_ALIAS : string := "http://schemas.ogf.org/nml/2013/05/base#isAlias".
(** nmlxml.py:52 *)
Definition HAS_SERVICE : string := "http://schemas.ogf.org/nml/2013/05/base#hasService".

(** nmlxml.py:76-84; tags are written with their usual prefixes *)
Definition port_xml (base : string) (p : nport) : result element :=
  do! lab <- match np_label p with
             | None => Ok []
             | Some l => match aget (ltype l) NML_LABEL_MAPPING with
                         | None => Err EKey
                         | Some u => Ok [Elem "nml:LabelGroup" [("labeltype", u)] (Some (label_value l)) []]
                         end
             end;
  let rem := match np_remote p with
             | None => []
             | Some r => [Elem "nml:Relation" [("type", IS_ALIAS)] None [Elem "nml:PortGroup" [("id", URN_NETWORK +++ r)] None []]]
             end in
  Ok (Elem "nml:PortGroup" [("id", base +++ ":" +++ np_name p)] None (lab ++ rem)).
(** nmlxml.py:86-90 *)
Definition bport_xml (base : string) (b : bport) : element :=
  Elem "nml:BidirectionalPort" [("id", base +++ ":" +++ bp_name b)] None
    [leaf "nml:name" (Some (bp_name b));
     Elem "nml:PortGroup" [("id", base +++ ":" +++ np_name (bp_in b))] None [];
     Elem "nml:PortGroup" [("id", base +++ ":" +++ np_name (bp_out b))] None []].
(** nmlxml.py:92-100 *)
Definition ports_xml (rel base : string) (l : list nport) : result (list element) :=
  match l with
  | [] => Ok []
  | _ => do! ps <- mapM (port_xml base) l; Ok [Elem "nml:Relation" [("type", rel)] None ps]
  end.
(** nmlxml.py:64-116; [version] is the text of the time stamp *)
Definition topology_xml (version : string) (label_swap : bool) (n : network) : result element :=
  let base := URN_NETWORK +++ nw_id n in
  do! ins <- ports_xml HAS_IN base (nw_in n);
  do! outs <- ports_xml HAS_OUT base (nw_out n);
  let sd := base +++ ":sd:EVTS.A-GOLE" in
  Ok (Elem "nml:Topology" [("id", base); ("version", version)] None
        (leaf "nml:name" (Some (nw_name n)) :: map (bport_xml base) (nw_bi n) ++ ins ++ outs ++
         [Elem "nsidef:serviceDefinition" [("id", sd)] None
            [leaf "name" (Some "GLIF Automated GOLE Ethernet VLAN Transfer Service");
             leaf "serviceType" (Some "http://services.ogf.org/nsi/2013/07/descriptions/EVTS.A-GOLE")];
          Elem "nml:Relation" [("type", HAS_SERVICE)] None
            [Elem "nml:SwitchingService" [("id", base +++ ":switch:EVTS.A-GOLE");
                                          ("labelSwapping", if label_swap then "true" else "false");
                                          ("labelType", "http://schemas.ogf.org/nml/2012/10/ethernet#vlan")] None
               [Elem "nsidef:serviceDefinition" [("id", sd)] None []]]])).

(** [element.attrib[key]]; nmlxml.py:132, 143, 148, 169, 197 *)
Definition attrib (key : string) (e : element) : result string := match e_get key e with Some v => Ok v | None => Err EKey end.
(** nmlxml.py:123-126 *)
Definition base_name (urn_id : string) : result string :=
  if starts_with URN_NETWORK urn_id then Ok (sdrop (String.length URN_NETWORK) urn_id) else Err EAssertion.
(** nmlxml.py:131, 182, 190, 203: Port or PortGroup *)
Definition is_port_tag (t : string) : bool := eqb t "nml:Port" || eqb t "nml:PortGroup".
(** [s.split(':')[-1]]; nmlxml.py:158 *)
Definition after_colon (s : string) : string := match rsplit1 ":" s with Some (_, b) => b | None => s end.

(** nmlxml.py:138-154, one child of a port element *)
Definition port_child (acc : option string * option label * option string) (pe : element)
  : result (option string * option label * option string) :=
  let '(port_name, lab, remote) := acc in
  if eqb (e_tag pe) "nml:name" then Ok (e_text pe, lab, remote)
  else if eqb (e_tag pe) "nml:Label" || eqb (e_tag pe) "nml:LabelGroup" then
    do! ty <- attrib "labeltype" pe;
    match e_text pe with
    | None => Err EAssertion
    | Some v => do! l <- label_of_str ty v; Ok (port_name, Some l, remote)
    end
  else if eqb (e_tag pe) "nml:Relation" then
    do! ty <- attrib "type" pe;
    if eqb ty IS_ALIAS then
      match e_kids pe with
      | [] => Err EIndex
      | k :: _ => do! a <- attrib "id" k; do! r <- base_name a; Ok (port_name, lab, Some r)
      end
    else Ok acc
  else Ok acc.
(** nmlxml.py, a [for] loop whose body may raise; nmlxml.py:138, 176 *)
Fixpoint foldM {A B} (f : A -> B -> result A) (l : list B) (a : A) : result A :=
  match l with [] => Ok a | x :: r => do! a' <- f a x; foldM f r a' end.
(** nmlxml.py:129-161 *)
Definition parse_port (e : element) : result nport :=
  if negb (is_port_tag (e_tag e)) then Err EAssertion else
  do! i <- attrib "id" e; do! port_id <- base_name i;
  do! (port_name, lab, remote) <- foldM port_child (e_kids e) (None, None, None);
  nport_new port_id (match port_name with Some n => n | None => after_colon port_id end) lab remote.

(** nmlxml.py:181-186, 189-194; the dict keeps the position of a replaced key *)
Definition parse_relation (ports : list (string * nport)) (e : element) : result (list (string * nport)) :=
  foldM (fun d npe => if is_port_tag (e_tag npe) then do! p <- parse_port npe; Ok (aset (np_id p) p d) else Ok d) (e_kids e) ports.
(** nmlxml.py:197-206 *)
Definition bd_child (acc : option string * list string) (pel : element) : result (option string * list string) :=
  let '(nm, subs) := acc in
  if eqb (e_tag pel) "nml:name" then Ok (e_text pel, subs)
  else if is_port_tag (e_tag pel) then do! i <- attrib "id" pel; do! b <- base_name i; Ok (nm, subs ++ [b])
  else Ok acc.
(** nmlxml.py:197-206, a bidirectional port *)
Definition parse_bd (e : element) : result (string * option string * (string * string)) :=
  do! i <- attrib "id" e; do! port_id <- base_name i;
  do! (nm, subs) <- foldM bd_child (e_kids e) (None, []);
  match subs with [a; b] => Ok (port_id, nm, (a, b)) | _ => Err EAssertion end.

(** nmlxml.py:171-211: the state of the loop and one child of the topology *)
Record pstate := mkPS { ps_name : option string; ps_in : list (string * nport); ps_out : list (string * nport);
                        ps_bd : list (string * option string * (string * string)) }.
(** nmlxml.py:176-211, one child of the topology *)
Definition topo_child (s : pstate) (e : element) : result pstate :=
  if eqb (e_tag e) "nml:name" then Ok (mkPS (e_text e) (ps_in s) (ps_out s) (ps_bd s))
  else if eqb (e_tag e) "nml:Relation" then
    do! ty <- attrib "type" e;
    if eqb ty HAS_IN then do! d <- parse_relation (ps_in s) e; Ok (mkPS (ps_name s) d (ps_out s) (ps_bd s))
    else if eqb ty HAS_OUT then do! d <- parse_relation (ps_out s) e; Ok (mkPS (ps_name s) (ps_in s) d (ps_bd s))
    else Ok s
  else if eqb (e_tag e) "nml:BidirectionalPort" then do! b <- parse_bd e; Ok (mkPS (ps_name s) (ps_in s) (ps_out s) (ps_bd s ++ [b]))
  else Ok s.
(** nmlxml.py:217-222, look-up in a dict: KeyError *)
Definition dget (k : string) (d : list (string * nport)) : result nport := match aget k d with Some p => Ok p | None => Err EKey end.
(** nmlxml.py:216-223 *)
Definition make_bd (s : pstate) (b : string * option string * (string * string)) : result bport :=
  let '(port_id, nm, (p1, p2)) := b in
  if ahas p1 (ps_in s) then do! i <- dget p1 (ps_in s); do! o <- dget p2 (ps_out s); bport_new port_id nm i o None
  else do! i <- dget p2 (ps_in s); do! o <- dget p1 (ps_out s); bport_new port_id nm i o None.
(** nmlxml.py:167-223, all but the construction of the network *)
Definition parse_parts (e : element) : result (string * option string * list nport * list nport * list bport) :=
  if negb (eqb (e_tag e) "nml:Topology") then Err EAssertion else
  do! i <- attrib "id" e; do! topology_id <- base_name i;
  do! s <- foldM topo_child (e_kids e) (mkPS None [] [] []);
  do! bis <- mapM (make_bd s) (ps_bd s);
  Ok (topology_id, ps_name s, map snd (ps_in s), map snd (ps_out s), bis).
(** nmlxml.py:165-226; line 225 passes dictionary views, which are not lists *)
Definition parse_topology (e : element) : result network :=
  do! (id, nm, i, o, b) <- parse_parts e; network_new false id nm i o b.
