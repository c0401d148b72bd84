(** Model of the connection managers for Juniper routers and for EX4550 switches,
    /repo/opennsa/backends/junosmx.py and junosex.py, up to the texts of the
    commands handed to the SSH channel. *)
From Verif Require Import Base ModelLabel ModelAuthz ModelNRM ModelSTP ModelDrivers.
Open Scope Z_scope.

(** [self.port_map[port]]: the map of these managers has the NRM port itself;
    junosmx.py:294, junosex.py:268 *)
Definition nrm_of (pm : list (string * nrm_port)) (port : string) : result nrm_port :=
  match aget port pm with Some p => Ok p | None => Err EKey end.

(** junosmx.py:205-210 [JUNOSTarget], junosex.py:206-211 [JunosEx4550Target]: the
    NRM port and the value of the label, None without one.  The name of the port
    is only used for logging. *)
Record jtarget := mkTarget { jt_port : nrm_port; jt_value : option string }.

(** ["%s" % value] and [str(value)]; junosmx.py:389, 434 *)
Definition jt_text (t : jtarget) : string := match jt_value t with Some s => s | None => "None" end.
(** [port.interface]; junosmx.py:375 *)
Definition jt_itf (t : jtarget) : string := p_interface (jt_port t).
(** The type of the label of the NRM port; junosmx.py:374, 378 *)
Definition jt_type (t : jtarget) : option string := option_map ltype (p_label (jt_port t)).
(** [port.label is not None and port.label.type_ == "vlan"]; junosmx.py:511 *)
Definition is_vlan (t : jtarget) : bool := eqb (jt_type t) (Some "vlan").
(** [port.label is not None and port.label.type_ == "mpls"]; junosmx.py:430 *)
Definition is_mpls (t : jtarget) : bool := eqb (jt_type t) (Some "mpls").
(** [port.remote_network is None]; junosmx.py:335 *)
Definition is_local (t : jtarget) : bool := match p_remote_network (jt_port t) with None => true | Some _ => false end.

(** * Commands; junosmx.py:24-49, junosex.py:27-51 *)

(** junosmx.py:24-26, 375-377: the commands for a whole port *)
Definition mx_port_commands (p : string) : list string :=
  ["set interfaces " +++ p +++ " encapsulation ethernet-ccc";
   "set interfaces " +++ p +++ " mtu 9000";
   "set interfaces " +++ p +++ " unit 0 family ccc"].
(** junosmx.py:28-33, 379-384: the commands for a VLAN *)
Definition mx_vlan_commands (p v : string) : list string :=
  ["set interfaces " +++ p +++ " flexible-vlan-tagging";
   "set interfaces " +++ p +++ " encapsulation flexible-ethernet-services";
   "set interfaces " +++ p +++ " unit " +++ v +++ " encapsulation vlan-ccc";
   "set interfaces " +++ p +++ " unit " +++ v +++ " vlan-id " +++ v;
   "set interfaces " +++ p +++ " unit " +++ v +++ " input-vlan-map pop";
   "set interfaces " +++ p +++ " unit " +++ v +++ " output-vlan-map push"].
(** junosmx.py:35 *)
Definition del_interfaces (p : string) : string := "delete interfaces " +++ p.
(** junosmx.py:36, junosex.py:38 *)
Definition del_interfaces_vl (p v : string) : string := "delete interfaces " +++ p +++ "." +++ v.
(** junosmx.py:37, junosex.py:39 *)
Definition del_connections (sw : string) : string := "delete protocols connections interface-switch " +++ sw.
(** junosmx.py:39 *)
Definition del_lsp (u : string) : string := "delete protocols mpls label-switched-path " +++ u.
(** junosmx.py:40 *)
Definition del_remote_sw (cid : string) : string := "delete protocols connections remote-interface-switch " +++ cid.
(** junosmx.py:42, junosex.py:44 *)
Definition set_connection (sw p sub : string) : string :=
  "set protocols connections interface-switch " +++ sw +++ " interface " +++ p +++ "." +++ sub.
(** junosmx.py:44 *)
Definition set_lsp_to (u ip : string) : string := "set protocols mpls label-switched-path " +++ u +++ " to " +++ ip.
(** junosmx.py:45 *)
Definition set_lsp_nocspf (u : string) : string := "set protocols mpls label-switched-path " +++ u +++ " no-cspf".
(** junosmx.py:47 *)
Definition set_remote_int (cid p : string) : string :=
  "set protocols connections remote-interface-switch " +++ cid +++ " interface " +++ p.
(** junosmx.py:48 *)
Definition set_transmit (cid u : string) : string :=
  "set protocols connections remote-interface-switch " +++ cid +++ " transmit-lsp " +++ u.
(** junosmx.py:49 *)
Definition set_receive (cid u : string) : string :=
  "set protocols connections remote-interface-switch " +++ cid +++ " receive-lsp " +++ u.

(** * junosmx.py *)

(** junosmx.py:362-366 [_createSwitchName] *)
Definition mx_switch (cid : string) : string := "NSI-" +++ cid.

(** [s[0:6]]; junosmx.py:434 *)
Definition six (s : string) : string := substring 0 6 s.
(** junosmx.py:434, the name of the LSP to network [a] from network [b] *)
Definition lsp_name (a b v : string) : string := "T-" +++ six a +++ "-F-" +++ six b +++ "-mpls" +++ v.

(** junosmx.py:641-648 [_getRouterLoopback]; the last line raises a bare
    Exception, which GenericBackend logs as a failed setup like any other *)
Definition loopback (routers : list (string * string)) (network : string) : result string :=
  match aget (remove_all ":topology" 0 network) routers with Some ip => Ok ip | None => Err EInternalNRM end.

(** junosmx.py:386-391, 466-470: the two ends of an interface switch *)
Definition mx_cross (cid : string) (a b : jtarget) : list string :=
  map (fun t => set_connection (mx_switch cid) (jt_itf t) (match jt_type t with None => "0" | Some _ => jt_text t end)) [a; b].

(** junosmx.py:368-391 [_generateLocalConnectionActivate] *)
Definition mx_local_up (cid : string) (src dst : jtarget) : list string :=
  flat_map (fun t => match jt_type t with
                     | None => mx_port_commands (jt_itf t)
                     | Some ty => if eqb ty "vlan" then mx_vlan_commands (jt_itf t) (jt_text t) else []
                     end) [src; dst]
  ++ mx_cross cid src dst.

(** junosmx.py:394-406 [_generateLocalConnectionDeActivate] *)
Definition mx_local_down (cid : string) (src dst : jtarget) : list string :=
  flat_map (fun t => match jt_type t with
                     | None => [del_interfaces (jt_itf t)]
                     | Some ty => if eqb ty "vlan" then [del_interfaces_vl (jt_itf t) (jt_text t)] else []
                     end) [src; dst]
  ++ [del_connections (mx_switch cid)].

(** [port.remote_network[0:6]] and the like need a text; junosmx.py:434 *)
Definition remote_of (t : jtarget) : result string :=
  match p_remote_network (jt_port t) with Some n => Ok n | None => Err EType end.

(** junosmx.py:430-456 and 526-552, 555-581: the LSP to the network behind [r];
    [itf] is what the interface of line 443-449 is set to, if anything *)
Definition mx_lsp_up (routers : list (string * string)) (net cid : string) (r : jtarget) (itf : option string) : result (list string) :=
  do! rn <- remote_of r;
  do! ip <- loopback routers rn;
  Ok ([set_lsp_to (lsp_name rn net (jt_text r)) ip; set_lsp_nocspf (lsp_name rn net (jt_text r))]
      ++ match itf with Some i => [set_remote_int cid i] | None => [] end
      ++ [set_transmit cid (lsp_name rn net (jt_text r)); set_receive cid (lsp_name net rn (jt_text r))]).

(** junosmx.py:412-413: which end is which *)
Definition mx_sides (src dst : jtarget) : jtarget * jtarget :=
  (if is_local src then src else dst, if is_local src then dst else src).

(** junosmx.py:409-473 [_generateRemoteConnectionActivate]; line 470 looks at the
    type of the label of both ends, so that a local port without a label fails *)
Definition mx_remote_up (routers : list (string * string)) (net cid : string) (src dst : jtarget) : result (list string) :=
  let '(l, r) := mx_sides src dst in
  let c1 := match jt_type l with
            | None => mx_port_commands (jt_itf l)
            | Some ty => if eqb ty "vlan" then mx_vlan_commands (jt_itf l) (jt_text l) else []
            end in
  do! c2 <- (if is_mpls r then
               mx_lsp_up routers net cid r
                 (match jt_type l with
                  | None => Some (jt_itf l)
                  | Some ty => if eqb ty "vlan" then Some (jt_itf l +++ "." +++ jt_text l) else None
                  end)
             else Ok []);
  do! c3 <- (if is_vlan r then
               match jt_type l with
               | None => Err EAttribute
               | Some ty =>
                   Ok (mx_vlan_commands (jt_itf r) (jt_text r)
                       ++ [set_connection (mx_switch cid) (jt_itf l) (if eqb ty "vlan" then jt_text l else "0");
                           set_connection (mx_switch cid) (jt_itf r) (jt_text r)])
               end
             else Ok []);
  Ok (c1 ++ c2 ++ c3).

(** junosmx.py:476-501 [_generateRemoteConnectionDeactivate]; line 495 looks at
    the type of the label of the remote end whether it has one or not *)
Definition mx_remote_down (net cid : string) (src dst : jtarget) : result (list string) :=
  let '(l, r) := mx_sides src dst in
  let c1 := match jt_type l with
            | None => [del_interfaces (jt_itf l)]
            | Some ty => if eqb ty "vlan" then [del_interfaces_vl (jt_itf l) (jt_text l)] else []
            end in
  do! c2 <- (match jt_type r with
             | None => Err EAttribute
             | Some ty =>
                 if eqb ty "mpls" then do! rn <- remote_of r; Ok [del_lsp (lsp_name rn net (jt_text r)); del_remote_sw cid]
                 else if eqb ty "vlan" then Ok [del_interfaces_vl (jt_itf r) (jt_text r); del_connections (mx_switch cid)]
                 else Ok []
             end);
  Ok (c1 ++ c2).

(** junosmx.py:503-595 [_generateTransitConnectionActivate] *)
Definition mx_transit_up (routers : list (string * string)) (net cid : string) (l r : jtarget) : result (list string) :=
  let c1 := if is_vlan l then mx_vlan_commands (jt_itf l) (jt_text l) else [] in
  let c2 := if is_vlan r then mx_vlan_commands (jt_itf r) (jt_text r) else [] in
  do! c3 <- (if is_mpls l then mx_lsp_up routers net cid l (if is_vlan r then Some (jt_itf r +++ "." +++ jt_text r) else None) else Ok []);
  do! c4 <- (if is_mpls r then mx_lsp_up routers net cid r (if is_vlan l then Some (jt_itf l +++ "." +++ jt_text l) else None) else Ok []);
  let c5 := if is_vlan r && is_vlan l then mx_cross cid l r else [] in
  Ok (c1 ++ c2 ++ c3 ++ c4 ++ c5).

(** junosmx.py:598-638 [_generateTransitConnectionDeactivate].  Line 635 uses a
    variable that is unbound unless one of the labels is a VLAN; [getResource]
    lets no other label through than a VLAN or an MPLS label, so the error that
    stands for it here cannot come up. *)
Definition mx_transit_down (net cid : string) (l r : jtarget) : result (list string) :=
  let lsp t := if is_mpls t then do! rn <- remote_of t; Ok [del_lsp (lsp_name rn net (jt_text t))] else Ok [] in
  let unit t := if is_vlan t then [del_interfaces_vl (jt_itf t) (jt_text t)] else [] in
  do! c1 <- lsp l;
  do! c3 <- lsp r;
  do! c5 <- (match jt_type l, jt_type r with
             | Some a, Some b =>
                 if eqb b "mpls" || eqb a "mpls" then Ok [del_remote_sw cid]
                 else if is_vlan l || is_vlan r then Ok [del_connections (mx_switch cid)] else Err EAttribute
             | _, _ => Ok []
             end);
  Ok (c1 ++ unit l ++ c3 ++ unit r ++ c5).

(** junosmx.py:327-342 [generateActivateCommand] *)
Definition mx_up (routers : list (string * string)) (net cid : string) (src dst : jtarget) : result (list string) :=
  if is_local src && is_local dst then Ok (mx_local_up cid src dst)
  else if negb (is_local src) && negb (is_local dst) then mx_transit_up routers net cid src dst
  else mx_remote_up routers net cid src dst.
(** junosmx.py:345-360 [generateDeactivateCommand] *)
Definition mx_down (net cid : string) (src dst : jtarget) : result (list string) :=
  if is_local src && is_local dst then Ok (mx_local_down cid src dst)
  else if negb (is_local src) && negb (is_local dst) then mx_transit_down net cid src dst
  else mx_remote_down net cid src dst.

(** junosmx.py:242-245 [getResource] *)
Definition mx_resource (port : string) (l : option label) : result string :=
  match l with
  | None => Ok (port +++ ":")
  | Some l => if mem (ltype l) ["mpls"; "vlan"] then Ok (port +++ ":" +++ label_value l) else Err EAssertion
  end.
(** junosmx.py:248-252 [getTarget] *)
Definition mx_target (pm : list (string * nrm_port)) (port : string) (l : option label) : result jtarget :=
  do! p <- nrm_of pm port; Ok (mkTarget p (option_map label_value l)).

(** junosmx.py:278-287 [canConnect], with the pairs of lines 235-239 *)
Definition mx_can_connect (sl dl : option label) : bool :=
  let ty l := match l with None => "port" | Some l => ltype l end in
  let pairs := [("mpls", ["vlan"; "port"]); ("vlan", ["port"; "mpls"]); ("port", ["vlan"; "mpls"])] in
  if eqb (ty sl) (ty dl) then true
  else match aget (ty sl) pairs with Some ts => mem (ty dl) ts | None => false end.

(** junosmx.py:226-275 [JUNOSConnectionManager], and 191-202 *)
Definition junosmx (routers : list (string * string)) (net : string) (pm : list (string * nrm_port)) : driver string :=
  mkDriver mx_resource (via_targets (mx_target pm) (mx_up routers net)) (via_targets (mx_target pm) (mx_down net)).

(** * junosex.py *)

(** junosex.py:340-344 [_createSwitchName] *)
Definition jx_switch (cid : string) : string := "OpenNSA-local-" +++ cid.

(** junosex.py:29-35, 359-364 *)
Definition jx_vlan_commands (p v : string) : list string :=
  ["set interfaces " +++ p +++ " vlan-tagging";
   "set interfaces " +++ p +++ " mtu 9000";
   "set interfaces " +++ p +++ " encapsulation vlan-ccc";
   "set interfaces " +++ p +++ " unit " +++ v +++ " encapsulation vlan-ccc";
   "set interfaces " +++ p +++ " unit " +++ v +++ " vlan-id " +++ v;
   "set interfaces " +++ p +++ " unit " +++ v +++ " swap-by-poppush"].

(** junosex.py:294-314, 347-371 [generateActivateCommand]: lines 300-303 log the
    types of both labels, so ports without a label fail; all kinds of connection
    are made in the same way *)
Definition jx_up (cid : string) (src dst : jtarget) : result (list string) :=
  match jt_type src, jt_type dst with
  | Some _, Some _ =>
      Ok (flat_map (fun t => if is_vlan t then jx_vlan_commands (jt_itf t) (jt_text t) else []) [src; dst]
          ++ map (fun t => set_connection (jx_switch cid) (jt_itf t) (if is_vlan t then jt_text t else "0")) [src; dst])
  | _, _ => Err EAttribute
  end.
(** junosex.py:317-337, 374-386 [generateDeactivateCommand] *)
Definition jx_down (cid : string) (src dst : jtarget) : result (list string) :=
  match jt_type src, jt_type dst with
  | Some _, Some _ =>
      Ok (flat_map (fun t => if is_vlan t then [del_interfaces_vl (jt_itf t) (jt_text t)] else []) [src; dst]
          ++ [del_connections (jx_switch cid)])
  | _, _ => Err EAttribute
  end.

(** junosex.py:231-232 [getResource]: the conditional covers the whole sum, so
    the resource is the value of the label alone; without a label an NRM port is
    added to a text *)
Definition jx_resource (pm : list (string * nrm_port)) (port : string) (l : option label) : result string :=
  match l with
  | None => do! _ <- nrm_of pm port; Err EType
  | Some l => Ok (label_value l)
  end.
(** junosex.py:235-236 [getTarget] *)
Definition jx_target (pm : list (string * nrm_port)) (port : string) (l : option label) : result jtarget :=
  do! p <- nrm_of pm port;
  match l with None => Err EAttribute | Some l => Ok (mkTarget p (Some (label_value l))) end.

(** junosex.py:221-260 [JunosEx4550ConnectionManager], and 192-203 *)
Definition junosex (pm : list (string * nrm_port)) : driver string :=
  mkDriver (jx_resource pm) (via_targets (jx_target pm) jx_up) (via_targets (jx_target pm) jx_down).
