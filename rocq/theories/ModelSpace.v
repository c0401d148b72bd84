(** Model of the connection manager for Junos Space, /repo/opennsa/backends/junosspace.py:
    links as configlets of a server which has the routers do them.  Everything up to
    the request body is modelled.  The signatures are those of ModelJunos.v: targets
    are NRM ports with the value of the label.

    Simplifications: a bare Exception is [EInternalNRM] as in ModelJunos.v; the
    answer of the server is not looked at by the code (138-153), nor here; the
    bandwidth is not used by the code. *)
From Verif Require Import Base ModelLabel ModelAuthz ModelNRM ModelSTP ModelRest ModelDrivers ModelJunos ModelManager.
Open Scope Z_scope.

(** junosspace.py:69-73 [JUNOSSPACERouter] *)
Record srouter := mkSRouter { sr_id : string; sr_ip : string }.
(** junosspace.py:262-269, the configlets *)
Record sids := mkSIds { si_up : string; si_up_remote : string; si_down : string; si_down_remote : string }.
(** a request: the configlet of the URL (124) and the body (86); junosspace.py:119-135 *)
Record sreq := mkSReq { sq_configlet : string; sq_body : json }.

(** junosspace.py:274 [r,n,ip = g.split(':',2)] *)
Definition sp_router (g : string) : result (string * srouter) :=
  match split1 ":" g with
  | Some (r, rest) => match split1 ":" rest with Some (n, ip) => Ok (r, mkSRouter n ip) | None => Err EValue end
  | None => Err EValue
  end.
(** junosspace.py:271-277; the argument is [cfg[config.SPACE_ROUTERS].split()] of line 260 *)
Fixpoint sp_routers (gs : list string) : result (list (string * srouter)) :=
  match gs with
  | [] => Ok []
  | g :: gs => do! r <- sp_router g; do! rs <- sp_routers gs; Ok (match aget (fst r) rs with Some _ => rs | None => r :: rs end)   (* a later one wins *)
  end.

(** junosspace.py:341-356 [_getDeviceId], [_getDeviceLoopbackIp] *)
Definition sp_device (routers : list (string * srouter)) (network : string) : result srouter :=
  match aget (remove_all ":topology" 0 network) routers with Some r => Ok r | None => Err EInternalNRM end.
(** junosspace.py:358-362 [_createParamDict] *)
Definition sp_param (n : string) (v : json) : json := JObj [("parameter", JStr n); ("param-value", v)].
(** junosspace.py:335-338 [_createSwitchName] *)
Definition sp_switch (cid : string) : string := "GTS-local-" +++ cid.
(** [value] as JSON: None is null; junosspace.py:376, 382 *)
Definition sp_json (v : option string) : json := match v with Some s => JStr s | None => JNull end.
(** junosspace.py:373-374: type of the label of the port *)
Definition sp_type (t : jtarget) : json := JStr (match jt_type t with None => "port" | Some ty => ty end).
(** junosspace.py:376-377 *)
Definition sp_value (t : jtarget) : json := match jt_type t with None => JInt 0 | Some _ => sp_json (jt_value t) end.
(** junosspace.py:367-371, 388 *)
Definition sp_request (configlet dev : string) (ps : list json) : sreq :=
  mkSReq configlet (JObj [("cli-configlet-mgmt", JObj [("deviceId", JStr dev); ("cli-configlet-param", JList ps)])]).

(** junosspace.py:364-389 [_generateLocalConnectionActivate] and, with the other configlet, 391-418
    [_generateLocalConnectionDeActivate]; also 501-518 and 564-582, where both ports have labels *)
Definition sp_local (configlet : string) (routers : list (string * srouter)) (net cid : string) (src dst : jtarget) : result (list sreq) :=
  do! d <- sp_device routers net;
  Ok [sp_request configlet (sr_id d)
        [sp_param "LabelType1" (sp_type src); sp_param "InterfaceName1" (JStr (jt_itf src)); sp_param "LabelValue1" (sp_value src);
         sp_param "LabelType2" (sp_type dst); sp_param "InterfaceName2" (JStr (jt_itf dst)); sp_param "LabelValue2" (sp_value dst);
         sp_param "CircuitName" (JStr (sp_switch cid))]].
(** junosspace.py:430-455, 469-494, 531-551, 595-615: a circuit from [l] to the router of the network behind [r] *)
Definition sp_tunnel (configlet : string) (routers : list (string * srouter)) (net cid : string) (l r : jtarget) : result (list sreq) :=
  do! d <- sp_device routers net;
  do! rn <- remote_of r;
  do! d' <- sp_device routers rn;
  Ok [sp_request configlet (sr_id d)
        [sp_param "LabelType" (sp_type l); sp_param "InterfaceName" (JStr (jt_itf l)); sp_param "LabelValue" (sp_value l);
         sp_param "TargetIP" (JStr (sr_ip d'));
         sp_param "LspNameOut" (JStr (lsp_name rn net (jt_text r))); sp_param "LspNameIn" (JStr (lsp_name net rn (jt_text r)));
         sp_param "CircuitName" (JStr (sp_switch cid))]].
(** junosspace.py:420-457 [_generateRemoteConnectionActivate], 460-495 [_generateRemoteConnectionDeactivate] *)
Definition sp_remote (local_id remote_id : string) (routers : list (string * srouter)) (net cid : string) (src dst : jtarget) : result (list sreq) :=
  let l := if is_local src then src else dst in
  let r := if is_local src then dst else src in
  match jt_type r with
  | None => Err EAttribute
  | Some ty => if eqb ty "vlan" then sp_local local_id routers net cid src dst else sp_tunnel remote_id routers net cid l r
  end.
(** junosspace.py:497-558 [_generateTransitConnectionActivate], 560-623 [_generateTransitConnectionDeactivate] *)
Definition sp_transit (local_id remote_id : string) (routers : list (string * srouter)) (net cid : string) (src dst : jtarget) : result (list sreq) :=
  match jt_type src, jt_type dst with
  | Some _, Some _ =>
      if is_vlan src && is_vlan dst then sp_local local_id routers net cid src dst
      else if is_mpls src && is_mpls dst then Err EInternalNRM
      else
        let l := if is_vlan src then src else dst in
        let r := if is_mpls src then src else dst in
        if is_vlan l && is_mpls r then sp_tunnel remote_id routers net cid l r else Err EInternalNRM
  | _, _ => Err EInternalNRM
  end.
(** junosspace.py:300-333 [generateActivateCommand], [generateDeactivateCommand] *)
Definition sp_generate (local_id remote_id : string) (routers : list (string * srouter)) (net cid : string) (src dst : jtarget) : result (list sreq) :=
  if is_local src && is_local dst then sp_local local_id routers net cid src dst
  else if negb (is_local src) && negb (is_local dst) then sp_transit local_id remote_id routers net cid src dst
  else sp_remote local_id remote_id routers net cid src dst.

(** junosspace.py:190-236 [JUNOSSPACEConnectionManager]: 204-207 [getResource], 209-213 [getTarget] as in
    junosmx.py; 156-167 [setupLink], [teardownLink] *)
Definition junosspace (ids : sids) (routers : list (string * srouter)) (net : string) (pm : list (string * nrm_port)) : driver sreq :=
  mkDriver mx_resource (via_targets (mx_target pm) (sp_generate (si_up ids) (si_up_remote ids) routers net))
           (via_targets (mx_target pm) (sp_generate (si_down ids) (si_down_remote ids) routers net)).
(** junosspace.py:239-248 [canConnect], with the pairs of lines 197-201 *)
Definition sp_can_connect (sl dl : option label) : bool := mx_can_connect sl dl.
(** junosspace.py:190-248; canSwapLabel 219-220, createConnectionId 215-216 *)
Definition sp_manager (ids : sids) (routers : list (string * srouter)) (net : string) (ports : list (string * nrm_port)) : manager sreq :=
  mkManager (junosspace ids routers net ports) (fun p l => there (mx_target ports p l)) (Some (fun _ _ => sp_can_connect)) (fun _ => true)
    (fun x => Ok ("JUNOSSPACE-" +++ x)).
