(** The NSI messages between a requester and a provider: what the two clients
    write (protocols/nsi2/requesterclient.py, providerclient.py), what the two
    services read (protocols/nsi2/providerservice.py, requesterservice.py), and
    the binding classes between them (bindings/nsiconnection.py,
    bindings/p2pservices.py, bindings/actions.py).
    As in ModelQueryHelper an encoder composes "native value to binding object"
    and "binding object to XML".  The decoders keep the binding object ([body])
    apart, since which attributes it has decides what a handler does with it. *)
From Verif Require Import Base ModelXml ModelAuthz ModelHeader ModelErrors ModelLabel ModelSTP ModelTime ModelQueryHelper.
Open Scope Z_scope.

(** nsiconnection.py:876-912: element names; the namespace
    http://schemas.ogf.org/nsi/2013/12/connection/types is written [CT] *)
Definition CT (name : string) : string := "{CT}" +++ name.
(** nsiconnection.py:881: serviceException is in the framework types namespace *)
Definition FT_SERVICE_EXCEPTION : string := "{FT}serviceException".
(** bindings/actions.py:7-45: a SOAP action is the method's name in the service
    namespace, written with quotes *)
Definition ACT (name : string) : string :=
  String "034" ("http://schemas.ogf.org/nsi/2013/12/connection/service/" +++ name +++ String "034" "").
(** constants.py:19-20: the protocol types put into the header *)
Definition CS2_REQUESTER : string := "application/vnd.ogf.nsi.cs.v2.requester+soap".
(** constants.py:20 *)
Definition CS2_PROVIDER : string := "application/vnd.ogf.nsi.cs.v2.provider+soap".

(** * What the requester sends: requesterclient.py *)

(** nsa.py:379-392 [Point2PointService]: the part query results carry ([p2p]) and the rest *)
Record service_req := mkSR { sr_p2p : p2p; sr_ero : option (list stp); sr_params : option (list (string * string)) }.
(** the arguments of [reserve], requesterclient.py:87 (nsa.py:341-346 [Criteria]) *)
Record reserve_args := mkRA {
  ra_cid : option string; ra_gid : option string; ra_desc : option string;
  ra_rev : Z; ra_sched : sched; ra_sd : service_req }.

(** requesterclient.py:98-108: [start_time.replace(tzinfo=UTC()).isoformat()];
    the assertions before it hold of every naive time *)
Definition utc_text (t : dt) : string := isoformat t +++ "+00:00".
(** nsiconnection.py:488-494 *)
Definition req_sched_xml (s : sched) : element :=
  Elem "schedule" [] None (opt_leaf "startTime" (option_map utc_text (sc_start s)) ++
                           opt_leaf "endTime" (option_map utc_text (sc_end s))).
(** p2pservices.py:19-22, 74: the STPs of an explicit route, numbered *)
Fixpoint ero_xml (idx : Z) (l : list stp) : list element :=
  match l with
  | [] => []
  | s :: r => Elem "orderedSTP" [("order", py_str idx)] None [leaf "stp" (Some (urn s))] :: ero_xml (idx + 1) r
  end.
(** p2pservices.py:65-79 with requesterclient.py:113-115 *)
Definition req_sd_xml (r : service_req) : element :=
  let p := sr_p2p r in
  Elem P2PS [] None
    ([leaf "capacity" (Some (py_str (p_cap p))); leaf "directionality" (Some (p_dir p))] ++
     opt_leaf "symmetricPath" (option_map bool_text (p_sym p)) ++
     [leaf "sourceSTP" (Some (urn (p_src p))); leaf "destSTP" (Some (urn (p_dst p)))] ++
     match sr_ero r with None => [] | Some l => [Elem "ero" [] None (ero_xml 0 l)] end ++
     match sr_params r with
     | None => []
     | Some l => map (fun kv => Elem "parameter" [("type", fst kv)] (Some (snd kv)) []) l
     end).
(** requesterclient.py:120: the service type it sends *)
Definition REQ_SERVICE_TYPE : string := "http://services.ogf.org/nsi/2013/12/descriptions/EVTS.A-GOLE".
(** nsiconnection.py:62-71, 160-169 with requesterclient.py:117-126 *)
Definition reserve_xml (a : reserve_args) : element :=
  Elem (CT "reserve") [] None
    (opt_leaf "connectionId" (ra_cid a) ++ opt_leaf "globalReservationId" (ra_gid a) ++ opt_leaf "description" (ra_desc a) ++
     [Elem "criteria" [("version", py_str (ra_rev a))] None
        [req_sched_xml (ra_sched a); leaf "serviceType" (Some REQ_SERVICE_TYPE); req_sd_xml (ra_sd a)]]).

(** a message: its SOAP action and its envelope; e.g. providerclient.py:31-40 *)
Definition message := (string * element)%type.
(** helper.py:66-67 with requesterclient.py:49, 93: the caller's header with
    the client's own reply address *)
Definition provider_header (reply_to : string) (h : nsi_header) : element :=
  header_xml CS2_PROVIDER (mkHdr (h_requester h) (h_provider h) (h_corr h) (Some reply_to) (h_attrs h) (h_trace h)).
(** requesterclient.py:87-134 *)
Definition send_reserve (reply_to : string) (h : nsi_header) (a : reserve_args) : message :=
  (ACT "reserve", soap_payload (Some (provider_header reply_to h)) (Some (reserve_xml a))).
(** requesterclient.py:138-190: the methods that only carry a connection id,
    with the element name and the action each of them passes on *)
Definition conn_requests : list (string * (string * string)) :=
  [("reserveCommit", (CT "reserveCommit", ACT "reserveCommit"));
   ("reserveAbort", (CT "reserveAbort", ACT "reserveAbort"));
   ("provision", (CT "provision", ACT "provision"));
   ("release", (CT "release", ACT "release"));
   ("terminate", (CT "terminate", ACT "terminate"))].
(** requesterclient.py:47-53 and nsiconnection.py:586-589 *)
Definition send_conn (reply_to : string) (h : nsi_header) (method : string) (cid : string) : option message :=
  match aget method conn_requests with
  | None => None
  | Some (tag, action) =>
      Some (action, soap_payload (Some (provider_header reply_to h))
                                 (Some (Elem tag [] None [leaf "connectionId" (Some cid)])))
  end.
(** requesterclient.py:192-241: the query methods *)
Definition query_requests : list (string * (string * string)) :=
  [("querySummary", (CT "querySummary", ACT "querySummary"));
   ("querySummarySync", (CT "querySummarySync", ACT "querySummarySync"));
   ("queryRecursive", (CT "queryRecursive", ACT "queryRecursive"))].
(** nsiconnection.py:812-820 *)
Definition query_xml (tag : string) (cids gids : option (list string)) : element :=
  let ids name o := match o with None => [] | Some l => map (fun i => leaf name (Some i)) l end in
  Elem tag [] None (ids "connectionId" cids ++ ids "globalReservationId" gids).
(** requesterclient.py:192-241 *)
Definition send_query (reply_to : string) (h : nsi_header) (method : string) (cids gids : option (list string)) : option message :=
  match aget method query_requests with
  | None => None
  | Some (tag, action) =>
      Some (action, soap_payload (Some (provider_header reply_to h)) (Some (query_xml tag cids gids)))
  end.

(** * What the provider sends: providerclient.py *)

(** helper.py:70-71: header of a message to the requester; no reply address,
    attributes or trace (providerclient.py:27, 46, 71, 147, 162, 178) *)
Definition requester_header (h : nsi_header) : element :=
  header_xml CS2_REQUESTER (mkHdr (h_requester h) (h_provider h) (h_corr h) None [] None).
(** a message to the requester with header [h] and body [b]; e.g. providerclient.py:27-40 *)
Definition to_requester (name : string) (h : nsi_header) (b : element) : message :=
  (ACT name, soap_payload (Some (requester_header h)) (Some b)).

(** providerclient.py:69-94 and nsiconnection.py:268-276, 567-573 *)
Definition reserve_confirmed_xml (cid : string) (gid desc : option string) (rev : Z) (sc : sched) (p : p2p) : result element :=
  do! se <- sched_xml sc;
  do! de <- sd_xml (Some p);
  Ok (Elem (CT "reserveConfirmed") [] None
        ([leaf "connectionId" (Some cid)] ++ opt_leaf "globalReservationId" gid ++ opt_leaf "description" desc ++
         [Elem "criteria" [("version", py_str rev)] None [se; leaf "serviceType" (Some EVTS_AGOLE); de]])).
(** providerclient.py:69-96 *)
Definition send_reserve_confirmed (h : nsi_header) (cid : string) (gid desc : option string) (rev : Z) (sc : sched) (p : p2p) : result message :=
  do! b <- reserve_confirmed_xml cid gid desc rev sc p;
  Ok (to_requester "reserveConfirmed" h b).
(** providerclient.py:106-140: the confirmations, each with its element name and action *)
Definition confirmations : list (string * (string * string)) :=
  [("reserveCommitConfirmed", (CT "reserveCommitConfirmed", ACT "reserveCommitConfirmed"));
   ("reserveAbortConfirmed", (CT "reserveAbortConfirmed", ACT "reserveAbortConfirmed"));
   ("provisionConfirmed", (CT "provisionConfirmed", ACT "provisionConfirmed"));
   ("releaseConfirmed", (CT "releaseConfirmed", ACT "releaseConfirmed"));
   ("terminateConfirmed", (CT "terminateConfirmed", ACT "terminateConfirmed"))].
(** providerclient.py:25-40 and nsiconnection.py:109-112 *)
Definition send_confirmation (h : nsi_header) (method cid : string) : option message :=
  match aget method confirmations with
  | None => None
  | Some (tag, action) =>
      Some (action, soap_payload (Some (requester_header h)) (Some (Elem tag [] None [leaf "connectionId" (Some cid)])))
  end.
(** providerclient.py:99-116: the failures *)
Definition failures : list (string * (string * string)) :=
  [("reserveFailed", (CT "reserveFailed", ACT "reserveFailed"));
   ("reserveCommitFailed", (CT "reserveCommitFailed", ACT "reserveCommitFailed"))].
(** providerclient.py:43-66 and nsiconnection.py:764-769; the error is an NSI
    error, sent with the provider as default agent (helper.py:95-104) *)
Definition send_failure (h : nsi_header) (method cid : string) (sts : cstates) (e : nsi_error) : option message :=
  match aget method failures with
  | None => None
  | Some (tag, action) =>
      Some (action, soap_payload (Some (requester_header h))
        (Some (Elem tag [] None
          [leaf "connectionId" (Some cid); states_xml sts;
           se_xml "serviceException" (create_service_exception e (Some (h_provider h)) None None)])))
  end.
(** providerclient.py:144-156 and nsiconnection.py:465-473; the originating
    agent is written with [str] *)
Definition send_reserve_timeout (h : nsi_header) (cid : string) (nid : Z) (t : dt) (timeout : Z) (ocid onsa : option string) : result message :=
  do! ts <- createXMLTime false t;
  Ok (to_requester "reserveTimeout" h
        (Elem (CT "reserveTimeout") [] None
          [leaf "connectionId" (Some cid); leaf "notificationId" (Some (py_str nid)); leaf "timeStamp" (Some ts);
           leaf "timeoutValue" (Some (py_str timeout)); leaf "originatingConnectionId" ocid;
           leaf "originatingNSA" (Some (py_str_opt onsa))])).
(** providerclient.py:159-172 and nsiconnection.py:324-330, 21-26 *)
Definition send_data_plane_change (h : nsi_header) (cid : string) (nid : Z) (t : dt) (active : bool) (version : Z) (consistent : bool) : result message :=
  do! ts <- createXMLTime false t;
  Ok (to_requester "dataPlaneStateChange" h
        (Elem (CT "dataPlaneStateChange") [] None
          [leaf "connectionId" (Some cid); leaf "notificationId" (Some (py_str nid)); leaf "timeStamp" (Some ts);
           Elem "dataPlaneStatus" [] None
             [leaf "active" (Some (bool_text active)); leaf "version" (Some (py_str version));
              leaf "versionConsistent" (Some (bool_text consistent))]])).
(** the service exception of an error event: agent, connection, error id, text
    (providerclient.py:181; genericbackend.py:666-668) *)
Record event_ex := mkEE { ee_nsa : option string; ee_conn : option string; ee_id : option string; ee_text : option string }.
(** providerclient.py:175-197.  Line 182 calls the binding class, which takes
    seven arguments (nsiconnection.py:657), with six: TypeError.  Without a
    service exception: nsiconnection.py:357-369, with no originating connection
    or agent, and no additional information whatever [info] was. *)
Definition send_error_event (h : nsi_header) (cid : string) (nid : Z) (t : dt) (event : string)
    (info : option (list (string * string))) (ex : option event_ex) : result message :=
  match ex with
  | Some _ => Err EType
  | None =>
      do! ts <- createXMLTime false t;
      Ok (to_requester "errorEvent" h
            (Elem (CT "errorEvent") [] None
              [leaf "connectionId" (Some cid); leaf "notificationId" (Some (py_str nid)); leaf "timeStamp" (Some ts);
               leaf "event" (Some event); leaf "originatingConnectionId" None; leaf "originatingNSA" (Some (py_str_opt None))]))
  end.
(** providerclient.py:212-221 *)
Definition send_recursive (h : nsi_header) (l : list cinfo) : result message :=
  do! e <- recursive_xml l;
  Ok (to_requester "queryRecursiveConfirmed" h (Elem (CT "queryRecursiveConfirmed") [] None (e_kids e))).

(** ** Summaries: queryhelper.py:39-61 *)
(** queryhelper.py:44-53 and nsiconnection.py:843-851: no children *)
Definition summary_crit_xml (c : crit) : result element :=
  let 'QC rev sc sd _ := c in
  do! se <- sched_xml sc;
  do! de <- sd_xml sd;
  Ok (Elem "criteria" [("version", py_str rev)] None
        [se; leaf "serviceType" (Some EVTS_AGOLE); Elem "children" [] None []; de]).
(** queryhelper.py:55-59 and nsiconnection.py:196-212 *)
Definition summary_result_xml (c : cinfo) : result element :=
  let 'CI cid gid desc _ crits _ req sts nid rid := c in
  do! xs <- mapM summary_crit_xml crits;
  Ok (Elem "reservation" [] None
        ([leaf "connectionId" (Some cid)] ++ opt_leaf "globalReservationId" gid ++ opt_leaf "description" desc ++ xs ++
         [leaf "requesterNSA" (Some (py_str_opt req)); states_xml sts] ++
         opt_leaf "notificationId" (option_map py_str nid) ++ opt_leaf "resultId" (option_map py_str rid))).
(** queryhelper.py:39-61 and nsiconnection.py:226-230 *)
Definition summary_xml (tag : string) (l : list cinfo) : result element :=
  do! xs <- mapM summary_result_xml l; Ok (Elem tag [] None xs).
(** providerclient.py:200-209 *)
Definition send_summary (h : nsi_header) (l : list cinfo) : result message :=
  do! e <- summary_xml (CT "querySummaryConfirmed") l;
  Ok (to_requester "querySummaryConfirmed" h e).
(** nsiconnection.py:831-841 and queryhelper.py:142-158 without children *)
Definition summary_crit_build (e : element) : result crit :=
  do! sds <- mapM sd_build (filter (fun k => negb (is_crit_part (e_tag k))) (e_kids e));
  do! se <- need (find1 "schedule" e);
  do! sd <- match sds with [] => Err EIndex | x :: _ => Ok x end;
  do! sc <- sched_build se;
  do! rev <- int_opt (e_get "version" e);
  Ok (QC rev sc sd []).
(** nsiconnection.py:183-194 and queryhelper.py:162-174 *)
Definition summary_result_build (provider : string) (e : element) : result cinfo :=
  do! crs <- mapM summary_crit_build (findall "criteria" e);
  do! st <- need (find1 "connectionStates" e);
  do! sts <- states_build st;
  do! nid <- opt_int (findtext "notificationId" e);
  do! rid <- opt_int (findtext "resultId" e);
  Ok (CI (text_or_none (findtext "connectionId" e)) (findtext "globalReservationId" e) (findtext "description" e)
         EVTS_AGOLE crs provider (findtext "requesterNSA" e) sts nid rid).
(** nsiconnection.py:220-224 and requesterservice.py:149 *)
Definition summary_build (provider : string) (e : element) : result (list cinfo) :=
  mapM (summary_result_build provider) (findall "reservation" e).

(** * Binding objects *)

(** p2pservices.py:43-51 as [build] (54-63) makes it: anything but the capacity may be missing *)
Record p2p_in := mkPI {
  pi_cap : Z; pi_dir : option string; pi_sym : option bool; pi_src : option string; pi_dst : option string;
  pi_ero : option (list (option string)); pi_params : option (list (option string * option string)) }.
(** p2pservices.py:97-100: the two classes a service definition may have *)
Inductive service_def := SDp2p (p : p2p_in) | SDparameter.
(** nsiconnection.py:140-146 and 545-551; the schedule as two texts *)
Record crit_in := mkCrI {
  ci_version : option string; ci_sched : option (option string * option string);
  ci_type : option string; ci_sd : service_def }.
(** The binding classes, by the attributes the handlers read; bindings/nsiconnection.py *)
Inductive body :=
| BReserve (cid gid desc : option string) (c : crit_in)     (* ReserveType, ReserveConfirmedType *)
| BConn (cid : option string)                               (* GenericRequestType, GenericConfirmedType, ReserveResponseType *)
| BFailed (cid : option string) (sts : cstates) (se : service_exception)
| BQuery (cids gids : list (option string))
| BTimeout (cid : option string) (nid : Z) (ts : option string) (timeout : Z) (ocid onsa : option string)
| BDataPlane (cid : option string) (nid : Z) (ts : option string) (active : bool) (version : Z) (consistent : bool)
| BErrorEvent (cid : option string) (nid : Z) (ts event ocid onsa : option string)
              (info : option (list (option string * option string))) (se : option service_exception)
| BError (se : service_exception)
| BResults (recursive : bool) (e : element)                 (* query results, decoded by queryhelper *)
| BOther                                                    (* the other classes, not decoded *)
| BAbsent                                                   (* no body element: None *)
| BSeveral.                                                 (* several: a list *)

(** p2pservices.py:53-63, 12-17, 30-35 *)
Definition p2p_build (e : element) : result p2p_in :=
  do! cap <- int_opt (findtext "capacity" e);
  Ok (mkPI cap (findtext "directionality" e)
        (match findtext "symmetricPath" e with None => None | Some s => Some (eqb s "true") end)
        (findtext "sourceSTP" e) (findtext "destSTP" e)
        (match find1 "ero" e with None => None | Some x => Some (map (findtext "stp") (e_kids x)) end)
        (match findall "parameter" e with [] => None | l => Some (map (fun k => (e_get "type" k, e_text k)) l) end)).
(** p2pservices.py:95-106 *)
Definition sdef_build (e : element) : result service_def :=
  if eqb (e_tag e) P2PS then do! p <- p2p_build e; Ok (SDp2p p)
  else if eqb (e_tag e) P2P_PARAMETER then Ok SDparameter else Err EValue.
(** nsiconnection.py:481-486 *)
Definition sched_in (e : element) : option string * option string := (findtext "startTime" e, findtext "endTime" e).
(** nsiconnection.py:148-158 (in a request the schedule may be missing) and
    553-565 (in a confirmation it may not) *)
Definition criteria_build (confirm : bool) (e : element) : result crit_in :=
  do! sds <- mapM sdef_build (filter (fun k => negb (mem (e_tag k) ["schedule"; "serviceType"])) (e_kids e));
  do! sc <- match find1 "schedule" e with
            | None => if confirm then Err EAttribute else Ok None
            | Some s => Ok (Some (sched_in s))
            end;
  match sds with
  | [] => Err EIndex
  | sd :: _ => Ok (mkCrI (e_get "version" e) sc (findtext "serviceType" e) sd)
  end.
(** nsiconnection.py:54-60 and 260-266 *)
Definition reserve_build (confirm : bool) (e : element) : result body :=
  do! ce <- match find1 "criteria" e with
            | None => Err EType       (* nsiconnection.py:152, 558 iterate over None *)
            | Some c => Ok c
            end;
  do! c <- criteria_build confirm ce;
  Ok (BReserve (findtext "connectionId" e) (findtext "globalReservationId" e) (findtext "description" e) c).
(** nsiconnection.py:756-762 *)
Definition failed_build (e : element) : result body :=
  do! st <- need (find1 "connectionStates" e);
  do! sts <- states_build st;
  do! se <- need (find1 "serviceException" e);
  Ok (BFailed (findtext "connectionId" e) sts (se_build se)).
(** nsiconnection.py:805-810 *)
Definition query_build (e : element) : result body :=
  Ok (BQuery (map e_text (findall "connectionId" e)) (map e_text (findall "globalReservationId" e))).
(** nsiconnection.py:454-463 *)
Definition timeout_build (e : element) : result body :=
  do! nid <- int_opt (findtext "notificationId" e);
  do! tv <- int_opt (findtext "timeoutValue" e);
  Ok (BTimeout (findtext "connectionId" e) nid (findtext "timeStamp" e) tv
        (findtext "originatingConnectionId" e) (findtext "originatingNSA" e)).
(** nsiconnection.py:315-322, 13-19 *)
Definition data_plane_build (e : element) : result body :=
  do! nid <- int_opt (findtext "notificationId" e);
  do! d <- need (find1 "dataPlaneStatus" e);
  do! v <- int_opt (findtext "version" d);
  Ok (BDataPlane (findtext "connectionId" e) nid (findtext "timeStamp" e)
        (opt_eqb (findtext "active" d) (Some "true")) v (opt_eqb (findtext "versionConsistent" d) (Some "true"))).
(** nsiconnection.py:344-355 *)
Definition error_event_build (e : element) : result body :=
  do! nid <- int_opt (findtext "notificationId" e);
  Ok (BErrorEvent (findtext "connectionId" e) nid (findtext "timeStamp" e) (findtext "event" e)
        (findtext "originatingConnectionId" e) (findtext "originatingNSA" e)
        (match find1 "additionalInfo" e with None => None | Some x => Some (map variable_build (e_kids x)) end)
        (match find1 "serviceException" e with None => None | Some x => Some (se_build x) end)).

(** nsiconnection.py:923-959, the classes by element name *)
Inductive kind := KReserve (confirm : bool) | KConn | KFailed | KQuery | KTimeout | KDataPlane | KErrorEvent | KError
                | KException | KResults (recursive : bool) | KOther.
(** nsiconnection.py:923-959 *)
Definition type_map : list (string * kind) :=
  [(CT "reserveCommitFailed", KFailed); (CT "terminate", KConn); (CT "provisionConfirmed", KConn); (CT "provision", KConn);
   (FT_SERVICE_EXCEPTION, KException); (CT "serviceException", KException); (CT "release", KConn); (CT "queryResult", KOther);
   (CT "reserve", KReserve false); (CT "messageDeliveryTimeout", KOther); (CT "reserveAbortConfirmed", KConn);
   (CT "reserveResponse", KConn); (CT "querySummarySync", KQuery); (CT "querySummary", KQuery);
   (CT "dataPlaneStateChange", KDataPlane); (CT "queryNotification", KOther); (CT "terminateConfirmed", KConn);
   (CT "error", KError); (CT "reserveAbort", KConn); (CT "reserveFailed", KFailed); (CT "reserveCommitConfirmed", KConn);
   (CT "reserveCommit", KConn); (CT "acknowledgment", KOther); (CT "releaseConfirmed", KConn);
   (CT "reserveConfirmed", KReserve true); (CT "queryNotificationSync", KOther); (CT "queryNotificationSyncConfirmed", KOther);
   (CT "errorEvent", KErrorEvent); (CT "queryNotificationConfirmed", KOther); (CT "reserveTimeout", KTimeout);
   (CT "queryResultSync", KOther); (CT "queryRecursive", KQuery); (CT "querySummarySyncConfirmed", KResults false);
   (CT "querySummaryConfirmed", KResults false); (CT "queryRecursiveConfirmed", KResults true)].
(** nsiconnection.py:961-965.  Simplifications: query results are decoded only
    when a handler asks for them; the classes no handler reads ([KOther]) are
    not decoded at all; a service exception as body has attributes the handlers
    do not read but for the connection id. *)
Definition build_body (k : kind) (e : element) : result body :=
  match k with
  | KReserve confirm => reserve_build confirm e
  | KConn => Ok (BConn (findtext "connectionId" e))
  | KFailed => failed_build e
  | KQuery => query_build e
  | KTimeout => timeout_build e
  | KDataPlane => data_plane_build e
  | KErrorEvent => error_event_build e
  | KError => do! se <- need (find1 "serviceException" e); Ok (BError (se_build se))
  | KException => Ok (BConn (findtext "connectionId" e))
  | KResults recursive => Ok (BResults recursive e)
  | KOther => Ok BOther
  end.
(** nsiconnection.py:921-965 *)
Definition parse_body (e : element) : result body :=
  match aget (e_tag e) type_map with
  | None => Err EValue
  | Some k => build_body k e
  end.
(** helper.py:129-161 [parseRequest] with the body decoded *)
Definition parse_message (fresh : string) (envelope : element) : result (dec_header * body) :=
  do! (d, bodies) <- parse_request fresh envelope;
  do! b <- match bodies with
           | [] => Ok BAbsent
           | [x] => parse_body x
           | l => do! _ <- mapM parse_body l; Ok BSeveral
           end;
  Ok (d, b).

(** [b.connectionId]: AttributeError for the classes without it.  Of a query it
    is a list, which no connection has as id; the model answers TypeError.  The
    classes that are not decoded ([BOther]) answer AttributeError, though the
    notification queries and messageDeliveryTimeout (nsiconnection.py:74-96,
    421-444, 521-542) have a connection id. *)
Definition conn_of (b : body) : result (option string) :=
  match b with
  | BReserve cid _ _ _ | BConn cid | BFailed cid _ _ | BTimeout cid _ _ _ _ _ | BDataPlane cid _ _ _ _ _
  | BErrorEvent cid _ _ _ _ _ _ _ => Ok cid
  | BQuery _ _ => Err EType
  | BError _ | BResults _ _ | BOther | BAbsent | BSeveral => Err EAttribute
  end.

(** * The provider's service: providerservice.py *)

(** the service definition handed to the provider, providerservice.py:111-113 *)
Record service_in := mkSI { si_src : stp; si_dst : stp; si_cap : Z; si_dir : string; si_sym : bool;
                            si_params : option (list (option string * option string)) }.
(** the calls on the provider, providerservice.py:120, 140, 147, 154, 161, 169, 177, 196, 204 *)
Inductive pcall :=
| PReserve (h : dec_header) (cid gid desc : option string) (rev : option string) (sc : sched) (sd : service_in)
| PConn (method : string) (h : dec_header) (cid : option string)
| PQuery (method : string) (h : dec_header) (cids gids : list (option string)).
(** a handler calls the provider, or answers with a SOAP fault of its own; e.g. providerservice.py:58-135 *)
Inductive handled := HCall (c : pcall) | HFault (e : nsi_error).
(** providerservice.py:87, 91, 104: the errors it answers with by itself *)
Definition own_error (c : nclass) (text : string) : nsi_error := mkErr c text None None None.

(** [helper.createSTP] of an attribute that may be None (AttributeError); helper.py:178-179 *)
Definition stp_of (o : option string) : result stp := match o with None => Err EAttribute | Some s => create_stp s end.
(** providerservice.py:58-120 *)
Definition handle_reserve (d : dec_header) (b : body) : result handled :=
  match b with
  | BReserve cid gid desc c =>
      match ci_sd c with
      | SDparameter => Ok (HFault (own_error PayloadError "Only supports Point2PointService service for now."))
      | SDp2p p =>
          match pi_dir p with
          | None | Some EmptyString => Ok (HFault (own_error MissingParameterError "Directionality parameter not defined"))
          | Some dir =>
              do! sc <- match ci_sched c with None => Err EAttribute | Some s => Ok s end;
              do! a <- opt_parse (fst sc);
              do! z <- opt_parse (snd sc);
              do! src <- stp_of (pi_src p);
              do! dst <- stp_of (pi_dst p);
              match pi_ero p with
              | Some (_ :: _) => Ok (HFault (own_error PayloadError "ERO not supported, go away."))
              | _ => Ok (HCall (PReserve d cid gid desc (ci_version c) (mkSched a z)
                       (mkSI src dst (pi_cap p) dir (match pi_sym p with Some x => x | None => false end) (pi_params p))))
              end
          end
      end
  | _ => Err EAttribute
  end.
(** providerservice.py:138-171 *)
Definition handle_conn (method : string) (d : dec_header) (b : body) : result handled :=
  do! cid <- conn_of b; Ok (HCall (PConn method d cid)).
(** providerservice.py:174-206 (a reservation as body has both attributes, as
    texts instead of lists: TypeError here) *)
Definition handle_query (method : string) (d : dec_header) (b : body) : result handled :=
  match b with
  | BQuery cids gids => Ok (HCall (PQuery method d cids gids))
  | BReserve _ _ _ _ => Err EType
  | _ => Err EAttribute
  end.
(** providerservice.py:32-42, the registered decoders *)
Definition provider_decoders : list (string * (dec_header -> body -> result handled)) :=
  [(ACT "reserve", handle_reserve);
   (ACT "reserveCommit", handle_conn "reserveCommit"); (ACT "reserveAbort", handle_conn "reserveAbort");
   (ACT "provision", handle_conn "provision"); (ACT "release", handle_conn "release"); (ACT "terminate", handle_conn "terminate");
   (ACT "querySummary", handle_query "querySummary"); (ACT "querySummarySync", handle_query "querySummarySync");
   (ACT "queryRecursive", handle_query "queryRecursive")].
(** soapresource.py:95-98, 134-135: the decoder of the action, if there is one *)
Definition provider_service (fresh : string) (m : message) : option (result handled) :=
  match aget (fst m) provider_decoders with
  | None => None
  | Some f => Some (do! (d, b) <- parse_message fresh (snd m); f d b)
  end.

(** * The requester's service: requesterservice.py *)

(** the calls on the requester, requesterservice.py:92-223 *)
Inductive rcall :=
| RReserveConfirmed (h : dec_header) (cid gid desc : option string) (rev : option string) (sc : sched) (sd : p2p)
| RConn (method : string) (h : dec_header) (cid : option string)
| RFailed (method : string) (h : dec_header) (cid : option string) (sts : cstates) (e : decoded_error)
| RTimeout (h : dec_header) (cid : option string) (nid : Z) (t : dt) (timeout : Z) (ocid onsa : option string)
| RDataPlane (h : dec_header) (cid : option string) (nid : Z) (ts : option string) (active : bool) (version : Z) (consistent : bool)
| RErrorEvent (h : dec_header) (cid : option string) (nid : Z) (ts event : option string)
              (info : option (list (option string * option string))) (ex : option service_exception)
| RError (h : dec_header) (se : service_exception)
| RResults (method : string) (h : dec_header) (l : list cinfo).

(** requesterservice.py:65-92; without direction nsa.py:383-384 refuses *)
Definition on_reserve_confirmed (d : dec_header) (b : body) : result rcall :=
  match b with
  | BReserve cid gid desc c =>
      do! sc <- match ci_sched c with None => Err EAttribute | Some s => Ok s end;
      do! a <- opt_parse (fst sc);
      do! z <- opt_parse (snd sc);
      match ci_sd c with
      | SDparameter => Err EValue
      | SDp2p p =>
          do! src <- stp_of (pi_src p);
          do! dst <- stp_of (pi_dst p);
          match pi_dir p with
          | None => Err EMissingParameter
          | Some dir => Ok (RReserveConfirmed d cid gid desc (ci_version c) (mkSched a z) (mkP2P src dst (pi_cap p) dir (pi_sym p)))
          end
      end
  | _ => Err EAttribute
  end.
(** requesterservice.py:103-136 *)
Definition on_confirmation (method : string) (d : dec_header) (b : body) : result rcall :=
  do! cid <- conn_of b; Ok (RConn method d cid).
(** requesterservice.py:51-62, 97-100, 109-112 *)
Definition on_failure (method : string) (d : dec_header) (b : body) : result rcall :=
  match b with
  | BFailed cid sts se => do! e <- create_exception se (d_provider d); Ok (RFailed method d cid sts e)
  | _ => Err EAttribute
  end.
(** requesterservice.py:217-225 *)
Definition on_reserve_timeout (d : dec_header) (b : body) : result rcall :=
  match b with
  | BTimeout cid nid ts tv ocid onsa =>
      do! t <- match ts with None => Err EType | Some s => parseXMLTimestamp s end;
      Ok (RTimeout d cid nid t tv ocid onsa)
  | _ => Err EAttribute
  end.
(** requesterservice.py:205-214: the time stamp is handed on as text *)
Definition on_data_plane (d : dec_header) (b : body) : result rcall :=
  match b with
  | BDataPlane cid nid ts act ver same => Ok (RDataPlane d cid nid ts act ver same)
  | _ => Err EAttribute
  end.
(** requesterservice.py:187-201: so is this one *)
Definition on_error_event (d : dec_header) (b : body) : result rcall :=
  match b with
  | BErrorEvent cid nid ts event _ _ info se => Ok (RErrorEvent d cid nid ts event info se)
  | _ => Err EAttribute
  end.
(** requesterservice.py:167-184: without variables, line 179 iterates over None *)
Definition on_error (d : dec_header) (b : body) : result rcall :=
  match b with
  | BError se => match se_vars se with None => Err EType | Some _ => Ok (RError d se) end
  | BFailed _ _ se => match se_vars se with None => Err EType | Some _ => Ok (RError d se) end
  | BErrorEvent _ _ _ _ _ _ _ (Some se) => match se_vars se with None => Err EType | Some _ => Ok (RError d se) end
  | _ => Err EAttribute
  end.
(** requesterservice.py:145-153 and 156-164; results of the other kind are not
    modelled (AttributeError) *)
Definition on_results (method : string) (recursive : bool) (d : dec_header) (b : body) : result rcall :=
  match b with
  | BResults r e =>
      if Bool.eqb r recursive then
        do! l <- (if recursive then recursive_build else summary_build) (text_or_none (d_provider d)) e;
        Ok (RResults method d l)
      else Err EAttribute
  | _ => Err EAttribute
  end.
(** requesterservice.py:25-48, the registered decoders *)
Definition requester_decoders : list (string * (dec_header -> body -> result rcall)) :=
  [(ACT "reserveConfirmed", on_reserve_confirmed); (ACT "reserveFailed", on_failure "reserveFailed");
   (ACT "reserveCommitConfirmed", on_confirmation "reserveCommitConfirmed");
   (ACT "reserveCommitFailed", on_failure "reserveCommitFailed");
   (ACT "reserveAbortConfirmed", on_confirmation "reserveAbortConfirmed");
   (ACT "provisionConfirmed", on_confirmation "provisionConfirmed");
   (ACT "releaseConfirmed", on_confirmation "releaseConfirmed");
   (ACT "terminateConfirmed", on_confirmation "terminateConfirmed");
   (ACT "querySummaryConfirmed", on_results "querySummaryConfirmed" false);
   (ACT "queryRecursiveConfirmed", on_results "queryRecursiveConfirmed" true);
   (ACT "error", on_error); (ACT "errorEvent", on_error_event); (ACT "dataPlaneStateChange", on_data_plane);
   (ACT "reserveTimeout", on_reserve_timeout);
   (ACT "messageDeliveryTimeout", fun _ _ => Err ENotImplemented)].
(** soapresource.py:95-98, 134-135; requesterservice.py:228-229 raises before parsing *)
Definition requester_service (fresh : string) (m : message) : option (result rcall) :=
  match aget (fst m) requester_decoders with
  | None => None
  | Some f => Some (if eqb (fst m) (ACT "messageDeliveryTimeout") then Err ENotImplemented
                    else do! (d, b) <- parse_message fresh (snd m); f d b)
  end.
