(** A call through the NSI protocol from end to end: the requester's client
    (protocols/nsi2/requesterclient.py), the HTTP client
    (protocols/shared/httpclient.py), the SOAP resource
    (protocols/shared/soapresource.py) and the provider's service
    (protocols/nsi2/providerservice.py), around a provider given as a function
    from calls to answers. *)
From Verif Require Import Base ModelXml ModelAuthz ModelHeader ModelErrors ModelTime ModelQueryHelper ModelMessages.
Open Scope Z_scope.

(** * The provider behind the service *)

(** what the methods of a provider give back: aggregator.py:222-360 (an id for
    reserve), 560-700 (nothing, or connections for querySummarySync) *)
Inductive pvalue := VId (cid : option string) | VNone | VList (l : list cinfo).
(** an exception is an NSI error or something else with a text; helper.py:100-110 *)
Inductive failing := FNsi (e : nsi_error) | FOther (text : string).
(** the method's deferred succeeds or fails, or the method raises at once
    ([text] is the text of the exception, [err.getErrorMessage()]); providerservice.py:138-142 *)
Inductive panswer := PaValue (v : pvalue) | PaFail (f : failing) | PaRaise (text : string).

(** * The server: soapresource.py and providerservice.py *)

(** an HTTP response: a status and a body that is XML or is not; soapresource.py:102-132 *)
Inductive payload := Xml (e : element) | NotXml.
(** soapresource.py:100-138: what is sent back *)
Record response := mkResp { rs_status : Z; rs_body : payload }.

(** minisoap.py:18, 75-101 *)
Definition T_FAULT : string := "{SOAP}Fault".
(** minisoap.py:20-24, 75-101 *)
Definition soap_fault (text : string) (detail : option element) : element :=
  soap_payload None
    (Some (Elem T_FAULT [] None
       ([leaf "faultcode" (Some "soap:Server"); leaf "faultstring" (Some text)] ++
        match detail with None => [] | Some d => [Elem "detail" [] None [d]] end))).
(** soapresource.py:104-107, 119-131: status 500 *)
Definition fault_response (text : string) (detail : option element) : response := mkResp 500 (Xml (soap_fault text detail)).

(** the text of an exception, [err.getErrorMessage()]; providerservice.py:49-54 *)
Definition failing_text (f : failing) : string := match f with FNsi e => er_text e | FOther t => t end.
(** helper.py:95-110 *)
Definition failing_exception (f : failing) (provider conn : option string) : service_exception :=
  match f with
  | FNsi e => create_service_exception e provider conn None
  | FOther t => create_service_exception_other t provider conn None
  end.
(** providerservice.py:47-55: the service type given at line 88 is not used *)
Definition create_fault (f : failing) (provider conn : option string) : response :=
  fault_response (failing_text f) (Some (se_xml FT_SERVICE_EXCEPTION (failing_exception f provider conn))).

(** helper.py:62-63 from a decoded header: no reply address, attributes or trace;
    nsiframework.py:37-39 writes with [str] *)
Definition reply_header (d : dec_header) : element :=
  header_xml CS2_PROVIDER (mkHdr (py_str_opt (d_requester d)) (py_str_opt (d_provider d)) (py_str_opt (d_corr d)) None [] None).
(** helper.py:74-84 with nsiconnection.py:279-289 *)
Definition acknowledgement (d : dec_header) : element :=
  soap_payload (Some (reply_header d)) (Some (Elem (CT "acknowledgment") [] None [])).
(** providerservice.py:122-131 with nsiconnection.py:302-305 *)
Definition reserve_acknowledgement (d : dec_header) (cid : option string) : element :=
  soap_payload (Some (reply_header d)) (Some (Elem (CT "reserveResponse") [] None [leaf "connectionId" cid])).
(** providerservice.py:184-193 *)
Definition sync_reply (d : dec_header) (l : list cinfo) : result element :=
  do! e <- summary_xml (CT "querySummarySyncConfirmed") l;
  Ok (soap_payload (Some (reply_header d)) (Some e)).

(** the header and the connection a fault names by default, providerservice.py:134,
    141, 148, 155, 162, 170, 178, 197, 205: the requests with a connection id
    name it, the others name none *)
Definition call_header (c : pcall) : dec_header :=
  match c with PReserve d _ _ _ _ _ _ | PConn _ d _ | PQuery _ d _ _ => d end.
(** providerservice.py:134-205, [errbackArgs] *)
Definition call_conn (c : pcall) : option string :=
  match c with PConn _ _ cid => cid | PReserve _ _ _ _ _ _ _ | PQuery _ _ _ _ => None end.
(** the reply to a call that succeeded: providerservice.py:122-134 (reserve),
    184-197 (querySummarySync), the generic acknowledgement otherwise.  A value
    of the wrong kind cannot be written: TypeError. *)
Definition success_reply (c : pcall) (v : pvalue) : result element :=
  let d := call_header c in
  match c with
  | PReserve _ _ _ _ _ _ _ =>
      match v with
      | VId cid => Ok (reserve_acknowledgement d cid)
      | VNone => Ok (reserve_acknowledgement d None)
      | VList _ => Err EType
      end
  | PQuery "querySummarySync" _ _ _ => match v with VList l => sync_reply d l | _ => Err EType end
  | PConn _ _ _ | PQuery _ _ _ _ => Ok (acknowledgement d)
  end.

Section Server.
(** the text of an exception raised while reading a request or writing a reply *)
Variable text_of : exn -> string.

(** soapresource.py:100-138 with the provider behind it: the calls made on the
    provider, and the response.  An unknown action: status 406 and a [str] as
    body (95-98); twisted.web replies to a body that is not bytes with an error
    page and status 500. *)
Definition serve (fresh : string) (prov : pcall -> panswer) (m : message) : list pcall * response :=
  match provider_service fresh m with
  | None => ([], mkResp 500 NotXml)
  | Some (Err e) => ([], fault_response (text_of e) None)
  | Some (Ok (HFault e)) =>
      ([], create_fault (FNsi e)
             (match parse_request fresh (snd m) with Ok (d, _) => d_provider d | Err _ => None end) None)
  | Some (Ok (HCall c)) =>
      ([c],
       match prov c with
       | PaRaise t => fault_response t None
       | PaFail f => create_fault f (d_provider (call_header c)) (call_conn c)
       | PaValue v =>
           match success_reply c v with
           | Ok e => mkResp 200 (Xml e)
           | Err e => fault_response (text_of e) None
           end
       end)
  end.

(** * The client: httpclient.py and requesterclient.py *)

(** how a call ends for the caller: a value, an NSI error, another exception, a
    response with another status; requesterclient.py:55-85 *)
Inductive outcome := OValue (v : pvalue) | ONsi (e : decoded_error) | OExn (e : exn) | OStatus (s : Z).

(** minisoap.py:127-161: the text and the detail of a fault.  The detail is
    written and parsed again. *)
Definition parse_fault (e : element) : result (option string * option element) :=
  if negb (eqb (e_tag e) T_ENVELOPE) then Err EValue else
  match find1 T_SOAP_BODY e with
  | None => Err EValue
  | Some b =>
      match find1 T_FAULT b with
      | None => Err EValue
      | Some f =>
          match find1 "faultcode" f, find1 "faultstring" f with
          | Some _, Some s =>
              Ok (e_text s, match find1 "detail" f with
                            | None => None
                            | Some d => match e_kids d with [] => None | x :: _ => Some (wire x) end
                            end)
          | _, _ => Err EValue
          end
      end
  end.
(** requesterclient.py:69-85 for a reply of status 500.  A detail of another
    binding class has no error id: AttributeError (its own decoding is left out). *)
Definition fault_outcome (provider : string) (b : payload) : outcome :=
  match b with
  | NotXml => OExn EValue        (* ET.ParseError, a SyntaxError *)
  | Xml e =>
      match parse_fault e with
      | Err x => OExn x
      | Ok (text, None) => ONsi (mkDE InternalServerError text None None None)
      | Ok (_, Some d) =>
          match aget (e_tag d) type_map with
          | None => OExn EValue
          | Some KException => match create_exception (se_build d) (Some provider) with Ok x => ONsi x | Err x => OExn x end
          | Some _ => OExn EAttribute
          end
      end
  end.

(** the requests of a client, requesterclient.py:87-241 *)
Inductive request :=
| QReserve (a : reserve_args)
| QConn (method cid : string)
| QQuery (method : string) (cids gids : option (list string)).
(** the message of a request; requesterclient.py:87-240 *)
Definition send (reply_to : string) (h : nsi_header) (q : request) : option message :=
  match q with
  | QReserve a => Some (send_reserve reply_to h a)
  | QConn method cid => send_conn reply_to h method cid
  | QQuery method cids gids => send_query reply_to h method cids gids
  end.

(** requesterclient.py:129-131 [_handleAck] *)
Definition handle_ack (fresh : string) (e : element) : outcome :=
  match (do! (_, b) <- parse_message fresh e; conn_of b) with Ok c => OValue (VId c) | Err x => OExn x end.
(** requesterclient.py:210-212 [gotReply] *)
Definition handle_sync (fresh : string) (e : element) : outcome :=
  match (do! (d, b) <- parse_message fresh e;
         match b with
         | BResults false x => summary_build (text_or_none (d_provider d)) x
         | _ => Err EAttribute
         end) with
  | Ok l => OValue (VList l)
  | Err x => OExn x
  end.
(** what the client does with the data of a good reply; [None] is the absent
    data of a closed connection: [ET.fromstring(None)] raises TypeError;
    requesterclient.py:129-135, 210-224 *)
Definition handle_reply (fresh : string) (q : request) (data : option payload) : outcome :=
  let reading f := match data with None => OExn EType | Some NotXml => OExn EValue | Some (Xml e) => f (wire e) end in
  match q with
  | QReserve _ => reading (handle_ack fresh)
  | QQuery "querySummarySync" _ _ => reading (handle_sync fresh)
  | QConn _ _ | QQuery _ _ _ => OValue VNone      (* [lambda sd: None] *)
  end.

(** what becomes of the connection: the request is delivered and the response
    comes back; the connection is refused; it closes before the response, the
    request delivered or not; anything else goes wrong before the request is
    delivered; httpclient.py:85-110 *)
Inductive fate := Delivered | Refused (reason : string) | Closed (delivered : bool) | Broken (e : exn).

(** requesterclient.py:55-67 *)
Definition refused_error (h : nsi_header) (reason : string) : decoded_error :=
  mkDE DownstreamNSAError (Some ("Could not contact NSA " +++ h_provider h +++ ". Reason: " +++ reason)) (Some (h_provider h)) None None.

(** One call: the calls made on the provider and how it ends.
    httpclient.py:87-104: a closed connection is logged, and its errback ends
    with [None], so that the callback goes on with no data; a response of
    another status than 200 is an error. *)
Definition call (fresh reply_to : string) (prov : pcall -> panswer) (f : fate) (h : nsi_header) (q : request) : option (list pcall * outcome) :=
  match send reply_to h q with
  | None => None
  | Some m =>
      let served := serve fresh prov (fst m, wire (snd m)) in
      Some
        match f with
        | Refused reason => ([], ONsi (refused_error h reason))
        | Broken e => ([], OExn e)
        | Closed delivered => (if delivered then fst served else [], handle_reply fresh q None)
        | Delivered =>
            (fst served,
             let r := snd served in
             if rs_status r =? 200 then handle_reply fresh q (Some (rs_body r))
             else if rs_status r =? 500 then
               fault_outcome (h_provider h) (match rs_body r with Xml e => Xml (wire e) | NotXml => NotXml end)
             else OStatus (rs_status r))
        end
  end.
End Server.
