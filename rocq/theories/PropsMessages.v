(** C60 to C66: NSI messages between a requester and a provider. *)
From Verif Require Import Base ModelXml ModelAuthz ModelHeader ModelErrors SpecErrors ModelLabel SpecLabel ModelSTP SpecSTP
  ModelTime SpecTime ModelQueryHelper SpecQueryHelper ModelMessages SpecMessages ProofsMessages.
Open Scope Z_scope.

(** * C60: a reservation request arrives as it was sent *)

(** For every header and request without an explicit route, the provider is
    called exactly once, with the header, ids, description, schedule, STPs,
    capacity, direction, symmetry and parameters of the caller; the revision
    arrives as the text of the number. *)
Theorem C60_request_arrives : forall fresh reply h a, header_ok h -> request_ok a -> no_route a ->
  exists d, header_arrived reply h d /\ provider_service fresh (carry (send_reserve reply h a)) =
    Some (Ok (HCall (PReserve d (ra_cid a) (ra_gid a) (ra_desc a) (Some (py_str (ra_rev a))) (ra_sched a) (service_seen (ra_sd a))))).
Proof. exact c60_arrives. Qed.
Print Assumptions C60_request_arrives.

(** A request with an explicit route is refused: the provider is not called. *)
Theorem C60_route_refused : forall fresh reply h a s l, header_ok h -> request_ok a -> sr_ero (ra_sd a) = Some (s :: l) ->
  exists e, provider_service fresh (carry (send_reserve reply h a)) = Some (Ok (HFault e)) /\ er_class e = PayloadError.
Proof. intros fresh reply h a s l H1 H2 H3. eexists. split; [exact (c60_route_refused fresh reply h a s l H1 H2 H3)|reflexivity]. Qed.
Print Assumptions C60_route_refused.

Definition m_hdr : nsi_header :=
  mkHdr "urn:ogf:network:a.net:nsa" "urn:ogf:network:b.net:nsa" "urn:uuid:1" None [mkSA "token" "t"] (Some ["urn:ogf:network:a.net:nsa:conn-1"]).
Definition m_stp (port : string) : stp := mkSTP "a.net" port (Some (mkLabel "vlan" [(1780, 1780)])).
Definition m_p2p : p2p := mkP2P (m_stp "p1") (m_stp "p2") 100 "Bidirectional" None.
Definition m_sched : sched := mkSched (Some (mkDt 2024 2 29 12 0 0 0)) None.
Definition m_req (ero : option (list stp)) : reserve_args :=
  mkRA None (Some "gid") (Some "") 0 m_sched (mkSR m_p2p ero (Some [("qos", "gold")])).
Lemma m_sched_ok : sched_ok m_sched.
Proof. split; intros t; [|discriminate]. intros H. injection H as <-. vm_compute. intuition congruence. Qed.
Lemma m_p2p_ok : p2p_ok m_p2p.
Proof.
  split; (do 4 (split; [reflexivity|])); intros l H; injection H as <-; (split; [left; reflexivity|]); (split; [discriminate|]);
  (split; [constructor; lia|]); intros lo hi [E|[]]; injection E as <- <-; lia.
Qed.
Lemma m_hdr_ok : header_ok m_hdr.
Proof.
  split; [|split; [discriminate|split; [discriminate|]]].
  - intros sa [<-|[]]. discriminate.
  - intros tr c H. injection H as <-. intros [<-|[]]. discriminate.
Qed.
Lemma m_req_ok ero : request_ok (m_req ero).
Proof.
  split; [exact m_sched_ok|]. split; [exact m_p2p_ok|]. split; [discriminate|]. intros l kv H. injection H as <-. intros [<-|[]]. discriminate.
Qed.
Example C60_ex :
  provider_service "f" (carry (send_reserve "https://a/" m_hdr (m_req None))) =
  Some (Ok (HCall (PReserve (mkDH (Some "urn:ogf:network:a.net:nsa") (Some "urn:ogf:network:b.net:nsa") (Some "urn:uuid:1") (Some "https://a/")
                             [mkSA "token" "t"] (Some [Some "urn:ogf:network:a.net:nsa:conn-1"]))
    None (Some "gid") (Some "") (Some "0") m_sched (mkSI (m_stp "p1") (m_stp "p2") 100 "Bidirectional" false (Some [(Some "qos", Some "gold")])))) ).
Proof. vm_compute. reflexivity. Qed.
Example C60_route_ex : exists e, provider_service "f" (carry (send_reserve "https://a/" m_hdr (m_req (Some [m_stp "p3"])))) = Some (Ok (HFault e)) /\
  er_class e = PayloadError.
Proof. eexists. split; [vm_compute; reflexivity|reflexivity]. Qed.
(** the excluded case: a parameter with an empty value arrives without one *)
Example C60_empty_parameter :
  match provider_service "f" (carry (send_reserve "https://a/" m_hdr (mkRA None None None 0 m_sched (mkSR m_p2p None (Some [("qos", "")]))))) with
  | Some (Ok (HCall (PReserve _ _ _ _ _ _ sd))) => si_params sd
  | _ => None
  end = Some [(Some "qos", None)].
Proof. vm_compute. reflexivity. Qed.

(** * C61: a reservation's confirmation arrives as it was sent *)

Theorem C61_confirmation_arrives : forall fresh h cid gid desc rev sc p, h_corr h <> "" -> sched_ok sc -> p2p_ok p ->
  exists m, send_reserve_confirmed h cid gid desc rev sc p = Ok m /\
    requester_service fresh (carry m) =
    Some (Ok (RReserveConfirmed (answer_header h) (Some cid) gid desc (Some (py_str rev)) sc p)).
Proof. exact c61_arrives. Qed.
Print Assumptions C61_confirmation_arrives.
Example C61_ex : h_corr m_hdr <> "" /\ sched_ok m_sched /\ p2p_ok m_p2p /\
  match send_reserve_confirmed m_hdr "conn-1" None (Some "d") 3 m_sched m_p2p with
  | Ok m => requester_service "f" (carry m)
  | Err _ => None
  end = Some (Ok (RReserveConfirmed (answer_header m_hdr) (Some "conn-1") None (Some "d") (Some "3") m_sched m_p2p)).
Proof. split; [discriminate|]. split; [exact m_sched_ok|]. split; [exact m_p2p_ok|]. vm_compute. reflexivity. Qed.

(** * C62: simple requests and confirmations *)

(** commit, abort, provision, release and terminate reach the method of their
    own name with their connection id; so do the five confirmations *)
Theorem C62_requests_arrive : forall fresh reply h method cid, header_ok h -> In method simple_requests ->
  exists m d, send_conn reply h method cid = Some m /\ header_arrived reply h d /\
    provider_service fresh (carry m) = Some (Ok (HCall (PConn method d (Some cid)))).
Proof. exact c62_requests. Qed.
Print Assumptions C62_requests_arrive.
Theorem C62_confirmations_arrive : forall fresh h method cid, h_corr h <> "" -> In method simple_confirmations ->
  exists m, send_confirmation h method cid = Some m /\
    requester_service fresh (carry m) = Some (Ok (RConn method (answer_header h) (Some cid))).
Proof. exact c62_confirmations. Qed.
Print Assumptions C62_confirmations_arrive.
(** whatever is received: a method of the provider or requester is called only by a message with the action of that name *)
Theorem C62_action_decides : forall fresh m c, provider_service fresh m = Some (Ok (HCall c)) ->
  match c with
  | PReserve _ _ _ _ _ _ _ => fst m = ACT "reserve"
  | PConn method _ _ | PQuery method _ _ _ => fst m = ACT method
  end.
Proof. exact c62_action_decides. Qed.
Print Assumptions C62_action_decides.
Theorem C62_action_decides_requester : forall fresh m c, requester_service fresh m = Some (Ok c) ->
  fst m = ACT match c with
              | RReserveConfirmed _ _ _ _ _ _ _ => "reserveConfirmed"
              | RConn method _ _ | RFailed method _ _ _ _ | RResults method _ _ => method
              | RTimeout _ _ _ _ _ _ _ => "reserveTimeout"
              | RDataPlane _ _ _ _ _ _ _ => "dataPlaneStateChange"
              | RErrorEvent _ _ _ _ _ _ _ => "errorEvent"
              | RError _ _ => "error"
              end.
Proof. exact c62_action_decides_requester. Qed.
Print Assumptions C62_action_decides_requester.
Example C62_ex :
  (exists m, send_conn "https://a/" m_hdr "release" "conn-1" = Some m /\
     match provider_service "f" (carry m) with Some (Ok (HCall (PConn n _ c))) => n = "release" /\ c = Some "conn-1" | _ => False end) /\
  (exists m, send_confirmation m_hdr "terminateConfirmed" "conn-1" = Some m /\
     requester_service "f" (carry m) = Some (Ok (RConn "terminateConfirmed" (answer_header m_hdr) (Some "conn-1")))).
Proof. split; eexists; (split; [reflexivity|]); vm_compute; [split|]; reflexivity. Qed.
(** the body's element name is not compared with the action: a release sent with
    the action of terminate terminates *)
Example C62_action_only :
  match send_conn "https://a/" m_hdr "release" "conn-1" with
  | Some m => match provider_service "f" (ACT "terminate", wire (snd m)) with Some (Ok (HCall (PConn n _ c))) => (n, c) | _ => ("", None) end
  | None => ("", None)
  end = ("terminate", Some "conn-1").
Proof. vm_compute. reflexivity. Qed.
(** nobody registered the failures other than the two of reservations *)
Example C62_not_registered : forall e, requester_service "f" (ACT "terminateFailed", e) = None.
Proof. reflexivity. Qed.

(** * C63: failures *)

Theorem C63_failure_arrives : forall fresh h method cid sts e, h_corr h <> "" -> h_provider h <> "" -> er_class e <> NSIError ->
  In method ["reserveFailed"; "reserveCommitFailed"] ->
  exists m d, send_failure h method cid sts e = Some m /\ error_seen (h_provider h) e d /\
    requester_service fresh (carry m) = Some (Ok (RFailed method (answer_header h) (Some cid) sts d)).
Proof. exact c63_arrives. Qed.
Print Assumptions C63_failure_arrives.
Definition m_states : cstates := mkCS "ReserveFailed" "Released" "Created" false 0 true.
Definition m_err : nsi_error := mkErr BandwidthUnavailableError "no room" None (Some "c") (Some [("capacity", "100")]).
Example C63_ex :
  match send_failure m_hdr "reserveFailed" "conn-1" m_states m_err with
  | Some m => match requester_service "f" (carry m) with
              | Some (Ok (RFailed n _ c s d)) => (n, c, s, de_class d, de_text d, de_conn d, de_nsa d)
              | _ => ("", None, m_states, NSIError, None, None, None)
              end
  | None => ("", None, m_states, NSIError, None, None, None)
  end = ("reserveFailed", Some "conn-1", m_states, BandwidthUnavailableError, Some "no room", Some "c", Some "urn:ogf:network:b.net:nsa").
Proof. vm_compute. reflexivity. Qed.

(** * C64: notifications *)

(** a reservation's timeout arrives with all its values *)
Theorem C64_timeout_arrives : forall fresh h cid nid t tv ocid onsa, h_corr h <> "" -> time_exists t ->
  exists m, send_reserve_timeout h cid nid t tv (Some ocid) (Some onsa) = Ok m /\
    requester_service fresh (carry m) = Some (Ok (RTimeout (answer_header h) (Some cid) nid t tv (Some ocid) (Some onsa))).
Proof. exact c64_timeout. Qed.
Print Assumptions C64_timeout_arrives.
(** a change of the data plane arrives with all its values, the time as a text that denotes it *)
Theorem C64_data_plane_arrives : forall fresh h cid nid t act ver same, h_corr h <> "" -> time_exists t ->
  exists m s, send_data_plane_change h cid nid t act ver same = Ok m /\ parseXMLTimestamp s = Ok t /\
    requester_service fresh (carry m) = Some (Ok (RDataPlane (answer_header h) (Some cid) nid (Some s) act ver same)).
Proof. exact c64_data_plane. Qed.
Print Assumptions C64_data_plane_arrives.
(** an error event without an exception arrives; its additional information does
    not.  Missing from the full statement: error events with an exception. *)
Theorem C64_error_event_partial : forall fresh h cid nid t event info, h_corr h <> "" -> time_exists t ->
  exists m s, send_error_event h cid nid t event info None = Ok m /\ parseXMLTimestamp s = Ok t /\
    requester_service fresh (carry m) = Some (Ok (RErrorEvent (answer_header h) (Some cid) nid (Some s) (Some event) None None)).
Proof. exact c64_error_event_plain. Qed.
Print Assumptions C64_error_event_partial.
(** an error event with an exception is never sent: the sender raises TypeError *)
Theorem C64_error_event_refuted :
  (forall h cid nid t event info ex, send_error_event h cid nid t event info (Some ex) = Err EType) /\
  ~ (forall fresh h cid nid t event info ex, h_corr h <> "" -> time_exists t ->
     exists m d ts i x, send_error_event h cid nid t event info ex = Ok m /\
       requester_service fresh (carry m) = Some (Ok (RErrorEvent d (Some cid) nid ts (Some event) i x))).
Proof.
  split; [exact c64_error_event_fails|]. intros H.
  assert (time_exists (mkDt 2024 1 1 0 0 0 0)) as T by (vm_compute; intuition congruence).
  destruct (H "f" m_hdr "c" 1 _ "activateFailed" None (Some (mkEE None None None None)) ltac:(discriminate) T) as (m & d & ts & i & x & E & _).
  rewrite c64_error_event_fails in E. discriminate E.
Qed.
Print Assumptions C64_error_event_refuted.
Example C64_ex :
  match send_reserve_timeout m_hdr "conn-1" 4 (mkDt 2024 1 1 0 0 0 0) 30 (Some "conn-2") (Some "urn:ogf:network:c.net:nsa") with
  | Ok m => requester_service "f" (carry m)
  | Err _ => None
  end = Some (Ok (RTimeout (answer_header m_hdr) (Some "conn-1") 4 (mkDt 2024 1 1 0 0 0 0) 30 (Some "conn-2") (Some "urn:ogf:network:c.net:nsa"))) /\
  match send_data_plane_change m_hdr "conn-1" 5 (mkDt 2024 1 1 0 0 0 0) true 0 false with
  | Ok m => requester_service "f" (carry m)
  | Err _ => None
  end = Some (Ok (RDataPlane (answer_header m_hdr) (Some "conn-1") 5 (Some "2024-01-01T00:00:00Z") true 0 false)).
Proof. split; vm_compute; reflexivity. Qed.

(** * C65: queries ask for what the caller asked for *)

Theorem C65_query_arrives : forall fresh reply h method cids gids, header_ok h -> In method queries ->
  (forall i, In i (ids cids ++ ids gids) -> i <> "") ->
  exists m d, send_query reply h method cids gids = Some m /\ header_arrived reply h d /\
    provider_service fresh (carry m) = Some (Ok (HCall (PQuery method d (map Some (ids cids)) (map Some (ids gids))))).
Proof. exact c65_requests. Qed.
Print Assumptions C65_query_arrives.
Example C65_ex :
  match send_query "https://a/" m_hdr "queryRecursive" (Some ["c1"; "c2"]) None with
  | Some m => match provider_service "f" (carry m) with Some (Ok (HCall (PQuery n _ c g))) => (n, c, g) | _ => ("", [], []) end
  | None => ("", [], [])
  end = ("queryRecursive", [Some "c1"; Some "c2"], []).
Proof. vm_compute. reflexivity. Qed.

(** * C66: query results *)

(** a summary of any number of connections arrives in order, each with its ids,
    description, requester, states, schedules, service definitions and revisions *)
Theorem C66_summary_arrives : forall fresh h l, h_corr h <> "" -> Forall summary_ok l ->
  exists m, send_summary h l = Ok m /\
    requester_service fresh (carry m) = Some (Ok (RResults "querySummaryConfirmed" (answer_header h) (map (summary_seen (h_provider h)) l))).
Proof. exact c66_summary. Qed.
Print Assumptions C66_summary_arrives.
(** so does the answer to a recursive query, with the trees of C55 *)
Theorem C66_recursive_arrives : forall fresh h l, h_corr h <> "" -> Forall (top_ok 10) l ->
  exists m, send_recursive h l = Ok m /\
    requester_service fresh (carry m) = Some (Ok (RResults "queryRecursiveConfirmed" (answer_header h) (map (seen (h_provider h)) l))).
Proof. exact c66_recursive. Qed.
Print Assumptions C66_recursive_arrives.
Definition m_conn (id : string) : cinfo :=
  CI id (Some "gid") None "anything" [QC 2 m_sched (Some m_p2p) []] "us" (Some "urn:ogf:network:a.net:nsa") m_states None (Some 3).
Example C66_ex :
  Forall summary_ok [m_conn "x"; m_conn "y"] /\
  match send_summary m_hdr [m_conn "x"; m_conn "y"] with
  | Ok m => requester_service "f" (carry m)
  | Err _ => None
  end = Some (Ok (RResults "querySummaryConfirmed" (answer_header m_hdr) (map (summary_seen "urn:ogf:network:b.net:nsa") [m_conn "x"; m_conn "y"]))).
Proof.
  split; [|vm_compute; reflexivity].
  assert (forall i, summary_ok (m_conn i)) as K.
  { intros i. split; [discriminate|]. constructor; [|constructor]. split; [exact m_sched_ok|]. exists m_p2p. split; [reflexivity|exact m_p2p_ok]. }
  constructor; [apply K|]. constructor; [apply K|constructor].
Qed.
