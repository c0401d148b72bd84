(** C69: a call to a remote provider ends for the caller as it ended at the provider. *)
From Verif Require Import Base ModelXml ModelAuthz ModelHeader ModelErrors SpecErrors ModelLabel SpecLabel ModelSTP SpecSTP
  ModelTime SpecTime ModelQueryHelper SpecQueryHelper ModelMessages SpecMessages PropsMessages ModelSoapCall SpecSoapCall ProofsSoapCall.
Open Scope Z_scope.

(** In all of these [prov] is the provider's method, any function from the call
    it gets to what it does, and [text_of] gives the texts of exceptions. *)

(** The provider's method succeeds: the caller gets its value (the connection id
    of a reservation, the connections of a synchronous query, nothing for the
    other requests), and the method was called once, with the caller's arguments. *)
Theorem C69_value : forall text_of fresh reply prov h q v w, header_ok h -> carried q -> value_seen (h_provider h) q v w ->
  (forall d, header_arrived reply h d -> prov (delivered_call d q) = PaValue v) ->
  exists d, header_arrived reply h d /\ call text_of fresh reply prov Delivered h q = Some ([delivered_call d q], OValue w).
Proof. exact c69_value. Qed.
Print Assumptions C69_value.

(** The provider's method fails: the caller gets an NSI error of the same class
    or one it derives from, with its text, agent, connection and variables; any
    other exception becomes InternalServerError with its text. *)
Theorem C69_failure : forall text_of fresh reply prov h q f, header_ok h -> carried q -> h_provider h <> "" -> about q <> Some "" ->
  plain_failure f -> (forall d, header_arrived reply h d -> prov (delivered_call d q) = PaFail f) ->
  exists d e, header_arrived reply h d /\ call text_of fresh reply prov Delivered h q = Some ([delivered_call d q], ONsi e) /\
    failure_seen (h_provider h) (about q) f e.
Proof. exact c69_failure. Qed.
Print Assumptions C69_failure.

(** The provider's method raises instead of returning a deferred: InternalServerError. *)
Theorem C69_raised : forall text_of fresh reply prov h q t, header_ok h -> carried q ->
  (forall d, header_arrived reply h d -> prov (delivered_call d q) = PaRaise t) ->
  exists d e, header_arrived reply h d /\ call text_of fresh reply prov Delivered h q = Some ([delivered_call d q], ONsi e) /\
    de_class e = InternalServerError /\ (t <> "" -> de_text e = Some t).
Proof. exact c69_raised. Qed.
Print Assumptions C69_raised.

(** The service cannot read the request: InternalServerError, and the provider is not called. *)
Theorem C69_unreadable : forall text_of fresh reply prov h q m e, send reply h q = Some m ->
  provider_service fresh (fst m, wire (snd m)) = Some (Err e) ->
  exists x, call text_of fresh reply prov Delivered h q = Some ([], ONsi x) /\
    de_class x = InternalServerError /\ (text_of e <> "" -> de_text x = Some (text_of e)).
Proof. exact c69_unreadable. Qed.
Print Assumptions C69_unreadable.

(** The service refuses the request (an explicit route): PayloadError of that
    provider, which is not called. *)
Theorem C69_route_refused : forall text_of fresh reply prov h a s l, header_ok h -> request_ok a -> h_provider h <> "" ->
  sr_ero (ra_sd a) = Some (s :: l) ->
  exists x, call text_of fresh reply prov Delivered h (QReserve a) = Some ([], ONsi x) /\
    de_class x = PayloadError /\ de_nsa x = Some (h_provider h).
Proof. exact c69_route. Qed.
Print Assumptions C69_route_refused.

(** Nobody listens: DownstreamNSAError naming the provider, which is not called. *)
Theorem C69_connection_refused : forall text_of fresh reply prov h q r m, send reply h q = Some m ->
  exists x, call text_of fresh reply prov (Refused r) h q = Some ([], ONsi x) /\
    de_class x = DownstreamNSAError /\ de_nsa x = Some (h_provider h) /\ exists a b, de_text x = Some (a +++ h_provider h +++ b +++ r).
Proof.
  intros text_of fresh reply prov h q r m H. unfold call. rewrite H. eexists. split; [reflexivity|]. split; [reflexivity|]. split; [reflexivity|].
  exists "Could not contact NSA ", ". Reason: ". reflexivity.
Qed.
Print Assumptions C69_connection_refused.

(** The documents that go back: status 200 with the reply of the schema to a call
    that succeeded, and status 500 with a SOAP fault to one that failed. *)
Definition with_body (e : element) (b : element) : Prop := exists hd, e = Elem "{SOAP}Envelope" [] None (hd ++ [Elem "{SOAP}Body" [] None [b]]).
Theorem C69_replies : forall text_of fresh prov m c v, provider_service fresh m = Some (Ok (HCall c)) -> prov c = PaValue v ->
  match c with
  | PReserve _ _ _ _ _ _ _ => forall id, v = VId id -> exists e, serve text_of fresh prov m = ([c], mkResp 200 (Xml e)) /\
      with_body e (Elem "{CT}reserveResponse" [] None [Elem "connectionId" [] id []])
  | PConn _ _ _ => exists e, serve text_of fresh prov m = ([c], mkResp 200 (Xml e)) /\ with_body e (Elem "{CT}acknowledgment" [] None [])
  | PQuery method _ _ _ => method <> "querySummarySync" ->
      exists e, serve text_of fresh prov m = ([c], mkResp 200 (Xml e)) /\ with_body e (Elem "{CT}acknowledgment" [] None [])
  end.
Proof.
  intros text_of fresh prov m c v H P. destruct c as [d o1 o2 o3 o4 o5 o6|method d cid|method d cids gids].
  - intros id ->. unfold serve. rewrite H, P. eexists. split; [reflexivity|]. eexists [_]. reflexivity.
  - unfold serve. rewrite H, P. eexists. split; [reflexivity|]. eexists [_]. reflexivity.
  - intros N. unfold serve. rewrite H, P.
    assert (E : success_reply (PQuery method d cids gids) v = Ok (acknowledgement d)).
    { unfold success_reply. cbn [call_header].
      repeat (match goal with |- context [match ?x with _ => _ end] => is_var x; destruct x; try reflexivity end); exfalso; apply N; reflexivity. }
    rewrite E. eexists. split; [reflexivity|]. eexists [_]. reflexivity.
Qed.
Print Assumptions C69_replies.
Definition fault_with (t : string) (more : list element) : element :=
  Elem "{SOAP}Fault" [] None (Elem "faultcode" [] (Some "soap:Server") [] :: Elem "faultstring" [] (Some t) [] :: more).
Theorem C69_faults : forall text_of fresh prov m c, provider_service fresh m = Some (Ok (HCall c)) ->
  (forall t, prov c = PaRaise t -> exists e, serve text_of fresh prov m = ([c], mkResp 500 (Xml e)) /\ with_body e (fault_with t [])) /\
  (forall t, prov c = PaFail (FOther t) -> exists e x, serve text_of fresh prov m = ([c], mkResp 500 (Xml e)) /\
     with_body e (fault_with t [Elem "detail" [] None [x]]) /\ e_tag x = "{FT}serviceException") /\
  (forall n, prov c = PaFail (FNsi n) -> exists e x, serve text_of fresh prov m = ([c], mkResp 500 (Xml e)) /\
     with_body e (fault_with (er_text n) [Elem "detail" [] None [x]]) /\ e_tag x = "{FT}serviceException").
Proof.
  intros text_of fresh prov m c H. unfold serve. rewrite H. split; [|split]; intros t ->.
  - eexists. split; [reflexivity|]. eexists [_]. reflexivity.
  - eexists _, _. split; [reflexivity|]. split; [eexists [_]; reflexivity|reflexivity].
  - eexists _, _. split; [reflexivity|]. split; [eexists [_]; reflexivity|reflexivity].
Qed.
Print Assumptions C69_faults.

(** Whatever happens the provider is called at most once. *)
Theorem C69_at_most_once : forall text_of fresh reply prov f h q cs o,
  call text_of fresh reply prov f h q = Some (cs, o) -> (List.length cs <= 1)%nat.
Proof. exact c69_at_most_once. Qed.
Print Assumptions C69_at_most_once.

(** A call that succeeded for the caller succeeded at the provider: for every
    request and every fate of the connection but one.  Missing from the full
    statement: connections that close before the response. *)
Theorem C69_sound_partial : forall text_of fresh reply prov f h q cs v,
  call text_of fresh reply prov f h q = Some (cs, OValue v) -> (forall b, f <> Closed b) ->
  exists c w, cs = [c] /\ prov c = PaValue w.
Proof. exact c69_sound. Qed.
Print Assumptions C69_sound_partial.

Definition s_texts (e : exn) : string := "text".
Definition s_unused (c : pcall) : panswer := PaFail (FOther "not ready").
(** When the connection closes before the response, commit, abort, provision,
    release and terminate succeed for the caller, whether the provider failed,
    succeeded or was never called; a reservation ends with TypeError. *)
Theorem C69_lost_refuted :
  (forall text_of fresh reply prov h method cid b, In method simple_requests ->
     exists cs, call text_of fresh reply prov (Closed b) h (QConn method cid) = Some (cs, OValue VNone)) /\
  (forall text_of fresh reply prov h a b, exists cs, call text_of fresh reply prov (Closed b) h (QReserve a) = Some (cs, OExn EType)) /\
  ~ (forall text_of fresh reply prov f h q cs v, call text_of fresh reply prov f h q = Some (cs, OValue v) ->
     exists c w, cs = [c] /\ prov c = PaValue w).
Proof.
  split; [exact c69_lost|]. split; [exact c69_lost_reserve|]. intros H.
  destruct (H s_texts "f" "https://a/" s_unused (Closed false) m_hdr (QConn "reserveCommit" "conn-1") [] VNone eq_refl) as (c & w & E & _).
  discriminate E.
Qed.
Print Assumptions C69_lost_refuted.

(** a reservation whose provider assigns an id, and one that fails *)
Definition s_assigns (c : pcall) : panswer := match c with PReserve _ _ _ _ _ _ _ => PaValue (VId (Some "conn-7")) | _ => PaFail (FNsi m_err) end.
Example C69_ex :
  match call s_texts "f" "https://a/" s_assigns Delivered m_hdr (QReserve (m_req None)) with
  | Some (cs, o) => (List.length cs, o)
  | None => (0%nat, OValue VNone)
  end = (1%nat, OValue (VId (Some "conn-7"))) /\
  match call s_texts "f" "https://a/" s_assigns Delivered m_hdr (QConn "provision" "conn-1") with
  | Some (_, ONsi e) => (de_class e, de_text e, de_nsa e, de_conn e)
  | _ => (NSIError, None, None, None)
  end = (BandwidthUnavailableError, Some "no room", Some "urn:ogf:network:b.net:nsa", Some "c").
Proof. split; vm_compute; reflexivity. Qed.
Example C69_ex_hypotheses : header_ok m_hdr /\ carried (QReserve (m_req None)) /\ carried (QConn "provision" "conn-1") /\
  value_seen (h_provider m_hdr) (QReserve (m_req None)) (VId (Some "conn-7")) (VId (Some "conn-7")) /\
  (forall d, header_arrived "https://a/" m_hdr d -> s_assigns (delivered_call d (QReserve (m_req None))) = PaValue (VId (Some "conn-7"))) /\
  (forall d, header_arrived "https://a/" m_hdr d -> s_assigns (delivered_call d (QConn "provision" "conn-1")) = PaFail (FNsi m_err)) /\
  plain_failure (FNsi m_err).
Proof.
  split; [exact m_hdr_ok|]. split; [split; [apply m_req_ok|left; reflexivity]|]. split; [unfold carried, simple_requests; cbn; auto|].
  split; [exists "conn-7"; auto|]. split; [reflexivity|]. split; [reflexivity|]. discriminate.
Qed.
Example C69_sync_ex :
  value_seen (h_provider m_hdr) (QQuery "querySummarySync" None None) (VList [m_conn "x"]) (VList [summary_seen (h_provider m_hdr) (m_conn "x")]) /\
  match call s_texts "f" "https://a/" (fun _ => PaValue (VList [m_conn "x"])) Delivered m_hdr (QQuery "querySummarySync" None None) with
  | Some (_, o) => o
  | None => OStatus 0
  end = OValue (VList [summary_seen "urn:ogf:network:b.net:nsa" (m_conn "x")]).
Proof.
  split; [|vm_compute; reflexivity]. exists [m_conn "x"]. split; [reflexivity|]. split; [|reflexivity].
  constructor; [|constructor]. split; [discriminate|]. constructor; [|constructor]. split; [exact m_sched_ok|]. exists m_p2p.
  split; [reflexivity|exact m_p2p_ok].
Qed.
(** a provider that raises *)
Example C69_raised_ex :
  match call s_texts "f" "https://a/" (fun _ => PaRaise "no such method") Delivered m_hdr (QQuery "querySummary" None None) with
  | Some (_, ONsi e) => (de_class e, de_text e)
  | _ => (NSIError, None)
  end = (InternalServerError, Some "no such method").
Proof. vm_compute. reflexivity. Qed.
(** a request the service cannot read: an STP without a network *)
Example C69_unreadable_ex :
  match call s_texts "f" "https://a/" s_assigns Delivered m_hdr
          (QReserve (mkRA None None None 0 m_sched (mkSR (mkP2P (mkSTP "a.net" "p?q?r" None) (m_stp "p2") 1 "Bidirectional" None) None None))) with
  | Some (cs, ONsi e) => (cs, de_class e, de_text e)
  | _ => ([], NSIError, None)
  end = ([], InternalServerError, Some "text").
Proof. vm_compute. reflexivity. Qed.
