(** Proofs about calls through the protocol. *)
From Verif Require Import Base BaseProofs ModelXml ModelAuthz ModelHeader ProofsHeader ModelErrors SpecErrors ProofsErrors
  ModelTime ModelQueryHelper SpecQueryHelper ProofsQueryHelper ModelMessages SpecMessages ProofsMessages ModelSoapCall SpecSoapCall.
Open Scope Z_scope.

Lemma wire_wire : forall e, wire (wire e) = wire e.
Proof.
  fix IH 1. intros [t a x k]. cbn [wire]. f_equal.
  - destruct x as [[|c s]|]; reflexivity.
  - induction k as [|e k IHk]; [reflexivity|]. cbn [map]. f_equal; [apply IH|exact IHk].
Qed.
Lemma delivered_ok fresh reply h q : header_ok h -> carried q ->
  exists m d, send reply h q = Some m /\ header_arrived reply h d /\
    provider_service fresh (fst m, wire (snd m)) = Some (Ok (HCall (delivered_call d q))).
Proof.
  intros H C. destruct q as [a|method cid|method cids gids]; cbn [send carried delivered_call] in *.
  - destruct C as (C1 & C2). destruct (c60_arrives fresh reply h a H C1 C2) as (d & A & E). eauto.
  - destruct (c62_requests fresh reply h method cid H C) as (m & d & E1 & A & E2). eauto.
  - destruct C as (C1 & C2). destruct (c65_requests fresh reply h method cids gids H C1 C2) as (m & d & E1 & A & E2). eauto.
Qed.

Lemma call_header_of d q : call_header (delivered_call d q) = d.
Proof. destruct q; reflexivity. Qed.
Lemma call_conn_of d q : call_conn (delivered_call d q) = about q.
Proof. destruct q; reflexivity. Qed.

(** a reply's header is read back *)
Lemma reply_header_ok fresh reply h d b : header_ok h -> header_arrived reply h d ->
  parse_request fresh (wire (soap_payload (Some (reply_header d)) (Some b))) = Ok (answer_header h, [wire b]).
Proof.
  intros (_ & H & _ & _) (A1 & A2 & A3 & _). unfold reply_header. rewrite A1, A2, A3. cbn [py_str_opt].
  pose proof (ProofsHeader.decode_eq fresh CS2_PROVIDER (mkHdr (h_requester h) (h_provider h) (h_corr h) None [] None) (Some b)) as E.
  unfold ProofsHeader.decode in E. rewrite E. unfold answer_header.
  cbn [h_requester h_provider h_corr h_reply_to h_attrs h_trace]. rewrite py_or_nonempty by exact H. reflexivity.
Qed.

(** reading a fault *)
Lemma parse_fault_shape c tx dl :
  parse_fault (Elem T_ENVELOPE [] None [Elem T_SOAP_HEADER [] None []; Elem T_SOAP_BODY [] None
    [Elem T_FAULT [] None (Elem "faultcode" [] c [] :: Elem "faultstring" [] tx [] ::
      match dl with None => [] | Some x => [Elem "detail" [] None [x]] end)]]) = Ok (tx, option_map wire dl).
Proof. destruct dl as [x|]; vm_compute; reflexivity. Qed.
Definition fault_text (text : string) : option string := match text with EmptyString => None | _ => Some text end.
Lemma parse_fault_ok text detail : parse_fault (wire (soap_fault text detail)) = Ok (fault_text text, option_map wire detail).
Proof.
  pose proof (parse_fault_shape (Some "soap:Server") (fault_text text) (option_map wire detail)) as E.
  assert (option_map wire (option_map wire detail) = option_map wire detail) as W
    by (destruct detail as [d|]; [cbn [option_map]; rewrite wire_wire|]; reflexivity).
  rewrite W in E. rewrite <- E. f_equal. unfold soap_fault, soap_payload. destruct detail as [d|]; destruct text; reflexivity.
Qed.
Lemma fault_plain provider text : fault_outcome provider (Xml (wire (soap_fault text None))) =
  ONsi (mkDE InternalServerError (fault_text text) None None None).
Proof. unfold fault_outcome. rewrite parse_fault_ok. reflexivity. Qed.
Lemma fault_detail provider text se : fault_outcome provider (Xml (wire (soap_fault text (Some (se_xml FT_SERVICE_EXCEPTION se))))) =
  match create_exception (se_build (wire (se_xml FT_SERVICE_EXCEPTION se))) (Some provider) with Ok x => ONsi x | Err x => OExn x end.
Proof.
  unfold fault_outcome. rewrite parse_fault_ok. cbn [option_map]. rewrite wire_tag. unfold se_xml at 1. cbn [e_tag].
  assert (aget FT_SERVICE_EXCEPTION type_map = Some KException) as -> by (vm_compute; reflexivity). reflexivity.
Qed.
Lemma failing_back f p conn : plain_failure f -> p <> "" -> conn <> Some "" ->
  exists d, create_exception (se_build (wire (se_xml FT_SERVICE_EXCEPTION (failing_exception f (Some p) conn)))) (Some p) = Ok d /\
    failure_seen p conn f d.
Proof.
  intros Hp Hn Hc. destruct f as [e|t]; cbn [failing_exception plain_failure failure_seen] in *.
  - destruct (roundtrip_ok e (Some p) conn None FT_SERVICE_EXCEPTION (Some p) Hp) as (d & E & S & _ & T & N & C & V).
    exists d. split; [exact E|]. split; [exact S|]. split; [exact T|]. rewrite N, C.
    split; [intros n -> K; rewrite (py_or_nonempty n _ K); cbn [py_str_opt]; apply py_or_nonempty; exact K|].
    split; [intros ->; cbn [py_or truthy py_str_opt]; apply py_or_nonempty; exact Hn|].
    split; [intros c -> K; apply py_or_nonempty; exact K|]. split; [intros ->; reflexivity|exact V].
  - rewrite build_xml. unfold create_exception, create_service_exception_other. cbn [se_errorId se_text se_nsa se_conn se_vars error_id].
    eexists. split; [vm_compute lookup; cbn [bind]; reflexivity|]. cbn [de_class de_text de_nsa de_conn de_vars py_str_opt vars_of].
    rewrite py_or_nonempty by exact Hn. auto.
Qed.

Section Calls.
Variable text_of : exn -> string.

Theorem c69_value fresh reply prov h q v w : header_ok h -> carried q -> value_seen (h_provider h) q v w ->
  (forall d, header_arrived reply h d -> prov (delivered_call d q) = PaValue v) ->
  exists d, header_arrived reply h d /\ call text_of fresh reply prov Delivered h q = Some ([delivered_call d q], OValue w).
Proof.
  intros H C V P. destruct (delivered_ok fresh reply h q H C) as (m & d & E1 & A & E2). exists d. split; [exact A|].
  unfold call. rewrite E1. unfold serve. rewrite E2. cbn [fst snd]. rewrite (P d A). f_equal. f_equal.
  destruct q as [a|method cid|method cids gids]; cbn [delivered_call success_reply call_header value_seen carried] in *.
  - destruct V as (c & -> & ->). cbn [rs_status rs_body Z.eqb Pos.eqb handle_reply].
    unfold handle_ack, parse_message, reserve_acknowledgement.
    rewrite (reply_header_ok fresh reply h d _ H A). cbn [bind wire map]. rewrite wire_leaf_some. unfold parse_body. cbn [e_tag].
    assert (aget (CT "reserveResponse") type_map = Some KConn) as -> by (vm_compute; reflexivity).
    cbn [build_body bind conn_of]. rewrite findtext_hit. reflexivity.
  - subst w. reflexivity.
  - destruct C as (C & _). unfold queries in C. cbn [In] in C.
    destruct C as [<-|[<-|[<-|[]]]].
    + change (w = VNone) in V. subst w. reflexivity.
    + change (exists l, v = VList l /\ Forall summary_ok l /\ w = VList (map (summary_seen (h_provider h)) l)) in V.
      destruct V as (l & -> & F & ->). unfold sync_reply.
      destruct (summary_transfer (h_provider h) (CT "querySummarySyncConfirmed") l F) as (e & S1 & S2 & S3).
      rewrite S1. cbn [bind rs_status rs_body Z.eqb Pos.eqb handle_reply]. unfold handle_sync, parse_message.
      rewrite (reply_header_ok fresh reply h d _ H A). cbn [bind]. unfold parse_body. rewrite wire_tag, S2.
      assert (aget (CT "querySummarySyncConfirmed") type_map = Some (KResults false)) as -> by (vm_compute; reflexivity).
      cbn [build_body bind answer_header d_provider text_or_none]. rewrite S3. reflexivity.
    + change (w = VNone) in V. subst w. reflexivity.
Qed.

Theorem c69_failure fresh reply prov h q f : header_ok h -> carried q -> h_provider h <> "" -> about q <> Some "" -> plain_failure f ->
  (forall d, header_arrived reply h d -> prov (delivered_call d q) = PaFail f) ->
  exists d e, header_arrived reply h d /\ call text_of fresh reply prov Delivered h q = Some ([delivered_call d q], ONsi e) /\
    failure_seen (h_provider h) (about q) f e.
Proof.
  intros H C Hn Hc Hf P. destruct (delivered_ok fresh reply h q H C) as (m & d & E1 & A & E2).
  destruct (failing_back f (h_provider h) (about q) Hf Hn Hc) as (e & E3 & S). exists d, e. split; [exact A|]. split; [|exact S].
  unfold call. rewrite E1. unfold serve. rewrite E2. cbn [fst snd]. rewrite (P d A).
  unfold create_fault, fault_response. cbn [rs_status rs_body Z.eqb Pos.eqb]. rewrite fault_detail, call_header_of, call_conn_of.
  destruct A as (_ & A & _). rewrite A, E3. reflexivity.
Qed.
Theorem c69_raised fresh reply prov h q t : header_ok h -> carried q ->
  (forall d, header_arrived reply h d -> prov (delivered_call d q) = PaRaise t) ->
  exists d e, header_arrived reply h d /\ call text_of fresh reply prov Delivered h q = Some ([delivered_call d q], ONsi e) /\
    de_class e = InternalServerError /\ (t <> "" -> de_text e = Some t).
Proof.
  intros H C P. destruct (delivered_ok fresh reply h q H C) as (m & d & E1 & A & E2). eexists d, _. split; [exact A|].
  split; [|split]; [unfold call; rewrite E1; unfold serve; rewrite E2; cbn [fst snd]; rewrite (P d A);
    unfold fault_response; cbn [rs_status rs_body Z.eqb Pos.eqb]; rewrite fault_plain; reflexivity|reflexivity|].
  destruct t; [congruence|reflexivity].
Qed.
Theorem c69_unreadable fresh reply prov h q m e : send reply h q = Some m ->
  provider_service fresh (fst m, wire (snd m)) = Some (Err e) ->
  exists x, call text_of fresh reply prov Delivered h q = Some ([], ONsi x) /\
    de_class x = InternalServerError /\ (text_of e <> "" -> de_text x = Some (text_of e)).
Proof.
  intros E1 E2. eexists. split; [|split]; [unfold call; rewrite E1; unfold serve; rewrite E2; cbn [fst snd];
    unfold fault_response; cbn [rs_status rs_body Z.eqb Pos.eqb]; rewrite fault_plain; reflexivity|reflexivity|].
  cbn [de_text]. destruct (text_of e); [congruence|reflexivity].
Qed.
Theorem c69_route fresh reply prov h a s l : header_ok h -> request_ok a -> h_provider h <> "" -> sr_ero (ra_sd a) = Some (s :: l) ->
  exists x, call text_of fresh reply prov Delivered h (QReserve a) = Some ([], ONsi x) /\ de_class x = PayloadError /\ de_nsa x = Some (h_provider h).
Proof.
  intros H R Hn E. pose proof (c60_route_refused fresh reply h a s l H R E) as K.
  destruct (provider_header_ok fresh reply h (reserve_xml a) H) as (d & D & A).
  unfold carry in K. unfold call. cbn [send]. unfold serve. rewrite K. cbn [fst snd send_reserve]. rewrite D.
  destruct A as (_ & A & _). rewrite A. unfold create_fault, fault_response. cbn [rs_status rs_body Z.eqb Pos.eqb]. rewrite fault_detail.
  destruct (roundtrip_ok (own_error PayloadError "ERO not supported, go away.") (Some (h_provider h)) None None FT_SERVICE_EXCEPTION
    (Some (h_provider h)) ltac:(discriminate)) as (x & E1 & _ & C & _ & N & _).
  cbn [failing_exception]. rewrite E1. exists x. split; [reflexivity|]. split; [apply C; discriminate|].
  rewrite N. cbn [er_nsa own_error py_or truthy py_str_opt]. apply py_or_nonempty. exact Hn.
Qed.
Theorem c69_refused fresh reply prov h q r m : send reply h q = Some m ->
  exists x, call text_of fresh reply prov (Refused r) h q = Some ([], ONsi x) /\ de_class x = DownstreamNSAError /\ de_nsa x = Some (h_provider h).
Proof. intros E. unfold call. rewrite E. eexists. split; [reflexivity|]. split; reflexivity. Qed.

(** a response other than 200 never ends as a value *)
Lemma fault_no_value p b v : fault_outcome p b <> OValue v.
Proof.
  unfold fault_outcome. destruct b as [e|]; [|discriminate]. destruct (parse_fault e) as [[t [d|]]|]; try discriminate.
  destruct (aget _ _) as [[]|]; try discriminate. destruct (create_exception _ _); discriminate.
Qed.
Theorem c69_sound fresh reply prov f h q cs v : call text_of fresh reply prov f h q = Some (cs, OValue v) -> (forall b, f <> Closed b) ->
  exists c w, cs = [c] /\ prov c = PaValue w.
Proof.
  unfold call. destruct (send reply h q) as [m|]; [|discriminate]. intros E NF.
  destruct f as [|r|b|e]; try discriminate; [|exfalso; apply (NF b); reflexivity].
  injection E as <- E2. unfold serve in *. destruct (provider_service _ _) as [[[c|e]|e]|] eqn:Ep; cbn [fst snd] in *.
  - exists c. destruct (prov c) as [w|g|t] eqn:Pc.
    + exists w. auto.
    + cbn [create_fault fault_response rs_status rs_body Z.eqb Pos.eqb] in E2. exfalso. exact (fault_no_value _ _ _ E2).
    + cbn [create_fault fault_response rs_status rs_body Z.eqb Pos.eqb] in E2. exfalso. exact (fault_no_value _ _ _ E2).
  - cbn [create_fault fault_response rs_status rs_body Z.eqb Pos.eqb] in E2. exfalso. exact (fault_no_value _ _ _ E2).
  - cbn [create_fault fault_response rs_status rs_body Z.eqb Pos.eqb] in E2. exfalso. exact (fault_no_value _ _ _ E2).
  - cbn [rs_status rs_body Z.eqb Pos.eqb] in E2. exfalso. exact (fault_no_value _ _ _ E2).
Qed.
Theorem c69_lost fresh reply prov h method cid b : In method simple_requests -> exists cs,
  call text_of fresh reply prov (Closed b) h (QConn method cid) = Some (cs, OValue VNone).
Proof.
  intros I. unfold call. cbn [send handle_reply]. unfold simple_requests in I. cbn [In] in I.
  repeat destruct I as [<-|I]; try contradiction; eexists; reflexivity.
Qed.
Theorem c69_lost_reserve fresh reply prov h a b : exists cs,
  call text_of fresh reply prov (Closed b) h (QReserve a) = Some (cs, OExn EType).
Proof. eexists. reflexivity. Qed.
Theorem c69_at_most_once fresh reply prov f h q cs o : call text_of fresh reply prov f h q = Some (cs, o) -> (List.length cs <= 1)%nat.
Proof.
  unfold call. destruct (send reply h q) as [m|]; [|discriminate].
  assert (List.length (fst (serve text_of fresh prov (fst m, wire (snd m)))) <= 1)%nat as K.
  { unfold serve. destruct (provider_service _ _) as [[[c|e]|e]|]; cbn [fst List.length]; lia. }
  intros E. destruct f as [|r|[]|e]; injection E as <- _; cbn [List.length]; try exact K; lia.
Qed.
End Calls.
