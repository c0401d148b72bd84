(** C99: messages are written and read as the NSI documents say. *)
From Verif Require Import Base BaseProofs ModelXml ModelAuthz ModelHeader ModelErrors ModelLabel ModelSTP SpecSTP ModelTime SpecTime
  ModelQueryHelper SpecQueryHelper ModelMessages SpecHeader ProofsHeaderDoc SpecDocument ProofsDocument.
Open Scope Z_scope.

(** * Reading: any message of the form of the documents, whoever wrote it *)

(** Missing from the full statement: the text "1" for a boolean; see [C99_boolean_refuted]. *)
Theorem C99_reserve_partial : forall fresh env kids e cid gid desc ver start end_ p src dst cap dir sym params,
  message env kids [e] -> header_sound kids -> reservation_is "{CT}reserve" e cid gid desc ver start end_ p -> service_is not_one p src dst cap dir sym params ->
  exists d, header_says fresh kids d /\ provider_service fresh (action "reserve", env) =
    Some (Ok (HCall (PReserve d cid gid desc ver (mkSched start end_)
      (mkSI src dst cap dir (match sym with Some b => b | None => false end) (match params with [] => None | _ => Some params end))))).
Proof. exact reads_reserve. Qed.
Print Assumptions C99_reserve_partial.
Theorem C99_reserve_confirmed_partial : forall fresh env kids e cid gid desc ver start end_ p src dst cap dir sym params,
  message env kids [e] -> header_sound kids -> reservation_is "{CT}reserveConfirmed" e cid gid desc ver start end_ p -> service_is not_one p src dst cap dir sym params ->
  exists d, header_says fresh kids d /\ requester_service fresh (action "reserveConfirmed", env) =
    Some (Ok (RReserveConfirmed d cid gid desc ver (mkSched start end_) (mkP2P src dst cap dir sym))).
Proof. exact reads_reserve_confirmed. Qed.
Print Assumptions C99_reserve_confirmed_partial.
Theorem C99_requests : forall fresh env kids e method cid, In method ["reserveCommit"; "reserveAbort"; "provision"; "release"; "terminate"] ->
  message env kids [e] -> header_sound kids -> e_tag e = "{CT}" +++ method -> field "connectionId" (e_kids e) (Some cid) ->
  exists d, header_says fresh kids d /\ provider_service fresh (action method, env) = Some (Ok (HCall (PConn method d (Some cid)))).
Proof. exact reads_conn. Qed.
Print Assumptions C99_requests.
Theorem C99_confirmations : forall fresh env kids e method cid,
  In method ["reserveCommitConfirmed"; "reserveAbortConfirmed"; "provisionConfirmed"; "releaseConfirmed"; "terminateConfirmed"] ->
  message env kids [e] -> header_sound kids -> e_tag e = "{CT}" +++ method -> field "connectionId" (e_kids e) (Some cid) ->
  exists d, header_says fresh kids d /\ requester_service fresh (action method, env) = Some (Ok (RConn method d (Some cid))).
Proof. exact reads_confirmation. Qed.
Print Assumptions C99_confirmations.
Theorem C99_queries : forall fresh env kids e method, In method ["querySummary"; "querySummarySync"; "queryRecursive"] ->
  message env kids [e] -> header_sound kids -> e_tag e = "{CT}" +++ method ->
  exists d, header_says fresh kids d /\ provider_service fresh (action method, env) =
    Some (Ok (HCall (PQuery method d (map e_text (named "connectionId" (e_kids e))) (map e_text (named "globalReservationId" (e_kids e)))))).
Proof. exact reads_query. Qed.
Print Assumptions C99_queries.
Theorem C99_timeout : forall fresh env kids e cid nid t tv ocid onsa, message env kids [e] -> header_sound kids -> timeout_is e cid nid t tv ocid onsa ->
  exists d, header_says fresh kids d /\ requester_service fresh (action "reserveTimeout", env) = Some (Ok (RTimeout d (Some cid) nid t tv (Some ocid) (Some onsa))).
Proof. exact reads_timeout. Qed.
Print Assumptions C99_timeout.
(** Missing as above. *)
Theorem C99_change_partial : forall fresh env kids e cid nid ts act ver same, message env kids [e] -> header_sound kids -> change_is not_one e cid nid ts act ver same ->
  exists d, header_says fresh kids d /\ requester_service fresh (action "dataPlaneStateChange", env) = Some (Ok (RDataPlane d (Some cid) nid (Some ts) act ver same)).
Proof. exact reads_change. Qed.
Print Assumptions C99_change_partial.
(** A failure arrives with its states and as the error its code means in the documents.
    Missing as above. *)
Theorem C99_failure_partial : forall fresh env kids e method cid r p l act ver same x nsa id text conn vars c, In method ["reserveFailed"; "reserveCommitFailed"] ->
  message env kids [e] -> header_sound kids -> failure_is not_one method e cid r p l act ver same x -> exception_is x nsa id text conn vars -> nsa <> "" -> In (id, c) code_class ->
  exists d, header_says fresh kids d /\ requester_service fresh (action method, env) =
    Some (Ok (RFailed method d (Some cid) (mkCS r p l act ver same)
      (mkDE c (Some text) (Some nsa) conn (match vars with [] => None | _ => Some (map (fun kv => (Some (fst kv), Some (snd kv))) vars) end)))).
Proof. exact reads_failure. Qed.
Print Assumptions C99_failure_partial.
Theorem C99_event : forall fresh env kids e cid nid ts event, message env kids [e] -> header_sound kids ->
  e_tag e = "{CT}errorEvent" -> field "connectionId" (e_kids e) (Some cid) -> field "notificationId" (e_kids e) (Some (py_str nid)) ->
  field "timeStamp" (e_kids e) (Some ts) -> field "event" (e_kids e) (Some event) ->
  exists d info ex, header_says fresh kids d /\ requester_service fresh (action "errorEvent", env) = Some (Ok (RErrorEvent d (Some cid) nid (Some ts) (Some event) info ex)) /\
    (forall nsa id text conn vars, (exists x, first_kid "serviceException" (e_kids e) x /\ exception_is x nsa id text conn vars) ->
       exists se, ex = Some se /\ se_nsa se = Some nsa /\ se_conn se = conn /\ se_errorId se = Some id /\ se_text se = Some text) /\
    ((forall k, In k (e_kids e) -> e_tag k <> "serviceException") -> ex = None).
Proof. exact reads_event. Qed.
Print Assumptions C99_event.

(** An error arrives as what it says, if it has variables.  Missing: an error without
    variables, which the schema allows; see [C99_error_refuted]. *)
Theorem C99_error_partial : forall fresh env kids e x nsa id text conn v vars, message env kids [e] -> header_sound kids -> e_tag e = "{CT}error" ->
  first_kid "serviceException" (e_kids e) x -> exception_is x nsa id text conn (v :: vars) ->
  exists d se, header_says fresh kids d /\ requester_service fresh (action "error", env) = Some (Ok (RError d se)) /\
    se_nsa se = Some nsa /\ se_conn se = conn /\ se_errorId se = Some id /\ se_text se = Some text /\
    se_vars se = Some (map (fun kv => (Some (fst kv), Some (snd kv))) (v :: vars)).
Proof.
  intros fresh env kids e x nsa id text conn v vars M H T F X. destruct (header_read fresh env kids [e] M H) as (d & P & D). exists d, (se_build x). split; [exact D|].
  pose proof (ex_vars _ _ _ _ _ _ X) as (ve & Fv & V).
  assert (Ev : se_vars (se_build x) = Some (map (fun kv => (Some (fst kv), Some (snd kv))) (v :: vars))).
  { unfold se_build. cbn [se_vars]. rewrite (find1_is _ _ _ Fv), (variables_read _ _ V). reflexivity. }
  split; [|split; [exact (findtext_is _ _ _ (ex_nsa _ _ _ _ _ _ X))|split; [exact (findtext_is _ _ _ (ex_conn _ _ _ _ _ _ X))|
    split; [exact (findtext_is _ _ _ (ex_id _ _ _ _ _ _ X))|split; [exact (findtext_is _ _ _ (ex_text _ _ _ _ _ _ X))|exact Ev]]]]].
  rewrite (to_requester_ fresh env d e (BError (se_build x)) P) with (f := on_error); [| |reflexivity|reflexivity].
  - cbn [on_error]. rewrite Ev. reflexivity.
  - rewrite (build_of e _ _ T eq_refl). cbn [build_body]. rewrite (find1_is _ _ _ F). reflexivity.
Qed.
Print Assumptions C99_error_partial.
(** A request that does not say a direction is answered with an error that says so,
    whatever else it lacks: times or end points. *)
Theorem C99_no_direction : forall fresh env kids e c p cap dir, message env kids [e] -> header_sound kids -> e_tag e = "{CT}reserve" ->
  first_kid "criteria" (e_kids e) c -> In p (e_kids c) -> (forall k, In k (e_kids c) -> e_tag k = "schedule" \/ e_tag k = "serviceType" \/ k = p) ->
  e_tag p = "{http://schemas.ogf.org/nsi/2013/12/services/point2point}p2ps" -> field "capacity" (e_kids p) (Some (py_str cap)) ->
  field "directionality" (e_kids p) dir -> dir = None \/ dir = Some "" ->
  exists x, provider_service fresh (action "reserve", env) = Some (Ok (HFault x)) /\ er_class x = MissingParameterError.
Proof.
  intros fresh env kids e c p cap dir M H T F I O Tp Fc Fd Ed. destruct (header_read fresh env kids [e] M H) as (d & P & D).
  assert (B : exists pi, sdef_build p = Ok (SDp2p pi) /\ pi_dir pi = dir).
  { unfold sdef_build. rewrite Tp. change (eqb "{http://schemas.ogf.org/nsi/2013/12/services/point2point}p2ps" P2PS) with true. cbn match.
    unfold p2p_build. rewrite (int_is _ _ _ Fc). cbn [Base.bind]. eexists. split; [reflexivity|]. exact (findtext_is _ _ _ Fd). }
  destruct B as (pi & B & Bd). destruct (only_services c p (e_kids c) _ B O) as (l & E & L & N & _).
  assert (Nl : l <> []) by (apply N; [exact I|rewrite Tp; reflexivity]).
  assert (C : exists sc, criteria_build false c = Ok (mkCrI (e_get "version" c) sc (findtext "serviceType" c) (SDp2p pi))).
  { unfold criteria_build. rewrite E. cbn [Base.bind]. destruct l as [|y l]; [congruence|]. rewrite (L y (or_introl eq_refl)).
    destruct (find1 "schedule" c); cbn [Base.bind]; eexists; reflexivity. }
  destruct C as (sc & C). eexists.
  rewrite (to_provider fresh env d e (BReserve (findtext "connectionId" e) (findtext "globalReservationId" e) (findtext "description" e) (mkCrI (e_get "version" c) sc (findtext "serviceType" c) (SDp2p pi))) P) with (f := handle_reserve).
  - cbn [handle_reserve ci_sd]. rewrite Bd. destruct Ed as [-> | ->]; (split; [reflexivity|reflexivity]).
  - rewrite (build_of e _ _ T eq_refl). cbn [build_body]. unfold reserve_build. rewrite (find1_is _ _ _ F). cbn [Base.bind]. rewrite C. reflexivity.
  - reflexivity.
Qed.
Print Assumptions C99_no_direction.

(** * Where the documents are not followed *)

Definition text_of (tag text : string) : element := Elem tag [] (Some text) [].
Definition head_kids : list element := [Elem "providerNSA" [] (Some "urn:p") []; Elem "requesterNSA" [] (Some "urn:r") []; Elem "correlationId" [] (Some "urn:uuid:1") []].
Definition envelope (e : element) : element :=
  Elem "{SOAP}Envelope" [] (Some " ") [Elem "{SOAP}Header" [] None [Elem "{NSI}nsiHeader" [] None head_kids]; Elem "{SOAP}Body" [] None [e]].
Lemma head_sound : header_sound head_kids.
Proof.
  split.
  - intros a (s & S & T & _). unfold head_kids in S. cbn [In] in S. repeat destruct S as [S|S]; try (rewrite <- S in T; discriminate T). destruct S.
  - intros t F. apply (find1_first _ _ [] None) in F. discriminate F.
Qed.
Lemma by_find tag e c : find1 tag e = Some c -> first_kid tag (e_kids e) c.
Proof. destruct e as [r a t kids]. cbn [e_kids]. rewrite (find1_root tag r "x" a a t t). apply find1_first. Qed.
Lemma by_text tag e v : findtext tag e = v -> field tag (e_kids e) v.
Proof. intros <-. destruct e as [r a t kids]. apply findtext_field. Qed.

Definition up_event (text : string) : element :=
  Elem "{CT}dataPlaneStateChange" [] None
    [Elem "{X}more" [] None []; Elem "dataPlaneStatus" [] None [Elem "version" [] (Some "3") []; Elem "versionConsistent" [] (Some text) []; Elem "active" [] (Some text) []];
     Elem "timeStamp" [] (Some "2024-01-01T02:00:00+02:00") []; Elem "notificationId" [] (Some "7") []; Elem "connectionId" [] (Some "c-1") []].
Lemma up_event_is (B : string -> bool -> Prop) text : B text true -> change_is B (up_event text) "c-1" 7 "2024-01-01T02:00:00+02:00" true 3 true.
Proof.
  intros H. split; [reflexivity|]. do 3 (split; [apply by_text; reflexivity|]). eexists. split; [apply by_find; reflexivity|].
  split; [exists text; split; [apply by_text; reflexivity|exact H]|]. split; [apply by_text; reflexivity|exists text; split; [apply by_text; reflexivity|exact H]].
Qed.
(** A boolean may be written "1": a peer that says so that its data plane is up is taken
    to say that it is down. *)
Theorem C99_boolean_refuted : ~ (forall fresh env kids e cid nid ts act ver same, message env kids [e] -> header_sound kids -> change_is xsd_boolean e cid nid ts act ver same ->
  exists d, requester_service fresh (action "dataPlaneStateChange", env) = Some (Ok (RDataPlane d (Some cid) nid (Some ts) act ver same))).
Proof.
  intros H. destruct (H "f" (envelope (up_event "1")) head_kids _ _ _ _ _ _ _ (is_message _ _ _ _ _ _ _ _ _ _) head_sound (up_event_is xsd_boolean "1" xsd_one)) as (d & E).
  vm_compute in E. discriminate E.
Qed.
Print Assumptions C99_boolean_refuted.
(** The variables of an error are optional: an error without them is refused with a
    TypeError (requesterservice.py:179 iterates over None). *)
Definition plain_error : element := Elem "{CT}error" [] None [Elem "serviceException" [] None [text_of "nsaId" "urn:n"; text_of "errorId" "00500"; text_of "text" "no more"]].
Theorem C99_error_refuted : ~ (forall fresh env kids e x nsa id text conn vars, message env kids [e] -> header_sound kids -> e_tag e = "{CT}error" ->
  first_kid "serviceException" (e_kids e) x -> exception_is x nsa id text conn vars -> exists d se, requester_service fresh (action "error", env) = Some (Ok (RError d se))).
Proof.
  intros H. destruct (H "f" (envelope plain_error) head_kids plain_error (Elem "serviceException" [] None [text_of "nsaId" "urn:n"; text_of "errorId" "00500"; text_of "text" "no more"])
    "urn:n" "00500" "no more" None [] (is_message _ _ _ _ _ _ _ _ _ _) head_sound eq_refl) as (d & se & E).
  - apply by_find. reflexivity.
  - constructor; try (apply by_text; reflexivity). intros k [<-|[<-|[<-|[]]]]; discriminate.
  - vm_compute in E. discriminate E.
Qed.
Print Assumptions C99_error_refuted.
Definition error_with : element := Elem "{CT}error" [] None [Elem "serviceException" [] None [text_of "text" "no more"; text_of "nsaId" "urn:n"; text_of "errorId" "00500";
  Elem "variables" [] None [Elem "variable" [("type", "port")] None [text_of "value" "p1"]]]].
Example C99_error_ex : exists x, first_kid "serviceException" (e_kids error_with) x /\ exception_is x "urn:n" "00500" "no more" None [("port", "p1")].
Proof.
  eexists. split; [apply by_find; reflexivity|]. constructor; try (apply by_text; reflexivity). eexists. split; [apply by_find; reflexivity|].
  constructor; [|constructor]. split; [|apply by_text; reflexivity]. split; [repeat constructor; cbn; intuition discriminate|left; reflexivity].
Qed.
Definition aimless : element :=
  Elem "{CT}reserve" [] None [Elem "criteria" [] None [Elem "{http://schemas.ogf.org/nsi/2013/12/services/point2point}p2ps" [] None [text_of "capacity" "100"]]].
Example C99_no_direction_ex : message (envelope aimless) head_kids [aimless] /\
  match provider_service "f" (action "reserve", envelope aimless) with Some (Ok (HFault x)) => er_class x = MissingParameterError | _ => False end.
Proof. split; [constructor|reflexivity]. Qed.
(** The schema lets the criteria have elements of other services beside the one that is
    asked for: such a request is refused. *)
Theorem C99_other_service_refused : forall fresh env kids e c k, message env kids [e] -> header_sound kids ->
  e_tag e = "{CT}reserve" -> first_kid "criteria" (e_kids e) c -> In k (e_kids c) -> e_tag k <> "schedule" -> e_tag k <> "serviceType" ->
  e_tag k <> "{http://schemas.ogf.org/nsi/2013/12/services/point2point}p2ps" -> e_tag k <> "{http://schemas.ogf.org/nsi/2013/12/services/point2point}parameter" ->
  exists x, provider_service fresh (action "reserve", env) = Some (Err x).
Proof.
  intros fresh env kids e c k M H T F I N1 N2 N3 N4. destruct (header_read fresh env kids [e] M H) as (d & P & D).
  assert (B : exists x, criteria_build false c = Err x).
  { unfold criteria_build. assert (X : forall ks, In k ks -> exists x, mapM sdef_build (filter (fun k => negb (mem (e_tag k) ["schedule"; "serviceType"])) ks) = Err x).
    { induction ks as [|y ks IH]; intros J; [destruct J|]. cbn [filter]. destruct (negb (mem (e_tag y) ["schedule"; "serviceType"])) eqn:My.
      - cbn [mapM]. destruct J as [->|J].
        + assert (Sk : sdef_build k = Err EValue).
          { unfold sdef_build. destruct (eqb_ok (e_tag k) P2PS) as [X|_]; [destruct (N3 X)|]. destruct (eqb_ok (e_tag k) P2P_PARAMETER) as [X|_]; [destruct (N4 X)|]. reflexivity. }
          rewrite Sk. eexists. reflexivity.
        + destruct (IH J) as (x & ->). destruct (sdef_build y); eexists; reflexivity.
      - destruct J as [->|J]; [|exact (IH J)]. exfalso. apply (f_equal negb) in My. rewrite Bool.negb_involutive in My. apply mem_In in My. destruct My as [X|[X|[]]]; [exact (N1 (eq_sym X))|exact (N2 (eq_sym X))]. }
    destruct (X _ I) as (x & ->). exists x. reflexivity. }
  destruct B as (x & B). exists x. unfold provider_service. cbn [fst snd]. change (aget (action "reserve") provider_decoders) with (Some handle_reserve). unfold parse_message. rewrite P. cbn [Base.bind].
  rewrite (build_of e _ _ T eq_refl). cbn [build_body]. unfold reserve_build. rewrite (find1_is _ _ _ F). cbn [Base.bind]. rewrite B. reflexivity.
Qed.
Print Assumptions C99_other_service_refused.
Example C99_other_service_ex : exists c k, first_kid "criteria" (e_kids (Elem "{CT}reserve" [] None [c])) c /\ In k (e_kids c) /\ e_tag k = "{X}other".
Proof. exists (Elem "criteria" [] None [Elem "{X}other" [] None []]), (Elem "{X}other" [] None []). split; [apply by_find; reflexivity|]. split; [left; reflexivity|reflexivity]. Qed.

(** A reservation by someone else: in another order, with more than we know, times in
    other zones. *)
Definition other_p2p : element :=
  Elem "{http://schemas.ogf.org/nsi/2013/12/services/point2point}p2ps" [] (Some " ")
    [Elem "parameter" [("type", "qos")] (Some "gold") []; Elem "destSTP" [] (Some "urn:ogf:network:b.net:p2?vlan=1780-1783") []; Elem "sourceSTP" [] (Some "urn:ogf:network:a.net:p1") [];
     Elem "symmetricPath" [] (Some "0") []; Elem "directionality" [] (Some "Bidirectional") []; Elem "capacity" [] (Some "100") []; Elem "ero" [] None []].
Definition other_reserve : element :=
  Elem "{CT}reserve" [("x", "y")] None
    [Elem "criteria" [("version", "3")] None
       [other_p2p; Elem "schedule" [] None [Elem "endTime" [] (Some "2024-01-01T00:30:00.5+01:00") []; Elem "startTime" [] (Some "2023-12-31T23:00:00Z") []]; Elem "serviceType" [] (Some "t") []];
     Elem "{X}more" [] None []; Elem "description" [] None []; Elem "globalReservationId" [] (Some "g") []].
Ltac ex_time := split; [split; [cbn; lia|split; [cbn; lia|vm_compute; split; congruence]]|cbn; lia].
Example C99_reserve_ex :
  reservation_is "{CT}reserve" other_reserve None (Some "g") (Some "") (Some "3") (Some (mkDt 2023 12 31 23 0 0 0)) (Some (mkDt 2023 12 31 23 30 0 500000)) other_p2p /\
  service_is not_one other_p2p (mkSTP "a.net" "p1" None) (mkSTP "b.net" "p2" (Some (mkLabel "vlan" [(1780, 1783)]))) 100 "Bidirectional" (Some false) [(Some "qos", Some "gold")] /\
  exists d, provider_service "f" (action "reserve", envelope other_reserve) =
    Some (Ok (HCall (PReserve d None (Some "g") (Some "") (Some "3") (mkSched (Some (mkDt 2023 12 31 23 0 0 0)) (Some (mkDt 2023 12 31 23 30 0 500000)))
      (mkSI (mkSTP "a.net" "p1" None) (mkSTP "b.net" "p2" (Some (mkLabel "vlan" [(1780, 1783)]))) 100 "Bidirectional" false (Some [(Some "qos", Some "gold")]))))).
Proof.
  split; [|split].
  - constructor; [reflexivity|apply by_text; reflexivity|apply by_text; reflexivity|apply by_text; reflexivity|].
    eexists. split; [apply by_find; reflexivity|]. constructor.
    + split; [repeat constructor; cbn; intuition discriminate|left; reflexivity].
    + eexists. split; [apply by_find; reflexivity|]. split; eexists; (split; [apply by_text; reflexivity|]).
      * exists (mkDt 2023 12 31 23 0 0 0), "", ZUtc, 0. split; [reflexivity|]. split; [ex_time|]. do 3 (split; [first [reflexivity|exact I]|]). split; [ex_time|vm_compute; reflexivity].
      * exists (mkDt 2024 1 1 0 30 0 0), "5", (ZOff true true 1 0), 60. split; [reflexivity|]. split; [ex_time|]. split; [reflexivity|]. split; [cbn; lia|]. split; [reflexivity|]. split; [ex_time|vm_compute; reflexivity].
    + left. reflexivity.
    + intros k [<-|[<-|[<-|[]]]]; cbn; auto.
  - constructor; try reflexivity; try (apply by_text; reflexivity); try discriminate.
    + exists "0". split; [apply by_text; reflexivity|]. split; [constructor|discriminate].
    + exists "a.net:p1". split; [apply by_text; reflexivity|]. split; [reflexivity|]. apply (stp_plain "a.net" "p1"); reflexivity.
    + exists "b.net:p2?vlan=1780-1783". split; [apply by_text; reflexivity|]. split; [reflexivity|].
      apply (stp_labelled "b.net" "p2" "vlan" "1780-1783" (mkLabel "vlan" [(1780, 1783)])); try reflexivity. left. reflexivity.
    + intros x F. apply find1_is in F. injection F as <-. reflexivity.
    + cbn. constructor; [|constructor]. split; [|reflexivity]. split; [repeat constructor; cbn; intuition discriminate|left; reflexivity].
  - eexists. vm_compute. reflexivity.
Qed.
Example C99_change_ex : message (envelope (up_event "true")) head_kids [up_event "true"] /\ header_sound head_kids /\
  change_is not_one (up_event "true") "c-1" 7 "2024-01-01T02:00:00+02:00" true 3 true.
Proof. split; [constructor|]. split; [exact head_sound|]. apply up_event_is. split; [constructor|discriminate]. Qed.
Definition other_failure : element :=
  Elem "{CT}reserveFailed" [] None
    [Elem "serviceException" [] None
       [Elem "text" [] (Some "no room") []; Elem "nsaId" [] (Some "urn:n") []; Elem "errorId" [] (Some "00705") [];
        Elem "variables" [] None [Elem "variable" [("namespace", "n"); ("type", "cap")] None [Elem "value" [] (Some "100") []]]];
     Elem "connectionId" [] (Some "c-1") [];
     Elem "connectionStates" [] None [Elem "reservationState" [] (Some "ReserveFailed") []; Elem "provisionState" [] (Some "Released") []; Elem "lifecycleState" [] (Some "Created") [];
       Elem "dataPlaneStatus" [] None [Elem "version" [] (Some "3") []; Elem "versionConsistent" [] (Some "true") []; Elem "active" [] (Some "0") []]]].
Example C99_failure_ex : exists x, failure_is not_one "reserveFailed" other_failure "c-1" "ReserveFailed" "Released" "Created" false 3 true x /\
  exception_is x "urn:n" "00705" "no room" None [("cap", "100")] /\ In ("00705", BandwidthUnavailableError) code_class /\
  match requester_service "f" (action "reserveFailed", envelope other_failure) with Some (Ok (RFailed _ _ c _ e)) => c = Some "c-1" /\ de_class e = BandwidthUnavailableError | _ => False end.
Proof.
  eexists. split; [|split; [|split; [cbn; tauto|split; reflexivity]]].
  - split; [reflexivity|]. split; [apply by_text; reflexivity|]. split; [|apply by_find; reflexivity]. eexists. split; [apply by_find; reflexivity|].
    do 3 (split; [apply by_text; reflexivity|]). eexists. split; [apply by_find; reflexivity|]. split; [|split; [apply by_text; reflexivity|]].
    + exists "0". split; [apply by_text; reflexivity|split; [constructor|discriminate]].
    + exists "true". split; [apply by_text; reflexivity|split; [constructor|discriminate]].
  - constructor; try (apply by_text; reflexivity). eexists. split; [apply by_find; reflexivity|]. constructor; [|constructor]. split; [|apply by_text; reflexivity].
    split; [repeat constructor; cbn; intuition discriminate|right; left; reflexivity].
Qed.

(** * Writing *)

(** Requests: to the provider, with the reply address, the elements in the order of the
    schema. *)
Definition ask (reply : string) (h : nsi_header) (name : string) (kids : list element) : string * element :=
  (action name, soap_payload (Some (header_xml "application/vnd.ogf.nsi.cs.v2.provider+soap"
     (mkHdr (h_requester h) (h_provider h) (h_corr h) (Some reply) (h_attrs h) (h_trace h)))) (Some (Elem ("{CT}" +++ name) [] None kids))).
Definition text_el (tag text : string) : element := Elem tag [] (Some text) [].
Definition opt_el (tag : string) (o : option string) : list element := match o with Some s => [text_el tag s] | None => [] end.
Definition truth (b : bool) : string := if b then "true" else "false".
(** the texts of times: one for each time there is *)
Definition opt_written (o : option dt) (s : option string) : Prop :=
  match o, s with Some t, Some x => time_text x t | None, None => True | _, _ => False end.
Definition p2p_el (p : p2p) (more : list element) : element :=
  Elem "{http://schemas.ogf.org/nsi/2013/12/services/point2point}p2ps" [] None
    ([text_el "capacity" (py_str (p_cap p)); text_el "directionality" (p_dir p)] ++ opt_el "symmetricPath" (option_map truth (p_sym p)) ++
     [text_el "sourceSTP" (urn (p_src p)); text_el "destSTP" (urn (p_dst p))] ++ more).

Theorem C99_asks : forall reply h cid,
  (forall a, sched_ok (ra_sched a) -> exists s e, opt_written (sc_start (ra_sched a)) s /\ opt_written (sc_end (ra_sched a)) e /\
     send_reserve reply h a = ask reply h "reserve"
       (opt_el "connectionId" (ra_cid a) ++ opt_el "globalReservationId" (ra_gid a) ++ opt_el "description" (ra_desc a) ++
        [Elem "criteria" [("version", py_str (ra_rev a))] None
           [Elem "schedule" [] None (opt_el "startTime" s ++ opt_el "endTime" e);
            text_el "serviceType" "http://services.ogf.org/nsi/2013/12/descriptions/EVTS.A-GOLE";
            p2p_el (sr_p2p (ra_sd a))
              (match sr_ero (ra_sd a) with
               | None => []
               | Some l => [Elem "ero" [] None (map (fun ns => Elem "orderedSTP" [("order", py_str (Z.of_nat (fst ns)))] None [text_el "stp" (urn (snd ns))]) (combine (seq 0 (List.length l)) l))]
               end ++
               match sr_params (ra_sd a) with Some l => map (fun kv => Elem "parameter" [("type", fst kv)] (Some (snd kv)) []) l | None => [] end)]])) /\
  (forall m, In m ["reserveCommit"; "reserveAbort"; "provision"; "release"; "terminate"] -> send_conn reply h m cid = Some (ask reply h m [text_el "connectionId" cid])) /\
  (forall m cids gids, In m ["querySummary"; "querySummarySync"; "queryRecursive"] ->
     send_query reply h m cids gids = Some (ask reply h m (map (text_el "connectionId") (match cids with Some l => l | None => [] end) ++
                                                           map (text_el "globalReservationId") (match gids with Some l => l | None => [] end)))).
Proof.
  assert (Ero : forall l n, ero_xml (Z.of_nat n) l = map (fun ns => Elem "orderedSTP" [("order", py_str (Z.of_nat (fst ns)))] None [text_el "stp" (urn (snd ns))]) (combine (seq n (List.length l)) l)).
  { induction l as [|x l IH]; intros n; [reflexivity|]. cbn [ero_xml List.length seq combine map fst snd]. rewrite <- IH. replace (Z.of_nat n + 1) with (Z.of_nat (S n)) by lia. reflexivity. }
  intros reply h cid. split; [|split].
  - intros a [A B]. exists (option_map utc_text (sc_start (ra_sched a))), (option_map utc_text (sc_end (ra_sched a))).
    split; [destruct (sc_start (ra_sched a)) as [t|]; [apply written_utc; auto|exact I]|]. split; [destruct (sc_end (ra_sched a)) as [t|]; [apply written_utc; auto|exact I]|].
    unfold send_reserve, reserve_xml, req_sched_xml, req_sd_xml, ask, p2p_el. do 2 f_equal. destruct (sr_ero (ra_sd a)) as [l|]; [change 0 with (Z.of_nat 0); rewrite (Ero l 0%nat)|]; reflexivity.
  - intros m I. cbn [In] in I. repeat destruct I as [<-|I]; try destruct I; reflexivity.
  - intros m cids gids I. cbn [In] in I. repeat destruct I as [<-|I]; try destruct I; destruct cids, gids; reflexivity.
Qed.
Print Assumptions C99_asks.

(** Answers and notifications: to the requester, with the agents and the correlation id. *)
Definition tell (h : nsi_header) (name : string) (kids : list element) : string * element :=
  (action name, soap_payload (Some (header_xml "application/vnd.ogf.nsi.cs.v2.requester+soap"
     (mkHdr (h_requester h) (h_provider h) (h_corr h) None [] None))) (Some (Elem ("{CT}" +++ name) [] None kids))).
Definition status_el (act : bool) (ver : Z) (same : bool) : element :=
  Elem "dataPlaneStatus" [] None [text_el "active" (truth act); text_el "version" (py_str ver); text_el "versionConsistent" (truth same)].
Theorem C99_tells : forall h cid nid t, time_exists t ->
  (forall gid desc rev sc p, sched_ok sc -> exists s e, opt_written (sc_start sc) s /\ opt_written (sc_end sc) e /\
     send_reserve_confirmed h cid gid desc rev sc p = Ok (tell h "reserveConfirmed"
       ([text_el "connectionId" cid] ++ opt_el "globalReservationId" gid ++ opt_el "description" desc ++
        [Elem "criteria" [("version", py_str rev)] None
           [Elem "schedule" [] None (opt_el "startTime" s ++ opt_el "endTime" e);
            text_el "serviceType" "http://services.ogf.org/nsi/2013/07/descriptions/EVTS.A-GOLE"; p2p_el p []]]))) /\
  (forall m, In m ["reserveCommitConfirmed"; "reserveAbortConfirmed"; "provisionConfirmed"; "releaseConfirmed"; "terminateConfirmed"] ->
     send_confirmation h m cid = Some (tell h m [text_el "connectionId" cid])) /\
  (forall m s e, In m ["reserveFailed"; "reserveCommitFailed"] -> exists id, (forall i, In (i, er_class e) code_class -> id = Some i) /\
     send_failure h m cid s e = Some (tell h m
       [text_el "connectionId" cid;
        Elem "connectionStates" [] None [text_el "reservationState" (cs_r s); text_el "provisionState" (cs_p s); text_el "lifecycleState" (cs_l s); status_el (cs_act s) (cs_ver s) (cs_cons s)];
        Elem "serviceException" [] None
          ([text_el "nsaId" (match er_nsa e with None | Some "" => h_provider h | Some n => n end)] ++
           (match er_conn e with None | Some "" => [] | Some c => [text_el "connectionId" c] end) ++
           [Elem "errorId" [] id []; text_el "text" (er_text e)] ++
           (match er_vars e with None | Some [] => [] | Some l =>
              [Elem "variables" [] None (map (fun kv => Elem "variable" [("type", fst kv)] None [text_el "value" (snd kv)]) l)] end))])) /\
  (exists ts, time_text ts t /\
     (forall tv ocid onsa, send_reserve_timeout h cid nid t tv (Some ocid) (Some onsa) = Ok (tell h "reserveTimeout"
        [text_el "connectionId" cid; text_el "notificationId" (py_str nid); text_el "timeStamp" ts; text_el "timeoutValue" (py_str tv);
         text_el "originatingConnectionId" ocid; text_el "originatingNSA" onsa])) /\
     (forall act ver same, send_data_plane_change h cid nid t act ver same = Ok (tell h "dataPlaneStateChange"
        [text_el "connectionId" cid; text_el "notificationId" (py_str nid); text_el "timeStamp" ts; status_el act ver same])) /\
     (forall event info, exists more, send_error_event h cid nid t event info None = Ok (tell h "errorEvent"
        ([text_el "connectionId" cid; text_el "notificationId" (py_str nid); text_el "timeStamp" ts; text_el "event" event] ++ more)))).
Proof.
  assert (Ot : forall o, (forall t, o = Some t -> time_exists t) -> exists s, opt_time o = Ok s /\ opt_written o s).
  { intros [u|] H; [|exists None; split; [reflexivity|exact I]]. destruct (written_time u (H u eq_refl)) as (s & E & T). exists (Some s). cbn [opt_time]. rewrite E. split; [reflexivity|exact T]. }
  intros h cid nid t T. split; [|split; [|split]].
  - intros gid desc rev sc p [A B]. destruct (Ot _ A) as (s & Es & Ws). destruct (Ot _ B) as (e & Ee & We). exists s, e. split; [exact Ws|]. split; [exact We|].
    unfold send_reserve_confirmed, reserve_confirmed_xml, sched_xml. rewrite Es. cbn [Base.bind]. rewrite Ee. cbn [Base.bind sd_xml]. unfold to_requester, tell, p2p_el. rewrite app_nil_r. reflexivity.
  - intros m I. cbn [In] in I. repeat destruct I as [<-|I]; try destruct I; reflexivity.
  - intros m s e I. exists (error_id (er_class e)). split; [intros i J; unfold code_class in J; cbn [In] in J; repeat destruct J as [[= <- <-]|J]; try reflexivity; destruct J|]. cbn [In] in I. destruct e as [cl tx [[|c1 n]|] [[|c2 c]|] [[|v vs]|]]; repeat destruct I as [<-|I]; try destruct I;
      cbn [send_failure]; try reflexivity; unfold send_failure; cbn [aget failures]; unfold create_service_exception, se_xml; cbn; try rewrite !map_map; reflexivity.
  - destruct (written_time t T) as (ts & E & W). exists ts. split; [exact W|]. split; [|split].
    + intros. unfold send_reserve_timeout. rewrite E. reflexivity.
    + intros. unfold send_data_plane_change. rewrite E. reflexivity.
    + intros. eexists. unfold send_error_event. rewrite E. reflexivity.
Qed.
Print Assumptions C99_tells.
Example C99_tells_ex : time_exists (mkDt 2024 1 1 0 0 0 0) /\ send_data_plane_change (mkHdr "urn:r" "urn:p" "c" None [] None) "c-1" 7 (mkDt 2024 1 1 0 0 0 0) true 3 false =
  Ok (tell (mkHdr "urn:r" "urn:p" "c" None [] None) "dataPlaneStateChange"
    [text_el "connectionId" "c-1"; text_el "notificationId" "7"; text_el "timeStamp" "2024-01-01T00:00:00Z"; status_el true 3 false]).
Proof. split; [vm_compute; intuition congruence|reflexivity]. Qed.
