(** C99: the messages of the NSI connection service as its documents (GFD.212 and its
    schemas) have them, whoever wrote them: children are looked up by name, and what is
    not named here may be there too.  Namespaces are abbreviated as in the model. *)
From Verif Require Import Base ModelXml ModelAuthz ModelHeader ModelErrors ModelLabel ModelSTP SpecSTP ModelTime SpecTime ModelQueryHelper SpecHeader.
Open Scope Z_scope.

(** A SOAP action, in quotes. *)
Definition action (name : string) : string :=
  String "034" ("http://schemas.ogf.org/nsi/2013/12/connection/service/" +++ name +++ String "034" "").

(** * Parts *)
Definition attr_is (e : element) (name : string) (v : option string) : Prop :=
  attrs_once e /\ match v with Some s => In (name, s) (e_attrs e) | None => forall s, ~ In (name, s) (e_attrs e) end.
Definition named (tag : string) (kids : list element) : list element := filter (fun k => String.eqb (e_tag k) tag) kids.
(** A header that can be read (C98) and what is read from it. *)
Definition header_sound (kids : list element) : Prop :=
  attributes_sound kids /\ forall t, first_kid "{GNS}ConnectionTrace" kids t -> trace_sound t.
Definition header_says (fresh : string) (kids : list element) (d : dec_header) : Prop :=
  field "requesterNSA" kids (d_requester d) /\ field "providerNSA" kids (d_provider d) /\ field "replyTo" kids (d_reply_to d) /\
  (forall c, field "correlationId" kids (Some c) -> c <> "" -> d_corr d = Some c) /\
  ((forall c, field "correlationId" kids (Some c) -> c = "") -> d_corr d = Some fresh) /\
  (forall n v, In (mkSA n v) (d_attrs d) <-> attribute_says kids n v) /\ trace_is kids (d_trace d).
(** A time, in any zone and with any number of decimals, as the same instant in UTC. *)
Definition time_text (s : string) (u : dt) : Prop :=
  exists t f z off, s = stamp t f z /\ time_exists t /\ sall is_digit f = true /\ zone_ok z /\ zone_minutes z = Some off /\
    time_exists u /\ instant u = instant t - dus t + frac_value f - off * 60000000.
Definition opt_time_is (tag : string) (kids : list element) (o : option dt) : Prop :=
  match o with
  | Some u => exists s, field tag kids (Some s) /\ time_text s u
  | None => field tag kids None
  end.
Definition stp_is (tag : string) (kids : list element) (s : stp) : Prop :=
  exists r, field tag kids (Some ("urn:ogf:network:" +++ r)) /\ contains "urn:ogf:network:" r = false /\ stp_text r s.
(** The booleans of XML Schema have four texts. *)
Inductive xsd_boolean : string -> bool -> Prop :=
| xsd_true : xsd_boolean "true" true
| xsd_one : xsd_boolean "1" true
| xsd_false : xsd_boolean "false" false
| xsd_zero : xsd_boolean "0" false.
(** All of them but one. *)
Definition not_one (s : string) (b : bool) : Prop := xsd_boolean s b /\ s <> "1".

Section Booleans.
  Variable boolean : string -> bool -> Prop.

  Definition opt_bool_is (tag : string) (kids : list element) (o : option bool) : Prop :=
    match o with Some b => exists s, field tag kids (Some s) /\ boolean s b | None => field tag kids None end.
  Definition bool_is (tag : string) (kids : list element) (b : bool) : Prop := exists s, field tag kids (Some s) /\ boolean s b.

  (** A point to point service, without an explicit route. *)
  Record service_is (p : element) (src dst : stp) (cap : Z) (dir : string) (sym : option bool) (params : list (option string * option string)) : Prop := mkServiceIs {
    sv_tag : e_tag p = "{http://schemas.ogf.org/nsi/2013/12/services/point2point}p2ps";
    sv_cap : field "capacity" (e_kids p) (Some (py_str cap));
    sv_dir : field "directionality" (e_kids p) (Some dir);
    sv_some : dir <> "";
    sv_sym : opt_bool_is "symmetricPath" (e_kids p) sym;
    sv_src : stp_is "sourceSTP" (e_kids p) src;
    sv_dst : stp_is "destSTP" (e_kids p) dst;
    sv_ero : forall x, first_kid "ero" (e_kids p) x -> e_kids x = [];
    sv_params : Forall2 (fun k tv => attr_is k "type" (fst tv) /\ e_text k = snd tv) (named "parameter" (e_kids p)) params }.
  (** The criteria of a reservation: a version, a schedule and one service. *)
  Record criteria_is (c : element) (ver : option string) (start end_ : option dt) (p : element) : Prop := mkCriteriaIs {
    cr_ver : attr_is c "version" ver;
    cr_sched : exists s, first_kid "schedule" (e_kids c) s /\ opt_time_is "startTime" (e_kids s) start /\ opt_time_is "endTime" (e_kids s) end_;
    cr_has : In p (e_kids c);
    cr_only : forall k, In k (e_kids c) -> e_tag k = "schedule" \/ e_tag k = "serviceType" \/ k = p }.
  (** reserve and reserveConfirmed *)
  Record reservation_is (tag : string) (e : element) (cid gid desc ver : option string) (start end_ : option dt) (p : element) : Prop := mkReservationIs {
    rs_tag : e_tag e = tag;
    rs_cid : field "connectionId" (e_kids e) cid;
    rs_gid : field "globalReservationId" (e_kids e) gid;
    rs_desc : field "description" (e_kids e) desc;
    rs_crit : exists c, first_kid "criteria" (e_kids e) c /\ criteria_is c ver start end_ p }.

  Definition data_plane_is (d : element) (active : bool) (version : Z) (consistent : bool) : Prop :=
    bool_is "active" (e_kids d) active /\ field "version" (e_kids d) (Some (py_str version)) /\ bool_is "versionConsistent" (e_kids d) consistent.
  Definition states_are (s : element) (r p l : string) (active : bool) (version : Z) (consistent : bool) : Prop :=
    field "reservationState" (e_kids s) (Some r) /\ field "provisionState" (e_kids s) (Some p) /\ field "lifecycleState" (e_kids s) (Some l) /\
    exists d, first_kid "dataPlaneStatus" (e_kids s) d /\ data_plane_is d active version consistent.
  Definition change_is (e : element) (cid : string) (nid : Z) (ts : string) (active : bool) (version : Z) (consistent : bool) : Prop :=
    e_tag e = "{CT}dataPlaneStateChange" /\ field "connectionId" (e_kids e) (Some cid) /\
    field "notificationId" (e_kids e) (Some (py_str nid)) /\ field "timeStamp" (e_kids e) (Some ts) /\
    exists d, first_kid "dataPlaneStatus" (e_kids e) d /\ data_plane_is d active version consistent.
  Definition failure_is (method : string) (e : element) (cid r p l : string) (active : bool) (version : Z) (consistent : bool) (x : element) : Prop :=
    e_tag e = "{CT}" +++ method /\ field "connectionId" (e_kids e) (Some cid) /\
    (exists s, first_kid "connectionStates" (e_kids e) s /\ states_are s r p l active version consistent) /\
    first_kid "serviceException" (e_kids e) x.
End Booleans.

Definition timeout_is (e : element) (cid : string) (nid : Z) (t : dt) (timeout : Z) (ocid onsa : string) : Prop :=
  e_tag e = "{CT}reserveTimeout" /\ field "connectionId" (e_kids e) (Some cid) /\ field "notificationId" (e_kids e) (Some (py_str nid)) /\
  (exists s, field "timeStamp" (e_kids e) (Some s) /\ time_text s t) /\ field "timeoutValue" (e_kids e) (Some (py_str timeout)) /\
  field "originatingConnectionId" (e_kids e) (Some ocid) /\ field "originatingNSA" (e_kids e) (Some onsa).

(** * Errors *)
(** The codes of the documents. *)
Definition code_class : list (string * nclass) :=
  [("00100", PayloadError); ("00101", MissingParameterError);
   ("00200", ConnectionError); ("00201", InvalidTransitionError); ("00202", ConnectionExistsError); ("00203", ConnectionNonExistentError);
   ("00204", ConnectionGoneError); ("00205", ConnectionCreateError);
   ("00300", SecurityError); ("00301", AuthenticationFailure); ("00302", UnauthorizedError);
   ("00400", TopologyError); ("00403", NoPathFoundError); ("00500", InternalServerError); ("00501", InternalNRMError);
   ("00600", ResourceUnavailableError); ("00700", ServiceError); ("00701", UnknownSTPError); ("00702", STPResolutionError);
   ("00703", VLANInterchangeNotSupportedError); ("00704", STPUnavailableError); ("00705", BandwidthUnavailableError)].
(** A service exception: agent, error, text, variables. *)
Record exception_is (x : element) (nsa id text : string) (conn : option string) (vars : list (string * string)) : Prop := mkExceptionIs {
  ex_nsa : field "nsaId" (e_kids x) (Some nsa);
  ex_conn : field "connectionId" (e_kids x) conn;
  ex_id : field "errorId" (e_kids x) (Some id);
  ex_text : field "text" (e_kids x) (Some text);
  ex_vars : match vars with
            | [] => forall k, In k (e_kids x) -> e_tag k <> "variables"
            | _ => exists v, first_kid "variables" (e_kids x) v /\
                   Forall2 (fun k tv => attr_is k "type" (Some (fst tv)) /\ field "value" (e_kids k) (Some (snd tv))) (e_kids v) vars
            end }.
