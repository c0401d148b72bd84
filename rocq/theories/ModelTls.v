(** Who can reach a running service: /repo/opennsa/opennsaTlsContext.py, the TLS
    part of /repo/opennsa/setup.py and the places of the HTTP resources.

    Certificates are opaque but for the subject.  What OpenSSL makes of a file or a
    certificate is external and given by functions; that a client holds the key of
    the certificate it shows is what the TLS handshake is for.  Not modelled:
    protocol versions, ciphers, sessions. *)
From Verif Require Import Base ModelAuthz ModelHttpClient ModelConfig ModelTime ModelRest ModelRestGet.
Open Scope Z_scope.

(** A certificate: the components of the subject, and the rest; soapresource.py:57-65,
    requestauthz.py:43-51 *)
Record certificate := mkCert { ce_subject : list (string * string); ce_rest : string }.
(** The entries of a directory with their contents; opennsaTlsContext.py:40-43, 97-103 *)
Definition directory := list (string * string).

(** [str.endswith]; opennsaTlsContext.py:41, 97 *)
Fixpoint ends_with (suffix s : string) : bool :=
  eqb suffix s || match s with EmptyString => false | String _ r => ends_with suffix r end.

(** The authorities an OpenSSL context has loaded, the callback's flag, and whether
    it has the key and certificate; opennsaTlsContext.py:73-105, 144-153 *)
Record server_ctx := mkSctx { sx_cas : list string; sx_verify : bool; sx_key : bool }.
(** The context factory: with or without an own certificate; the trust root for own
    requests; opennsaTlsContext.py:26-36, 113-123 *)
Record ctx_factory := mkFactory { cf_dir : directory; cf_verify : bool; cf_roots : list string; cf_two_way : bool }.

(** What is outside, for certificates ([w_pem]: a text is a certificate, 45, 103;
    [w_chains]: OpenSSL finds a chain from a certificate to one of the authorities,
    55, 80; [w_host]: a certificate is for a host, 66, 137; [w_listdir]: the
    directories, 40, 97; [w_pair]: the files of key and certificate can be loaded and
    belong together, 121-123; all in opennsaTlsContext.py), the actions of both services
    (providerservice.py:32-42, requesterservice.py:25-48), [json.loads], the
    aggregator and the database (resource.py:155, 180-190, 233, 296, 357) *)
Record world := mkWorld {
  w_pem : string -> bool; w_chains : list string -> certificate -> bool; w_host : string -> certificate -> bool;
  w_listdir : string -> option directory; w_pair : string -> string -> bool;
  w_prov : list (option string); w_req : list (option string);
  w_loads : string -> result json; w_provider : call -> result unit;
  w_rows : result (list (shown_conn * list shown_sub)); w_found : string -> result (shown_conn * list shown_sub) }.

(** The files that are looked at; opennsaTlsContext.py:40-43, 97 *)
Definition ca_files (d : directory) : list string := map snd (filter (fun f => ends_with ".0" (fst f)) d).
(** [_createTrustRootFromCADirectory]: a file that cannot be loaded is passed over;
    opennsaTlsContext.py:38-55 *)
Definition trust_root (w : world) (d : directory) : list string := filter (w_pem w) (ca_files d).

(** [opennsaTlsContext(dir, verify)]: OSError for a missing directory (shown as
    EValue); opennsaTlsContext.py:26-36 *)
Definition one_way (w : world) (dir : string) (verify : bool) : result ctx_factory :=
  match w_listdir w dir with None => Err EValue | Some d => Ok (mkFactory d verify (trust_root w d) false) end.
(** [opennsa2WayTlsContext(key, cert, dir, verify)]: an OpenSSL error (shown as EValue)
    when the pair cannot be loaded; opennsaTlsContext.py:113-123 *)
Definition two_way (w : world) (key cert dir : string) (verify : bool) : result ctx_factory :=
  do! f <- one_way w dir verify;
  if w_pair w key cert then Ok (mkFactory (cf_dir f) (cf_verify f) (cf_roots f) true) else Err EValue.
(** [setupTLSContext]; setup.py:100-113 *)
Definition setup_tls (w : world) (v : vconf) : result ctx_factory :=
  match vc_key v, vc_cert v with
  | Some k, Some c => if eqb k "" || eqb c "" then one_way w (vc_certdir v) (vc_verify v) else two_way w k c (vc_certdir v) (vc_verify v)
  | _, _ => one_way w (vc_certdir v) (vc_verify v)
  end.

(** [getContext], called once when the port is opened: without an own certificate
    there is no attribute [ctx]; a file that cannot be loaded is an OpenSSL error
    (shown as EValue); opennsaTlsContext.py:68-105, 139-153.  The key pair was
    already loaded (123). *)
Definition get_context (w : world) (f : ctx_factory) : result server_ctx :=
  if negb (cf_two_way f) then Err EAttribute else
  if forallb (w_pem w) (ca_files (cf_dir f)) then Ok (mkSctx (ca_files (cf_dir f)) (cf_verify f) true) else Err EValue.

(** [verify_callback]; opennsaTlsContext.py:77-82 *)
Definition verify_callback (verify allowed : bool) : bool := if verify then allowed else true.
(** A handshake as server.  VERIFY_PEER without FAIL_IF_NO_PEER_CERT: a client
    without a certificate is let in; opennsaTlsContext.py:95.  [None]: refused. *)
Definition handshake (w : world) (x : server_ctx) (offer : option certificate) : option (option certificate) :=
  match offer with
  | None => Some None
  | Some c => if verify_callback (sx_verify x) (w_chains w (sx_cas x) c) then Some (Some c) else None
  end.

(** A handshake as client: [optionsForClientTLS] always verifies chain and host;
    opennsaTlsContext.py:63-66, 134-137 *)
Definition client_goes_on (w : world) (f : ctx_factory) (host : string) (server : certificate) : bool :=
  w_chains w (cf_roots f) server && w_host w host server.
(** What becomes of an own request: it goes in the clear, or to a server with the
    certificate it shows, or nowhere; httpclient.py:76-84 *)
Inductive delivery := ToClear (host : string) (port : Z) | ToServer (host : string) (port : Z) (c : certificate) | ToNobody.
(** An own request: the server, with its certificate, that gets it.  [servers]: who
    answers at a host and port; httpclient.py:76-84 *)
Definition own_request (w : world) (f : ctx_factory) (servers : string -> Z -> certificate) (url : string) : delivery :=
  match ModelHttpClient.http_request url true with
  | Connect true host port _ => if client_goes_on w f host (servers host port) then ToServer host port (servers host port) else ToNobody
  | Connect false host port _ => ToClear host port
  | _ => ToNobody
  end.

(** ** The site *)
(** A SOAP resource: the list of hosts and the actions with a decoder;
    soapresource.py:38-46 *)
Record soap_res := mkSoap { so_hosts : option (list string); so_actions : list (option string) }.
(** A running service: the context (none without TLS), the resources under
    NSI/services, and the REST resource with its list; setup.py:195-214, 295-299,
    345-355.  The documents (304-331) are for all and left out; so is the view
    resource, whose name is text (293) and is never found. *)
Record site := mkSite { st_ctx : option server_ctx; st_soap : list (string * soap_res); st_rest : option (option (list string)) }.

(** [setupSOAPResource]; soapresource.py:142-168 *)
Definition add_soap (name : string) (r : soap_res) (s : site) : result site :=
  if ahas name (st_soap s) then Err EAssertion else Ok (mkSite (st_ctx s) (aset name r (st_soap s)) (st_rest s)).
(** The service as it starts; setup.py:180-181, 195-214, 295-299, 345-355, nsi2/__init__.py:17-19 *)
Definition start_site (w : world) (v : vconf) : result site :=
  do! f <- setup_tls w v;
  do! x <- (if vc_tls v then do! x <- get_context w f; Ok (Some x) else Ok None);
  add_soap "CS2" (mkSoap (vc_hosts v) (w_prov w)) (mkSite x [] (if vc_rest v then Some (vc_hosts v) else None)).
(** [setupRequesterPair] for an agent found later: no hosts are given;
    nsi2/__init__.py:39-48, setup.py:126-131 *)
Definition add_requester (w : world) (name : string) (s : site) : result site := add_soap name (mkSoap None (w_req w)) s.
(** Agents found one after the other; a failure leaves the site as it is;
    setup.py:126-131 *)
Fixpoint run_site (w : world) (names : list string) (s : site) : site :=
  match names with
  | [] => s
  | n :: r => run_site w r (match add_requester w n s with Ok s' => s' | Err _ => s end)
  end.

(** What a request leads to; soapresource.py:134-135, resource.py:160-266, 289-311, 326-407 *)
Inductive deed := DSoap (resource : string) (action : option string) (ri : request_info) | DRest (c : call) | DRead (j : json).

(** The object shown, if any; resource.py:136-157, 289-311 *)
Definition seen (g : got) : list deed := match g with GJson _ j => [DRead j] | _ => [] end.
(** One request over an established connection ([secure], the peer's certificate);
    twisted.web goes down the path; resource.py:132-133, 282-286, soapresource.py:36 *)
Definition serve (w : world) (s : site) (secure : bool) (peer : option certificate) (post : bool) (path : list string) (action : option string) (body : string) : list deed :=
  let rq := mkReq secure (option_map ce_subject peer) action in
  match path with
  | top :: r =>
      if eqb top "NSI" then
        match r with
        | services :: name :: _ =>
            if eqb services "services" && post then
              match aget name (st_soap s) with
              | None => []
              | Some so => match soap_render (so_hosts so) (so_actions so) rq with SDispatch a ri => [DSoap name a ri] | _ => [] end
              end
            else []
        | _ => []
        end
      else if eqb top "connections" then
        match st_rest s with
        | None => []
        | Some hosts =>
            let allowed := option_map (map PStr) hosts in
            match r with
            | [] => if post then map DRest (fst (create_post (w_loads w) allowed rq body (w_provider w))) else seen (list_get allowed rq (w_rows w))
            | [cid] => if post then [] else seen (conn_get allowed rq (w_found w cid))
            | cid :: status :: _ =>
                if eqb status "status" then
                  if post then map DRest (fst (status_post allowed rq cid body (w_provider w))) else seen (status_get allowed rq (w_found w cid))
                else []
            end
        end
      else []
  | [] => []
  end.
(** A client connects, offering a certificate or not, and makes a request;
    setup.py:349-355 *)
Definition client_request (w : world) (s : site) (offer : option certificate) (post : bool) (path : list string) (action : option string) (body : string) : list deed :=
  match st_ctx s with
  | None => serve w s false None post path action body
  | Some x => match handshake w x offer with
              | None => []
              | Some peer => serve w s true peer post path action body
              end
  end.
