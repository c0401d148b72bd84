(** Setting up the service: /repo/opennsa/setup.py:37-97, 140-335, and the
    discovery document it publishes: /repo/opennsa/discovery/service.py and
    /repo/opennsa/discovery/bindings/discovery.py, as the peers' fetchers read
    it: /repo/opennsa/discovery/fetcher.py:65-122.
    Not modelled: the database (157), TLS context and plugin (181-192), HTTP
    resources (195-215, 292-316, 329-333) and the log. *)
From Verif Require Import Base ModelXml ModelSTP ModelNRM ModelLinkVector ModelProvreg ModelDiscovery ModelConfig.
Open Scope Z_scope.

(** setup.py:202-205, 218-268: the routes, the port map, the networks with
    their backend (a number, in order of creation) and its ports, the registry *)
Record service := mkSvc {
  sv_lv : lvec;
  sv_ports : list (string * list (string * nrm_port));
  sv_nets : list (string * (nat * list nrm_port));
  sv_prov : provreg }.

(** an operation on the link vector; exceptions end the setup; setup.py:249-255 *)
Definition lv_do (o : lv_op) (s : lvec) : result lvec :=
  match lv_step s o with (s', None) => Ok s' | (_, Some e) => Err e end.

(** setup.py:250-257, one port.  Line 255 calls [updateVector] without the
    network: TypeError as soon as a port with a remote network has a path vector *)
Definition setup_port (net : string) (np : nrm_port) (x : lvec * list (string * list (string * nrm_port))) :
    result (lvec * list (string * list (string * nrm_port))) :=
  let '(lv, ports) := x in
  do! lv <- match p_remote_network np with
            | None => Ok lv
            | Some r =>
                do! lv1 <- lv_do (LDict [(r, 1)]) lv;
                do! lv2 <- lv_do (LUpdate net (p_name np) (List.length (lv_heap lv))) lv1;
                match p_vectors np with [] => Ok lv2 | _ => Err EType end
            end;
  Ok (lv, aset net (aset (p_name np) np (match aget net ports with Some d => d | None => [] end)) ports).
(** setup.py:250-257 *)
Fixpoint setup_ports (net : string) (nps : list nrm_port) (x : lvec * list (string * list (string * nrm_port))) :
    result (lvec * list (string * list (string * nrm_port))) :=
  match nps with
  | [] => Ok x
  | np :: r => do! y <- setup_port net np x; setup_ports net r y
  end.

(** setup.py:41-84: the kinds with a constructor; 85-94: custom backends, and
    a ConfigurationError for any other kind ('asyncfail') *)
Definition CONSTRUCTORS : list string :=
  ["dud"; "junosmx"; "force10"; "juniperex"; "junipervpls"; "brocade"; "ncsvpn"; "pica8ovs"; "junosspace"; "junosex"; "oess";
   "custombackend"].

Section Setup.
(** the lines of a file, if it exists; setup.py:242-247 *)
Variable file_lines : string -> option (list string).
(** importing a module and calling its constructor (setup.py:42-96): external
    to this model, they succeed or raise *)
Variable construct : string -> list (string * string) -> option exn.
(** setup.py:163 *)
Variable domain : string.

(** setup.py:37-97 *)
Definition setup_backend (kind : string) (options : list (string * string)) : result unit :=
  if mem kind CONSTRUCTORS then match construct kind options with None => Ok tt | Some e => Err e end else Err EConfiguration.

(** setup.py:164, nsa.py:307-309: the urn of the agent *)
Definition own_urn : string := URN_NETWORK +++ domain +++ ":nsa".
(** setup.py:234-235 *)
Definition backend_network (name : string) : string := domain +++ ":" +++ name.

(** setup.py:228-268, one backend; [i] is its number.  A missing map is
    reported with [config.ConfigError] (243), which does not exist *)
Definition setup_one (i : nat) (b : string * (string * list (string * string))) (s : service) : result service :=
  let '(name, (kind, options)) := b in
  if eqb name "" then Err EConfiguration else
  let net := backend_network name in
  match aget "nrmmap" options with
  | None => Err EConfiguration
  | Some f =>
      match file_lines f with
      | None => Err EAttribute
      | Some ls =>
          do! nps <- parse_port_spec ls;
          do! lv <- lv_do (LAdd net) (sv_lv s);
          do! (lv', ports) <- setup_ports net nps (lv, sv_ports s);
          do! _ <- setup_backend kind options;
          match add_provider own_urn net i (sv_prov s) with
          | (p, None) => Ok (mkSvc lv' ports (aset net (i, nps) (sv_nets s)) p)
          | (_, Some e) => Err e
          end
      end
  end.
(** setup.py:228-268 *)
Fixpoint setup_all (i : nat) (bs : list (string * (string * list (string * string)))) (s : service) : result service :=
  match bs with
  | [] => Ok s
  | b :: r => do! s' <- setup_one i b s; setup_all (S i) r s'
  end.
(** setup.py:199-205, linkvector.py:24-47 (no blacklist, maximum cost 5); the
    providers made later are numbered after the [n] backends *)
Definition setup_init (n : nat) : service := mkSvc (lv_init [] 5) [] [] (pr_init [CS2_SERVICE_TYPE] n).
(** setup.py:199-268 *)
Definition setup_backends (bs : list (string * (string * list (string * string)))) : result service :=
  setup_all 0 bs (setup_init (List.length bs)).

(** setup.py:217-222: the aggregator's policies *)
Definition setup_policy (bs : list (string * (string * list (string * string)))) (policy : list string) : list string :=
  match bs with [] => if mem "aggregator" policy then policy else policy ++ ["aggregator"] | _ => policy end.

(** ** the discovery document *)

(** setup.py:262-265, 272-273: the networks the fetcher is given *)
Definition fetcher_table (s : service) : port_table :=
  map (fun e => (fst e, map (fun p => (p_name p, p_remote_network p)) (snd (snd e)))) (sv_nets s).
(** what the fetcher works on after the setup (setup.py:272-273) *)
Definition fetcher_state (s : service) : disc := mkDisc (sv_prov s) (sv_lv s).
(** fetcher.py:65-122 for one description after the other *)
Definition read_documents (s : service) (docs : list document) : disc :=
  fold_left (fun x d => fst (got_document (fetcher_table s) d x)) docs (fetcher_state s).

(** constants.py:22 *)
Definition OPENNSA_REST : string := "application/vnd.net.nordu.opennsa+rest".
(** constants.py:17 *)
Definition NML_SERVICE_TYPE : string := "application/vnd.ogf.nsi.topology.v2+xml".
(** constants.py:42 *)
Definition FEATURE_UPA : string := "vnd.ogf.nsi.cs.v2.role.uPA".
(** constants.py:41 *)
Definition FEATURE_AGGREGATOR : string := "vnd.ogf.nsi.cs.v2.role.aggregator".
(** bindings/discovery.py:149, 145 *)
Definition T_NSA : string := "{http://schemas.ogf.org/nsi/2014/02/discovery/nsa}nsa".
(** bindings/discovery.py:150, 146 *)
Definition T_REACH : string := "{http://nordu.net/namespaces/2013/12/gnsbod}TopologyReachability".

(** setup.py:151-154, 166-171; [fqdn]: socket.getfqdn() *)
Definition base_url (v : vconf) (fqdn : string) : string :=
  match vc_base_url v with
  | Some (String c u) => String c u
  | _ => (if vc_tls v then "https://" else "http://") +++ match vc_host v with Some h => h | None => fqdn end +++ ":" +++ py_str (vc_port v)
  end.
(** setup.py:174 *)
Definition endpoint (v : vconf) (fqdn : string) : string := base_url v fqdn +++ "/NSI/services/CS2".
(** setup.py:283-284, 296-302, 304-319 *)
Definition interfaces (v : vconf) (fqdn : string) (s : service) : list (string * string) :=
  [(CS2_PROVIDER, endpoint v fqdn); (CS2_SERVICE_TYPE, endpoint v fqdn)] ++
  (if vc_rest v then [(OPENNSA_REST, base_url v fqdn +++ "/connections")] else []) ++
  map (fun n => (NML_SERVICE_TYPE, base_url v fqdn +++ "/NSI/" +++ fst n +++ ".nml.xml")) (sv_nets s).
(** setup.py:285-289; a peers option always has at least one entry (config.py:305) *)
Definition features (v : vconf) (s : service) : list string :=
  match sv_nets s with [] => [] | _ => [FEATURE_UPA] end ++
  match vc_peers v with None | Some [] => [] | Some _ => [FEATURE_AGGREGATOR] end.

(** service.py:46-52: the set of the agents with a provider, without the own
    one.  [set.remove] raises KeyError, not the ValueError that is caught.  The
    order of the set is not specified; here it is that of the registry. *)
Definition peers_with (p : provreg) : result (list string) :=
  let urns := nodup string_dec (map snd (pr_urns p)) in
  if mem own_urn urns then Ok (filter (fun u => negb (eqb u own_urn)) urns) else Err EKey.

(** bindings/discovery.py:21-27; [describedBy] is always None (setup.py:283-319) *)
Definition interface_xml (i : string * string) : element :=
  Elem "interface" [] None [leaf "type" (Some (fst i)); leaf "href" (Some (snd i))].
(** bindings/discovery.py:97-100 *)
Definition feature_xml (f : string) : element := Elem "feature" [("type", f)] None [].
(** service.py:40-70 with bindings/discovery.py:60-82; [version]: the software's,
    [now]: the text of the time of setup (setup.py:149, 326-327) *)
Definition discovery_xml (v : vconf) (fqdn version now : string) (s : service) (p : provreg) : result element :=
  do! peers <- peers_with p;
  Ok (Elem T_NSA [("id", own_urn); ("version", now)] None
        ([leaf "name" (Some domain); leaf "softwareVersion" (Some version); leaf "startTime" (Some now)] ++
         map (fun n => leaf "networkId" (Some (URN_NETWORK +++ fst n))) (sv_nets s) ++
         map interface_xml (interfaces v fqdn s) ++ map feature_xml (features v s) ++
         map (fun u => leaf "peersWith" (Some u)) peers)).

(** fetcher.py:23-25: an address that is not http is an AssertionError *)
Definition fetcher_init (peers : option (list string)) : result unit :=
  match peers with
  | None => Ok tt
  | Some l => if forallb (starts_with "http") l then Ok tt else Err EAssertion
  end.
(** setup.py:140-335 for a configuration of this domain *)
Definition setup_service (v : vconf) (fqdn version now : string) : result (service * list string * element) :=
  do! s <- setup_backends (vc_backends v);
  do! _ <- fetcher_init (vc_peers v);
  do! doc <- discovery_xml v fqdn version now s (sv_prov s);
  Ok (s, setup_policy (vc_backends v) (vc_policy v), doc).
End Setup.

(** ** reading a document *)

(** bindings/discovery.py:30-58, the parts the fetcher uses *)
Record descr := mkDescr {
  n_id : option string;
  n_networks : list (option string);
  n_interface : option (list (option string * option string));
  n_other : option (list (option (list (option string * Z)))) }.
(** bindings/discovery.py:132-137; [int(None)] is a TypeError *)
Definition topology_build (e : element) : result (option string * Z) :=
  match e_get "cost" e with
  | None => Err EType
  | Some c => match py_int c with None => Err EValue | Some n => Ok (e_get "id" e, n) end
  end.
(** bindings/discovery.py:108-112 *)
Definition holder_build (e : element) : result (option (list (option string * Z))) :=
  match find1 T_REACH e with
  | None => Ok None
  | Some r => do! l <- mapM topology_build (e_kids r); Ok (Some l)
  end.
(** bindings/discovery.py:44-58 with 13-19 *)
Definition nsa_build (e : element) : result descr :=
  do! other <- match findall "other" e with [] => Ok None | l => do! hs <- mapM holder_build l; Ok (Some hs) end;
  Ok (mkDescr (e_get "id" e) (map e_text (findall "networkId" e))
        (match findall "interface" e with [] => None | l => Some (map (fun i => (findtext "type" i, findtext "href" i)) l) end) other).
(** bindings/discovery.py:156-173, from the parsed XML *)
Definition discovery_parse (e : element) : result descr := if eqb (e_tag e) T_NSA then nsa_build e else Err EValue.

(** fetcher.py:77-82 *)
Definition descr_url (ifs : list (option string * option string)) : option string :=
  fold_left (fun u i => if eqb (fst i) (Some CS2_PROVIDER) then snd i
                        else if eqb (fst i) (Some CS2_SERVICE_TYPE) then match u with None => snd i | Some _ => u end
                        else u) ifs None.
(** a text that is used; [None.startswith] is an AttributeError; fetcher.py:88, 92, 103 *)
Definition text (o : option string) : result string := match o with Some s => Ok s | None => Err EAttribute end.
(** fetcher.py:98-104 *)
Definition descr_reach (other : option (list (option (list (option string * Z))))) : result (list (string * Z)) :=
  match other with
  | None => Ok []
  | Some hs => mapM (fun t => do! u <- text (fst t); Ok (u, snd t))
                    (flat_map (fun h => match h with None => [] | Some l => l end) hs)
  end.
(** fetcher.py:75-114, for a description; the error is the one swallowed in 119.
    The part from 97 on is that of [got_document]. *)
Definition got_description (pt : port_table) (n : descr) (s : disc) : disc * option exn :=
  match n_interface n with
  | None => (s, Some EType)
  | Some ifs =>
      match descr_url ifs with
      | None => (s, None)
      | Some url =>
          match mapM text (n_networks n) with
          | Err e => (s, Some e)
          | Ok nids =>
              match (do! i <- text (n_id n); base_name i) with
              | Err e => (s, Some e)
              | Ok ident =>
                  let ag := mkAgent (URN_NETWORK +++ ident) (Some CS2_SERVICE_TYPE) (strip url) in
                  match spawn_all ag (base_names nids) (dc_prov s) with
                  | (p, Some e) => (mkDisc p (dc_vec s), Some e)
                  | (p, None) =>
                      match descr_reach (n_other n) with
                      | Err e => (mkDisc p (dc_vec s), Some e)
                      | Ok reach =>
                          match doc_vectors (mkDoc "" [] nids reach) with
                          | [] => (mkDisc p (dc_vec s), None)
                          | v => let '(v1, _) := lv_step (dc_vec s) (LDict v) in
                                 let '(v2, e) := update_all (matching_ports (base_names nids) pt) (List.length (lv_heap (dc_vec s))) v1 in
                                 (mkDisc p v2, e)
                          end
                      end
                  end
              end
          end
      end
  end.
(** fetcher.py:72-122 for the XML of a response (the wire is that of ModelXml) *)
Definition got_xml (pt : port_table) (e : element) (s : disc) : disc * option exn :=
  match discovery_parse e with Ok n => got_description pt n s | Err x => (s, Some x) end.
