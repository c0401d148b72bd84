(** Reading and verifying the configuration: /repo/opennsa/config.py:169-424.
    What configparser makes of a file is the input: for every section the
    options that [cfg.items] shows (defaults and environment variables
    expanded); sections and options are unique, as its strict mode demands.
    Parsing the file's text and errors of interpolation are not modelled. *)
From Verif Require Import Base ModelHttpClient.
Open Scope Z_scope.

(** config.py:195-198: the parser's sections; one named [service] always exists (196) *)
Definition cfg := list (string * list (string * string)).
(** config.py:252-424, the verified configuration, by its keys (41-67, and 'backend', 424) *)
Record vconf := mkVC {
  vc_domain : string; vc_logfile : string; vc_nrmmap : option string; vc_rest : bool; vc_peers : option (list string);
  vc_host : option string; vc_tls : bool; vc_port : Z; vc_base_url : option string; vc_key : option string; vc_cert : option string;
  vc_policy : list string; vc_plugin : option string;
  vc_db : string; vc_dbuser : string; vc_dbpassword : option string; vc_dbhost : string; vc_sid : option string;
  vc_certdir : string; vc_verify : bool; vc_hosts : option (list string); vc_admins : list string;
  vc_backends : list (string * (string * list (string * string))) }.

(** [cfg.get('service', option)]; [None] is NoOptionError; config.py:237-250, 269-343, 354, 384 *)
Definition opt (c : cfg) (o : string) : option string := match aget "service" c with None => None | Some l => aget o l end.
(** [cfg.getboolean] of a value (configparser.BOOLEAN_STATES); config.py:301, 310, 362 *)
Definition py_bool (s : string) : result bool :=
  if mem (lower s) ["1"; "yes"; "true"; "on"] then Ok true
  else if mem (lower s) ["0"; "no"; "false"; "off"] then Ok false else Err EValue.
(** [cfg.getboolean(..., fallback=d)]; config.py:301, 310, 361-364 *)
Definition get_bool (c : cfg) (o : string) (d : bool) : result bool := match opt c o with None => Ok d | Some s => py_bool s end.
(** [cfg.getint(..., fallback=d)]; config.py:311 *)
Definition get_int (c : cfg) (o : string) (d : Z) : result Z :=
  match opt c o with None => Ok d | Some s => match py_int s with Some n => Ok n | None => Err EValue end end.
(** raise a ConfigurationError unless; config.py:268-273, 283-288, 294-296, 331-332, 355-357, 369-381 *)
Definition require (b : bool) : result unit := if b then Ok tt else Err EConfiguration.
(** a mandatory option; config.py:236-246, 277-281 *)
Definition mandatory (c : cfg) (o : string) : result string := match opt c o with Some s => Ok s | None => Err EConfiguration end.
(** [[i.strip() for i in s.split(',') if len(i) > 0]]; config.py:344, 385 *)
Definition comma_list (s : string) : list string := map strip (filter (fun i => negb (eqb i "")) (split_on "," s)).
(** line feed, the separator of peers; config.py:305 *)
Definition LF : ascii := ascii_of_nat 10.
(** [not x] of an optional text; config.py:369, 376 *)
Definition given (o : option string) : bool := match o with None | Some EmptyString => false | Some _ => true end.
(** config.py:331, constants.py:45-48 *)
Definition POLICIES : list string := ["requireuser"; "requiretrace"; "aggregator"; "allowhairpin"].
(** config.py:416-419 with 26-37 *)
Definition BACKENDS : list string :=
  ["dud"; "juniperex"; "junipervpls"; "junosmx"; "force10"; "brocade"; "ncsvpn"; "pica8ovs"; "oess"; "junosspace"; "junosex";
   "custombackend"; "asyncfail"].

(** config.py:406-410; [section.split(':', 2)] with two colons has three parts: ValueError *)
Definition section_name (section : string) : result (string * string) :=
  match split1 ":" section with
  | None => Ok (section, "")
  | Some (t, n) => if shas ":" n then Err EValue else Ok (t, n)
  end.
(** config.py:394-424 *)
Fixpoint load_backends (sections : cfg) (acc : list (string * (string * list (string * string)))) :
    result (list (string * (string * list (string * string)))) :=
  match sections with
  | [] => Ok acc
  | (section, options) :: r =>
      if eqb section "service" then load_backends r acc else
      do! tn <- section_name section;
      let '(t, name) := tn in
      if ahas name acc then Err EConfiguration
      else load_backends r (if mem t BACKENDS then aset name (t, options) acc else acc)
  end.

Section Load.
(** [os.path.exists]; config.py:294, 355, 372, 379 *)
Variable exists_ : string -> bool.

(** config.py:366-392, the TLS part: key and certificate must exist; the hosts
    are read only when TLS is enabled *)
Definition load_tls (c : cfg) (tls : bool) (key cert : option string) : result (option (list string)) :=
  if negb tls then Ok None else
  do! _ <- require (given key);
  do! _ <- require (match key with Some k => exists_ k | None => false end);
  do! _ <- require (given cert);
  do! _ <- require (match cert with Some k => exists_ k | None => false end);
  Ok (option_map comma_list (opt c "allowedhosts")).

(** config.py:252-348 with 232-250 (database) and 350-364 (certificates) *)
Definition load_config (c : cfg) : result vconf :=
  do! _ <- require (match opt c "nrmmap" with None => true | Some _ => false end);
  do! domain <- mandatory c "domain";
  do! _ <- require (match opt c "network" with None => true | Some _ => false end);
  let logfile := match opt c "logfile" with Some s => s | None => "/var/log/opennsa.log" end in
  do! nrmmap <- match opt c "nrmmap" with       (* 292-299; never there, see 268-273 *)
                | None => Ok None
                | Some f => do! _ <- require (exists_ f); Ok (Some f)
                end;
  do! rest <- get_bool c "rest" false;
  let peers := match opt c "peers" with None => None | Some s => Some (map strip (split_on LF s)) end in
  do! tls <- get_bool c "tls" true;              (* the fallback is the text 'true', which is true *)
  do! port <- get_int c "port" (if tls then 9443 else 9080);
  do! policy <- match opt c "policy" with
                | None => Ok []
                | Some s => do! _ <- require (forallb (fun p => mem p POLICIES) (split_on "," s)); Ok (split_on "," s)
                end;
  do! db <- mandatory c "database";
  do! dbuser <- mandatory c "dbuser";
  do! certdir <- match opt c "certdir" with
                 | None => Ok "/etc/ssl/certs"
                 | Some d => do! _ <- require (exists_ d); Ok d
                 end;
  do! verify <- get_bool c "verify" true;
  do! hosts <- load_tls c tls (opt c "key") (opt c "certificate");
  do! backends <- load_backends c [];
  Ok (mkVC domain logfile nrmmap rest peers (opt c "host") tls port (opt c "base_url") (opt c "key") (opt c "certificate")
        policy (opt c "plugin") db dbuser (opt c "dbpassword")
        (match opt c "dbhost" with Some h => h | None => "localhost" end) (opt c "serviceid_start")
        certdir verify hosts (comma_list (match opt c "allowed_admins" with Some s => s | None => "" end)) backends).

(** config.py:180-188: the singleton: the parsed file and the verified one *)
Record singleton := mkSing { sg_cfg : option cfg; sg_vc : option vconf }.
(** config.py:190-207: the file is parsed only the first time, and verified until that succeeded *)
Definition read_config (s : singleton) (file : cfg) : singleton * result vconf :=
  let c := match sg_cfg s with Some c => c | None => file end in
  match sg_vc s with
  | Some v => (mkSing (Some c) (Some v), Ok v)
  | None => match load_config c with
            | Ok v => (mkSing (Some c) (Some v), Ok v)
            | Err e => (mkSing (Some c) None, Err e)
            end
  end.
(** calls of [read_config] in turn, with the file each was given; config.py:190-199 *)
Fixpoint read_all (s : singleton) (files : list cfg) : singleton * list (result vconf) :=
  match files with
  | [] => (s, [])
  | f :: r => let '(s1, x) := read_config s f in let '(s2, xs) := read_all s1 r in (s2, x :: xs)
  end.
(** config.py:209-230; without a verified configuration there are no entries *)
Definition is_admin_override (s : singleton) (urn : string) : bool :=
  match sg_vc s with None => false | Some v => existsb (fun e => eqb e urn) (vc_admins v) end.
End Load.
