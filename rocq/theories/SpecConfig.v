(** What a configuration file must and may say. *)
From Verif Require Import Base ModelHttpClient SpecHttpClient ModelConfig.
Open Scope Z_scope.

(** the sections of a file with their options *)
Definition file := list (string * list (string * string)).
(** configparser refuses files with a section or an option given twice *)
Definition file_ok (c : file) : Prop :=
  NoDup (map fst c) /\ (exists l, In ("service", l) c) /\ (forall s l, In (s, l) c -> NoDup (map fst l)).
(** an option of the service section *)
Definition says (c : file) (o v : string) : Prop := exists l, In ("service", l) c /\ In (o, v) l.
Definition silent (c : file) (o : string) : Prop := forall v, ~ says c o v.
(** an option, or its default *)
Definition said (c : file) (o d v : string) : Prop := says c o v \/ (silent c o /\ v = d).
Definition said_opt (c : file) (o : string) (v : option string) : Prop := match v with Some x => says c o x | None => silent c o end.

(** the texts between separators *)
Definition pieces (sep : ascii) (s : string) (l : list string) : Prop :=
  l <> [] /\ (forall x, In x l -> shas sep x = false) /\ join (String sep "") l = s.
(** without the white space at both ends *)
Definition trims (x y : string) : Prop :=
  exists a b, x = a +++ y +++ b /\ sall is_space a = true /\ sall is_space b = true /\
    (y = "" \/ (exists c r, y = String c r /\ is_space c = false) /\ (exists r c, y = r +++ String c "" /\ is_space c = false)).
(** an entry of a comma separated list *)
Definition entry (s x : string) : Prop := exists l p, pieces "," s l /\ In p l /\ p <> "" /\ trims p x.

Definition truth (s : string) (b : bool) : Prop :=
  exists t, caseless s t /\ In t (if b then ["1"; "yes"; "true"; "on"] else ["0"; "no"; "false"; "off"]).
Definition flag (c : file) (o : string) (d b : bool) : Prop := (exists s, says c o s /\ truth s b) \/ (silent c o /\ b = d).

(** a backend section is called kind:name, or just kind *)
Definition section_is (n kind name : string) : Prop :=
  (shas ":" n = false /\ kind = n /\ name = "") \/ (n = kind +++ ":" +++ name /\ shas ":" kind = false).
Definition kinds : list string :=
  ["dud"; "juniperex"; "junipervpls"; "junosmx"; "force10"; "brocade"; "ncsvpn"; "pica8ovs"; "oess"; "junosspace"; "junosex";
   "custombackend"; "asyncfail"].
Definition policies : list string := ["requireuser"; "requiretrace"; "aggregator"; "allowhairpin"].

(** the values that have to be numbers, truth values or section names are such *)
Definition readable (c : file) : Prop :=
  (forall o s, In o ["rest"; "tls"; "verify"] -> says c o s -> exists b, truth s b) /\
  (forall s, says c "port" s -> py_int s <> None) /\
  (forall n l x y z, In (n, l) c -> n <> x +++ ":" +++ y +++ ":" +++ z).
(** two sections for the name of one backend, the first of a known kind *)
Definition clash (c : file) : Prop :=
  exists c1 n1 l1 c2 n2 l2 c3 k1 k2 name,
    c = c1 ++ (n1, l1) :: c2 ++ (n2, l2) :: c3 /\ n1 <> "service" /\ n2 <> "service" /\
    section_is n1 k1 name /\ In k1 kinds /\ section_is n2 k2 name.
Definition acceptable (exists_ : string -> bool) (c : file) : Prop :=
  (forall o, In o ["domain"; "database"; "dbuser"] -> exists v, says c o v) /\
  silent c "nrmmap" /\ silent c "network" /\
  (forall s l p, says c "policy" s -> pieces "," s l -> In p l -> In p policies) /\
  (forall d, says c "certdir" d -> exists_ d = true) /\
  (flag c "tls" true true -> forall o, In o ["key"; "certificate"] -> exists v, says c o v /\ v <> "" /\ exists_ v = true) /\
  ~ clash c.

(** what a verified configuration says *)
Record contents (c : file) (v : vconf) : Prop := mkContents {
  ct_domain : says c "domain" (vc_domain v);
  ct_logfile : said c "logfile" "/var/log/opennsa.log" (vc_logfile v);
  ct_rest : flag c "rest" false (vc_rest v);
  ct_peers : match vc_peers v with
             | None => silent c "peers"
             | Some l => exists s ps, says c "peers" s /\ pieces (ascii_of_nat 10) s ps /\ Forall2 trims ps l
             end;
  ct_host : said_opt c "host" (vc_host v);
  ct_tls : flag c "tls" true (vc_tls v);
  ct_port : (exists s, says c "port" s /\ py_int s = Some (vc_port v)) \/
            (silent c "port" /\ vc_port v = if vc_tls v then 9443 else 9080);
  ct_base_url : said_opt c "base_url" (vc_base_url v);
  ct_key : said_opt c "key" (vc_key v);
  ct_cert : said_opt c "certificate" (vc_cert v);
  ct_policy : (exists s, says c "policy" s /\ pieces "," s (vc_policy v)) \/ (silent c "policy" /\ vc_policy v = []);
  ct_plugin : said_opt c "plugin" (vc_plugin v);
  ct_db : says c "database" (vc_db v);
  ct_dbuser : says c "dbuser" (vc_dbuser v);
  ct_dbpassword : said_opt c "dbpassword" (vc_dbpassword v);
  ct_dbhost : said c "dbhost" "localhost" (vc_dbhost v);
  ct_sid : said_opt c "serviceid_start" (vc_sid v);
  ct_certdir : said c "certdir" "/etc/ssl/certs" (vc_certdir v);
  ct_verify : flag c "verify" true (vc_verify v);
  ct_hosts : match vc_hosts v with
             | None => vc_tls v = false \/ silent c "allowedhosts"
             | Some l => vc_tls v = true /\ exists s, says c "allowedhosts" s /\ forall x, In x l <-> entry s x
             end;
  ct_admins : forall x, In x (vc_admins v) <-> exists s, says c "allowed_admins" s /\ entry s x;
  ct_backends : NoDup (map fst (vc_backends v)) /\
    forall name k l, In (name, (k, l)) (vc_backends v) <->
      exists n, In (n, l) c /\ n <> "service" /\ section_is n k name /\ In k kinds }.
