(** What the command line tool promises: where options come from, what a text for
    an STP means, and what a run looks like from outside. *)
From Verif Require Import Base ModelLabel ModelSTP SpecSTP ModelHttpClient ModelCli.
Open Scope Z_scope.

(** ** Options *)
(** A value that says something. *)
Definition worth (v : dval) : Prop := v <> DText "" /\ v <> DInt 0 /\ v <> DFlag false.
Definition is_time (o : string) : Prop := o = "starttime" \/ o = "endtime".
Definition is_number (o : string) : Prop := o = "port" \/ o = "bandwidth".
Definition is_flag (o : string) : Prop := o = "tls" \/ o = "no-verify".

(** What a text in the defaults file means for an option. *)
Inductive reads (strptime : string -> result Z) (now : Z) (o t : string) : dval -> Prop :=
| rd_in n z : is_time o -> t = "+" +++ n -> py_int n = Some z -> reads strptime now o t (DTime (now + z))
| rd_at z : is_time o -> (forall n, t <> "+" +++ n) -> strptime t = Ok z -> reads strptime now o t (DTime z)
| rd_number z : is_number o -> py_int t = Some z -> reads strptime now o t (DInt z)
| rd_no : is_flag o -> In (lower t) ["false"; "no"; "0"] -> reads strptime now o t (DFlag false)
| rd_yes : is_flag o -> ~ In (lower t) ["false"; "no"; "0"] -> reads strptime now o t (DFlag true)
| rd_text : ~ is_time o -> ~ is_number o -> ~ is_flag o -> reads strptime now o t (DText t).

(** A line [o=t]. *)
Definition line_of (l o t : string) : Prop :=
  strip l = o +++ "=" +++ t /\ shas "=" o = false /\ shas "=" t = false /\ forall r, o <> "#" +++ r.
(** A line sets an option; a line names an agent. *)
Definition sets (strptime : string -> result Z) (now : Z) (o l : string) (v : dval) : Prop :=
  exists t, line_of l o t /\ o <> "nsa" /\ reads strptime now o t v.
Definition names (short l : string) (a : string * string) : Prop :=
  line_of l "nsa" (short +++ "," +++ fst a +++ "," +++ snd a) /\ shas "," short = false /\ shas "," (fst a) = false /\ shas "," (snd a) = false.
(** The last of the lines that do it. *)
Definition last_of {A} (f : string -> A -> Prop) (lines : list string) (a : A) : Prop :=
  exists before l after, lines = before ++ l :: after /\ f l a /\ forall l' b, In l' after -> ~ f l' b.

(** The command line first, then the file. *)
Definition given (cl : list (string * dval)) (o : string) (v : dval) : Prop := aget o cl = Some v.
Definition chosen (cl : list (string * dval)) (file : string -> dval -> Prop) (o : string) (v : dval) : Prop :=
  (given cl o v /\ worth v) \/ ((forall w, given cl o w -> ~ worth w) /\ file o v).
(** An option that may be missing; one with a value of its own. *)
Definition maybe (c : string -> dval -> Prop) (o : string) (r : option dval) : Prop :=
  match r with Some v => c o v | None => forall v, ~ c o v end.
Definition or_else (c : string -> dval -> Prop) (o : string) (d : dval -> Prop) (v : dval) : Prop :=
  (c o v /\ worth v) \/ ((forall w, c o w -> ~ worth w) /\ d v).
(** Attributes as they are written. *)
Definition attributes (s : string) (l : list (string * string)) : Prop :=
  s = join "," (map (fun kv => fst kv +++ "=" +++ snd kv) l) /\
  forall k v, In (k, v) l -> shas "=" k = false /\ shas "," k = false /\ shas "," v = false.
(** The context checks the certificates it is shown. *)
Definition checks (c : context) : bool := match c with CheckOnly _ v => v | BothWays _ _ _ v => v end.

(** ** STPs *)
(** What a text typed for an STP means: the documented form, and the one with '#'. *)
Inductive typed : string -> stp -> Prop :=
| ty_doc s x : stp_text s x -> shas "#" s = false -> typed s x
| ty_hash net port t v l : shas "?" net = false -> shas "?" port = false -> shas ":" port = false -> shas "#" net = false -> shas "#" port = false ->
    shas "#" v = false -> shas "=" v = false -> (t = "vlan" \/ t = "mpls") -> label_of_str t v = Ok l ->
    typed (net +++ ":" +++ port +++ "#" +++ t +++ "=" +++ v) (mkSTP net port (Some l)).

(** ** Runs *)
(** What is seen of a command: a request with its correlation id and its answer, or
    something said to the user. *)
Inductive act := Asked (corr : nat) (q : request) (a : reply) | Told (s : said).
Inductive goes : cmd -> list act -> cmd -> Prop :=
| go_here c : goes c [] c
| go_say s k l c : goes k l c -> goes (CSay s k) (Told s :: l) c
| go_ask n tr q k a l c : goes (k a) l c -> goes (CAsk n tr q k) (Asked n q a :: l) c.

Definition asked (l : list act) : list request := flat_map (fun x => match x with Asked _ q _ => [q] | Told _ => [] end) l.
Definition answers (l : list act) : list reply := flat_map (fun x => match x with Asked _ _ a => [a] | Told _ => [] end) l.
Definition corrs (l : list act) : list nat := flat_map (fun x => match x with Asked n _ _ => [n] | Told _ => [] end) l.
Definition confirmed (a : reply) : Prop := exists id n, a = AOk id n.
(** The requests of a command after the reservation, for the connection it is given. *)
Definition to_do (sub id : string) : list request :=
  let c := Some (DText id) in
  if eqb sub "reserve" then [QCommit c]
  else if eqb sub "reserveprovision" then [QCommit c; QSummary (Some [DText id]) None; QProvision c]
  else if eqb sub "rprt" then [QCommit c; QProvision c; QRelease c; QTerminate c]
  else [].
Definition prefix {A} (a b : list A) : Prop := exists r, b = a ++ r.
(** A message that something was done. *)
Definition backed (q : request) (a : reply) (s : said) : Prop :=
  match s with
  | Held id => (exists c g x, q = QReserve c g x) /\ exists n, a = AOk id n
  | Committed => (exists c, q = QCommit c) /\ confirmed a
  | Provisioned c => q = QProvision c /\ confirmed a
  | Released c => q = QRelease c /\ confirmed a
  | Terminated c => q = QTerminate c /\ confirmed a
  | Results n => (exists x y, q = QSummary x y \/ q = QRecursive x y) /\ exists id, a = AOk id n
  | NoResults => (exists x y, q = QSummary x y \/ q = QRecursive x y) /\ exists id, a = AOk id 0
  | Failed => a = ANsi
  | NoWait => True
  end.

(** ** What a command is started with *)
(** Times: as typed, or from the file. *)
Definition time_of (strptime : string -> result Z) (cl : list (string * dval)) (file : string -> dval -> Prop) (o : string) (r : option dval) : Prop :=
  (forall t, given cl o (DText t) -> exists z, strptime t = Ok z /\ r = Some (DTime z)) /\
  ((forall v, ~ given cl o v) -> maybe file o r).
(** The wish. *)
Record wish_from (strptime : string -> result Z) (cl : list (string * dval)) (file : string -> dval -> Prop) (w : wish) : Prop := {
  wf_src : chosen cl file "source" (w_src w);
  wf_dst : chosen cl file "dest" (w_dst w);
  wf_bw : chosen cl file "bandwidth" (w_bw w);
  wf_start : time_of strptime cl file "starttime" (w_start w);
  wf_end : time_of strptime cl file "endtime" (w_end w);
  wf_ero : forall e, w_ero w = Some e <-> given cl "ero" (DText e) /\ e <> "" }.
(** Commands that reserve; commands that need a connection id. *)
Definition reserves (sub : string) : Prop := In sub ["reserve"; "reserveonly"; "reserveprovision"; "rprt"].
Definition needs_id (sub : string) : Prop := In sub ["provision"; "release"; "terminate"].
(** A plan is made of the options: [file] is what the defaults file sets, [agents] the
    agents it names, [hostname] the own name as seen from a service. *)
Record follows (strptime : string -> result Z) (hostname : string -> result string) (sub : string) (cl : list (string * dval))
    (file : string -> dval -> Prop) (agents : string -> string * string -> Prop) (p : plan) : Prop := {
  fo_provider : (exists s, given cl "provider" (DText s) /\ agents s (pl_provider p, pl_service p)) \/
    ((forall s a, given cl "provider" (DText s) -> ~ agents s a) /\
     chosen cl file "provider" (DText (pl_provider p)) /\ chosen cl file "service" (DText (pl_service p)));
  fo_conn : maybe (chosen cl file) "connection-id" (pl_conn p);
  fo_global : maybe (chosen cl file) "global-id" (pl_global p);
  fo_authz : maybe (chosen cl file) "authzheader" (pl_authz p);
  fo_requester : or_else (chosen cl file) "requester" (eq (DText "OpenNSA-CLI")) (DText (pl_requester p));
  fo_tls : pl_tls p = true <-> exists v, chosen cl file "tls" v /\ worth v;
  fo_port : or_else (chosen cl file) "port" (eq (DInt (if pl_tls p then 7443 else 7080))) (pl_port p);
  fo_host : or_else (chosen cl file) "host" (fun h => exists n, hostname (pl_service p) = Ok n /\ h = DText n) (pl_host p);
  fo_attrs : forall s, given cl "securityattributes" (DText s) -> s <> "" -> attributes s (pl_attrs p);
  fo_no_attrs : (forall v, ~ given cl "securityattributes" v) -> pl_attrs p = [];
  fo_wait : pl_wait p = true <-> In sub ["reserveprovision"; "provision"; "release"] /\ exists v, given cl "notification_wait" v /\ worth v;
  fo_wish : reserves sub -> exists w, pl_wish p = Some w /\ wish_from strptime cl file w;
  fo_id : needs_id sub -> exists v, chosen cl file "connection-id" v;
  fo_ctx : match pl_ctx p with
    | Some (BothWays k c d _) => (chosen cl file "key" k /\ worth k) /\ (chosen cl file "certificate" c /\ worth c) /\ (chosen cl file "certdir" d /\ worth d) /\
        ~ (k = DText "." /\ c = DText ".")
    | Some (CheckOnly d _) => chosen cl file "key" (DText ".") /\ chosen cl file "certificate" (DText ".") /\ maybe (chosen cl file) "certdir" d
    | None => pl_tls p = false
    end }.

(** ** How a command behaves *)
(** The connection id the provider answers the first request with. *)
Definition first_id (l : list act) : option string := match answers l with AOk id _ :: _ => Some id | _ => None end.
(** A run of a command that is to ask [full]: the requests are asked in order, each
    after those before it were confirmed, each with a correlation id of its own; what
    the user is told rests on the answer just received; if it comes to its end with all
    requests confirmed, all were asked; an exception is that of the last answer; and
    after an NSI error nothing is asked and the user is told. *)
Record orderly (full : option string -> list request) (l : list act) (k : cmd) : Prop := {
  od_order : prefix (asked l) (full (first_id l));
  od_before : forall i a, nth_error (answers l) i = Some a -> (S i < length (answers l))%nat -> confirmed a;
  od_corr : NoDup (corrs l);
  od_told : forall pre s post, l = pre ++ Told s :: post -> s <> NoWait -> exists pre' n q a, pre = pre' ++ [Asked n q a] /\ backed q a s;
  od_all : k = CEnd None \/ k = CWait -> Forall confirmed (answers l) -> asked l = full (first_id l);
  od_raise : forall s, k = CEnd (Some s) -> exists e r n q, s = Raised e /\ l = r ++ [Asked n q (ARaise e)];
  od_fail : forall r n q t, l = r ++ Asked n q ANsi :: t -> asked t = [] /\ (k = CEnd None -> exists t', t = Told Failed :: t') }.

(** The one request of the other commands. *)
Definition listed (o : option dval) (r : option (list dval)) : Prop :=
  (exists v, o = Some v /\ worth v /\ r = Some [v]) \/ ((forall v, o = Some v -> ~ worth v) /\ r = None).
Inductive single (p : plan) : string -> request -> Prop :=
| sg_commit : single p "reservecommit" (QCommit (pl_conn p))
| sg_provision : single p "provision" (QProvision (pl_conn p))
| sg_release : single p "release" (QRelease (pl_conn p))
| sg_terminate : single p "terminate" (QTerminate (pl_conn p))
| sg_query a b : listed (pl_conn p) a -> listed (pl_global p) b -> single p "query" (QSummary a b)
| sg_queryrec a b : listed (pl_conn p) a -> listed (pl_global p) b -> single p "queryrec" (QRecursive a b).
(** An event that is a reason to stop waiting for a connection. *)
Definition over (id : string) (e : event) : Prop := e = ErrorEvent id \/ e = DataPlane id false true.
