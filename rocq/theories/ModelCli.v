(** Model of the command line tool: /repo/onsa, /repo/opennsa/cli/options.py,
    parser.py and commands.py.

    The command line is given as the options that were set, by their long names,
    with texts, numbers (port) and flags as [usage.Options] has them; options a
    command does not know are its affair.  Simplifications: [strptime] is a
    function given from outside, the clock counts seconds, and what is logged for
    debugging is left out. *)
From Verif Require Import Base ModelLabel ModelSTP ModelHttpClient.
Open Scope Z_scope.

(** ** Values and how a run may stop *)
(** Texts, numbers, flags and times; options.py:81-90 *)
Inductive dval := DText (s : string) | DInt (z : Z) | DFlag (b : bool) | DTime (t : Z).
(** A usage error, or another exception; onsa:239-246 *)
Inductive stop := Usage | Raised (e : exn).
Inductive outcome (A : Type) := Done (a : A) | Stop (s : stop).
Arguments Done {A}. Arguments Stop {A}.
(** A statement, and what follows unless it raises; onsa:103 *)
Definition then_ {A B} (x : outcome A) (k : A -> outcome B) : outcome B := match x with Done a => k a | Stop s => Stop s end.
(** Exceptions other than usage errors; onsa:246 *)
Definition lift {A} (r : result A) : outcome A := match r with Ok a => Done a | Err e => Stop (Raised e) end.
Notation "'do!!' x <- r ; k" := (then_ r (fun x => k)) (at level 60, x pattern, r at next level, right associativity).

(** Truth of a value; onsa:84-92 *)
Definition d_true (v : dval) : bool :=
  match v with DText s => negb (eqb s "") | DInt z => negb (z =? 0) | DFlag b => b | DTime _ => true end.
(** Truth of what may be None; onsa:132 *)
Definition o_true (o : option dval) : bool := match o with Some v => d_true v | None => false end.
(** [x or y]; onsa:84-92 *)
Definition d_or (x y : option dval) : option dval := if o_true x then x else y.

(** ** The defaults file *)
(** The dict, and under 'nsa' the dict of shorthands; options.py:62, 76-77 *)
Record defaults := mkDefaults { df_vals : list (string * dval); df_nsa : list (string * (string * string)) }.

(** [int(value)]; options.py:53, 85 *)
Definition cli_int (s : string) : result Z := match py_int s with Some z => Ok z | None => Err EValue end.
(** [parseTimestamp]; options.py:51-58 *)
Definition parse_timestamp (strptime : string -> result Z) (now : Z) (v : string) : result Z :=
  match v with
  | String c r => if Ascii.eqb c "+" then do! off <- cli_int r; Ok (now + off) else strptime v
  | EmptyString => strptime v
  end.
(** The value of an option; options.py:81-90 *)
Definition option_value (strptime : string -> result Z) (now : Z) (o v : string) : result dval :=
  if mem o ["starttime"; "endtime"] then do! t <- parse_timestamp strptime now v; Ok (DTime t)
  else if mem o ["port"; "bandwidth"] then do! z <- cli_int v; Ok (DInt z)
  else if mem o ["tls"; "no-verify"] then Ok (DFlag (negb (mem (lower v) ["false"; "no"; "0"])))
  else Ok (DText v).
(** One line of the file, without the catch; options.py:67-90 *)
Definition read_line (strptime : string -> result Z) (now : Z) (d : defaults) (line : string) : result defaults :=
  let line := strip line in
  if eqb line "" || starts_with "#" line then Ok d else
  match split_on "=" line with
  | [o; v] =>
      if eqb o "nsa" then
        match split_on "," v with
        | [short; id; url] => Ok (mkDefaults (df_vals d) (aset short (id, url) (df_nsa d)))
        | _ => Err EValue
        end
      else do! x <- option_value strptime now o v; Ok (mkDefaults (aset o x (df_vals d)) (df_nsa d))
  | _ => Err EValue
  end.
(** [readDefaults]: a line with an error is left out; options.py:61-96 *)
Definition read_defaults (strptime : string -> result Z) (now : Z) (lines : list string) : defaults :=
  fold_left (fun d l => match read_line strptime now d l with Ok d' => d' | Err _ => d end) lines (mkDefaults [] []).

(** ** The command line *)
(** [SecurityAttributeOptions.postOptions]; parser.py:124-132 *)
Definition security_attributes (v : option dval) : outcome (list (string * string)) :=
  match v with
  | Some (DText s) =>
      if eqb s "" then Done [] else
      fold_right (fun kv r => match split1 "=" kv with None => Stop Usage | Some p => do!! l <- r; Done (p :: l) end) (Done []) (split_on "," s)
  | _ => Done []
  end.
(** [StartTimeOption.postOptions] and [EndTimeOption.postOptions]; parser.py:106-109, 115-118 *)
Definition time_option (strptime : string -> result Z) (v : option dval) : outcome (option dval) :=
  match v with
  | Some (DText s) => do!! t <- lift (strptime s); Done (Some (DTime t))
  | _ => Done v
  end.

(** ** What is to be done *)
(** A TLS context: one that only checks, or one that also shows a certificate;
    onsa:136, 139 *)
Inductive context := CheckOnly (dir : option dval) (verify : bool) | BothWays (key cert dir : dval) (verify : bool).
(** What a reservation is for; onsa:160-174 *)
Record wish := mkWish { w_src : dval; w_dst : dval; w_start : option dval; w_end : option dval; w_bw : dval; w_ero : option string }.
(** The variables of [doMain] by the time it starts a command; onsa:79-185 *)
Record plan := mkPlan {
  pl_provider : string; pl_service : string; pl_requester : string; pl_authz : option dval;
  pl_conn : option dval; pl_global : option dval; pl_attrs : list (string * string);
  pl_tls : bool; pl_host : dval; pl_port : dval; pl_ctx : option context; pl_wait : bool; pl_wish : option wish }.

(** [assert type(x) is str]; nsa.py:293-294 *)
Definition a_text (v : dval) : outcome string := match v with DText s => Done s | _ => Stop (Raised EAssertion) end.
(** ['.'] was given; onsa:134 *)
Definition is_dot (o : option dval) : bool := match o with Some (DText s) => eqb s "." | _ => false end.
(** The TLS context; onsa:131-151 *)
Definition tls_context (tls : bool) (cert key dir : option dval) (verify : bool) : outcome (option context) :=
  do!! ctx <- (if o_true cert || o_true key || o_true dir then
                 if is_dot cert && is_dot key then Done (Some (CheckOnly dir verify))
                 else match cert, key, dir with
                      | Some c, Some k, Some d =>
                          if d_true c && d_true k && d_true d then Done (Some (BothWays k c d verify)) else if tls then Stop Usage else Done None
                      | _, _, _ => if tls then Stop Usage else Done None
                      end
               else Done None);
  match ctx with None => if tls then Stop Usage else Done None | Some c => Done (Some c) end.
(** The wish of the four commands that reserve; onsa:158-174.  The ERO option is a text. *)
Definition read_wish (cl df : list (string * dval)) (a b : option dval) : outcome wish :=
  let opt o := d_or (aget o cl) (aget o df) in
  match opt "source", opt "dest", opt "bandwidth" with
  | Some s, Some d, Some bw =>
      Done (mkWish s d (d_or a (aget "starttime" df)) (d_or b (aget "endtime" df)) bw
              (match aget "ero" cl with Some (DText e) => if eqb e "" then None else Some e | _ => None end))
  | _, _, _ => Stop Usage
  end.

(** The commands that reserve; onsa:158 *)
Definition reserving (sub : string) : bool := mem sub ["reserve"; "reserveonly"; "reserveprovision"; "rprt"].
(** [doMain] up to the listener; onsa:79-178, parser.py:184-205.  [hostname]: the own
    name, or why it cannot be found (onsa:20-34); host and port are made into a URL
    (onsa:110) *)
Definition make_plan (strptime : string -> result Z) (hostname : string -> result string) (sub : string)
    (cl : list (string * dval)) (d : defaults) : outcome plan :=
  let df := df_vals d in
  let opt o := d_or (aget o cl) (aget o df) in
  do!! attrs <- security_attributes (aget "securityattributes" cl);
  do!! a <- (if reserving sub then time_option strptime (aget "starttime" cl) else Done None);
  do!! b <- (if reserving sub then time_option strptime (aget "endtime" cl) else Done None);
  let '(provider, service) :=
    match aget "provider" cl with
    | Some (DText p) => match aget p (df_nsa d) with
                        | Some (id, url) => (Some (DText id), Some (DText url))
                        | None => (opt "provider", opt "service")
                        end
    | _ => (opt "provider", opt "service")
    end in
  match service, provider with
  | None, _ | _, None => Stop Usage
  | Some service, Some provider =>
      do!! provider <- a_text provider; do!! service <- a_text service;
      let tls := o_true (opt "tls") in
      do!! host <- (match opt "host" with
                    | Some h => if d_true h then Done h else do!! n <- lift (hostname service); Done (DText n)
                    | None => do!! n <- lift (hostname service); Done (DText n)
                    end);
      let port := match opt "port" with Some p => if d_true p then p else DInt (if tls then 7443 else 7080) | None => DInt (if tls then 7443 else 7080) end in
      do!! requester <- a_text (match opt "requester" with Some r => if d_true r then r else DText "OpenNSA-CLI" | None => DText "OpenNSA-CLI" end);
      let verify := if o_true (aget "no-verify" cl) then false else match aget "no-verify" df with Some v => d_true v | None => true end in
      do!! ctx <- tls_context tls (opt "certificate") (opt "key") (opt "certdir") verify;
      do!! w <- (if reserving sub then do!! w <- read_wish cl df a b; Done (Some w) else Done None);
      if mem sub ["provision"; "release"; "terminate"] && match opt "connection-id" with None => true | Some _ => false end then Stop Usage else
      Done (mkPlan provider service requester (opt "authzheader") (opt "connection-id") (opt "global-id") attrs tls host port ctx
              (mem sub ["reserveprovision"; "provision"; "release"] && o_true (aget "notification_wait" cl)) w)
  end.

(** ** Requests *)
(** [_createSTP]; commands.py:14-30.  A text with two '#' or two '=' cannot be
    unpacked (ValueError); a label type that is not in the map is a KeyError. *)
Definition cli_stp (s : string) : outcome stp :=
  if negb (shas ":" s) then Stop Usage else
  if shas "#" s then
    match split_on "#" s with
    | [desc; ldesc] =>
        match rsplit1 ":" desc with
        | None => Stop (Raised EValue)
        | Some (network, port) =>
            if negb (shas "=" ldesc) then Stop Usage else
            match split_on "=" ldesc with
            | [t; v] => match aget t LABEL_MAP with
                        | None => Stop (Raised EKey)
                        | Some ty => do!! l <- lift (label_of_str ty v); Done (mkSTP network port (Some l))
                        end
            | _ => Stop (Raised EValue)
            end
        end
    | _ => Stop (Raised EValue)
    end
  else match rsplit1 ":" s with
       | None => Stop (Raised EValue)
       | Some (network, port) => Done (mkSTP network port None)
       end.
(** [_createSTPList]; commands.py:33-41 *)
Definition cli_stps (ero : option string) : outcome (option (list stp)) :=
  match ero with
  | None => Done None
  | Some e => do!! l <- fold_right (fun t r => do!! s <- cli_stp (strip t); do!! l <- r; Done (s :: l)) (Done []) (split_on "," e); Done (Some l)
  end.
(** Schedule and service of a reservation; commands.py:44-49, 94-96 *)
Record crit := mkCrit { cr_start : option dval; cr_end : option dval; cr_src : stp; cr_dst : stp; cr_bw : dval; cr_ero : option (list stp) }.
(** [':' in stp_arg] needs a text; commands.py:15 *)
Definition stp_arg (v : dval) : outcome stp := match v with DText s => cli_stp s | _ => Stop (Raised EType) end.
(** commands.py:44-49, 94-96 *)
Definition make_crit (w : wish) : outcome crit :=
  do!! s <- stp_arg (w_src w); do!! d <- stp_arg (w_dst w); do!! e <- cli_stps (w_ero w);
  Done (mkCrit (w_start w) (w_end w) s d (w_bw w) e).

(** The methods of a requester; requester.py:75-208 *)
Inductive request :=
| QReserve (conn global : option dval) (c : crit)
| QCommit (conn : option dval) | QProvision (conn : option dval) | QRelease (conn : option dval) | QTerminate (conn : option dval)
| QSummary (conns globals : option (list dval)) | QRecursive (conns globals : option (list dval)).
(** What comes back: a connection id and a number of results, an NSI error, or another
    exception; requester.py:69-72, 88-96, 182-186 *)
Inductive reply := AOk (id : string) (results : nat) | ANsi | ARaise (e : exn).
(** What the user is told; commands.py:78-81, 104, 129, 163, 204, 209, 234, 301, 304 *)
Inductive said := Held (id : string) | Committed | Provisioned (conn : option dval) | Released (conn : option dval) | Terminated (conn : option dval)
| Failed | NoResults | Results (n : nat) | NoWait.
(** A notification: an error event, a change of the data plane, or another;
    requester.py:221-242 *)
Inductive event := ErrorEvent (conn : string) | DataPlane (conn : string) (active consistent : bool) | OtherEvent.

(** [_handleEvent]: whether to stop waiting; commands.py:52-70 *)
Definition ends_wait (e : event) : bool :=
  match e with ErrorEvent _ => true | DataPlane _ active consistent => if active then false else consistent | OtherEvent => false end.

(** The loop: the notifications left when it ends, if it does; commands.py:165-169 *)
Fixpoint wait_for (l : list event) : option (list event) :=
  match l with [] => None | e :: r => if ends_wait e then Some r else wait_for r end.

(** A command under way: it is over, perhaps with an exception; says something; asks
    with a correlation id (the n-th one made) and a trace; or waits for a notification
    that ends it (commands.py:165-169) *)
Inductive cmd :=
| CEnd (r : option stop)
| CSay (s : said) (k : cmd)
| CAsk (corr : nat) (trace : option (list string)) (q : request) (k : reply -> cmd)
| CWait.

(** [except error.NSIError]; commands.py:107-108 *)
Definition on_ok (a : reply) (k : string -> nat -> cmd) : cmd :=
  match a with AOk id n => k id n | ANsi => CSay Failed (CEnd None) | ARaise e => CEnd (Some (Raised e)) end.
(** The start of the four commands that reserve; [after] is what follows;
    commands.py:93-108, 112-125, 136-149, 176-189 *)
Definition reserving_cmd (requester : string) (p : plan) (after : string -> cmd) : cmd :=
  match pl_wish p with
  | None => CEnd (Some Usage)
  | Some w =>
      match make_crit w with
      | Stop s => CEnd (Some s)
      | Done c => CAsk 0 (Some [requester +++ ":" +++ "1"]) (QReserve (pl_conn p) (pl_global p) c) (fun a => on_ok a (fun id _ => CSay (Held id) (after id)))
      end
  end.
(** The list of one identifier, or None; onsa:217-218, 222-223 *)
Definition one_or_none (o : option dval) : option (list dval) := match o with Some v => if d_true v then Some [v] else None | None => None end.
(** One request on a connection, and what is said then; commands.py:216-255 *)
Definition simple (q : request) (s : said) (wait : bool) : cmd :=
  let rest := if wait then CSay NoWait (CEnd None) else CEnd None in
  CAsk 0 None q (fun a => match a with AOk _ _ => CSay s rest | ANsi => CSay Failed rest | ARaise e => CEnd (Some (Raised e)) end).
(** A query; commands.py:297-327 *)
Definition asking (q : request) : cmd :=
  CAsk 0 None q (fun a => on_ok a (fun _ n => match n with O => CSay NoResults (CEnd None) | _ => CSay (Results n) (CEnd None) end)).
(** The identifier of the own requester; onsa:111, 115, nsa.py:307-309 *)
Definition requester_urn (p : plan) : string := "urn:ogf:network:" +++ pl_requester p.
(** The commands; onsa:189-230, commands.py:93-255, 297-327 *)
Definition command (sub : string) (p : plan) : cmd :=
  if eqb sub "reserve" then
    reserving_cmd (requester_urn p) p (fun id => CAsk 1 None (QCommit (Some (DText id))) (fun a => on_ok a (fun _ _ => CSay Committed (CEnd None))))
  else if eqb sub "reserveonly" then reserving_cmd (requester_urn p) p (fun _ => CEnd None)
  else if eqb sub "reserveprovision" then
    reserving_cmd (requester_urn p) p (fun id =>
    CAsk 1 (Some []) (QCommit (Some (DText id))) (fun a => on_ok a (fun _ _ => CSay Committed (
    CAsk 2 (Some []) (QSummary (Some [DText id]) None) (fun a => on_ok a (fun _ n => CSay (Results n) (
    CAsk 3 (Some []) (QProvision (Some (DText id))) (fun a => on_ok a (fun _ _ => CSay (Provisioned (Some (DText id)))
      (if pl_wait p then CWait else CEnd None))))))))))
  else if eqb sub "rprt" then
    reserving_cmd (requester_urn p) p (fun id =>
    CAsk 1 (Some []) (QCommit (Some (DText id))) (fun a => on_ok a (fun _ _ => CSay Committed (
    CAsk 2 (Some []) (QProvision (Some (DText id))) (fun a => on_ok a (fun _ _ => CSay (Provisioned (Some (DText id))) (
    CAsk 3 (Some []) (QRelease (Some (DText id))) (fun a => on_ok a (fun _ _ => CSay (Released (Some (DText id))) (
    CAsk 4 (Some []) (QTerminate (Some (DText id))) (fun a => on_ok a (fun _ _ => CSay (Terminated (Some (DText id))) (CEnd None)))))))))))))
  else if eqb sub "reservecommit" then simple (QCommit (pl_conn p)) Committed false
  else if eqb sub "provision" then simple (QProvision (pl_conn p)) (Provisioned (pl_conn p)) (pl_wait p)
  else if eqb sub "release" then simple (QRelease (pl_conn p)) (Released (pl_conn p)) (pl_wait p)
  else if eqb sub "terminate" then simple (QTerminate (pl_conn p)) (Terminated (pl_conn p)) false
  else if eqb sub "query" then asking (QSummary (one_or_none (pl_conn p)) (one_or_none (pl_global p)))
  else if eqb sub "queryrec" then asking (QRecursive (one_or_none (pl_conn p)) (one_or_none (pl_global p)))
  else CEnd None.
