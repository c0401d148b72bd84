(** Model of /repo/opennsa/protocols/rest/resource.py: creation of connections
    and state commands over REST. *)
From Verif Require Import Base ModelAuthz ModelLabel ModelSTP ModelTime ModelState.
Open Scope Z_scope.

(** decoded JSON, as [json.loads] gives it; of a float only its text and whether
    it is zero are kept; resource.py:171-214 *)
Inductive json :=
| JNull | JBool (b : bool) | JInt (z : Z) | JFloat (text : string) (zero : bool) | JStr (s : string)
| JList (l : list json) | JObj (fields : list (string * json)).

(** Python truth of a decoded value; resource.py:213-214 *)
Definition jtrue (j : json) : bool :=
  match j with
  | JNull => false | JBool b => b | JInt z => negb (z =? 0) | JFloat _ zero => negb zero
  | JStr s => negb (eqb s "") | JList l => match l with [] => false | _ => true end
  | JObj l => match l with [] => false | _ => true end
  end.

(** [data[key]] for a string key; a dict from [json.loads] keeps the last of
    several equal keys; resource.py:197-214 *)
Definition jget (key : string) (j : json) : result json :=
  match j with
  | JObj l => match aget key (rev l) with Some v => Ok v | None => Err EKey end
  | _ => Err EType
  end.
(** [key in data], used only after [data['source']] succeeded, so for dicts; resource.py:208-214 *)
Definition jin (key : string) (j : json) : bool :=
  match j with JObj l => ahas key (rev l) | _ => false end.

(** requests to the provider (the aggregator); the bogus header is left out; resource.py:233, 249, 251, 379-387 *)
Inductive call :=
| CReserve (source dest : stp) (start_time end_time : option dt) (capacity : json) (ri : request_info)
| CCommit (cid : string) (ri : request_info)
| CAbort (cid : string) (ri : request_info)
| CProvision (cid : string) (ri : request_info)
| CRelease (cid : string) (ri : request_info)
| CTerminate (cid : string) (ri : request_info).

(** error.py: which exceptions are subclasses of NSIError; error.py:63-205 *)
Definition is_nsi_error (e : exn) : bool :=
  match e with
  | EPayload | EMissingParameter | EUnsupportedParameter | EConnection | EInvalidTransition | EConnectionExists
  | EConnectionNonExistent | EConnectionGone | EConnectionCreate | ESecurity | EUnauthorized | ETopology
  | ESTPResolution | ESTPUnavailable | EVLANInterchange | EDownstream | EInternalServer | EInternalNRM
  | EResourceUnavailable | EService | EUnknownNSI | ENSI => true
  | _ => false
  end.
(** resource.py:62-66 *)
Definition error_code (e : exn) : Z := if is_nsi_error e then 400 else 500.

(** What a render method does: the body it returns at once with the code it set
    (text or bytes), a request finished later by [_finishRequest], or an exception; resource.py:40-78 *)
Inductive rendered := Returned (code : Z) (body : pytext) | Later (code : Z) | Raised (e : exn).

(** The status line the client sees.  twisted.web 21.2 server.py Request.render:
    a body that is not bytes is replaced by an error page with code 500, and an
    exception likewise.  [_finishRequest] (resource.py:50-59) encodes text first. *)
Definition delivered (r : rendered) : Z :=
  match r with
  | Returned code (PBytes _) => code
  | Returned _ (PStr _) => 500
  | Later code => code
  | Raised _ => 500
  end.

(** bytes.upper; resource.py:370 *)
Definition upper_char (c : ascii) : ascii :=
  let n := nat_of_ascii c in
  if (97 <=? Z.of_nat n) && (Z.of_nat n <=? 122) then ascii_of_nat (n - 32) else c.
(** resource.py:370, bytes.upper *)
Fixpoint upper (s : string) : string :=
  match s with EmptyString => EmptyString | String c r => String (upper_char c) (upper r) end.

(** resource.py:31-37 *)
Definition ACTIONS : list string := ["COMMIT"; "ABORT"; "PROVISION"; "RELEASE"; "TERMINATE"].

(** resource.py:378-391 *)
Definition command_call (cmd cid : string) (ri : request_info) : option call :=
  if eqb cmd "COMMIT" then Some (CCommit cid ri)
  else if eqb cmd "ABORT" then Some (CAbort cid ri)
  else if eqb cmd "PROVISION" then Some (CProvision cid ri)
  else if eqb cmd "RELEASE" then Some (CRelease cid ri)
  else if eqb cmd "TERMINATE" then Some (CTerminate cid ri)
  else None.

(** resource.py:362-407; [provider] is the result of the provider's deferred
    (its operations are inlineCallbacks and never raise at once).  Result: the
    provider calls made and the response. *)
Definition status_post (allowed : option (list pytext)) (rq : http_request) (cid body : string)
           (provider : call -> result unit) : list call * rendered :=
  match check_authz allowed rq with
  | Err e => ([], Raised e)
  | Ok (false, _) => ([], Returned 401 (PStr "unauthorized"))
  | Ok (true, ri) =>
      let cmd := upper body in
      if negb (mem cmd ACTIONS) then ([], Returned 400 (PStr "Invalid state command specified")) else
      match command_call cmd cid ri with
      | None => ([], Returned 500 (PStr "Unrecognized command"))
      | Some c => ([c], match provider c with Ok _ => Later 200 | Err e => Later (error_code e) end)
      end
  end.

(** resource.py:197-203: AttributeError when the value is not text *)
Definition prefixed (j : json) : result string :=
  match j with
  | JStr s => Ok (if starts_with URN_NETWORK s then s else URN_NETWORK +++ s)
  | _ => Err EAttribute
  end.
(** resource.py:208-209; a value that is not text fails inside isoparse with a
    Python error (TypeError or ValueError, both outside NSIError; modelled as TypeError) *)
Definition opt_time (key : string) (data : json) : result (option dt) :=
  if jin key data then
    do! v <- jget key data;
    match v with JStr s => do! t <- parseXMLTimestamp s; Ok (Some t) | _ => Err EType end
  else Ok None.
(** resource.py:213-214, [data.get(key)] *)
Definition jget_or (key : string) (default : json) (data : json) : json :=
  match jget key data with Ok v => v | Err _ => default end.
(** resource.py:213-214 *)
Definition auto_commit (data : json) : bool := negb (jin "auto_commit" data && negb (jtrue (jget_or "auto_commit" JNull data))).
(** resource.py:214 *)
Definition auto_provision (data : json) : bool := jin "auto_provision" data && jtrue (jget_or "auto_provision" JNull data).

(** resource.py:196-233 up to the provider call: the call, [None] when refused for
    auto-provision without auto-commit (216-219), or the exception *)
Definition reserve_request (data : json) (ri : request_info) : result (option call) :=
  do! src <- jget "source" data; do! source <- prefixed src;
  do! dst <- jget "destination" data; do! dest <- prefixed dst;
  do! source_stp <- create_stp source; do! dest_stp <- create_stp dest;
  do! start_time <- opt_time "start_time" data; do! end_time <- opt_time "end_time" data;
  if auto_provision data && negb (auto_commit data) then Ok None
  else Ok (Some (CReserve source_stp dest_stp start_time end_time (jget_or "capacity" (JInt 0) data) ri)).

(** resource.py:160-266.  [loads] is [json.loads] (external); [provider] the
    result of the provider's reserve. *)
Definition create_post (loads : string -> result json) (allowed : option (list pytext)) (rq : http_request)
           (body : string) (provider : call -> result unit) : list call * rendered :=
  match check_authz allowed rq with
  | Err e => ([], Raised e)
  | Ok (false, _) => ([], Returned 401 (PStr "unauthorized"))
  | Ok (true, ri) =>
      if Z.of_nat (String.length body) =? 0 then ([], Returned 400 (PStr "No data received in request")) else
      if Z.of_nat (String.length body) >? 32 * 1024 then ([], Returned 413 (PStr "Requests too large")) else
      match loads body with
      | Err EValue => ([], Returned 400 (PStr "Invalid JSON data"))
      | Err e => ([], Raised e)
      | Ok data =>
          match reserve_request data ri with
          | Err e => ([], Returned (error_code e) (PStr "error"))
          | Ok None => ([], Returned 400 (PStr "Cannot have auto-provision without auto-commit"))
          | Ok (Some c) => ([c], match provider c with Ok _ => Later 201 | Err e => Later (error_code e) end)
          end
      end
  end.

(** * The watcher of an auto-committed connection, resource.py:236-257 *)

(** What can be observed: a state the watched object takes, and the watcher's calls; resource.py:246-255 *)
Inductive obs := OState (s : states) | OCommit | OProvision.

(** The states an operation of state.py takes the object through (cf. [op_mem]):
    [reserveMultiSwitch] visits several; an illegal step raises and stays; state.py:144-152 *)
Fixpoint multi_visits (targets : list rstate) (c : states) : list states :=
  match targets with
  | [] => []
  | s :: r => match set_r s c with Ok c' => c' :: multi_visits r c' | Err _ => [] end
  end.
(** state.py:109-194, the states an operation goes through *)
Definition visits (o : state_op) (c : states) : list states :=
  match o with
  | OpReserveMulti ts => multi_visits ts c
  | _ => match op_mem o c with (c', None) => [c'] | (_, Some _) => [] end
  end.

(** [w_sub]: the watcher is subscribed; [w_log]: observations, oldest first; resource.py:244-255 *)
Record watch := mkW { w_obj : states; w_sub : bool; w_log : list obs }.

(** state.py:109-194 through the watched object, without the save *)
Definition do_op (w : watch) (o : state_op) : watch :=
  mkW (fst (op_mem o (w_obj w))) (w_sub w) (w_log w ++ map OState (visits o (w_obj w))).
(** an observation is added (resource.py:238-258) *)
Definition emit (w : watch) (x : obs) : watch := mkW (w_obj w) (w_sub w) (w_log w ++ [x]).

(** resource.py:246-253 [stateUpdate].  [d1], [d2]: what the provider's commit and
    provision do to the watched object before they first wait (the answers of the
    database come later, so there is no nested notification). *)
Definition state_update (auto_prov : bool) (d1 d2 : list state_op) (w : watch) : watch :=
  let w := match st_r (w_obj w) with RHeld => fold_left do_op d1 (emit w OCommit) | _ => w end in
  let w := match st_r (w_obj w), st_p (w_obj w) with
           | RStart, PReleased => if auto_prov then fold_left do_op d2 (emit w OProvision) else w
           | _, _ => w
           end in
  match st_p (w_obj w) with PProvisioned => mkW (w_obj w) false (w_log w) | _ => w end.

(** Events of the connection's life after the watcher loaded its object:
    the subscription (255); a state operation through the watched object, whose
    save succeeds or not (state.py:95-96: notification only after the save); the
    watched object is also changed without notification while a save is pending
    ([EvPending]); a notification caused through another object of the same
    connection, which leaves this one alone. *)
Inductive ev :=
| EvSubscribe
| EvOp (o : state_op) (saved : bool) (d1 d2 : list state_op)
| EvPending (o : state_op)
| EvForeign (d1 d2 : list state_op).

(** state.py:80-97: a subscriber is called *)
Definition notified (auto_prov : bool) (d1 d2 : list state_op) (w : watch) : watch :=
  if w_sub w then state_update auto_prov d1 d2 w else w.
(** resource.py:238-258 and state.py:84-194, one event *)
Definition ev_step (auto_prov : bool) (w : watch) (e : ev) : watch :=
  match e with
  | EvSubscribe => mkW (w_obj w) true (w_log w)
  | EvOp o saved d1 d2 =>
      match op_mem o (w_obj w) with
      | (_, None) => if saved then notified auto_prov d1 d2 (do_op w o) else do_op w o
      | (_, Some _) => do_op w o
      end
  | EvPending o => do_op w o
  | EvForeign d1 d2 => notified auto_prov d1 d2 w
  end.
(** resource.py:238-258 and state.py:84-194, a sequence of events *)
Definition ev_run (auto_prov : bool) (s0 : states) (evs : list ev) : watch :=
  fold_left (ev_step auto_prov) evs (mkW s0 false []).
