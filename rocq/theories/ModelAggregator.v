(** Model of /repo/opennsa/aggregator.py: class Aggregator (62-1225).

    Every method is a program (type [prog]) whose suspension points are explicit;
    a machine at the end of the file runs any number of them interleaved.

    Simplifications, for the whole file:
    - the columns reserve_time, revision (always 0 here), description,
      requester_url, symmetrical, directionality, parameter, security_attributes
      and connection_trace are left out of the rows: they are stored, never
      inspected (the header's trace and attributes passed to providers are kept);
    - the object built by [reserve] (239) and the one built by [reserveConfirmed]
      (921) are never handed to other code, so they are values of the program;
      the objects of the two caches (78-79) are shared and live in a heap;
    - correlation ids are numbers; a new header gets the next number (nsa.py:35,
      a fresh UUID in the code);
    - [SELECT] returns rows in order of insertion;
    - a provider's method returns a deferred; one that raises at once is not
      modelled (none of the local backend's methods does, and the methods of
      requesterclient.py do only for malformed arguments);
    - the plugin's connectionCreated/connectionTerminated do not raise;
    - state-change subscribers (state.py:70-97) are left out;
    - texts of exceptions are left out, except the aggregate one (56);
    - a label read back from the database equals the one stored;
    - log messages are left out. *)
From Verif Require Import Base ModelLabel ModelSTP ModelAuthz ModelNRM ModelState ModelLinkVector ModelProvreg.
Open Scope Z_scope.

(** * State *)
(** a row of service_connections (datafiles/schema.sql:24-51), and an object of
    class ServiceConnection (database.py:91-92) *)
Record conn := mkConn {
  cn_key : nat; cn_cid : string; cn_gid : string; cn_requester : string; cn_states : states;
  cn_src : stp; cn_dst : stp; cn_start : option Z; cn_end : option Z; cn_bw : Z }.
(** schema.sql service_connections: the key the database assigns (aggregator.py:254) *)
Definition cn_set_key k c := mkConn k (cn_cid c) (cn_gid c) (cn_requester c) (cn_states c) (cn_src c) (cn_dst c) (cn_start c) (cn_end c) (cn_bw c).
(** state.py:109-194: assignment to the state columns *)
Definition cn_set_states x c := mkConn (cn_key c) (cn_cid c) (cn_gid c) (cn_requester c) x (cn_src c) (cn_dst c) (cn_start c) (cn_end c) (cn_bw c).
(** aggregator.py:943 *)
Definition cn_set_src_label l c := mkConn (cn_key c) (cn_cid c) (cn_gid c) (cn_requester c) (cn_states c) (mkSTP (s_network (cn_src c)) (s_port (cn_src c)) l) (cn_dst c) (cn_start c) (cn_end c) (cn_bw c).
(** aggregator.py:945 *)
Definition cn_set_dst_label l c := mkConn (cn_key c) (cn_cid c) (cn_gid c) (cn_requester c) (cn_states c) (cn_src c) (mkSTP (s_network (cn_dst c)) (s_port (cn_dst c)) l) (cn_start c) (cn_end c) (cn_bw c).
(** state.py:109-147, [conn.reservation_state] *)
Definition cn_r c := st_r (cn_states c).
(** state.py:151-169, [conn.provision_state] *)
Definition cn_p c := st_p (cn_states c).
(** state.py:173-194, [conn.lifecycle_state] *)
Definition cn_l c := st_l (cn_states c).

(** a row of sub_connections (schema.sql:54-74), and an object of class
    SubConnection (database.py:95-96); version and consistency start as NULL *)
Record sub := mkSub {
  sb_key : nat; sb_conn : nat; sb_cid : string; sb_provider : string; sb_order : nat; sb_states : states;
  sb_active : bool; sb_version : option Z; sb_consistent : option bool; sb_src : stp; sb_dst : stp }.
(** schema.sql sub_connections: the key the database assigns (aggregator.py:935) *)
Definition sb_set_key k s := mkSub k (sb_conn s) (sb_cid s) (sb_provider s) (sb_order s) (sb_states s) (sb_active s) (sb_version s) (sb_consistent s) (sb_src s) (sb_dst s).
(** state.py:109-194, aggregator.py:1015, 1037, 1093: assignment to the state columns *)
Definition sb_set_states x s := mkSub (sb_key s) (sb_conn s) (sb_cid s) (sb_provider s) (sb_order s) x (sb_active s) (sb_version s) (sb_consistent s) (sb_src s) (sb_dst s).
(** aggregator.py:1159-1161 *)
Definition sb_set_dp a v c s := mkSub (sb_key s) (sb_conn s) (sb_cid s) (sb_provider s) (sb_order s) (sb_states s) a (Some v) (Some c) (sb_src s) (sb_dst s).
(** state.py:109-147, [sc.reservation_state] *)
Definition sb_r s := st_r (sb_states s).
(** state.py:151-169, [sc.provision_state] *)
Definition sb_p s := st_p (sb_states s).
(** state.py:173-194, [sc.lifecycle_state] *)
Definition sb_l s := st_l (sb_states s).

(** aggregator.py:396-403, the entries of [self.reservations]; the endpoints stored in them
    are only compared for logging (898-907) and left out *)
Record rinfo := mkRInfo { ri_provider : string; ri_conn : nat; ri_order : nat }.

(** an incoming NSI header (nsa.py:29-38) *)
Record header := mkHeader {
  hd_requester : string; hd_provider : string; hd_corr : nat;
  hd_sas : list secattr; hd_trace : option (list string) }.

(** data plane status: active, version, consistent *)
Notation dps := (bool * Z * bool)%type.
(** nsa.ConnectionInfo of a query result (nsa.py:321-343), with the children of
    its only criteria *)
Inductive cinfo := mkCInfo {
  ci_cid : string; ci_gid : string; ci_src : stp; ci_dst : stp; ci_start : option Z; ci_end : option Z; ci_bw : Z;
  ci_provider : string; ci_requester : string; ci_states : states; ci_dps : dps;
  ci_note : nat; ci_result : nat; ci_children : list cinfo }.

(** the calls made on providers (INSIProvider); interface.py [INSIProvider], called from aggregator.py:408, 477, 517, 567, 609, 649, 764 *)
Inductive dbody :=
| DReserve (gid : string) (src dst : stp) (b e : option Z) (bw : Z)
| DCommit (cid : string) | DAbort (cid : string) | DProvision (cid : string) | DRelease (cid : string)
| DTerminate (cid : string) | DQuery (cid : string).
(** the messages sent to the parent requester (INSIRequester); interface.py [INSIRequester], called from aggregator.py:858-1204 *)
Inductive ubody :=
| UReserveConfirmed (cid gid : string) (src dst : stp) (b e : option Z) (bw : Z)
| UReserveFailed (cid : string) (err : string)
| UCommitConfirmed (cid : string) | UAbortConfirmed (cid : string)
| UProvisionConfirmed (cid : string) | UReleaseConfirmed (cid : string) | UTerminateConfirmed (cid : string)
| UReserveTimeout (cid : string) (note : Z) (org_cid org_nsa : string)
| UDataPlane (cid : string) (d : dps)
| UErrorEvent (cid : string) (note : Z) (event : string)
| UQuerySummary (l : list cinfo)
| UQueryRecursive (corr : nat) (l : list cinfo)
| UError (nsa_id cid text : string).
(** everything leaving the aggregator: provider calls (aggregator.py:408, 435, 477, 517, 567, 609, 649, 764), parent requester calls (858, 970, 1005, 1026, 1048, 1068, 1087, 1104, 1118, 1143, 1184, 1204), plugin calls (1027, 1105) *)
Inductive output :=
| ODown (p : nat) (h : header) (b : dbody)       (* [p]: the provider object, see ModelProvreg.v *)
| OUp (requester : string) (b : ubody)           (* [requester]: addressed to *)
| OCreated (cid : string)                        (* plugin.connectionCreated *)
| OTerminated (cid : string).                    (* plugin.connectionTerminated *)

(** aggregator.py:64-83, and the database *)
Record st := mkSt {
  t_conns : list (nat * conn); t_subs : list (nat * sub); n_key : nat;
  h_conns : list (nat * conn); h_subs : list (nat * sub); n_obj : nat;
  c_conns : list (string * nat); c_subs : list (string * nat);
  resvs : list (nat * rinfo);
  qreqs : list (nat * (string * nat * nat));           (* requester, connection object, count *)
  qcalls : list (nat * (nat * option (list cinfo)));
  n_corr : nat; n_note : nat;
  a_reg : provreg; a_rv : lvec;
  outs : list output }.

(** everything a program can do to the state; aggregator.py:64-1225 *)
Inductive act :=
| AInsertConn (c : conn)                 (* a row; the key is the next one *)
| AWriteConn (c : conn)                  (* overwrite the row with the object's key *)
| AInsertSub (x : sub)
| AWriteSub (x : sub)
| ALoadConn (c : conn)                   (* a new object in the heap, put in the cache *)
| ALoadSub (x : sub)
| ASetConn (o : nat) (c : conn)          (* assign attributes of an object *)
| ASetSub (o : nat) (x : sub)
| AResv (k : nat) (i : rinfo) | AResvPop (k : nat)
| AQreq (k : nat) (x : string * nat * nat) | AQreqPop (k : nat)
| AQcall (k : nat) (x : nat * option (list cinfo)) | AQcallPop (req : nat)
| ACorr | ANote
| AOut (x : output).

(** aggregator.py:64-83, the effect of one assignment or database write on the state *)
Definition do_act (a : act) (s : st) : st :=
  let '(mkSt tc ts nk hc hs no cc cs rv qr qc nc nn rg vv os) := s in
  match a with
  | AInsertConn c => mkSt (aset nk (cn_set_key nk c) tc) ts (S nk) hc hs no cc cs rv qr qc nc nn rg vv os
  | AWriteConn c => mkSt (aset (cn_key c) c tc) ts nk hc hs no cc cs rv qr qc nc nn rg vv os
  | AInsertSub x => mkSt tc (aset nk (sb_set_key nk x) ts) (S nk) hc hs no cc cs rv qr qc nc nn rg vv os
  | AWriteSub x => mkSt tc (aset (sb_key x) x ts) nk hc hs no cc cs rv qr qc nc nn rg vv os
  | ALoadConn c => mkSt tc ts nk (aset no c hc) hs (S no) (aset (cn_cid c) no cc) cs rv qr qc nc nn rg vv os
  | ALoadSub x => mkSt tc ts nk hc (aset no x hs) (S no) cc (aset (sb_cid x) no cs) rv qr qc nc nn rg vv os
  | ASetConn o c => mkSt tc ts nk (aset o c hc) hs no cc cs rv qr qc nc nn rg vv os
  | ASetSub o x => mkSt tc ts nk hc (aset o x hs) no cc cs rv qr qc nc nn rg vv os
  | AResv k i => mkSt tc ts nk hc hs no cc cs (aset k i rv) qr qc nc nn rg vv os
  | AResvPop k => mkSt tc ts nk hc hs no cc cs (adel k rv) qr qc nc nn rg vv os
  | AQreq k x => mkSt tc ts nk hc hs no cc cs rv (aset k x qr) qc nc nn rg vv os
  | AQreqPop k => mkSt tc ts nk hc hs no cc cs rv (adel k qr) qc nc nn rg vv os
  | AQcall k x => mkSt tc ts nk hc hs no cc cs rv qr (aset k x qc) nc nn rg vv os
  | AQcallPop q => mkSt tc ts nk hc hs no cc cs rv qr (filter (fun e => negb (eqb (fst (snd e)) q)) qc) nc nn rg vv os
  | ACorr => mkSt tc ts nk hc hs no cc cs rv qr qc (S nc) nn rg vv os
  | ANote => mkSt tc ts nk hc hs no cc cs rv qr qc nc (S nn) rg vv os
  | AOut x => mkSt tc ts nk hc hs no cc cs rv qr qc nc nn rg vv (os ++ [x])
  end.

(** * Programs *)
(** waits: the database, the plugin, the plugin for a new connection id, the
    acknowledgements of [n] providers (a DeferredList, which never fails); aggregator.py:172, 237, 416, 444 *)
Inductive wait := WDb | WPlugin | WId | WAcks (n : nat).
(** what one provider answered: an id, or an exception with its text; aggregator.py:416-419 *)
Inductive ack := Acked (id : string) | Nacked (e : exn) (msg : string).
(** aggregator.py, what a [yield] gives back: done, a failure, an id (237), the results of a DeferredList (416, 481, 523, 571, 615, 653, 770) *)
Inductive ans := AnsOk | AnsFail (e : exn) | AnsId (id : string) | AnsAcks (l : list ack).
(** aggregator.py, which answers fit which [yield]; e.g. aggregator.py:461, 481 *)
Definition answers (w : wait) (a : ans) : bool :=
  match w, a with
  | (WDb | WPlugin), (AnsOk | AnsFail _) => true
  | WId, (AnsId _ | AnsFail _) => true
  | WAcks n, AnsAcks l => (List.length l =? n)%nat
  | _, _ => false
  end.

(** an exception and its text *)
Notation err := (exn * string)%type.
(** the methods of aggregator.py as programs: a generator under [defer.inlineCallbacks] runs to its next [yield] without interruption;
    e.g. aggregator.py:454-493 *)
Inductive prog (A : Type) : Type :=
| Ret (a : A)
| Throw (e : err)
| Get (k : st -> prog A)
| Do (a : act) (k : prog A)
| Await (w : wait) (k : ans -> prog A).
Arguments Ret {A}. Arguments Throw {A}. Arguments Get {A}. Arguments Do {A}. Arguments Await {A}.

(** aggregator.py, sequencing of statements; e.g. aggregator.py:461-469 *)
Fixpoint bind {A B} (p : prog A) (f : A -> prog B) : prog B :=
  match p with
  | Ret a => f a
  | Throw e => Throw e
  | Get k => Get (fun s => bind (k s) f)
  | Do a k => Do a (bind k f)
  | Await w k => Await w (fun x => bind (k x) f)
  end.
Notation "x <- p ;; q" := (bind p (fun x => q)) (at level 61, p at next level, right associativity).
Notation "p ;;; q" := (bind p (fun _ => q)) (at level 61, right associativity).

(** aggregator.py, reading [self] and the database; e.g. aggregator.py:463 *)
Definition get : prog st := Get Ret.
(** aggregator.py, one statement with an effect; e.g. aggregator.py:477-479 *)
Definition act1 (a : act) : prog unit := Do a (Ret tt).
(** aggregator.py, [raise] of an exception without a text that is looked at; e.g. aggregator.py:464 *)
Definition throw {A} (e : exn) : prog A := Throw (e, "").
(** aggregator.py, a computation that may raise; e.g. aggregator.py:473-474 *)
Definition lift {A} (r : result A) : prog A := match r with Ok a => Ret a | Err e => throw e end.
(** aggregator.py, one outgoing call; e.g. aggregator.py:477 *)
Definition out (x : output) : prog unit := act1 (AOut x).
(** aggregator.py, a call on [self.parent_requester]; e.g. aggregator.py:1026 *)
Definition up (r : string) (b : ubody) : prog unit := out (OUp r b).

(** aggregator.py, [yield d] for a deferred whose failure is raised; e.g. aggregator.py:466 *)
Definition await (w : wait) : prog unit := Await w (fun a => match a with AnsOk => Ret tt | AnsFail e => throw e | _ => throw EFuel end).
(** aggregator.py:237, [yield self.plugin.createConnectionId()] *)
Definition await_id : prog string := Await WId (fun a => match a with AnsId s => Ret s | AnsFail e => throw e | _ => throw EFuel end).
(** aggregator.py:416, 444, 481, 523, 571, 615, 653, 770: [yield defer.DeferredList(defs, consumeErrors=True)] *)
Definition await_acks (n : nat) : prog (list ack) := Await (WAcks n) (fun a => match a with AnsAcks l => Ret l | _ => throw EFuel end).
(** a new header's correlation id, nsa.py:35 *)
Definition new_corr : prog nat := s <- get ;; act1 ACorr ;;; Ret (n_corr s).
(** aggregator.py:85-88 *)
Definition notification_id : prog nat := s <- get ;; act1 ANote ;;; Ret (n_note s).

(** aggregator.py, [for] loops that collect a list; e.g. aggregator.py:471-479 *)
Fixpoint mapP {A B} (f : A -> prog B) (l : list A) : prog (list B) :=
  match l with [] => Ret [] | x :: r => y <- f x ;; ys <- mapP f r ;; Ret (y :: ys) end.
(** aggregator.py, [for] loops for their effect; e.g. aggregator.py:471-479 *)
Fixpoint iterP {A} (f : A -> prog unit) (l : list A) : prog unit :=
  match l with [] => Ret tt | x :: r => f x ;;; iterP f r end.

(** * Objects and rows, aggregator.py:90-154 *)
Definition conn_obj (o : nat) : prog conn := s <- get ;; match aget o (h_conns s) with Some c => Ret c | None => throw EFuel end.
(** aggregator.py:121-136, the object behind a reference *)
Definition sub_obj (o : nat) : prog sub := s <- get ;; match aget o (h_subs s) with Some c => Ret c | None => throw EFuel end.
(** twistar DBObject.save of a stored object: writes every column at some time
    between the call and the firing of the deferred; used at aggregator.py:947 and state.py:95 *)
Definition save_conn (o : nat) : prog unit := await WDb ;;; c <- conn_obj o ;; act1 (AWriteConn c) ;;; await WDb.
(** as [save_conn], aggregator.py:935, 1016, 1038, 1094, 1163 and state.py:80-97 *)
Definition save_sub (o : nat) : prog unit := await WDb ;;; x <- sub_obj o ;; act1 (AWriteSub x) ;;; await WDb.
(** the same for an object only this program has; aggregator.py:286, 427, state.py:95 *)
Definition save_conn_val (c : conn) : prog unit := await WDb ;;; act1 (AWriteConn c) ;;; await WDb.

(** a function of state.py on a cached connection / sub connection: check, assign, save; state.py:109-195 *)
Definition set_conn_state (x : state_op) (o : nat) : prog unit :=
  c <- conn_obj o ;;
  let '(y, e) := op_mem x (cn_states c) in
  match e with Some e => throw e | None => act1 (ASetConn o (cn_set_states y c)) end.
(** state.py:109-194 on an object reached by several calls: switch, then saveNotify *)
Definition conn_state (x : state_op) (o : nat) : prog unit := set_conn_state x o ;;; save_conn o.
(** state.py:109-194 up to the save, for loops that collect the saves (aggregator.py:514, 560, 603) *)
Definition set_sub_state (x : state_op) (o : nat) : prog unit :=
  c <- sub_obj o ;;
  let '(y, e) := op_mem x (sb_states c) in
  match e with Some e => throw e | None => act1 (ASetSub o (sb_set_states y c)) end.
(** state.py:109-194 on a sub connection *)
Definition sub_state (x : state_op) (o : nat) : prog unit := set_sub_state x o ;;; save_sub o.
(** and on the private object of [reserve], aggregator.py:286, 427, 446 *)
Definition own_state (x : state_op) (c : conn) : prog conn :=
  let '(y, e) := op_mem x (cn_states c) in
  match e with
  | Some e => throw e
  | None => save_conn_val (cn_set_states y c) ;;; Ret (cn_set_states y c)
  end.

(** aggregator.py:104, [ServiceConnection.findBy(connection_id=...)] *)
Definition find_conn (cid : string) (s : st) : option conn := find (fun c => eqb (cn_cid c) cid) (map snd (t_conns s)).
(** aggregator.py:134, [SubConnection.findBy(provider_nsa=..., connection_id=...)] *)
Definition find_sub (prov cid : string) (s : st) : option sub :=
  find (fun x => eqb (sb_provider x) prov && eqb (sb_cid x) cid) (map snd (t_subs s)).
(** aggregator.py:152, [SubConnection.findBy(service_connection_id=...)] *)
Definition subs_of (key : nat) (s : st) : list sub := filter (fun x => eqb (sb_conn x) key) (map snd (t_subs s)).

(** aggregator.py:90-106: the cache, else the database; the row is read some time before the
    callback (98) stores the object *)
Definition get_connection (cid : string) : prog nat :=
  s <- get ;;
  match aget cid (c_conns s) with
  | Some o => Ret o
  | None =>
      await WDb ;;; s <- get ;;
      match find_conn cid s with
      | None => await WDb ;;; throw EConnectionNonExistent
      | Some c => await WDb ;;; s <- get ;; act1 (ALoadConn c) ;;; Ret (n_obj s)
      end
  end.
(** aggregator.py:108-119 *)
Definition get_connection_by_key (key : nat) : prog nat :=
  await WDb ;;; s <- get ;;
  match aget key (t_conns s) with
  | None => await WDb ;;; throw EConnectionNonExistent
  | Some c => await WDb ;;; get_connection (cn_cid c)
  end.
(** aggregator.py:123-129, 134-136: the database part of getSubConnection *)
Definition fetch_sub (prov cid : string) : prog nat :=
  await WDb ;;; s <- get ;;
  match find_sub prov cid s with
  | None => await WDb ;;; throw EConnectionNonExistent
  | Some x => await WDb ;;; s <- get ;; act1 (ALoadSub x) ;;; Ret (n_obj s)
  end.
(** aggregator.py:121-136; the cache is keyed by the connection id alone *)
Definition get_sub (prov cid : string) : prog nat :=
  s <- get ;; match aget cid (c_subs s) with Some o => Ret o | None => fetch_sub prov cid end.
(** aggregator.py:138-154: the cache is consulted for all rows first (147); the database is then
    asked for the others.  Simplification: one after the other. *)
Definition get_subs (key : nat) : prog (list nat) :=
  await WDb ;;; s <- get ;;
  let rows := subs_of key s in
  await WDb ;;; s <- get ;;
  mapP (fun x : sub => match aget (sb_cid x) (c_subs s) with Some o => Ret o | None => fetch_sub (sb_provider x) (sb_cid x) end) rows.
(** aggregator.py:957, 1022 etc., the attributes of the objects in [sub_conns] *)
Definition sub_objs (os : list nat) : prog (list sub) := mapP sub_obj os.

(** * Failures, aggregator.py:44-57 *)
Definition acked (a : ack) : bool := match a with Acked _ => true | Nacked _ _ => false end.
(** aggregator.py:417-419, [all(successes)] *)
Definition all_acked (l : list ack) : bool := forallb acked l.
(** aggregator.py:45 *)
Definition failures (l : list ack) : list err := flat_map (fun a => match a with Acked _ => [] | Nacked e m => [(e, m)] end) l.
(** aggregator.py:54-55 *)
Definition provider_failures (urns : list string) (l : list ack) : list string :=
  flat_map (fun ua => match snd ua with Acked _ => [] | Nacked _ m => [fst ua +++ ": " +++ m] end) (combine urns l).
(** aggregator.py:56, the separator *)
Definition newline : string := String (ascii_of_nat 10) "".
(** aggregator.py:44-57 [_createAggregateException] *)
Definition aggregate (action : string) (l : list ack) (urns : list string) (default : exn) : err :=
  match failures l with
  | [] => (EInternalServer, "_createAggregateException called with no failures")
  | [f] => f
  | fs => (default, py_str (Z.of_nat (List.length fs)) +++ "/" +++ py_str (Z.of_nat (List.length l)) +++ " " +++ action +++ " failed:" +++ newline +++ "  " +++
                    join (newline +++ "  ") (provider_failures urns l))
  end.

(** * Configuration *)
(** aggregator.py:64-72; constants.py:45-48; config.py:215-230 *)
Record cfg := mkCfg {
  a_urn : string;
  pol_trace : bool; pol_user : bool; pol_aggr : bool; pol_hairpin : bool;
  a_ports : list (string * list (string * nrm_port));
  a_admins : list string }.

(** * reserve, aggregator.py:156-452 *)
Record areq := mkAReq {
  q_cid : option string; q_gid : string; q_src : stp; q_dst : stp;
  q_start : option Z; q_end : option Z; q_bw : Z }.
Notation link := (stp * stp)%type.

(** aggregator.py:337-346: one cross connect per local network of the path.  A port without
    remote end makes the next turn's assertion fail, or [getProvider(None)] (376);
    nothing happens in between, so the error is reported here. *)
Fixpoint cross_connects (ports : list (string * list (string * nrm_port))) (prev : stp) (v : list (string * string))
  : result (list link * stp) :=
  match v with
  | [] => Ok ([], prev)
  | (n, p) :: r =>
      if negb (eqb (s_network prev) n) then Err EAssertion else
      match aget n ports with
      | None => Err EKey
      | Some ps =>
          match aget p ps with
          | None => Err EKey
          | Some port =>
              match p_remote_network port, p_remote_port port with
              | Some rn, Some rp =>
                  do! (ls, last) <- cross_connects ports (mkSTP rn rp (p_label port)) r;
                  Ok ((prev, mkSTP n p (p_label port)) :: ls, last)
              | _, _ => Err (match r with [] => EAttribute | _ => EAssertion end)
              end
          end
      end
  end.

(** aggregator.py:289-367 *)
Definition build_links (g : cfg) (locals : list string) (rv : lvec) (src dst : stp) : result (list link) :=
  if eqb (s_network src) (s_network dst) && mem (s_network src) locals then
    if negb (pol_hairpin g) && eqb (s_port src) (s_port dst) then Err EService
    else Ok [(src, dst)]
  else if mem (s_network src) locals || mem (s_network dst) locals then
    let '(local, remote) := if mem (s_network src) locals then (src, dst) else (dst, src) in
    do! path <- lv_path (s_network remote) (s_network local) rv;
    match path with
    | None => Err ESTPResolution
    | Some path =>
        do! (ls, last) <- cross_connects (a_ports g) local (filter (fun np => mem (fst np) locals) path);
        Ok (ls ++ [(last, remote)])
    end
  else if pol_aggr g then Ok [(src, dst)]
  else Err EAttribute.                           (* 367: self.network *)

(** aggregator.py:174-199 *)
Definition policy_check (g : cfg) (locals : list string) (h : header) (q : areq) : result unit :=
  if pol_trace g && match hd_trace h with None | Some [] => true | _ => false end then Err ESecurity
  else if pol_user g && negb (existsb (fun a => eqb (sa_type a) "user") (hd_sas h)) then Err ESecurity
  else if negb (pol_aggr g) && negb (mem (s_network (q_src q)) locals || mem (s_network (q_dst q)) locals) then Err EConnectionCreate
  else Ok tt.
(** aggregator.py:202-208: [vector] never returns None (linkvector.py:201-202 returns a pair),
    but it raises for a source that is not a local network *)
Definition route_check (locals : list string) (rv : lvec) (q : areq) : result unit :=
  let s := s_network (q_src q) in let d := s_network (q_dst q) in
  if mem s locals || mem d locals then
    do! _ <- (if mem s locals then Ok None else lv_vector s s rv);
    do! _ <- (if mem d locals then Ok None else lv_vector d s rv);
    Ok tt
  else Ok tt.

(** schema.sql:26, 50 *)
Definition span_ok (b e : option Z) : bool := match b, e with Some b, Some e => b <? e | _, _ => true end.
(** aggregator.py:239-254 *)
Definition insert_conn (c : conn) : prog conn :=
  await WDb ;;; s <- get ;;
  if (match find_conn (cn_cid c) s with Some _ => true | None => false end) || negb (span_ok (cn_start c) (cn_end c)) then throw EDatabase
  else act1 (AInsertConn c) ;;; await WDb ;;; Ret (cn_set_key (n_key s) c).

(** aggregator.py:373-379: raises for an unknown network *)
Definition check_providers (locals : list string) (reg : provreg) (ls : list link) : result unit :=
  do! _ <- mapM (fun l : link => if mem (s_network (fst l)) locals then Ok 0%nat else get_provider (s_network (fst l)) reg) ls; Ok tt.

(** aggregator.py:384-412, one turn; returns the network and the urn of the provider *)
Definition reserve_link (g : cfg) (h : header) (c : conn) (ci : nat * link) : prog (string * string) :=
  let '(idx, (src, dst)) := ci in
  let net := s_network src in
  s <- get ;;
  p <- lift (get_provider net (a_reg s)) ;;
  u <- lift (get_provider_urn net (a_reg s)) ;;
  k <- new_corr ;;
  act1 (AResv k (mkRInfo u (cn_key c) idx)) ;;;
  out (ODown p (mkHeader (a_urn g) u k (hd_sas h) (Some (match hd_trace h with Some t => t | None => [] end ++ [a_urn g +++ ":" +++ cn_cid c])))
             (DReserve (cn_gid c) src dst (cn_start c) (cn_end c) (cn_bw c))) ;;;
  Ret (net, u).

(** aggregator.py:384, [enumerate(path)] *)
Fixpoint number {A} (i : nat) (l : list A) : list (nat * A) := match l with [] => [] | x :: r => (i, x) :: number (S i) r end.

(** aggregator.py:429-430 *)
Definition accepted (l : list ack) (nets : list string) : list (string * string) :=
  flat_map (fun an => match fst an with Acked i => [(i, snd an)] | Nacked _ _ => [] end) (combine l nets).
(** aggregator.py:431-443, one turn; [u] is the value the loop variable of 387 was left with *)
Definition cleanup_one (g : cfg) (h : header) (u : string) (sn : string * string) : prog unit :=
  s <- get ;;
  p <- lift (get_provider (snd sn) (a_reg s)) ;;
  k <- new_corr ;;
  out (ODown p (mkHeader (a_urn g) u k (hd_sas h) None) (DTerminate (fst sn))).

(** aggregator.py:416-452 *)
Definition reserve_acks (g : cfg) (h : header) (c : conn) (info : list (string * string)) : prog string :=
  l <- await_acks (List.length info) ;;
  if all_acked l then Ret (cn_cid c)
  else
    c <- own_state OpTerminating c ;;
    let acc := accepted l (map fst info) in
    iterP (cleanup_one g h (last (map snd info) "")) acc ;;;
    await_acks (List.length acc) ;;;
    own_state OpTerminated c ;;;
    Throw (aggregate "reservations" l (map fst info) EConnectionCreate).

(** aggregator.py:156-452 [reserve] *)
Definition reserve (g : cfg) (h : header) (q : areq) : prog string :=
  match q_cid q with
  | Some cid =>                                                            (* 166-170 *)
      await WDb ;;; s <- get ;; await WDb ;;;
      match find_conn cid s with Some _ => throw EConnectionExists | None => throw ENotImplemented end
  | None =>
      await WPlugin ;;;                                                    (* 172 *)
      s <- get ;;
      let locals := lv_local (a_rv s) in
      lift (policy_check g locals h q) ;;;
      lift (route_check locals (a_rv s) q) ;;;
      cid <- await_id ;;                                                   (* 237 *)
      c <- insert_conn (mkConn 0 cid (q_gid q) (hd_requester h) (mkStates RStart PReleased LCreated)
                               (q_src q) (q_dst q) (q_start q) (q_end q) (q_bw q)) ;;
      c <- own_state OpReserveChecking c ;;                                (* 286 *)
      s <- get ;;
      links <- lift (build_links g locals (a_rv s) (q_src q) (q_dst q)) ;;
      lift (check_providers locals (a_reg s) links) ;;;
      info <- mapP (reserve_link g h c) (number 0 links) ;;
      reserve_acks g h c info
  end.

(** * The requests on a connection *)
(** aggregator.py:471-479 etc.: one provider call per sub connection; returns its URN *)
Definition call_sub (g : cfg) (h : header) (b : string -> dbody) (o : nat) : prog string :=
  x <- sub_obj o ;;
  s <- get ;;
  p <- lift (get_provider (s_network (sb_src x)) (a_reg s)) ;;
  k <- new_corr ;;
  out (ODown p (mkHeader (a_urn g) (sb_provider x) k (hd_sas h) None) (b (sb_cid x))) ;;;
  Ret (sb_provider x).
(** aggregator.py:481-493 etc. *)
Definition finish (cid action : string) (urns : list string) : prog string :=
  l <- await_acks (List.length urns) ;;
  if all_acked l then Ret cid else Throw (aggregate action l urns EConnection).
(** aggregator.py:461-464, 502-505, 545-548, 590-593 *)
Definition open_connection (cid : string) : prog (nat * conn) :=
  o <- get_connection cid ;; c <- conn_obj o ;;
  if eqb (cn_l c) LTerminated then throw EConnectionGone else Ret (o, c).

(** aggregator.py:454-493 *)
Definition reserve_commit (g : cfg) (h : header) (cid : string) : prog string :=
  oc <- open_connection cid ;;
  conn_state OpReserveCommit (fst oc) ;;;
  os <- get_subs (cn_key (snd oc)) ;;
  urns <- mapP (call_sub g h DCommit) os ;;
  finish cid "committed" urns.

(** aggregator.py:495-536; [len(n_success)] (533) of a number is a TypeError *)
Definition reserve_abort (g : cfg) (h : header) (cid : string) : prog string :=
  oc <- open_connection cid ;;
  conn_state OpReserveAbort (fst oc) ;;;
  os <- get_subs (cn_key (snd oc)) ;;
  urns <- mapP (fun o => set_sub_state OpReserveAbort o ;;; call_sub g h DAbort o) os ;;
  iterP save_sub os ;;;
  l <- await_acks (List.length urns) ;;
  if all_acked l then Ret cid else throw EType.

(** aggregator.py:538-581 *)
Definition provision (g : cfg) (h : header) (cid : string) : prog string :=
  oc <- open_connection cid ;;
  conn_state OpProvisioning (fst oc) ;;;
  os <- get_subs (cn_key (snd oc)) ;;
  ch <- mapP (fun o => x <- sub_obj o ;; if eqb (sb_p x) PProvisioning then Ret [] else set_sub_state OpProvisioning o ;;; Ret [o]) os ;;
  iterP save_sub (List.concat ch) ;;;
  urns <- mapP (call_sub g h DProvision) os ;;
  finish cid "provision" urns.

(** aggregator.py:583-626 *)
Definition release (g : cfg) (h : header) (cid : string) : prog string :=
  oc <- open_connection cid ;;
  conn_state OpReleasing (fst oc) ;;;
  os <- get_subs (cn_key (snd oc)) ;;
  iterP (set_sub_state OpReleasing) os ;;;
  iterP save_sub os ;;;
  urns <- mapP (call_sub g h DRelease) os ;;
  finish cid "release" urns.

(** aggregator.py:628-666 *)
Definition terminate (g : cfg) (h : header) (cid : string) : prog string :=
  o <- get_connection cid ;;
  c <- conn_obj o ;;
  if eqb (cn_l c) LTerminated then Ret cid
  else
    conn_state OpTerminating o ;;;
    os <- get_subs (cn_key c) ;;
    urns <- mapP (call_sub g h DTerminate) os ;;
    finish cid "terminate" urns.

(** * Queries *)
(** aggregator.py:707-713; None counts as false and as version 0 *)
Definition truthy (b : option bool) : bool := match b with Some true => true | _ => false end.
(** aggregator.py:711, 1173, [v or 0] *)
Definition or0 (v : option Z) : Z := match v with Some v => v | None => 0 end.
(** aggregator.py:711, 809, 1173, [max] *)
Definition max_list (l : list Z) : Z := match l with [] => 0 | x :: r => fold_left Z.max r x end.
(** aggregator.py:706-713 *)
Definition summary_status (l : list sub) : dps :=
  match l with
  | [] => (false, 0, false)
  | _ => (forallb sb_active l, max_list (map (fun x => or0 (sb_version x)) l), forallb (fun x => truthy (sb_consistent x)) l)
  end.
(** aggregator.py:805-811; [max] of a list with a None and something else is a TypeError *)
Definition recursive_status (l : list sub) : result dps :=
  match l with
  | [] => Ok (false, 0, false)
  | _ =>
      do! v <- match map sb_version l with
               | [v] => Ok (or0 v)
               | vs => if forallb (fun v => match v with Some _ => true | None => false end) vs
                       then Ok (max_list (map or0 vs)) else Err EType
               end;
      Ok (forallb sb_active l, v, forallb (fun x => truthy (sb_consistent x)) l)
  end.
(** aggregator.py:1171-1175 *)
Definition notify_status (l : list sub) : dps :=
  let a0 := match l with x :: _ => sb_active x | [] => false end in
  (forallb sb_active l, max_list (map (fun x => or0 (sb_version x)) l),
   forallb (fun x => truthy (sb_consistent x)) l && forallb (fun x => Bool.eqb (sb_active x) a0) l).

(** aggregator.py:698-722, 794-818, the ConnectionInfo of a connection *)
Definition conn_info (g : cfg) (c : conn) (d : dps) (note result : nat) (children : list cinfo) : cinfo :=
  mkCInfo (cn_cid c) (cn_gid c) (cn_src c) (cn_dst c) (cn_start c) (cn_end c) (cn_bw c)
          (a_urn g) (cn_requester c) (cn_states c) d note result children.

(** aggregator.py:677-694: the rows selected; the third query names a column that does not exist *)
Definition select_conns (g : cfg) (h : header) (cids gids : list string) (s : st) : result (list conn) :=
  let admin := mem (hd_requester h) (a_admins g) in
  let mine c := admin || eqb (cn_requester c) (hd_requester h) in
  match cids, gids with
  | _ :: _, _ => Ok (filter (fun c => mine c && mem (cn_cid c) cids) (map snd (t_conns s)))
  | [], _ :: _ => Err EDatabase
  | [], [] => Ok (filter mine (map snd (t_conns s)))
  end.
(** aggregator.py:668-729 *)
Definition query_summary (g : cfg) (h : header) (cids gids : list string) : prog string :=
  await WDb ;;; s <- get ;;
  cs <- lift (select_conns g h cids gids s) ;;
  await WDb ;;;
  rs <- mapP (fun c : conn =>
          os <- get_subs (cn_key c) ;;
          xs <- sub_objs os ;;
          n <- notification_id ;;
          Ret (conn_info g c (summary_status xs) n 0 [])) cs ;;
  up (hd_requester h) (UQuerySummary rs) ;;;
  Ret "".

(** aggregator.py:731-786 *)
Definition query_recursive (g : cfg) (h : header) (cids gids : list string) : prog string :=
  match gids with
  | _ :: _ => throw EUnsupportedParameter
  | [] =>
      match cids with
      | [] => throw EMissingParameter
      | _ :: _ :: _ => throw EUnsupportedParameter
      | [cid] =>
          o <- get_connection cid ;;
          c <- conn_obj o ;;
          os <- get_subs (cn_key c) ;;
          act1 (AQreq (hd_corr h) (hd_requester h, o, List.length os)) ;;;
          urns <- mapP (fun so =>
                    x <- sub_obj so ;;
                    s <- get ;;
                    p <- lift (get_provider (s_network (sb_src x)) (a_reg s)) ;;
                    k <- new_corr ;;
                    out (ODown p (mkHeader (a_urn g) (sb_provider x) k (hd_sas h) None) (DQuery (sb_cid x))) ;;;
                    act1 (AQcall k (hd_corr h, None)) ;;;
                    Ret (sb_provider x)) os ;;
          l <- await_acks (List.length urns) ;;
          if all_acked l then Ret "" else Throw (aggregate "queryRecursive" l urns EConnection)
      end
  end.

(** aggregator.py:844: the first element of each non-empty answer of the calls made for [req] *)
Definition sub_results (req : nat) (s : st) : list cinfo :=
  flat_map (fun e : nat * (nat * option (list cinfo)) =>
              match snd (snd e) with
              | Some (x :: _) => if eqb (fst (snd e)) req then [x] else []
              | _ => []
              end) (qcalls s).
(** aggregator.py:788-862 *)
Definition query_recursive_confirmed (g : cfg) (h : header) (res : list cinfo) : prog string :=
  s <- get ;;
  match aget (hd_corr h) (qcalls s) with
  | None => Ret ""                                                        (* 825-828 *)
  | Some (_, Some (_ :: _)) => Ret ""                                     (* 831-834 *)
  | Some (req, _) =>
      act1 (AQcall (hd_corr h) (req, Some res)) ;;;
      s <- get ;;
      match aget req (qreqs s) with
      | None => throw EKey
      | Some (requester, o, count) =>
          let scr := sub_results req s in
          if (List.length scr =? count)%nat then
            act1 (AQreqPop req) ;;;
            act1 (AQcallPop req) ;;;
            c <- conn_obj o ;;
            os <- get_subs (cn_key c) ;;
            xs <- sub_objs os ;;
            d <- lift (recursive_status xs) ;;
            n <- notification_id ;;
            c <- conn_obj o ;;
            up requester (UQueryRecursive req [conn_info g c d n n scr]) ;;;
            Ret ""
          else Ret ""
      end
  end.

(** * Answers from the providers *)
(** schema.sql:73 *)
Definition insert_sub (x : sub) : prog unit :=
  await WDb ;;; s <- get ;;
  match find_sub (sb_provider x) (sb_cid x) s with
  | Some _ => throw EDatabase
  | None => act1 (AInsertSub x) ;;; await WDb
  end.

(** aggregator.py:880-890 = 984-994 *)
Definition known_reservation (h : header) (s : st) : result rinfo :=
  match aget (hd_corr h) (resvs s) with
  | None => Err EConnectionNonExistent
  | Some i => if eqb (hd_provider h) (ri_provider i) then Ok i else Err ESecurity
  end.

(** aggregator.py:874-975; [src], [dst] are the end points in the confirmed criteria *)
Definition reserve_confirmed (g : cfg) (h : header) (cid : string) (src dst : stp) : prog string :=
  s <- get ;;
  i <- lift (known_reservation h s) ;;
  act1 (AResvPop (hd_corr h)) ;;;
  insert_sub (mkSub 0 (ri_conn i) cid (ri_provider i) (ri_order i) (mkStates RHeld PReleased LCreated) false None None src dst) ;;;
  o <- get_connection_by_key (ri_conn i) ;;
  c <- conn_obj o ;;
  os <- get_subs (cn_key c) ;;
  c <- conn_obj o ;;
  let c := if eqb (ri_order i) 0%nat then cn_set_src_label (s_label src) c else c in          (* 942-943 *)
  let c := if eqb (Z.of_nat (ri_order i)) (Z.of_nat (List.length os) - 1) then cn_set_dst_label (s_label dst) c else c in  (* 944-945 *)
  act1 (ASetConn o c) ;;;
  save_conn o ;;;
  s <- get ;;
  if existsb (fun e => eqb (ri_conn (snd e)) (ri_conn i)) (resvs s) then Ret ""                (* 949-954 *)
  else
    xs <- sub_objs os ;;
    c <- conn_obj o ;;
    if forallb (fun x => eqb (sb_r x) RHeld) xs && negb (eqb (cn_r c) RHeld) then              (* 957-958 *)
      conn_state OpReserveHeld o ;;;
      c <- conn_obj o ;;
      up (cn_requester c) (UReserveConfirmed (cn_cid c) (cn_gid c) (cn_src c) (cn_dst c) (cn_start c) (cn_end c) (cn_bw c)) ;;;
      Ret ""
    else Ret "".

(** aggregator.py:977-1005 *)
Definition reserve_failed (g : cfg) (h : header) (e : string) : prog string :=
  s <- get ;;
  i <- lift (known_reservation h s) ;;
  act1 (AResvPop (hd_corr h)) ;;;
  o <- get_connection_by_key (ri_conn i) ;;
  c <- conn_obj o ;;
  (if eqb (cn_r c) RFailed then Ret tt else conn_state OpReserveFailed o) ;;;
  c <- conn_obj o ;;
  up (cn_requester c) (UReserveFailed (cn_cid c) e) ;;;
  Ret "".

(** the common shape of aggregator.py:1007-1105: change the sub connection, then look whether
    all sub connections are in the state [sub_ok] and the connection is not yet *)
Definition collect (chg : nat -> prog unit) (sub_ok : sub -> bool) (conn_ok : conn -> bool) (x : state_op)
           (msg : string -> ubody) (after : list (string -> output)) (h : header) (cid : string) : prog string :=
  so <- get_sub (hd_provider h) cid ;;
  chg so ;;;
  sc <- sub_obj so ;;
  o <- get_connection_by_key (sb_conn sc) ;;
  c <- conn_obj o ;;
  os <- get_subs (cn_key c) ;;
  xs <- sub_objs os ;;
  c <- conn_obj o ;;
  if forallb sub_ok xs && negb (conn_ok c) then
    conn_state x o ;;;
    c <- conn_obj o ;;
    up (cn_requester c) (msg (cn_cid c)) ;;;
    iterP (fun f => out (f (cn_cid c))) after ;;;
    Ret ""
  else Ret "".
(** aggregator.py:1015-1016, 1037-1038: assigned without a check *)
Definition force_sub_r (r : rstate) (o : nat) : prog unit :=
  x <- sub_obj o ;; act1 (ASetSub o (sb_set_states (mkStates r (sb_p x) (sb_l x)) x)) ;;; save_sub o.
(** aggregator.py:1093-1094 *)
Definition force_sub_l (l : lstate) (o : nat) : prog unit :=
  x <- sub_obj o ;; act1 (ASetSub o (sb_set_states (mkStates (sb_r x) (sb_p x) l) x)) ;;; save_sub o.

(** aggregator.py:1007-1027 *)
Definition commit_confirmed : header -> string -> prog string :=
  collect (force_sub_r RStart) (fun x => eqb (sb_r x) RStart) (fun c => eqb (cn_r c) RStart) OpReserved UCommitConfirmed [OCreated].
(** aggregator.py:1029-1048 *)
Definition abort_confirmed : header -> string -> prog string :=
  collect (force_sub_r RStart) (fun x => eqb (sb_r x) RStart) (fun c => eqb (cn_r c) RStart) OpReserved UAbortConfirmed [].
(** aggregator.py:1050-1068 *)
Definition provision_confirmed : header -> string -> prog string :=
  collect (sub_state OpProvisioned) (fun x => eqb (sb_p x) PProvisioned) (fun c => eqb (cn_p c) PProvisioned) OpProvisioned UProvisionConfirmed [].
(** aggregator.py:1070-1087 *)
Definition release_confirmed : header -> string -> prog string :=
  collect (sub_state OpReleased) (fun x => eqb (sb_p x) PReleased) (fun c => eqb (cn_p c) PReleased) OpReleased UReleaseConfirmed [].
(** aggregator.py:1089-1105 *)
Definition terminate_confirmed : header -> string -> prog string :=
  collect (force_sub_l LTerminated) (fun x => eqb (sb_l x) LTerminated) (fun c => eqb (cn_l c) LTerminated) OpTerminated UTerminateConfirmed [OTerminated].

(** aggregator.py:1122-1148 *)
Definition reserve_timeout (h : header) (cid : string) (note : Z) (org_cid org_nsa : string) : prog string :=
  so <- get_sub (hd_provider h) cid ;;
  sub_state OpReserveTimeout so ;;;
  sc <- sub_obj so ;;
  o <- get_connection_by_key (sb_conn sc) ;;
  c <- conn_obj o ;;
  os <- get_subs (cn_key c) ;;
  xs <- sub_objs os ;;
  c <- conn_obj o ;;
  if eqb (cn_r c) RFailed then Ret ""
  else if (List.length (filter (fun x => eqb (sb_r x) RTimeout) xs) =? 1)%nat then
    up (cn_requester c) (UReserveTimeout (cn_cid c) note org_cid org_nsa) ;;; Ret ""
  else Ret "".

(** aggregator.py:1150-1184 *)
Definition data_plane (h : header) (cid : string) (d : dps) : prog string :=
  let '(a, v, k) := d in
  so <- get_sub (hd_provider h) cid ;;
  x <- sub_obj so ;;
  act1 (ASetSub so (sb_set_dp a v k x)) ;;;
  save_sub so ;;;
  sc <- sub_obj so ;;
  o <- get_connection_by_key (sb_conn sc) ;;
  c <- conn_obj o ;;
  os <- get_subs (cn_key c) ;;
  xs <- sub_objs os ;;
  c <- conn_obj o ;;
  up (cn_requester c) (UDataPlane (cn_cid c) (notify_status xs)) ;;;
  Ret "".

(** aggregator.py:1187-1204 *)
Definition error (h : header) (nsa_id cid text : string) : prog string :=
  if eqb (hd_provider h) nsa_id then up (hd_requester h) (UError nsa_id cid text) ;;; Ret "" else Ret "".

(** aggregator.py:1206-1220 *)
Definition error_event (h : header) (cid : string) (note : Z) (event : string) : prog string :=
  so <- get_sub (hd_provider h) cid ;;
  sc <- sub_obj so ;;
  o <- get_connection_by_key (sb_conn sc) ;;
  c <- conn_obj o ;;
  os <- get_subs (cn_key c) ;;
  c <- conn_obj o ;;
  match os with
  | [_] => up (cn_requester c) (UErrorEvent (cn_cid c) note event) ;;; Ret ""
  | _ => throw ENotImplemented
  end.

(** * The machine, the calls of aggregator.py:156-1225 *)
Inductive call :=
| CReserve (h : header) (q : areq)
| CCommit (h : header) (cid : string) | CAbort (h : header) (cid : string)
| CProvision (h : header) (cid : string) | CRelease (h : header) (cid : string) | CTerminate (h : header) (cid : string)
| CQuerySummary (h : header) (cids gids : list string) | CQueryRecursive (h : header) (cids gids : list string)
| CReserveConfirmed (h : header) (cid : string) (src dst : stp)
| CReserveFailed (h : header) (e : string)
| CCommitConfirmed (h : header) (cid : string) | CAbortConfirmed (h : header) (cid : string)
| CProvisionConfirmed (h : header) (cid : string) | CReleaseConfirmed (h : header) (cid : string)
| CTerminateConfirmed (h : header) (cid : string)
| CReserveTimeout (h : header) (cid : string) (note : Z) (org_cid org_nsa : string)
| CDataPlane (h : header) (cid : string) (d : dps)
| CError (h : header) (nsa_id cid text : string)
| CErrorEvent (h : header) (cid : string) (note : Z) (event : string)
| CQueryRecursiveConfirmed (h : header) (res : list cinfo).
(** aggregator.py:156-1220, the method behind a call *)
Definition call_prog (g : cfg) (c : call) : prog string :=
  match c with
  | CReserve h q => reserve g h q
  | CCommit h cid => reserve_commit g h cid
  | CAbort h cid => reserve_abort g h cid
  | CProvision h cid => provision g h cid
  | CRelease h cid => release g h cid
  | CTerminate h cid => terminate g h cid
  | CQuerySummary h a b => query_summary g h a b
  | CQueryRecursive h a b => query_recursive g h a b
  | CReserveConfirmed h cid a b => reserve_confirmed g h cid a b
  | CReserveFailed h e => reserve_failed g h e
  | CCommitConfirmed h cid => commit_confirmed h cid
  | CAbortConfirmed h cid => abort_confirmed h cid
  | CProvisionConfirmed h cid => provision_confirmed h cid
  | CReleaseConfirmed h cid => release_confirmed h cid
  | CTerminateConfirmed h cid => terminate_confirmed h cid
  | CReserveTimeout h cid n a b => reserve_timeout h cid n a b
  | CDataPlane h cid d => data_plane h cid d
  | CError h a b c => error h a b c
  | CErrorEvent h cid n e => error_event h cid n e
  | CQueryRecursiveConfirmed h r => query_recursive_confirmed g h r
  end.

(** what a program does next: it is over, has raised, or waits (twisted inlineCallbacks; aggregator.py throughout);
    e.g. aggregator.py:461-466 *)
Inductive outcome A := Done (a : A) | Failed (e : err) | Waits (w : wait) (k : ans -> prog A).
Arguments Done {A}. Arguments Failed {A}. Arguments Waits {A}.

(** run to the next suspension.  [prompt]: the database answers at once (and
    successfully), so that waiting for it is no suspension; aggregator.py under twisted inlineCallbacks;
    e.g. aggregator.py:461-466 *)
Fixpoint advance {A} (prompt : bool) (p : prog A) (s : st) : outcome A * st :=
  match p with
  | Ret a => (Done a, s)
  | Throw e => (Failed e, s)
  | Get k => advance prompt (k s) s
  | Do a k => advance prompt k (do_act a s)
  | Await w k =>
      match w, prompt with
      | WDb, true => advance prompt (k AnsOk) s
      | _, _ => (Waits w k, s)
      end
  end.

(** the running aggregator: its state (aggregator.py:64-83) and the suspended calls *)
Record mach := mkMach {
  m_st : st;
  m_tasks : list (nat * (wait * (ans -> prog string)));     (* the suspended calls *)
  m_next : nat;                                             (* the number of calls so far *)
  m_done : list (nat * (string + err));                     (* the answers given *)
  m_log : list call }.                                      (* the calls so far *)

(** twisted inlineCallbacks: the deferred of a finished call is fired, a waiting one is kept (aggregator.py:60-1225) *)
Definition record (i : nat) (r : outcome string * st) (m : mach) : mach :=
  match fst r with
  | Done a => mkMach (snd r) (m_tasks m) (m_next m) (m_done m ++ [(i, inl a)]) (m_log m)
  | Failed e => mkMach (snd r) (m_tasks m) (m_next m) (m_done m ++ [(i, inr e)]) (m_log m)
  | Waits w k => mkMach (snd r) (aset i (w, k) (m_tasks m)) (m_next m) (m_done m) (m_log m)
  end.

(** what happens to the aggregator from outside: calls of INSIProvider and INSIRequester (aggregator.py:156-1225), answers to what it waits for, discovery (fetcher.py:65-122)
    and the end of the process and the start of another (setup.py:208-209) *)
Inductive event :=
| EvCall (c : call)                            (* a call arrives *)
| EvAnswer (i : nat) (a : ans)                 (* what call [i] waits for happens *)
| EvTopology (reg : provreg) (rv : lvec)       (* discovery changes providers and routes *)
| EvRestart (reg : provreg) (rv : lvec).       (* a new process with the same database *)

(** fetcher.py:95-119 changes the registry and the vectors the aggregator was given (aggregator.py:64-72) *)
Definition set_topology reg rv (s : st) : st :=
  mkSt (t_conns s) (t_subs s) (n_key s) (h_conns s) (h_subs s) (n_obj s) (c_conns s) (c_subs s) (resvs s) (qreqs s) (qcalls s) (n_corr s) (n_note s) reg rv (outs s).

(** aggregator.py:64-83 with the database as it was left: what the process knew is gone.  Correlation ids
    are not given again (nsa.py:40-44, uuid1); [outs] is the history of what was sent. *)
Definition restart_st reg rv (s : st) : st :=
  mkSt (t_conns s) (t_subs s) (n_key s) [] [] (n_obj s) [] [] [] [] [] (n_corr s) 0 reg rv (outs s).
(** one event on the aggregator (aggregator.py:60-1225); the reactor runs one thing at a time *)
Definition mstep (g : cfg) (prompt : bool) (m : mach) (e : event) : mach :=
  match e with
  | EvCall c =>
      let m' := mkMach (m_st m) (m_tasks m) (S (m_next m)) (m_done m) (m_log m ++ [c]) in
      record (m_next m) (advance prompt (call_prog g c) (m_st m)) m'
  | EvAnswer i a =>
      match aget i (m_tasks m) with
      | Some (w, k) =>
          if answers w a
          then record i (advance prompt (k a) (m_st m)) (mkMach (m_st m) (adel i (m_tasks m)) (m_next m) (m_done m) (m_log m))
          else m
      | None => m
      end
  | EvTopology reg rv => mkMach (set_topology reg rv (m_st m)) (m_tasks m) (m_next m) (m_done m) (m_log m)
  | EvRestart reg rv => mkMach (restart_st reg rv (m_st m)) [] (m_next m) (m_done m) (m_log m)
  end.
(** a run of the aggregator (aggregator.py:60-1225) *)
Definition mrun (g : cfg) (prompt : bool) (m : mach) (l : list event) : mach := fold_left (mstep g prompt) l m.
(** aggregator.py:64-83, with an empty database *)
Definition init_st (reg : provreg) (rv : lvec) : st := mkSt [] [] 0 [] [] 0 [] [] [] [] [] 0 0 reg rv [].
(** aggregator.py:64-83, before any call *)
Definition minit (reg : provreg) (rv : lvec) : mach := mkMach (init_st reg rv) [] 0 [] [].
