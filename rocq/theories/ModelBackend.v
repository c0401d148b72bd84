(** Model of /repo/opennsa/backends/common/genericbackend.py.

    Every generator method of the class is a program (type [prog]) whose
    suspension points are explicit; the programs are then given two meanings:
    [run], which executes one to its end, and the interleaving machine of
    ModelBackendConc.v.

    Simplifications, for the whole file:
    - the connection table is shared by all backends of an NSA and each query
      filters by network; only the rows of this backend's network are modelled;
    - revision (always 0), description, directionality and symmetry columns are
      left out: they are stored and reported, never inspected;
    - state-change subscribers (state.py:70-97) are left out (they only notify
      the REST front end);
    - log messages are left out;
    - a label read back from the database equals the one stored. *)
From Verif Require Import Base ModelLabel ModelSTP ModelAuthz ModelNRM ModelCalendar ModelState ModelScheduler.
Open Scope Z_scope.

(** * State *)
(** one row of generic_backend_connections (datafiles/schema.sql), and equally
    one in-memory object of class GenericBackendConnections (33-34) *)
Record row := mkRow {
  c_id : string; c_gid : string; c_requester : string;
  c_rtime : Z;                                   (* reserve_time *)
  c_states : states; c_active : bool; c_alloc : bool;
  c_sport : string; c_slabel : option label; c_dport : string; c_dlabel : option label;
  c_start : option Z; c_end : option Z; c_bw : Z }.
(** state.py:109-194: assignment to the state columns *)
Definition set_states (x : states) (r : row) : row :=
  mkRow (c_id r) (c_gid r) (c_requester r) (c_rtime r) x (c_active r) (c_alloc r) (c_sport r) (c_slabel r) (c_dport r) (c_dlabel r) (c_start r) (c_end r) (c_bw r).
(** genericbackend.py:664, 675, 713, 724: [conn.data_plane_active = ...] *)
Definition set_active (b : bool) (r : row) : row :=
  mkRow (c_id r) (c_gid r) (c_requester r) (c_rtime r) (c_states r) b (c_alloc r) (c_sport r) (c_slabel r) (c_dport r) (c_dlabel r) (c_start r) (c_end r) (c_bw r).
(** genericbackend.py:375, [conn.allocated = ...] *)
Definition set_alloc (b : bool) (r : row) : row :=
  mkRow (c_id r) (c_gid r) (c_requester r) (c_rtime r) (c_states r) (c_active r) b (c_sport r) (c_slabel r) (c_dport r) (c_dlabel r) (c_start r) (c_end r) (c_bw r).
(** [conn.reservation_state], state.py:109-147 *)
Definition c_r (r : row) : rstate := st_r (c_states r).
(** [conn.provision_state], state.py:151-169 *)
Definition c_p (r : row) : pstate := st_p (c_states r).
(** [conn.lifecycle_state], state.py:173-194 *)
Definition c_l (r : row) : lstate := st_l (c_states r).

(** methods started without waiting for them: by callWhenRunning (358), as an
    unused deferred (436), or by the scheduler (383, 438, 474, 585, 642, 687);
    [o] is the object the call was given; genericbackend.py:358, 436, 383, 438, 585 *)
Inductive task :=
| TReserve (o : nat) (correlation : string)
| TTimeout (o : nat)
| TActivate (o : nat)
| TEndtime (o : nat).

(** what leaves the backend: messages to the parent requester and commands to
    the device, and the device's answers; genericbackend.py:387, 446, 596, 658, 670, 708, 719 *)
Inductive output :=
| OReserveConfirmed (cid correlation : string)
| OCommitConfirmed (cid : string)
| OAbortConfirmed (cid : string)
| OProvisionConfirmed (cid : string)
| OReleaseConfirmed (cid : string)
| OTerminateConfirmed (cid : string)
| OReserveTimeout (cid : string)
| ODataPlane (cid : string) (active : bool)
| OErrorEvent (cid : string) (event : string)
| OSetup (cid src dst : string)
| OSetupDone (cid : string) (ok : bool)
| OTeardown (cid src dst : string)
| OTeardownDone (cid : string) (ok : bool).

(** genericbackend.py:46-63 and the database (schema.sql, generic_backend_connections) *)
Record st := mkSt {
  db    : list (string * row);         (* the table, by connection id *)
  heap  : list (nat * row);            (* the in-memory objects, numbered *)
  nobj  : nat;
  cal   : calendar;                    (* self.calendar *)
  sch   : sched;                       (* self.scheduler; also the clock *)
  calls : list (nat * task);           (* what each scheduled call is *)
  ready : list task;                   (* started, to run next *)
  outs  : list output }.
(** genericbackend.py, [datetime.datetime.utcnow()]; genericbackend.py:95, 340 *)
Definition now (s : st) : Z := s_now (sch s).
(** genericbackend.py, a write to the table; e.g. genericbackend.py:357 *)
Definition set_db d s := mkSt d (heap s) (nobj s) (cal s) (sch s) (calls s) (ready s) (outs s).
(** genericbackend.py, a change of an object in memory; e.g. genericbackend.py:357 *)
Definition set_heap h s := mkSt (db s) h (nobj s) (cal s) (sch s) (calls s) (ready s) (outs s).
(** genericbackend.py:58, [self.calendar] *)
Definition set_cal c s := mkSt (db s) (heap s) (nobj s) c (sch s) (calls s) (ready s) (outs s).
(** genericbackend.py:57, [self.scheduler] *)
Definition set_sch x s := mkSt (db s) (heap s) (nobj s) (cal s) x (calls s) (ready s) (outs s).
(** genericbackend.py:358, 436, the methods started *)
Definition set_ready x s := mkSt (db s) (heap s) (nobj s) (cal s) (sch s) (calls s) x (outs s).
(** genericbackend.py, assignment to attributes of an object; e.g. genericbackend.py:350-357 *)
Definition put_obj (o : nat) (r : row) (s : st) : st := set_heap (aset o r (heap s)) s.
(** genericbackend.py:176, 350-356, an object made by twistar *)
Definition new_obj (r : row) (s : st) : st :=
  mkSt (db s) (aset (nobj s) r (heap s)) (S (nobj s)) (cal s) (sch s) (calls s) (ready s) (outs s).
(** genericbackend.py, an outgoing call; e.g. genericbackend.py:596 *)
Definition emit (x : output) (s : st) : st :=
  mkSt (db s) (heap s) (nobj s) (cal s) (sch s) (calls s) (ready s) (outs s ++ [x]).
(** genericbackend.py:358, 436, a method started without waiting *)
Definition push (t : task) (s : st) : st := set_ready (ready s ++ [t]) s.

(** * Programs *)
(** what a program may wait for: the database, the device, the parent requester; genericbackend.py throughout;
    e.g. genericbackend.py:89, 357 *)
Inductive wait := WDb | WDevice | WParent.
(** the methods of genericbackend.py as programs: a generator under [defer.inlineCallbacks] runs to its next [yield] without interruption;
    e.g. genericbackend.py:207-359 *)
Inductive prog (A : Type) : Type :=
| Ret (a : A)
| Throw (e : exn)
| Get (k : st -> prog A)
| Upd (f : st -> st) (k : prog A)
| Await (w : wait) (k : option exn -> prog A).   (* [None]: success *)
Arguments Ret {A}. Arguments Throw {A}. Arguments Get {A}. Arguments Upd {A}. Arguments Await {A}.

(** genericbackend.py, sequencing of statements; e.g. genericbackend.py:340-358 *)
Fixpoint bind {A B} (p : prog A) (f : A -> prog B) : prog B :=
  match p with
  | Ret a => f a
  | Throw e => Throw e
  | Get k => Get (fun s => bind (k s) f)
  | Upd g k => Upd g (bind k f)
  | Await w k => Await w (fun o => bind (k o) f)
  end.
(** [try: p except Exception as e: h e]; genericbackend.py:467-471, 620-648, 656-672, 706-720 *)
Fixpoint catch {A} (p : prog A) (h : exn -> prog A) : prog A :=
  match p with
  | Ret a => Ret a
  | Throw e => h e
  | Get k => Get (fun s => catch (k s) h)
  | Upd g k => Upd g (catch k h)
  | Await w k => Await w (fun o => catch (k o) h)
  end.
Notation "x <- p ;; q" := (bind p (fun x => q)) (at level 61, p at next level, right associativity).
Notation "p ;;; q" := (bind p (fun _ => q)) (at level 61, right associativity).

(** genericbackend.py, reading [self] and the database; e.g. genericbackend.py:238-239 *)
Definition get : prog st := Get Ret.
(** genericbackend.py, one statement with an effect; e.g. genericbackend.py:357 *)
Definition upd (f : st -> st) : prog unit := Upd f (Ret tt).
(** [yield d]: the deferred's failure is raised; genericbackend.py throughout; e.g. genericbackend.py:357 *)
Definition await (w : wait) : prog unit := Await w (fun o => match o with None => Ret tt | Some e => Throw e end).
(** genericbackend.py, a computation that may raise; e.g. genericbackend.py:278-281 *)
Definition lift {A} (r : result A) : prog A := match r with Ok a => Ret a | Err e => Throw e end.
(** genericbackend.py, one outgoing call; e.g. genericbackend.py:596 *)
Definition emits (x : output) : prog unit := upd (emit x).

(** * Database objects, genericbackend.py:176, 350 *)
Definition obj (o : nat) : prog row := s <- get ;; match aget o (heap s) with Some r => Ret r | None => Throw EFuel end.
(** genericbackend.py, assignment to attributes of an object; e.g. genericbackend.py:350-357 *)
Definition modify (o : nat) (f : row -> row) : prog unit := r <- obj o ;; upd (put_obj o (f r)).
(** twistar DBObject.save of a stored object: writes every column.  The write
    happens at some time between the call and the firing of the deferred; genericbackend.py:665, 676, 714 and state.py:95 *)
Definition save (o : nat) : prog unit :=
  await WDb ;;; r <- obj o ;; upd (fun s => set_db (aset (c_id r) r (db s)) s) ;;; await WDb.
(** twistar DBObject.save of a new object; the schema (datafiles/schema.sql) has
    connection_id UNIQUE and CHECK (start_time < end_time); datafiles/schema.sql:78-104 *)
Definition span_check (b e : option Z) : bool := match b, e with Some b, Some e => b <? e | _, _ => true end.
(** genericbackend.py:357, [conn.save()] of a new row (schema.sql: connection_id is unique) *)
Definition insert (o : nat) : prog unit :=
  await WDb ;;; r <- obj o ;; s <- get ;;
  (if ahas (c_id r) (db s) || negb (span_check (c_start r) (c_end r)) then Throw EDatabase else upd (fun s => set_db (aset (c_id r) r (db s)) s)) ;;; await WDb.
(** genericbackend.py:89, 176, 350, an object for a row *)
Definition alloc (r : row) : prog nat := s <- get ;; upd (new_obj r) ;;; Ret (nobj s).
(** genericbackend.py:172-179 [_getConnection] *)
Definition get_connection (cid : string) : prog nat :=
  await WDb ;;; s <- get ;;
  match aget cid (db s) with
  | None => await WDb ;;; Throw EConnectionNonExistent
  | Some r => o <- alloc r ;; await WDb ;;; Ret o
  end.
(** a function of state.py: change the object, then save it; state.py:109-195 *)
Definition state_change (x : state_op) (o : nat) : prog unit :=
  r <- obj o ;;
  let '(c, e) := op_mem x (c_states r) in
  upd (put_obj o (set_states c r)) ;;;
  match e with Some e => Throw e | None => save o end.

(** * Scheduler and calendar *)
(** scheduler.py:35-56, remembering what the call is *)
Definition schedule (cid : string) (t : Z) (k : task) : prog unit :=
  s <- get ;;
  match schedule_call cid t (sch s) with
  | Err e => Throw e
  | Ok x => upd (fun s => mkSt (db s) (heap s) (nobj s) (cal s) x (aset (s_next (sch s)) k (calls s)) (ready s) (outs s))
  end.
(** genericbackend.py:381, 433, 465, 498, 625, 744, [self.scheduler.cancelCall(...)], scheduler.py:63-68 *)
Definition cancel (cid : string) : prog unit := upd (fun s => set_sch (cancel_call cid (sch s)) s).
(** genericbackend.py:631-632, 760-761, 768-769, [self.calendar.removeReservation(...)], calendar.py:49-56 *)
Definition remove_reservation (res : string) (b e : option Z) : prog unit :=
  s <- get ;; match cal_remove (cal s) res b e with Ok c => upd (set_cal c) | Err x => Throw x end.
(** genericbackend.py:310-311, 330-331, [self.calendar.addReservation(...)], calendar.py:42-46 *)
Definition add_reservation (res : string) (b e : option Z) : prog unit := upd (fun s => set_cal (cal_add (cal s) res b e) s).

(** * Configuration *)
(** constructor arguments (46-53) and the connection manager's methods; genericbackend.py:46-53 *)
Record cfg := mkCfg {
  network : string;
  nrm_ports : list (string * nrm_port);
  get_resource : string -> option label -> string;
  get_target : string -> option label -> string;
  can_connect : option (string -> string -> option label -> option label -> bool);  (* [None]: no such method *)
  can_swap : option string -> bool;
  min_duration : Z;                                   (* seconds *)
  (** whether cancelling a scheduled call that is running makes the method it runs
      fail at the yield it is waiting in.  So Twisted's cancellable
      inlineCallbacks when the database answers asynchronously; see [do_timeout]. *)
  self_cancel : bool }.
(** genericbackend.py:44, in microseconds *)
Definition TPC_TIMEOUT : Z := 120 * second.

(** the part of the NSI header and request info used; genericbackend.py:182-205 *)
Record hdr := mkHdr { h_requester : string; h_correlation : string; h_sas : list secattr; h_ri : request_info }.

(** genericbackend.py:182-198 [_authorize] *)
Definition authorize (c : cfg) (sp dp : string) (h : hdr) : result unit :=
  match aget sp (nrm_ports c), aget dp (nrm_ports c) with
  | Some p, Some q =>
      if negb (is_authorized (p_authz p) (h_sas h) (h_ri h)) then Err EUnauthorized
      else if negb (is_authorized (p_authz q) (h_sas h) (h_ri h)) then Err EUnauthorized
      else Ok tt
  | _, _ => Err EKey
  end.

(** * reserve, genericbackend.py:207-359 *)
Record resv := mkResv {
  rs_cid : option string;      (* connection_id argument *)
  rs_gid : string;
  rs_p2p : bool;               (* type(criteria.service_def) is Point2PointService *)
  rs_src : stp; rs_dst : stp;
  rs_start : option Z; rs_end : option Z;
  rs_bw : Z;
  rs_new : string }.           (* what createConnectionId would return *)

(** genericbackend.py:265 *)
Definition label_type (l : option label) : option string := option_map ltype l.
(** genericbackend.py:262, [!=] on labels that may be None (nsa.py:187-190) *)
Definition olabel_eqb (a b : option label) : bool :=
  match a, b with None, None => true | Some x, Some y => label_eqb x y | _, _ => false end.
(** genericbackend.py:283 *)
Definition label_enum (l : option label) : list (option label) :=
  match l with None => [None] | Some l => map (fun v => Some (label_of_int (ltype l) v)) (enumerate_values l) end.

(** genericbackend.py:287-296, 298-307: the first label whose resource is free; errors other than
    "unavailable" end the search *)
Fixpoint first_free (now : Z) (c : calendar) (res : option label -> string) (b e : option Z) (ls : list (option label)) : result (option label) :=
  match ls with
  | [] => Err ESTPUnavailable
  | lv :: r =>
      match cal_check now c (res lv) b e with
      | Ok _ => Ok lv
      | Err ESTPUnavailable => first_free now c res b e r
      | Err x => Err x
      end
  end.
(** genericbackend.py:324-338: the first label whose resources on both ports are free *)
Fixpoint first_free2 (now : Z) (c : calendar) (res1 res2 : option label -> string) (b e : option Z) (ls : list (option label)) : result (option label) :=
  match ls with
  | [] => Err ESTPUnavailable
  | lv :: r =>
      match (do! _ <- cal_check now c (res1 lv) b e; cal_check now c (res2 lv) b e) with
      | Ok _ => Ok lv
      | Err ESTPUnavailable => first_free2 now c res1 res2 b e r
      | Err x => Err x
      end
  end.

(** genericbackend.py:285-338, "the find the label value dance": source and destination label *)
Definition pick_labels (g : cfg) (now : Z) (c : calendar) (src dst : stp) (b e : option Z) : result (option label * option label) :=
  if can_swap g (label_type (s_label src)) && can_swap g (label_type (s_label dst)) then
    do! l1 <- first_free now c (get_resource g (s_port src)) b e (label_enum (s_label src));
    do! l2 <- first_free now c (get_resource g (s_port dst)) b e (label_enum (s_label dst));
    Ok (l1, l2)
  else
    do! cand <- match s_label src, s_label dst with
                | None, d => Ok d
                | Some s, None => Ok (Some s)
                | Some s, Some d => match intersect s d with
                                    | Ok l => Ok (Some l)
                                    | Err EEmptyLabelSet => Err EVLANInterchange
                                    | Err x => Err x
                                    end
                end;
    do! l <- first_free2 now c (get_resource g (s_port src)) (get_resource g (s_port dst)) b e (label_enum cand);
    Ok (l, l).

(** genericbackend.py:230-338: everything between the duplicate check and the booking, in order *)
Definition admission (g : cfg) (now : Z) (c : calendar) (h : hdr) (q : resv) : result (option label * option label) :=
  let src := rs_src q in let dst := rs_dst q in
  if negb (eqb (s_network src) (network g)) then Err EConnectionCreate                                  (* 233-234 *)
  else if negb (eqb (s_network dst) (network g)) then Err EConnectionCreate                             (* 235-236 *)
  else match aget (s_port src) (nrm_ports g), aget (s_port dst) (nrm_ports g) with                       (* 239-242 *)
  | None, _ => Err ESTPUnavailable
  | _, None => Err ESTPUnavailable
  | Some p, Some d =>
      if (match rs_start q, rs_end q with
          | Some b, Some e => e - b <? min_duration g * second | _, _ => false end) then Err EConnectionCreate  (* 247-250 *)
      else
        do! _ <- authorize g (s_port src) (s_port dst) h;                                               (* 255 *)
        if p_restricted p && p_restricted d then Err EConnectionCreate                                  (* 258-259 *)
        else if eqb (s_port src) (s_port dst) && olabel_eqb (s_label src) (s_label dst) then Err EService (* 262-263 *)
        else if negb (match can_connect g with                                                          (* 269-274 *)
                      | Some f => f (s_port src) (s_port dst) (s_label src) (s_label dst)
                      | None => eqb (label_type (s_label src)) (label_type (s_label dst)) end) then Err ETopology
        else
          do! m1 <- can_match (p_label p) (s_label src);                                                (* 278-279 *)
          if negb m1 then Err ETopology else
          do! m2 <- can_match (p_label d) (s_label dst);                                                (* 280-281 *)
          if negb m2 then Err ETopology else
          pick_labels g now c src dst (rs_start q) (rs_end q)
  end.

(** genericbackend.py:350-356 *)
Definition new_row (h : hdr) (q : resv) (cid : string) (t : Z) (l1 l2 : option label) : row :=
  mkRow cid (rs_gid q) (h_requester h) t (mkStates RStart PReleased LCreated) false false
        (s_port (rs_src q)) l1 (s_port (rs_dst q)) l2 (rs_start q) (rs_end q) (rs_bw q).

(** genericbackend.py:220-226: a given connection id must not exist *)
Definition check_unused (q : resv) : prog unit :=
  match rs_cid q with
  | Some cid =>
      if eqb cid "" then Ret tt
      else fresh <- catch (get_connection cid ;;; Ret false)
                          (fun e => match e with EConnectionNonExistent => Ret true | _ => Throw e end) ;;
           if fresh then Ret tt else Throw EValue
  | None => Ret tt
  end.

(** genericbackend.py:207-359 [reserve] *)
Definition reserve (g : cfg) (h : hdr) (q : resv) : prog string :=
  if negb (rs_p2p q) then Throw EValue                                     (* 214-215 *)
  else
  check_unused q ;;;
  s <- get ;;
  ll <- lift (admission g (now s) (cal s) h q) ;;
  let '(l1, l2) := ll in
  add_reservation (get_resource g (s_port (rs_src q)) l1) (rs_start q) (rs_end q) ;;;   (* 310-311, 330-331 *)
  add_reservation (get_resource g (s_port (rs_dst q)) l2) (rs_start q) (rs_end q) ;;;
  let cid := match rs_cid q with Some c => c | None => rs_new q end in    (* 344-345 *)
  o <- alloc (new_row h q cid (now s) l1 l2) ;;                            (* 350-356 *)
  insert o ;;;
  upd (push (TReserve o (h_correlation h))) ;;;                            (* 358 *)
  Ret cid.

(** genericbackend.py:570-596 [_doReserve] *)
Definition do_reserve (o : nat) (correlation : string) : prog unit :=
  state_change (OpReserveMulti [RChecking; RHeld]) o ;;;
  r <- obj o ;;
  s <- get ;;
  (if has_scheduled_call (c_id r) (sch s) then cancel (c_id r) else Ret tt) ;;;
  let abort := now s + TPC_TIMEOUT in
  schedule (c_id r) (match c_end r with Some e => Z.min abort e | None => abort end) (TTimeout o) ;;;
  emits (OReserveConfirmed (c_id r) correlation) ;;; await WParent.

(** genericbackend.py:700-735 [_doTeardown] *)
Definition do_teardown (g : cfg) (o : nat) : prog unit :=
  r <- obj o ;;
  emits (OTeardown (c_id r) (get_target g (c_sport r) (c_slabel r)) (get_target g (c_dport r) (c_dlabel r))) ;;;
  Await WDevice (fun res =>
    emits (OTeardownDone (c_id r) (match res with None => true | Some _ => false end)) ;;;
    modify o (set_active false) ;;;
    match res with
    | Some _ => save o ;;; emits (OErrorEvent (c_id r) "deactivateFailed")          (* 708-721 *)
    | None => catch (save o ;;; emits (ODataPlane (c_id r) false)) (fun _ => Ret tt)  (* 723-735 *)
    end).

(** removal of both entries, e.g. 628-632; genericbackend.py:628-632 *)
Definition remove_both (g : cfg) (r : row) : prog unit :=
  remove_reservation (get_resource g (c_sport r) (c_slabel r)) (c_start r) (c_end r) ;;;
  remove_reservation (get_resource g (c_dport r) (c_dlabel r)) (c_start r) (c_end r).

(** genericbackend.py:751-769 [_doFreeResource] *)
Definition do_free (g : cfg) (o : nat) : prog unit :=
  r <- obj o ;;
  if c_active r then do_teardown g o ;;; r' <- obj o ;; remove_both g r'
  else if c_alloc r || eqb (c_r r) RHeld then remove_both g r
  else Ret tt.

(** genericbackend.py:738-748 [_doEndtime] *)
Definition do_endtime (g : cfg) (o : nat) : prog unit :=
  r <- obj o ;;
  if negb (eqb (c_l r) LCreated) then Throw EInvalidTransition
  else cancel (c_id r) ;;; state_change OpPassedEndtime o ;;; do_free g o.

(** genericbackend.py:618-648 [_doReserveRollback]: all exceptions are swallowed *)
Definition do_rollback (g : cfg) (o : nat) : prog unit :=
  catch (
    state_change OpReserveAbort o ;;;
    r <- obj o ;;
    cancel (c_id r) ;;;
    remove_both g r ;;;
    state_change OpReserved o ;;;
    r <- obj o ;;
    s <- get ;;
    match c_end r with
    | Some e => if now s >? e then do_endtime g o else schedule (c_id r) e (TEndtime o)
    | None => Ret tt
    end) (fun _ => Ret tt).

(** genericbackend.py:599-615 [_doReserveTimeout]: all exceptions are swallowed.  It runs as a
    scheduled call, and the rollback cancels the connection's scheduled call,
    that is, this very call; with [self_cancel] the yield on the rollback
    (606) then fails while the rollback itself goes on. *)
Definition do_timeout (g : cfg) (o : nat) : prog unit :=
  catch (
    state_change OpReserveTimeout o ;;;
    do_rollback g o ;;;
    (if self_cancel g then Throw EAttribute else Ret tt) ;;;
    r <- obj o ;;
    emits (OReserveTimeout (c_id r))) (fun _ => Ret tt).

(** genericbackend.py:651-697 [_doActivate] *)
Definition do_activate (g : cfg) (o : nat) : prog unit :=
  r <- obj o ;;
  emits (OSetup (c_id r) (get_target g (c_sport r) (c_slabel r)) (get_target g (c_dport r) (c_dlabel r))) ;;;
  Await WDevice (fun res =>
    emits (OSetupDone (c_id r) (match res with None => true | Some _ => false end)) ;;;
    match res with
    | Some _ => modify o (set_active false) ;;; save o ;;; emits (OErrorEvent (c_id r) "activateFailed")
    | None =>
        catch (
          modify o (set_active true) ;;; save o ;;;
          s <- get ;;
          match c_end r with
          | Some e => schedule (c_id r) (if e <? now s then now s else e) (TEndtime o)
          | None => Ret tt
          end ;;;
          emits (ODataPlane (c_id r) true)) (fun _ => Ret tt)
    end).

(** common beginning of the requests on a connection, e.g. 366-370; authorization
    comes before the lifecycle check; genericbackend.py:366-371 *)
Definition gone (l : lstate) : bool := match l with LTerminating | LTerminated => true | _ => false end.
(** genericbackend.py:367-371, 397-401, 414-424, 456-460 *)
Definition open_connection (g : cfg) (h : hdr) (cid : string) : prog nat :=
  o <- get_connection cid ;;
  r <- obj o ;;
  lift (authorize g (c_sport r) (c_dport r) h) ;;;
  Ret o.

(** genericbackend.py:362-389 *)
Definition reserve_commit (g : cfg) (h : hdr) (cid : string) : prog string :=
  o <- open_connection g h cid ;;
  r <- obj o ;;
  if gone (c_l r) then Throw EConnectionGone
  else
  modify o (set_alloc true) ;;;
  state_change (OpReserveMulti [RCommitting; RStart]) o ;;;
  cancel cid ;;;
  (match c_end r with Some e => schedule cid e (TEndtime o) | None => Ret tt end) ;;;
  emits (OCommitConfirmed cid) ;;; await WParent ;;;
  Ret cid.

(** genericbackend.py:392-406 *)
Definition reserve_abort (g : cfg) (h : hdr) (cid : string) : prog string :=
  o <- open_connection g h cid ;;
  r <- obj o ;;
  if gone (c_l r) then Throw EConnectionGone
  else do_rollback g o ;;; emits (OAbortConfirmed cid) ;;; Ret cid.

(** genericbackend.py:409-448; an immediate activation (436) is started without waiting for it.
    Simplification: the code enters [_doActivate] at once and returns from it at
    its first yield; here it is queued and starts at the next chance. *)
Definition provision (g : cfg) (h : hdr) (cid : string) : prog string :=
  o <- open_connection g h cid ;;
  r <- obj o ;;
  if negb (c_alloc r) then Throw EConnection
  else if gone (c_l r) then Throw EConnectionGone
  else if negb (eqb (c_r r) RStart) then Throw EInvalidTransition
  else
  s <- get ;;
  if (match c_end r with Some e => e <=? now s | None => false end) then Throw EConnectionGone
  else
  state_change OpProvisioning o ;;;
  cancel cid ;;;
  (if (match c_start r with Some b => b <=? now s | None => true end) then upd (push (TActivate o))
   else match c_start r with Some b => schedule cid b (TActivate o) | None => Ret tt end) ;;;
  state_change OpProvisioned o ;;;
  emits (OProvisionConfirmed cid) ;;;
  Ret cid.

(** genericbackend.py:451-483; [_doTeardown] in 467-471 has its exceptions swallowed *)
Definition release (g : cfg) (h : hdr) (cid : string) : prog string :=
  o <- open_connection g h cid ;;
  r <- obj o ;;
  if gone (c_l r) then Throw EConnectionGone
  else
  state_change OpReleasing o ;;;
  cancel cid ;;;
  r <- obj o ;;
  (if c_active r then catch (do_teardown g o) (fun _ => Ret tt) else Ret tt) ;;;
  (match c_end r with Some e => schedule cid e (TEndtime o) | None => Ret tt end) ;;;
  state_change OpReleased o ;;;
  emits (OReleaseConfirmed cid) ;;;
  Ret cid.

(** genericbackend.py:486-516; for a terminated connection [conn.cid] is not an attribute (496) *)
Definition terminate (g : cfg) (h : hdr) (cid : string) : prog string :=
  o <- open_connection g h cid ;;
  r <- obj o ;;
  if eqb (c_l r) LTerminated then Throw EAttribute
  else
  cancel cid ;;;
  let free := negb (eqb (c_l r) LPassedEnd) in
  state_change OpTerminating o ;;;
  (if free then do_free g o else Ret tt) ;;;
  emits (OTerminateConfirmed cid) ;;; await WParent ;;;
  state_change OpTerminated o ;;;
  Ret cid.

(** the program of a task; genericbackend.py:570-769 *)
Definition task_prog (g : cfg) (t : task) : prog unit :=
  match t with
  | TReserve o corr => do_reserve o corr
  | TTimeout o => do_timeout g o
  | TActivate o => do_activate g o
  | TEndtime o => do_endtime g o
  end.

(** * buildSchedule, genericbackend.py:85-168 *)
(** one turn of the loop (90-165); genericbackend.py:90-165 *)
Definition restore_one (g : cfg) (o : nat) : prog unit :=
  r <- obj o ;;
  s <- get ;;
  if has_scheduled_call (c_id r) (sch s) then Ret tt                                    (* 92-93 *)
  else if (match c_l r with LPassedEnd | LTerminated => true | _ => false end) then Ret tt   (* 97-98 *)
  else if eqb (c_r r) RStart && negb (c_alloc r) then Ret tt                            (* 100-103 *)
  else
  add_reservation (get_resource g (c_sport r) (c_slabel r)) (c_start r) (c_end r) ;;;   (* 106-109 *)
  add_reservation (get_resource g (c_dport r) (c_dlabel r)) (c_start r) (c_end r) ;;;
  if (match c_end r with Some e => e <? now s | None => false end) then do_endtime g o  (* 111-114 *)
  else if eqb (c_r r) RHeld then                                                        (* 116-126 *)
    let abort := c_rtime r + TPC_TIMEOUT in
    let t := match c_end r with Some e => Z.min abort e | None => abort end in
    if t <? now s then do_rollback g o else schedule (c_id r) t (TTimeout o)
  else if (match c_start r with Some b => b <? now s | None => true end) then           (* 128-150 *)
    match c_p r with
    | PProvisioned =>
        if c_active r then match c_end r with Some e => schedule (c_id r) e (TEndtime o) | None => Ret tt end
        else do_activate g o
    | PReleased => match c_end r with Some e => schedule (c_id r) e (TEndtime o) | None => Ret tt end
    | _ => Ret tt
    end
  else if (match c_start r with Some b => b >? now s | None => false end) then          (* 152-162 *)
    if eqb (c_p r) PProvisioned && negb (c_active r) then
      (match c_start r with Some b => schedule (c_id r) b (TActivate o) | None => Ret tt end) ;;;
      (match c_end r with Some _ => Ret tt | None => Throw EAttribute end)              (* 156: conn.end_time.replace *)
    else if eqb (c_p r) PReleased then
      match c_end r with Some e => schedule (c_id r) e (TEndtime o) | None => Throw EType end  (* scheduler.py:48 compares with None *)
    else Ret tt
  else Ret tt.

(** genericbackend.py:90-165, all rows *)
Fixpoint restore_loop (g : cfg) (os : list nat) : prog unit :=
  match os with [] => Ret tt | o :: r => restore_one g o ;;; restore_loop g r end.
(** genericbackend.py:89, the objects twistar makes for the rows *)
Fixpoint alloc_all (rs : list row) : prog (list nat) :=
  match rs with [] => Ret [] | r :: rest => o <- alloc r ;; os <- alloc_all rest ;; Ret (o :: os) end.
(** genericbackend.py:85-170 [buildSchedule] *)
Definition build_schedule (g : cfg) : prog unit :=
  await WDb ;;;
  s <- get ;;
  os <- alloc_all (filter (fun r => negb (eqb (c_l r) LTerminated)) (map snd (db s))) ;;
  await WDb ;;;
  restore_loop g os.

(** * Running a program to its end (genericbackend.py: the clock of datetime.utcnow);
    genericbackend.py:95, 340 *)
Definition tick (dt : Z) (s : st) : st :=
  set_sch (mkSched (s_now (sch s) + Z.max 0 dt) (s_next (sch s)) (s_dict (sch s)) (s_queue (sch s)) (s_running (sch s)) (s_trace (sch s))) s.

(** [env] answers the waits in order: the device's answer (ignored for the
    database and the parent, which succeed) and the time it took *)
Notation env := (list (option exn * Z)).
(** the sequence of what the outside (device, requester, clock) does (genericbackend.py: every [yield]);
    e.g. genericbackend.py:357 *)
Definition next_env (e : env) : (option exn * Z) * env := match e with [] => ((None, 0), []) | x :: r => (x, r) end.
(** what a [yield] of genericbackend.py gets from the outside; e.g. genericbackend.py:357 *)
Definition answer (w : wait) (x : option exn) : option exn := match w with WDevice => x | _ => None end.

(** a method of genericbackend.py run to its end, with the answers of the outside;
    e.g. genericbackend.py:207-359 *)
Fixpoint run {A} (p : prog A) (e : env) (s : st) : result A * st * env :=
  match p with
  | Ret a => (Ok a, s, e)
  | Throw x => (Err x, s, e)
  | Get k => run (k s) e s
  | Upd f k => run k e (f s)
  | Await w k => let '((x, dt), e') := next_env e in run (k (answer w x)) e' (tick dt s)
  end.

(** the tasks started by it, in order; genericbackend.py:358, 436 *)
Fixpoint run_tasks (g : cfg) (ts : list task) (e : env) (s : st) : st * env :=
  match ts with
  | [] => (s, e)
  | t :: r => let '(_, s', e') := run (task_prog g t) e s in run_tasks g r e' s'
  end.
(** a method call with everything it started; what [ready] holds afterwards was
    started by the tasks themselves (none does); genericbackend.py:207-516 *)
Definition run_op {A} (g : cfg) (p : prog A) (e : env) (s : st) : result A * st :=
  let '(r, s1, e1) := run p e s in
  let '(s2, _) := run_tasks g (ready s1) e1 (set_ready [] s1) in
  (r, s2).

(** the calls on the backend: genericbackend.py:207-516, a timer firing (scheduler.py:53-56), a restart *)
Inductive op :=
| Reserve (h : hdr) (q : resv)
| Commit (h : hdr) (cid : string)
| Abort (h : hdr) (cid : string)
| Provision (h : hdr) (cid : string)
| Release (h : hdr) (cid : string)
| Terminate (h : hdr) (cid : string)
| Fire (id : nat)          (* the reactor starts a scheduled call *)
| Tick (dt : Z)
| Restart.

(** a new process: empty calendar and scheduler, no objects; the table and the
    clock stay; genericbackend.py:46-63 *)
Definition reboot (s : st) : st := mkSt (db s) [] 0 [] (sched_init (now s)) [] [] (outs s).

(** genericbackend.py:207-516, the method behind a call *)
Definition op_prog (g : cfg) (o : op) : prog string :=
  match o with
  | Reserve h q => reserve g h q
  | Commit h cid => reserve_commit g h cid
  | Abort h cid => reserve_abort g h cid
  | Provision h cid => provision g h cid
  | Release h cid => release g h cid
  | Terminate h cid => terminate g h cid
  | Fire _ | Tick _ | Restart => Ret ""
  end.

(** one operation, completed before the next one starts; genericbackend.py:207-516 *)
Definition serial_step (g : cfg) (s : st) (oe : op * env) : result string * st :=
  let '(o, e) := oe in
  match o with
  | Tick dt => (Ok "", tick dt s)
  | Restart => let '(r, s') := run_op g (build_schedule g) e (reboot s) in ((do! _ <- r; Ok ""), s')
  | Fire id =>
      match aget id (s_queue (sch s)), aget id (calls s) with
      | Some due, Some t =>
          if due <=? now s then
            let '(r, s') := run_op g (task_prog g t) e (set_sch (sched_step (sch s) (SFire id)) s) in
            ((do! _ <- r; Ok ""), set_sch (sched_step (sch s') (SFinish id)) s')
          else (Ok "", s)
      | _, _ => (Ok "", s)
      end
  | _ => run_op g (op_prog g o) e s
  end.
(** a run of the backend (genericbackend.py:44-769), one operation at a time *)
Definition serial_run (g : cfg) (s : st) (l : list (op * env)) : st := fold_left (fun s oe => snd (serial_step g s oe)) l s.
(** genericbackend.py:46-63, a new backend with an empty table *)
Definition start (t : Z) : st := mkSt [] [] 0 [] (sched_init t) [] [] [].
