(** What the properties of overlapping operations talk about (C34, C36). *)
From Verif Require Import Base ModelLabel ModelSTP ModelAuthz ModelNRM ModelCalendar ModelState ModelScheduler ModelBackend ModelBackendConc SpecBackend.
Open Scope Z_scope.

(** the connection id a reservation request asks for or is given *)
Definition resv_id (q : resv) : string := match rs_cid q with Some c => c | None => rs_new q end.
(** the connection a request is about *)
Definition op_id (o : op) : option string :=
  match o with
  | Reserve _ q => Some (resv_id q)
  | Commit _ k | Abort _ k | Provision _ k | Release _ k | Terminate _ k => Some k
  | Fire _ | Tick _ | Restart => None
  end.
(** the object a method runs on belongs to connection [cid] *)
Definition of_conn (cid : string) (s : st) (t : task) : Prop :=
  exists r, aget (match t with TReserve o _ | TTimeout o | TActivate o | TEndtime o => o end) (heap s) = Some r /\ c_id r = cid.
(** a suspended method is about connection [cid]; the one run at a restart is
    about all *)
Definition about (cid : string) (s : st) (from : origin) : Prop :=
  match from with
  | FromCall o => op_id o = Some cid
  | FromTask t _ => of_conn cid s t
  | FromRestart => True
  end.
(** nothing is going on for connection [cid]: no suspended method, nothing
    started, no scheduled call *)
Definition settled (cid : string) (m : mach) : Prop :=
  (forall i from w, In (i, (from, w)) (m_tasks m) -> ~ about cid (m_st m) from) /\
  (forall t, In t (ready (m_st m)) -> ~ of_conn cid (m_st m) t) /\
  (forall id t, aget id (calls (m_st m)) = Some t -> ahas id (s_queue (sch (m_st m))) = true -> ~ of_conn cid (m_st m) t).
(** the connection an output is about *)
Definition conn_of (x : output) : string :=
  match x with
  | OReserveConfirmed k _ | OCommitConfirmed k | OAbortConfirmed k | OProvisionConfirmed k | OReleaseConfirmed k
  | OTerminateConfirmed k | OReserveTimeout k | ODataPlane k _ | OErrorEvent k _ | OSetup k _ _ | OSetupDone k _
  | OTeardown k _ _ | OTeardownDone k _ => k
  end.

(** * Why a link may be set up (C34) *)
(** an acceptable reservation (C29) was asked for, between these ports, for which these labels may be chosen *)
Definition reserved (g : cfg) (L : list (Z * op)) (cid sp : string) (sl : option label) (dp : string) (dl : option label) (en : option Z) : Prop :=
  exists t h q, In (t, Reserve h q) L /\ cid = resv_id q /\ sp = s_port (rs_src q) /\ dp = s_port (rs_dst q) /\ en = rs_end q /\
    (wf_ports g -> wf_olabel (s_label (rs_src q)) -> wf_olabel (s_label (rs_dst q)) ->
     label_choice g (rs_src q) (rs_dst q) sl dl /\ exists p d, acceptable g h q p d).
(** a reservation [cid] was asked for with this correlation id *)
Definition asked_for (L : list (Z * op)) (cid corr : string) : Prop :=
  exists t h q, In (t, Reserve h q) L /\ cid = resv_id q /\ h_correlation h = corr.
Definition committed (g : cfg) (L : list (Z * op)) (cid sp dp : string) : Prop :=
  exists t h, In (t, Commit h cid) L /\ authorize g sp dp h = Ok tt.
Definition provisioned (g : cfg) (L : list (Z * op)) (cid sp dp : string) (en : option Z) : Prop :=
  exists t h, In (t, Provision h cid) L /\ authorize g sp dp h = Ok tt /\ forall e, en = Some e -> t < e.

(** * One method among others (C34) *)
(** [among P own p s u r]: run from [s], the method [p] makes the changes [u] to the
    state (before and after each) and ends with [r].  At every wait the others
    may change the state to any one satisfying [P], except that the objects the
    method has made and not passed on ([own]) are its own. *)
Definition made (s s' : st) : list nat := seq (nobj s) (nobj s' - nobj s).
Inductive among {A} (P : st -> Prop) : list nat -> prog A -> st -> list (st * st) -> result A -> Prop :=
| among_ret own a s : among P own (Ret a) s [] (Ok a)
| among_throw own e s : among P own (Throw e) s [] (Err e)
| among_get own k s u r : among P own (k s) s u r -> among P own (Get k) s u r
| among_upd own f k s u r : among P (own ++ made s (f s)) k (f s) u r -> among P own (Upd f k) s ((s, f s) :: u) r
| among_wait own w k s x s' u r : P s' -> (forall o, In o own -> aget o (heap s') = aget o (heap s)) ->
    among P own (k x) s' u r -> among P own (Await w k) s u r.
(** apart from objects in memory nothing is different *)
Definition quiet (s s' : st) : Prop :=
  db s' = db s /\ cal s' = cal s /\ sch s' = sch s /\ calls s' = calls s /\ ready s' = ready s /\ outs s' = outs s.
(** a request by [h] on connection [cid] *)
Definition aimed (o : op) (h : hdr) (cid : string) : Prop :=
  o = Commit h cid \/ o = Abort h cid \/ o = Provision h cid \/ o = Release h cid \/ o = Terminate h cid.
(** to be refused: unknown, not authorized, or terminated *)
Definition refusable (g : cfg) (o : op) (h : hdr) (cid : string) (s : st) : Prop :=
  forall r, aget cid (db s) = Some r ->
    authorize g (c_sport r) (c_dport r) h <> Ok tt \/ c_l r = LTerminated \/ (c_l r = LTerminating /\ o <> Terminate h cid).
